(** GENERATED by tools/gen_fonts.py from /repo/src/fonts/hanzi.rs -- do not edit.
    DATA (src/fonts/hanzi.rs:17024-67287), words 143360 to 215039. *)
From Verif Require Import Prim FontDefs.

Definition hanzi_data_280 : list N :=
  [0x1fd57f0; 0x3effefe; 0x385551c; 0x0; 0x1fffff8; 0x1fffff8; 0x1c6380; 0x3861c0;
   0x7060f0; 0xe07c38; 0x557d50; 0x7fffe0; 0x757560; 0x606060; 0x7fffe0; 0x7fffe0;
   0x606060; 0x606060; 0x7fffe0; 0x7fffe0; 0x600060; 0x0; 0x0; 0x0;
   0x0; 0x202000; 0x0; 0x0; 0x0; 0x60000; 0x60000; 0x607fc;
   0x3fffff8; 0x3fffe5c; 0x30648; 0x157565c; 0x1fff648; 0x157565c; 0x38648; 0x7fffffc;
   0x3fffff8; 0x555d65c; 0xe0c648; 0x1f5c65c; 0x3ffe648; 0x3ffe65c; 0xe16648; 0xe3f7fc;
   0xe73ff8; 0xee1c1c; 0xe40e08; 0xe00400; 0xfc0000; 0x7c0000; 0x0; 0x0;
   0x0; 0x0; 0x202000; 0x0; 0x0; 0x0; 0xc0000; 0xc0000;
   0x3fff7fc; 0x3fff7f8; 0x15f56dc; 0x1e06c8; 0x7f06dc; 0xf386c8; 0x3c1f6dc; 0x18036c8;
   0x7fffffc; 0x3fffff8; 0x1c006dc; 0x18006c8; 0x1dfe6dc; 0x18ae6c8; 0x1dc66dc; 0x18866c8;
   0x1dfe7fc; 0x18fe7f8; 0x1c0601c; 0x1806008; 0x1c00004; 0xf80000; 0xf80000; 0x0;
   0x0; 0x0; 0x0; 0x202000; 0x0; 0x0; 0x0; 0x60000;
   0xe0000; 0x15d57fc; 0x3fffff8; 0x3fffecc; 0x3003ec8; 0x3007ecc; 0x2006ec8; 0x3f966cc;
   0x3fbe6c8; 0x39f77fc; 0x39b37f8; 0x39b3ecc; 0x39b1ec8; 0x39b7ecc; 0x39beec8; 0x3d9c6cc;
   0x1f986c8; 0x59c7fc; 0x18c7f8; 0x618e00c; 0x2187008; 0x7183804; 0x3f81c00; 0x1f00800;
   0x0; 0x0; 0x0; 0x0; 0x202000; 0x0; 0x0; 0x0;
   0x107000; 0x1860c0; 0x9c70e0; 0x18e6e60; 0xf76770; 0x7f63f8; 0xfd65f8; 0x19c66e0;
   0x1fe6c70; 0x3ffeff8; 0x33ff9f8; 0x70c000; 0x3fffffc; 0x3fffffc; 0x61c000; 0x619ff8;
   0x719dd8; 0x3b9998; 0x1f1ff8; 0x20f1ff8; 0x70f1998; 0x30f9998; 0x33fdff8; 0x3f8fab8;
   0x1f07000; 0x0; 0x0; 0x0; 0x0; 0x202000; 0x0; 0x0;
   0x0; 0x0; 0x1fbf800; 0x1fffbfc; 0x18303f8; 0x19b736c; 0x1b36368; 0x1e3c36c;
   0x1e3e368; 0x1ff736c; 0x18f3368; 0x18e03fc; 0xf03f8; 0x7bc36c; 0xf0e368; 0x7cc7f6c;
   0x3873b68; 0x33c36c; 0x38e368; 0x1de03fc; 0xe783f8; 0x71e00c; 0x3c0008; 0x1f8000;
   0x3f000; 0x7000; 0x0; 0x0; 0x0; 0x0; 0x202000; 0x0;
   0x0; 0x0; 0x60000; 0xe0000; 0x15d57fc; 0x3fff7fc; 0x175d64c; 0x60c64c;
   0x71c64c; 0x3fffe4c; 0x7fffe4c; 0x64c; 0x1fff7fc; 0x1fff7fc; 0x18e764c; 0x1fff64c;
   0x1fff64c; 0x18e364c; 0x1fff64c; 0x1fff64c; 0xe07fc; 0x1fff7fc; 0x1fff55c; 0xe000c;
   0x7fff804; 0x3fff800; 0x0; 0x0; 0x0; 0x0; 0x0; 0x202000;
   0x0; 0x0; 0x0; 0x0; 0x3fffbfc; 0x3fffffc; 0x300; 0x1ffe700;
   0xcc6300; 0x1ffe7f8; 0xffe3f8; 0x1cc601c; 0xffe018; 0x1ffe01c; 0x2aaaffc; 0x3fffffc;
   0x620; 0x1fff730; 0x1ffe6fc; 0x1cc77fc; 0x1ffe330; 0x1fff730; 0x18c23fa; 0x1fff37c;
   0xaaa300; 0x7ffffd0; 0x3fffff0; 0x1f0; 0x0; 0x0; 0x0; 0x0;
   0x202000; 0x0; 0x0; 0x0; 0x0; 0x0; 0x1fffff8; 0x1fffff8;
   0x1d57550; 0xc06000; 0xe06000; 0x606000; 0x706000; 0x2060c0; 0x61c0; 0xaae0c0;
   0xffe0c0; 0xffe0c0; 0x60c0; 0x60e0; 0x61e0; 0x61e0; 0x63f0; 0x6770;
   0x6f30; 0x7e38; 0x7fffc1c; 0x3ffe00c; 0xc; 0x0; 0x0; 0x0;
   0x0; 0x202000; 0x0; 0x0; 0x0; 0x0; 0x1fffff8; 0x1fffffc;
   0x1806000; 0x1c061c0; 0xffe0c0; 0x3fe1c0; 0x63e0; 0x7f70; 0x3fffe70; 0x3fff03c;
   0x1c; 0x7fffc0; 0x3fffc0; 0x7000c0; 0x3000c0; 0x7fffc0; 0x3000c0; 0x7000c0;
   0x3fffc0; 0x7fffc0; 0x0; 0x3fffffc; 0x3fffffc; 0x0; 0x0; 0x0;
   0x0; 0x0; 0x202000; 0x0; 0x0; 0x0; 0xe0000; 0xc0000;
   0x1c1ffc; 0x3fffffc; 0x3fff700; 0x60380; 0x7701c0; 0xe38080; 0x1c1c1d8; 0x1fee098;
   0x3fff1d8; 0x302ef98; 0x1644fd8; 0x6ec098; 0x6ec1d8; 0x6ec098; 0x6ec1d8; 0x6ec898;
   0x6ecfd8; 0x6eeff8; 0x66e61fe; 0x26e703e; 0x66e3804; 0x3ee1c00; 0x1c01800; 0x0;
   0x0; 0x0; 0x0; 0x202000; 0x0; 0x0; 0x0; 0x6000;
   0x6000; 0x1fffff8; 0x1fffff8; 0x6000; 0x3fffff8; 0x3fffffc; 0x3800018; 0x3ffffdc;
   0x3060c0; 0x7575c0; 0x3fffc0; 0x7060c0; 0x3fffc0; 0x7fffc0; 0x0; 0x3fffffc;
   0x3aaeaa8; 0x1806180; 0x1ffe1c0; 0x7fe3c0; 0x6fe0; 0x7fffe78; 0x3fff83c; 0x155401c;
   0x0; 0x0; 0x0; 0x0; 0x202000; 0x0; 0x0; 0x0;
   0x18; 0x3ffe418; 0x1ffff98; 0xc003f8; 0xf10078; 0x3f9818; 0x1f1818; 0x381ff8;
   0x701ff0; 0x2aaa030; 0x3ffe030; 0x3aaaff8; 0x19c1ff8; 0x188819c; 0x11dc1cc; 0x8c188;
   0x3fddffc; 0x3f8dffc; 0x1dc1c0; 0x9c3c0; 0x1fe7e0; 0xb6e60; 0x15e7c78; 0x3fc383c;
   0x3f0300c; 0x0; 0x0; 0x0; 0x0; 0x202000; 0x0; 0x0;
   0x0; 0x1c000; 0x18000; 0x38000; 0x3ffffc0; 0x3ffffc0; 0xcc; 0x1dc;
   0xd8; 0x1f0; 0xf0; 0x1d0; 0xc0; 0x1e0; 0xf8; 0x1fc;
   0xcc; 0xc4; 0xe0; 0xe0; 0x60; 0x70; 0x38; 0x3c;
   0x1c; 0x8; 0x0; 0x0; 0x0; 0x0; 0x202000; 0x0;
   0x0; 0x0; 0x1c000; 0x38000; 0x38000; 0x3ffffc0; 0x7ffffc0; 0x2aaaac8;
   0xcc; 0xdc; 0xd8; 0x3fffef8; 0x3fffed0; 0x600c0; 0x600c0; 0x600c0;
   0x600f0; 0x600f8; 0x600de; 0x600ec; 0x60060; 0x60060; 0x60070; 0x60030;
   0x75038; 0x7e01c; 0x7e018; 0x0; 0x0; 0x0; 0x0; 0x202000;
   0x0; 0x0; 0x0; 0xc000; 0xc000; 0x1c000; 0x3ffffc0; 0x3ffffc0;
   0x2aaaac8; 0xcc; 0xd8; 0x1fffcd8; 0xfffef8; 0x1fffef0; 0xc0e0c0; 0x1c0e0c0;
   0xc0e0c0; 0x1c0e0f0; 0xc0e0fc; 0x1c0e0dc; 0xc0e0e4; 0x1c0e0e0; 0xfce060; 0x7ce070].
Definition hanzi_data_281 : list N :=
  [0xe030; 0xe038; 0xe01c; 0xe018; 0x0; 0x0; 0x0; 0x0;
   0x202000; 0x0; 0x0; 0x0; 0x1c000; 0x18000; 0x18000; 0x3ffffc0;
   0x7ffffc0; 0x2aaaac8; 0xcc; 0xdc; 0x1fffed8; 0x3fffef8; 0x1f554d0; 0x7800c0;
   0x3c00c0; 0xf00e0; 0x700fc; 0x300fe; 0x700ec; 0x300e0; 0x70060; 0x30060;
   0x70070; 0x30038; 0x7003c; 0x3f01c; 0x1f008; 0x0; 0x0; 0x0;
   0x0; 0x202000; 0x0; 0x0; 0x0; 0x1c000; 0x38000; 0x38000;
   0x3ffffc0; 0x3ffffc0; 0x30c8; 0x30cc; 0x38cc; 0x3fff8d8; 0x3fffcf8; 0xcd0;
   0xec0; 0x3fffc0; 0x7ffae0; 0x3ff8f0; 0xf00fe; 0x7c0fe; 0x1e060; 0x1007060;
   0x3003860; 0x3001c70; 0x3000c38; 0x3fffc3c; 0x3fffc1c; 0x1fff008; 0x0; 0x0;
   0x0; 0x0; 0x202000; 0x0; 0x0; 0x0; 0x1c000; 0x1c000;
   0x18000; 0x3ffffc0; 0x3ffffc0; 0xc8; 0xc0cc; 0xe0dc; 0x1560d8; 0x3fe0f8;
   0x3ff0d0; 0x1838c0; 0x1c1cc0; 0xc1ce0; 0xe0ff8; 0xe04fc; 0x1f00fc; 0x1b80e4;
   0x3bc060; 0x31e060; 0x70f070; 0xe07830; 0x3c03e38; 0x3800f3c; 0x1000618; 0x0;
   0x0; 0x0; 0x0; 0x202000; 0x0; 0x0; 0x0; 0x1c000;
   0x1c000; 0x18000; 0x3ffffc0; 0x7ffffc0; 0xcc; 0x100cc; 0x300dc; 0x300d8;
   0x300f8; 0x1c30cd0; 0x1830cc0; 0x1c30cc0; 0x1830ce0; 0x1c30cf0; 0x1830cfe; 0x1c30cfc;
   0x1830ce0; 0x1c30c60; 0x1830c60; 0x1c30c70; 0x1a30c30; 0x1fffc38; 0x1bffc1c; 0x1c00010;
   0x0; 0x0; 0x0; 0x0; 0x202000; 0x0; 0x0; 0x0;
   0xc000; 0x1c000; 0x1c000; 0x3ffffc0; 0x3ffffc0; 0xcc; 0xdc; 0xd8;
   0x1fff8d8; 0x1fff8f8; 0x15578d0; 0x38c0; 0x38c0; 0x38e0; 0x1557dfc; 0x3fffefe;
   0x3ffffec; 0x38e0; 0x3860; 0x3860; 0x3870; 0x3838; 0x1fff838; 0x1fff81c;
   0x8; 0x0; 0x0; 0x0; 0x0; 0x202000; 0x0; 0x0;
   0x0; 0x1c000; 0x18000; 0x18000; 0x3ffffc0; 0x3ffffc0; 0xc8; 0xcc;
   0xdc; 0x3fffed8; 0x3fffef8; 0xc0d0; 0xe0c0; 0xe0c0; 0xffe0e0; 0xffe0f8;
   0xc0e0fe; 0xc060fe; 0xc060e0; 0xc07060; 0xe03860; 0xe03870; 0xe01c30; 0x750f38;
   0x7e079c; 0x3e0310; 0x0; 0x0; 0x0; 0x0; 0x202000; 0x0;
   0x0; 0x0; 0x1c000; 0x38000; 0x38000; 0x3ffffc0; 0x7ffffc0; 0xc8;
   0xcc; 0x3ffcdc; 0x3ffcd8; 0xe00f8; 0x7c0d0; 0x1e0c0; 0x3fffec0; 0x3fffce0;
   0x398c4f0; 0x38c60fc; 0x18c70fc; 0x18e38e4; 0x1861c60; 0x1870e60; 0x1c38670; 0xc18030;
   0x1c1e038; 0xf8f01c; 0x7c6018; 0x0; 0x0; 0x0; 0x0; 0x202000;
   0x0; 0x0; 0x0; 0xe000; 0x1c000; 0x1c000; 0x3ffffc0; 0x3ffffc0;
   0xc8; 0x380cc; 0x380dc; 0x380d8; 0xc388f8; 0x1c39cd0; 0xe38cc0; 0x638cc0;
   0x738ec0; 0x37cef0; 0x16c6fc; 0x6c0fc; 0xee0e4; 0xc7060; 0x1c7060; 0x383870;
   0x701c38; 0x1f00f3c; 0x3c0079c; 0x1000108; 0x0; 0x0; 0x0; 0x0;
   0x202000; 0x0; 0x0; 0x0; 0x1c000; 0x18000; 0x18000; 0x3ffffc0;
   0x7ffffc0; 0xc8; 0x1380cc; 0x7b80dc; 0x1f180d8; 0xc180f8; 0x3ffffd0; 0x3fffec0;
   0x3ffffc0; 0x180c0; 0x7c0f0; 0x7c0fc; 0x7c0fe; 0x6e0e4; 0x7e060; 0x2067060;
   0x7077070; 0x3063c38; 0x3fe1f38; 0x3fe0f9c; 0x1540308; 0x0; 0x0; 0x0;
   0x0; 0x202000; 0x0; 0x0; 0x0; 0x1c000; 0x1c000; 0x1c000;
   0x3ffffc0; 0x7ffffc0; 0xcc; 0xcc; 0xfffcdc; 0x1fffcd8; 0xc30cf8; 0x1c30cd0;
   0xc30cc0; 0x1c30cc0; 0xc30ce0; 0x1fffcfc; 0xfffcfe; 0x1d55cec; 0xc60; 0xc60;
   0x3000c70; 0x3000c70; 0x3800c38; 0x3fffc1c; 0x1fff81c; 0x554008; 0x0; 0x0;
   0x0; 0x0; 0x202000; 0x0; 0x0; 0x0; 0xc000; 0x1c000;
   0x1c000; 0x3ffffc0; 0x7ffffc0; 0x2aaaacc; 0x700cc; 0x380d8; 0x7c0d8; 0x1ee0f8;
   0x3c70d0; 0xf038c0; 0x7e01fc0; 0x3a02ee0; 0x3072fc; 0x3060fe; 0x3070ec; 0x3070e0;
   0x307060; 0x303060; 0x303070; 0x303838; 0x301c38; 0x300e1c; 0x300608; 0x0;
   0x0; 0x0; 0x0; 0x202000; 0x0; 0x0; 0x0; 0x1c000;
   0x18000; 0x18000; 0x3ffffc0; 0x7ffffc0; 0xc8; 0x1550dc; 0x3ff0d8; 0x3ff0d8;
   0x3830f8; 0x3830d0; 0xb838c0; 0x3f01ec0; 0x3e00ee0; 0x7ffef0; 0xfffcfc; 0x7ffcfc;
   0x7018e4; 0x383860; 0x1c7060; 0xfe070; 0x7c030; 0x7ffc38; 0x3fc3f1c; 0x1c00718;
   0x0; 0x0; 0x0; 0x0; 0x202000; 0x0; 0x0; 0x0;
   0x1c000; 0x18000; 0x38000; 0x3ffffc0; 0x7ffffc0; 0xc8; 0xcc; 0x3fffccc;
   0x3fffcd8; 0x20cd8; 0x60cd0; 0x60cc0; 0x1ffecc0; 0x1ffece0; 0x1d74cf0; 0x1830cfe;
   0x1830cfc; 0x1830ee0; 0x1c38660; 0x1818660; 0x1c1c770; 0xc0e338; 0xfe73bc; 0xfe3b9c;
   0x7c1108; 0x0; 0x0; 0x0; 0x0; 0x202000; 0x0; 0x0;
   0x0; 0x4000; 0xe000; 0x1c000; 0x3ffffc0; 0x7ffffc0; 0xc8; 0x1838cc;
   0x1838cc; 0x1818d8; 0x1818d8; 0x1c18d8; 0x1818c0; 0x1c18c0; 0x3c38e0; 0x3c7cf8;
   0x3eecfe; 0x7fcc6e; 0x67cc60; 0xe78e60; 0xc30660; 0x1c38770; 0x381c3b8; 0x781e1b8;
   0x300c01c; 0x8; 0x0; 0x0; 0x0; 0x0; 0x202000; 0x0;
   0x0; 0x0; 0x1c000; 0x1c000; 0x18000; 0x3ffffe0; 0x3ffffe0; 0x300e8;
   0x380ec; 0x780fc; 0xfc0f8; 0x3ce0f8; 0x7878f8; 0x1e03ce0; 0x7ffffe0; 0x13fffe0;
   0x3578f8; 0x3038fe; 0x30386c; 0x3ab864; 0x1f3870; 0x8a3870; 0x1803870; 0x1803838;
   0x1fff83c; 0xfff01c; 0x7fc008; 0x0; 0x0; 0x0; 0x0; 0x202000;
   0x0; 0x0; 0x0; 0xc000; 0xc000; 0x155d540; 0x3ffffc0; 0x3ffffc0].
Definition hanzi_data_282 : list N :=
  [0xcc; 0x5554cc; 0x7ffccc; 0x7ffcdc; 0x600cd8; 0x6c0cd8; 0x6c3cc0; 0x667cc0;
   0x66eee0; 0x67ccfc; 0x638efe; 0x638eec; 0x6786e0; 0x6ec660; 0x2ece660; 0x6dc7770;
   0x2d83b30; 0x3c013b8; 0x380039c; 0x1000118; 0x0; 0x0; 0x0; 0x0;
   0x202000; 0x0; 0x0; 0x0; 0x1c000; 0x38000; 0x30000; 0x3ffffc0;
   0x7ffffc0; 0xc8; 0x180cc; 0x380dc; 0x700d8; 0x1fffef8; 0x1fffed0; 0x300c0;
   0x300c0; 0x300e0; 0x300f0; 0xfffcfc; 0xfffcfc; 0x300e4; 0x30060; 0x30060;
   0x30070; 0x30030; 0x3ffffb8; 0x3ffff9c; 0x18; 0x0; 0x0; 0x0;
   0x0; 0x202000; 0x0; 0x0; 0x0; 0x1c000; 0x18000; 0x18000;
   0x3ffffc0; 0x7ffffc0; 0x30c8; 0x30cc; 0x1fff8dc; 0x1fffcd8; 0x1801cd8; 0x1c00ed8;
   0x18ffec0; 0x1cfffc0; 0xcc1be0; 0x1cc1cf8; 0xcc18fe; 0x1cffcfe; 0xcff860; 0xf81c60;
   0x2f81860; 0x7001c70; 0x3001830; 0x3fff838; 0x3fff81c; 0x1fff018; 0x0; 0x0;
   0x0; 0x0; 0x202000; 0x0; 0x0; 0x0; 0x1c000; 0x18000;
   0x157d540; 0x3ffffe0; 0x3ffffe0; 0x300ec; 0x700ec; 0x1fffcec; 0x1fffcfc; 0x1abacf8;
   0x1c70cf8; 0xc30ce0; 0x70c60; 0xfffce0; 0xfffc78; 0x606e7e; 0x70ee6c; 0x38ce60;
   0x1dc670; 0xf8630; 0xf0730; 0x3f8338; 0x1fdf39c; 0x3e0fd9c; 0x1801908; 0x0;
   0x0; 0x0; 0x0; 0x202000; 0x0; 0x0; 0x0; 0x1c000;
   0x18000; 0x38000; 0x3ffffc0; 0x7ffffc0; 0xcc; 0x7038cc; 0x6038d8; 0x7038d8;
   0x3fffef8; 0x3ffffd0; 0x6038c0; 0x7038c0; 0x6038e0; 0x7038fc; 0x7ff8fe; 0x7ff8ec;
   0x6038e0; 0x703860; 0x603860; 0x703870; 0x6ab838; 0x7ff83c; 0x7ff81c; 0x703808;
   0x0; 0x0; 0x0; 0x0; 0x202000; 0x0; 0x0; 0x0;
   0xe000; 0x1c000; 0x1c000; 0x3ffffc0; 0x7ffffc0; 0xc8; 0xcc; 0x2aaaacc;
   0x3fffedc; 0x3fffed8; 0xe000d0; 0xe000c0; 0xe7fcc0; 0xe7f8e0; 0xe61cf0; 0xe608fc;
   0xe61cfc; 0xe608e4; 0xe7fc60; 0xe7f860; 0xe01c70; 0xe00830; 0xe00038; 0xfe001c;
   0x7c0018; 0x0; 0x0; 0x0; 0x0; 0x202000; 0x0; 0x0;
   0x0; 0x1c000; 0x1c000; 0x18000; 0x3ffffc0; 0x7ffffc0; 0xc8; 0x1c60cc;
   0x1860dc; 0x1c60d8; 0x1860f8; 0x19c66d0; 0x1d866c0; 0x1ffe6c0; 0x7be6e0; 0x3c66f0;
   0x1866fc; 0x1c66fc; 0x1866e4; 0x1c6660; 0x186660; 0x71c6670; 0x31be630; 0x3ffffb8;
   0x3f83f9c; 0x198; 0x0; 0x0; 0x0; 0x0; 0x202000; 0x0;
   0x0; 0x0; 0x1c000; 0x18000; 0x38000; 0x3ffffc0; 0x3ffffc0; 0xc8;
   0xcc; 0xfff8d8; 0xfffcd8; 0xe018f8; 0xe01cd0; 0xe018c0; 0xfffcc0; 0xfff8e0;
   0xf55cf8; 0xe018fe; 0xe01cec; 0xeab8e0; 0xfffc60; 0xaaa860; 0x70; 0x38;
   0x7ffffb8; 0x3ffff9c; 0x8; 0x0; 0x0; 0x0; 0x0; 0x202000;
   0x0; 0x0; 0x0; 0x1c000; 0x18000; 0x18000; 0x3ffffc0; 0x7ffffc0;
   0x300c8; 0x380cc; 0x7c0cc; 0x1ef0d8; 0x3878d8; 0x1f03cd8; 0x3e70fc0; 0x383c7c0;
   0xe0e0; 0x3c7cf8; 0xe18fe; 0x1c7806e; 0xe3e060; 0xf0fc60; 0x783860; 0x1e0070;
   0xf8038; 0x3f038; 0xfe1c; 0x1c08; 0x0; 0x0; 0x0; 0x0;
   0x202000; 0x0; 0x0; 0x0; 0x1c000; 0x1c000; 0x18000; 0x3ffffc0;
   0x7ffffc0; 0xc0c8; 0xc0cc; 0x7fe0dc; 0x7ff0d8; 0x7038f8; 0x387cd0; 0x1cefc0;
   0xfc6c0; 0x780e0; 0x1fe0f0; 0xfcf8fe; 0x7f03ffc; 0x383cfe0; 0x1f8060; 0xc0060;
   0x7870; 0x3f830; 0x1fc038; 0x3e001c; 0x100010; 0x0; 0x0; 0x0;
   0x0; 0x202000; 0x0; 0x0; 0x0; 0x1c000; 0x1c000; 0x38000;
   0x3ffffc0; 0x7ffffc0; 0x2aaaac8; 0xcc; 0xd8; 0x7ff8d8; 0x7ff8f8; 0x6018d0;
   0x6018c0; 0x7ff8c0; 0x7ff8e0; 0x7558fc; 0x6018fe; 0x6018ec; 0x7ff8e0; 0x7ff860;
   0x601860; 0x601870; 0x601838; 0x7ffffb8; 0x3ffff9c; 0x1555508; 0x0; 0x0;
   0x0; 0x0; 0x202000; 0x0; 0x0; 0x0; 0x1c000; 0x18000;
   0x38000; 0x3ffffc0; 0x7ffffc0; 0x20c8; 0x70dc; 0x30d8; 0x1fff8d8; 0x1fff8f8;
   0x1575cd0; 0x30cc0; 0x70ec0; 0x304e0; 0x3fffef0; 0x3fffefc; 0x3fffefc; 0xf80e4;
   0xf8060; 0x1dc060; 0x39e070; 0x78f030; 0x1f07c38; 0x3c01f1c; 0x1000618; 0x0;
   0x0; 0x0; 0x0; 0x202000; 0x0; 0x0; 0x0; 0xe000;
   0xc000; 0x1c000; 0x3ffffe0; 0x3ffffe0; 0x86c; 0x1c6c; 0x1fc086c; 0x1fc1c78;
   0x18dff78; 0x18dff78; 0x18d8c60; 0x18dcc60; 0x18d8c60; 0x18dcc7c; 0x18d8c7e; 0x18dcc6c;
   0x18cce60; 0x18dc670; 0x18cc630; 0x1fcc730; 0x1fcc338; 0x1fcfb9c; 0x18c799c; 0x108;
   0x0; 0x0; 0x0; 0x0; 0x202000; 0x0; 0x0; 0x0;
   0x1c000; 0x18000; 0x38000; 0x3ffffc0; 0x7ffffc0; 0x380c8; 0x380cc; 0x300dc;
   0x3ffffd8; 0x3fffef8; 0x1c0d0; 0xe0c0; 0x7070c0; 0x3838e0; 0x1d1cf0; 0xffefc;
   0x7fcfc; 0x2380e4; 0x71c060; 0xe0e060; 0x1c07870; 0x1fffc38; 0x3fffe3c; 0x3000e1c;
   0x1000008; 0x0; 0x0; 0x0; 0x0; 0x202000; 0x0; 0x0;
   0x0; 0x1c000; 0x1c000; 0x18000; 0x3ffffc0; 0x7ffffc0; 0x60c8; 0x70cc;
   0x30dc; 0x3fff8d8; 0x3fff8f8; 0x3fffcd0; 0x38cc0; 0x38ec0; 0x1ff87e0; 0x1ff87f8;
   0x380fe; 0x380fe; 0x2ab80e0; 0x3ff8060; 0xab8060; 0x38070; 0x38038; 0x38038;
   0x3801c; 0x38008; 0x0; 0x0; 0x0; 0x0; 0x202000; 0x0;
   0x0; 0x0; 0x1c000; 0x18000; 0x38000; 0x3ffffc0; 0x7ffffc0; 0xc8;
   0xcc; 0x3fffed8; 0x3fffed8; 0x300f8; 0x700f0; 0x300c0; 0x1fffec0; 0x1fffec0;
   0x1830ef0; 0x1830efc; 0x18f8efc; 0x19d8ee4; 0x1b9ce60; 0x1b0fe60; 0x1f07e70; 0x1800e38].
Definition hanzi_data_283 : list N :=
  [0x1800e38; 0x1f00e1c; 0x1f00e08; 0x0; 0x0; 0x0; 0x0; 0x202000;
   0x0; 0x0; 0x0; 0x1c000; 0x18000; 0x38000; 0x3ffffc0; 0x7ffffc0;
   0xc8; 0xcc; 0x2aaaadc; 0x3fffed8; 0x3fffef8; 0x700f0; 0x600c0; 0x700c0;
   0x618c0; 0x1ff1cf0; 0x1fe18fc; 0x71cfc; 0x618e4; 0x71c60; 0x61860; 0x71c70;
   0x61830; 0x7ffffb8; 0x3ffff9c; 0x8; 0x0; 0x0; 0x0; 0x0;
   0x202000; 0x0; 0x0; 0x0; 0x1c000; 0x18000; 0x38000; 0x3ffffc0;
   0x7ffffc0; 0xc8; 0xdc; 0x1fffcd8; 0x1fffcd8; 0x1830cf8; 0x1870cd0; 0x1830cc0;
   0x1fffcc0; 0x1fffce0; 0x1870cf0; 0x1830cfc; 0x1870cfc; 0x1fffce4; 0x1fffc60; 0x1830e60;
   0x1870670; 0x1830630; 0x1870738; 0x1f3031c; 0x1f70310; 0x0; 0x0; 0x0;
   0x0; 0x202000; 0x0; 0x0; 0x0; 0xc000; 0x1c000; 0x1c000;
   0x3ffffe0; 0x3ffffe0; 0xec; 0x3ffeec; 0x7ffef8; 0x7d54f8; 0x1c00f8; 0x1f00f0;
   0xfc0e0; 0x7ffce0; 0x3f87fe0; 0x3c00ff8; 0xfe; 0xfffc6c; 0xfffc60; 0x30070;
   0x30070; 0x30070; 0x30038; 0x3ffff1c; 0x3ffff1c; 0x8; 0x0; 0x0;
   0x0; 0x0; 0x202000; 0x0; 0x0; 0x0; 0xe000; 0xc000;
   0x155d540; 0x3ffffe0; 0x3ffffe0; 0x300ec; 0x780ec; 0xfc0ec; 0x1ce0fc; 0x3870f8;
   0x1f03cf8; 0x3e01ee0; 0x3d557e0; 0x7ffae0; 0x7ff8f8; 0x300fe; 0x3006e; 0xfffc60;
   0xfffc70; 0x30070; 0x30070; 0x30038; 0x3ffff18; 0x3ffff1c; 0x8; 0x0;
   0x0; 0x0; 0x0; 0x202000; 0x0; 0x0; 0x0; 0x1c000;
   0x1c000; 0x7ffffe0; 0x3ffffe0; 0x55555e0; 0x380ec; 0x3ffffec; 0x3ffffe8; 0x157d5f8;
   0x380f8; 0x1fffef8; 0x18380e0; 0x18380e0; 0x1fffce0; 0x1fffe78; 0x3867e; 0x3fffe6c;
   0x3fffe60; 0x307c070; 0x386c070; 0x1fce030; 0xbc7838; 0x1f83f18; 0x3e00f9c; 0x3800308;
   0x0; 0x0; 0x0; 0x0; 0x202000; 0x0; 0x0; 0x0;
   0x1c000; 0x18000; 0x38000; 0x3ffffc0; 0x3ffffc0; 0x2010ce; 0x7030dc; 0x3070d8;
   0x3060d8; 0xbaeaf8; 0x1fffed0; 0x1fffec0; 0x300c0; 0x300e0; 0x1fffcfc; 0xfffcfe;
   0x300ec; 0x30060; 0x3ffff60; 0x3ffff60; 0x1575570; 0x30038; 0x30038; 0x3001c;
   0x30018; 0x0; 0x0; 0x0; 0x0; 0x202000; 0x0; 0x0;
   0x0; 0x1c000; 0x1c000; 0x3ffffc0; 0x3ffffe0; 0x15555e0; 0xec; 0x1ffffec;
   0x3fffeec; 0x155d4f8; 0x38e0f8; 0x7070f8; 0xe038e0; 0x1fffee0; 0x1fffee0; 0x1831efc;
   0x300fe; 0x30064; 0x1fffe60; 0x1fffe70; 0x30070; 0x30070; 0x30038; 0x7ffff9c;
   0x3ffff9c; 0x5555508; 0x0; 0x0; 0x0; 0x0; 0x202000; 0x0;
   0x0; 0x0; 0x1c000; 0x18000; 0x3ffffc0; 0x3ffffc0; 0x3ffffc0; 0x300cc;
   0x700cc; 0x1fffcd8; 0x1fffcd8; 0x300d8; 0x700d0; 0x2abaac0; 0x3ffffc0; 0x2baaae0;
   0x3000f8; 0x3000fe; 0x3fffe6c; 0x3fffe60; 0x301860; 0x303860; 0x307070; 0x30e038;
   0x304038; 0x3f001c; 0x1f0008; 0x0; 0x0; 0x0; 0x0; 0x202000;
   0x0; 0x0; 0x0; 0x1c000; 0x18000; 0x38000; 0x3ffffc0; 0x3ffffc0;
   0xc8; 0x5554cc; 0xfffccc; 0xfffcdc; 0xe00cd8; 0xfffcd8; 0xfffce0; 0xe00cc0;
   0xe00ce0; 0xfffcf8; 0xfffcfe; 0x1838c7e; 0x1c30c60; 0xf70c70; 0x3e0c70; 0x1c0c70;
   0x39cc38; 0x1f1fe1c; 0x3e03e1c; 0x3000608; 0x0; 0x0; 0x0; 0x0;
   0x202000; 0x0; 0x0; 0x0; 0x1c000; 0x18000; 0x18000; 0x3ffffc0;
   0x7ffffc0; 0xc8; 0xcc; 0x3fffedc; 0x3fffed8; 0x8c0f8; 0x1cc0d0; 0x188c6c0;
   0x19cccc0; 0x88cce0; 0xdcdcf0; 0xc8d8fc; 0xdcd8dc; 0x68d8e4; 0x7cd8e0; 0x8c060;
   0x1cc070; 0x3ffffb0; 0x7ffffb8; 0x38; 0x10; 0x0; 0x0; 0x0;
   0x0; 0x202000; 0x0; 0x0; 0x0; 0xc000; 0x1c000; 0x18000;
   0x3ffffc0; 0x7ffffc0; 0xc8; 0xcc; 0x3fffedc; 0x3fffed8; 0xf8; 0xd0;
   0xfff8c0; 0xfffcc0; 0xc018e0; 0xc01cf0; 0xc018fe; 0xfffcfe; 0xfff860; 0x703860;
   0x303060; 0x387070; 0x186038; 0x7ffff9c; 0x3ffff9c; 0x8; 0x0; 0x0;
   0x0; 0x0; 0x202000; 0x0; 0x0; 0x0; 0xc000; 0x1c000;
   0x155d540; 0x3ffffe0; 0x3ffffe0; 0xec; 0xfffcec; 0xfffcec; 0x7c70fc; 0xff0f8;
   0xfc0f8; 0x1fffee0; 0x1fffee0; 0x18306e0; 0x1830678; 0x1fffe7e; 0x1fffe6e; 0x1830660;
   0x1d75670; 0x1fffe30; 0x1d75630; 0x1830638; 0x183061c; 0x1f3061c; 0x1f30608; 0x0;
   0x0; 0x0; 0x0; 0x202000; 0x0; 0x0; 0x0; 0x1c000;
   0x18000; 0x157d540; 0x3ffffc0; 0x7ffffc0; 0xcc; 0x3fffecc; 0x3fffecc; 0x3fffed8;
   0x380d8; 0x3bc0d8; 0xfbf0c0; 0x1e37cc0; 0x3831fe0; 0x30307f8; 0x300fe; 0x1fffcec;
   0xfffc60; 0x1c01c60; 0xc00c60; 0x1c01c70; 0xc00c38; 0x1fffc38; 0xfffc1c; 0x1c01c08;
   0x0; 0x0; 0x0; 0x0; 0x202000; 0x0; 0x0; 0x0;
   0x1c000; 0x1c000; 0x18000; 0x3ffffe0; 0x7ffffe0; 0xec; 0x181c0ec; 0x181fef8;
   0x1983ff8; 0x19830f8; 0x19830f8; 0x19abae0; 0x19bffe0; 0x19abae0; 0x19878f8; 0x198f8fe;
   0x199fc6c; 0x19bbe60; 0x1993670; 0x1983370; 0x18033f0; 0x1803138; 0x1803018; 0x1f0301c;
   0x1f03008; 0x0; 0x0; 0x0; 0x0; 0x202000; 0x0; 0x0;
   0x0; 0x1c000; 0x18000; 0x38000; 0x3ffffc0; 0x7ffffc0; 0x200c8; 0x700cc;
   0x300d8; 0x3fffed8; 0x3fffed8; 0x700d8; 0x300c0; 0x700c0; 0x1fffce0; 0x1fffcf0;
   0x100fe; 0x380fc; 0xe73260; 0x1ce7660; 0x18c3660; 0x3f07770; 0x32033b0; 0x77ff3b8;
   0x3fe01c; 0x154018; 0x0; 0x0; 0x0; 0x0; 0x202000; 0x0;
   0x0; 0x0; 0x1c000; 0x1c000; 0x18000; 0x3ffffc0; 0x7ffffc0; 0xc8].
Definition hanzi_data_284 : list N :=
  [0x310cc; 0xe338dc; 0x6318d8; 0x6318f8; 0x731cd0; 0xf33cc0; 0x1fbfec0; 0x39bc6e0;
   0x71f47f8; 0x302fe; 0x15754ec; 0x1fffe60; 0x1fffe60; 0x30060; 0x30070; 0x30038;
   0x7ffff9c; 0x3ffff9c; 0x8; 0x0; 0x0; 0x0; 0x0; 0x202000;
   0x0; 0x0; 0x0; 0x1c000; 0x18000; 0x157d540; 0x3ffffc0; 0x3ffffc0;
   0xc8; 0x3fffecc; 0x3fffedc; 0x1c0d8; 0xc0f8; 0x7ffcd0; 0x7ffcc0; 0x60e0c0;
   0x6060e0; 0x7fffff0; 0x3fffffc; 0xfc; 0xfffc64; 0x1fffc60; 0xc00c60; 0x1c00c70;
   0xc00c38; 0x1fffc38; 0xfffc1c; 0x1c00c08; 0x0; 0x0; 0x0; 0x0;
   0x202000; 0x0; 0x0; 0x0; 0x1c000; 0x18000; 0x157d540; 0x3ffffc0;
   0x3ffffc0; 0x800ce; 0x1c0edc; 0x81edc; 0xfdb8d8; 0xc990f8; 0x1dd80d0; 0x18983c0;
   0x39dcfc0; 0x308dee0; 0x71cc8fc; 0xc860fe; 0xdc486c; 0xe81860; 0x701c60; 0x300e60;
   0x3c0670; 0x1e0630; 0x7c738; 0x3e39c; 0x6118; 0x0; 0x0; 0x0;
   0x0; 0x202000; 0x0; 0x0; 0x0; 0x1c000; 0x18000; 0x7ffffe0;
   0x3ffffe0; 0x5555560; 0x38306c; 0x17d756c; 0x3ffff6c; 0x3ffff7c; 0x383078; 0x387078;
   0x3ffff60; 0x3ffff60; 0x3800360; 0x3818778; 0x281827e; 0xfffc6c; 0xfffc60; 0xc1c070;
   0xe0c030; 0xe0e030; 0x607038; 0x703c1c; 0x3e0f1c; 0x1e0708; 0x0; 0x0;
   0x0; 0x0; 0x202000; 0x0; 0x0; 0x0; 0x1c000; 0x18000;
   0x155d540; 0x3ffffe0; 0x7ffffe0; 0xe0ec; 0x1560ec; 0x3ff0ec; 0x3ff8fc; 0x1818f8;
   0xc1cf8; 0xfffee0; 0x1ffffe0; 0xc30ce0; 0x1c70c7c; 0xc30c7e; 0x1d75d6c; 0x3ffff60;
   0x7ffff70; 0xf8070; 0x1de070; 0x38f838; 0x1f07e1c; 0x3e00f1c; 0x3000708; 0x0;
   0x0; 0x0; 0x0; 0x202000; 0x0; 0x0; 0x0; 0xc000;
   0x1c000; 0x7ffffe0; 0x3ffffe0; 0x1555560; 0x66c; 0x1ffce6c; 0x1ffdc6c; 0x180187c;
   0x1830878; 0x1830778; 0x1830260; 0x1fff760; 0x1bff260; 0x187877c; 0x18f827e; 0x19fc764;
   0x19b6260; 0x1b37770; 0x1e33e30; 0x1831f30; 0x1830238; 0x1fb071c; 0x1fa020c; 0x500708;
   0x0; 0x0; 0x0; 0x0; 0x202000; 0x0; 0x0; 0x0;
   0x1c000; 0x18000; 0x18000; 0x3ffffc0; 0x7ffffc0; 0x300c8; 0x300cc; 0x1c3b8cc;
   0xc39cd8; 0x638ed8; 0x7fc6d8; 0x3ee0c0; 0xf870c0; 0x1e33ee0; 0x3831ff0; 0x38afe;
   0x1c39c7e; 0xc38c60; 0x67ce60; 0x3fc760; 0x1ce070; 0x387038; 0x1f07c38; 0x3e00f9c;
   0x3800718; 0x0; 0x0; 0x0; 0x0; 0x202000; 0x0; 0x0;
   0x0; 0x1c000; 0x1c000; 0x155d540; 0x3ffffe0; 0x3ffffe0; 0x8a0ec; 0xce0ec;
   0xce0ec; 0x15cf4fc; 0x3fcfef8; 0x3fcfff8; 0xce0e0; 0xce0e0; 0x1fcfee0; 0x1fcfef8;
   0xce0fe; 0xce06c; 0xce060; 0x3fcff70; 0x3fcff70; 0xce070; 0xce038; 0xce038;
   0xce01c; 0xce008; 0x0; 0x0; 0x0; 0x0; 0x202000; 0x0;
   0x0; 0x0; 0x1c000; 0x1c000; 0x155d540; 0x3ffffe0; 0x7ffffe0; 0xcec;
   0xcec; 0x2a80ef8; 0x3fdfef8; 0x3adfef8; 0x30c37e0; 0x30c33e0; 0x30c3360; 0x30c30e0;
   0x30fff7c; 0x30fff7e; 0x30c306c; 0x30c3860; 0x30c7870; 0x30cf830; 0x35ddc30; 0x3ff8e38;
   0x3fd071c; 0x30c039c; 0x108; 0x0; 0x0; 0x0; 0x0; 0x202000;
   0x0; 0x0; 0x0; 0x1c000; 0x1c000; 0x18000; 0x3ffffc0; 0x7ffffc0;
   0xcc; 0x1fffccc; 0xfffcdc; 0x1c30cd8; 0xc30cf8; 0x1fffcd0; 0xfffcc0; 0x1c30cc0;
   0xebace0; 0x1fffcf0; 0xfc; 0x15555fc; 0x3ffffe4; 0x3ffff60; 0x306060; 0x307070;
   0x303830; 0x301e38; 0x300f9c; 0x300718; 0x0; 0x0; 0x0; 0x0;
   0x202000; 0x0; 0x0; 0x0; 0x1c000; 0x18000; 0x155d540; 0x3ffffe0;
   0x3ffffe0; 0xec; 0x1fffeec; 0x1fffeec; 0x1d556f8; 0x18306f8; 0x18306f8; 0x1bff6e0;
   0x1bff6e0; 0x18306e0; 0x19fe6f8; 0x19fe6fe; 0x190666e; 0x1906660; 0x1956670; 0x19fe670;
   0x1800670; 0x1aaae38; 0x1fffe18; 0x1aaae1c; 0x1800608; 0x0; 0x0; 0x0;
   0x0; 0x202000; 0x0; 0x0; 0x0; 0x1c000; 0x18000; 0x7ffffe0;
   0x3ffffe0; 0x5555560; 0x78006c; 0xfffe6c; 0x3fe6c; 0x3007c; 0x3fffe78; 0x3ffff78;
   0x1fe060; 0x7b7860; 0x3e31e70; 0x3c3c77c; 0xe06e; 0x3ffff64; 0x3ffff60; 0x703870;
   0x383c30; 0x1dfc30; 0x1fe038; 0xfff01c; 0x3f0ff0c; 0x1c01f08; 0x0; 0x0;
   0x0; 0x0; 0x202000; 0x0; 0x0; 0x0; 0x1c000; 0x18000;
   0x7ffffe0; 0x3ffffe0; 0x7ffffe0; 0x20186c; 0x70186c; 0x303878; 0x717578; 0xd9ff78;
   0x1ddff78; 0x18c0c60; 0x3860c60; 0x717ac70; 0x23bfc7c; 0x70ec6e; 0xe1cc74; 0xc0ce60;
   0xc670; 0xcc630; 0x3cc730; 0x70c338; 0xe0c39c; 0x1c0f9cc; 0x807888; 0x0;
   0x0; 0x0; 0x0; 0x202000; 0x0; 0x0; 0x0; 0xc000;
   0x1c000; 0x155d540; 0x3ffffe0; 0x3ffffe0; 0x380ec; 0x300ec; 0x3fffeec; 0x3fffefc;
   0x3020f8; 0x3070f8; 0x3830e0; 0x7878e0; 0xfcf8e0; 0x1cfdef8; 0x38706fe; 0x103006e;
   0x2abaa60; 0x7ffff70; 0x2abaa70; 0x30070; 0x30038; 0x3001c; 0x3001c; 0x30008;
   0x0; 0x0; 0x0; 0x0; 0x202000; 0x0; 0x0; 0x0;
   0xc000; 0x1c000; 0x155d540; 0x3ffffe0; 0x3ffffe0; 0x6c; 0x3ffff6c; 0x3fffe6c;
   0x1c07c; 0x80f078; 0x1c0fc78; 0xe18f60; 0x7bc760; 0x3fec60; 0x3f7c7c; 0x363e7e;
   0x777f64; 0xefa260; 0xcde070; 0x1cc7830; 0x38c3e30; 0x30e0fb8; 0x307031c; 0x7e01c;
   0x1e008; 0x0; 0x0; 0x0; 0x0; 0x202000; 0x0; 0x0;
   0x0; 0x1c000; 0x1c000; 0x38000; 0x3ffffc0; 0x3ffffc0; 0x3020c8; 0x3870dc;
   0x1860d8; 0x1fffed8; 0xfffef8; 0x1c30ed0; 0xc30ec0; 0x1fffec0; 0xfffee0; 0x1c30ef8;
   0xebaefe; 0x1fffeec; 0x300e0; 0x30060; 0x3ffff60; 0x3ffff70; 0x30038; 0x30038].
Definition hanzi_data_285 : list N :=
  [0x3001c; 0x30008; 0x0; 0x0; 0x0; 0x0; 0x202000; 0x0;
   0x0; 0x0; 0xc000; 0xc000; 0x7ffffe0; 0x3ffffe0; 0x555d560; 0x8e06c;
   0x38706c; 0x7fbc68; 0xfffe78; 0xc18c78; 0x1c078; 0x3ffffe0; 0x3ffffe0; 0x187870;
   0x711c7c; 0x3e38fee; 0x199e374; 0x1c7830; 0xc71c30; 0xe3e030; 0x7c7e38; 0x1f0c18;
   0x7f01c; 0xff0e; 0x1e0c; 0x0; 0x0; 0x0; 0x0; 0x202000;
   0x0; 0x0; 0x0; 0x1c000; 0x18000; 0x155d540; 0x3ffffe0; 0x7ffffe0;
   0x8ec; 0xff98ec; 0xff98ec; 0xc01cfc; 0xc00cf8; 0x7ffeef8; 0x3ffeee0; 0x30fe0;
   0x2ab8fe0; 0x3ffcd7c; 0x18cc7e; 0x18ec6c; 0x180c60; 0x3ffec70; 0x2beac70; 0x3c0c70;
   0x7e0c38; 0x1e7cc1c; 0x3c1ec1c; 0x3006c08; 0x0; 0x0; 0x0; 0x0;
   0x202000; 0x0; 0x0; 0x0; 0x1c000; 0x18000; 0x3ffffe0; 0x3ffffe0;
   0x1555560; 0x1803066; 0x180306c; 0x19bff6c; 0x19bff7c; 0x1983078; 0x19bff78; 0x19bff60;
   0x19b3360; 0x19b3370; 0x19b337c; 0x19bff7e; 0x19bff76; 0x1987830; 0x199fc30; 0x189b630;
   0x183b738; 0x1813398; 0x180319c; 0x1f0308c; 0x1f03008; 0x0; 0x0; 0x0;
   0x0; 0x202000; 0x0; 0x0; 0x0; 0x1c000; 0x1c000; 0x555d540;
   0x3ffffe0; 0x7ffffe0; 0x300ec; 0x370ec; 0x1fbfee8; 0x1ff1ef8; 0x18306f8; 0x1c306f8;
   0x1fb7ee0; 0x1fb7e60; 0x18306e0; 0x1c30678; 0x183067e; 0x1fffe6c; 0x1fffe60; 0x7c070;
   0xfc030; 0x1ce030; 0x387838; 0x1f03c18; 0x3e00f9c; 0x3000708; 0x0; 0x0;
   0x0; 0x0; 0x202000; 0x0; 0x0; 0x0; 0x1c000; 0x18000;
   0x7ffffe0; 0x3ffffe0; 0x7ffffe0; 0x6c; 0x1ffff6c; 0x1fefe6c; 0x181c778; 0x180c278;
   0x1d5ff60; 0x1fefe60; 0x1545760; 0x260; 0x3feff78; 0x3fefe7e; 0x186576c; 0x18c0260;
   0x1cc5770; 0xf8fe30; 0x79ff30; 0x780238; 0x1fe0718; 0x38f821c; 0x3030708; 0x0;
   0x0; 0x0; 0x0; 0x202000; 0x0; 0x0; 0x0; 0x1c000;
   0x1c000; 0x157d540; 0x3ffffe0; 0x3ffffe0; 0x300e8; 0x15754ec; 0x1fffefc; 0x1fffef8;
   0x6318f8; 0x7330f0; 0x3fffee0; 0x3ffffe0; 0xee0e0; 0x7cf870; 0x3f23e7e; 0x3c30f7c;
   0x30060; 0x1fffe70; 0x1fffe30; 0x30030; 0x30038; 0x3ffff9c; 0x3ffff9c; 0x8;
   0x0; 0x0; 0x0; 0x0; 0x202000; 0x0; 0x0; 0x0;
   0x1c000; 0x18000; 0x3ffffe0; 0x3ffffe0; 0x1555560; 0x43086c; 0x631c6c; 0x333868;
   0x3ffff78; 0x3ffff78; 0x1fe078; 0x3b7860; 0x1f33e60; 0x3830f60; 0x101c27c; 0xe07e;
   0x3ffff64; 0x3ffff60; 0x303870; 0x383830; 0x1dfc30; 0x1fe038; 0x1fff01c; 0x3e0ff1c;
   0x1801f08; 0x0; 0x0; 0x0; 0x0; 0x202000; 0x0; 0x0;
   0x0; 0x1c000; 0x1c000; 0x3ffffe0; 0x3ffffe0; 0x1555560; 0x80006c; 0x1ffff6c;
   0xebae6c; 0x73387c; 0x3a7078; 0x1fe078; 0xfc060; 0x1fffd60; 0x3fb3f60; 0x103077c;
   0xfffc7e; 0xfffc64; 0xc30c60; 0xfffc70; 0xfffc30; 0x730030; 0xe30038; 0x1ffff1c;
   0x3ffff0c; 0x3000008; 0x0; 0x0; 0x0; 0x0; 0x202000; 0x0;
   0x0; 0x0; 0xc000; 0x1c000; 0x155d540; 0x3ffffe0; 0x3ffffe0; 0x186e;
   0x1fe5d6c; 0x1feff6c; 0x1985d7c; 0x1981878; 0x19cff78; 0x18cff60; 0x18c1860; 0x18eff60;
   0x1c7ff7c; 0x1f3187e; 0xf31876; 0x18060; 0xe73670; 0xc63730; 0x1d43330; 0x3b033b8;
   0x33571dc; 0x23ff08c; 0x1fc00c; 0x0; 0x0; 0x0; 0x0; 0x202000;
   0x0; 0x0; 0x0; 0x1c000; 0x18000; 0x3ffffc0; 0x3ffffc0; 0x15555c0;
   0xce; 0xfffcdc; 0xeaacd8; 0xe01cf8; 0xfffcf0; 0xfffcc0; 0xe00cc0; 0xe01cc0;
   0xfffce0; 0xfffcf8; 0xfc; 0x1fffe6c; 0x1fffe60; 0x1ccc660; 0x18cc660; 0x1ccc670;
   0x18cc630; 0x7fffff8; 0x3ffff98; 0x5555558; 0x0; 0x0; 0x0; 0x0;
   0x202000; 0x0; 0x0; 0x0; 0xc000; 0x1c000; 0x7ffffe0; 0x3ffffe0;
   0x7ffffe0; 0x1830eec; 0xf3bfec; 0x3bb8ec; 0x7ff0fc; 0x1f6fef8; 0x3ceeff8; 0x1c70e0;
   0x787c60; 0x3fffee0; 0x7fffffc; 0x2600d7e; 0x7ffc6c; 0x7ffc60; 0x701c70; 0x7ffc30;
   0x7ffc30; 0x600c38; 0x701c1c; 0x7e0c1c; 0x3c1c08; 0x0; 0x0; 0x0;
   0x0; 0x202000; 0x0; 0x0; 0x0; 0xc000; 0xc000; 0x3ffffe0;
   0x3ffffe0; 0x1555560; 0x386e; 0xfc186c; 0xfcfe6c; 0xccff7c; 0xccc678; 0xccdf78;
   0x3ced660; 0x7c7f760; 0x2c660; 0x1fefffc; 0x1fefffe; 0x18cd774; 0x18cda60; 0xdcd770;
   0xf8f330; 0x70d330; 0x78c338; 0x1fcd19c; 0x38ff18c; 0x3077188; 0x0; 0x0;
   0x0; 0x0; 0x202000; 0x0; 0x0; 0x0; 0x1c000; 0x18000;
   0x555d540; 0x3ffffe0; 0x7ffffe0; 0xe0ec; 0x1fffeec; 0x1fe1ef8; 0x1984ef8; 0x198cef8;
   0x19ccef8; 0x18ceee0; 0x1dffee0; 0xf78ee0; 0x730278; 0xfffc7e; 0x1fffc6c; 0xc30c60;
   0x1d75c70; 0xfffc70; 0x1d75c70; 0xc30c38; 0x1fffc18; 0xfffc1c; 0x1c00c08; 0x0;
   0x0; 0x0; 0x0; 0x202000; 0x0; 0x0; 0x0; 0xc000;
   0x1c000; 0x7ffffe0; 0x3ffffe0; 0x15575e0; 0x3030ec; 0x3870ec; 0x1fffeec; 0x1fffffc;
   0x380f8; 0x1fffcf8; 0xfffee0; 0x155d460; 0xc0e0; 0x3ffff7c; 0x3ffff7e; 0x7064;
   0x3060; 0x1fff870; 0x1fffc30; 0x61e30; 0x607b8; 0x3ffff9c; 0x3fff81c; 0x1555408;
   0x0; 0x0; 0x0; 0x0; 0x202000; 0x0; 0x0; 0x0;
   0x1c000; 0x1c000; 0x7ffffe0; 0x3ffffe0; 0x55555e0; 0x320ee; 0x1ff7efc; 0xfb0ef8;
   0x1c306f8; 0xab3ef8; 0x1fb7ee0; 0x8306e0; 0x1c306e0; 0xfffee0; 0x1fffef8; 0x300fe;
   0x1ffff6c; 0xfffe60; 0xf01c70; 0x383860; 0x1cf070; 0xfe038; 0x7ffc38; 0x3fcff9c;
   0x1c00718; 0x0; 0x0; 0x0; 0x0; 0x202000; 0x0; 0x0;
   0x0; 0xc000; 0x1c000; 0x7ffffe0; 0x3ffffe0; 0x55555e0; 0x3030ec; 0x3ffffec].
Definition hanzi_data_286 : list N :=
  [0x3fffff8; 0x3130f8; 0x3330f8; 0x7c0f8; 0xfe0e0; 0x3cf060; 0xf83ef0; 0x3fffffc;
   0x1bff37e; 0x64; 0xfffc60; 0xfffc70; 0xe00c30; 0xe00c30; 0xe00c38; 0xfffc1c;
   0xfffc1c; 0xe00c08; 0x0; 0x0; 0x0; 0x0; 0x202000; 0x0;
   0x0; 0x0; 0x1c000; 0x18000; 0x7ffffe0; 0x3ffffe0; 0x300e0; 0x380ee;
   0x1fffefc; 0xc00ef8; 0x1fffef8; 0xfffef8; 0x1c00ef0; 0xfffee0; 0x1c00ee0; 0xeaaee0;
   0x1fffe78; 0x3807e; 0xfe06c; 0xfcfc60; 0x7f01fe0; 0x39f8fe0; 0xcffc70; 0xc03c30;
   0xd55c38; 0xfff818; 0x155018; 0x0; 0x0; 0x0; 0x0; 0x202000;
   0x0; 0x0; 0x0; 0x1c000; 0x1c000; 0x155d540; 0x3ffffe0; 0x3ffffe0;
   0x36006e; 0x37006c; 0x633f78; 0x3ffbf78; 0x3ffb078; 0x73f070; 0x63f160; 0x1ff5b60;
   0x1ff1f60; 0x1771e78; 0x631e7e; 0x731c6c; 0x1ff1e60; 0x1ff3670; 0x633630; 0x737330;
   0x2eb23b8; 0x3ff01dc; 0x2ab008c; 0x30008; 0x0; 0x0; 0x0; 0x0;
   0x202000; 0x0; 0x0; 0x0; 0xc000; 0x18000; 0x155d540; 0x3ffffe0;
   0x7ffffe0; 0xec; 0x3ffffec; 0x3fffeec; 0x1cc0f8; 0x1fffef8; 0x1ddd6f8; 0x188c6e0;
   0x1fffee0; 0x1fffee0; 0x78; 0xfffc7e; 0x1fffc6c; 0x60; 0x7ffff70; 0x3ffff30;
   0x733830; 0xe31c38; 0x1c30f18; 0x383e39c; 0x103e108; 0x0; 0x0; 0x0;
   0x0; 0x202000; 0x0; 0x0; 0x0; 0x1c000; 0x18000; 0x3ffffe0;
   0x3ffffe0; 0x1555560; 0x6e; 0x1fffe6c; 0xc3066c; 0x1d7567c; 0xfffe78; 0x1c30678;
   0xc30660; 0x1fffe60; 0x8e060; 0x1f7c7c; 0x6ffe7e; 0xe1f464; 0x1fef860; 0x1ffff70;
   0x3030f30; 0x333830; 0xf31c38; 0x1c30f1c; 0x383e38c; 0x101e108; 0x0; 0x0;
   0x0; 0x0; 0x202000; 0x0; 0x0; 0x0; 0x1c000; 0x18000;
   0x3ffffe0; 0x3ffffe0; 0x1555560; 0xaaaa6c; 0x1feff6c; 0x180c068; 0x19cce78; 0x1b8c878;
   0x1f0f878; 0x1bede60; 0x18f8760; 0xfe070; 0x7c787c; 0x3fb3f7e; 0x3c3c7f4; 0x208f860;
   0x1f1c70; 0x43e030; 0xf1ff30; 0x3e0e38; 0x1ff01c; 0x1ff8c; 0x1f08; 0x0;
   0x0; 0x0; 0x0; 0x202000; 0x0; 0x0; 0x0; 0x1c000;
   0x18000; 0x3ffffe0; 0x3ffffe0; 0x1575560; 0x3806e; 0x1fffe6c; 0x1fffe6c; 0x30707c;
   0x2baea78; 0x3ffff78; 0x2aaaa60; 0xfffc60; 0xfffc60; 0xc00c7c; 0xfffc7e; 0xc00c64;
   0xeaac60; 0xfffc70; 0x30030; 0x3ffff30; 0x3ffff38; 0x3001c; 0x3000c; 0x30008;
   0x0; 0x0; 0x0; 0x0; 0x202000; 0x0; 0x0; 0x0;
   0xc000; 0x1c000; 0x155d540; 0x3ffffe0; 0x7ffffe0; 0x186c; 0x1061c6c; 0x3fffc78;
   0x1fdde78; 0x1ccdf78; 0xdcf3f8; 0x786660; 0x707c60; 0xfff860; 0x1fffe7c; 0x3800f7e;
   0x3000364; 0xfffe60; 0x1fffe70; 0x231830; 0x731c30; 0xe30e38; 0x1c3071c; 0x383e31c;
   0x1e00c; 0x0; 0x0; 0x0; 0x0; 0x202000; 0x0; 0x0;
   0x0; 0x1c000; 0x1c000; 0x7ffffe0; 0x3ffffe0; 0x5555560; 0x186e; 0x1fdff6c;
   0x1fdff7c; 0x18d9c78; 0x18c8c78; 0x1ddcc60; 0x1fcf660; 0x35760; 0x30060; 0x1ffff78;
   0x1fffe7e; 0x187c76c; 0x19ee660; 0x1fb7f70; 0x183b630; 0x187c730; 0x19ee638; 0x1b87f18;
   0x1f0061c; 0xf00708; 0x0; 0x0; 0x0; 0x0; 0x202000; 0x0;
   0x0; 0x0; 0x1c000; 0x18000; 0x3ffffe0; 0x3ffffe0; 0x187060; 0x18306e;
   0x3ffff6c; 0x3ffff6c; 0x18707c; 0xaaaa78; 0xfffe78; 0xc00e60; 0xfffe60; 0xfffe70;
   0xc00e7c; 0xeaae7e; 0xfffe64; 0x38060; 0x3ffff70; 0x3ffff30; 0x7c030; 0xee038;
   0x7c7c1c; 0x3f03f8c; 0x3c00708; 0x0; 0x0; 0x0; 0x0; 0x202000;
   0x0; 0x0; 0x0; 0x1c000; 0x18000; 0x7ffffe0; 0x3ffffe0; 0x60;
   0x60a66; 0x7f3f6c; 0xff336c; 0x61b37c; 0x61db78; 0x1fffb78; 0x1aadb60; 0x1801f60;
   0x1ff9b70; 0x1ffb37c; 0x180336e; 0x1ffb374; 0x1ffb330; 0x1c3730; 0x1bb7f30; 0x1f3df38;
   0x3c36318; 0x3c3631c; 0x2ff630c; 0x7e030c; 0x0; 0x0; 0x0; 0x0;
   0x202000; 0x0; 0x0; 0x0; 0xe000; 0x1c000; 0x7ffffe0; 0x3ffffe0;
   0x5555560; 0x6c; 0x1fefe6c; 0x1868278; 0x1b6d678; 0x1a69278; 0x1b6d668; 0x1b69a60;
   0x1b6de60; 0x787870; 0x1dcee7c; 0x38ec77e; 0x102e174; 0x3ffff60; 0x3ffff70; 0x383830;
   0x1dfc30; 0xfe038; 0x7ff01c; 0x3f0ff8c; 0x1c01f08; 0x0; 0x0; 0x0;
   0x0; 0x202000; 0x0; 0x0; 0x0; 0x1c000; 0x18000; 0x3ffffe0;
   0x3ffffe0; 0x15555e0; 0x3830ec; 0x1fffeec; 0x1fffee8; 0x3870f8; 0x3830f8; 0x3fffff8;
   0x2abaae0; 0x30060; 0xfffee0; 0xd75e7c; 0xc30e7e; 0xfffe6c; 0xebae60; 0xc30e70;
   0xfffe30; 0xfffe30; 0x3c7038; 0x1f07e1c; 0x3c00f9c; 0x3000108; 0x0; 0x0;
   0x0; 0x0; 0x202000; 0x0; 0x0; 0x0; 0x1c000; 0x18000;
   0x3ffffe0; 0x3ffffe0; 0x3ffffe0; 0xc006e; 0x1fe7f6c; 0x1ff3f6c; 0x1c7b37c; 0xeff378;
   0x7cdb78; 0x381b60; 0x1ff1f60; 0x383fb60; 0x3fff378; 0xbb337e; 0x1b737c; 0x1ffa360;
   0x15dff70; 0x18fb30; 0x1ff0338; 0x180338; 0x18031c; 0x3ffc30c; 0x155430c; 0x0;
   0x0; 0x0; 0x0; 0x202000; 0x0; 0x0; 0x0; 0x1c000;
   0x18000; 0x157d540; 0x3ffffe0; 0x7ffffe0; 0xec; 0x7ff8ec; 0x6018ec; 0x6018f8;
   0x7ff8f8; 0x7ff8f8; 0xe0; 0x3fcffe0; 0x3aceae0; 0x30cc378; 0x30cc27e; 0x3fcff6c;
   0x20060; 0x1830770; 0x1830630; 0x1830730; 0x1830638; 0x1ffff18; 0x1fffe1c; 0x1800008;
   0x0; 0x0; 0x0; 0x0; 0x202000; 0x0; 0x0; 0x0;
   0xc000; 0x1c000; 0x155d540; 0x3ffffe0; 0x3ffffe0; 0x1806c; 0x3f3bf6c; 0x3f33f6c;
   0xdfec7c; 0xdfec78; 0xc40c78; 0xc64c60; 0xc6cc60; 0xc6ff60; 0x3f7bf7c; 0x2e38c7e;
   0xc30c66; 0xc30c60; 0xc72c70; 0xc7bc30; 0xc7df30; 0xc4e7b8; 0x7f87198; 0x3f8201c].
Definition hanzi_data_287 : list N :=
  [0x8; 0x0; 0x0; 0x0; 0x0; 0x202000; 0x0; 0x0;
   0x0; 0x1c000; 0x18000; 0x7ffffe0; 0x3ffffe0; 0x155d560; 0x38066; 0x1ffff6c;
   0xbaba6c; 0x18307c; 0x3ffff78; 0x3ffff68; 0x60; 0x7ffe60; 0x6aae70; 0x7ffe7c;
   0x7ffe6e; 0x600e76; 0x7ffe30; 0x7ffc30; 0x639b30; 0xc71b38; 0x1b21b98; 0x1b559dc;
   0x31ff8ce; 0x1ff00c; 0x0; 0x0; 0x0; 0x0; 0x202000; 0x0;
   0x0; 0x0; 0x1c000; 0x18000; 0x157d540; 0x3ffffe0; 0x7ffffe0; 0x6c;
   0x30fe6c; 0x30fe68; 0x3ffc678; 0x3fec678; 0x18cc678; 0x8cfe60; 0xdcfe60; 0x3ff0660;
   0x7ff067c; 0x2bafe7e; 0x70ff74; 0x30cf60; 0x3ffcf70; 0x3fecf30; 0x70cfb0; 0x30fdb8;
   0x70fddc; 0x300c8c; 0x700c0c; 0x0; 0x0; 0x0; 0x0; 0x202000;
   0x0; 0x0; 0x0; 0x1c000; 0x18000; 0x7ffffe0; 0x3ffffe0; 0x5555560;
   0xfffe66; 0xfffe6c; 0x1806c; 0x1ffff6c; 0x1ffff68; 0x195d768; 0x1bdbf60; 0x18060;
   0x7dbe70; 0x55d47c; 0xaaaa6e; 0xffff76; 0xc18630; 0xc18730; 0xfffe30; 0xd5d738;
   0xc18618; 0xffff1c; 0xfffe0e; 0xc0070c; 0x0; 0x0; 0x0; 0x0;
   0x202000; 0x0; 0x0; 0x0; 0x1c000; 0x18000; 0x7ffffe0; 0x3ffffe0;
   0x5555560; 0x6c; 0x1fdff6c; 0xa9fe6c; 0x1dd8378; 0x8daa78; 0x1cdff78; 0x28c8a60;
   0x786db60; 0x6fa70; 0x1ffff7c; 0x1fedb7e; 0x18cdb64; 0x188db60; 0xdbff70; 0xfbffb0;
   0x71d9b0; 0x7999b8; 0x1dd8ddc; 0x38e0ecc; 0x3060408; 0x0; 0x0; 0x0;
   0x0; 0x202000; 0x0; 0x0; 0x0; 0x1c000; 0x18000; 0x3ffffe0;
   0x3ffffe0; 0x1555560; 0x38186c; 0x1f8186c; 0x1f9ffec; 0x1ddfffc; 0xce1878; 0x3ffff78;
   0x3ffff60; 0x35d9b60; 0x32d9b70; 0x36d9b7c; 0x32dff6e; 0x36dff74; 0x32c7c30; 0x37cdc30;
   0x33dde30; 0x1759f38; 0xd81b98; 0x19c19dc; 0x30e188c; 0x2071808; 0x0; 0x0;
   0x0; 0x0; 0x202000; 0x0; 0x0; 0x0; 0xe000; 0xc000;
   0x7ffffe0; 0x3ffffe0; 0x5555560; 0x3060c64; 0x18c7c6c; 0x18c7e6c; 0x1dc677c; 0x3fe2378;
   0x3fffff8; 0x21ffe0; 0x719360; 0x2ab9370; 0x3ffff7c; 0x21bb7e; 0x719374; 0x21bb30;
   0x7ffff70; 0x3fe0030; 0x71c030; 0x21ff98; 0x707f9c; 0x20000c; 0x70000c; 0x0;
   0x0; 0x0; 0x0; 0x202000; 0x0; 0x0; 0x0; 0x1c000;
   0x18000; 0x155d540; 0x3ffffe0; 0x3ffffe0; 0x386e; 0x3ffffec; 0x2abfff8; 0x301c78;
   0x3feff78; 0x3feff70; 0x306c360; 0x376ff60; 0x326c360; 0x376ff7c; 0x326ff7e; 0x376d76c;
   0x326ff60; 0x336c370; 0x337ffb0; 0x377fff0; 0xd86e38; 0x39cc71c; 0x30e83cc; 0x2060188;
   0x0; 0x0; 0x0; 0x0; 0x202000; 0x0; 0x0; 0x0;
   0xe000; 0xc000; 0x7ffffe0; 0x3ffffe0; 0x7ffffe0; 0x6c; 0x1feff6c; 0x186c268;
   0x1feff78; 0x186c278; 0x1feff78; 0x186c260; 0x1feff60; 0x38870; 0x1575c7c; 0x1fffe7e;
   0x70764; 0xffffe0; 0xfffff0; 0x606b0; 0xfffe30; 0x60638; 0x3fffe1c; 0x3fffe0c;
   0x608; 0x0; 0x0; 0x0; 0x0; 0x202000; 0x0; 0x0;
   0x0; 0x10c000; 0x31caa0; 0x3ddff0; 0x1f9ea0; 0x1070c10; 0x3870e38; 0x1ee07f0;
   0x7c03e0; 0x3c01c0; 0xffffe0; 0x1fffff0; 0x3caeabe; 0x300601c; 0x6000; 0x6000;
   0x1fffff8; 0x1fffff8; 0xf000; 0x7f800; 0xfbc00; 0x3e1f00; 0xf80f80; 0x1f003f0;
   0x3c000fc; 0x1000018; 0x0; 0x0; 0x0; 0x0; 0x202000; 0x0;
   0x0; 0x0; 0x20c000; 0x70dff8; 0x3ddff8; 0xf9c00; 0x3870e10; 0x1c60e78;
   0xfe07e0; 0x3eabc0; 0x7fffc0; 0xf2aae0; 0x3e0007c; 0x3aaaabe; 0x33fffcc; 0x3aaac0;
   0x3801c0; 0x3800c0; 0x3fffc0; 0x3fffc0; 0x155740; 0xe0700; 0x60700; 0x60e00;
   0x3fffffc; 0x3fffffc; 0x1555554; 0x0; 0x0; 0x0; 0x0; 0x202000;
   0x0; 0x0; 0x0; 0x7000; 0x7000; 0x7000; 0x3800; 0xfffff0;
   0xfffff0; 0xfffff0; 0xe00030; 0xe00070; 0xe00030; 0xe00070; 0xe00030; 0xfffff0;
   0xfffff0; 0xfffff0; 0xe00030; 0xe00070; 0xe00030; 0xe00070; 0xe00030; 0xf55570;
   0xfffff0; 0xfffff0; 0xe00030; 0xe00070; 0x0; 0x0; 0x0; 0x0;
   0x202000; 0x0; 0x0; 0x0; 0x0; 0x2aaaaa8; 0x3fffffc; 0x3fffffc;
   0x7000; 0x7000; 0x7000; 0x2abaa0; 0x7fffe0; 0x7fffe0; 0x6000e0; 0x6000e0;
   0x6000e0; 0x6000e0; 0x7fffe0; 0x7fffe0; 0x7555e0; 0x6000e0; 0x6000e0; 0x6000e0;
   0x6000e0; 0x7fffe0; 0x7fffe0; 0x6000e0; 0x6000e0; 0x0; 0x0; 0x0;
   0x0; 0x202000; 0x0; 0x0; 0x0; 0x10180; 0x18180; 0x1c1c0;
   0x180c0; 0x1cff8; 0x18ff8; 0x1cd58; 0x18c18; 0x1cc18; 0x18c18; 0x1cc18;
   0x18ff8; 0x1cff8; 0x18c18; 0x1cc18; 0x18c18; 0x1cc18; 0x18c18; 0x701cff8;
   0x7018ff8; 0x701c018; 0x3018018; 0x3d5c010; 0x3ff8000; 0x1ff0000; 0x0; 0x0;
   0x0; 0x0; 0x202000; 0x0; 0x0; 0x0; 0xe000; 0x6000;
   0x7fffe0; 0x7fffe0; 0x755560; 0x600060; 0x600060; 0x7fffe0; 0x7fffe0; 0x600060;
   0x600060; 0x7fffe0; 0x7fffe0; 0x700; 0x700; 0x3fa0700; 0x3ffffc0; 0xffffc;
   0x7fc; 0xc00700; 0x1c00700; 0xc00700; 0xf55700; 0xfffe00; 0x7ffc00; 0x0;
   0x0; 0x0; 0x0; 0x202000; 0x0; 0x0; 0x0; 0x70180;
   0x30180; 0x301c0; 0x380c0; 0x3ff9ff8; 0x3ff8ff8; 0x3d5dd58; 0x380cc18; 0x380fc18;
   0x3806c18; 0x1817c18; 0x1838c18; 0x1871ff8; 0x18e0ff8; 0x18e1c18; 0x19c0c18; 0x19c1c18;
   0x1880c18; 0x1c01c18; 0x1800c18; 0x1c01ff8; 0xc00ff8; 0xff0018; 0xfe0018; 0x1c0000;
   0x0; 0x0; 0x0; 0x0; 0x202000; 0x0; 0x0; 0x0;
   0x18060; 0x18060; 0xc18060; 0x1f9bfe0; 0x7fbfe0; 0xf8060; 0x18060; 0x3018060].
Definition hanzi_data_288 : list N :=
  [0x301bc60; 0x3abbfe0; 0x3ff97f0; 0xfe7030; 0x3000; 0x7fffe0; 0x7fffe0; 0x6000e0;
   0x7000e0; 0x6000e0; 0x7fffe0; 0x6aaae0; 0x7000e0; 0x6000e0; 0x7fffe0; 0x7fffe0;
   0x7000e0; 0x0; 0x0; 0x0; 0x0; 0x202000; 0x0; 0x0;
   0x0; 0x6000; 0x7000; 0x7fffe0; 0x7fffe0; 0x755560; 0x600060; 0x7fffe0;
   0x7fffe0; 0x755560; 0x600060; 0x7fffe0; 0x7fffe0; 0x555540; 0x0; 0x1fffff0;
   0xfffff0; 0x6000; 0x6000; 0x7fffe0; 0x7fffe0; 0x6000; 0x6000; 0x3fffffc;
   0x3fffffc; 0x1555554; 0x0; 0x0; 0x0; 0x0; 0x202000; 0x0;
   0x0; 0x0; 0x1c001c0; 0x1fe00c0; 0x1fff0e0; 0x3e0e0; 0x77fc; 0x67f8;
   0x775c; 0x6618; 0x1fff61c; 0x1ffe618; 0x181f61c; 0x181e7f8; 0x1c377fc; 0xc36618;
   0xe7761c; 0x666618; 0x76761c; 0x3e3618; 0x3c77fc; 0x3c37f8; 0x7e301c; 0xff3818;
   0x1e7dc14; 0x383fc00; 0x100c800; 0x0; 0x0; 0x0; 0x0; 0x202000;
   0x0; 0x0; 0x0; 0x7000; 0x7000; 0x7ffff0; 0x7fffe0; 0x600070;
   0x600060; 0x7ffff0; 0x6aaae0; 0x600070; 0x7fffe0; 0x7ffff0; 0x1800; 0x1c00;
   0x3fffffc; 0x3fffffc; 0xe0380; 0x3c63c0; 0xf860e0; 0x3f5757c; 0x3fffffc; 0x13fffcc;
   0x6000; 0x6000; 0x6000; 0x6000; 0x0; 0x0; 0x0; 0x0;
   0x202000; 0x0; 0x0; 0x0; 0x300c0; 0x700e0; 0xe00e0; 0xe0060;
   0x3fffbfc; 0x3fffbf8; 0x435c; 0x31c318; 0x70e31c; 0xe0e318; 0x1c0731c; 0x3a03bf8;
   0x370fffc; 0x70cb18; 0x31c31c; 0x398318; 0x1f831c; 0xf0318; 0xf03fc; 0xf03f8;
   0x3fc01c; 0xf9e018; 0x1f0f814; 0x3c03c00; 0x1001800; 0x0; 0x0; 0x0;
   0x0; 0x202000; 0x0; 0x0; 0x0; 0x600c0; 0x18618e0; 0x1861860;
   0x1861860; 0x1861bfc; 0x1861bf8; 0x1fffb5c; 0x1fffb08; 0x318; 0x308; 0x1fffb1c;
   0x1fffbf8; 0x1d553fc; 0x1800308; 0x180031c; 0x1aaab08; 0x1fffb1c; 0x1fffb08; 0x3bfc;
   0x3bf8; 0x700381c; 0x3003808; 0x3fff814; 0x3fff000; 0x554000; 0x0; 0x0;
   0x0; 0x0; 0x202000; 0x0; 0x0; 0x0; 0xe00c0; 0xe60e0;
   0xe6060; 0xe6060; 0x1fff3fc; 0x1fff3f8; 0x15f735c; 0xe3b08; 0xe1b1c; 0xe1b08;
   0x7fffb1c; 0x3fffbf8; 0x55553fc; 0x308; 0x155531c; 0x1fff308; 0x1fff31c; 0x1803308;
   0x1c073fc; 0x18033f8; 0x1c0701c; 0x1803008; 0x1fff01c; 0x1fff000; 0x1c07000; 0x0;
   0x0; 0x0; 0x0; 0x202000; 0x0; 0x0; 0x0; 0x0;
   0x2aaaaa8; 0x7fffffc; 0x2baaba8; 0x1801c0; 0x1801c0; 0x1c01c0; 0xae8ae8; 0x1ff9ffc;
   0x1ff9ff8; 0x1819c1c; 0x1819818; 0x1819c1c; 0x1819818; 0x1ff9ffc; 0x1ff9ff8; 0x1d59d5c;
   0x1819818; 0x1819c1c; 0x1819818; 0x1819c1c; 0x1ff9ff8; 0x1ff9ffc; 0x1ab9ab8; 0x1819c1c;
   0x0; 0x0; 0x0; 0x0; 0x202000; 0x0; 0x0; 0x0;
   0x701c0; 0x600c0; 0xe00e0; 0x2aea860; 0x3fffffc; 0x3aabbf8; 0x3003f5c; 0x3003b18;
   0x1fff71c; 0xffe318; 0x71c; 0x3f8; 0x7fc; 0x3fff318; 0x7fff71c; 0x318318;
   0x31871c; 0x318318; 0x31c7fc; 0x230c3f8; 0x630e01c; 0x630f018; 0x7707c14; 0x3f03e00;
   0x1f00c00; 0x0; 0x0; 0x0; 0x0; 0x202000; 0x0; 0x0;
   0x0; 0xc001c0; 0x1fe00c0; 0x7fc1c0; 0x2cffc; 0xdffc; 0xc0e0; 0x3ffc3e0;
   0x3ffe7f0; 0x30fff0; 0x306cd8; 0x3071dc; 0x3030cc; 0x3071c4; 0x2070c0; 0x7fffc0;
   0x7fffc0; 0x7000c0; 0x6000c0; 0x7fffc0; 0x7fffc0; 0x7000c0; 0x6000c0; 0x7fffc0;
   0x7fffc0; 0x7000c0; 0x0; 0x0; 0x0; 0x0; 0x202000; 0x0;
   0x0; 0x0; 0x6000; 0x7000; 0x7fffc0; 0x3fffc0; 0x7000c0; 0x3000c0;
   0x7fffc0; 0x3fffc0; 0x7000c0; 0x3000c0; 0x7fffc0; 0x2aaa80; 0x1c01c0; 0x1c0180;
   0x1ffdff8; 0x1ff9ff8; 0x181d818; 0x1819818; 0x1ffdff8; 0x1ff9ff8; 0x181d818; 0x1819818;
   0x1ffdff8; 0x1ff9ff8; 0x181d818; 0x0; 0x0; 0x0; 0x0; 0x202000;
   0x0; 0x0; 0x0; 0x600c0; 0x600e0; 0x1fff060; 0x1fff060; 0x1c033fc;
   0x18033f8; 0x1fff35c; 0x1aab308; 0x1c0331c; 0x1fff308; 0x1fff31c; 0x303f8; 0x3fffffc;
   0x3fffb08; 0x175d71c; 0x72e308; 0x1e6731c; 0x3c63b08; 0x7d75ffc; 0x2ffebf8; 0xfff01c;
   0x60008; 0x60014; 0x60000; 0x60000; 0x0; 0x0; 0x0; 0x0;
   0x202000; 0x0; 0x0; 0x0; 0xc000c0; 0x1ffa0e0; 0x7ff860; 0xc62860;
   0xc673fc; 0x6663f8; 0x76e35c; 0x3ffff08; 0x3ffff18; 0x3f8308; 0x77c31c; 0xe6e3f8;
   0x1c673fc; 0x7863f08; 0x3ffff1c; 0xfff308; 0x1c6331c; 0xc63308; 0x1fff3fc; 0xfff3f8;
   0x1c6301c; 0xc63008; 0x1fff01c; 0xfff000; 0x1c03000; 0x0; 0x0; 0x0;
   0x0; 0x202000; 0x0; 0x0; 0x0; 0x307060; 0x383060; 0x19fe60;
   0x19fe20; 0x1987fc; 0x2b987f8; 0x7fdffdc; 0x3fdff88; 0x19d879c; 0x18d8788; 0x19fff9c;
   0x9eb9f8; 0x1de71f8; 0xdaeb88; 0xf3ff9c; 0xf01988; 0x70199c; 0x61f988; 0x71f9fc;
   0xf199f8; 0xf99d5c; 0x1d98c08; 0x39d8e14; 0x38ef700; 0x104f300; 0x0; 0x0;
   0x0; 0x0; 0x202000; 0x0; 0x0; 0x0; 0x1c00060; 0x1ffe860;
   0x17ffc70; 0xc31820; 0xc719fc; 0xe631f8; 0x1fffddc; 0x1fffd88; 0x198cd9c; 0x1888d88;
   0x1fffd9c; 0x1fffdf8; 0x1c1fdfc; 0xc1fd88; 0x7fddd9c; 0x3fdfd88; 0x1d58d9c; 0xc9fd88;
   0x1ddfdfc; 0xd8edf8; 0x1f0cd5c; 0xc1ec08; 0x1c1fc14; 0xf3be00; 0xf10600; 0x0;
   0x0; 0x0; 0x0; 0x202000; 0x0; 0x0; 0x0; 0xe000;
   0xe000; 0xe000; 0xe000; 0x1fffff0; 0x1ffffe0; 0x1c0e070; 0xc0e060; 0xe0e070;
   0x60e060; 0x55f570; 0xffffe0; 0x7ffff0; 0x700e70; 0x700c70; 0x381c30; 0x1c3870;
   0xe3830; 0x7f030; 0x3e038; 0x7f018; 0x1ffc1c; 0x1fc3fdc; 0x3f80fce; 0x1c001c4].
Definition hanzi_data_289 : list N :=
  [0x0; 0x0; 0x0; 0x0; 0x202000; 0x0; 0x0; 0x0;
   0x1801c0; 0x1800c0; 0x1805e0; 0x181fe0; 0x7ffdff0; 0x3ff8c30; 0x319cc38; 0x3198618;
   0x199c71c; 0x19830e; 0x1ffdffc; 0x3ff9ff8; 0x1d7dc00; 0x1879800; 0x1c7dc00; 0xcfdff8;
   0xcddff8; 0xfcdaa8; 0x79dc00; 0x38d800; 0x78dc00; 0xfcfff8; 0x3cf7ffc; 0x387f800;
   0x3035400; 0x0; 0x0; 0x0; 0x0; 0x202000; 0x0; 0x0;
   0x0; 0x180000; 0x182aa8; 0x183ffc; 0x18300c; 0x3fff1cc; 0x3ffb1cc; 0x319c1c0;
   0x319bff8; 0x199fffc; 0x198060; 0x1ffc370; 0x3ff8330; 0x1d7c338; 0x1879ff8; 0x1c7dff8;
   0xce8300; 0xcdc300; 0xfcc300; 0x78dff4; 0x38dffc; 0x78e35c; 0xfc6300; 0x3cf7300;
   0x387b300; 0x3013300; 0x0; 0x0; 0x0; 0x0; 0x202000; 0x0;
   0x0; 0x0; 0x1801c0; 0x1800c0; 0x1806e0; 0x180e70; 0x7ffdd38; 0x3ff9ffc;
   0x319f7fc; 0x3998620; 0x199ce70; 0x198c30; 0x1ffd85c; 0x1ffb8cc; 0x1d7d0ec; 0x1869fe0;
   0x1c7dff0; 0xcecc38; 0xccce5c; 0xf8c6ec; 0x78c7c0; 0x38e380; 0x7c67c0; 0xfe6ef0;
   0x1cf747c; 0x383b81c; 0x3019004; 0x0; 0x0; 0x0; 0x0; 0x202000;
   0x0; 0x0; 0x0; 0x0; 0x0; 0x0; 0xfffff0; 0xfffff0;
   0xc30c30; 0xc30c70; 0xc30c30; 0xc30c70; 0xc30c30; 0xc30c70; 0xc30c30; 0xc30c70;
   0xc30c30; 0xc30c70; 0xc30c30; 0xc30c70; 0xc30c30; 0xc30c70; 0xc30c30; 0xc30c70;
   0x3fffffe; 0x7fffffe; 0x0; 0x0; 0x0; 0x0; 0x0; 0x0;
   0x202000; 0x0; 0x0; 0x0; 0x0; 0x2aaaa0; 0x7fffe0; 0x2aeaa0;
   0x6000; 0x6000; 0x6000; 0x3fffffc; 0x3fffffc; 0x6000; 0x6000; 0x6000;
   0x7f00; 0x7e00; 0x1400; 0x7fffe0; 0x7fffe0; 0x638c60; 0x639c60; 0x638c60;
   0x639c60; 0x638c60; 0x7fffffc; 0x3fffffc; 0x0; 0x0; 0x0; 0x0;
   0x0; 0x202000; 0x0; 0x0; 0x0; 0x6000; 0x6000; 0x6000;
   0xfffff0; 0xfffff0; 0xc06030; 0xc06030; 0xc06030; 0xc06030; 0xfffff0; 0xfffff0;
   0x6000; 0x6000; 0x6000; 0x6000; 0xffffe0; 0xfffff0; 0xe30c60; 0xe30c70;
   0xe30c60; 0xe30c70; 0xe30c60; 0x7fffffc; 0x3fffffc; 0x0; 0x0; 0x0;
   0x0; 0x0; 0x202000; 0x0; 0x0; 0x0; 0x60600; 0xe0600;
   0x1c0700; 0x380380; 0x7001c0; 0xe000f0; 0x7dffffc; 0x39fff9c; 0x1181c00; 0x181c00;
   0x1c0e00; 0x1c0f00; 0x1fc7c0; 0xfc1f0; 0x10070; 0xffffe0; 0xfffff0; 0xe30c60;
   0xe31c70; 0xe30c60; 0xe31c70; 0xe30c60; 0x7fffffc; 0x3fffffc; 0x0; 0x0;
   0x0; 0x0; 0x0; 0x202000; 0x0; 0x0; 0x0; 0x0;
   0xaaaa8; 0x1ffffc; 0xeaba8; 0xc0180; 0xcab80; 0x1ffffc0; 0x1feebc0; 0x1c0c7c0;
   0x1806fe0; 0x1c07c60; 0xc07870; 0xd5fe38; 0xfd8f9c; 0x7c031c; 0x2aaaa0; 0x7ffff0;
   0x6baee0; 0x639c70; 0x638c60; 0x639c70; 0x638c60; 0x7fffffc; 0x3fffffc; 0x0;
   0x0; 0x0; 0x0; 0x0; 0x202000; 0x0; 0x0; 0x0;
   0x300000; 0x7fa000; 0x7ffff0; 0x6fe0; 0x6000; 0x6000; 0x3fffffc; 0x3fffffc;
   0x3fc00; 0x76e00; 0x1e6700; 0x3c6380; 0x1f061f0; 0x7e06078; 0x3d5555c; 0x7fffe0;
   0x7fffe0; 0x738ce0; 0x739ce0; 0x738ce0; 0x739ce0; 0x738ce0; 0x3fffffc; 0x3fffffc;
   0x0; 0x0; 0x0; 0x0; 0x0; 0x202000; 0x0; 0x0;
   0x0; 0x180180; 0x380180; 0x1c0380; 0xc0700; 0xe0700; 0x3fffffc; 0x3fffffc;
   0x2aaaaa8; 0x20400; 0xe0700; 0x7e03c0; 0x1f000e0; 0x1c0007c; 0x1000038; 0x7fffe0;
   0x7fffe0; 0x639c60; 0x638c60; 0x639c60; 0x638c60; 0x639c60; 0x638c60; 0x7fffffc;
   0x3fffffc; 0x0; 0x0; 0x0; 0x0; 0x0; 0x202000; 0x0;
   0x0; 0x0; 0x6000; 0x6000; 0xfffff0; 0xfffff0; 0x557550; 0x6000;
   0x6000; 0x3fffffc; 0x3fffffc; 0xe0e00; 0x1c0700; 0x3803c0; 0x7ffff0; 0xebffe0;
   0xc00000; 0x2aaaa0; 0x7ffff0; 0x6baee0; 0x638c70; 0x638c60; 0x638c70; 0x638c60;
   0x7fffffc; 0x3fffffc; 0x0; 0x0; 0x0; 0x0; 0x0; 0x202000;
   0x0; 0x0; 0x0; 0x7000; 0x6000; 0x7fffe0; 0x3fffe0; 0x7575e0;
   0x3060e0; 0x7070e0; 0x3060e0; 0x3fffffc; 0x3fffffc; 0x1f800; 0x39c00; 0x71f00;
   0x3e0780; 0x7fc01fc; 0x3fffffc; 0x17ffffc; 0x6baee0; 0x739c60; 0x638c60; 0x739c60;
   0x638c60; 0x7fffffc; 0x3fffffc; 0x0; 0x0; 0x0; 0x0; 0x0;
   0x202000; 0x0; 0x0; 0x0; 0x11c00; 0x70c00; 0x1f61c00; 0x1fffa00;
   0x5ffffc; 0x3bf8; 0x1f43800; 0x1fffa00; 0x5ffffc; 0xe0e3f8; 0x7dc000; 0x11fc000;
   0x307f000; 0x3bfffe0; 0x1fc1ff8; 0xe00030; 0x7fffe0; 0x7fffe0; 0x639c60; 0x638c60;
   0x639c60; 0x638c60; 0x3fffffc; 0x3fffffc; 0x1555554; 0x0; 0x0; 0x0;
   0x0; 0x202000; 0x0; 0x0; 0x0; 0x70300; 0x60300; 0x70300;
   0x60300; 0xf7ffc; 0x3e3ff8; 0x7f0300; 0x1e60300; 0x3c70300; 0x3860300; 0x1077f00;
   0x67ffc; 0x707fc; 0x60000; 0x555550; 0xfffff0; 0xfffff0; 0xc30c30; 0xc30c30;
   0xc30c30; 0xc30c30; 0xc30c30; 0x3fffffc; 0x3fffffc; 0x0; 0x0; 0x0;
   0x0; 0x0; 0x202000; 0x0; 0x0; 0x0; 0x60600; 0x60630;
   0x70630; 0x30630; 0x3ff8630; 0x3ff8630; 0x1c630; 0x1c630; 0x1ce630; 0x3ce630;
   0x707630; 0xe02630; 0xc00600; 0x0; 0x7ffff0; 0xffffe0; 0xf75d70; 0xe30c60;
   0xe31c70; 0xe30c60; 0xe31c70; 0xe30c60; 0x7fffffc; 0x3fffffc; 0x0; 0x0;
   0x0; 0x0; 0x0; 0x202000; 0x0; 0x0; 0x0; 0x6000;
   0xf000; 0x1f800; 0x3bc00; 0x1f1f00; 0x3e0780; 0x1fffff0; 0x7eaaafe; 0x380001c].
Definition hanzi_data_290 : list N :=
  [0x3fffc0; 0x3fffc0; 0x3000c0; 0x3000c0; 0x3fffc0; 0x3fffc0; 0x0; 0xfffff0;
   0xffffe0; 0xe31c70; 0xe30c60; 0xe31c70; 0xe30c60; 0x3fffffc; 0x3fffffc; 0x1555554;
   0x0; 0x0; 0x0; 0x0; 0x202000; 0x0; 0x0; 0x0;
   0x700; 0x300; 0x3fffffc; 0x3fffffc; 0x18180; 0x18980; 0xe19dc0; 0x718ce0;
   0x71cc70; 0x1bc670; 0x17e63c; 0xe701e; 0x1c7c0c; 0xf81e00; 0x3f007c0; 0x1800080;
   0x7ffff0; 0x7fffe0; 0x631c70; 0x630c60; 0x631c70; 0x630c60; 0x3fffffc; 0x3fffffc;
   0x1555554; 0x0; 0x0; 0x0; 0x0; 0x202000; 0x0; 0x0;
   0x0; 0x1c0300; 0x1c0380; 0xc0700; 0xaeaea8; 0x1fffff8; 0xaaeaa8; 0x6000;
   0x2aeaa0; 0x7ffff0; 0x2aeaa0; 0x6000; 0x2aaeaa8; 0x3fffffc; 0x2aaaaa8; 0x0;
   0xffffe0; 0xfffff0; 0xe30c60; 0xe30c70; 0xe30c60; 0xe30c70; 0xe30c60; 0x7fffffc;
   0x3fffffc; 0x0; 0x0; 0x0; 0x0; 0x0; 0x202000; 0x0;
   0x0; 0x0; 0x7000; 0x7018; 0x707c; 0x3fff9f0; 0x1fffdc0; 0x1831c00;
   0x1c70e00; 0xc78e00; 0xc78500; 0xf8180; 0x1dc1f0; 0x38f078; 0x1f07c3c; 0x3e01f0c;
   0x1800604; 0x7fffe0; 0x7fffe0; 0x630c60; 0x631c60; 0x630c60; 0x631c60; 0x630c60;
   0x7fffffc; 0x3fffffc; 0x0; 0x0; 0x0; 0x0; 0x0; 0x202000;
   0x0; 0x0; 0x0; 0x7000; 0x7000; 0x7fffc0; 0x3fffc0; 0x7011c0;
   0x3078c0; 0x71e1c0; 0x3080c0; 0x7fffffc; 0x3fffffc; 0x7010c0; 0x3078e0; 0x71f070;
   0x3ec078; 0x3e003c; 0x2aaab0; 0x7ffff0; 0x6baee0; 0x639c70; 0x638c60; 0x639c70;
   0x638c60; 0x7fffffc; 0x3fffffc; 0x0; 0x0; 0x0; 0x0; 0x0;
   0x202000; 0x0; 0x0; 0x0; 0xcc000; 0x38c000; 0x71c000; 0x3fffff0;
   0x3fffff0; 0x18030; 0xe18070; 0x639ff0; 0x731ff0; 0x3f1830; 0x11f1c30; 0x30f1838;
   0x31fdfb8; 0x3f9ef98; 0x1f0611c; 0x800008; 0x7fffe0; 0x7fffe0; 0x639c60; 0x638c60;
   0x639c60; 0x638c60; 0x3fffffc; 0x3fffffc; 0x1555554; 0x0; 0x0; 0x0;
   0x0; 0x202000; 0x0; 0x0; 0x0; 0x0; 0x1ffcff8; 0x1ffcff8;
   0x180cc18; 0x1c1cc18; 0x1ffcc18; 0x1ffcff8; 0x180cff8; 0x1c1cc18; 0x1ffcc18; 0x1ffcff8;
   0x180eff8; 0x1c07018; 0x1f87818; 0xf83000; 0x2aaaa0; 0x7ffff0; 0x6baee0; 0x631c70;
   0x630c60; 0x631c70; 0x630c60; 0x7fffffc; 0x3fffffc; 0x0; 0x0; 0x0;
   0x0; 0x0; 0x202000; 0x0; 0x0; 0x0; 0x300; 0x1fc63e0;
   0x1fc61f8; 0x1806018; 0x1867f18; 0x1837e18; 0x1fbf9f8; 0x1f9ecf8; 0x183ec18; 0x1836618;
   0x1c76718; 0x1fe62f8; 0x1f871f8; 0x1807818; 0x1c01018; 0xffffe0; 0xfffff0; 0xe30c60;
   0xe30c70; 0xe30c60; 0xe30c70; 0xe30c60; 0x7fffffc; 0x3fffffc; 0x0; 0x0;
   0x0; 0x0; 0x0; 0x202000; 0x0; 0x0; 0x0; 0x7000;
   0xf800; 0x3de00; 0xfaf80; 0x7c71f0; 0x3f0e07e; 0x3dfffdc; 0x1c0000; 0x1fffff8;
   0x1fffff8; 0xfffff0; 0xffffe0; 0xf58e70; 0xff87a0; 0xfffff0; 0xeaaaa0; 0xfffff0;
   0xaaaaa0; 0xfffff0; 0xfffff0; 0xe30c70; 0xe30c30; 0x7fffffc; 0x3fffffc; 0x0;
   0x0; 0x0; 0x0; 0x0; 0x202000; 0x0; 0x0; 0x0;
   0x0; 0x0; 0x7ffff0; 0x7fffe0; 0x600070; 0x600060; 0x600070; 0x600060;
   0x7ffff0; 0x7fffe0; 0x600070; 0x600060; 0x600070; 0x600060; 0x7ffff0; 0x7fffe0;
   0x7ffff0; 0x600060; 0x600070; 0x600060; 0x755570; 0x7fffe0; 0x7ffff0; 0x600060;
   0x600070; 0x0; 0x0; 0x0; 0x0; 0x202000; 0x0; 0x0;
   0x0; 0x0; 0x0; 0x7fffffc; 0x3fffbf8; 0x7fff71c; 0x380318; 0x38071c;
   0x3803f8; 0x3807fc; 0x380318; 0x38071c; 0x380318; 0x38071c; 0x3803f8; 0x3807fc;
   0x380318; 0x38071c; 0x380318; 0x3807fc; 0x3803f8; 0x38055c; 0x380018; 0x1fc01c;
   0x1fc000; 0x1fc000; 0x0; 0x0; 0x0; 0x0; 0x202000; 0x0;
   0x0; 0x0; 0x0; 0x2a8; 0x3fff7fc; 0x3fff3f8; 0xe071c; 0xe0308;
   0xe071c; 0xe03f8; 0xe07fc; 0xe0308; 0x55f571c; 0x3fffb08; 0x7ffff1c; 0xe03f8;
   0xe07fc; 0xe0308; 0xe071c; 0xe0308; 0xe07fc; 0xe03f8; 0xe07fc; 0xe0008;
   0xf401c; 0xfc000; 0x7c000; 0x0; 0x0; 0x0; 0x0; 0x202000;
   0x0; 0x0; 0x0; 0x7000; 0x6000; 0x3fffffc; 0x3fffffc; 0x3fffffc;
   0xe0; 0xe0; 0xaaaae0; 0xffffe0; 0xaaaaa0; 0x0; 0x7fffe0; 0x7fffe0;
   0x6000e0; 0x7000e0; 0x7fffe0; 0x7fffe0; 0x6000e0; 0x7fffe0; 0x7fffe0; 0x7000e0;
   0x6000e0; 0x7fffe0; 0x7fffe0; 0x7000e0; 0x0; 0x0; 0x0; 0x0;
   0x202000; 0x0; 0x0; 0x0; 0x7000; 0x6000; 0x1fffffc; 0x3fffff8;
   0x1557554; 0x3000; 0x7fffe0; 0x7fffe0; 0x7555e0; 0x7000e0; 0x7fffe0; 0x7fffe0;
   0x7000e0; 0x7000e0; 0x7fffe0; 0x7fffe0; 0x7000e0; 0x7000e0; 0x7fffe0; 0x7fffe0;
   0x7000e0; 0x7000e0; 0x3fffffc; 0x3fffffc; 0x0; 0x0; 0x0; 0x0;
   0x0; 0x202000; 0x0; 0x0; 0x0; 0x18000; 0x18000; 0x1c3fc;
   0xc3fc; 0x3ffe31c; 0x3ffe30c; 0x355731c; 0x38033fc; 0x3003bfc; 0x3809b0c; 0x383d31c;
   0x387030c; 0x39e031c; 0x38c03fc; 0x3b003fc; 0x3b8030c; 0x19f031c; 0x187c30c; 0x181f3fc;
   0x18073fc; 0x180115c; 0x180000c; 0x1c0001c; 0xfc0000; 0x7c0000; 0x0; 0x0;
   0x0; 0x0; 0x202000; 0x0; 0x0; 0x0; 0x1c0; 0xc0;
   0x3ffe1c0; 0x3ffe0c0; 0x38061c0; 0x38060c0; 0x3806ffc; 0x3806ffc; 0x3ffe1c0; 0x3ffe0e0;
   0x38061e0; 0x38063e0; 0x38067f0; 0x38066f0; 0x3ffedf8; 0x3ffecd8; 0x3ffe1dc; 0x38060ce;
   0x38061cc; 0x38060c4; 0x38061c0; 0x3ffe0c0; 0x3ffe1c0; 0x38060c0; 0x38061c0; 0x0].
Definition hanzi_data_291 : list N :=
  [0x0; 0x0; 0x0; 0x202000; 0x0; 0x0; 0x0; 0x60000;
   0x60000; 0x603fc; 0x603f8; 0x3ffff1c; 0x3ffff08; 0x6031c; 0x603f8; 0x1c61bfc;
   0x1861b08; 0x1c61b1c; 0x1861b08; 0x1c61b1c; 0x1861bf8; 0x1c61bfc; 0x1aebb08; 0x1fffb1c;
   0x1fffb08; 0x1c603fc; 0x603f8; 0x706015c; 0x3060008; 0x356001c; 0x3fe0000; 0x1fc0000;
   0x0; 0x0; 0x0; 0x0; 0x202000; 0x0; 0x0; 0x0;
   0x200000; 0x3182a8; 0x31c7fc; 0x31c3f8; 0x71c71c; 0x60e308; 0xe0e71c; 0xe073f8;
   0x1c077fc; 0x3803b08; 0x7d55f1c; 0x3ffeb08; 0xfff71c; 0xc383f8; 0xc187fc; 0xc18308;
   0xc1c71c; 0xc1c308; 0xc1c7fc; 0xe0e3f8; 0xe077fc; 0xe07008; 0x743c1c; 0x7e1e00;
   0x3c0c00; 0x0; 0x0; 0x0; 0x0; 0x202000; 0x0; 0x0;
   0x0; 0x400000; 0xfe8000; 0x1fffff0; 0x3fff0; 0x1c070; 0x18070; 0x7fffff0;
   0x3fffff0; 0x1c070; 0x1c070; 0xffff70; 0xfffe70; 0xd55770; 0xc00670; 0xffff70;
   0xfffe30; 0xc00770; 0xc00630; 0xffff30; 0xfffe38; 0xc00738; 0xc00618; 0xffff1c;
   0xfffe0c; 0xc0070c; 0x0; 0x0; 0x0; 0x0; 0x202000; 0x0;
   0x0; 0x0; 0x7000; 0x6080; 0x1c7380; 0x386180; 0xf071c0; 0xe860e0;
   0x1dc7070; 0x38f6038; 0x107f018; 0x1f800; 0x7f00; 0x7ffff8; 0x7ffffc; 0x600188;
   0x7555c0; 0x7fff80; 0x7555c0; 0x600180; 0x7fffc0; 0x7fff80; 0x7001c0; 0x600180;
   0x7fffc0; 0x7fff80; 0x7001c0; 0x0; 0x0; 0x0; 0x0; 0x202000;
   0x0; 0x0; 0x0; 0x0; 0x2aaa800; 0x3fffffc; 0x3fffbf8; 0x6071c;
   0x60308; 0x6171c; 0x633f8; 0x3fe37fc; 0x3fe3308; 0x386371c; 0x3863308; 0x186371c;
   0x38633f8; 0x1fff7fc; 0x1fff308; 0x1d5571c; 0x1800308; 0x18007fc; 0x18003f8; 0x1c007fc;
   0x1c00008; 0x1fe001c; 0xfe0000; 0x7c0000; 0x0; 0x0; 0x0; 0x0;
   0x202000; 0x0; 0x0; 0x0; 0xe0000; 0xe0000; 0xe07fc; 0xe07f8;
   0x6ec71c; 0xeec618; 0xcec71c; 0x1cee7f8; 0x18e67fc; 0x38e6618; 0x38e771c; 0x30e3618;
   0x3ce3f1c; 0x1ce07f8; 0xce07fc; 0xee0618; 0x6e071c; 0x700618; 0x38075c; 0x1c07f8;
   0x1f07fc; 0x7c018; 0x3fc1c; 0xfc00; 0x1800; 0x0; 0x0; 0x0;
   0x0; 0x202000; 0x0; 0x0; 0x0; 0x60000; 0x60000; 0x603fc;
   0x603fc; 0x6031c; 0x3fffb1c; 0x3fffb1c; 0x3aebbfc; 0x3061bfc; 0x3061b1c; 0x31e1b1c;
   0xe031c; 0x1f031c; 0xe03fc; 0x1f03fc; 0xf031c; 0x1f031c; 0xf831c; 0x1dc3fc;
   0x20ce3fc; 0x71cf15c; 0x20c781c; 0x7fc3c1c; 0x3f81e00; 0x1f00400; 0x0; 0x0;
   0x0; 0x0; 0x202000; 0x0; 0x0; 0x0; 0x0; 0xaaaaa0;
   0xfffff0; 0xeaeaf0; 0xc06070; 0xc06070; 0xfffff0; 0xfffff0; 0xfffff0; 0x70;
   0xffff70; 0xfffe70; 0xc00770; 0xc00630; 0xffff70; 0xfffe30; 0xc00730; 0xc00630;
   0xffff30; 0xfffe38; 0xc00718; 0xc00618; 0xffff1c; 0xfffe0e; 0xc00704; 0x0;
   0x0; 0x0; 0x0; 0x202000; 0x0; 0x0; 0x0; 0x400000;
   0xf80000; 0x7f07fc; 0xfe3f8; 0x7ff1c; 0x30b08; 0x107071c; 0x1fb03f8; 0x1ffc7fc;
   0x1ffb08; 0x7ff1c; 0x30b08; 0x7071c; 0x3e303f8; 0x7ff07fc; 0x3ffb08; 0x7ff1c;
   0x30b08; 0x707fc; 0x20303f8; 0x70707fc; 0x3030008; 0x3ff001c; 0x3fe0000; 0x1fc0000;
   0x0; 0x0; 0x0; 0x0; 0x202000; 0x0; 0x0; 0x0;
   0x700000; 0xfffa80; 0x5ffff0; 0x38a0; 0x1800; 0xfffff0; 0x1fffff0; 0xc00;
   0x3fffffc; 0x3fffffc; 0x1555754; 0x380; 0x7fffc0; 0x7fffc0; 0x6003e0; 0x6aabf0;
   0x7fffbc; 0x60039e; 0x75578c; 0x7fff80; 0x755780; 0x600380; 0x7fff80; 0x7fff80;
   0x600380; 0x0; 0x0; 0x0; 0x0; 0x202000; 0x0; 0x0;
   0x0; 0x0; 0x0; 0x3fff3fc; 0x3fff3fc; 0x731c; 0x80330c; 0x1c1f31c;
   0xc3b3fc; 0xe773fc; 0x66330c; 0x7e731c; 0x3c330c; 0x3c731c; 0x3833fc; 0x7c73fc;
   0xee330c; 0xe7731c; 0x1c3330c; 0x1c3f3fc; 0x81f3fc; 0xf15c; 0x300c; 0x7fff01c;
   0x3fff000; 0x0; 0x0; 0x0; 0x0; 0x0; 0x202000; 0x0;
   0x0; 0x0; 0x70000; 0x30000; 0x383fc; 0x383fc; 0x31c31c; 0x70c30c;
   0x60e31c; 0xe063fc; 0x1c073fc; 0x3fffb0c; 0x3ffff1c; 0x3003b0c; 0x100031c; 0x3fc;
   0x1fff3fc; 0xfff30c; 0x1c0731c; 0xc0330c; 0x1c073fc; 0xc033fc; 0x1c0715c; 0xc0300c;
   0x1fff01c; 0xfff000; 0x1c07000; 0x0; 0x0; 0x0; 0x0; 0x202000;
   0x0; 0x0; 0x0; 0xe180; 0xe180; 0x55f5c0; 0xffffe0; 0x55f570;
   0xe038; 0x7fffdc; 0x7fffc0; 0xe000; 0x2aaeaa8; 0x3fffffc; 0x0; 0x555540;
   0x7fffc0; 0x7555c0; 0x7000c0; 0x7fffc0; 0x7aaac0; 0x7000c0; 0x7fffc0; 0x7fffc0;
   0x7000c0; 0x7fffc0; 0x7fffc0; 0x7000c0; 0x0; 0x0; 0x0; 0x0;
   0x202000; 0x0; 0x0; 0x0; 0x6000; 0x6000; 0x1fffff8; 0x1fffff8;
   0x1557550; 0x3000; 0x3fffc0; 0x3aaac0; 0x3000c0; 0x3fffc0; 0x3555c0; 0x3000c0;
   0x3fffc0; 0x3000c0; 0x3555c0; 0x3fffc0; 0x3000c0; 0x3000c0; 0x3fffffc; 0x3fffffc;
   0x60600; 0x3f0f80; 0x1fc03f0; 0x3e000fc; 0x1000018; 0x0; 0x0; 0x0;
   0x0; 0x202000; 0x0; 0x0; 0x0; 0x0; 0x1fff000; 0x1fff3fc;
   0x18033fc; 0x180331c; 0x180330c; 0x180331c; 0x1fff3fc; 0x1fff3fc; 0xc330c; 0xc331c;
   0xc330c; 0x15d731c; 0x3fff3fc; 0x3fff3fc; 0x18330c; 0x1c331c; 0x18330c; 0x1833fc;
   0x23833fc; 0x730315c; 0x237b00c; 0x3f7f81c; 0x3e0fc00; 0x1c01800; 0x0; 0x0;
   0x0; 0x0; 0x202000; 0x0; 0x0; 0x0; 0x180; 0xaa8180;
   0x1ffbfc0; 0xc1bfe0; 0x1c1b070; 0xc1b838; 0xf999dc; 0xf99f8c; 0x7018f00; 0x3018700].
Definition hanzi_data_292 : list N :=
  [0x3ff87c0; 0x1fe01fc; 0x7ffffc; 0x7fffe0; 0x7555e0; 0x7000e0; 0x7fffe0; 0x7aaae0;
   0x7000e0; 0x7fffe0; 0x7fffe0; 0x7000e0; 0x7fffe0; 0x7fffe0; 0x7000e0; 0x0;
   0x0; 0x0; 0x0; 0x202000; 0x0; 0x0; 0x0; 0x39c000;
   0x38c000; 0x39c1fc; 0x38c1f8; 0x39c19c; 0x38c188; 0x339d99c; 0x3b8d9f8; 0x1fdd9fc;
   0xffd988; 0x7fd99c; 0x38d988; 0x39d99c; 0x38d9f8; 0x39d9fc; 0x38d988; 0x39d99c;
   0x38d988; 0x739d9fc; 0x238d9f8; 0x73fd95c; 0x33ff808; 0x3f9fe1c; 0x3f03e00; 0x400;
   0x0; 0x0; 0x0; 0x0; 0x202000; 0x0; 0x0; 0x0;
   0xc00000; 0xf80000; 0x1ffc7fc; 0x3ffbfc; 0x1f71c; 0x3030c; 0x7071c; 0x603fc;
   0xe07fc; 0xfffb0c; 0x1ffff1c; 0x1eaab0c; 0xe0075c; 0x7003fc; 0x7807fc; 0x38030c;
   0x1e071c; 0xf030c; 0x787fc; 0x1f3fc; 0xfd5c; 0x3980c; 0x7ff1c1c; 0x3fe0800;
   0x1500800; 0x0; 0x0; 0x0; 0x0; 0x202000; 0x0; 0x0;
   0x0; 0x70000; 0x60000; 0xe03fc; 0xc03fc; 0x7fffb1c; 0x3fffb0c; 0x7fffb1c;
   0x303fc; 0x4383fc; 0xe1830c; 0x71c31c; 0x70e30c; 0x3f731c; 0x1ffbfc; 0x1ff3fc;
   0xe030c; 0x67031c; 0x63830c; 0xe1c3fc; 0xc0e3fc; 0x1c0715c; 0x3fff80c; 0x3fff81c;
   0x3003800; 0x1000000; 0x0; 0x0; 0x0; 0x0; 0x202000; 0x0;
   0x0; 0x0; 0x1c000; 0x198000; 0x79c3fc; 0xe183fc; 0x1c1c31c; 0x1830c;
   0x3ffff1c; 0x3fffbfc; 0x15dd7fc; 0xcc30c; 0x19dc31c; 0x18cc30c; 0x1dcc31c; 0xccc3fc;
   0xfce3fc; 0x6ce30c; 0x7c631c; 0x3c630c; 0x1c73fc; 0x20e3bfc; 0x71f995c; 0x30ddc0c;
   0x3fcce1c; 0x3f80700; 0x600; 0x0; 0x0; 0x0; 0x0; 0x202000;
   0x0; 0x0; 0x0; 0xe0000; 0xe0000; 0xe03fc; 0xe03fc; 0x1fff31c;
   0x1fff30c; 0xe031c; 0xe03fc; 0xe03fc; 0xe030c; 0x3fffb1c; 0x3fffb0c; 0x6031c;
   0xe03fc; 0xe03fc; 0x1fff30c; 0x1fff31c; 0xaea30c; 0xe03fc; 0xe03fc; 0xe03fc;
   0xe000c; 0x7fffc1c; 0x3fffc00; 0x0; 0x0; 0x0; 0x0; 0x0;
   0x202000; 0x0; 0x0; 0x0; 0x60000; 0x860000; 0x18633fc; 0x18633fc;
   0x1c6731c; 0xc6630c; 0xe6631c; 0x66e3fc; 0x6643fc; 0x6030c; 0x3ffff1c; 0x3fffb0c;
   0x1f035c; 0x1f83fc; 0x3fc3fc; 0x36c30c; 0x76c31c; 0xe6e30c; 0x1e673fc; 0x1c63bfc;
   0x7861c1c; 0x3060c0c; 0x2060c14; 0x60000; 0x60000; 0x0; 0x0; 0x0;
   0x0; 0x202000; 0x0; 0x0; 0x0; 0xe0000; 0x60000; 0x5703fc;
   0x1ff83f8; 0x1ffe31c; 0xe07b08; 0x70ff1c; 0x3bc3f8; 0x1f83fc; 0xf8308; 0x1ff31c;
   0xcfb08; 0x3ff3b1c; 0x3ff03f8; 0x383c3fc; 0x181e308; 0x1c17b1c; 0xe7bb08; 0x7f13fc;
   0x3c03f8; 0x1e015c; 0xf8008; 0x7f01c; 0xfc00; 0x1800; 0x0; 0x0;
   0x0; 0x0; 0x202000; 0x0; 0x0; 0x0; 0x0; 0x0;
   0x3fffbfc; 0x3fffbf8; 0x3b1c; 0x3b08; 0x1fffb1c; 0x1ffbbf8; 0x1c3bfc; 0x183b08;
   0x1c3b1c; 0xffbb08; 0x1ffbb5c; 0x183bf8; 0x1c3bfc; 0x183b08; 0x1c3b1c; 0x1ffbb08;
   0x1fffbfc; 0x3bf8; 0x395c; 0x2aab808; 0x7fff81c; 0x3fff800; 0x0; 0x0;
   0x0; 0x0; 0x0; 0x202000; 0x0; 0x0; 0x0; 0xe000;
   0x38e1c0; 0x1c6180; 0xc7380; 0xfffff0; 0xfffff0; 0x3800; 0x1c00; 0x3fffffc;
   0x3fffffc; 0x1e0780; 0x3803c0; 0xfffff0; 0x3fffff8; 0x7f801dc; 0x23fffc8; 0x3fffc0;
   0x3800c0; 0x3d55c0; 0x3fffc0; 0x3d55c0; 0x3800c0; 0x3fffc0; 0x3fffc0; 0x3801c0;
   0x0; 0x0; 0x0; 0x0; 0x202000; 0x0; 0x0; 0x0;
   0x70000; 0x270000; 0x3383fc; 0x7383fc; 0xe1c31c; 0xe8e30c; 0x1fff31c; 0x38ff3fc;
   0x10c43fc; 0xcc30c; 0xce31c; 0xc630c; 0x1fff31c; 0x1fff3fc; 0xc33fc; 0xc3b0c;
   0xc131c; 0x3fffb0c; 0x3fffbfc; 0xc03fc; 0xc015c; 0xc000c; 0xc001c; 0xc0000;
   0xc0000; 0x0; 0x0; 0x0; 0x0; 0x202000; 0x0; 0x0;
   0x0; 0x19c000; 0x18c000; 0x19c3fc; 0x18c3fc; 0x119cb1c; 0x398df0c; 0x199db1c;
   0x1d8fbfc; 0xd9f3fc; 0xf8f30c; 0x59d31c; 0x18c30c; 0x79c31c; 0xf8e3fc; 0x1d9f3fc;
   0x398fb0c; 0x718df1c; 0x18cf0c; 0x18e3fc; 0x21863fc; 0x718715c; 0x218380c; 0x7f81c1c;
   0x3f80e00; 0x1f00600; 0x0; 0x0; 0x0; 0x0; 0x202000; 0x0;
   0x0; 0x0; 0x0; 0x1fff000; 0x1fff3fc; 0x18033f8; 0x1c0731c; 0x1803308;
   0x1fff31c; 0x1fff3f8; 0x1c073fc; 0x1803308; 0x1c0731c; 0x1fff308; 0x1fff31c; 0x633f8;
   0x10673fc; 0x38e3308; 0x1ec731c; 0xfc3308; 0x3873fc; 0x3833f8; 0x7073fc; 0xe7b008;
   0x3c7f01c; 0x380f800; 0x1001000; 0x0; 0x0; 0x0; 0x0; 0x202000;
   0x0; 0x0; 0x0; 0x1c0380; 0x1c0380; 0xe0700; 0xfffff8; 0x1fffff8;
   0x3000; 0x557d40; 0x7fffe0; 0x555d50; 0xc00; 0x3fffffc; 0x3fffffc; 0x700;
   0x7fff80; 0x7fffc0; 0x6003e0; 0x7ffff0; 0x7fff78; 0x60033c; 0x7fff0c; 0x7fff00;
   0x600300; 0x7fff00; 0x7fff00; 0x600300; 0x0; 0x0; 0x0; 0x0;
   0x202000; 0x0; 0x0; 0x0; 0x1c000; 0xc000; 0x3fe3fc; 0x3fe3fc;
   0x3d731c; 0x383b0c; 0x1c1f1c; 0xfffffc; 0x1fffffc; 0xc3030c; 0x1c7031c; 0xc3030c;
   0x7ffff1c; 0x3fffffc; 0x1c703fc; 0xc3030c; 0x1fffb1c; 0xfffb0c; 0x1d753fc; 0x8303fc;
   0x7015c; 0x3000c; 0x7001c; 0x3e000; 0x3e000; 0x0; 0x0; 0x0;
   0x0; 0x202000; 0x0; 0x0; 0x0; 0x70000; 0x38000; 0x7383fc;
   0x61c3f8; 0xe0e31c; 0x1fff318; 0x3fff31c; 0x32033f8; 0x71c3f8; 0xe1c318; 0x1c0f31c;
   0x3837b18; 0x703bf1c; 0x18bf8; 0x1ffc3fc; 0xffe318; 0xe1f31c; 0x71bb18; 0x3b9ffc;
   0x1f0bf8; 0x1f015c; 0x3f8018; 0x1f9f01c; 0x3e0fc00; 0x3801c00; 0x0; 0x0].
Definition hanzi_data_293 : list N :=
  [0x0; 0x0; 0x202000; 0x0; 0x0; 0x0; 0xe0000; 0x30e3800;
   0x38e3bfc; 0x18e73fc; 0x1ce731c; 0xeee30c; 0x4e431c; 0xe03fc; 0x1fff3fc; 0x1fff30c;
   0x180331c; 0x180330c; 0x1fff31c; 0x1fff3fc; 0x1d573fc; 0x180330c; 0x180331c; 0x1fff30c;
   0x1fff3fc; 0x18033fc; 0x180315c; 0x180300c; 0x1d0301c; 0x1f83000; 0xf03000; 0x0;
   0x0; 0x0; 0x0; 0x202000; 0x0; 0x0; 0x0; 0x406000;
   0xe0e000; 0x70c3fc; 0x30c3f8; 0x1fffb1c; 0x1fffb08; 0x1d7531c; 0x18603f8; 0x18603fc;
   0x1aea3a8; 0x1fff31c; 0xaebb08; 0x61b1c; 0x61bf8; 0x3fffbfc; 0x3fffb08; 0x307031c;
   0x3078308; 0x307c35c; 0x386e3f8; 0x3f673fc; 0x1e63c08; 0x1e61f1c; 0x60600; 0x60000;
   0x0; 0x0; 0x0; 0x0; 0x202000; 0x0; 0x0; 0x0;
   0xc01000; 0xe0f000; 0x7ff3fc; 0x1f83f8; 0x7fc31c; 0x1f3fb08; 0x1c37f1c; 0x38bf8;
   0x555d7fc; 0x3ffff08; 0x7ffff1c; 0xee308; 0xe735c; 0xe33f8; 0x1fffbfc; 0x1ffff08;
   0x18e7f1c; 0x18e3308; 0x18e73fc; 0x18e33f8; 0x1ce715c; 0x1ee3008; 0xee701c; 0xe0000;
   0xe0000; 0x0; 0x0; 0x0; 0x0; 0x202000; 0x0; 0x0;
   0x0; 0x70000; 0x60000; 0x701fc; 0x1fff9f8; 0x1fffd9c; 0xaea988; 0xc7319c;
   0xe631f8; 0x6771fc; 0x666188; 0x37619c; 0x262188; 0x3fffd9c; 0x3fffdf8; 0xf81fc;
   0x1f8188; 0x1fc19c; 0x36e188; 0x7771fc; 0xe639f8; 0x3c71f5c; 0x3860e08; 0x107041c;
   0x60000; 0x70000; 0x0; 0x0; 0x0; 0x0; 0x202000; 0x0;
   0x0; 0x0; 0x60000; 0x70000; 0x701fc; 0xf81f8; 0x1dc19c; 0x38e188;
   0x70719c; 0x1e039f8; 0x7fffdfc; 0x3bfef88; 0x315459c; 0x188; 0x183119c; 0x18219f8;
   0x1c731fc; 0xc63188; 0xe6319c; 0x663188; 0x7671fc; 0x3021f8; 0x30015c; 0x180008;
   0x3fffc1c; 0x3fffc00; 0x0; 0x0; 0x0; 0x0; 0x0; 0x202000;
   0x0; 0x0; 0x0; 0x0; 0x3fff800; 0x3fffbfc; 0x3bf8; 0x183b1c;
   0x183b08; 0x1fffb1c; 0x1ffbbf8; 0x15d7bfc; 0x183b08; 0x183b1c; 0x2babb08; 0x3fffb5c;
   0x2aabbf8; 0x183bfc; 0x183b08; 0x15d5b1c; 0x3ffdb08; 0x3ffdbfc; 0x181bf8; 0x181d5c;
   0x180c08; 0x7ffee1c; 0x3ffe600; 0x600; 0x0; 0x0; 0x0; 0x0;
   0x202000; 0x0; 0x0; 0x0; 0x60000; 0x60000; 0x3fffbfc; 0x3fffbf8;
   0x6039c; 0xaeab88; 0x1fffb9c; 0x603f8; 0x15757fc; 0x3ffff88; 0x3ffff9c; 0x388;
   0xfff39c; 0xfff3f8; 0xc033fc; 0xeab388; 0xfff39c; 0xc03388; 0xc033fc; 0xfff3f8;
   0xfff15c; 0xc03008; 0xc0301c; 0xf83000; 0xf83000; 0x0; 0x0; 0x0;
   0x0; 0x202000; 0x0; 0x0; 0x0; 0xc00000; 0xff8000; 0x1fff9fc;
   0x6b9f8; 0x6019c; 0x60188; 0x3fffd9c; 0x3fffdf8; 0x1d775fc; 0xc62188; 0xc6719c;
   0x2eea988; 0x7fffd9c; 0x3fffdf8; 0xc671fc; 0xc62188; 0x1d7759c; 0x3fffd88; 0x3fffdfc;
   0x601f8; 0x6015c; 0x60008; 0x1fff81c; 0x1fff800; 0x0; 0x0; 0x0;
   0x0; 0x0; 0x202000; 0x0; 0x0; 0x0; 0x9c000; 0x1dc000;
   0x19c7fc; 0x38e3fc; 0x10e71c; 0x3ffe30c; 0x3fff71c; 0x187bfc; 0x187ffc; 0x187f0c;
   0x1ffff1c; 0x1ffe30c; 0x18771c; 0x1863fc; 0x1877fc; 0xbae30c; 0x1fff71c; 0xbae30c;
   0x1877fc; 0x1863fc; 0x18755c; 0x3ffe00c; 0x7fff01c; 0x6000; 0x7000; 0x0;
   0x0; 0x0; 0x0; 0x202000; 0x0; 0x0; 0x0; 0x180;
   0xffc180; 0x1ffff80; 0xc1ab80; 0xc38180; 0xe37ffc; 0x777ffc; 0x3e09b0; 0x1c1db0;
   0x3e39b8; 0x1f7f19c; 0x3c3c18c; 0x1004180; 0x3fffe0; 0x7fffe0; 0x3000e0; 0x7fffe0;
   0x3fffe0; 0x7000e0; 0x3fffe0; 0x7fffe0; 0x3000e0; 0x7fffe0; 0x3fffe0; 0x7000e0;
   0x0; 0x0; 0x0; 0x0; 0x202000; 0x0; 0x0; 0x0;
   0xe0000; 0xe0000; 0x703fc; 0x1fff3f8; 0x1fff31c; 0x18e3308; 0x18e331c; 0x1fff3f8;
   0x1fff3fc; 0x18e3308; 0x186331c; 0x1fff308; 0x1fff35c; 0x2303f8; 0x3383fc; 0x31c308;
   0x30f31c; 0x2baab08; 0x7fffbfc; 0x2baabf8; 0x30015c; 0x300008; 0x30001c; 0x300000;
   0x300000; 0x0; 0x0; 0x0; 0x0; 0x202000; 0x0; 0x0;
   0x0; 0x60000; 0x60000; 0x15753fc; 0x1fffbfc; 0x1fffb1c; 0x6030c; 0x6031c;
   0x2aeabfc; 0x3fffffc; 0x2aaab0c; 0x31c31c; 0xf0e30c; 0x1e0731c; 0x3863ffc; 0x1061ffc;
   0x6030c; 0x157531c; 0x1fffb0c; 0x1fffbfc; 0x603fc; 0x6015c; 0x6000c; 0x7fffe1c;
   0x3fffe00; 0x5555400; 0x0; 0x0; 0x0; 0x0; 0x202000; 0x0;
   0x0; 0x0; 0x10000; 0x38000; 0x1fff3fc; 0x1f8fbf8; 0x1803b1c; 0x1803b08;
   0x1803b1c; 0x1fbfbf8; 0x1fbfbfc; 0x1803b08; 0x1803b1c; 0x1803b08; 0x1d57b5c; 0x1fffbf8;
   0x1fff3fc; 0x198308; 0x19c31c; 0x19c308; 0x19c3fc; 0x18c3f8; 0x718e15c; 0x2187008;
   0x7587c1c; 0x3f81e00; 0x1f00c00; 0x0; 0x0; 0x0; 0x0; 0x202000;
   0x0; 0x0; 0x0; 0x60000; 0x60000; 0x3fffbfc; 0x3fffbf8; 0x6031c;
   0x60308; 0x1fff31c; 0xfff3f8; 0x1c603fc; 0x2aeab08; 0x7ffff1c; 0x860308; 0x1c6035c;
   0xfff3f8; 0x1fff3fc; 0x60308; 0x6731c; 0x1fe3308; 0x1fe33fc; 0x63bf8; 0x6795c;
   0x6f808; 0x7ffdc1c; 0x3ff8e00; 0x1540400; 0x0; 0x0; 0x0; 0x0;
   0x202000; 0x0; 0x0; 0x0; 0x1000000; 0x1e00000; 0x3fffbfc; 0x3ffbfc;
   0x100531c; 0x386030c; 0x1c63b1c; 0xce33fc; 0xec73fc; 0x64630c; 0x46631c; 0x6030c;
   0x157531c; 0x3fffbfc; 0x3fffffc; 0x1f830c; 0x1fc31c; 0x3fc30c; 0x76e3fc; 0xe673fc;
   0x1c63d5c; 0x7861e0c; 0x3060c1c; 0x60000; 0x60000; 0x0; 0x0; 0x0;
   0x0; 0x202000; 0x0; 0x0; 0x0; 0x30000; 0x30000; 0x18303fc;
   0x1bffbfc; 0x1fffb1c; 0xeba30c; 0x73031c; 0x3303fc; 0x7fffffc; 0x3ffff0c; 0x7ffff1c].
Definition hanzi_data_294 : list N :=
  [0x3830c; 0x1c31c; 0xfff3fc; 0x1fffffc; 0xc0ff0c; 0x1c0e71c; 0xffe30c; 0x1ffe3fc;
   0xc0e3fc; 0x1c0e15c; 0xc0e00c; 0x1ffe01c; 0xffe000; 0x1c0e000; 0x0; 0x0;
   0x0; 0x0; 0x202000; 0x0; 0x0; 0x0; 0xc0000; 0x8ff800;
   0x1fffbfc; 0x7983f8; 0x398b1c; 0x3b9bb08; 0x3f0fb1c; 0xe0e3f8; 0xe073fc; 0x1c03b08;
   0x7ffff1c; 0x3ffef08; 0x106071c; 0x603f8; 0x603fc; 0x3fffb08; 0x3ffff1c; 0xf0308;
   0x1f83fc; 0x3b83f8; 0x71c3fc; 0xe0e008; 0x1c0781c; 0x3803e00; 0x1000c00; 0x0;
   0x0; 0x0; 0x0; 0x202000; 0x0; 0x0; 0x0; 0x1c00;
   0xe00; 0xfffff0; 0xfffff0; 0xc30c30; 0xc30c30; 0xfffff0; 0xfffff0; 0x6000;
   0xfffff0; 0xfffff0; 0x6000; 0x3fffffc; 0x3fffffc; 0x1c0300; 0xe0700; 0xfffff0;
   0xfffff0; 0x6000; 0x6000; 0x1fffff8; 0xaaeaa8; 0x6000; 0x6000; 0x6000;
   0x0; 0x0; 0x0; 0x0; 0x202000; 0x0; 0x0; 0x0;
   0x7000; 0x2ae000; 0x7ff000; 0x6000; 0x1fffff8; 0x1fffff8; 0x1955558; 0x1bfffd8;
   0x19df558; 0x3cf380; 0xf1f9f0; 0xe39c78; 0xf0f10; 0x3eab80; 0x3fffff0; 0x3f801fc;
   0x33fffdc; 0x3fff80; 0x3801c0; 0x3fff80; 0x3fffc0; 0x380180; 0x3fffc0; 0x3fff80;
   0x3801c0; 0x0; 0x0; 0x0; 0x0; 0x202000; 0x0; 0x0;
   0x0; 0x60000; 0x63ff8; 0x3ff3ff8; 0x3ff1ce0; 0x1d78fc0; 0xe3efa8; 0x67fffc;
   0x3e33c0; 0x3c1ff0; 0x3e1a38; 0x1ffc71c; 0x3e3e3c8; 0x10041c0; 0x7fffe0; 0x7fffe0;
   0x7000e0; 0x7fffe0; 0x7fffe0; 0x7000e0; 0x7fffe0; 0x7fffe0; 0x7000e0; 0x7fffe0;
   0x7fffe0; 0x7000e0; 0x0; 0x0; 0x0; 0x0; 0x202000; 0x0;
   0x0; 0x0; 0x70c000; 0x60c000; 0x70c3fc; 0x60c3fc; 0x7ffff9c; 0x3ffff8c;
   0x70c39c; 0x60c3fc; 0x70c3fc; 0x38c; 0x1fffb9c; 0x1fffb8c; 0x1861b9c; 0x1861bfc;
   0x1861bfc; 0x1861b8c; 0x1fffb9c; 0x1fffb8c; 0x1861bfc; 0x1861bfc; 0x186195c; 0x1aeb80c;
   0x1fff81c; 0x1aab800; 0x1801800; 0x0; 0x0; 0x0; 0x0; 0x202000;
   0x0; 0x0; 0x0; 0x310000; 0x31e000; 0x31fdfc; 0x302dfc; 0x30719c;
   0x30218c; 0x334719c; 0x33421fc; 0x335fffc; 0x337ff8c; 0x1f6719c; 0x1b6718c; 0x1f6f1dc;
   0x70b9fc; 0x71f9fc; 0x79a98c; 0x797d9c; 0xd82d8c; 0xd877fc; 0xcc27fc; 0x1cc755c;
   0x18e200c; 0x386701c; 0x3072000; 0x27000; 0x0; 0x0; 0x0; 0x0;
   0x202000; 0x0; 0x0; 0x0; 0x60000; 0x60000; 0x15751fc; 0x3fff9f8;
   0x3fffd9c; 0x30188; 0xfff19c; 0xfff1f8; 0xc031fc; 0xfff188; 0xfff19c; 0xc03188;
   0xfff19c; 0xeab1f8; 0xc031fc; 0xfff188; 0xd5719c; 0xc03188; 0x7fffdfc; 0x3fffdf8;
   0x71c15c; 0xf0e008; 0x1e0781c; 0x3801c00; 0x1000c00; 0x0; 0x0; 0x0;
   0x0; 0x202000; 0x0; 0x0; 0x0; 0x70000; 0x60000; 0x701fc;
   0xfff9f8; 0x1fff99c; 0x60188; 0x7019c; 0x3fffdf8; 0x3fffdfc; 0x30e188; 0x70719c;
   0xe03188; 0x1fffddc; 0x3fffdf8; 0x38015fc; 0xaaa988; 0x1fffd9c; 0x1aaad88; 0x1ddddfc;
   0x1888df8; 0x1dddd5c; 0x1888c08; 0x7ffff1c; 0x3ffff00; 0x0; 0x0; 0x0;
   0x0; 0x0; 0x202000; 0x0; 0x0; 0x0; 0x60000; 0x68000;
   0x1f7f3fc; 0x1f67bfc; 0x1861b9c; 0x1861b8c; 0x1f6fb9c; 0x1f6fbfc; 0x1861bfc; 0x1861b8c;
   0x1fffb9c; 0x1fffb8c; 0x157539c; 0x603fc; 0x603fc; 0x1fffb8c; 0x1ffff9c; 0xe0738c;
   0x70e3fc; 0x39c3fc; 0x1f815c; 0x1f800c; 0x1fff01c; 0x3f0fe00; 0x1c01e00; 0x0;
   0x0; 0x0; 0x0; 0x202000; 0x0; 0x0; 0x0; 0x70000;
   0x60000; 0xe03fc; 0x3fffbf8; 0x3fffb18; 0x3061b08; 0x3061b1c; 0x1fff3f8; 0x1fff3fc;
   0x60308; 0x1fff31c; 0xffe308; 0x6031c; 0x2aeabf8; 0x3fffbfc; 0x2aeab08; 0x6031c;
   0xfff308; 0x1fff3fc; 0xc033f8; 0x1c0715c; 0xc03008; 0x1fff01c; 0xfff000; 0x1c07000;
   0x0; 0x0; 0x0; 0x0; 0x202000; 0x0; 0x0; 0x0;
   0x0; 0x3fff800; 0x3fffdfc; 0x30019fc; 0x3001d9c; 0x3aab98c; 0x1fff19c; 0xc031fc;
   0x1c071fc; 0xfff18c; 0x1fff19c; 0xc0318c; 0x1c0719c; 0xfff1fc; 0x1fff1fc; 0x6018c;
   0x15f559c; 0x3fffd8c; 0x7fffdfc; 0x20c1fc; 0x70e15c; 0xe0700c; 0x3c03c1c; 0x3801e00;
   0x3000400; 0x0; 0x0; 0x0; 0x0; 0x202000; 0x0; 0x0;
   0x0; 0x30c000; 0x30c000; 0x3fffffc; 0x3fffff8; 0x30c19c; 0x30c198; 0x155559c;
   0x3fffdf8; 0x3fffdfc; 0x198198; 0x19819c; 0x1fffd98; 0x1fffddc; 0x1988df8; 0x199ddfc;
   0x198cd98; 0x1b9dd9c; 0x1bbcd98; 0x1ed7dfc; 0x1ec6df8; 0x1867d5c; 0x1840c18; 0x1801c1c;
   0x1f00c00; 0x1f01c00; 0x0; 0x0; 0x0; 0x0; 0x202000; 0x0;
   0x0; 0x0; 0x0; 0x3fffc00; 0x3fffdfc; 0x1981fc; 0x19819c; 0x1fff98c;
   0x1fff99c; 0x19999fc; 0x19999fc; 0x199998c; 0x1fff99c; 0xaaa98c; 0x19c; 0x1fff9fc;
   0x1fff9fc; 0x18c; 0x3fffd9c; 0x3fffd8c; 0x601fc; 0x6661fc; 0x1c6715c; 0x186380c;
   0x3861e1c; 0x307ce00; 0x7c400; 0x0; 0x0; 0x0; 0x0; 0x202000;
   0x0; 0x0; 0x0; 0x60000; 0x1863800; 0x1c671fc; 0xe661fc; 0x76e19c;
   0x2aea98c; 0x3fffd9c; 0x3aaadfc; 0x3801dfc; 0x3ffed8c; 0x1fff59c; 0xe0618c; 0xe0719c;
   0xe061fc; 0xfff1fc; 0xaea18c; 0x6019c; 0xaea98c; 0x1fff9fc; 0xaea9fc; 0x6015c;
   0x6000c; 0x7fffc1c; 0x3fffc00; 0x0; 0x0; 0x0; 0x0; 0x0;
   0x202000; 0x0; 0x0; 0x0; 0x60700; 0x2aeaea8; 0x3fffffc; 0x60600;
   0x60700; 0xfffff0; 0xfffff0; 0xc30c30; 0xfffff0; 0xfffff0; 0x0; 0x3fffffc;
   0x3fffffc; 0x3aaaa8c; 0x3bfffdc; 0x3000c0; 0x3555c0; 0x3fffc0; 0x3000c0; 0x3aaac0;
   0x3fffc0; 0x3000c0; 0x3fffc0; 0x3fffc0; 0x3000c0; 0x0; 0x0; 0x0].
Definition hanzi_data_295 : list N :=
  [0x0; 0x202000; 0x0; 0x0; 0x0; 0x61190; 0x63198; 0x719b8;
   0x3ff19b0; 0x3ffbff8; 0xc3bff8; 0xe7f558; 0x6ebd78; 0x7c3d78; 0x383938; 0x7f3138;
   0x1e7bd18; 0x7c1bd18; 0x23fffc0; 0x7fffc0; 0x3000c0; 0x7fffc0; 0x3fffc0; 0x7000c0;
   0x3fffc0; 0x7fffc0; 0x3000c0; 0x7fffc0; 0x3fffc0; 0x7000c0; 0x0; 0x0;
   0x0; 0x0; 0x202000; 0x0; 0x0; 0x0; 0xcc000; 0xcc000;
   0x1ce3fc; 0x1863fc; 0x3fff31c; 0x3fff30c; 0x1c7b1c; 0x183ffc; 0x3fffffc; 0x3ffff0c;
   0x1c771c; 0x18330c; 0x3fff31c; 0x3fff3fc; 0x1c73fc; 0x18330c; 0x7fff31c; 0x3fff30c;
   0x73fc; 0xd9b3fc; 0x199b15c; 0x3bbb80c; 0x333181c; 0x7331c00; 0x3110c00; 0x0;
   0x0; 0x0; 0x0; 0x202000; 0x0; 0x0; 0x0; 0x0;
   0xaaa800; 0x1fffbfc; 0x1801bfc; 0x1801b9c; 0x1aabb8c; 0x1fffb9c; 0x801bfc; 0x1fffbfc;
   0x3ffb8c; 0xc1b9c; 0x1ffdb8c; 0x1ffdfdc; 0x18cdbfc; 0x1ffdffc; 0x1ffdb8c; 0x15d5f9c;
   0x3ffef8c; 0x3ffeffc; 0x3286ffc; 0x37d675c; 0x3ffe60c; 0x3c1671c; 0x3a06300; 0x3e06200;
   0x0; 0x0; 0x0; 0x0; 0x202000; 0x0; 0x0; 0x0;
   0xc0000; 0x8df800; 0x1fdfdfc; 0x7981f8; 0x139cd9c; 0x3b8fd88; 0x1f0799c; 0xeaf1f8;
   0x1fff9f8; 0x3cabd88; 0x7801f9c; 0x3fff788; 0xfff19c; 0xc031f8; 0xc031fc; 0xeab188;
   0xfff19c; 0xaaa188; 0x7061fc; 0x30e1f8; 0x38c15c; 0x18c008; 0x3fffe1c; 0x3fffe00;
   0x0; 0x0; 0x0; 0x0; 0x0; 0x202000; 0x0; 0x0;
   0x0; 0x0; 0x3fffc00; 0x7fffdfc; 0x1981f8; 0x3fff99c; 0x3fff988; 0x399999c;
   0x39999f8; 0x3fff9fc; 0x3fff988; 0x19c; 0x1fff988; 0x1fff99c; 0x18039f8; 0x1fff9fc;
   0x1aab988; 0x180399c; 0x1fff988; 0x15751fc; 0x601f8; 0x7fffd5c; 0x2aea808; 0x6001c;
   0x60000; 0x60000; 0x0; 0x0; 0x0; 0x0; 0x202000; 0x0;
   0x0; 0x0; 0xc00000; 0x1ffa800; 0x7ffdfc; 0x18301fc; 0x1c7398c; 0xe6318c;
   0x66718c; 0x3fffdfc; 0x3fffdfc; 0x3000d8c; 0x3607d8c; 0x260398c; 0x3fff18c; 0x3fff9fc;
   0x659dfc; 0x6f8d8c; 0x65df8c; 0x66ff8c; 0x3fef5fc; 0x3fe61fc; 0x60715c; 0x60380c;
   0x601c0c; 0x600e00; 0x600400; 0x0; 0x0; 0x0; 0x0; 0x202000;
   0x0; 0x0; 0x0; 0x70000; 0x30000; 0x303fc; 0x3fffff8; 0x3ffff1c;
   0x198b08; 0x3b9df1c; 0x1f0fbf8; 0xf073fc; 0xfffb08; 0x7ffff1c; 0x3e03f08; 0xfff75c;
   0xfff3f8; 0xe033fc; 0xe03308; 0xfff31c; 0xfff308; 0x4713fc; 0xe633f8; 0x1c7395c;
   0x1861c08; 0x3870f1c; 0x307c600; 0x7c000; 0x0; 0x0; 0x0; 0x0;
   0x202000; 0x0; 0x0; 0x0; 0x300000; 0x30a800; 0x33fdfc; 0x31a8f8;
   0x39c18c; 0x3f8c088; 0x7ffff8c; 0x3bbfef8; 0x19d8df8; 0x19d8c88; 0x19dfd8c; 0x19dfc88;
   0x1978d8c; 0x1b58cf8; 0x1f18dfc; 0xf1fc88; 0xf1fd8c; 0xe18c88; 0x658dfc; 0xe7ecf8;
   0x1f7fffc; 0x1b98e08; 0x39d800c; 0x70f8000; 0x20d8000; 0x0; 0x0; 0x0;
   0x0; 0x202000; 0x0; 0x0; 0x0; 0x70000; 0x60000; 0x3fffdfc;
   0x3fffdf8; 0x70619c; 0x30e188; 0x575d59c; 0x3fffdf8; 0x7fffdfc; 0x188; 0x1fff99c;
   0x1861988; 0x1d7599c; 0x1fff9f8; 0x1c619fc; 0x1861988; 0x1fff99c; 0x60188; 0x15751fc;
   0x1fff9f8; 0x1fffd5c; 0x60008; 0x7fffe1c; 0x3fffe00; 0x0; 0x0; 0x0;
   0x0; 0x0; 0x202000; 0x0; 0x0; 0x0; 0x460000; 0xc63000;
   0xe673fc; 0x6663f8; 0x36439c; 0x1ffff88; 0x1ffff9c; 0x3f83f8; 0x77c3fc; 0xe67388;
   0x7c63f9c; 0x1060b88; 0xc6739c; 0x2e833f8; 0x3fffbfc; 0x2ebbb88; 0xcd9f9c; 0xcdbf88;
   0xcdf7fc; 0x3fce3f8; 0x3fc615c; 0xc03008; 0xc03c1c; 0xc01e00; 0xc00400; 0x0;
   0x0; 0x0; 0x0; 0x202000; 0x0; 0x0; 0x0; 0x1c000;
   0xae000; 0x3fe3fc; 0x3873fc; 0x15d7b9c; 0x3ffff8c; 0x1775f9c; 0x771ffc; 0x1c3dbfc;
   0x38cfb8c; 0x11c5b9c; 0x3fffb8c; 0x3fffb9c; 0x1bfc; 0x1ffdbfc; 0x1b8c; 0x1ffdb9c;
   0x1ffdb8c; 0x1ffc; 0x1ffcbfc; 0x1d5dd5c; 0x180cc0c; 0x1ffcc1c; 0x1ffce00; 0x180c400;
   0x0; 0x0; 0x0; 0x0; 0x202000; 0x0; 0x0; 0x0;
   0x180180; 0x182ba8; 0x3fffffc; 0x3ffc180; 0x183ff8; 0x180000; 0x1ffdff8; 0x1ab9818;
   0xc71ff8; 0x7e1ff8; 0x3c0c70; 0xff3e60; 0x7e7fffc; 0x20080fc; 0x7fffe0; 0x3aaae0;
   0x7000e0; 0x3fffe0; 0x7000e0; 0x3aaae0; 0x7fffe0; 0x3000e0; 0x7fffe0; 0x3fffe0;
   0x7000e0; 0x0; 0x0; 0x0; 0x0; 0x202000; 0x0; 0x0;
   0x0; 0x0; 0xff9ff0; 0x1ff9ff0; 0xc19830; 0x1ff9ff0; 0xc19830; 0x1ff9ff0;
   0xff9ff0; 0x1c19830; 0xff9ff0; 0x155d750; 0x1c380; 0x1ffffc0; 0x1ffffe0; 0x1c0f0;
   0xabaaf8; 0x1ffffdc; 0x180c8; 0x1c0c0; 0xffffc0; 0x155d5c0; 0x180c0; 0x3ffffc0;
   0x3ffffc0; 0xc0; 0x0; 0x0; 0x0; 0x0; 0x202000; 0x0;
   0x0; 0x0; 0x0; 0xff9ff0; 0x1d59d70; 0xff9ff0; 0x1d59d70; 0xff9ff0;
   0x1d59d70; 0xff9ff0; 0x15575d0; 0xaaeae0; 0x1fffff0; 0xc0f8; 0x7ffffc; 0xc0e8;
   0x7fffe0; 0xc0e0; 0x1ffffe0; 0x1ffffe0; 0x3ffff8; 0x7ffff8; 0x1c07c0; 0xfbe00;
   0x7fd00; 0x3ffbffc; 0x1f401fc; 0x0; 0x0; 0x0; 0x0; 0x202000;
   0x0; 0x0; 0x0; 0x6000; 0x1fffff8; 0x1fffff8; 0x3fffc0; 0x3fffc0;
   0x3fffc0; 0x3555c0; 0x3fffc0; 0x3555c0; 0x3fffc0; 0x1fffff8; 0x1fffff8; 0x180180;
   0x3fffffc; 0x3fffffc; 0xba9ff8; 0x1ff9ff8; 0x1ff9ff8; 0x1d59d58; 0x1ff9ff8; 0x1c19c18;
   0x1ff9ff8; 0x1c19c18; 0x7fffffe; 0x54; 0x0; 0x0; 0x0; 0x0;
   0x202000; 0x0; 0x0; 0x0; 0x0; 0x2aaaa0; 0x7ffff0; 0x7fffe0;
   0x3c0000; 0xe0200; 0x79f00; 0x3fc00; 0x1f000; 0x3c000; 0x3fffffc; 0x3fffffc].
Definition hanzi_data_296 : list N :=
  [0x1c0f000; 0xe0f800; 0xf0fc00; 0x70ee00; 0x38e780; 0x18e3c0; 0xe1f0; 0xe07c;
   0xe01c; 0xe008; 0xe000; 0xfe00; 0x7e00; 0x0; 0x0; 0x0;
   0x0; 0x202000; 0x0; 0x0; 0x0; 0x1c0000; 0xc0ffc; 0x1e1ffc;
   0x1e0e00; 0x3f0700; 0x7383b0; 0x6381f0; 0xe5c0e0; 0x1cee1c0; 0x38c7ffc; 0x31c7ffc;
   0x380fe8; 0x100de0; 0x1ffcfe0; 0x1ffc7f0; 0xe001b0; 0x6001f8; 0x600198; 0x7001dc;
   0x30018e; 0x3801c4; 0x180180; 0x1c01c0; 0xc00f0; 0xc00f0; 0x0; 0x0;
   0x0; 0x0; 0x202000; 0x0; 0x0; 0x0; 0x0; 0x3fffe0;
   0x7ffff0; 0x1c0800; 0xf3c00; 0x3f000; 0x1fffffc; 0xeafaa8; 0xf0df00; 0x38c7c0;
   0x1cd9fc; 0xf83c; 0x1fffff4; 0xfffff0; 0x1c11830; 0xc79c30; 0x1de0f30; 0xfaabb0;
   0x1d7fff0; 0xc606b0; 0x1c60630; 0xc7fe30; 0x1c7fe30; 0xf80630; 0xf00030; 0x0;
   0x0; 0x0; 0x0; 0x202000; 0x0; 0x0; 0x0; 0x380;
   0x180; 0x1c0; 0xaaaac0; 0xffffe0; 0xffffe0; 0x7070; 0x6030; 0x7038;
   0x601c; 0x7010; 0x2aaeaa8; 0x3fffffc; 0x3fffffc; 0xf000; 0xf800; 0x1f800;
   0x39800; 0x71c00; 0xf0e00; 0x1e0780; 0x3c03e0; 0x1f801f8; 0x3e0003c; 0x100001c;
   0x0; 0x0; 0x0; 0x0; 0x202000; 0x0; 0x0; 0x0;
   0x1c00; 0x1e00; 0xf0f00; 0x1c0780; 0x7803c0; 0xffffe0; 0x1fffff0; 0x3c000e0;
   0x1800180; 0x1c0; 0xffffc0; 0xffffe0; 0x557570; 0x6038; 0x6010; 0x2aaeaa8;
   0x3fffffc; 0x3fffffc; 0x1f800; 0x39c00; 0x71f00; 0x1e0780; 0x1fc03f0; 0x3f000fc;
   0x1c0001c; 0x0; 0x0; 0x0; 0x0; 0x202000; 0x0; 0x0;
   0x0; 0x70; 0x70; 0x1ff8070; 0x1ff8030; 0x1ffbff8; 0x181bff8; 0x1c1839c;
   0x181839c; 0x1c1838e; 0x1818388; 0x1c18380; 0x181bffc; 0x1c1fffc; 0x1818180; 0x1c18180;
   0x1818380; 0x1c187c0; 0x1818ec0; 0x1c19ce0; 0x181b8e0; 0x1fff870; 0x1ffb038; 0x1c1803c;
   0x181801e; 0xc; 0x0; 0x0; 0x0; 0x0; 0x202000; 0x0;
   0x0; 0x0; 0x1000070; 0x18ff030; 0x18ff070; 0x18c0030; 0x18c07f8; 0x18c07f8;
   0x18c01dc; 0x18fe0cc; 0x18fe1ce; 0x18060c0; 0x18071c0; 0x1802ffc; 0x1807ffc; 0x18ff0c0;
   0x18ff0c0; 0x18c00e0; 0x18c01e0; 0x18c03e0; 0x18c0770; 0x18c0e30; 0x18c0e38; 0x18e0418;
   0x187e01e; 0x187e00c; 0x183c000; 0x0; 0x0; 0x0; 0x0; 0x202000;
   0x0; 0x0; 0x0; 0x70; 0x2aaa030; 0x3ffe030; 0x3ffe030; 0xeff8;
   0xeff8; 0xe1d8; 0xaae19c; 0x1ffe1dc; 0xffe18c; 0x1c0e1c0; 0xc0fffc; 0x1c0fffc;
   0xc0e180; 0x1d5e1c0; 0xffe1c0; 0x1ffe3c0; 0xe3e0; 0xe760; 0xee60; 0xfc70;
   0xe838; 0x3ffe01c; 0x3ffe00e; 0x4; 0x0; 0x0; 0x0; 0x0;
   0x202000; 0x0; 0x0; 0x0; 0x400070; 0xfa0030; 0x1fff030; 0xfe030;
   0x607f8; 0x607f8; 0x700dc; 0x3fff0cc; 0x7fff0cc; 0x3380c8; 0x71c0c0; 0xe1c7fc;
   0x1c0e7fc; 0x3a0f8c0; 0x371b8c0; 0x6190e0; 0x7181e0; 0x6183e0; 0x718770; 0x61c630;
   0x71c638; 0x60e018; 0x70701e; 0x60380c; 0x701000; 0x0; 0x0; 0x0;
   0x0; 0x202000; 0x0; 0x0; 0x0; 0x60070; 0x60030; 0xc66030;
   0xc66030; 0xc667f8; 0xc667f8; 0xc670dc; 0xe660cc; 0xe670ce; 0x1e6f0c0; 0x1f7f0c0;
   0x3b79ffc; 0x73f9ffc; 0x21f0cc0; 0x608c0; 0x600e0; 0x1fff1e0; 0x1fff3e0; 0x60770;
   0x60630; 0x60638; 0x6001c; 0x7fffc1e; 0x3fffc0c; 0x0; 0x0; 0x0;
   0x0; 0x0; 0x202000; 0x0; 0x0; 0x0; 0x30; 0x3fff030;
   0x3fff030; 0x2aaa038; 0xff8; 0xff8; 0x1ffe1dc; 0x1ffe0cc; 0x18061cc; 0x18060c8;
   0x18065d4; 0x1806ffc; 0x1d56ffc; 0x1ffe0c0; 0x1ffe0c0; 0x4081c0; 0xc1c1e0; 0xe183e0;
   0x618770; 0x638e70; 0x730c30; 0x330438; 0x7fff81c; 0x3fff80c; 0x0; 0x0;
   0x0; 0x0; 0x0; 0x202000; 0x0; 0x0; 0x0; 0x1000070;
   0x1f80030; 0x1fff070; 0xff030; 0xe07f8; 0x2aeabf8; 0x7fff9dc; 0x3fff8cc; 0x3f81ce;
   0x7fc0c0; 0x1eef1c0; 0x38e7ffc; 0x3071ffc; 0x300c0; 0x7fff8c0; 0x3fff8e0; 0x7fff9e0;
   0xe0c3e0; 0x70e770; 0x3be630; 0x3f8638; 0xfe0018; 0x1f7c01e; 0x381f80c; 0x1007800;
   0x0; 0x0; 0x0; 0x0; 0x202000; 0x0; 0x0; 0x0;
   0x606030; 0x60e030; 0x71c030; 0xbaa818; 0x1fffbf8; 0x1aebbf8; 0x1e6787c; 0x1a6d86c;
   0x1b6d86e; 0x1b69864; 0x1969860; 0x1fffbfe; 0x1fffffe; 0x60; 0xfff060; 0xfff0e0;
   0xc070e0; 0xc031a0; 0xfff1b0; 0xfff338; 0xc07318; 0xc0321c; 0xfff00e; 0xfff00c;
   0xc07000; 0x0; 0x0; 0x0; 0x0; 0x202000; 0x0; 0x0;
   0x0; 0x0; 0x0; 0x3fffffc; 0x3fffffc; 0x1555d54; 0xe00; 0xe00;
   0x600; 0x700; 0x380; 0x380; 0xffffc0; 0xffffc0; 0xc001e0; 0xc001f0;
   0xc001b8; 0xc0019c; 0xc0018e; 0xc00184; 0xc00180; 0xc00180; 0xffff80; 0xffff80;
   0xc00180; 0xc00180; 0x0; 0x0; 0x0; 0x0; 0x202000; 0x0;
   0x0; 0x0; 0x0; 0x2a8aa8; 0x7fcffc; 0x7fcffc; 0x70c060; 0x60c060;
   0x70c070; 0x60c030; 0x70c030; 0x60c038; 0x70c7f8; 0x60c7f8; 0x70c63c; 0x60c63e;
   0x70c63c; 0x60e63c; 0x70e638; 0x60e638; 0x7706638; 0x26066b8; 0x77077f8; 0x26032b8;
   0x3f03838; 0x3e01c38; 0x1c01800; 0x0; 0x0; 0x0; 0x0; 0x202000;
   0x0; 0x0; 0x0; 0x0; 0x2aaaaa8; 0x3ffeffc; 0x3ffeffc; 0x1c0060;
   0xc0060; 0x1c0070; 0xc0030; 0x1c0030; 0xc0030; 0x15d57f8; 0x3fff7f8; 0x7fff63c;
   0xc063c; 0x1c063c; 0xc0634; 0x1c0630; 0xc0630; 0x1c0630; 0xc06b0; 0x1c07f0;
   0xc02b0; 0x1c0030; 0xc0030; 0x1c0000; 0x0; 0x0; 0x0; 0x0].
Definition hanzi_data_297 : list N :=
  [0x202000; 0x0; 0x0; 0x0; 0x30000; 0x38aa8; 0x39ffc; 0x18ffc;
   0x3ffc060; 0x3ffc060; 0x155e070; 0x6030; 0x7070; 0x3ab0; 0x1ffcff0; 0xffceb8;
   0x700c38; 0x380c3c; 0x1c0c3c; 0xe0c3e; 0x70c34; 0x38c30; 0x101cc30; 0x300cff0;
   0x300eff0; 0x3006030; 0x3ffe030; 0x3ffe020; 0x1ff0000; 0x0; 0x0; 0x0;
   0x0; 0x202000; 0x0; 0x0; 0x0; 0x0; 0x0; 0x3fffffc;
   0x3ffeffc; 0x15d4060; 0xc0060; 0x1c0070; 0xc0060; 0x1c0070; 0xc0030; 0x1c0ff0;
   0xc0ff8; 0x1c0c38; 0xc0c38; 0x1c0c3c; 0xc0c3e; 0x1c0c3c; 0xc0c34; 0x1c0c30;
   0xc0c30; 0x1c0ff0; 0x3fffff0; 0x7fff030; 0x30; 0x0; 0x0; 0x0;
   0x0; 0x0; 0x202000; 0x0; 0x0; 0x0; 0x60000; 0x60aa8;
   0x70ffc; 0x30ffc; 0x1ff0060; 0x3ff8060; 0x3d78070; 0x3818070; 0x181c070; 0x180c030;
   0x1c0e7f8; 0xc367f8; 0xe7763c; 0xee263c; 0x7c063c; 0x380634; 0x380630; 0x180630;
   0x1c0630; 0xe06b0; 0x707f0; 0x3c2b0; 0x1f030; 0xf830; 0x3000; 0x0;
   0x0; 0x0; 0x0; 0x202000; 0x0; 0x0; 0x0; 0x0;
   0x7feaa8; 0x7feffc; 0x60effc; 0x60e060; 0x60e060; 0x60e070; 0x60e030; 0x63e030;
   0x63e038; 0x67e7f8; 0x66e7f8; 0x6ee63c; 0x6ce63e; 0x7c663c; 0x786634; 0x606634;
   0x606630; 0x2607630; 0x66076b0; 0x66077f0; 0x2603ab0; 0x7e01c30; 0x3e00e30; 0xc00;
   0x0; 0x0; 0x0; 0x0; 0x202000; 0x0; 0x0; 0x0;
   0xc0000; 0xc0aa8; 0x1c0ffc; 0x380ffc; 0x3ffe060; 0x3ffe060; 0xe070; 0xe030;
   0xe030; 0xe038; 0xe7f8; 0xe7f8; 0x663c; 0xe63e; 0x663c; 0x6634;
   0x6630; 0x6630; 0x7630; 0x76b0; 0x77f0; 0x3ab0; 0x3830; 0x1c30;
   0x1000; 0x0; 0x0; 0x0; 0x0; 0x202000; 0x0; 0x0;
   0x0; 0x0; 0xfff2a8; 0x1fff7fc; 0xfaa2e8; 0x780070; 0x1e0030; 0xf0070;
   0x38030; 0x155e030; 0x3fff3f8; 0x3fff7f8; 0x3b38338; 0x3b9873c; 0x399833c; 0x39cc73c;
   0x38ce33e; 0x18c7734; 0x18e3b30; 0x1871730; 0x18303f0; 0x1c387f0; 0x1c1c030; 0x1d4f030;
   0xf87800; 0x783000; 0x0; 0x0; 0x0; 0x0; 0x202000; 0x0;
   0x0; 0x0; 0x0; 0x2a8; 0xfff7fc; 0xfff7fc; 0x600060; 0x60e060;
   0x60e070; 0x60e030; 0x606030; 0x606038; 0x7067f8; 0x7063f8; 0x3ffe73c; 0x3ffe23e;
   0x380073c; 0x380023c; 0x1800738; 0x1bffa38; 0x1bfff38; 0x18002b8; 0x1c007f8; 0x1c002b8;
   0x1c40038; 0xfc0038; 0x7c0000; 0x0; 0x0; 0x0; 0x0; 0x202000;
   0x0; 0x0; 0x0; 0xe0000; 0xe0aa8; 0xe0ffc; 0xe0ffc; 0x4e0060;
   0xeee060; 0x1cee070; 0x18ee070; 0x18e6030; 0x38e6030; 0x30e77f8; 0x30e37f8; 0x10e363c;
   0x8e263e; 0x1ce0636; 0xce0634; 0xee0630; 0xe00630; 0x700630; 0x3806b0; 0x1e07f0;
   0xf82b0; 0x3f030; 0xf830; 0x1000; 0x0; 0x0; 0x0; 0x0;
   0x202000; 0x0; 0x0; 0x0; 0x70000; 0x60000; 0x70ffc; 0x60ffc;
   0x1575060; 0x1fff060; 0x1fff070; 0x1860030; 0x1c70030; 0x1860030; 0x1c707f8; 0x18707f8;
   0x7fffe38; 0x3fffe3c; 0x7fffe3c; 0xf063e; 0x1f8634; 0x1b8634; 0x19c630; 0x39c630;
   0x70f7f0; 0xe07ff0; 0x3c03c30; 0x3801e30; 0x1000400; 0x0; 0x0; 0x0;
   0x0; 0x202000; 0x0; 0x0; 0x0; 0xc0000; 0xc0000; 0xc1ffc;
   0xc0ffc; 0xc0060; 0x3ffe060; 0x3fff070; 0xc0060; 0xc0070; 0xc0030; 0xc07f0;
   0x2aea7f8; 0x7fff638; 0x3fff638; 0x1e063c; 0x1e063e; 0x1e063c; 0x3f0634; 0x730630;
   0x638630; 0xe1c7f0; 0x1e0e7f0; 0x3c07030; 0x3803830; 0x3001000; 0x0; 0x0;
   0x0; 0x0; 0x202000; 0x0; 0x0; 0x0; 0x30000; 0x70aa8;
   0x60ffc; 0xe0ffc; 0x1c0060; 0x3fff860; 0x3fff870; 0x2eae870; 0xe0e070; 0xe0e030;
   0x60c7f8; 0x60c7f8; 0x71c63c; 0x71863e; 0x31863c; 0x3b8634; 0x1f0630; 0x1e0630;
   0xe0630; 0x1f06b0; 0x3f87f0; 0xfbe2b0; 0x3f0fc30; 0x3c03c30; 0x1001800; 0x0;
   0x0; 0x0; 0x0; 0x202000; 0x0; 0x0; 0x0; 0x6000;
   0x6000; 0xfffff0; 0xfffff0; 0x6000; 0x2aeaa0; 0x7fffe0; 0x2aeaa0; 0x6000;
   0x1fffff8; 0x1fffff8; 0x6000; 0x6000; 0x2aaaaa8; 0x3fffffc; 0x2aaafa8; 0x380;
   0xffffc0; 0xffffe0; 0xe001f8; 0xe001bc; 0xe0018c; 0xffff84; 0xffff80; 0xe00180;
   0x0; 0x0; 0x0; 0x0; 0x202000; 0x0; 0x0; 0x0;
   0x1000; 0x32a8; 0x3ff37fc; 0x3ff33fc; 0x3983070; 0x3983030; 0x399f030; 0x399f830;
   0x39c7e38; 0x3983e38; 0x39c33f8; 0x39833fc; 0x19c331c; 0x38c331e; 0x18d331e; 0x18fb31c;
   0x18df318; 0x18efb18; 0x1863318; 0x18603b8; 0x18703f8; 0x18382b8; 0x1d1c018; 0xf8e018;
   0x704000; 0x0; 0x0; 0x0; 0x0; 0x202000; 0x0; 0x0;
   0x0; 0x1c000; 0xcaa8; 0x1cffc; 0xcffc; 0x155c060; 0x3ffe060; 0x3ffe060;
   0x3806060; 0x3847070; 0x18e3030; 0x18e37f8; 0x18e3ff8; 0x106163c; 0xe063c; 0xe063c;
   0xe0634; 0x1f0630; 0x1b0630; 0x3b8630; 0x3386b0; 0x71c7f0; 0xe0e2b0; 0x3c07030;
   0x3803830; 0x3001000; 0x0; 0x0; 0x0; 0x0; 0x202000; 0x0;
   0x0; 0x0; 0x0; 0x3fff2a8; 0x3fff7fc; 0x2eaa2e8; 0x606060; 0x606060;
   0x606070; 0x606030; 0x607030; 0x606038; 0x7fff7f8; 0x3fff7f8; 0x7fff73c; 0x78063e;
   0x7c0734; 0x6e0634; 0x670730; 0x638630; 0x63c730; 0x61e6b0; 0x60f7f0; 0x603ab0;
   0x7f1030; 0x7e0030; 0x1e0000; 0x0; 0x0; 0x0; 0x0; 0x202000;
   0x0; 0x0; 0x0; 0x1c7000; 0xc32a8; 0x1c77fc; 0xc37fc; 0x1c7060;
   0xc3060; 0x11c7070; 0x38c3030; 0x1dd7030; 0xeff038; 0x7ff7f8; 0x3c33f8; 0x1c773c].
Definition hanzi_data_298 : list N :=
  [0xc333e; 0x1c773c; 0xc333c; 0x1c7738; 0xc3338; 0x11c7738; 0x30e33b8; 0x71ff7f8;
   0x31ff2b8; 0x3fcf838; 0x3f83038; 0x1000; 0x0; 0x0; 0x0; 0x0;
   0x202000; 0x0; 0x0; 0x0; 0x0; 0x2aaaaa8; 0x3fffffc; 0x3ffeffc;
   0x618060; 0x618060; 0x618070; 0x618030; 0x618030; 0x618038; 0x6187f8; 0x3fff7f8;
   0x7fff63c; 0x61863e; 0x61863c; 0x618634; 0x61c630; 0x618630; 0x61c630; 0x60c6b0;
   0x60c7f0; 0x60e2b0; 0x607030; 0x603830; 0x603000; 0x0; 0x0; 0x0;
   0x0; 0x202000; 0x0; 0x0; 0x0; 0x60000; 0x602a8; 0x707fc;
   0x3fff7fc; 0x3fff060; 0x30060; 0x30070; 0x38030; 0x7fffc30; 0x3fff838; 0x555d7f8;
   0xc7f8; 0xc73c; 0xffe63e; 0x1ffe73e; 0xeaa63c; 0x700738; 0x380638; 0x1cc738;
   0xfc6b8; 0xf87f8; 0xe02b8; 0x3c0038; 0x380038; 0x300000; 0x0; 0x0;
   0x0; 0x0; 0x202000; 0x0; 0x0; 0x0; 0x70000; 0x702a8;
   0x707fc; 0x3fffffc; 0x3fff860; 0x2aba860; 0x18070; 0x9c030; 0x1dc030; 0x18e038;
   0x1ce3f8; 0x2bae3f8; 0x3fff33c; 0x3ffe33e; 0x1c033c; 0x18033c; 0x1c0338; 0x180338;
   0x7fffb38; 0x3fffbb8; 0x1c03f8; 0x1802b8; 0x1c0038; 0x180038; 0x1c0000; 0x0;
   0x0; 0x0; 0x0; 0x202000; 0x0; 0x0; 0x0; 0xe0000;
   0xe02a8; 0xe07fc; 0xe07fc; 0x3fff860; 0x3fff860; 0xe0070; 0xe0030; 0x18e7030;
   0x18e3038; 0x18e77f8; 0x18e37f8; 0x18e773c; 0x18e363e; 0x18e7736; 0x1fff634; 0x1fff730;
   0x1aea630; 0x18e0730; 0xe06b0; 0x70e07f0; 0x30e02b0; 0x75c0030; 0x3fc0030; 0x1fc0000;
   0x0; 0x0; 0x0; 0x0; 0x202000; 0x0; 0x0; 0x0;
   0x0; 0x1ffeaa8; 0x1ffeffc; 0x1aaeffc; 0x1c06060; 0x1886060; 0x1cc6070; 0x18c6030;
   0x1cc6030; 0x18c6038; 0x1cc67f8; 0x18c67f8; 0x1cc673c; 0x18e663e; 0x1ce673c; 0x9e263c;
   0x1e0738; 0x1f0638; 0x31b0738; 0x31b86b8; 0x719c7f8; 0x318e2b8; 0x3f87838; 0x3f83c38;
   0x800; 0x0; 0x0; 0x0; 0x0; 0x202000; 0x0; 0x0;
   0x0; 0x0; 0xaaa2a8; 0xfff7fc; 0xfff7fc; 0xc03060; 0xc83060; 0xd8b070;
   0xd8f030; 0xddb030; 0xcbb030; 0xcf33f8; 0xcf33f8; 0xc7333c; 0xc6333c; 0xce333c;
   0xcf3334; 0xdf3330; 0xdbb330; 0xd9bb30; 0xf9dbb0; 0x7f0dbf0; 0x280dbf0; 0x7801c30;
   0x3800e30; 0x1000400; 0x0; 0x0; 0x0; 0x0; 0x202000; 0x0;
   0x0; 0x0; 0xc0000; 0xc02a8; 0xc07fc; 0xc07fc; 0x15d5060; 0x1fff060;
   0x1fff070; 0xc0030; 0xc0030; 0xc0038; 0xc07f8; 0x2aea7f8; 0x7fff73c; 0x3fff63e;
   0x7073c; 0x7063c; 0x670738; 0xe38638; 0xe1c738; 0xc1c6b8; 0x1c0c7f8; 0x3fee2b8;
   0x3fff038; 0x303e038; 0x7000000; 0x0; 0x0; 0x0; 0x0; 0x202000;
   0x0; 0x0; 0x0; 0x18000; 0x18aa8; 0x1cffc; 0xcffc; 0x7ffe060;
   0x3ffe060; 0x7fff060; 0x33860; 0x31c70; 0x31830; 0x3ff07f8; 0x3ff07f8; 0x157063c;
   0x3063c; 0x3063c; 0x30634; 0x3ff0630; 0x3ff0630; 0x1570630; 0x306b0; 0x307f0;
   0x302b0; 0x30030; 0x30030; 0x30000; 0x0; 0x0; 0x0; 0x0;
   0x202000; 0x0; 0x0; 0x0; 0x0; 0xffcaa8; 0xffdffc; 0xc0cffc;
   0xc0c060; 0xc0c060; 0xc0c070; 0xc0c030; 0xffc070; 0xffcab0; 0xc0cff0; 0xc0ceb8;
   0xc0cc38; 0xc0cc3c; 0xc0cc3c; 0xffcc3e; 0xffcc34; 0xc0cc30; 0xc0cc30; 0xc0cff0;
   0xc0cff0; 0xc0c030; 0x7fffc30; 0x3fffc20; 0x0; 0x0; 0x0; 0x0;
   0x0; 0x202000; 0x0; 0x0; 0x0; 0x70000; 0xe02a8; 0xe07fc;
   0xc07fc; 0x3fff860; 0x3fff860; 0x3001870; 0x3001830; 0x300d830; 0x200c838; 0xc7f8;
   0xe0c3f8; 0x1f0c73c; 0x3cc23e; 0x1fc73c; 0x3c234; 0x1c730; 0xc230; 0x100c730;
   0x300c2b0; 0x300c7f0; 0x300c2b0; 0x3ffc030; 0x1ffc030; 0xff0000; 0x0; 0x0;
   0x0; 0x0; 0x202000; 0x0; 0x0; 0x0; 0xc00000; 0xf802a8;
   0x1ff07fc; 0xfe7fc; 0x1df060; 0xc6060; 0x1c7070; 0x86030; 0x1c7030; 0x186038;
   0x3fff7f8; 0x3ffe3f8; 0x18773c; 0x18623e; 0x18773c; 0x38623c; 0x387738; 0x306238;
   0x307738; 0x63662b8; 0x67677f8; 0x26c62b8; 0x3edf038; 0x3c8f838; 0x1d81000; 0x0;
   0x0; 0x0; 0x0; 0x202000; 0x0; 0x0; 0x0; 0x18300;
   0x818300; 0x1e18338; 0xf9bf38; 0x7fbf38; 0xf8338; 0x18338; 0x18338; 0x301f738;
   0x3ffbff8; 0x1ff1ffc; 0xc; 0x1555554; 0x3fffffc; 0x3fffffc; 0xe00; 0x700;
   0xffffc0; 0xfffff0; 0xc003f8; 0xc0039c; 0xc00388; 0xffff80; 0xffff80; 0xc00380;
   0x0; 0x0; 0x0; 0x0; 0x202000; 0x0; 0x0; 0x0;
   0xe0000; 0xe0aa8; 0xe0ffc; 0xe0ffc; 0xe0060; 0xe0060; 0x7fe0070; 0x3fe0070;
   0xe0030; 0xe0030; 0xe0ff8; 0xe0ff8; 0xe0e3c; 0x1ffee3e; 0x1ffee36; 0x1806e34;
   0x1806e30; 0x1806e30; 0x1806e30; 0x1806eb0; 0x1806ff0; 0x1806ab0; 0x1ffe030; 0x1ffe030;
   0x1806000; 0x0; 0x0; 0x0; 0x0; 0x202000; 0x0; 0x0;
   0x0; 0x398000; 0x398000; 0x3987fc; 0x3987fc; 0x3fff870; 0x3fff830; 0x3b98030;
   0x3b98030; 0x3b98030; 0x3fff838; 0x3fffbf8; 0x399bf8; 0x399b3c; 0x399b3c; 0x3fffb3c;
   0x3fffb3e; 0x37dd73c; 0x3398338; 0x339c338; 0x338e3b8; 0x3f863f8; 0x1f872b8; 0x383838;
   0x381e38; 0x380c00; 0x0; 0x0; 0x0; 0x0; 0x202000; 0x0;
   0x0; 0x0; 0x60000; 0xe0aa8; 0xe0ffc; 0xc0ffc; 0x1c0060; 0x3fff060;
   0x3fff070; 0x2aea070; 0xc0070; 0xc0030; 0xc07f8; 0xc07f8; 0xc063c; 0x1ffe63e;
   0x1fff63c; 0xc0634; 0xc0630; 0xc0630; 0xc0630; 0xc06b0; 0xc07f0; 0xc02b0;
   0x7fff830; 0x3fff830; 0x0; 0x0; 0x0; 0x0; 0x0; 0x202000].
Definition hanzi_data_299 : list N :=
  [0x0; 0x0; 0x0; 0x70000; 0x60aa8; 0x60ffc; 0xe0ffc; 0x40060;
   0x3fff860; 0x3fff870; 0x30; 0x404030; 0xe06038; 0xe0e7f8; 0xe0c7f8; 0x60c73c;
   0x60c63e; 0x61c73c; 0x60c63c; 0x71c738; 0x318638; 0x318738; 0x3186b8; 0x3987f8;
   0x1802b8; 0x3fffc38; 0x3fff838; 0x0; 0x0; 0x0; 0x0; 0x0;
   0x202000; 0x0; 0x0; 0x0; 0x0; 0x1e002a8; 0x1ffc7fc; 0x3ff7fc;
   0x1f060; 0x30060; 0x70070; 0x60030; 0xe0030; 0xfff838; 0x1fffff8; 0x1eaabf8;
   0xe0073c; 0x70023e; 0x78073c; 0x38023c; 0x1e0738; 0xf0238; 0x78738; 0x1f2b8;
   0x1fff8; 0x39ab8; 0x7ff1c38; 0x3fe0838; 0x1500800; 0x0; 0x0; 0x0;
   0x0; 0x202000; 0x0; 0x0; 0x0; 0x380; 0xaa8180; 0x1ffd5d4;
   0x1abbffc; 0x1c3bffc; 0xc31860; 0xe71c70; 0x7e0cf0; 0x3c0fc0; 0x3e0f80; 0xff1fe0;
   0x3e3f8fc; 0x181d03c; 0x3fffffc; 0x3fffffc; 0x700; 0x780; 0xffff80; 0xffffe0;
   0xe001f0; 0xe001fc; 0xe0019c; 0xffff8c; 0xffff80; 0xe00180; 0x0; 0x0;
   0x0; 0x0; 0x202000; 0x0; 0x0; 0x0; 0x0; 0x2a8;
   0x3fff7fc; 0x3fff7fc; 0xc0060; 0x18c6060; 0x1cc6070; 0xcc6030; 0xcc6030; 0xccc038;
   0xccc7f8; 0x6cc3f8; 0xc073c; 0x3fffb3e; 0x7ffff34; 0x2aeab34; 0xc0730; 0xc0330;
   0xc0730; 0xc03b0; 0xc07f0; 0xc02b0; 0xc0030; 0xc0030; 0xc0000; 0x0;
   0x0; 0x0; 0x0; 0x202000; 0x0; 0x0; 0x0; 0xc0000;
   0xc02a8; 0xc07fc; 0xc07fc; 0x3fff060; 0x3fff060; 0x38c3070; 0x18c3030; 0x18c3030;
   0x18c3038; 0x1fff7f8; 0x1fff3f8; 0x1fff73c; 0xc0f23e; 0xc1f73c; 0xe1b234; 0x733730;
   0x373230; 0x3e3730; 0x1e3ab0; 0x3e1ff0; 0x7f9ab0; 0x1f3dc30; 0x3c0ec30; 0x1004c00;
   0x0; 0x0; 0x0; 0x0; 0x202000; 0x0; 0x0; 0x0;
   0xe0000; 0xe0000; 0xe0ffc; 0xe0ffc; 0xe0060; 0x2aea860; 0x3fff870; 0x3fff830;
   0x1f0030; 0x3f0030; 0x3f87f8; 0x3f87f8; 0x7fc638; 0xeec63c; 0xcee63c; 0x1ce663e;
   0x3ce7634; 0x3aebe30; 0x37fde30; 0x7fceb0; 0xe07f0; 0xe02b0; 0xe0030; 0xe0030;
   0xe0000; 0x0; 0x0; 0x0; 0x0; 0x202000; 0x0; 0x0;
   0x0; 0xc0000; 0xc02a8; 0xc07fc; 0xc07fc; 0x3fff060; 0x3fff060; 0x35d7070;
   0x30c3030; 0x30c3030; 0x30c32b8; 0x3fff7f8; 0x3fff2b8; 0x30c373c; 0x30c323e; 0x30c373c;
   0x3fff234; 0x3fff730; 0x30c3230; 0x10c3730; 0xc03f0; 0xc07f0; 0xc0030; 0xc0030;
   0xc0020; 0xc0000; 0x0; 0x0; 0x0; 0x0; 0x202000; 0x0;
   0x0; 0x0; 0x0; 0x2aaaaa8; 0x3fffffc; 0x3fffffc; 0x181860; 0x181860;
   0x181870; 0xba9830; 0x1ff9830; 0x1ba9838; 0x1999bf8; 0x1989bf8; 0x1999b3c; 0x1989b3e;
   0x1999b3e; 0x1989b3c; 0x1f99b38; 0xf89b38; 0x181b38; 0x181bb8; 0x181bf8; 0x1ab8;
   0x3fff838; 0x3fff838; 0x0; 0x0; 0x0; 0x0; 0x0; 0x202000;
   0x0; 0x0; 0x0; 0x70c000; 0x30c2a8; 0x70c7fc; 0x2baeffc; 0x3fffc60;
   0x2bae860; 0x70c070; 0x30c030; 0x70c030; 0xc03038; 0xe077f8; 0xe063f8; 0x70673c;
   0x70e23e; 0x31c73c; 0x398234; 0x1f8730; 0xf0230; 0xf0730; 0xf82b0; 0x3fc7f0;
   0x78e2b0; 0x1f07c30; 0x3c03c30; 0x1000c00; 0x0; 0x0; 0x0; 0x0;
   0x202000; 0x0; 0x0; 0x0; 0x0; 0x3ffeaa8; 0x7fffffc; 0x6ae8;
   0x7070; 0x6060; 0x7fff070; 0x3ffe030; 0x15d7030; 0xc67f8; 0xc77f8; 0xc6638;
   0x3fc763c; 0x3fe663c; 0x18e763c; 0x38e763e; 0x1867634; 0x1863630; 0x1873630; 0x1833ff0;
   0x1833ff0; 0x1839830; 0x1c1dc30; 0x1f8ee00; 0xf0c400; 0x0; 0x0; 0x0;
   0x0; 0x202000; 0x0; 0x0; 0x0; 0x61c00; 0x1f0c00; 0x7c0c00;
   0x3fffffc; 0x3fffffc; 0x60c600; 0xf1c700; 0x3ec380; 0x11fc3c0; 0x303f1e0; 0x3fffef0;
   0x1ff8e3c; 0x18; 0x3fffffc; 0x3fffffc; 0xe00; 0x700; 0xaaab80; 0xffffe0;
   0xc003f8; 0xc003fe; 0xc0039c; 0xffff80; 0xffff80; 0xc00380; 0x0; 0x0;
   0x0; 0x0; 0x202000; 0x0; 0x0; 0x0; 0xc0000; 0xe02a8;
   0xf07fc; 0x1f07fc; 0x3b8060; 0x318060; 0x71c070; 0xe0e030; 0x3c07030; 0x3803838;
   0x3fffff8; 0xffe3f8; 0x1fff73c; 0xe023e; 0xe073e; 0xe023c; 0xe0738; 0xe0238;
   0xe0738; 0xe02b8; 0xe07f8; 0xe02b8; 0x3fff838; 0x3fff838; 0x0; 0x0;
   0x0; 0x0; 0x0; 0x202000; 0x0; 0x0; 0x0; 0x800000;
   0x1fa02a8; 0x1fff7fc; 0xbe7fc; 0x7060; 0xc6060; 0xc7070; 0xc3030; 0xc3030;
   0xc3038; 0x3fffff8; 0x3fffff8; 0xc173c; 0xc063e; 0xc073c; 0xecc63c; 0xcce738;
   0x1cc6638; 0x18c7738; 0x38c36b8; 0x30c3ff8; 0x30c1ab8; 0x30c1038; 0xf8038; 0x78000;
   0x0; 0x0; 0x0; 0x0; 0x202000; 0x0; 0x0; 0x0;
   0xc0000; 0xc02a8; 0x10c57fc; 0x18c37fc; 0x1cc7060; 0x18c3060; 0x1cc7070; 0x18c3030;
   0x1cc7030; 0x1aeb038; 0x1fff7f8; 0xaea7f8; 0xc073c; 0x38c363e; 0x38c373c; 0x38c363c;
   0x38c3738; 0x38c3638; 0x38c3738; 0x38c36b8; 0x38c37f8; 0x3fff2b8; 0x3fff038; 0x3800038;
   0x3800000; 0x0; 0x0; 0x0; 0x0; 0x202000; 0x0; 0x0;
   0x0; 0x0; 0x2aa2a8; 0x1fff7fc; 0xeaa7fc; 0x700060; 0x380060; 0x3c0070;
   0x1e0030; 0x7f0030; 0xfbc038; 0x7e1f7f8; 0x3807bf8; 0x2001f3c; 0x23e; 0x1fff73e;
   0x1fff23c; 0xc0738; 0xc0238; 0xc0738; 0xc02b8; 0xc07f8; 0xc02b8; 0x7fffc38;
   0x3fff838; 0x0; 0x0; 0x0; 0x0; 0x0; 0x202000; 0x0;
   0x0; 0x0; 0xc0000; 0xc0aa8; 0xc0ffc; 0xc0ffc; 0x1ffe060; 0x1ffe060;
   0xc0070; 0xc0030; 0xc0030; 0x2aea038; 0x3fff7f8; 0x3fff7f8; 0xc063c; 0xc063e].
Definition hanzi_data_300 : list N :=
  [0xc063c; 0xaea634; 0x1fff630; 0x1fff630; 0xc0630; 0xc06b0; 0xc07f0; 0xc02b0;
   0x7fff830; 0x3fff830; 0x0; 0x0; 0x0; 0x0; 0x0; 0x202000;
   0x0; 0x0; 0x0; 0xe0000; 0xe0000; 0x60ffc; 0x60ffc; 0x1fff070;
   0x1fff060; 0x1807070; 0x1b03030; 0x1b07030; 0x1b8b030; 0x199f7f8; 0x19bb7f8; 0x19f773c;
   0x18e363c; 0x19e773c; 0x1be363e; 0x1f77734; 0x1a3b630; 0x181f730; 0x181f7f0; 0x180f7f0;
   0x1aab2b0; 0x1fff030; 0x1aab030; 0x1807000; 0x0; 0x0; 0x0; 0x0;
   0x202000; 0x0; 0x0; 0x0; 0x18000; 0x18000; 0x7fc7fc; 0x7fc7fc;
   0x75e070; 0x306060; 0x387070; 0x3fff830; 0x7fffc30; 0x3c30; 0x7ff8; 0x1ff33f8;
   0x1ff773c; 0x183323c; 0x183773c; 0x183323e; 0x1c37734; 0x1f33230; 0xf33730; 0x333f0;
   0x7033ff0; 0x3031ab0; 0x3ff1c30; 0x3fe0c30; 0x1fc0800; 0x0; 0x0; 0x0;
   0x0; 0x202000; 0x0; 0x0; 0x0; 0x70000; 0x30000; 0x38ffc;
   0xff8ffc; 0x1ffc060; 0xe0e060; 0x61e070; 0x73f060; 0x373870; 0x3e12b0; 0x1c07f0;
   0x3e07f8; 0xf78638; 0x3e1e63c; 0x7c0fe3c; 0x3fff63e; 0x1ffe634; 0x180e630; 0x1c0e630;
   0x180e6b0; 0x1c0e7f0; 0x180e2b0; 0x1ffe030; 0x1ffe030; 0x1c0e000; 0x0; 0x0;
   0x0; 0x0; 0x202000; 0x0; 0x0; 0x0; 0x0; 0xfffaa8;
   0x1fffffc; 0xc03ffc; 0x1c07060; 0xc03060; 0x1fff070; 0xfff070; 0x1c07070; 0xc03030;
   0x1c077f8; 0xfff7f8; 0x1fff63c; 0x6363e; 0x106763c; 0x38e3634; 0x1ec7630; 0x7c3630;
   0x387630; 0x3836b0; 0x7477f0; 0xe7b2b0; 0x7c7f830; 0x380f830; 0x1001000; 0x0;
   0x0; 0x0; 0x0; 0x202000; 0x0; 0x0; 0x0; 0x1000000;
   0x182aaa8; 0x187fffc; 0x1b3bbfc; 0x1b33060; 0x1b33060; 0x1b33070; 0x1b33030; 0x1b33030;
   0x1b33038; 0x1b7fff8; 0x1b7fff8; 0x1b7ff1c; 0x1b3331e; 0x1b3331e; 0x1b3331c; 0x1b33318;
   0x1b33318; 0x1931b18; 0x1831bb8; 0x1831bf8; 0x1831ab8; 0x1831c18; 0x1e30c18; 0x1e30400;
   0x0; 0x0; 0x0; 0x0; 0x202000; 0x0; 0x0; 0x0;
   0x0; 0x3fff2a8; 0x3fff7fc; 0x3aab7fc; 0x3803060; 0x3803060; 0x3fff070; 0x3ffb030;
   0x3803030; 0x3803038; 0x3bfb3f8; 0x3bfb3f8; 0x3b1b33c; 0x3b1b33e; 0x3b1b33e; 0x3b1b33c;
   0x3b1b338; 0x3bfb338; 0x3bfb338; 0x381b3b8; 0x38033f8; 0x38032b8; 0x3d03038; 0x3f03038;
   0x1f03000; 0x0; 0x0; 0x0; 0x0; 0x202000; 0x0; 0x0;
   0x0; 0x0; 0x3fffaa8; 0x7fffffc; 0x2bbabfc; 0x198060; 0x198060; 0x15dd070;
   0x3fff830; 0x3fff830; 0x3991838; 0x3991bf8; 0x3999bf8; 0x3999b3c; 0x3999b3e; 0x3f9db36;
   0x3f8fb34; 0x3807b30; 0x3801b30; 0x3801b30; 0x3801bb0; 0x3801bf0; 0x3fffab0; 0x3fff830;
   0x3801830; 0x3801800; 0x0; 0x0; 0x0; 0x0; 0x202000; 0x0;
   0x0; 0x0; 0x71c000; 0x60c2a8; 0x71c7fc; 0x60c7fc; 0x71c060; 0x60c060;
   0x3fff870; 0x3fff830; 0x71c030; 0x60c038; 0x71c7f8; 0x60c3f8; 0x71c73c; 0x60c23e;
   0x7ffff3c; 0x3fffa3c; 0x7ffff38; 0x238; 0x71c738; 0xe0c2b8; 0x1e0e7f8; 0x1c072b8;
   0x3807838; 0x3003c38; 0x1001800; 0x0; 0x0; 0x0; 0x0; 0x202000;
   0x0; 0x0; 0x0; 0x0; 0x2aaaaa8; 0x3fffffc; 0x2aeaffc; 0x60060;
   0x60060; 0x1ffe070; 0x1ffe030; 0x1c06030; 0x18c6038; 0x1cc67f8; 0x18c67f8; 0x1cc663c;
   0x18c663e; 0x1cc663c; 0x18c663c; 0x1cc6638; 0x18e6638; 0x1c66638; 0x3606b8; 0x7f07f8;
   0xe382b8; 0x3c1f038; 0x3807838; 0x3001000; 0x0; 0x0; 0x0; 0x0;
   0x202000; 0x0; 0x0; 0x0; 0xe0000; 0xe02a8; 0xe07fc; 0xe07fc;
   0x1fff060; 0x1fff060; 0x4e0070; 0x1ce3030; 0xce7030; 0xce6038; 0x6ee3f8; 0x6ec3f8;
   0x46033c; 0x3fffb3e; 0x3fffb3c; 0xe033c; 0x1f0338; 0x1b0338; 0x3b8338; 0x3183b8;
   0x71c3f8; 0xe0e2b8; 0x1c07838; 0x3803c38; 0x1001c00; 0x0; 0x0; 0x0;
   0x0; 0x202000; 0x0; 0x0; 0x0; 0x1c000; 0x182a8; 0x187fc;
   0x1ff87fc; 0x1fff060; 0x83f060; 0x1c30070; 0xe70030; 0x7e0030; 0x31e0038; 0x31fc7f8;
   0x3fbf3f8; 0x1f0773c; 0x80023e; 0x3ffff3c; 0x3fffa3c; 0x17dd738; 0x398238; 0x39c738;
   0x39c2b8; 0x739c7f8; 0x238e2b8; 0x7707038; 0x3f03c38; 0x1f01800; 0x0; 0x0;
   0x0; 0x0; 0x202000; 0x0; 0x0; 0x0; 0x60000; 0x862aa8;
   0x1c63ffc; 0x863ffc; 0x1c63860; 0xfff860; 0x1fff870; 0xaaa030; 0x30; 0xaaa838;
   0x1fffff8; 0xfffbf8; 0x1c0073c; 0xc0023e; 0x1fff73c; 0xfff23c; 0x1fff738; 0x3238;
   0x1003738; 0x30032b8; 0x70037f8; 0x30032b8; 0x3fff038; 0x1ffe038; 0x0; 0x0;
   0x0; 0x0; 0x0; 0x202000; 0x0; 0x0; 0x0; 0x0;
   0xf802a8; 0x1fff7fc; 0xfe7fc; 0xe0060; 0xe0060; 0x60070; 0x3fff030; 0x3fff030;
   0x338038; 0x7187f8; 0xe1c3f8; 0x1c0e73c; 0x380fa3e; 0x361bf3c; 0x61923c; 0x618738;
   0x618238; 0x61c738; 0x60c2b8; 0x60c7f8; 0x60e2b8; 0x607038; 0x603838; 0x601000;
   0x0; 0x0; 0x0; 0x0; 0x202000; 0x0; 0x0; 0x0;
   0xc0000; 0xc22a8; 0x18c77fc; 0x18c67fc; 0x1ccc060; 0xccc060; 0x6dc070; 0xc0030;
   0x1fff030; 0x1ffe030; 0x1c077f8; 0x18067f8; 0x1d5773c; 0x1ffe63c; 0x1fff73c; 0x1806634;
   0x1c07730; 0x1ffe630; 0x1fff730; 0x18066b0; 0x1c077f0; 0x18062b0; 0x1d07030; 0x1f06030;
   0xf07000; 0x0; 0x0; 0x0; 0x0; 0x202000; 0x0; 0x0;
   0x0; 0x180000; 0xdb82a8; 0x1dff7fc; 0x198fffc; 0x398dc60; 0x318c060; 0x118c070;
   0x18c030; 0x7fffc30; 0x3fffc38; 0x30c3f8; 0x3b0c3f8; 0x1b0c33c; 0x1b4c33e; 0x1f7c33e;
   0xf3fb3c; 0xf0ff38; 0x70cb38; 0x70c338; 0x278c3b8; 0x67cc3f8; 0x2fcc2b8; 0x7cff838;
   0x3c7f838; 0x3827000; 0x0; 0x0; 0x0; 0x0; 0x202000; 0x0].
Definition hanzi_data_301 : list N :=
  [0x0; 0x0; 0x60000; 0xe02a8; 0xc07fc; 0x3fffffc; 0x3fff860; 0x30060;
   0x738070; 0xe18030; 0x1c1c030; 0x1ffe038; 0x3fff7f8; 0x302f3f8; 0x164473c; 0x66623e;
   0x66673c; 0x66623c; 0x666738; 0x666238; 0x666738; 0x6662b8; 0x66677f8; 0x2663ab8;
   0x7661c38; 0x3e61e38; 0x1c00c00; 0x0; 0x0; 0x0; 0x0; 0x202000;
   0x0; 0x0; 0x0; 0x0; 0x3fffaa8; 0x3fffffc; 0xe07fc; 0xe0060;
   0x2aea060; 0x3fff070; 0x3aeb030; 0x38e3030; 0x38e3038; 0x3fff7f8; 0x3fff7f8; 0x38e363c;
   0x38e363e; 0x3fff63c; 0x3fff634; 0xe0630; 0x63630; 0x77630; 0x3e6b0; 0x3c7f0;
   0xfc2b0; 0x7ff030; 0x3f87c30; 0x3c01800; 0x0; 0x0; 0x0; 0x0;
   0x202000; 0x0; 0x0; 0x0; 0x61c000; 0x60c2a8; 0x61c7fc; 0x3fffffc;
   0x7fff860; 0x2eae860; 0x61c070; 0x60c030; 0x70030; 0xe0038; 0x1c07f8; 0x2aaabf8;
   0x3ffff3c; 0x3fffa3e; 0xe73c; 0xe23c; 0xe738; 0xe238; 0xe738; 0xe2b8;
   0xe7f8; 0xe2b8; 0x3ffe038; 0x3ffe038; 0x0; 0x0; 0x0; 0x0;
   0x0; 0x202000; 0x0; 0x0; 0x0; 0x18000; 0x182a8; 0x7fc7fc;
   0x7fc7fc; 0x70e060; 0x387060; 0x1c7070; 0x3fff830; 0x3fffc30; 0x38c3830; 0x38c77f8;
   0x3aeb3f8; 0x3fff73c; 0x3aeb23c; 0x38c773c; 0x38c3234; 0x3fff730; 0x3fff230; 0x3dd7730;
   0x38c32b0; 0x38c3ff0; 0x38c1ab0; 0x3dc1c30; 0x3ec0e30; 0x1e00c00; 0x0; 0x0;
   0x0; 0x0; 0x202000; 0x0; 0x0; 0x0; 0xe0000; 0x602a8;
   0xf07fc; 0x1f87fc; 0x39c060; 0x70c060; 0xf0e070; 0x1c07030; 0x7fffc30; 0x37ffc38;
   0x2554ff8; 0x3f8; 0x186073c; 0x186333e; 0x1c6373c; 0xce233c; 0xcc6738; 0x6c6338;
   0x6c6738; 0x2023b8; 0x3007f8; 0x3802b8; 0x3fffc38; 0x3fff838; 0x0; 0x0;
   0x0; 0x0; 0x0; 0x202000; 0x0; 0x0; 0x0; 0x0;
   0x1f9faa8; 0x1fdfffc; 0x1898bfc; 0x19d9c70; 0x1898830; 0x19d9c30; 0x1f9f830; 0x1fdfc30;
   0x18988b8; 0x19d9df8; 0x18989b8; 0x19d9d9c; 0x189899c; 0x1fdfd9e; 0x1f9f99e; 0x19d9d9c;
   0x18d8d98; 0x18d8d98; 0x18d8d98; 0x18d8df8; 0x18d8eb8; 0x1d7f618; 0x1e7e618; 0x1e44200;
   0x0; 0x0; 0x0; 0x0; 0x202000; 0x0; 0x0; 0x0;
   0x60000; 0xe02a8; 0x1c07fc; 0x3fff7fc; 0x3fff060; 0x3003060; 0x3113070; 0x33b3030;
   0x738030; 0xe1c038; 0x1c0e7f8; 0x38073f8; 0x300373c; 0x23e; 0x1ffe73c; 0x1ffe23c;
   0xc0738; 0xc0238; 0xc0738; 0xc02b8; 0xc07f8; 0xc02b8; 0x7fff838; 0x3fff838;
   0x0; 0x0; 0x0; 0x0; 0x0; 0x202000; 0x0; 0x0;
   0x0; 0xe0000; 0xe02a8; 0x3fff7fc; 0x3fff7fc; 0xe0060; 0x1fff060; 0x1fff070;
   0xe0030; 0x7fff830; 0x3fff838; 0x7f8; 0xaaa3f8; 0x1ffe73c; 0x180633e; 0x1c0673c;
   0x1ffe33c; 0x1ffe738; 0x1806338; 0x1ffe738; 0x1ffe3b8; 0x1c067f8; 0x18062b8; 0x1c06038;
   0xf86038; 0xf06000; 0x0; 0x0; 0x0; 0x0; 0x202000; 0x0;
   0x0; 0x0; 0x70000; 0x602a8; 0x607fc; 0x2aeaffc; 0x3fff860; 0x3aab860;
   0x3801870; 0x3801830; 0x30; 0x1fff038; 0x1fff7f8; 0xe03f8; 0xe073c; 0xe623e;
   0xe773c; 0x1fe623c; 0x1fe7738; 0xe7238; 0xe7738; 0xef2b8; 0xefff8; 0xf9ab8;
   0x7ff9c38; 0x3fe0e38; 0x3f40400; 0x0; 0x0; 0x0; 0x0; 0x202000;
   0x0; 0x0; 0x0; 0x1d00000; 0x3ffe2a8; 0x7ff7fc; 0xc37fc; 0x1c3060;
   0x2aeb060; 0x3fff070; 0x2bab030; 0x183030; 0x2383038; 0x37737f8; 0x3e7fbf8; 0x3e1ff3c;
   0x180023e; 0x1fff73c; 0x1ffe23c; 0x1c07738; 0x1802238; 0x1fff738; 0x1ffe2b8; 0x1c077f8;
   0x18022b8; 0x1fff038; 0x1ffe038; 0x1c07000; 0x0; 0x0; 0x0; 0x0;
   0x202000; 0x0; 0x0; 0x0; 0x0; 0x3fff2a8; 0x3fff7fc; 0x3aab2e8;
   0x30c3060; 0x30c3060; 0x37fb070; 0x33fb030; 0x30c3030; 0x30c3038; 0x37ff7f8; 0x37fb3f8;
   0x300373c; 0x300333e; 0x37fb73c; 0x33fb33c; 0x371b738; 0x321bb38; 0x3719f38; 0x33f9bb8;
   0x37f9ff8; 0x3018eb8; 0x3000e38; 0x3f00638; 0x1f00400; 0x0; 0x0; 0x0;
   0x0; 0x202000; 0x0; 0x0; 0x0; 0x0; 0xfff2a8; 0x1fff7fc;
   0xc002e8; 0x1c00070; 0xffe060; 0x1ffe070; 0xc00030; 0xc00030; 0x3fffbf8; 0x7fffff8;
   0x2aeaa38; 0x10c173c; 0x38c723c; 0x1ccf73c; 0xecc23e; 0x7ec734; 0x3f0230; 0x7fc730;
   0xece3f0; 0x1cc7ff0; 0x38c3830; 0x30c0030; 0xf8000; 0x78000; 0x0; 0x0;
   0x0; 0x0; 0x202000; 0x0; 0x0; 0x0; 0x0; 0x1ffeaa8;
   0x1ffeffc; 0x1806ffc; 0x1d56060; 0x1ffe060; 0x1c06070; 0x1806070; 0x1ffe070; 0x1ffe038;
   0x7f8; 0x2aaa7f8; 0x3fff63c; 0x2eaa63e; 0x60063c; 0x2eaae34; 0x7fffe30; 0x3fffe30;
   0x61c630; 0x61c6b0; 0x6387f0; 0x6302b0; 0x610030; 0x7e0030; 0x7c0000; 0x0;
   0x0; 0x0; 0x0; 0x202000; 0x0; 0x0; 0x0; 0x60000;
   0xe02a8; 0xc07fc; 0x3fffffc; 0x3fff860; 0x60; 0x61c070; 0x60c030; 0x70c030;
   0x70e038; 0xf9e7f8; 0x1db73f8; 0x39f373c; 0x10c3b3e; 0xc173c; 0xc033c; 0x7ffff38;
   0x3fffb38; 0xc0738; 0xc03b8; 0xc07f8; 0xc02b8; 0xc0038; 0xc0038; 0xc0000;
   0x0; 0x0; 0x0; 0x0; 0x202000; 0x0; 0x0; 0x0;
   0x618000; 0x618aa8; 0x619ffc; 0x2ebaae8; 0x3fff060; 0x2eba060; 0x618070; 0x618030;
   0x618070; 0x3fff2b0; 0x7fff7f0; 0x6b8; 0x638; 0x1ffc63c; 0x1ffc63c; 0x180c63e;
   0x1c0c634; 0x1aac630; 0x1ffc630; 0x1aac7f0; 0x1c0c7f0; 0x180c030; 0x1ffc030; 0x1ffc000;
   0x1c0c000; 0x0; 0x0; 0x0; 0x0; 0x202000; 0x0; 0x0;
   0x0; 0xc0000; 0xe0aa8; 0x60ffc; 0x1fffffc; 0x1fff060; 0x18c3060; 0x18c7070;
   0x1fff030; 0x1fff030; 0x18c32b0; 0x18c77f8; 0x1fff7f8; 0x1fff63c; 0x26063c; 0x37063c].
Definition hanzi_data_302 : list N :=
  [0x33863e; 0x31c634; 0x2baae30; 0x7fffe30; 0x3fffff0; 0x3007f0; 0x300030; 0x300030;
   0x300020; 0x300000; 0x0; 0x0; 0x0; 0x0; 0x202000; 0x0;
   0x0; 0x0; 0x198000; 0x1d82a8; 0x19c7fc; 0x38c7fc; 0x30c060; 0x3ffe060;
   0x3ffe070; 0x187030; 0x187030; 0x187838; 0x1fffff8; 0x1ffeff8; 0x18673c; 0x18663e;
   0x18673c; 0xbae63c; 0x1ffe738; 0xbae638; 0x186738; 0x1866b8; 0x1867f8; 0x3ffe2b8;
   0x3ffe038; 0x6038; 0x6000; 0x0; 0x0; 0x0; 0x0; 0x202000;
   0x0; 0x0; 0x0; 0x70000; 0x602a8; 0x15f57fc; 0x3fffbfc; 0x3fffc60;
   0x3001860; 0x3005c70; 0x2002830; 0x1fd7030; 0x1fbf038; 0x19f73f8; 0x18b3bf8; 0x19f1b3c;
   0x18b9b3e; 0x19dff3e; 0x189ff3c; 0x1dde338; 0x1e8c338; 0x5cc338; 0x8e3b8; 0x71c73f8;
   0x20832b8; 0x71c3c38; 0x3f81e38; 0x1f00c00; 0x0; 0x0; 0x0; 0x0;
   0x202000; 0x0; 0x0; 0x0; 0x198000; 0x1982a8; 0x1987fc; 0x1983fc;
   0x1fff070; 0x1fff060; 0x1993070; 0x1993030; 0x1993030; 0x1993038; 0x1fff3f8; 0x1fff3f8;
   0x199331c; 0x199331e; 0x199331e; 0x199331c; 0x5dd7718; 0x3ffff18; 0x7ffff18; 0x3183b8;
   0xf1c3f8; 0xe0e2b8; 0x1c07018; 0x3803c18; 0x1001800; 0x0; 0x0; 0x0;
   0x0; 0x202000; 0x0; 0x0; 0x0; 0x60000; 0xe02a8; 0xc07fc;
   0x3fff7fc; 0x3fff060; 0xc08060; 0xc0c070; 0xe0c030; 0x61c030; 0x618038; 0x575d7f8;
   0x3fffbf8; 0x7ffff3c; 0x23e; 0x155473c; 0x1ffe234; 0x1ffe730; 0x1806230; 0x1c06730;
   0x18062b0; 0x1c067f0; 0x1aae2b0; 0x1ffe030; 0x1ffe030; 0x1c06000; 0x0; 0x0;
   0x0; 0x0; 0x202000; 0x0; 0x0; 0x0; 0xe0000; 0xe02a8;
   0x3fffffc; 0x3fffffc; 0xe0060; 0xaea060; 0x1fff070; 0xe0030; 0x7fffc30; 0x3fff838;
   0x15557f8; 0xaaa3f8; 0x1fff33c; 0x1aab33e; 0x1c4733e; 0x18e333c; 0x1ce7338; 0x18e3338;
   0x1c67338; 0x18633b8; 0x11753f8; 0x7b82b8; 0x1f1f038; 0x3807c38; 0x3001c00; 0x0;
   0x0; 0x0; 0x0; 0x202000; 0x0; 0x0; 0x0; 0x70000;
   0x702a8; 0x3bc7fc; 0x71c7fc; 0xfff060; 0x1fff060; 0x187f070; 0x70030; 0x3fff830;
   0x3fff838; 0x71c3f8; 0xe0e3f8; 0x3cc7b3c; 0x38e3f3e; 0x3078f3c; 0x71e33c; 0x3cf338;
   0x18e2338; 0x1c7c338; 0xe1e3b8; 0x7c63f8; 0x1e02b8; 0x7c038; 0x3f038; 0x7000;
   0x0; 0x0; 0x0; 0x0; 0x202000; 0x0; 0x0; 0x0;
   0x470000; 0x6232a8; 0x6737fc; 0x6233fc; 0x3fffc60; 0x3fffc60; 0x673070; 0x623030;
   0x7f3030; 0x7e3038; 0x33f8; 0xaab3f8; 0x1fff33c; 0xaea33e; 0x6033c; 0x2aeab3c;
   0x3ffff38; 0x2afab38; 0x1fc338; 0x3ec3b8; 0x76f3f8; 0xe67ab8; 0x3c63c38; 0x1860c38;
   0x60400; 0x0; 0x0; 0x0; 0x0; 0x202000; 0x0; 0x0;
   0x0; 0xe0000; 0xe02a8; 0x3fff7fc; 0x3fff7fc; 0xe0060; 0x1ffe060; 0x1fff070;
   0xe0030; 0x7fff830; 0x3fff838; 0x3f8; 0x1ffe3f8; 0x1ffe33c; 0x186633e; 0x1cc633c;
   0x3fffb3c; 0x7ffff38; 0xc62338; 0x1cc7338; 0x2eeb3b8; 0x3fff3f8; 0xc002b8; 0xc00038;
   0xf80038; 0x780000; 0x0; 0x0; 0x0; 0x0; 0x202000; 0x0;
   0x0; 0x0; 0x0; 0x1ffe2a8; 0x1fff7fc; 0x18067fc; 0x1c07060; 0x1ffe060;
   0x1fff070; 0x1806030; 0x1fff030; 0x1ffe038; 0x155d7f8; 0xe3f8; 0x3ffe73c; 0x3fff33e;
   0x30c3f3c; 0x30c1b34; 0x30e7f30; 0x39e2330; 0x3f3f730; 0x3a1a3b0; 0x1fff7f0; 0x1ffe2b0;
   0x1800030; 0x1f00030; 0xf00000; 0x0; 0x0; 0x0; 0x0; 0x202000;
   0x0; 0x0; 0x0; 0x70000; 0xe02a8; 0xc03fc; 0x1fffbfc; 0x1fff860;
   0x1803860; 0x1803870; 0x1aab830; 0x1fff830; 0xaab838; 0x3bf8; 0x2aabbf8; 0x3fffb3c;
   0x3befb3e; 0x3367b3e; 0x3367b3c; 0x3367b38; 0x3fffb38; 0x3ffff38; 0x3367bb8; 0x3367ff8;
   0x3366eb8; 0x3366e38; 0x3f66638; 0x1c06400; 0x0; 0x0; 0x0; 0x0;
   0x202000; 0x0; 0x0; 0x0; 0x1c0000; 0x1c0aa8; 0x1ffdffc; 0x1ffcba8;
   0x1c0c1c0; 0x180c180; 0x1ffdffc; 0x1ffcba8; 0x1c0c1c0; 0x180c180; 0x1ffdffc; 0x1ffcffc;
   0x14; 0x2aaaaa8; 0x3fffffc; 0x2aaaea8; 0x700; 0xaaab80; 0xffffe0; 0xeaabf0;
   0xe001fc; 0xe0019c; 0xffff84; 0xffff80; 0xe00180; 0x0; 0x0; 0x0;
   0x0; 0x202000; 0x0; 0x0; 0x0; 0x0; 0x1ffe2a8; 0x1fff7fc;
   0x18c27fc; 0x18c7060; 0x1ffe060; 0x1fff070; 0x18c2030; 0x18c7030; 0x1aea038; 0x1fff7f8;
   0xaaa3f8; 0x73c; 0x3fffa3e; 0x7ffff3c; 0xc623c; 0x31c6738; 0x3986238; 0x1f86738;
   0x7062b8; 0x7067f8; 0xee62b8; 0x1cff038; 0x381e038; 0x3002000; 0x0; 0x0;
   0x0; 0x0; 0x202000; 0x0; 0x0; 0x0; 0x607000; 0x6062a8;
   0x70e7fc; 0x30c3fc; 0x19c070; 0x3fffc20; 0x3fffc70; 0x198030; 0x198030; 0x1982b8;
   0x3999ff8; 0x3999bb8; 0x1999b3c; 0x1999b3c; 0x1d9bb3c; 0xd9b336; 0xd9b334; 0xf9b330;
   0x79f330; 0x1983b0; 0x1983f0; 0x1982b0; 0x7fffe30; 0x3fffe30; 0x0; 0x0;
   0x0; 0x0; 0x0; 0x202000; 0x0; 0x0; 0x0; 0x700000;
   0x1f802a8; 0x3b003fc; 0x33003fc; 0x7fff870; 0x3fff830; 0x5755830; 0x301830; 0x37f830;
   0x337f838; 0x3b01bf8; 0x1b01bf8; 0x1b7db1c; 0x1b7db1e; 0x1f65b1c; 0xf65b1c; 0xf65b18;
   0x665b18; 0x77df18; 0x27acfb8; 0x67c4ff8; 0x67c0eb8; 0x7cf0618; 0x3c78618; 0x3830400;
   0x0; 0x0; 0x0; 0x0; 0x202000; 0x0; 0x0; 0x0;
   0x70000; 0xe02a8; 0x3fff7fc; 0x3fffffc; 0x3fff060; 0x60c060; 0x71c070; 0x318030;
   0x3fff830; 0x3fff838; 0x3061bf8; 0x30e1bf8; 0x30e1b3c; 0x1fff33e; 0x1fff33c; 0x18e3334;
   0x1ce7330; 0x18e3330; 0x1ce7330; 0x18e33b0; 0x1fe73f0; 0xee32b0; 0xe0030; 0xe0030;
   0xe0000; 0x0; 0x0; 0x0; 0x0; 0x202000; 0x0; 0x0].
Definition hanzi_data_303 : list N :=
  [0x0; 0xc0000; 0x38c3000; 0x38c37fc; 0x38c37fc; 0x3dd7070; 0x3fff030; 0x3fff070;
   0xc030; 0x7fffc30; 0x3fff838; 0x7fffff8; 0x38e3f8; 0x18633c; 0x33b633c; 0x19b633c;
   0x19b633c; 0x1d9733c; 0xf9a338; 0x3d7338; 0x2c33f8; 0x6e3bf8; 0xe61ab8; 0x1c79c38;
   0x783e838; 0x300c000; 0x0; 0x0; 0x0; 0x0; 0x202000; 0x0;
   0x0; 0x0; 0xe0000; 0xe02a8; 0xe07fc; 0x3fffffc; 0x3fff860; 0x2bfa860;
   0x3f8070; 0x7fc030; 0x1eef030; 0x3ce7838; 0x78e3ff8; 0x2aaabf8; 0xfff33c; 0xeae33e;
   0xc0733c; 0xffe33c; 0xfff338; 0xc06338; 0xd57338; 0xffe3b8; 0x5553f8; 0x2b8;
   0x3fffc38; 0x3fffc38; 0x0; 0x0; 0x0; 0x0; 0x0; 0x202000;
   0x0; 0x0; 0x0; 0x6000; 0x2a862a8; 0x3fffffc; 0x3bbfae8; 0x3306070;
   0x3306020; 0x333f830; 0x333f830; 0x3186030; 0x31aeab8; 0x31ffff8; 0x3eeebb8; 0x1e7633c;
   0x633c; 0x6033c; 0x6033e; 0x3ffff34; 0x3ffff30; 0xf0330; 0x1f8330; 0x3bc3f0;
   0x79e2b0; 0x1f0f030; 0x3c03e30; 0x3001c00; 0x0; 0x0; 0x0; 0x0;
   0x202000; 0x0; 0x0; 0x0; 0x60000; 0xe02a8; 0xc07fc; 0x3fffffc;
   0x3fff860; 0x3003860; 0x3003870; 0x3fff830; 0xffc030; 0x30; 0x1ffe7f8; 0xffe7f8;
   0x1c0673c; 0xc0663c; 0x1ffe73c; 0xffe634; 0x1c06730; 0xc06630; 0x1ffe730; 0xffe6b0;
   0x7f0; 0x2b0; 0x3fff830; 0x3fff830; 0x0; 0x0; 0x0; 0x0;
   0x0; 0x202000; 0x0; 0x0; 0x0; 0x0; 0x3fff2a8; 0x3fff7fc;
   0x38032e8; 0x3803060; 0x3aab060; 0x3fff070; 0xaab030; 0x673030; 0x623038; 0x3fff7f8;
   0x3fff3f8; 0x67373c; 0x62333e; 0x67373c; 0x3fff33c; 0x7fff738; 0x319bb38; 0x3f19f38;
   0xf19bb8; 0x719ff8; 0xf98eb8; 0x1df8c38; 0x38fce38; 0x101c400; 0x0; 0x0;
   0x0; 0x0; 0x202000; 0x0; 0x0; 0x0; 0x606000; 0xe062a8;
   0x70e3fc; 0x30c2a8; 0x31c070; 0x3fffc30; 0x7fffc30; 0x302030; 0x707030; 0x3032b8;
   0x13933f8; 0x39bbbb8; 0x19d9b1c; 0x1fdff1c; 0xfdff1e; 0xeccf1e; 0x60631c; 0x606318;
   0x1b1b318; 0x3b9bb18; 0x3199ff8; 0x3fffeb8; 0x7fffe18; 0x2070418; 0x10000; 0x0;
   0x0; 0x0; 0x0; 0x202000; 0x0; 0x0; 0x0; 0x60000;
   0xe02a8; 0x15d57fc; 0x1fffffc; 0x175d060; 0x60c060; 0x71c070; 0x318030; 0x3fff830;
   0x3fff838; 0x3061ff8; 0x30e1bf8; 0xc073c; 0x1fffb3e; 0x1ffff3e; 0x3833c; 0x18738;
   0xff8338; 0x1ff8738; 0xc1c3b8; 0xc1c7f8; 0xc0e2b8; 0xe07038; 0xfc3c38; 0x7c1800;
   0x0; 0x0; 0x0; 0x0; 0x202000; 0x0; 0x0; 0x0;
   0x0; 0xffe2a8; 0xffe7fc; 0x78e7fc; 0x1fe060; 0x3f8060; 0xfff070; 0xe07030;
   0x3fff830; 0x3fff838; 0x1898bf8; 0xfdfff8; 0xf0f33c; 0x1f9fb3e; 0x39fbf3e; 0xe0b3c;
   0x3ffff38; 0x3ffff38; 0x1f8338; 0x3fc3b8; 0x76e3f8; 0xe672b8; 0x7c63c38; 0x3860c38;
   0x60400; 0x0; 0x0; 0x0; 0x0; 0x202000; 0x0; 0x0;
   0x0; 0x0; 0x1fffff8; 0x1fffff8; 0xe00; 0x700; 0x7fff80; 0x7fffe0;
   0x7003f8; 0x7003bc; 0x7fff88; 0x7fff80; 0x0; 0x3ffdffc; 0x3ffdffc; 0x15755d4;
   0x600e0; 0x1570570; 0x1ff8ff0; 0x1ffdff8; 0x183c83c; 0x183fc7e; 0x1836824; 0x1ff1ff0;
   0x1ff0fe0; 0x1831470; 0x0; 0x0; 0x0; 0x0; 0x202000; 0x0;
   0x0; 0x0; 0xc0c000; 0xe1c2a8; 0x7187fc; 0x3387fc; 0x3fff860; 0x3fff860;
   0xe0070; 0x60030; 0x1fff030; 0x1fff038; 0x703f8; 0x303f8; 0x3fffb3c; 0x3fffb3e;
   0x1833c; 0x1833c; 0x1ffc338; 0x1ffe338; 0x1c7338; 0x1873b8; 0x1c3ff8; 0x181eb8;
   0x7fffc38; 0x3ffe038; 0x0; 0x0; 0x0; 0x0; 0x0; 0x202000;
   0x0; 0x0; 0x0; 0x606000; 0x6062a8; 0x70e7fc; 0x38c7fc; 0x3fff860;
   0x3fff860; 0x1cc070; 0x18c030; 0x1fff830; 0x1fff838; 0x19cc3f8; 0x3baebf8; 0x7ffff3c;
   0x3baeb3e; 0x19cc33c; 0x1baeb3c; 0x1fffb38; 0x38e338; 0x7ce338; 0x78f3b8; 0xdcfbf8;
   0x1d8deb8; 0x79cde38; 0x318cc38; 0x1cc000; 0x0; 0x0; 0x0; 0x0;
   0x202000; 0x0; 0x0; 0x0; 0x550300; 0x7f0380; 0x771ff0; 0x639ff0;
   0x161d9b0; 0x3e0fbb0; 0x1405b30; 0xffdffc; 0xffdffc; 0xe398b0; 0x7719b0; 0x3e1b38;
   0x1ff9918; 0x3e3fe1c; 0x1004e0c; 0x3fffffc; 0x3fffffc; 0x380; 0xffffc0; 0xffffe0;
   0xe001f8; 0xe001bc; 0xffff8c; 0xffff80; 0xe00180; 0x0; 0x0; 0x0;
   0x0; 0x202000; 0x0; 0x0; 0x0; 0xc06000; 0xc062a8; 0xc077fc;
   0x3fbf3fc; 0x3fff060; 0xc31860; 0xdf3c70; 0xcdfe30; 0xcde430; 0x3fcc038; 0x3fce3f8;
   0xc073f8; 0xc63f3c; 0xc61b3e; 0x6033c; 0x3ffff3c; 0x3ffff38; 0x1f8338; 0x3fc338;
   0x76e3b8; 0xe673f8; 0x3c63ab8; 0x7861e38; 0x2060c38; 0x60000; 0x0; 0x0;
   0x0; 0x0; 0x202000; 0x0; 0x0; 0x0; 0xe0000; 0xe02a8;
   0x15f57fc; 0x1fff7fc; 0x1fff060; 0xe0060; 0xe0070; 0x3fff830; 0x3fff830; 0x218038;
   0x71c3f8; 0xe0e3f8; 0x1fffb3c; 0x3fffb3e; 0x100133c; 0xaaa33c; 0x1fff338; 0x1bbb338;
   0x19b3338; 0x19b33b8; 0x19b33f8; 0x19b32b8; 0x7fffc38; 0x3fffc38; 0x5555400; 0x0;
   0x0; 0x0; 0x0; 0x202000; 0x0; 0x0; 0x0; 0x60000;
   0xe02a8; 0x15d57fc; 0x3fffffc; 0x7fff860; 0x618060; 0x1e0e070; 0x3867030; 0x7073c30;
   0x2238838; 0x71c7f8; 0xe0e3f8; 0x1fff73c; 0x1bff23e; 0x10f173c; 0x20f823c; 0x79de738;
   0x1d8f238; 0xf8ff38; 0x30cab8; 0xf0c7f8; 0xe8c2b8; 0x7dfc038; 0x383e038; 0x2004000;
   0x0; 0x0; 0x0; 0x0; 0x202000; 0x0; 0x0; 0x0;
   0x6000; 0xc62a8; 0x3fff7fc; 0x3fff7fc; 0x31f1860; 0x39b7c60; 0x1d9ce70; 0xf18e30;
   0xf0f830; 0x60e038; 0xe073f8; 0x3fffbf8; 0x7ffdf3c; 0x2000b3e; 0x33e; 0x1fffb3c].
Definition hanzi_data_304 : list N :=
  [0x1fffb38; 0x60338; 0xc67338; 0xc633b8; 0x1c63bf8; 0x3861ab8; 0x7061c38; 0x7c838;
   0x7c000; 0x0; 0x0; 0x0; 0x0; 0x202000; 0x0; 0x0;
   0x0; 0x311000; 0x331aa8; 0x331bfc; 0x33baa8; 0x37fe70; 0x331830; 0x3ff1830;
   0x3fff830; 0x333f830; 0x33318b8; 0x333f9f8; 0x333f9b8; 0x333199c; 0x333199c; 0x337ff9e;
   0x33fff9e; 0x319ed9c; 0x31bed98; 0x31b7d98; 0x31a3d98; 0x31c3df8; 0x38ffcb8; 0x1effc18;
   0x1e60018; 0x40000; 0x0; 0x0; 0x0; 0x0; 0x202000; 0x0;
   0x0; 0x0; 0xc000; 0xc000; 0x3fffff8; 0x3fffff8; 0x1555578; 0x300c38;
   0x3fffff8; 0x3feffb8; 0x781e38; 0xfc7e38; 0x1f7ffb8; 0x3b3cdf8; 0x311c78; 0x200838;
   0x3fffff8; 0x3fffff8; 0x3818; 0x1c18; 0x1ffff18; 0xeaaf98; 0x1c01dfc; 0xc00ccc;
   0x1fffc0c; 0xfffc0e; 0x1c01c04; 0x0; 0x0; 0x0; 0x0; 0x202000;
   0x0; 0x0; 0x0; 0x550180; 0x7f2ba8; 0x773ffc; 0x630180; 0x61bff8;
   0x3e1fff8; 0x140d550; 0x1ffdff8; 0xffd998; 0xe31998; 0x7e1ff8; 0x3e1ff8; 0x7ffe01c;
   0x3e1e00c; 0x155555c; 0x3fffffc; 0x1555754; 0x380; 0xffffc0; 0xffffe0; 0xe001fc;
   0xe001bc; 0xffff88; 0xffff80; 0xe00180; 0x0; 0x0; 0x0; 0x0;
   0x202000; 0x0; 0x0; 0x0; 0x1000; 0x3ff7aa8; 0x3fff7fc; 0x347fc;
   0x1ff0060; 0x1ff3c60; 0x1837c70; 0x1832030; 0x1ff4030; 0x1ffe038; 0x373f8; 0x333f8;
   0x3ff3b3c; 0x2aa1b3e; 0xe033c; 0xe033c; 0x7fffb38; 0x3fffb38; 0x3f8338; 0x3fc3b8;
   0xfee3f8; 0x1ee72b8; 0x7ce3c38; 0x30e1838; 0xe0000; 0x0; 0x0; 0x0;
   0x0; 0x202000; 0x0; 0x0; 0x0; 0xc0000; 0x8ff2a8; 0x1dff7fc;
   0x7b87fc; 0x3399860; 0x3b1b860; 0x1f1f070; 0xeae030; 0x1fff030; 0x3aab038; 0x7803ff8;
   0x2fffbf8; 0xfff73c; 0xc0633e; 0xc0773c; 0xc0633c; 0xfff738; 0xffe338; 0x60e738;
   0x60c3b8; 0x71c7f8; 0x3182b8; 0x3fffc38; 0x3fffc38; 0x0; 0x0; 0x0;
   0x0; 0x0; 0x202000; 0x0; 0x0; 0x0; 0x460000; 0xc632a8;
   0xe677fc; 0x66e3fc; 0x764060; 0x1fff860; 0x1fffc70; 0x3f8030; 0x77c030; 0xe6f038;
   0x7c63ff8; 0x3060bf8; 0xc6733c; 0x2e8333e; 0x3fff33c; 0x2ebbb3c; 0xcd9f38; 0xcdbf38;
   0xcdf738; 0x3fce3b8; 0x3fce3f8; 0xc072b8; 0xc03838; 0xc01c38; 0xc00c00; 0x0;
   0x0; 0x0; 0x0; 0x202000; 0x0; 0x0; 0x0; 0x0;
   0x3fff800; 0x3fffffc; 0x3307fc; 0x3fff070; 0x3fff060; 0x3333070; 0x3333030; 0x3fff030;
   0x3fff030; 0x7f8; 0x1ffe3f8; 0x1fff73c; 0x180623c; 0x1fff73c; 0x1aae23e; 0x180773c;
   0x1ffe238; 0x15d5738; 0xc02b8; 0x7fffff8; 0x3fffab8; 0xc0038; 0xc0038; 0xc0000;
   0x0; 0x0; 0x0; 0x0; 0x202000; 0x0; 0x0; 0x0;
   0x70c000; 0x30c2a8; 0x175d3fc; 0x1fffbfc; 0x1fff870; 0x30c030; 0x70c030; 0x3fffc30;
   0x3fffc30; 0x602b8; 0x1fffbf8; 0x1fffbb8; 0x1c61b1c; 0x1861b1c; 0x1fffb1e; 0x1fffb1e;
   0x1c61b1c; 0x1861b18; 0x1fffb18; 0x1fffb18; 0x71c3f8; 0xf0e2b8; 0x1e07818; 0x3803e18;
   0x1000c00; 0x0; 0x0; 0x0; 0x0; 0x202000; 0x0; 0x0;
   0x0; 0xc00000; 0x1ffa000; 0x5ff7fc; 0xce67fc; 0xce6070; 0xeec060; 0x6ec070;
   0x3fff830; 0x7fff830; 0x3f8030; 0x7fc7f8; 0xeee7f8; 0x1ce7738; 0x38e3e3c; 0x3ffff3c;
   0x1ffe63e; 0x1ce7734; 0x18e2630; 0x1fff730; 0x1ffe6b0; 0x1ce77f0; 0x18e22b0; 0x1fff030;
   0x1ffe030; 0x1c07000; 0x0; 0x0; 0x0; 0x0; 0x202000; 0x0;
   0x0; 0x0; 0xcc000; 0xcc2a8; 0x1ce7fc; 0x1867fc; 0x3fff060; 0x3fff060;
   0x1c7870; 0x183c30; 0x3fffe30; 0x3fffc30; 0x1c77f8; 0x1833f8; 0x3fff33c; 0x3fff33c;
   0x1c733c; 0x183334; 0x7fff330; 0x3fff330; 0x7330; 0xd9b3b0; 0x199b3f0; 0x3bbbab0;
   0x3331830; 0x7331c30; 0x3110c00; 0x0; 0x0; 0x0; 0x0; 0x202000;
   0x0; 0x0; 0x0; 0x303000; 0x3030a8; 0x3071fc; 0x3bfffc; 0x1bfe70;
   0x2b80030; 0x7f9fc30; 0x3f9fc30; 0x19d8c30; 0x19d8cb8; 0x19dfdf8; 0x19ffdb8; 0x1dc019c;
   0xf3ff9c; 0xf1ff9e; 0xf0e19e; 0xf0719c; 0x63e198; 0x77ff98; 0xf07f98; 0xf871f8;
   0x1d860b8; 0x39c7018; 0x30f3c18; 0x3063c00; 0x0; 0x0; 0x0; 0x0;
   0x202000; 0x0; 0x0; 0x0; 0x0; 0xaaa000; 0x1fff7fc; 0x607fc;
   0x60070; 0x3fff860; 0x3fff870; 0x3061830; 0x3f7f830; 0xf7e038; 0x607f8; 0x1f7f3f8;
   0x1f7f73c; 0x6033c; 0x1fff73c; 0x1fff33e; 0x186373c; 0x1863338; 0x1fff738; 0x1fff3f8;
   0x18637f8; 0x18632b8; 0x1fff038; 0x1fff038; 0x1803000; 0x0; 0x0; 0x0;
   0x0; 0x202000; 0x0; 0x0; 0x0; 0x0; 0x3fffaa8; 0x3fffffc;
   0x7fc; 0x1fff060; 0x1aea060; 0x1dd7070; 0x1ffe030; 0x1cc7030; 0x1ffe038; 0x1fff7f8;
   0x3f8; 0x3ffff3c; 0x2aaab3c; 0x1fff73c; 0x1ffe334; 0x1cc7730; 0x1ffe330; 0x1fff730;
   0x18c23b0; 0x1fff7f0; 0xaaa2b0; 0x7fffc30; 0x3fffc30; 0x5555400; 0x0; 0x0;
   0x0; 0x0; 0x202000; 0x0; 0x0; 0x0; 0x71c000; 0x3182a8;
   0x3fffffc; 0x3fffbfc; 0x71c060; 0x318060; 0x3fff870; 0x3fff830; 0x3001830; 0x37fd838;
   0x5543f8; 0x3f8; 0x3fff33c; 0x2afa33e; 0x183c33c; 0x1e7fb3c; 0x7f1338; 0x7dc338;
   0x6efb38; 0xef3bb8; 0x1dfc3f8; 0x38ce2b8; 0x78c7c38; 0x20f8838; 0x78000; 0x0;
   0x0; 0x0; 0x0; 0x202000; 0x0; 0x0; 0x0; 0x71c000;
   0x3082a8; 0x3fffffc; 0x3fffbfc; 0x71c060; 0x38e060; 0x1fff070; 0x3fff030; 0x19f3830;
   0x1bbf838; 0xf3cff8; 0xe1b3f8; 0x75f31c; 0xffe31e; 0x1d5731c; 0x7803f1c; 0x3ffff18;
   0xfff318; 0x4c4318; 0xecc3b8; 0x1cc73f8; 0x18c3ab8; 0x30c3c18; 0x20f8818; 0x78000;
   0x0; 0x0; 0x0; 0x0; 0x202000; 0x0; 0x0; 0x0].
Definition hanzi_data_305 : list N :=
  [0x60000; 0xe02a8; 0x7fffbfc; 0x3fffbfc; 0x1870; 0xc31820; 0x3f7f870; 0x3f7f830;
   0xe39830; 0x1f7d838; 0x3d77bf8; 0x2db7bf8; 0xc31b1c; 0x1b1e; 0x3fffb1e; 0x2abbb1c;
   0x39f18; 0xab8b18; 0x1ffcf18; 0x181efb8; 0x181fff8; 0x181aeb8; 0x1ff8618; 0x1ff8618;
   0x1818400; 0x0; 0x0; 0x0; 0x0; 0x202000; 0x0; 0x0;
   0x0; 0x718000; 0x218000; 0x7fffffe; 0x3fffffe; 0x1f18070; 0x3b00820; 0x7fffc70;
   0x3ffb030; 0x303030; 0x3ff8030; 0x37583f8; 0x3bb9ff8; 0x3ffbb3c; 0x331b33c; 0x3ff833c;
   0x331a33e; 0x3d1e33c; 0xc02338; 0x7fff338; 0x2eab3b8; 0xc71bf8; 0xce1ab8; 0xcc1c38;
   0xf80c38; 0x700800; 0x0; 0x0; 0x0; 0x0; 0x202000; 0x0;
   0x0; 0x0; 0x0; 0x1fff000; 0x1fff7fe; 0x607fe; 0x3fffc70; 0x3fff830;
   0x3061c30; 0x3f7f830; 0xf7f030; 0x60038; 0x1f7f3f8; 0x603f8; 0x154633c; 0x3fc633c;
   0x3dfff3c; 0x38fff3e; 0x3fc633c; 0x3fcf338; 0x38df338; 0x3fffbb8; 0x3fd7ff8; 0x38c6eb8;
   0x3fc6438; 0x3fc6038; 0x38c6000; 0x0; 0x0; 0x0; 0x0; 0x202000;
   0x0; 0x0; 0x0; 0x0; 0x0; 0xfffff0; 0xffffe0; 0x555550;
   0x0; 0x0; 0x0; 0x1555554; 0x3fffffc; 0x3fffffc; 0x6000; 0x6000;
   0x106080; 0x3861c0; 0x3060c0; 0x7060e0; 0xe06060; 0x1c06070; 0x1c06038; 0x1c0601c;
   0x380600c; 0x7500; 0x7f00; 0x3f00; 0x0; 0x0; 0x0; 0x0;
   0x202000; 0x0; 0x0; 0x0; 0x100; 0x380; 0x380; 0x700;
   0x600; 0x3ff8; 0x7ff8; 0x3800; 0x1c00; 0xc00; 0xe00; 0x700;
   0xf80; 0xfc0; 0x3ff0; 0x7378; 0x773c; 0x6308; 0x700; 0x300;
   0x700; 0x300; 0x700; 0x300; 0x700; 0x0; 0x0; 0x0;
   0x0; 0x202000; 0x0; 0x0; 0x0; 0x380c0; 0x380c0; 0x381c0;
   0x38380; 0x38554; 0x39ffc; 0x38ffc; 0x38e00; 0x38700; 0x38300; 0x38380;
   0x383c0; 0x387e0; 0x38ff0; 0x39dfc; 0x3b99e; 0x399cc; 0x1038180; 0x70381c0;
   0x3038180; 0x30381c0; 0x3038180; 0x3ff01c0; 0x1ff0180; 0x1c0; 0x0; 0x0;
   0x0; 0x0; 0x202000; 0x0; 0x0; 0x0; 0xc0040; 0xc00e0;
   0xc01c0; 0xc0180; 0xc05d4; 0xc0ffc; 0xc07fc; 0xc0600; 0x3fff700; 0x3fff380;
   0x3fff1c0; 0xc01e0; 0xc03f0; 0xc07f8; 0xc0edc; 0xc0cce; 0xc04c4; 0xc00c0;
   0xc00c0; 0xc00c0; 0xc00c0; 0xc00c0; 0x7fff8c0; 0x3fff8c0; 0xc0; 0x0;
   0x0; 0x0; 0x0; 0x202000; 0x0; 0x0; 0x0; 0x60;
   0xe0; 0x1ffe1c0; 0x1ffe180; 0x1c065d4; 0x1806ffc; 0x1c06ffc; 0x1806600; 0x1c06700;
   0x1806380; 0x1c061c0; 0x1ffe1e0; 0x1ffe3f0; 0x18067f8; 0x1406edc; 0x6cce; 0x60c4;
   0x60c0; 0x10060c0; 0x30060c0; 0x70060c0; 0x30060c0; 0x3ffe0c0; 0x1ffc0c0; 0xc0;
   0x0; 0x0; 0x0; 0x0; 0x202000; 0x0; 0x0; 0x0;
   0xc0; 0xaa80e0; 0x3ff81c0; 0x3ff8380; 0x1c38554; 0xc39ffc; 0xc39ffc; 0xe38c00;
   0x738e00; 0x338700; 0x338700; 0x638380; 0xe387e0; 0x1c38ff0; 0x1839dfc; 0x383b9bc;
   0x383918c; 0x3838180; 0x1c38180; 0x1fb8180; 0x1fb8180; 0x38180; 0x38180; 0x38180;
   0x38180; 0x0; 0x0; 0x0; 0x0; 0x202000; 0x0; 0x0;
   0x0; 0x20; 0x70; 0xfff0e0; 0xfff0c0; 0x600154; 0x6067fc; 0x6067fc;
   0x606300; 0x606380; 0x606180; 0x7071c0; 0x7060e0; 0x3fff1f0; 0x3fff3f8; 0x38007fc;
   0x38006ec; 0x18000e4; 0x1bff8e0; 0x1bff8e0; 0x18000e0; 0x1c000e0; 0xc000e0; 0xf500e0;
   0xff00e0; 0x7f00e0; 0x0; 0x0; 0x0; 0x0; 0x202000; 0x0;
   0x0; 0x0; 0x60; 0xe0; 0x3fff1c0; 0x3fff1c0; 0xe0180; 0xe0ffc;
   0xe07fc; 0xe0600; 0xe0700; 0xe0380; 0x3fff9c0; 0x3fff9e0; 0x15f53f0; 0xe06f8;
   0x1f0efc; 0x1f0cce; 0x1f00c4; 0x3b80c0; 0x7380c0; 0x71c0c0; 0xe1e0c0; 0xe0f0c0;
   0x3c078c0; 0x3803cc0; 0x30018c0; 0x0; 0x0; 0x0; 0x0; 0x202000;
   0x0; 0x0; 0x0; 0x40; 0x1f800e0; 0x1ffc1c0; 0x1fe1c0; 0x1875d4;
   0x186ffc; 0x1877fc; 0x186700; 0x187300; 0x186380; 0x15d71c0; 0x3ffe1e0; 0x3fff3f0;
   0x3867f8; 0x387fdc; 0x386ece; 0x3074c4; 0x3060c0; 0x13070c0; 0x23060c0; 0x77470c0;
   0x367f0c0; 0x3e7f0c0; 0x3c0f8c0; 0x1c030c0; 0x0; 0x0; 0x0; 0x0;
   0x202000; 0x0; 0x0; 0x0; 0x1c00040; 0x1f800e0; 0x1ff01c0; 0x3fe180;
   0x1e5d4; 0xeffc; 0xe7fc; 0xe600; 0x155e700; 0x3ffe380; 0x7ffe1c0; 0x30e1e0;
   0x70e3f0; 0x30e7f8; 0x706ffc; 0x306ccc; 0x7064c4; 0x3060c0; 0x7070c0; 0x3070c0;
   0x7070c0; 0x3030c0; 0x7038c0; 0x3018c0; 0x7010c0; 0x0; 0x0; 0x0;
   0x0; 0x202000; 0x0; 0x0; 0x0; 0x1c0040; 0x1800e0; 0x1c01c0;
   0x1801c0; 0x1c0180; 0x1807fc; 0x1c6ffc; 0x186600; 0x1c6700; 0x186380; 0x3fc6180;
   0x3f861c0; 0x1c63e0; 0x1867f0; 0x1c6ef8; 0x186cde; 0x1c6cdc; 0x1860c4; 0x1c60c0;
   0x1860c0; 0x1c60c0; 0x1860c0; 0x7fffcc0; 0x3fffcc0; 0x55554c0; 0x0; 0x0;
   0x0; 0x0; 0x202000; 0x0; 0x0; 0x0; 0x40040; 0xe0060;
   0xc00e0; 0xc00c0; 0x15d51d4; 0x3fff7fc; 0x7fff7fc; 0x30300; 0x30380; 0x30180;
   0x15701c0; 0x1ff80e0; 0x1ff81f0; 0x18383f8; 0x1c187dc; 0x1c186ce; 0x1c1c4c4; 0xc1c0c0;
   0x1c1c0c0; 0xc0e0c0; 0xc0e0c0; 0xc070c0; 0xf478c0; 0xfc3cc0; 0x7c18c0; 0x0;
   0x0; 0x0; 0x0; 0x202000; 0x0; 0x0; 0x0; 0x40;
   0x7fc0e0; 0x7fc1c0; 0x60c180; 0x71c5d4; 0x60cffc; 0x70c7fc; 0x60e600; 0x3f07700;
   0x3e07b80; 0x39c0; 0x1e0; 0x1fff3f0; 0x1fff7f8; 0x1c06fdc; 0xe0eece; 0x71c4c4].
Definition hanzi_data_306 : list N :=
  [0x7180c0; 0x3b80c0; 0x1f00c0; 0x1f00c0; 0x3f80c0; 0x1f9f0c0; 0x3e0f8c0; 0x10018c0;
   0x0; 0x0; 0x0; 0x0; 0x202000; 0x0; 0x0; 0x0;
   0x60030; 0x60070; 0x600e0; 0xaea0c0; 0x1fff0c0; 0xaea7fc; 0x607fc; 0x60700;
   0x1fff300; 0xfff380; 0x1fff1c0; 0x600c0; 0x601e0; 0x603f0; 0x7fffff8; 0x3fffedc;
   0x30604de; 0x30600cc; 0x30600c0; 0x30600c0; 0x30600c0; 0x3e600c0; 0x1e600c0; 0x600c0;
   0x600c0; 0x0; 0x0; 0x0; 0x0; 0x202000; 0x0; 0x0;
   0x0; 0x20; 0x70; 0x3fff0e0; 0x3fff1c0; 0x701c0; 0x307fc; 0x307fc;
   0x38600; 0x18700; 0x18380; 0x155c180; 0x1ffc1c0; 0x1ffc1e0; 0x181e3e0; 0x181e7f0;
   0x181fef8; 0x181fcde; 0x181b8cc; 0x181dcc0; 0x18188c0; 0x181c0c0; 0x1ff80c0; 0x1ffc0c0;
   0x18180c0; 0x181c0c0; 0x0; 0x0; 0x0; 0x0; 0x202000; 0x0;
   0x0; 0x0; 0x60040; 0x600e0; 0x701c0; 0x70180; 0x705d4; 0x3fffffc;
   0x7fff7fc; 0x38700; 0x38300; 0x18380; 0x1c1c0; 0x1c1e0; 0x1ffc3f0; 0x1ffe7f8;
   0x1d5fefc; 0x180f4cc; 0x181fcc4; 0x180dcc0; 0x181dcc0; 0x180c0c0; 0x181c0c0; 0x1ffc0c0;
   0x1ffc0c0; 0x180c0c0; 0x181c0c0; 0x0; 0x0; 0x0; 0x0; 0x202000;
   0x0; 0x0; 0x0; 0x11c060; 0x398070; 0x71c0e0; 0xe180c0; 0xc1c1d4;
   0xc7fc; 0x7fffffc; 0x3fffb80; 0x1c380; 0xc180; 0x55c1c0; 0x1ffc0e0; 0x1ffc1f0;
   0xc1e3f8; 0xc3e7fc; 0xe366ee; 0x6770e4; 0x3670e0; 0x3c70e0; 0x1c38e0; 0x3e38e0;
   0x7f1ce0; 0x1e7dce0; 0x3c1eee0; 0x300c4e0; 0x0; 0x0; 0x0; 0x0;
   0x202000; 0x0; 0x0; 0x0; 0x10040; 0x380e0; 0x18f01c0; 0x19e0180;
   0x1dc05d4; 0xc80ffc; 0xc387fc; 0xe38600; 0x638700; 0xf38380; 0x1f3f1c0; 0x1bbb1e0;
   0x19bb3f0; 0x39bb7f8; 0x31fbfdc; 0x30fbece; 0x70798c4; 0x6039cc0; 0x380c0; 0x83c0c0;
   0x1c3e0c0; 0x183f0c0; 0x1d7fcc0; 0xff18c0; 0x7f00c0; 0x0; 0x0; 0x0;
   0x0; 0x202000; 0x0; 0x0; 0x0; 0x40; 0xaaa0e0; 0xffe1c0;
   0xffe180; 0xc065d4; 0xc06ffc; 0xc067fc; 0xc06600; 0xffe700; 0xffe380; 0xc061c0;
   0xc061e0; 0xc063f0; 0xc067f8; 0xc06fdc; 0xffecce; 0xffe4c4; 0xc060c0; 0xc060c0;
   0xc060c0; 0xc060c0; 0xc060c0; 0x7fffcc0; 0x3fffcc0; 0xc0; 0x0; 0x0;
   0x0; 0x0; 0x202000; 0x0; 0x0; 0x0; 0xc00020; 0xf80070;
   0xffc0e0; 0xff0e0; 0xdf154; 0xc37fc; 0xc37fc; 0xc3380; 0x1c3380; 0xc3180;
   0x3fff1c0; 0x3fff0e0; 0x15d71f0; 0x1833f8; 0x1837fc; 0x1836ee; 0x1830e4; 0x3830e0;
   0x3030e0; 0x63330e0; 0x67630e0; 0x26e30e0; 0x3edf8e0; 0x3ccf8e0; 0x18418e0; 0x0;
   0x0; 0x0; 0x0; 0x202000; 0x0; 0x0; 0x0; 0xc030;
   0x1c070; 0x1c0e0; 0xe0e0; 0x7ffe154; 0x3ffe7fc; 0x7fff7fc; 0x33b80; 0x33f80;
   0x31d80; 0x3ff0dc0; 0x3ff00e0; 0x15701f0; 0x303f8; 0x307fc; 0x306ee; 0x3ff00e4;
   0x3ff00e0; 0x15700e0; 0x300e0; 0x300e0; 0x300e0; 0x300e0; 0x300e0; 0x300e0;
   0x0; 0x0; 0x0; 0x0; 0x202000; 0x0; 0x0; 0x0;
   0xe0040; 0xe00e0; 0xe01c0; 0xe0180; 0x15f55d4; 0x3fffffc; 0x3fff7fc; 0xe0700;
   0xe0300; 0xe0380; 0xe01c0; 0x2aea9e0; 0x7fffbf0; 0x3fffbf8; 0x70fdc; 0x30ece;
   0x6384c4; 0x6380c0; 0xe1c0c0; 0xc0c0c0; 0x1c0e0c0; 0x3fee0c0; 0x3fff0c0; 0x303f0c0;
   0x30000c0; 0x0; 0x0; 0x0; 0x0; 0x202000; 0x0; 0x0;
   0x0; 0x60030; 0x60070; 0x60060; 0x600e0; 0x60154; 0x607fc; 0x7fffffc;
   0x3fffb80; 0x60380; 0x60180; 0x601c0; 0x600e0; 0x601f0; 0x1fff3f8; 0x1fff7fc;
   0x1aab6ee; 0x1c030e4; 0x18030e0; 0x1c030e0; 0x18030e0; 0x1c030e0; 0x1aab0e0; 0x1fff0e0;
   0x1fff0e0; 0x1c030e0; 0x0; 0x0; 0x0; 0x0; 0x202000; 0x0;
   0x0; 0x0; 0x40; 0xe0; 0x1fff0c0; 0x1fff1c0; 0x1c031d4; 0x18037fc;
   0x1c037fc; 0x1803300; 0x1c03380; 0x1803180; 0x1fff1c0; 0x1fff1e0; 0x1fff3f0; 0x3983f8;
   0x39cffc; 0x39cecc; 0x39c4c4; 0x38c0c0; 0x38c0c0; 0x238e0c0; 0x73870c0; 0x23870c0;
   0x7383cc0; 0x3f81ec0; 0x1f004c0; 0x0; 0x0; 0x0; 0x0; 0x202000;
   0x0; 0x0; 0x0; 0xe0040; 0xe00e0; 0xe01c0; 0xe01c0; 0x3fff1d4;
   0x3fff7fc; 0x3df77fc; 0x38e3300; 0x38e3300; 0x38e3180; 0x3fff1c0; 0x3fff0e0; 0x38e31f0;
   0x38e33f8; 0x38e37fc; 0x3aeb6ee; 0x3fff4e4; 0x3aeb0e0; 0x18e30e0; 0xe00e0; 0xe00e0;
   0xe00e0; 0xe00e0; 0xe00e0; 0xe00e0; 0x0; 0x0; 0x0; 0x0;
   0x202000; 0x0; 0x0; 0x0; 0x6000; 0x606060; 0x606060; 0x7fffe0;
   0x7fffe0; 0x806020; 0x1c06030; 0xc06030; 0x1fffff0; 0xfffff0; 0x0; 0x7fffe0;
   0x7fffe0; 0x0; 0x0; 0x3fffffc; 0x3fffffc; 0x6000; 0x1c6380; 0x386380;
   0x7061e0; 0xe060f0; 0x1c0607c; 0x1807c18; 0x7c00; 0x0; 0x0; 0x0;
   0x0; 0x202000; 0x0; 0x0; 0x0; 0x30; 0x2aaa870; 0x3fffce0;
   0x3aaa8c0; 0x3800154; 0x38007fc; 0x3bffffc; 0x3bffb00; 0x3800380; 0x3800180; 0x39ff1c0;
   0x38ff0e0; 0x39d71f0; 0x38c33f8; 0x39c77fc; 0x38c36ec; 0x39c70e4; 0x38ff0e0; 0x39ff0e0;
   0x38030e0; 0x38070e0; 0x38000e0; 0x1d000e0; 0x1f800e0; 0x1f000e0; 0x0; 0x0;
   0x0; 0x0; 0x202000; 0x0; 0x0; 0x0; 0x1c060; 0xc0e0;
   0x1c0e0; 0xc1c0; 0x3ffe154; 0x3ffe7fc; 0x18c77fc; 0x18c7300; 0x1cc3300; 0xc3b80;
   0x4c51c0; 0xecc0e0; 0xcce3f0; 0xcce3f8; 0x1cc6ffc; 0x18c66cc; 0x18c74c4; 0x38c30c0;
   0x30c38c0; 0x30c18c0; 0xc10c0; 0xc00c0; 0xd40c0; 0xf80c0; 0x780c0; 0x0;
   0x0; 0x0; 0x0; 0x202000; 0x0; 0x0; 0x0; 0x1c04030].
Definition hanzi_data_307 : list N :=
  [0x1c0e070; 0xc1c0e0; 0xe180e0; 0x618154; 0x2baa7fc; 0x3fff7fc; 0x3fff300; 0xc0380;
   0xc0180; 0xc01c0; 0x1fff0e0; 0x1fff1f0; 0xc03f8; 0xc07fc; 0xc06ec; 0x7fff8e4;
   0x3fff8e0; 0x7fff8e0; 0xc00e0; 0xc00e0; 0xc00e0; 0xc00e0; 0xc00e0; 0xc00e0;
   0x0; 0x0; 0x0; 0x0; 0x202000; 0x0; 0x0; 0x0;
   0x19c030; 0x18c070; 0x19c0e0; 0x18c0e0; 0x119c954; 0x398dffc; 0x199dbfc; 0x1d8fb80;
   0xd9f1c0; 0xf8f0c0; 0x59d0e0; 0x18c0e0; 0x79c1f0; 0xf8e3f8; 0x1d9f77c; 0x398fa6e;
   0x718dc64; 0x18cc60; 0x18e060; 0x2186060; 0x7187060; 0x2183860; 0x7f81c60; 0x3f80e60;
   0x1f00660; 0x0; 0x0; 0x0; 0x0; 0x202000; 0x0; 0x0;
   0x0; 0x0; 0x3fffffc; 0x3fffffc; 0x30c00; 0x30c00; 0xfffff0; 0x1fffff0;
   0xc30c30; 0x1c30c30; 0xebaeb0; 0x1fffff0; 0x0; 0x0; 0x7fffe0; 0x7fffe0;
   0x0; 0x3fffffc; 0x3fffffc; 0x6000; 0x1c6380; 0x7c61c0; 0xf060f0; 0x3c0607c;
   0x3807e1c; 0x7c08; 0x0; 0x0; 0x0; 0x0; 0x202000; 0x0;
   0x0; 0x0; 0xc180; 0xc180; 0x1ffffc0; 0x1ffbfe0; 0xe1b870; 0x6398b8;
   0x771fdc; 0x3e0f08; 0x1e0730; 0x1c0770; 0x3fffe0; 0x7fffe0; 0x1f7fef0; 0x3c0003e;
   0x355555c; 0xfffff0; 0xfffff0; 0x6000; 0x1c6780; 0x3c63c0; 0x7861e0; 0xe06078;
   0x1c0603c; 0x807e18; 0x7c00; 0x0; 0x0; 0x0; 0x0; 0x202000;
   0x0; 0x0; 0x0; 0x60060; 0x600e0; 0x3fe01c0; 0x3fe0180; 0x15605d4;
   0x60ffc; 0x607fc; 0xaea600; 0x1fff700; 0x1aab380; 0x1c471c0; 0x18e31e0; 0x1ce73f0;
   0x18e37f8; 0x1ce7efc; 0x18e3cce; 0x1c674c4; 0x18630c0; 0x1c770c0; 0x300c0; 0x3b80c0;
   0x79c0c0; 0x1e0f0c0; 0x3803cc0; 0x10018c0; 0x0; 0x0; 0x0; 0x0;
   0x202000; 0x0; 0x0; 0x0; 0x40; 0x1ffe0e0; 0x1fff1c0; 0x18001c0;
   0x1d545d4; 0x1ffeffc; 0x1d547fc; 0x1800700; 0x1fff300; 0x1fff380; 0x1c0; 0x3fff9e0;
   0x7fffbf0; 0x3003ff8; 0x7557fdc; 0x3fffece; 0xffe4c4; 0xe180c0; 0x7380c0; 0x3b00c0;
   0x1f00c0; 0x3f00c0; 0x1fff0c0; 0x3e0f8c0; 0x38078c0; 0x0; 0x0; 0x0;
   0x0; 0x202000; 0x0; 0x0; 0x0; 0x60060; 0x60060; 0x700e0;
   0x3fff8c0; 0x3fff954; 0x307fc; 0x15757fc; 0x1fff300; 0x1fff380; 0x38180; 0x7fffdc0;
   0x3fffce0; 0x555d5f0; 0xc1c3f8; 0x1d5c7fc; 0x3ffc6ee; 0x3ffe2e4; 0xc360e0; 0xc770e0;
   0xc638e0; 0xce1ce0; 0xcc1ee0; 0xc00ce0; 0xf800e0; 0x7800e0; 0x0; 0x0;
   0x0; 0x0; 0x202000; 0x0; 0x0; 0x0; 0x30; 0xfff070;
   0x1fff070; 0xc030e0; 0x1c03154; 0xc037fc; 0x1d577fc; 0xfff380; 0x15f5180; 0xe01c0;
   0xe00c0; 0x3fff8e0; 0x3fff9f0; 0x3061bf8; 0x3061f7c; 0x30e1e6e; 0x31f1a64; 0x33b9860;
   0x371d860; 0x360f860; 0x340d860; 0x3001860; 0x3001860; 0x3f01860; 0x1f01860; 0x0;
   0x0; 0x0; 0x0; 0x202000; 0x0; 0x0; 0x0; 0xe0c060;
   0xe0c060; 0xe0c0e0; 0xe0c0c0; 0x3fff954; 0x3fffffc; 0xe0c7fc; 0xe0c300; 0xffc380;
   0xffc180; 0xe0c1c0; 0xe0c0e0; 0xffc1f0; 0xffc3f8; 0xe0c7fc; 0xe0c6ee; 0x7fffce4;
   0x3fff8e0; 0x55550e0; 0x6180e0; 0xf1c0e0; 0x1c0e0e0; 0x3c070e0; 0x3003ce0; 0x10018e0;
   0x0; 0x0; 0x0; 0x0; 0x202000; 0x0; 0x0; 0x0;
   0x40; 0x1fff0e0; 0x1fff1c0; 0x18c3180; 0x18c75d4; 0x1aebffc; 0x1fff7fc; 0x1aeb700;
   0x18c7300; 0x18c3380; 0x1fff1c0; 0x1fff1e0; 0xc03f0; 0xc03f8; 0x3ffffdc; 0x3fffecc;
   0x1f04c4; 0x3f80c0; 0x7dc0c0; 0xecc0c0; 0x1ccf0c0; 0x38c78c0; 0x30c3cc0; 0xc00c0;
   0xc00c0; 0x0; 0x0; 0x0; 0x0; 0x202000; 0x0; 0x0;
   0x0; 0xe0020; 0xe0070; 0xe0060; 0x1fff0e0; 0x1fff154; 0xe07fc; 0xe07fc;
   0x2aeab80; 0x3fff980; 0x2aaa980; 0x71c1c0; 0xe2e0e0; 0x3c77df0; 0x2039bf8; 0xffc7fc;
   0xffc6ee; 0x61f2e4; 0x71b8e0; 0x3b98e0; 0x1f08e0; 0x1f00e0; 0x3f80e0; 0x1f9f0e0;
   0x3e0fce0; 0x3001ce0; 0x0; 0x0; 0x0; 0x0; 0x202000; 0x0;
   0x0; 0x0; 0x7000; 0x6000; 0x3fffffc; 0x3fffffc; 0x555540; 0x7fffe0;
   0x600060; 0x67fe60; 0x675660; 0x660660; 0x67fe60; 0x600060; 0x7fffe0; 0x7fffe0;
   0x555540; 0x7fffe0; 0x555540; 0x2aaaaa8; 0x3fffffc; 0x6000; 0x1c63c0; 0xf860e0;
   0x1f0607c; 0x1807e3c; 0x1007c00; 0x0; 0x0; 0x0; 0x0; 0x202000;
   0x0; 0x0; 0x0; 0x1c0180; 0x180180; 0x1c0180; 0x3ffdff8; 0x3ffdffc;
   0x3e03c0; 0x7f0fe0; 0xfb9db0; 0x1ddd9b8; 0x398e19c; 0x31c618c; 0x80080; 0x7fffe0;
   0x7fffe0; 0x0; 0x0; 0x3fffffc; 0x3fffffc; 0x6000; 0x186180; 0x7861c0;
   0xf060e0; 0x1e06078; 0x3807e1c; 0x7e08; 0x0; 0x0; 0x0; 0x0;
   0x202000; 0x0; 0x0; 0x0; 0x60; 0xfff0e0; 0x1fff0c0; 0xc001c0;
   0x1c001d4; 0xffe7fc; 0x1fff7fc; 0xc00300; 0xc00380; 0x3fff980; 0x3fff9c0; 0x2aea8e0;
   0x10c11f0; 0x38c3bf8; 0x1ccf7fc; 0xecc6ee; 0x7ec4e4; 0x3f00e0; 0x7fc0e0; 0xece0e0;
   0x1cc7ce0; 0x38c38e0; 0x30c00e0; 0xf80e0; 0x780e0; 0x0; 0x0; 0x0;
   0x0; 0x202000; 0x0; 0x0; 0x0; 0x404060; 0xe0e060; 0x60c0e0;
   0x71c0c0; 0x318154; 0x3887fc; 0x1fff7fc; 0x1fff300; 0x18e3380; 0x18e3180; 0x1fff1c0;
   0x1fff0e0; 0x18e31f0; 0x18e33f8; 0x1fff7fc; 0x1fff6ee; 0xe02e4; 0xe00e0; 0x7fffce0;
   0x3fffce0; 0xe00e0; 0xe00e0; 0xe00e0; 0xe00e0; 0xe00e0; 0x0; 0x0;
   0x0; 0x0; 0x202000; 0x0; 0x0; 0x0; 0x6020; 0x2a86070;
   0x3fffc60; 0x3bbf8e0; 0x3306154; 0x33063fc; 0x333fbfc; 0x333fb80; 0x3186180; 0x31ae9c0;
   0x31ffdc0; 0x3aee8e0; 0x1e661f0; 0x63f8; 0x607fc; 0x606ee; 0x7fffce4; 0x3fff8e0].
Definition hanzi_data_308 : list N :=
  [0xf00e0; 0x1f80e0; 0x3bc0e0; 0x71e0e0; 0x1f0f8e0; 0x3c03ee0; 0x3001ce0; 0x0;
   0x0; 0x0; 0x0; 0x202000; 0x0; 0x0; 0x0; 0x20;
   0x3fff870; 0x3fff870; 0x2bba8e0; 0x398154; 0x3987fc; 0x3fffbfc; 0x3fffb80; 0x3999980;
   0x39999c0; 0x39998c0; 0x39998e0; 0x3fff9f0; 0x3fffbf8; 0x6077c; 0x6066e; 0x1fff264;
   0x1fff860; 0x1fff060; 0x60060; 0x60060; 0x60060; 0x7fffc60; 0x3fffc60; 0x60;
   0x0; 0x0; 0x0; 0x0; 0x202000; 0x0; 0x0; 0x0;
   0x20; 0x3fff870; 0x3fff860; 0x2aaa8e0; 0x40; 0xffe7fc; 0x1ffe7fc; 0xc06600;
   0x1c06700; 0xeae380; 0x1ffe1c0; 0xaaa0c0; 0x3e0; 0x3fffff0; 0x3fffffc; 0x38e3ede;
   0x38e3cce; 0x3fff8c4; 0x3fff8c0; 0x38e38c0; 0x38e38c0; 0x38e38c0; 0x3fff8c0; 0x3fff8c0;
   0x38038c0; 0x0; 0x0; 0x0; 0x0; 0x202000; 0x0; 0x0;
   0x0; 0x1c020; 0xc030; 0xffc070; 0xeae0e0; 0x606154; 0x6ae3fc; 0x7ff3fc;
   0x600380; 0x1755180; 0x3fff9c0; 0x55754c0; 0x380e0; 0x1c3e1f0; 0x1e37bf8; 0x7f1f7c;
   0x7f826e; 0x6df264; 0xcc7860; 0xdf1060; 0x1db8060; 0x19de060; 0x398f860; 0x31c3c60;
   0xf8860; 0x78060; 0x0; 0x0; 0x0; 0x0; 0x202000; 0x0;
   0x0; 0x0; 0x60; 0xffe060; 0x1fff0e0; 0xc060c0; 0x1c071d4; 0xffe7fc;
   0x1fff7fc; 0xc06300; 0x1d57380; 0xffe180; 0x15551c0; 0xe0; 0x3fff9f0; 0x3fffbf8;
   0xe07fc; 0xe66ee; 0xe74e4; 0x1fe60e0; 0x1fe70e0; 0xe70e0; 0xef8e0; 0xfd8e0;
   0x7ff9ce0; 0x3fe0ee0; 0x15004e0; 0x0; 0x0; 0x0; 0x0; 0x202000;
   0x0; 0x0; 0x0; 0x60020; 0x60070; 0x1fff060; 0x3fff8e0; 0x1fff154;
   0x60c7fc; 0x71c7fc; 0x318380; 0x3fff980; 0x3fff980; 0x30619c0; 0x30618e0; 0x30619f0;
   0x1fff3f8; 0x1fff7fc; 0x18632ee; 0x1c672e4; 0x18630e0; 0x1c670e0; 0x18630e0; 0x1f670e0;
   0xe630e0; 0x4650e0; 0x600e0; 0x600e0; 0x0; 0x0; 0x0; 0x0;
   0x202000; 0x0; 0x0; 0x0; 0x604030; 0xe0e070; 0x71c060; 0x31c0e0;
   0x3fff954; 0x3fffffc; 0x3fffffc; 0x60380; 0x60380; 0xaea180; 0x1fff1c0; 0x1fff0e0;
   0x603f0; 0x607f8; 0x607fc; 0x3fffaee; 0x3fffce4; 0xe0; 0x1dd30e0; 0x199b8e0;
   0x19998e0; 0x39998e0; 0x3399ce0; 0x3318ee0; 0x31184e0; 0x0; 0x0; 0x0;
   0x0; 0x202000; 0x0; 0x0; 0x0; 0xe0020; 0xe0070; 0x1575060;
   0x3fff8e0; 0x3fff954; 0x307fc; 0xfff7fc; 0xfff380; 0xc07180; 0xfff180; 0xfff1c0;
   0xc030e0; 0xfff1f0; 0xeab3f8; 0xc077fc; 0xfff6ee; 0xd572e4; 0xc030e0; 0x7fffce0;
   0x3fffce0; 0x71c0e0; 0xf1e0e0; 0x1c078e0; 0x3803ce0; 0x10018e0; 0x0; 0x0;
   0x0; 0x0; 0x202000; 0x0; 0x0; 0x0; 0x20; 0x3fff870;
   0x3fffc60; 0x31988e0; 0x3199d54; 0x3198ffc; 0x3199ffc; 0x3fffb80; 0x3fffd80; 0x180;
   0x15555c0; 0x3fdfce0; 0x3fdfdf0; 0x30183f8; 0x31d9ffc; 0x3399aee; 0x331b2e4; 0x3a1b0e0;
   0x3e1c0e0; 0x3f9f8e0; 0x33dbee0; 0x30d8ee0; 0x30180e0; 0x3e1e0e0; 0x1e1e0e0; 0x0;
   0x0; 0x0; 0x0; 0x202000; 0x0; 0x0; 0x0; 0x60020;
   0x60070; 0x3fffc60; 0x3fff8e0; 0x60154; 0xaeabfc; 0x1fffbfc; 0x380; 0x1fff180;
   0xfff1c0; 0x1c070c0; 0xeab0e0; 0x1fff1f0; 0xe0e3f8; 0x70c77c; 0x2baea6c; 0x7fffc64;
   0x2aaa860; 0x1fff060; 0x1fff060; 0x1c07060; 0x1803060; 0x1fff060; 0x1fff060; 0x1c07060;
   0x0; 0x0; 0x0; 0x0; 0x202000; 0x0; 0x0; 0x0;
   0x70030; 0x60030; 0x3fffc70; 0x3fffce0; 0x1515154; 0x1fbfbfc; 0x19b1bfc; 0x19b1b80;
   0x1fbf9c0; 0xbae9c0; 0x175d0c0; 0x3fff8e0; 0x175d1f0; 0xbaebf8; 0x1ffff7c; 0x30c26e;
   0x7fffc64; 0x3fffc60; 0x11dc060; 0x3d8f060; 0x1f8fc60; 0x78c860; 0x1efe060; 0x38fe060;
   0x3006060; 0x0; 0x0; 0x0; 0x0; 0x202000; 0x0; 0x0;
   0x0; 0x400000; 0xffe800; 0x1fffff0; 0x6ff0; 0x6000; 0x2aeaa0; 0x7fffe0;
   0x6aeae0; 0x706060; 0x606060; 0x7fffe0; 0x7fffe0; 0x6000; 0x6000; 0x1fffff8;
   0x1fffff8; 0x1c46038; 0x1866038; 0x1cc6038; 0x18fffb8; 0x1dfffb8; 0x1b800b8; 0x1d00038;
   0x1f80038; 0xf80038; 0x0; 0x0; 0x0; 0x0; 0x202000; 0x0;
   0x0; 0x0; 0x0; 0x7fffe0; 0x7fffe0; 0x606060; 0x606060; 0x6aeae0;
   0x7fffe0; 0x6aeae0; 0x606060; 0x606060; 0x7fffe0; 0x7fffe0; 0x6000; 0x6000;
   0x1fffff8; 0x1fffff8; 0x1c46038; 0x1866038; 0x1cc6038; 0x18fffb8; 0x1dfffb8; 0x19800b8;
   0x1d00038; 0x1f80038; 0xf80038; 0x0; 0x0; 0x0; 0x0; 0x202000;
   0x0; 0x0; 0x0; 0x7000; 0x6000; 0x3fffffc; 0x3fffffc; 0x3fffffc;
   0x660e60; 0x73fc60; 0x60f060; 0x73fc60; 0x6f1e60; 0x740660; 0x7fffe0; 0x7fffe0;
   0x6000; 0x1557550; 0x1fffff8; 0x1fffff8; 0x1c31c38; 0x1c70e38; 0x1cfe638; 0x1cfff38;
   0x1c82f38; 0x1c00038; 0x1f80038; 0xf80038; 0x0; 0x0; 0x0; 0x0;
   0x202000; 0x0; 0x0; 0x0; 0x6000; 0xf000; 0x1fc00; 0xf8f00;
   0x7f77c0; 0x3f861f8; 0x3dffffc; 0x1fff88; 0x7704e0; 0x33bee0; 0x71f0e0; 0x3fbee0;
   0x7607e0; 0x3fffe0; 0x7fffe0; 0x3000; 0xfffff0; 0xfffff0; 0xc39c30; 0xc70e30;
   0xc7ff30; 0xcfff30; 0xdc0130; 0xf80030; 0x780030; 0x0; 0x0; 0x0;
   0x0; 0x202000; 0x0; 0x0; 0x0; 0x0; 0x7c0000; 0xfffc00;
   0xffff8; 0x7ff0; 0x6000; 0x6000; 0x6000; 0x6000; 0x2aaeaa8; 0x3fffffc;
   0x3fffffc; 0x1f800; 0x3fc00; 0x76e00; 0xe6700; 0x1c6780; 0x3863c0; 0x7861e0;
   0xe060f8; 0x7c0607c; 0x380601c; 0x1006000; 0x6000; 0x6000; 0x0; 0x0;
   0x0; 0x0; 0x202000; 0x0; 0x0; 0x0; 0x300000; 0x7fe800].
Definition hanzi_data_309 : list N :=
  [0x1ffff0; 0x6ff0; 0x6000; 0x6000; 0x3fffffc; 0x3fffffc; 0x7fc00; 0xf6f00;
   0x1e67c0; 0x7861e0; 0x3f060fc; 0x3c2aabe; 0x107fffc; 0x3ae80; 0xff0e00; 0xff8600;
   0xff8700; 0xe00300; 0x600380; 0x6001c0; 0x7581f0; 0x3f0078; 0x1f0018; 0x0;
   0x0; 0x0; 0x0; 0x202000; 0x0; 0x0; 0x0; 0x0;
   0xe1e00; 0xe1ff0; 0xe03fc; 0x6019c; 0x60180; 0x70180; 0x70ba8; 0x71ffc;
   0x31ffc; 0x383c0; 0x2383e0; 0x718fe0; 0x718de0; 0x71ddb0; 0xe0d9b8; 0xc0c19c;
   0xc0e18e; 0x1c0e18e; 0x1e06184; 0x3fff180; 0x3bff980; 0x301f180; 0x3000180; 0x180;
   0x0; 0x0; 0x0; 0x0; 0x202000; 0x0; 0x0; 0x0;
   0x700000; 0x7ffa00; 0x7ffff0; 0x6fe0; 0x6000; 0x6000; 0x3fffffc; 0x3fffffc;
   0x3fc00; 0x76e00; 0x1e6700; 0x3863c0; 0x1f061f0; 0x3e0607e; 0x305551c; 0x7fe00;
   0x7ff00; 0x60600; 0x60700; 0x1060300; 0x3060300; 0x3060380; 0x3fe01f0; 0x3fe00fc;
   0x154001c; 0x0; 0x0; 0x0; 0x0; 0x202000; 0x0; 0x0;
   0x0; 0x400; 0x2aaaf80; 0x3ffeffc; 0x3ffe0fc; 0x1c01c4; 0xc00c0; 0x1c01c0;
   0xc0ae8; 0x1c0ffc; 0xc0ffc; 0x15d51e0; 0x3fff3e0; 0x7fff7f0; 0xc06f0; 0x1c0ff0;
   0xc0cd8; 0x1c05dc; 0xc00cc; 0x1c01ce; 0xc00c4; 0x1c01c0; 0xc00c0; 0x1c01c0;
   0xc00c0; 0x1c01c0; 0x0; 0x0; 0x0; 0x0; 0x202000; 0x0;
   0x0; 0x0; 0x7c0000; 0xffffe0; 0x1ffff0; 0x6000; 0x1557554; 0x3fffffc;
   0x3fffffc; 0x6000; 0xfffff0; 0xffffe0; 0xe06000; 0x2eaeaa8; 0x3fffffc; 0x2eaeaa8;
   0xe06000; 0xfffff0; 0xfffff0; 0x3fc00; 0x76f00; 0x1e6780; 0x7c63e0; 0x3f060f8;
   0x3c0607c; 0x6008; 0x6000; 0x0; 0x0; 0x0; 0x0; 0x202000;
   0x0; 0x0; 0x0; 0xc0400; 0xc0f80; 0xc07fc; 0xc01fc; 0xc01c0;
   0xc01c0; 0x38cc1c0; 0x38cc1c0; 0x18cdffc; 0x18cfffc; 0x1cc61c0; 0xce63e0; 0x6e77e0;
   0x6e27f0; 0x1e0df0; 0x1e05f8; 0x1f01dc; 0x3b01cc; 0x7381ce; 0x7381c4; 0xe1c1c4;
   0xe0e1c0; 0x3c071c0; 0x38039c0; 0x30011c0; 0x0; 0x0; 0x0; 0x0;
   0x202000; 0x0; 0x0; 0x0; 0xc0400; 0xc0780; 0xc07fc; 0xc00fc;
   0xc00c4; 0xc00c0; 0x3fff0c0; 0x3fffae8; 0x30c7ffc; 0x30c3ffc; 0x30c71e0; 0x30c31e0;
   0x30c73f0; 0x30c36f0; 0x3fffef0; 0x3fff4d8; 0x30c74dc; 0x30c30ce; 0xc00c6; 0xc00c4;
   0xc00c0; 0xc00c0; 0xc00c0; 0xc00c0; 0xc00c0; 0x0; 0x0; 0x0;
   0x0; 0x202000; 0x0; 0x0; 0x0; 0x600400; 0x600f80; 0x61c7fc;
   0x63c0fc; 0x6701c4; 0x6e00c0; 0x6401c0; 0x600ae8; 0x601ffc; 0x606ffc; 0x61e1e0;
   0x6383e0; 0x6707f0; 0x6206f0; 0x600ff0; 0x2e00cd8; 0x7fd05dc; 0x3fff0cc; 0x67f1ce;
   0x6030c4; 0x6001c0; 0x6000c0; 0x6001c0; 0x6000c0; 0x6001c0; 0x0; 0x0;
   0x0; 0x0; 0x202000; 0x0; 0x0; 0x0; 0xe0400; 0xe0f80;
   0xe07fc; 0xe00fc; 0x4e01c4; 0xeee0c0; 0x1cee1c0; 0x18e6ae8; 0x18e6ffc; 0x38e6ffc;
   0x30e71e0; 0x30e33e0; 0x10e37f0; 0x8e26f0; 0x1ce0ff0; 0xce04d8; 0xee05dc; 0x6000cc;
   0x7801cc; 0x3c00c4; 0x1f01c0; 0xf80c0; 0x3f9c0; 0xf8c0; 0x19c0; 0x0;
   0x0; 0x0; 0x0; 0x202000; 0x0; 0x0; 0x0; 0x1c3300;
   0x1837c0; 0x1c37fc; 0x1830f8; 0x1c30c0; 0x1830c0; 0x11c30c0; 0x39830c0; 0x1dd77fc;
   0xfbf7fc; 0x7ff0e0; 0x3831e0; 0x1c33f0; 0x1833f0; 0x1c37f0; 0x1832d8; 0x1c30dc;
   0x1830cc; 0x11c30ce; 0x31a30c4; 0x71ff0c0; 0x31bf8c0; 0x3fcf8c0; 0x3f838c0; 0xc0;
   0x0; 0x0; 0x0; 0x0; 0x202000; 0x0; 0x0; 0x0;
   0x18300; 0x3c7c0; 0x1c707fc; 0xce00f8; 0xdc00c0; 0xe800c0; 0xe180c0; 0x6180c0;
   0x7197fc; 0xb1b7fc; 0x1f1b0e0; 0x1b9b9e0; 0x19d99f0; 0x38d9bf0; 0x38d9ff0; 0x30f9ad8;
   0x7079edc; 0x30388cc; 0x41c0ce; 0xc1c0c4; 0x1c1f0c0; 0xc1f8c0; 0xd5bcc0; 0xff98c0;
   0x7f00c0; 0x0; 0x0; 0x0; 0x0; 0x202000; 0x0; 0x0;
   0x0; 0x400; 0xaaaf80; 0xffeffc; 0xffe0fc; 0xe0e0c4; 0xe0e0c0; 0xe0e0c0;
   0xe0eae8; 0xffeffc; 0xffeffc; 0xe0e1e0; 0xe0e3e0; 0xe0e3f0; 0xe0e6f0; 0xe0eef0;
   0xffecd8; 0xffe4dc; 0xe0e0cc; 0xe0e0ce; 0xe0e0c4; 0xe0e0c0; 0xe0e0c0; 0x7fffcc0;
   0x3fff8c0; 0xc0; 0x0; 0x0; 0x0; 0x0; 0x202000; 0x0;
   0x0; 0x0; 0xe0400; 0xe0780; 0xe07fc; 0xe00fc; 0x15f51c4; 0x3fff8c0;
   0x3fff9c0; 0xe0ae8; 0xe0ffc; 0xe0ffc; 0x3fff1e0; 0x3fff1e0; 0x15f53f0; 0x1f07f0;
   0x3f8ff0; 0x3f8cd8; 0x7fc5dc; 0xeee0cc; 0x1ce71ce; 0x38e38c4; 0x70e1dc0; 0x20e08c0;
   0xe01c0; 0xe00c0; 0xe01c0; 0x0; 0x0; 0x0; 0x0; 0x202000;
   0x0; 0x0; 0x0; 0x400; 0x780; 0x3fff7fc; 0x3fff0fc; 0xc01c4;
   0x18c20c0; 0x1cc71c0; 0x18c6ae8; 0x1cc6ffc; 0xcceffc; 0xecc1e0; 0x6cc1e0; 0x4c43f0;
   0x3fffff0; 0x7fffff0; 0xc0cd8; 0xc05dc; 0xc00ce; 0xc01ce; 0xc00c4; 0xc01c0;
   0xc00c0; 0xc01c0; 0xc00c0; 0xc01c0; 0x0; 0x0; 0x0; 0x0;
   0x202000; 0x0; 0x0; 0x0; 0x6000; 0x6000; 0x1fffff8; 0x1fffff8;
   0x1557550; 0x3800; 0xfffff0; 0xffffe0; 0x1c00; 0x2aaaea8; 0x3fffffc; 0x2aeaba8;
   0x1f03c0; 0x3ff9e0; 0xf1fff0; 0x3e06038; 0x780601e; 0x27fffec; 0x7fffe0; 0x3fc00;
   0x1f6f00; 0x3c6780; 0x7061f0; 0xe060f8; 0x406010; 0x0; 0x0; 0x0;
   0x0; 0x202000; 0x0; 0x0; 0x0; 0xc0200; 0xc07c0; 0xc07fc;
   0xc00fc; 0x1ffe0c0; 0x1ffe0c0; 0x1dd60c0; 0x18c60c0; 0x1cc6ffc; 0x18c6ffc; 0x1cc60e0;
   0x18c61e0; 0x1cc61f0; 0x3fffbf0; 0x7fffff8; 0xe02d8; 0x1e02dc; 0x1e00cc; 0x3f00ce].
Definition hanzi_data_310 : list N :=
  [0x3380c4; 0x73c0c0; 0xe1e0c0; 0x1c0f0c0; 0x38038c0; 0x30018c0; 0x0; 0x0;
   0x0; 0x0; 0x202000; 0x0; 0x0; 0x0; 0xe0400; 0xeef80;
   0xe67fc; 0xe60fc; 0xe61c4; 0x1ffe0c0; 0x1fff1c0; 0xe32e8; 0xe3ffc; 0xe3ffc;
   0xe19e0; 0xe01e0; 0x3fffbf0; 0x3fffef0; 0x15f5ff0; 0xe04d8; 0x1f01dc; 0x1b00cc;
   0x3b81cc; 0x3180c4; 0x71c1c0; 0xe0e0c0; 0x3c07dc0; 0x3803cc0; 0x1000dc0; 0x0;
   0x0; 0x0; 0x0; 0x202000; 0x0; 0x0; 0x0; 0xe0400;
   0x2e0780; 0x7e07fc; 0xee00fc; 0x1ce00c0; 0x8e00c0; 0xe00c0; 0x3fff0c0; 0x3fffffc;
   0x1f0ffc; 0x1f01e0; 0x3f81e0; 0x7f83f0; 0x6f86f0; 0x6fcef0; 0xeee4d8; 0x1ce60dc;
   0x18e70cc; 0x38e70ce; 0x38e38c4; 0x30e18c0; 0xe00c0; 0xe00c0; 0xe00c0; 0xe00c0;
   0x0; 0x0; 0x0; 0x0; 0x202000; 0x0; 0x0; 0x0;
   0x400; 0x2aaaf80; 0x3ffe7fc; 0x3ffe0fc; 0x61c4; 0x60c0; 0x61c0; 0xaaeae8;
   0x1ffeffc; 0x1ffeffc; 0x1c061e0; 0x18063e0; 0x1c067f0; 0x18066f0; 0x1c06ff0; 0x1ffecd8;
   0x1ffe5dc; 0x60cc; 0x61ce; 0x60c4; 0x61c0; 0x60c0; 0x7ffe1c0; 0x3ffe0c0;
   0x1c0; 0x0; 0x0; 0x0; 0x0; 0x202000; 0x0; 0x0;
   0x0; 0xc0400; 0xc0780; 0xc07fc; 0x1ec00fc; 0x3ffc1c0; 0x3fe0c0; 0xdf1c0;
   0xc60c0; 0xc7ffc; 0xc3ffc; 0xc71e0; 0xc33e0; 0x3fff7f0; 0x3fff6f0; 0x30f0ff0;
   0x30f04d8; 0x30f81dc; 0x30d80cc; 0x30dc1ce; 0x38ce0c4; 0x3ec71c0; 0x1ec38c0; 0xc1dc0;
   0xc0cc0; 0xc01c0; 0x0; 0x0; 0x0; 0x0; 0x202000; 0x0;
   0x0; 0x0; 0x400; 0xf80; 0x1ffeffe; 0x1ffe1fc; 0x180e1c4; 0x180e180;
   0x180e1c0; 0x180e180; 0x180fffc; 0x180fffc; 0x180e1c0; 0x180e3e0; 0x1ffe7e0; 0x1ffefa0;
   0x1df0; 0xdb8; 0x4189dc; 0x63818c; 0xe1c1ce; 0xc1c184; 0x1c1c1c0; 0x380e180;
   0x38071c0; 0x3003980; 0x10031c0; 0x0; 0x0; 0x0; 0x0; 0x202000;
   0x0; 0x0; 0x0; 0x1c400; 0x1c780; 0x1c7fc; 0xc0f8; 0x3ffc0c0;
   0x3ffe0c0; 0x18c60c0; 0x18c60c0; 0x1cc7ffc; 0xc3ffc; 0x4c50c0; 0xccc1e0; 0xccc3f0;
   0x1cce7f0; 0x1cc6ef0; 0x18c64d8; 0x38c74dc; 0x38c30cc; 0x30c38ce; 0x30c38c4; 0x10c10c0;
   0xc00c0; 0xd00c0; 0xf80c0; 0x780c0; 0x0; 0x0; 0x0; 0x0;
   0x202000; 0x0; 0x0; 0x0; 0xe0400; 0xe0780; 0xe07fc; 0xe00fc;
   0x3fff8c4; 0x3fff8c0; 0xe00c0; 0xe0ae8; 0xe0ffc; 0xe0ffc; 0x1fff0e0; 0x1fff1e0;
   0x3f0; 0x3f0; 0x15557f0; 0x1fff6d8; 0x1fff4dc; 0x1c030cc; 0x1c070cc; 0x1c030c4;
   0x1c070c0; 0x1c030c0; 0x1fff0c0; 0x1fff0c0; 0x1c070c0; 0x0; 0x0; 0x0;
   0x0; 0x202000; 0x0; 0x0; 0x0; 0xe0200; 0x607c0; 0x5707fc;
   0x1ff80fc; 0x1ffe0c0; 0xe0f8c0; 0x71f8c0; 0x3b80c0; 0x1f07fc; 0xf87fc; 0x1ff0e0;
   0x1cf9e0; 0x3fe13f0; 0x3ff03f0; 0x38786d0; 0x181e2d8; 0x1c1f0dc; 0xe7b8cc; 0x7f10ce;
   0x3c00c4; 0x1e00c0; 0xf80c0; 0x7f0c0; 0xfcc0; 0x38c0; 0x0; 0x0;
   0x0; 0x0; 0x202000; 0x0; 0x0; 0x0; 0xc0400; 0x28c2780;
   0x38c37fc; 0x38c30fc; 0x38c31c0; 0x38c30c0; 0x38c31c0; 0x3fff0c0; 0x3fffffc; 0x30ffc;
   0x381e0; 0x1ff83e0; 0x3ffc7f0; 0x3aaeef0; 0x1c07df0; 0x1c13cd8; 0xc399dc; 0xe700cc;
   0x7e01ce; 0x3c00c4; 0x1e01c0; 0xf80c0; 0x7f1c0; 0xfcc0; 0x19c0; 0x0;
   0x0; 0x0; 0x0; 0x202000; 0x0; 0x0; 0x0; 0xc0100;
   0xc03e0; 0xe03fc; 0xe00fc; 0x3fff8e0; 0x3fff8e0; 0x30718e0; 0x30f1ae8; 0x30f1ffc;
   0xf83fc; 0xd80e0; 0x18dc1e0; 0x1dcc1f0; 0xf8e3f8; 0x78f7f8; 0x38faf8; 0x30fcfc;
   0x30e8ee; 0x70e0e4; 0xe0e0e0; 0x1cce0e0; 0x3cfe0e0; 0x787e0e0; 0x300e0e0; 0x20e0;
   0x0; 0x0; 0x0; 0x0; 0x202000; 0x0; 0x0; 0x0;
   0xc00100; 0xe0f3e0; 0x77f1fc; 0x3f807c; 0x7f8060; 0x1f3e060; 0x3c3f860; 0x103b060;
   0x555d3fc; 0x3fffbfc; 0x7fff870; 0xce0f0; 0xc71f0; 0xaef3f8; 0x1fffb78; 0x1fffc68;
   0x18c7c6c; 0x18c206e; 0x18c7066; 0x18c2060; 0x1cc7060; 0x1ec2060; 0xec7060; 0xc0060;
   0xc0060; 0x0; 0x0; 0x0; 0x0; 0x202000; 0x0; 0x0;
   0x0; 0x70300; 0x607c0; 0xe07fc; 0xfff0f8; 0x1fff0c0; 0xc030c0; 0x1c070c0;
   0xc030c0; 0x1fff7fc; 0xfff7fc; 0x1c070e0; 0xc031e0; 0x1fff3f0; 0xfff3f0; 0x1fff7f0;
   0x18632d8; 0x3ce70dc; 0xec30cc; 0x7c70ce; 0x3830c4; 0x7470c0; 0xe7b0c0; 0x7c7f0c0;
   0x380f8c0; 0x10c0; 0x0; 0x0; 0x0; 0x0; 0x202000; 0x0;
   0x0; 0x0; 0x1c00400; 0x3ff8780; 0x7ff7fc; 0x80b0fc; 0x18771c4; 0x1c660c0;
   0xc661c0; 0xeeeae8; 0x6ccffc; 0xfffffc; 0x1fff1e0; 0xeaa1e0; 0x7803f0; 0x1c06f0;
   0xe0ff0; 0xe04d8; 0x3fff9dc; 0x3fff8ce; 0xe01ce; 0xe00c4; 0xe01c0; 0xe00c0;
   0xe01c0; 0xfc0c0; 0x7c1c0; 0x0; 0x0; 0x0; 0x0; 0x202000;
   0x0; 0x0; 0x0; 0x400; 0x1ffef80; 0x1ffe7fc; 0x1c060fc; 0x1c061c4;
   0x1c060c0; 0x1c061c0; 0x1c06ae8; 0x1ffeffc; 0x1ffeffc; 0x15541e0; 0x3e0; 0x7f0;
   0x2aaa6f0; 0x3fffff0; 0x3aabcd8; 0x38035dc; 0x38030cc; 0x38031ce; 0x38030c4; 0x38031c0;
   0x3fff0c0; 0x3fff1c0; 0x3aab0c0; 0x38031c0; 0x0; 0x0; 0x0; 0x0;
   0x202000; 0x0; 0x0; 0x0; 0x400; 0x1ffe780; 0x1ffe7fc; 0x18060fc;
   0x18061c4; 0x18060c0; 0x18061c0; 0x1806ae8; 0x1ffeffc; 0x1ffeffc; 0x1e0; 0x1e0;
   0x3fff3f0; 0x3fff7f0; 0xc0ff0; 0xc0cd8; 0xc05dc; 0x1ffe0ce; 0x1fff1ce; 0xc00c4;
   0xc01c0; 0xc00c0; 0x7fffdc0; 0x3fff8c0; 0x1c0; 0x0; 0x0; 0x0;
   0x0; 0x202000; 0x0; 0x0; 0x0; 0x1c0200; 0xe07c0; 0x1f07fc].
Definition hanzi_data_311 : list N :=
  [0x3b80fc; 0x71c0c0; 0x1e0e0c0; 0x7c078c0; 0x30038c0; 0xffe7fc; 0xffe7fc; 0xc00e0;
   0xc01e0; 0xc03f0; 0x3fff3f0; 0x3fff7d8; 0xc02d8; 0xcce0dc; 0xcc60cc; 0x1cc70ce;
   0x18c30c4; 0x38c38c0; 0x30c18c0; 0x10c10c0; 0xf80c0; 0x780c0; 0x0; 0x0;
   0x0; 0x0; 0x202000; 0x0; 0x0; 0x0; 0xc0300; 0x30c23e0;
   0x38c73fc; 0x18c60fc; 0x1cce0c0; 0xccc0c0; 0xccc0c0; 0xc00c0; 0x1fff7fc; 0x1fff7fc;
   0x18070e0; 0x18031e0; 0x1fff3f0; 0x1fff3f0; 0x1d576d8; 0x18032d8; 0x18070dc; 0x1fff0ce;
   0x1fff0cc; 0x18030c4; 0x18070c0; 0x18030c0; 0x1d070c0; 0x1f030c0; 0x1f070c0; 0x0;
   0x0; 0x0; 0x0; 0x202000; 0x0; 0x0; 0x0; 0x40c400;
   0xe0c780; 0xe1c7fc; 0x6180fc; 0x7381c0; 0xbba0c0; 0x1fff1c0; 0x1aae0c0; 0x1807ffc;
   0x1806ffc; 0x18071c0; 0x18063e0; 0x1fff7f0; 0x1ffeef0; 0x3b8df0; 0x3b80d8; 0x3981dc;
   0x3980cc; 0x39c1ce; 0x238c0c4; 0x738e1c0; 0x238e0c0; 0x7f079c0; 0x3f03cc0; 0x1f01dc0;
   0x0; 0x0; 0x0; 0x0; 0x202000; 0x0; 0x0; 0x0;
   0xe0000; 0xe0380; 0xe07fc; 0x1fff0fc; 0x1fff0c4; 0xe00c0; 0xe00c0; 0xe00c0;
   0x7fffffc; 0x3fffffc; 0x3080e0; 0x71c0e0; 0x1e0f1f0; 0x38e7bf0; 0x30e3ed8; 0xe0ad8;
   0x15f50dc; 0x3fff8cc; 0x3fff8ce; 0xe00c4; 0xe00c0; 0xe00c0; 0x7fffcc0; 0x3fffcc0;
   0x55554c0; 0x0; 0x0; 0x0; 0x0; 0x202000; 0x0; 0x0;
   0x0; 0x60000; 0x60380; 0xf07fc; 0x1f80fc; 0x39c0e0; 0x70e0e0; 0x1f370e0;
   0x3c63ae8; 0x30e1ffc; 0x40ffc; 0x1fff0e0; 0xfff1e0; 0x7003f0; 0x3007f0; 0x3b06f8;
   0x1f02f8; 0xec0fc; 0xccd8ec; 0x1dcd8e4; 0x180c8e4; 0x360cce0; 0x360cce0; 0x775c6e0;
   0x3fc0e0; 0x1fc0e0; 0x0; 0x0; 0x0; 0x0; 0x202000; 0x0;
   0x0; 0x0; 0x1c0400; 0xe0780; 0x607fc; 0x3fff0fc; 0x3fff1c4; 0x38c30c0;
   0x38c71c0; 0x3fffae8; 0x3fffffc; 0x38c3ffc; 0x38c71e0; 0x3fff1e0; 0x3fff3f0; 0x2707f0;
   0x338ff0; 0x31ecd8; 0x30f5dc; 0x3020ce; 0x7fffdce; 0x3fffcc4; 0x3001c0; 0x3000c0;
   0x3001c0; 0x3000c0; 0x3001c0; 0x0; 0x0; 0x0; 0x0; 0x202000;
   0x0; 0x0; 0x0; 0xe0000; 0xe0780; 0x607fc; 0x3fff8fc; 0x3fff8c4;
   0x600c0; 0x700c0; 0xffe2e8; 0xfff7fc; 0xc062e8; 0xc070e0; 0xffe0e0; 0xfff1f0;
   0xc063f0; 0xd577d0; 0xffe6d8; 0xd570dc; 0xc060ce; 0xfff0c4; 0xffe0c4; 0xc070c0;
   0xc060c0; 0x7fffcc0; 0x7fffcc0; 0xc0; 0x0; 0x0; 0x0; 0x0;
   0x202000; 0x0; 0x0; 0x0; 0x198200; 0x1d87c0; 0x19c7fc; 0x38c0fc;
   0x10e0c0; 0x3ffe0c0; 0x3fff0c0; 0x1870c0; 0x187ffc; 0x187ffc; 0x1fffde0; 0x1ffe9e0;
   0x1863f0; 0x1867f0; 0x1866f8; 0xbaeed8; 0x1ffe4dc; 0xbae0cc; 0x1860ce; 0x1860c4;
   0x1860c0; 0x3ffe0c0; 0x7ffe0c0; 0x60c0; 0x60c0; 0x0; 0x0; 0x0;
   0x0; 0x202000; 0x0; 0x0; 0x0; 0x200; 0x1fff780; 0x1fff7fc;
   0x18e30fc; 0x18e30c0; 0x18e30c0; 0x1fff0c0; 0x1fff0c0; 0x18e37fc; 0x18e37fc; 0x1fff0e0;
   0x1fff1e0; 0xe03f0; 0xe07f0; 0x3fffed8; 0x3fffad8; 0x1f00dc; 0x3f80ce; 0x7fc0ce;
   0xeee0c4; 0x1ce70c0; 0x38e38c0; 0x70e1cc0; 0x20e08c0; 0xe00c0; 0x0; 0x0;
   0x0; 0x0; 0x202000; 0x0; 0x0; 0x0; 0x300; 0x3fff3e0;
   0x3fff7fc; 0x3aab0fc; 0x38c30e0; 0x38c30e0; 0x3ffb0e0; 0x3bfb0e0; 0x38c37fc; 0x38c37fc;
   0x3fff0f0; 0x3ffb0f0; 0x38031f0; 0x38033f8; 0x3bfb7f8; 0x3bfbaf8; 0x3b1b8fc; 0x3b198ee;
   0x3b198e6; 0x3bf98e4; 0x3bf9ce0; 0x3818ce0; 0x3800ee0; 0x1f006e0; 0x1f004e0; 0x0;
   0x0; 0x0; 0x0; 0x202000; 0x0; 0x0; 0x0; 0x8000c0;
   0x1e00060; 0x1ff07e0; 0x3feff0; 0x1fce30; 0x180638; 0x1c071c; 0x181ffc; 0x15d5ffc;
   0x3fff998; 0x3fffd98; 0x3e1998; 0x7e1ff8; 0x7e1ff8; 0x7f1d98; 0xdb9998; 0xdd9d98;
   0x199dff8; 0x39cdff8; 0x398e000; 0x31c7000; 0x181ff8; 0x1c1ffc; 0x18000c; 0x1c0000;
   0x0; 0x0; 0x0; 0x0; 0x202000; 0x0; 0x0; 0x0;
   0x1c300; 0xc7c0; 0x7fe7fc; 0x7fe0f8; 0x3070c0; 0x3838c0; 0x1fffcc0; 0xfff8c0;
   0x1c007fc; 0xc007fc; 0x1fff0e0; 0xfff1e0; 0x1c003f0; 0xc003f0; 0x1fffff0; 0xfffad8;
   0x700dc; 0x8688cc; 0x1ccd8ce; 0x19cd8c4; 0x3e0ccc0; 0x360cec0; 0x775c6c0; 0x3fc4c0;
   0x1f80c0; 0x0; 0x0; 0x0; 0x0; 0x202000; 0x0; 0x0;
   0x0; 0x300; 0x1fff7e0; 0x1fff7fc; 0x18e30fc; 0x1df70e0; 0x1fff0e0; 0x18e30e0;
   0x18e30e0; 0x1fff7fc; 0x1fff7fc; 0x71c0e0; 0xe0e0e0; 0x1c171f0; 0x3833ff0; 0x1559ff8;
   0xffc2f8; 0xfff0fc; 0x60f8ec; 0x71d8e6; 0x3b80e4; 0x1f00e0; 0x3f80e0; 0x1fbf0e0;
   0x3e0fce0; 0x3001ce0; 0x0; 0x0; 0x0; 0x0; 0x202000; 0x0;
   0x0; 0x0; 0xe0300; 0x603e0; 0x3fffffc; 0x3fff8fc; 0x15750e0; 0x300e0;
   0xfff0e0; 0xfff0e0; 0xc037fc; 0xfff7fc; 0xfff0e0; 0xc030e0; 0xfff1f0; 0xeab3f0;
   0xc037f8; 0xfff2f8; 0xd570fc; 0xc030ec; 0x7fffcee; 0x3fffce4; 0x71c0e0; 0xf0e0e0;
   0x1c078e0; 0x3803ee0; 0x1000ce0; 0x0; 0x0; 0x0; 0x0; 0x202000;
   0x0; 0x0; 0x0; 0x1000200; 0x1f807c0; 0x1fffffc; 0xff8f8; 0x38600c0;
   0x38618c0; 0x1c630c0; 0xce30c0; 0xcc77fc; 0xe027fc; 0x1c0e0; 0x1fbe1e0; 0x1f87bf0;
   0x1803bf0; 0x1803ff0; 0x1803ad8; 0x1fbf8dc; 0x1fbf8cc; 0x18038cc; 0x18038c4; 0x18038c0;
   0x18038c0; 0x1fff8c0; 0x1fff8c0; 0x18038c0; 0x0; 0x0; 0x0; 0x0;
   0x202000; 0x0; 0x0; 0x0; 0x70100; 0x603e0; 0xe01fc; 0x3fff87c;
   0x3fffc60; 0x3001860; 0x3001c60; 0x3fff860; 0xfff3fc; 0x703fc; 0x183c060; 0x3c6f0e0;
   0xf67df0; 0x7f0bf0; 0x7dc378; 0x6ce278; 0xdc7c7c; 0xde1c6c; 0x1df806e; 0x399e064].
Definition hanzi_data_312 : list N :=
  [0x71c7860; 0x30c3c60; 0x1c1c60; 0xf8060; 0x78060; 0x0; 0x0; 0x0;
   0x0; 0x202000; 0x0; 0x0; 0x0; 0x330000; 0xf30380; 0x1c307fc;
   0x3fff8fc; 0x3fff8c4; 0xf80c0; 0x30fc0c0; 0x3aee0c0; 0x3fc77fc; 0x807ffc; 0x1ff78e0;
   0x3fe0e0; 0x70071f0; 0x3aae3f0; 0x3ffe7d8; 0x6d8; 0x1fff0dc; 0x1ffe0cc; 0x18070ce;
   0x1ffe0c4; 0x1fff0c0; 0x18020c0; 0x1fff0c0; 0x1ffe0c0; 0x18070c0; 0x0; 0x0;
   0x0; 0x0; 0x202000; 0x0; 0x0; 0x0; 0x70200; 0x603c0;
   0xe07fc; 0x3fff8fc; 0x3fffcc0; 0xc0; 0xfff0c0; 0xffe0c0; 0xc077fc; 0xc067fc;
   0xfff0e0; 0xffe1e0; 0x3f0; 0x3fffff0; 0x3fffed8; 0x3001ad8; 0x33fd8dc; 0x33f98ce;
   0x331d8ce; 0x33098c4; 0x33fd8c0; 0x33f98c0; 0x30018c0; 0x3e018c0; 0x1c018c0; 0x0;
   0x0; 0x0; 0x0; 0x202000; 0x0; 0x0; 0x0; 0x6100;
   0xc63e0; 0x3fff1fc; 0x3fff87c; 0x31f1860; 0x39bec60; 0x1d9ce60; 0xf18e60; 0xf0fbfc;
   0x60f3fc; 0x1e07070; 0x3fff870; 0x7ffdcf0; 0x2000df8; 0x378; 0x1fffb78; 0x1fff87c;
   0x6006c; 0xe67066; 0xc63864; 0x1c61860; 0x3861c60; 0x7060e60; 0x7c860; 0x7c060;
   0x0; 0x0; 0x0; 0x0; 0x202000; 0x0; 0x0; 0x0;
   0xe0300; 0x607c0; 0x1fff7fc; 0x1fff0f8; 0x18030c0; 0x1aab0c0; 0x1fff0c0; 0x18030c0;
   0x18037fc; 0x1fff7fc; 0x15f50e0; 0xeec1e0; 0x1ce61f0; 0x3ae73f0; 0x73e3ff0; 0x1e16d8;
   0xc7f0dc; 0x70f0cc; 0x13c00ce; 0x38fe0c4; 0x1e1f0c0; 0x7820c0; 0x1fc0c0; 0x3f8c0;
   0x78c0; 0x0; 0x0; 0x0; 0x0; 0x202000; 0x0; 0x0;
   0x0; 0xe0300; 0xe03e0; 0x3fffffc; 0x3fff8fc; 0x15f50e0; 0x1ce60e0; 0xeee0e0;
   0x6ec0e0; 0x7ec7fc; 0x3fffffc; 0x7fffcf0; 0xf0; 0x15551f0; 0x1fffbf8; 0x1fffff8;
   0x1803af8; 0x1bfb8fc; 0x1b1b8ee; 0x1b1b8e6; 0x1bfb8e4; 0x19538e0; 0x18038e0; 0x1fff8e0;
   0x1fff8e0; 0x18038e0; 0x0; 0x0; 0x0; 0x0; 0x202000; 0x0;
   0x0; 0x0; 0x60100; 0x603e0; 0x3fffbfc; 0x3fff8fc; 0x600e0; 0x1fff0e0;
   0x1fff0e0; 0x18630e0; 0x1fff7fc; 0x1fff7fc; 0x18630e0; 0x1aeb1e0; 0x1fff1f0; 0xe603f0;
   0x1d607f8; 0x3fffaf8; 0x75ff8fc; 0x20600ec; 0x1ced8ee; 0x19cd8e4; 0x388dce0; 0x360cce0;
   0x775cce0; 0x27fcce0; 0x3f80e0; 0x0; 0x0; 0x0; 0x0; 0x202000;
   0x0; 0x0; 0x0; 0x198000; 0x3999b80; 0x199b7fc; 0x199b0fc; 0xd9f0c4;
   0x3fff8c0; 0x7fffcc0; 0xe0e0c0; 0x60c7fc; 0x30c7fc; 0x3fff8e0; 0x3fff8e0; 0x601f0;
   0x603f0; 0x1fff7d8; 0x1fff6d8; 0x600dc; 0x3fffccc; 0x7fffcce; 0x1f00c4; 0x3b80c0;
   0x73c0c0; 0x1f1f0c0; 0x3c07cc0; 0x3001cc0; 0x0; 0x0; 0x0; 0x0;
   0x202000; 0x0; 0x0; 0x0; 0x70100; 0x603e0; 0x3fffbfc; 0x3fff8fc;
   0x6060e0; 0x60c0e0; 0x575d4e0; 0x7fffce0; 0x7fffffe; 0x3fe; 0x1fff8f0; 0x18638f0;
   0x18639f0; 0x1fffbf8; 0x1d77ff8; 0x1863af8; 0x1fff8ec; 0xaea0ee; 0x600e6; 0x3fff8e4;
   0x3fff8e0; 0x600e0; 0x7fffee0; 0x7fffee0; 0xe0; 0x0; 0x0; 0x0;
   0x0; 0x202000; 0x0; 0x0; 0x0; 0x1810100; 0x18303e0; 0xc70dfc;
   0xe60c7c; 0x7ffdc60; 0x3ffd860; 0x55d7060; 0xe0060; 0x38f03fc; 0x19b9ffc; 0xd9de70;
   0x7c1870; 0x7f18f0; 0xf398f8; 0x1f9d9f8; 0x1bc1b78; 0x36e196c; 0x367986e; 0x71d866;
   0x309864; 0x3c3860; 0x1c7c60; 0x7ffce60; 0x3ff8660; 0x1fc0060; 0x0; 0x0;
   0x0; 0x0; 0x202000; 0x0; 0x0; 0x0; 0x70000; 0x60380;
   0x3fffbfc; 0x3fff8fc; 0x30018e0; 0x37ff8e0; 0x17ff0e0; 0xc6c0e0; 0xf6e7fc; 0x3e3bfc;
   0x1fd8e0; 0xabf8e0; 0x1fffdf0; 0xc033f0; 0x1fff7f8; 0xfff2f8; 0x1d570fc; 0xfff0ee;
   0x1c070e6; 0xfff0e4; 0x1fff0e0; 0x3380e0; 0x1f1f0e0; 0x3c07ce0; 0x30018e0; 0x0;
   0x0; 0x0; 0x0; 0x202000; 0x0; 0x0; 0x0; 0x70100;
   0x603e0; 0x3fffdfc; 0x3fffcfc; 0x15150e0; 0x1fbf8e0; 0x19b18e0; 0x19b18e0; 0x1fbfffc;
   0xbaebfc; 0x175d0f0; 0x3fff8f0; 0x175d1f0; 0xbaebf8; 0x1fffff8; 0x30c2f8; 0x7fffcfc;
   0x3fffcee; 0x11dc0e4; 0x3d8f0e4; 0xf8fce0; 0x78c8e0; 0x1efe0e0; 0x38fe0e0; 0x30060e0;
   0x0; 0x0; 0x0; 0x0; 0x202000; 0x0; 0x0; 0x0;
   0x3000; 0x3800; 0x7000; 0xe000; 0xe000; 0x1fffff8; 0x1fffff8; 0x1800018;
   0x1800018; 0x1800018; 0x1800018; 0x1840618; 0xe0700; 0xe0700; 0x1c0700; 0x1c0300;
   0x1c0380; 0x380180; 0x7001c0; 0x7000e0; 0xe000f0; 0x1c00070; 0x3c0003c; 0x380001c;
   0x1000008; 0x0; 0x0; 0x0; 0x0; 0x202000; 0x0; 0x0;
   0x0; 0x7000; 0x7000; 0x7000; 0x3fffff8; 0x3fffffc; 0x3800018; 0x3871c1c;
   0x39e0f18; 0x7c07c0; 0xf001f0; 0x1c01870; 0x801800; 0x1800; 0xffff0; 0x1ffff0;
   0xc1800; 0x1c1c00; 0xc1c00; 0x11c1e00; 0x30c0e00; 0x71c0780; 0x30c03c0; 0x3fc01f0;
   0x3f8007c; 0x1500018; 0x0; 0x0; 0x0; 0x0; 0x202000; 0x0;
   0x0; 0x0; 0x7000; 0x7000; 0xe000; 0x1fffff8; 0x1fffff8; 0x1820018;
   0x1871e1c; 0x18e0f18; 0x3c0780; 0x7831e0; 0x1e030f8; 0xc03030; 0x3000; 0x7ffff8;
   0x7ffff8; 0x603800; 0x701c00; 0x601c00; 0x701c00; 0x700e00; 0x700700; 0x300380;
   0x3d41f0; 0x3f80f8; 0x1f8070; 0x0; 0x0; 0x0; 0x0; 0x202000;
   0x0; 0x0; 0x0; 0x7000; 0x7000; 0x7000; 0x3fffff8; 0x3fffff8;
   0x3800018; 0x3870e1c; 0x39e0798; 0x7c1bc0; 0xf018f8; 0xc01c70; 0x3ffe00; 0x7fff00;
   0x380380; 0x3801e0; 0x1c0ef0; 0x1e1c7c; 0xf3810; 0x7f000; 0x1e000; 0xf800;
   0x3e00; 0x1ff0; 0x3f8; 0x70; 0x0; 0x0; 0x0; 0x0;
   0x202000; 0x0; 0x0; 0x0; 0x7000; 0xe000; 0x155f550; 0x3fffff8].
Definition hanzi_data_313 : list N :=
  [0x3fffffc; 0x3820e18; 0x39f0fdc; 0x7c03f8; 0x1f00070; 0xc00000; 0x7fffc0; 0x7fffc0;
   0x700000; 0x700000; 0x7fffc0; 0x7fffe0; 0xe0; 0xe0; 0xfffff0; 0xfffff0;
   0xe00000; 0xe00000; 0x700000; 0x3fe000; 0x1fc000; 0x0; 0x0; 0x0;
   0x0; 0x202000; 0x0; 0x0; 0x0; 0x7000; 0x7000; 0x7000;
   0x3fffff8; 0x3fffffc; 0x3aaaab8; 0x380001c; 0x3830c18; 0x39f0f1c; 0x3e0798; 0xf801e0;
   0x1e000f8; 0x1c00078; 0x7fffe0; 0x7fffe0; 0x2aeaa0; 0x6000; 0x6000; 0x6000;
   0x6000; 0x6000; 0x6000; 0x3fffffc; 0x3fffff8; 0x0; 0x0; 0x0;
   0x0; 0x0; 0x202000; 0x0; 0x0; 0x0; 0x7000; 0x7000;
   0xe000; 0x3fffff8; 0x3fffffc; 0x3800018; 0x38f1f1c; 0x3e0780; 0xf801f0; 0xe000f0;
   0x1fffff0; 0x1fffff0; 0xe0040; 0xe00e0; 0xe00e0; 0x2aeaae0; 0x3ffffe0; 0x3ffffe0;
   0xff000; 0xe3800; 0xe1f00; 0xe03f8; 0xe01fc; 0x7e008; 0x7c000; 0x0;
   0x0; 0x0; 0x0; 0x202000; 0x0; 0x0; 0x0; 0x7000;
   0x6000; 0x3fffffc; 0x3fffff8; 0x3d5555c; 0x3870e18; 0x39f071c; 0x7803e0; 0x1f071f8;
   0x806038; 0x1557550; 0x1fffff8; 0x1557550; 0x206020; 0x607070; 0x606060; 0x607070;
   0x7fffe0; 0x7ffff0; 0x6000; 0x3007000; 0x3006000; 0x3ffe000; 0x3ffe000; 0x554000;
   0x0; 0x0; 0x0; 0x0; 0x202000; 0x0; 0x0; 0x0;
   0x7000; 0x6000; 0xe000; 0x1fffff8; 0x1fffffc; 0x1800018; 0x1871e1c; 0x18f0718;
   0x3c03c0; 0xf801e0; 0xe66070; 0x4e6030; 0x1c7000; 0x187000; 0x3fffffc; 0x3fffffc;
   0xf800; 0xf800; 0x1dc00; 0x38e00; 0xf0f00; 0x3e0380; 0x1fc01f0; 0x3e000fc;
   0x1800018; 0x0; 0x0; 0x0; 0x0; 0x202000; 0x0; 0x0;
   0x0; 0x7000; 0x7000; 0x1557550; 0x3fffff8; 0x3fffffc; 0x3800018; 0x38f0e1c;
   0x3e0f80; 0xf803f0; 0xe000f8; 0x800010; 0xaaa060; 0x1fff060; 0x1fffa60; 0x1870ffc;
   0x18303fc; 0x1c30064; 0x1830060; 0x1c38060; 0x1818c60; 0x1c1dfe0; 0xc0e7f0; 0xc071f0;
   0xfc3830; 0x7c1800; 0x0; 0x0; 0x0; 0x0; 0x202000; 0x0;
   0x0; 0x0; 0x7000; 0x7000; 0x3fffffc; 0x3fffff8; 0x380001c; 0x3830e18;
   0x39f0f1c; 0x3c03e0; 0x1f01df8; 0xc00e38; 0x710; 0x3ffff00; 0x3ffffc0; 0x31c0;
   0x30f0; 0xfff078; 0xfff03c; 0x3018; 0x3000; 0xfff000; 0x1fff000; 0x3000;
   0x3000; 0x3000; 0x3000; 0x0; 0x0; 0x0; 0x0; 0x202000;
   0x0; 0x0; 0x0; 0x7000; 0x7000; 0x3fffffc; 0x3fffff8; 0x3d5555c;
   0x3820e18; 0x39f0f1c; 0x3c03c0; 0x1f001f0; 0xc00078; 0x7ffff0; 0x7fffe0; 0x700060;
   0x600060; 0x7fffe0; 0x7fffe0; 0x700060; 0x600060; 0x7fffe0; 0x7fffe0; 0x700060;
   0x600060; 0x7fffe0; 0x7fffe0; 0x700060; 0x0; 0x0; 0x0; 0x0;
   0x202000; 0x0; 0x0; 0x0; 0x7000; 0x6000; 0x3fffffc; 0x3fffff8;
   0x380001c; 0x3870e18; 0x39f071c; 0x3803e0; 0x1fc01f0; 0xdfe038; 0x7fff8; 0x2fe0;
   0x7000; 0x6000; 0x7ffff0; 0xfffff0; 0x7d5550; 0x1e0000; 0x7c000; 0xf800;
   0x3ff0; 0x3f8; 0x3ffff1c; 0x3fffe0c; 0x17ff00c; 0x0; 0x0; 0x0;
   0x0; 0x202000; 0x0; 0x0; 0x0; 0x7000; 0x6000; 0x3fffffc;
   0x3fffff8; 0x3d5555c; 0x3830c18; 0x39f0f1c; 0x7c03c0; 0x1f001f8; 0xce00f0; 0xe01d0;
   0xe00c0; 0x15f44e0; 0x1ffec70; 0x1ffee38; 0x18607fc; 0x18703fc; 0x1870d80; 0x1c70dc0;
   0x1838ce0; 0x1c39ff0; 0x1c1fff8; 0x1d5f07c; 0xfcf000; 0x7c7000; 0x0; 0x0;
   0x0; 0x0; 0x202000; 0x0; 0x0; 0x0; 0x7000; 0x6000;
   0x155f554; 0x3fffff8; 0x3d5555c; 0x3870c18; 0x11f0f14; 0xf803c0; 0x1e001f8; 0xa00038;
   0x7fd000; 0x3fffe0; 0x387fe0; 0x303060; 0x307060; 0x303060; 0x703060; 0x613060;
   0x633070; 0xe33830; 0xc61c30; 0x1cffc38; 0x3cffe1c; 0x38c0c0e; 0x10c0004; 0x0;
   0x0; 0x0; 0x0; 0x202000; 0x0; 0x0; 0x0; 0x7000;
   0x6000; 0x1fffffc; 0x3fffff8; 0x3d5555c; 0x3820418; 0x39f1f1c; 0x3e03c0; 0x1f001f0;
   0xc00070; 0x1555010; 0x3fffffc; 0x3fffffc; 0x180c0; 0x180c0; 0x180c0; 0x1ffc0c0;
   0x1ffc0c0; 0x1d540c0; 0x1c00ec0; 0x1c01ff0; 0xc003fc; 0xf5001c; 0xfe0000; 0x7e0000;
   0x0; 0x0; 0x0; 0x0; 0x202000; 0x0; 0x0; 0x0;
   0x7000; 0x6000; 0x3fffffc; 0x3fffff8; 0x381041c; 0x38f0f18; 0x7c07c0; 0xf060f0;
   0x1c0707c; 0x13fffe8; 0x3fffe0; 0x300ce0; 0x307ce0; 0x3bf0e0; 0x1f40e0; 0xe0;
   0x1ffffe0; 0x1ffffe0; 0x1800000; 0x18aaaa8; 0x1dffffc; 0x1caaaa8; 0x1d60000; 0xfc0000;
   0x7c0000; 0x0; 0x0; 0x0; 0x0; 0x202000; 0x0; 0x0;
   0x0; 0x7000; 0x6000; 0x1fffffc; 0x3fffff8; 0x3d5555c; 0x3820c18; 0x39f0f1c;
   0x3c03c0; 0x1f001f8; 0xc003b0; 0x7fffc0; 0x7fffc0; 0x5575e0; 0x6070; 0x6030;
   0x3fffffc; 0x3fffffc; 0x6020; 0xe06070; 0xe06060; 0xe06070; 0xe06060; 0xfffff0;
   0xffffe0; 0xe00000; 0x0; 0x0; 0x0; 0x0; 0x202000; 0x0;
   0x0; 0x0; 0x7000; 0x6000; 0x3fffffc; 0x3fffffc; 0x381041c; 0x38f0e0c;
   0x3bf07dc; 0xf801e0; 0x1f55570; 0xfffff0; 0x7ffff0; 0xe0e00; 0x1c0700; 0x3fa3c0;
   0x7fffe0; 0xe06fe0; 0x406000; 0xaaeaa0; 0xfffff0; 0xaaeaa0; 0x6000; 0x6000;
   0x3fffffc; 0x3fffffc; 0x0; 0x0; 0x0; 0x0; 0x0; 0x202000;
   0x0; 0x0; 0x0; 0x7000; 0x7000; 0x1fffffc; 0x3fffff8; 0x3d5555c;
   0x3870e18; 0x39f079c; 0xf803e0; 0x1f000f8; 0x838c30; 0xc38c10; 0xe38c78; 0x7b8df0;
   0x1f8fc0; 0x38d00; 0x78e00; 0x7f8fc0; 0xfb8ff8; 0x1e3867c; 0x1838708; 0x7038780].
Definition hanzi_data_314 : list N :=
  [0x30383e0; 0x3ff81fc; 0x3ff003c; 0x8; 0x0; 0x0; 0x0; 0x0;
   0x202000; 0x0; 0x0; 0x0; 0x7000; 0x6000; 0x3fffffc; 0x3fffff8;
   0x380041c; 0x38f0e18; 0x39f079c; 0xf823e0; 0x1e061f8; 0x8063b0; 0x7fffc0; 0x7fffc0;
   0x60f0; 0x6060; 0x3fffffc; 0x3fffffc; 0x0; 0x0; 0xffffe0; 0xeaaae0;
   0xe00060; 0xe00060; 0xffffe0; 0xffffe0; 0xe00060; 0x0; 0x0; 0x0;
   0x0; 0x202000; 0x0; 0x0; 0x0; 0x7000; 0x7000; 0x1fffffc;
   0x1fffff8; 0x180041c; 0x18f0e18; 0x1be079c; 0xf833e0; 0x1e038f8; 0x1801838; 0x7fffe0;
   0x7fffe0; 0x601860; 0x62ac60; 0x67fe60; 0x660660; 0x671f60; 0x63f860; 0x61e060;
   0x67f860; 0x6e1f60; 0x600260; 0x7fffe0; 0x7fffe0; 0x600060; 0x0; 0x0;
   0x0; 0x0; 0x202000; 0x0; 0x0; 0x0; 0x7000; 0x7000;
   0x1fffffc; 0x1fffff8; 0x1830c1c; 0x18f0e18; 0x1fc07dc; 0x1e000f8; 0xfffff0; 0x7fffe0;
   0x701800; 0x2eabaa8; 0x3fffffc; 0x600c00; 0x700e00; 0x7fffe0; 0x7fffe0; 0x380;
   0xfffff0; 0xfffff8; 0xe001bc; 0xe00188; 0xffff80; 0xffff80; 0xe00180; 0x0;
   0x0; 0x0; 0x0; 0x202000; 0x0; 0x0; 0x0; 0x7000;
   0x7000; 0x1fffffc; 0x1fffff8; 0x180041c; 0x18f0e18; 0x1fe07dc; 0xf061f0; 0x1c06078;
   0xffffe0; 0xfffff0; 0xe06060; 0xe06070; 0xffffe0; 0xfffff0; 0x6000; 0x1fffff0;
   0xfffff0; 0x1c06030; 0xc06030; 0x1fffff0; 0xfffff0; 0x6000; 0x6000; 0x6000;
   0x0; 0x0; 0x0; 0x0; 0x202000; 0x0; 0x0; 0x0;
   0x7000; 0x6000; 0x1fffffc; 0x3fffff8; 0x381041c; 0x38f0e18; 0x3ff07dc; 0x1f801f0;
   0x1fffff8; 0x3fff80; 0x3801c0; 0x380180; 0x3fffc0; 0x3fff80; 0x6000; 0xaaeaa8;
   0x1fffff8; 0x1aafab8; 0x1c1f038; 0x183f838; 0x1cf1f38; 0x18c07b8; 0x1c801b8; 0x1f80038;
   0xf00038; 0x0; 0x0; 0x0; 0x0; 0x202000; 0x0; 0x0;
   0x0; 0x7000; 0x6000; 0x3fffffc; 0x3fffff8; 0x381001c; 0x38f0e18; 0x17f07dc;
   0x3f001f8; 0x1fffff8; 0xffffe0; 0xe00070; 0xe00060; 0xfffff0; 0xffffe0; 0x1c070;
   0xe18330; 0xe1c370; 0xffff30; 0xffff30; 0x18038; 0x1c1c1b8; 0xc18198; 0x1ffff9c;
   0xffff8c; 0x1c00000; 0x0; 0x0; 0x0; 0x0; 0x202000; 0x0;
   0x0; 0x0; 0x7000; 0x6000; 0x3fffffc; 0x3fffff8; 0x383041c; 0x38f0e18;
   0x7e07c0; 0x1f001f8; 0x1fffff8; 0x7fffe8; 0x706060; 0x7fffe0; 0x7fffe0; 0x606060;
   0x7fffe0; 0x7fffe0; 0x6000; 0x3fffffc; 0x3fffffc; 0x3fc00; 0x1f6f00; 0xfc63e0;
   0x7f061fe; 0x380603c; 0x6000; 0x0; 0x0; 0x0; 0x0; 0x202000;
   0x0; 0x0; 0x0; 0x7000; 0x7000; 0x155f554; 0x3fffffc; 0x3fffffc;
   0x3870e0c; 0x39f079c; 0x7873e0; 0xf070f0; 0x40e020; 0x1fffff0; 0xfffff0; 0xc0700;
   0xe0300; 0x1e0780; 0x3f1fc0; 0xf3d8f0; 0xc0e030; 0x3fffffc; 0x3fffffc; 0x6000;
   0x6000; 0x6000; 0x6000; 0x6000; 0x0; 0x0; 0x0; 0x0;
   0x202000; 0x0; 0x0; 0x0; 0x7000; 0x6000; 0x1fffffc; 0x1fffff8;
   0x1d5555c; 0x1870e18; 0x1ff0fdc; 0xf803f8; 0x1c00070; 0xaaa0c0; 0xffe1c0; 0xc06ffc;
   0xc47ffc; 0xcc60c0; 0xcc61c0; 0xcc7ffc; 0xcc7ffc; 0xce60c0; 0xde61c0; 0xe07e0;
   0x1f0f70; 0x20f8c38; 0x31dc43c; 0x3f8f80c; 0x1f03800; 0x0; 0x0; 0x0;
   0x0; 0x202000; 0x0; 0x0; 0x0; 0x7000; 0x6000; 0x3fffffc;
   0x3fffffc; 0x39f1f1c; 0x2fe67e8; 0x1f061f0; 0x17fffe0; 0x7fffe0; 0x6000; 0x557550;
   0x3fffff8; 0x1d55550; 0xc18380; 0xe1df30; 0xc8f0; 0x1c3c0; 0x2aaeba8; 0x3fffffc;
   0x2aaeaa8; 0x77800; 0x3fbe00; 0x1fc1fc0; 0x3e003f8; 0x1000078; 0x0; 0x0;
   0x0; 0x0; 0x202000; 0x0; 0x0; 0x0; 0x7000; 0x6000;
   0x3fffffc; 0x3fffff8; 0x383041c; 0x38f0f18; 0x7c47e0; 0x1e070f8; 0x1c0e038; 0xfffff0;
   0xfffff0; 0xe0300; 0x60700; 0x3fffffc; 0x3fffffc; 0x0; 0x7fffc0; 0x3fffc0;
   0x7000c0; 0x3aaac0; 0x7fffc0; 0x3000c0; 0x7fffc0; 0x3fffc0; 0x7000c0; 0x0;
   0x0; 0x0; 0x0; 0x202000; 0x0; 0x0; 0x0; 0x7000;
   0x7000; 0x1fffffc; 0x1fffff8; 0x180041c; 0x1830e18; 0x19f47dc; 0x78e1e0; 0x1f1f878;
   0x879e10; 0x1f0f80; 0xffffe0; 0x3f7fefc; 0x380001c; 0xe03ff0; 0xe33ff0; 0xe33870;
   0xe33ff0; 0xe33ff0; 0xe33830; 0xe33ff0; 0xe33ab0; 0xe13870; 0xf83e30; 0x701c70;
   0x0; 0x0; 0x0; 0x0; 0x202000; 0x0; 0x0; 0x0;
   0x7000; 0x6000; 0x3fffffc; 0x3aaaaac; 0x39f1f1c; 0x2fe07e8; 0x1f071f0; 0x13861c0;
   0x1c7380; 0x1c6380; 0x3fffffc; 0x3fffffc; 0xf7f00; 0x3e63c0; 0x3f871fc; 0x1807c38;
   0x1c00; 0x3fffffc; 0x3fffffc; 0xe0380; 0x71fc0; 0x3ffe0; 0x7fff00; 0x3f83ffc;
   0x1c001fc; 0x0; 0x0; 0x0; 0x0; 0x202000; 0x0; 0x0;
   0x0; 0x7000; 0x6000; 0x3fffffc; 0x3fffff8; 0x383041c; 0x38f0e18; 0x7c07d4;
   0xe001e0; 0x1c01c70; 0x1fe3f80; 0x7fc7f0; 0xeccdb0; 0xcccdb0; 0xccc9b0; 0xccd9b0;
   0xccd9b0; 0xccd9b0; 0xecf5b8; 0x1f4f598; 0x1b6cd98; 0x1b6cdd8; 0x3bfefd8; 0x37f7fcc;
   0x320684e; 0x3004004; 0x0; 0x0; 0x0; 0x0; 0x202000; 0x0;
   0x0; 0x0; 0x7000; 0x6000; 0x3fffffc; 0x3fffff8; 0x3870e1c; 0x3be0798;
   0x1fc01f0; 0x1dffeb8; 0x5ffe0; 0x186180; 0x1c7380; 0x3fffffc; 0x3fffffc; 0x3ee00;
   0xf7780; 0x3e63e0; 0x3f070fc; 0x3c0303c; 0x1e0e370; 0xc8c330; 0x1f9c338; 0x3b88318;
   0x31fff1c; 0xffe00; 0x0; 0x0; 0x0; 0x0; 0x0; 0x202000;
   0x0; 0x0; 0x0; 0x7000; 0x6000; 0x3fffffc; 0x3fffffc; 0x3830c1c].
Definition hanzi_data_315 : list N :=
  [0x3bf1f0c; 0x1fc07f0; 0x1e080f0; 0x155c3f8; 0xffe3f8; 0x70fb18; 0x3b9f98; 0x1f0198;
   0xffe098; 0x7f5fcd8; 0x27fc998; 0x67318; 0x1fff318; 0x1ffff18; 0x61f18; 0xffebd8;
   0xffe3d8; 0x60018; 0x3fffc18; 0x3fffc18; 0x0; 0x0; 0x0; 0x0;
   0x202000; 0x0; 0x0; 0x0; 0x7000; 0x7000; 0x7000; 0x6000;
   0x6000; 0x1fffff8; 0x1fffff8; 0xaaaaa8; 0x100; 0x380180; 0x1c0380; 0x1c0380;
   0x1c0300; 0xc0300; 0xe0700; 0xe0700; 0x60700; 0x60600; 0x70600; 0x30e00;
   0x38600; 0x2abaaa8; 0x3fffffc; 0x3fffffc; 0x0; 0x0; 0x0; 0x0;
   0x0; 0x202000; 0x0; 0x0; 0x0; 0x18040; 0x18060; 0x180e0;
   0x180c0; 0x180c0; 0x3fff7fc; 0x3fff7fc; 0x18000; 0x1c71c; 0x30c318; 0x39c318;
   0x38c318; 0x18c318; 0x18c3b8; 0x1cc1b0; 0xece1b0; 0xcc61b0; 0xce61b0; 0x1c67790;
   0x1867ff0; 0x3c731fc; 0x3ffb83c; 0x3ff9800; 0x3031c00; 0x7001800; 0x0; 0x0;
   0x0; 0x0; 0x202000; 0x0; 0x0; 0x0; 0x500; 0xfff600;
   0x1fff738; 0xc06638; 0xe0c738; 0x60c638; 0x71c738; 0x3b8638; 0x1f0738; 0xe0638;
   0x3fc738; 0xfbe638; 0x3f0f738; 0x1807600; 0x6000; 0xaaeaa8; 0x1fffff8; 0x1fffff8;
   0x1c0380; 0xc0300; 0xc0700; 0xe0600; 0x3fffffc; 0x3fffffc; 0x1555554; 0x0;
   0x0; 0x0; 0x0; 0x202000; 0x0; 0x0; 0x0; 0x38040;
   0x38060; 0x180e0; 0x180c0; 0x3ffc0c0; 0x3ffc7fc; 0x3ffe7fc; 0x3806000; 0x380771c;
   0x3803b18; 0x39fd318; 0x39fc318; 0x398c318; 0x398c3b8; 0x198c1b0; 0x198c1b0; 0x19fc1b0;
   0x19fc1b0; 0x195c790; 0x180cff0; 0x18001fc; 0x180003c; 0x1c40000; 0xf80000; 0xf80000;
   0x0; 0x0; 0x0; 0x0; 0x202000; 0x0; 0x0; 0x0;
   0xe0040; 0xe00e0; 0xe01c0; 0xe01c0; 0xe0180; 0xe1ffc; 0x7fe1ffc; 0x3fe0000;
   0xe0618; 0xe0618; 0xe0618; 0xe0638; 0xe0730; 0x1ffe630; 0x1ffe730; 0x1806330;
   0x1806330; 0x1806330; 0x1807f10; 0x1806ff0; 0x18061fc; 0x1aae03c; 0x1ffe000; 0x1ffe000;
   0x1806000; 0x0; 0x0; 0x0; 0x0; 0x202000; 0x0; 0x0;
   0x0; 0x7000; 0x6000; 0x1fffff8; 0x1fffff8; 0xc0100; 0x1c0380; 0xc0700;
   0x3fffffc; 0x3fffffc; 0x0; 0x7fffc0; 0x3fffe0; 0x7555e0; 0x3000e0; 0x7000e0;
   0x3aaae0; 0x7fffe0; 0x2baea0; 0x38c00; 0x1038e00; 0x3038700; 0x3038380; 0x3ff03f0;
   0x3ff00fc; 0x1fe001c; 0x0; 0x0; 0x0; 0x0; 0x202000; 0x0;
   0x0; 0x0; 0x7000; 0x6000; 0x1fffff8; 0xfffff8; 0x40300; 0xc0300;
   0xe0700; 0x3fffffc; 0x3fffffc; 0x0; 0x7fffe0; 0x7fffe0; 0x600060; 0x600060;
   0x7fffe0; 0x6aaae0; 0x600060; 0x7fffe0; 0x7fffe0; 0x30e00; 0x7030600; 0x3030700;
   0x3ff03f0; 0x3ff01fc; 0x154007c; 0x0; 0x0; 0x0; 0x0; 0x202000;
   0x0; 0x0; 0x0; 0x7000; 0x6000; 0x1fffff8; 0xfffff8; 0x1c0380;
   0xe0300; 0x1575754; 0x3fffffc; 0x3fffffc; 0x0; 0x7fffe0; 0x6aaae0; 0x600060;
   0x7fffe0; 0x7fffe0; 0x600060; 0x7fffe0; 0x7fffe0; 0x6000; 0x6000; 0x3fffffc;
   0x3fffffc; 0x6000; 0x6000; 0x6000; 0x0; 0x0; 0x0; 0x0;
   0x202000; 0x0; 0x0; 0x0; 0x70040; 0x30060; 0x738060; 0x61c0e0;
   0xe0e0c0; 0x1fff7fc; 0x3fff7fc; 0x3203000; 0x738318; 0xe1c318; 0x1c0e318; 0x3837b98;
   0x7033d98; 0x381b8; 0x1ffc1b0; 0xffe1b0; 0xe0f1b0; 0x71b8b0; 0x3b97d0; 0x1f07f0;
   0x1f01fc; 0x3f803c; 0x1f9f000; 0x3e0fc00; 0x3801c00; 0x0; 0x0; 0x0;
   0x0; 0x202000; 0x0; 0x0; 0x0; 0x7000; 0x6000; 0x1fffff8;
   0xfffff8; 0x1c0380; 0xe0700; 0x3fffffc; 0x3fffffc; 0x1555554; 0x2aaaa0; 0x7ffff0;
   0x606060; 0x606070; 0x7fffe0; 0x757570; 0x606060; 0x7ffff0; 0x7fffe0; 0x6000;
   0xfffff0; 0x1fffff0; 0x6000; 0x3fffffc; 0x3fffffc; 0x1555554; 0x0; 0x0;
   0x0; 0x0; 0x202000; 0x0; 0x0; 0x0; 0xe0040; 0xe0060;
   0xe00e0; 0x3fff8c0; 0x3fff9c0; 0xe07fc; 0xe07fc; 0x1fff000; 0x1fff71c; 0x1aeb318;
   0x18e3318; 0x18e3318; 0x18e3318; 0x1fff3b8; 0x1fff1b0; 0x1f01b0; 0x3f01b0; 0x3f81b0;
   0x7fc7d0; 0xeeeff8; 0x1ce71fc; 0x38e381c; 0x30e1c00; 0xe0800; 0xe0000; 0x0;
   0x0; 0x0; 0x0; 0x202000; 0x0; 0x0; 0x0; 0x30060;
   0x30060; 0x3f8060; 0x7f80e0; 0x75c0c0; 0x38e7fc; 0x1877fc; 0x1fff800; 0x1fff31c;
   0x1860318; 0x1c60318; 0x3aea398; 0x7fff198; 0x3fff198; 0x1c60198; 0x18601b8; 0x1ffe1b0;
   0x1ffe0b0; 0x1d747d0; 0x8607f8; 0x601fc; 0x6003c; 0x74000; 0x7c000; 0x7c000;
   0x0; 0x0; 0x0; 0x0; 0x202000; 0x0; 0x0; 0x0;
   0x60; 0x1ffe060; 0x1fff0e0; 0x18060c0; 0x1c070c0; 0x1ffe7fc; 0x1fff7fc; 0x1806000;
   0x1fff71c; 0x1ffe318; 0x155d318; 0xe318; 0x3ffe318; 0x3fff3b8; 0x30c39b0; 0x30c19b0;
   0x30e79b0; 0x39e21b0; 0x3f3f7d0; 0x3a1aff0; 0x1fff1fc; 0x1ffe03c; 0x1800000; 0x1f00000;
   0xf00000; 0x0; 0x0; 0x0; 0x0; 0x202000; 0x0; 0x0;
   0x0; 0x60040; 0x862060; 0x18630e0; 0x18630c0; 0x18631c0; 0x18637fc; 0x1fff7fc;
   0x1fff000; 0x31c; 0x318; 0x7ffff18; 0x3fffb18; 0x60318; 0x60398; 0x3fff998;
   0x3fff9b0; 0x331b9b0; 0x331b9b0; 0x331bfd0; 0x331bff0; 0x331b9fc; 0x331b83c; 0x331b800;
   0x3f1b800; 0x1d1b800; 0x0; 0x0; 0x0; 0x0; 0x202000; 0x0;
   0x0; 0x0; 0x701c0; 0x300c0; 0x300e0; 0x380e0; 0x38060; 0x2abaae0;
   0x7fffff0; 0x3fffff8; 0x70e1b8; 0x30e198; 0x70719c; 0x30398e; 0x702184; 0x300180;
   0x700180; 0x300180; 0x700180; 0x300180; 0x700180; 0x300180; 0x700180; 0x300180].
Definition hanzi_data_316 : list N :=
  [0x750180; 0x3f0180; 0x1f0180; 0x0; 0x0; 0x0; 0x0; 0x202000;
   0x0; 0x0; 0x0; 0x700c0; 0x300e0; 0x30060; 0x3ffbfe0; 0x3ffbff0;
   0x1d81b0; 0x39c338; 0x30e318; 0x70f71c; 0x20620e; 0x0; 0x7fffe0; 0x7fffe0;
   0x7fffe0; 0x0; 0x0; 0x0; 0x0; 0x0; 0x0; 0x0;
   0x3fffffc; 0x3fffffc; 0x3fffffc; 0x0; 0x0; 0x0; 0x0; 0x0;
   0x202000; 0x0; 0x0; 0x0; 0x300e0; 0x38060; 0x1559570; 0x3fffff0;
   0x3fffff8; 0x18e3b8; 0x38731c; 0x38330e; 0x555550; 0xfffff0; 0xfffff0; 0x6000;
   0x6000; 0x6000; 0x1557554; 0x3fffffc; 0x3fffffc; 0x6000; 0x6000; 0x6000;
   0x6000; 0x6000; 0x7100; 0x7e00; 0x7e00; 0x0; 0x0; 0x0;
   0x0; 0x202000; 0x0; 0x0; 0x0; 0x300e0; 0x38060; 0x1579570;
   0x3ffbff0; 0x3fffff8; 0x18e3b8; 0x38731c; 0x30330e; 0x10210c; 0xfffff0; 0xfffff0;
   0x6000; 0x6000; 0x6000; 0x6000; 0x2aaeaa8; 0x3fffffc; 0x3fffffc; 0x6000;
   0x6000; 0x6000; 0x6000; 0x6000; 0x6000; 0x6000; 0x0; 0x0;
   0x0; 0x0; 0x202000; 0x0; 0x0; 0x0; 0x300e0; 0x380e0;
   0x3ff9ff0; 0x3fffff0; 0x15dd5f8; 0x18e398; 0x38771e; 0x2108; 0x3ffff0; 0x3fffe0;
   0x180000; 0x180180; 0x180180; 0x180180; 0x1ffffc0; 0x1ffffc0; 0x1800000; 0x1800000;
   0x1cffffc; 0x18ffff8; 0x1c55554; 0xc00000; 0xf60000; 0xfc0000; 0x7c0000; 0x0;
   0x0; 0x0; 0x0; 0x202000; 0x0; 0x0; 0x0; 0x701c0;
   0x300e0; 0x1571560; 0x3ffbff0; 0x3fffff0; 0x31c338; 0x70e71c; 0x60c60c; 0x555550;
   0xfffff0; 0x1fffff0; 0xc0600; 0xc0600; 0xc0600; 0xc0600; 0x3fffffc; 0x3fffffc;
   0xc0700; 0xc0700; 0xc0380; 0xc01c0; 0xc01e0; 0xc00f0; 0xc0038; 0xc0018;
   0x0; 0x0; 0x0; 0x0; 0x202000; 0x0; 0x0; 0x0;
   0x300e0; 0x38060; 0x1579570; 0x3ffbff0; 0x3ffdff8; 0x18e398; 0x38771c; 0x30260c;
   0xfffff0; 0xffffe0; 0xf57570; 0xe06060; 0xe06070; 0xe06060; 0xe06070; 0xffffe0;
   0xfffff0; 0xe00060; 0x70; 0x3000060; 0x3000070; 0x3800060; 0x1ffffe0; 0x1ffffc0;
   0x555500; 0x0; 0x0; 0x0; 0x0; 0x202000; 0x0; 0x0;
   0x0; 0x300e0; 0x380e0; 0x3ffbff0; 0x3fffff0; 0x3fffff8; 0x18e398; 0x38731e;
   0x302308; 0xffff0; 0x7fff0; 0x70700; 0x30600; 0x38700; 0xff8700; 0xffcf00;
   0x601f80; 0x703f80; 0x387380; 0x1df1c0; 0xfc0c0; 0xfc0e0; 0x3fe070; 0x1f8fc7c;
   0x3e03f1e; 0x300070c; 0x0; 0x0; 0x0; 0x0; 0x202000; 0x0;
   0x0; 0x0; 0x300e0; 0x38060; 0x1559570; 0x3ffbff0; 0x3fffff8; 0x38e398;
   0x38771c; 0x30260e; 0xfc0004; 0xffffa0; 0x37ffe0; 0x3062e0; 0x706060; 0x306060;
   0x706060; 0x606060; 0x606060; 0x606060; 0xe06070; 0xe06030; 0x1c06038; 0x1c06038;
   0x380601c; 0x380600e; 0x1006004; 0x0; 0x0; 0x0; 0x0; 0x202000;
   0x0; 0x0; 0x0; 0x300e0; 0x38060; 0x3ffbff0; 0x3fffff0; 0x15df7f8;
   0x38e31c; 0x70771e; 0xaaaaa8; 0xffffe0; 0xeafaa0; 0xe07000; 0xe07000; 0x3fffffc;
   0x3fffffc; 0xe07000; 0xe07000; 0xe07000; 0xffffe0; 0xffffe0; 0xe01c00; 0xe01e00;
   0xf80; 0x7f0; 0xf8; 0x30; 0x0; 0x0; 0x0; 0x0;
   0x202000; 0x0; 0x0; 0x0; 0x700c0; 0x300e0; 0x1571560; 0x3ffbfe0;
   0x3fffff0; 0x39c738; 0x70e71c; 0x60e79c; 0x20418c; 0xaaabc0; 0x1ffffc0; 0x1ffffe0;
   0x1c61870; 0x1861c38; 0x1c70c1c; 0x1830e0e; 0x1c38700; 0xc18380; 0x1c1c1c0; 0xc0e1e0;
   0xc0e0f0; 0xe07038; 0xe13810; 0x7e1c00; 0x3e1800; 0x0; 0x0; 0x0;
   0x0; 0x202000; 0x0; 0x0; 0x0; 0x300e0; 0x380e0; 0x38060;
   0x3ffbff0; 0x3fffff0; 0x18e3b8; 0x38731c; 0x38730e; 0x7c2108; 0xfff800; 0x1ffff0;
   0xeff0; 0x6000; 0x6000; 0x3fffffc; 0x3fffffc; 0x3fffffc; 0x1f800; 0x39c00;
   0x70e00; 0xf0f00; 0x3e0780; 0x1f801f0; 0x3e000fc; 0x1c00018; 0x0; 0x0;
   0x0; 0x0; 0x202000; 0x0; 0x0; 0x0; 0x300e0; 0x38060;
   0x1579570; 0x3ffbff0; 0x3ffdff8; 0x18e398; 0x18771c; 0x28260c; 0x7fc000; 0x3ffff0;
   0x17ff0; 0x3000; 0x7f3000; 0xffffe0; 0x5fff8; 0x3028; 0x3d03000; 0x3fff800;
   0x17ffffc; 0x3ffc; 0x3803004; 0x3803000; 0x1d57000; 0x1fff000; 0xffc000; 0x0;
   0x0; 0x0; 0x0; 0x202000; 0x0; 0x0; 0x0; 0x700e0;
   0x30060; 0x1579570; 0x3ffbff0; 0x3ffd7f8; 0x38e318; 0x30771c; 0x100208; 0x7fffe0;
   0x3fffe0; 0x7000e0; 0x3060e0; 0x7070e0; 0x3060e0; 0x7070e0; 0x3060e0; 0x7070e0;
   0x31b0e0; 0x71b8c0; 0x19c00; 0x3019f00; 0x3018780; 0x3ff83f0; 0x1ff80f8; 0x540010;
   0x0; 0x0; 0x0; 0x0; 0x202000; 0x0; 0x0; 0x0;
   0x300e0; 0x38060; 0x1559570; 0x3ffbff0; 0x3fffff8; 0x1ce3b8; 0x38731c; 0x30330e;
   0x1061c4; 0x61c0; 0x5575c0; 0xffffe0; 0x1fffff0; 0x6038; 0x603c; 0x6010;
   0xffffe0; 0xffffe0; 0x6000; 0x6000; 0x6000; 0x6000; 0x3fffffc; 0x3fffffc;
   0x0; 0x0; 0x0; 0x0; 0x0; 0x202000; 0x0; 0x0;
   0x0; 0x300e0; 0x38060; 0x18070; 0x3ffbff0; 0x3fffff0; 0x1ce3b8; 0x38731c;
   0x383b0e; 0x10710c; 0x6000; 0x557550; 0xfffff0; 0xfffff0; 0xc06030; 0xc06070;
   0xc06030; 0xfffff0; 0xfffff0; 0xc06070; 0xc06030; 0xc06070; 0xc06030; 0xfffff0;
   0xfffff0; 0xc00070; 0x0; 0x0; 0x0; 0x0; 0x202000; 0x0;
   0x0; 0x0; 0x30060; 0x38060; 0x3fffff0; 0x3fffff8; 0x1ce39c; 0x38731e].
Definition hanzi_data_317 : list N :=
  [0x10590c; 0x23c00; 0xf1e00; 0x1e0700; 0x3803c0; 0x7fe9e0; 0xfffff0; 0x1c03ff0;
   0x1c00010; 0x2aaaa0; 0x7fffe0; 0x7fffe0; 0x6000e0; 0x6000e0; 0x6000e0; 0x6aaae0;
   0x7fffe0; 0x7fffe0; 0x6000e0; 0x0; 0x0; 0x0; 0x0; 0x202000;
   0x0; 0x0; 0x0; 0x700e0; 0x380e0; 0x38060; 0x3ffbff0; 0x3fffff0;
   0x1ce3b8; 0x38731c; 0x387b1c; 0x70770e; 0x6008; 0x6000; 0x1fffff8; 0x1fffff8;
   0xaaaaa8; 0x380180; 0x180380; 0x1c0300; 0x1c0300; 0xc0700; 0xe0600; 0x60700;
   0x60600; 0x3fffffc; 0x3fffffc; 0x0; 0x0; 0x0; 0x0; 0x0;
   0x202000; 0x0; 0x0; 0x0; 0x300e0; 0x38060; 0x3ffbff0; 0x3ffbff0;
   0x3fffff8; 0x18e39c; 0x38771e; 0x102208; 0xfffff8; 0xfffff8; 0xe01800; 0xe01c00;
   0x600e00; 0x7f0780; 0x7f03f0; 0x800fc; 0x7ffffc; 0x7fffe0; 0x755560; 0x600060;
   0x600060; 0x600060; 0x7fffe0; 0x7fffe0; 0x600060; 0x0; 0x0; 0x0;
   0x0; 0x202000; 0x0; 0x0; 0x0; 0x700c0; 0x300e0; 0x3ffbfe0;
   0x3ffbff0; 0x15dd770; 0x38c338; 0x70e71c; 0x204208; 0x7ffff0; 0x7ffff0; 0x600000;
   0x67fff8; 0x67fff8; 0x600000; 0x600000; 0x61ffe0; 0x61ffe0; 0x6180e0; 0x6180e0;
   0x6180e0; 0x61ffe0; 0x61ffe0; 0x7400e0; 0x7e0000; 0x3e0000; 0x0; 0x0;
   0x0; 0x0; 0x202000; 0x0; 0x0; 0x0; 0x300e0; 0x38060;
   0x1559570; 0x3ffbff0; 0x3ffdff8; 0x18e3b8; 0x38771c; 0x10270e; 0x700380; 0x300180;
   0x7001c0; 0x3fffee0; 0x3fffef0; 0x3000f0; 0x7010f8; 0x3038fc; 0x7070ec; 0x3060e0;
   0x70e0e0; 0x30c0e0; 0x7040e0; 0x3000e0; 0x7500e0; 0x3f80e0; 0x1f00e0; 0x0;
   0x0; 0x0; 0x0; 0x202000; 0x0; 0x0; 0x0; 0x300e0;
   0x38060; 0x1559570; 0x3ffbff0; 0x3fffff8; 0x18e3b8; 0x38731c; 0x30230c; 0x6000;
   0x6000; 0x3fffffc; 0x3fffffc; 0x3fc00; 0x76e00; 0xe6700; 0xe6300; 0x3c63c0;
   0x7861e0; 0xf060f0; 0x3fffff8; 0x7dfffbc; 0x3006008; 0x6000; 0x6000; 0x6000;
   0x0; 0x0; 0x0; 0x0; 0x202000; 0x0; 0x0; 0x0;
   0x700c0; 0x380e0; 0x1579560; 0x3ffbff0; 0x3fffff0; 0x18e338; 0x38771c; 0x30220e;
   0x7fffc0; 0x7fffc0; 0x7000c0; 0x7000c0; 0x7000c0; 0x7fffc0; 0x7fffc0; 0x7000c0;
   0x7000c0; 0x7000c0; 0x7fffc0; 0x7fffc0; 0x0; 0x0; 0x3fffffc; 0x3fffffc;
   0x0; 0x0; 0x0; 0x0; 0x0; 0x202000; 0x0; 0x0;
   0x0; 0x300e0; 0x38060; 0x3ffbff0; 0x3ffbff0; 0x3fffff8; 0x38e398; 0x38771c;
   0x10620c; 0x7f6000; 0x7fffe0; 0x5ffe0; 0x6060; 0x6070; 0x6060; 0x1fffff0;
   0x1fffff0; 0x1d57d50; 0x1c07c00; 0x1c07e00; 0xc06780; 0xf663c0; 0xfc60f8; 0x5c607c;
   0x6008; 0x6000; 0x0; 0x0; 0x0; 0x0; 0x202000; 0x0;
   0x0; 0x0; 0x700c0; 0x300e0; 0x3ff7fe0; 0x3ffbff0; 0x39c370; 0x30c738;
   0x70e61c; 0x8; 0xfffff0; 0xfffff0; 0xc07000; 0xc06000; 0xffffe0; 0xffffe0;
   0x7070; 0x6060; 0x1fffff0; 0x1fffff0; 0x1c07c00; 0xc06e00; 0x1c07700; 0xe063c0;
   0xfc71f0; 0x7c6078; 0x7018; 0x0; 0x0; 0x0; 0x0; 0x202000;
   0x0; 0x0; 0x0; 0x300e0; 0x38060; 0x1559570; 0x3ffbff0; 0x3fffff8;
   0x18e398; 0x38771c; 0x30270c; 0x700; 0x3ffff80; 0x3ffffc0; 0x31c0; 0x30e0;
   0xfff070; 0xfff078; 0x3038; 0x3010; 0xaab000; 0x1fff000; 0xaab000; 0x3000;
   0x3000; 0x3000; 0x3000; 0x3000; 0x0; 0x0; 0x0; 0x0;
   0x202000; 0x0; 0x0; 0x0; 0x700c0; 0x300e0; 0x1579560; 0x3ffbff0;
   0x3fffff0; 0x38c338; 0x70e71c; 0x20438e; 0x1c0; 0x1ffc0c0; 0x1fffffc; 0x181bffc;
   0x1c19d74; 0xc39860; 0xe31c70; 0xe31c30; 0x770c38; 0x3e0e78; 0x3c07f0; 0x3c0780;
   0x7e1f80; 0xf7bde0; 0x3e3d0f0; 0x380e03c; 0x1006018; 0x0; 0x0; 0x0;
   0x0; 0x202000; 0x0; 0x0; 0x0; 0x300e0; 0x38060; 0x1559570;
   0x3ffbff0; 0x3fffff8; 0x18e398; 0x38731c; 0x30238e; 0x1c4; 0x1ffffc0; 0x1ffffe0;
   0x1c00070; 0x1c00070; 0xc0aab8; 0x1c1ffdc; 0xc1ffcc; 0x1c181c0; 0xc180c0; 0xc181c0;
   0xc1ffc0; 0xc1ffc0; 0xe0aac0; 0x7501c0; 0x7f0000; 0x3f0000; 0x0; 0x0;
   0x0; 0x0; 0x202000; 0x0; 0x0; 0x0; 0x300e0; 0x38060;
   0x1579570; 0x3ffbff0; 0x3ffdff8; 0x18e398; 0x38731c; 0x10218c; 0x1c0; 0x1ff01c0;
   0x1ff3ffc; 0x1ab3ffc; 0x18335d4; 0x18338c0; 0x18338c0; 0x18338c0; 0x18338c0; 0x18338e0;
   0x1833860; 0x1833860; 0x1831870; 0x1831838; 0x1ff1fbc; 0x1ff0f9c; 0x1830508; 0x0;
   0x0; 0x0; 0x0; 0x202000; 0x0; 0x0; 0x0; 0x30060;
   0x38060; 0x3ffbff0; 0x3fffff0; 0x1cc1b8; 0x38e39c; 0x30771e; 0xaaaaa8; 0x1fffff0;
   0x1fffff0; 0x30; 0x30; 0x3ffc30; 0x3ffc30; 0x380c30; 0x380c30; 0x380c30;
   0x3aac30; 0x3ffc30; 0x3ffc30; 0x30; 0x30; 0x3fffff0; 0x3fffff0; 0x1555550;
   0x0; 0x0; 0x0; 0x0; 0x202000; 0x0; 0x0; 0x0;
   0x380e0; 0x18060; 0x155d570; 0x3ffdff0; 0x3fffff8; 0x387398; 0x31f71c; 0x78d0c;
   0xd61c00; 0xfffc00; 0x7ffff8; 0x1ff8; 0x1001800; 0x3fe3800; 0x3ffff40; 0xfffc;
   0xe071fc; 0x78e000; 0x3ee000; 0xfc000; 0x707f800; 0x307ff80; 0x35f1ffc; 0x3fc00f8;
   0x1f00000; 0x0; 0x0; 0x0; 0x0; 0x202000; 0x0; 0x0;
   0x0; 0x700c0; 0x300e0; 0x3ff3fe0; 0x3ffbfe0; 0x3fffff0; 0x31c338; 0x70e71c;
   0x224208; 0xf1c00; 0x3e0c00; 0x301c00; 0x3fffffc; 0x3fffffc; 0x18e00; 0x61c600;
   0xf18600; 0x79c700; 0x1d8300; 0xfc380; 0x303c1c0; 0x701f1e0; 0x301fef0; 0x3ffde7c].
Definition hanzi_data_318 : list N :=
  [0x3ff823e; 0xc; 0x0; 0x0; 0x0; 0x0; 0x202000; 0x0;
   0x0; 0x0; 0x30060; 0x38060; 0x1559570; 0x3fffff0; 0x3fffff8; 0x18e398;
   0x38731c; 0x39a318; 0x18038; 0x18070; 0x1fffee0; 0x1fffec0; 0x1c1c000; 0x181c0fc;
   0x1c1c0fc; 0x1c0e0e0; 0x1c0e0e0; 0xc070e0; 0xc078e0; 0xee3ee0; 0x7e1df0; 0x2803f8;
   0x3ffff1c; 0x3fffe0e; 0x17fd004; 0x0; 0x0; 0x0; 0x0; 0x202000;
   0x0; 0x0; 0x0; 0x300e0; 0x38060; 0x1559570; 0x3fffff0; 0x3fffff8;
   0x18e198; 0x38739c; 0x30730e; 0x6100; 0x7fffe0; 0x7fffe0; 0x6000; 0x6000;
   0x2aaeaa8; 0x3fffffc; 0xaaaaa8; 0x6000; 0x6000; 0xfffff0; 0xfffff0; 0x6000;
   0x6000; 0x3fffffc; 0x3fffffc; 0x0; 0x0; 0x0; 0x0; 0x0;
   0x202000; 0x0; 0x0; 0x0; 0x700c0; 0x300e0; 0x3ffbfe0; 0x3ffbff0;
   0x39c370; 0x30c738; 0x70671c; 0x6188; 0x61c0; 0xffffe0; 0xffffe0; 0x6070;
   0x6038; 0x6030; 0x3fffffc; 0x3fffffc; 0x30600; 0x30600; 0x30700; 0x2030700;
   0x7030380; 0x30301c0; 0x3ff01f0; 0x3ff007c; 0x1fc001c; 0x0; 0x0; 0x0;
   0x0; 0x202000; 0x0; 0x0; 0x0; 0x300e0; 0x38060; 0x1559570;
   0x3ffbff0; 0x3fffff8; 0x1ce3b8; 0x38731c; 0x38330e; 0x1550100; 0x3ff9ffc; 0x1ffdffc;
   0xc18180; 0xe1c1c0; 0x718180; 0x39c1c0; 0xf18180; 0x1c1c1c0; 0x181a180; 0x181ffc0;
   0x381bfe0; 0x1d5c1fc; 0x1f9803c; 0x79c000; 0x18000; 0x1c000; 0x0; 0x0;
   0x0; 0x0; 0x202000; 0x0; 0x0; 0x0; 0x300e0; 0x38060;
   0x3ffbff0; 0x3fffff0; 0x1ce1b8; 0x18e39c; 0x38730e; 0x6000; 0xfffff0; 0xfffff0;
   0x6000; 0x6000; 0x7fffffc; 0x3fffffc; 0x1c0000; 0xc0000; 0x3fffffc; 0x3fffff8;
   0x1c0180; 0xc0380; 0x1c0700; 0xc0e00; 0x1c1c00; 0xfc000; 0xfc000; 0x0;
   0x0; 0x0; 0x0; 0x202000; 0x0; 0x0; 0x0; 0x300e0;
   0x380e0; 0x3ffbff0; 0x3fffff0; 0x3fffff8; 0x18e398; 0x387b1e; 0x362308; 0x61ff0;
   0x61ff0; 0x3fffc30; 0x1fff830; 0x1d75ff0; 0x1861ff0; 0x1861d70; 0x1861830; 0x1871d70;
   0x1871ff0; 0x1871ff0; 0x1831838; 0x1c39c38; 0x181d818; 0x1d5fc1c; 0xf8ff8c; 0x786f0c;
   0x0; 0x0; 0x0; 0x0; 0x202000; 0x0; 0x0; 0x0;
   0x700c0; 0x300e0; 0x3ffbfe0; 0x3ffbff0; 0x39c370; 0x30e738; 0x70671c; 0x20f208;
   0x1fc00; 0x79e00; 0x1f0f80; 0xfc03e0; 0x7f000fc; 0x3bffff8; 0x3fffc0; 0x6000;
   0x6000; 0x2aeaa0; 0x7fffe0; 0x2aeaa0; 0x6000; 0x6000; 0x3fffffc; 0x3fffff8;
   0x0; 0x0; 0x0; 0x0; 0x0; 0x202000; 0x0; 0x0;
   0x0; 0x700e0; 0x30060; 0x3ffbff0; 0x3ffbff0; 0x15dd5f8; 0x38e39c; 0x38771e;
   0x88108; 0x3cc380; 0xf8c180; 0xe1c1c0; 0x3e9c0e0; 0x3fffef0; 0x2ffef8; 0x1c186fc;
   0xe380de; 0x7380cc; 0x3b00c0; 0x3f00c0; 0x30e00c0; 0x70fc0c0; 0x31de0c0; 0x37c7ec0;
   0x3f83ec0; 0x1e004c0; 0x0; 0x0; 0x0; 0x0; 0x202000; 0x0;
   0x0; 0x0; 0x300e0; 0x38060; 0x3ffbff0; 0x3fffff0; 0x15df7f8; 0x38e31c;
   0x30771e; 0xaaaaa8; 0x1fffff0; 0x30; 0x70; 0x7fff30; 0x7fff70; 0x1c030;
   0x15d470; 0x3ffe30; 0x55d570; 0x1c030; 0x55d570; 0xffffb0; 0xfffff0; 0x30;
   0x1fffff0; 0x1fffff0; 0x0; 0x0; 0x0; 0x0; 0x0; 0x202000;
   0x0; 0x0; 0x0; 0x700c0; 0x300e0; 0x30060; 0x3ffbfe0; 0x3fffff0;
   0x39c338; 0x30c71c; 0x70e61c; 0x20460c; 0x7feffc; 0x7feffc; 0x6060c0; 0x7060c0;
   0x6060c0; 0x73e0c0; 0x6760c0; 0x7f60c0; 0x6e6ec0; 0x7c7ff0; 0x6033fc; 0x670387c;
   0x6603800; 0x7f01e00; 0x3e00f00; 0x1400600; 0x0; 0x0; 0x0; 0x0;
   0x202000; 0x0; 0x0; 0x0; 0x300e0; 0x38060; 0x3ffbff0; 0x3fffff0;
   0x15dd5f8; 0x38e3b8; 0x38771c; 0xfffffc; 0x1fffff0; 0xc00030; 0x1c00030; 0xcfff30;
   0x1dfff30; 0xc00030; 0x1c55430; 0xc7fe30; 0x1c75630; 0xc60630; 0x1c60630; 0xc60630;
   0x1c7fe30; 0xc2ae30; 0x1c00630; 0xfc0030; 0x7c0030; 0x0; 0x0; 0x0;
   0x0; 0x202000; 0x0; 0x0; 0x0; 0x700c0; 0x300e0; 0x1579570;
   0x3ffbff0; 0x3fffff8; 0x38e338; 0x30671c; 0x30e20c; 0xf000; 0x3f800; 0x79e00;
   0x3e0f80; 0xffffe0; 0x3effef8; 0x3c5557c; 0x8; 0x3fffc0; 0x3fffc0; 0x3001c0;
   0x3000c0; 0x3001c0; 0x3000c0; 0x3fffc0; 0x3fffc0; 0x3001c0; 0x0; 0x0;
   0x0; 0x0; 0x202000; 0x0; 0x0; 0x0; 0x300e0; 0x380e0;
   0x3ffbff0; 0x3fffff0; 0x15df5f8; 0x18f39c; 0x38731e; 0x6000; 0x3fffffc; 0x3fffffc;
   0x6000; 0x6000; 0xfffff0; 0xfffff0; 0xc06070; 0xc06030; 0xc0f070; 0xf9f830;
   0x77fc70; 0xf6e00; 0x7c67c0; 0x1f861f0; 0x7e0607c; 0x3806018; 0x6000; 0x0;
   0x0; 0x0; 0x0; 0x202000; 0x0; 0x0; 0x0; 0x700e0;
   0x30060; 0x1579570; 0x3ffbff0; 0x3fffff8; 0x18e3b8; 0x38731c; 0x30730e; 0x100180;
   0xffc180; 0x1ffdffc; 0xeadff8; 0x1c0dffc; 0xc0c180; 0x1c0c180; 0xc0c980; 0x1c0dfc0;
   0xc0cff8; 0x1c0c1fc; 0xc0c188; 0x1ffc180; 0xffc180; 0x1ffc180; 0xc0c1f0; 0x14041f0;
   0x0; 0x0; 0x0; 0x0; 0x202000; 0x0; 0x0; 0x0;
   0x300e0; 0x38060; 0x3fffff0; 0x3fffff0; 0x1ce338; 0x38e71c; 0x30760e; 0x1c030;
   0xf1c070; 0xfddff0; 0x1fdff0; 0x303c030; 0x301c070; 0x381fe30; 0x3fffff0; 0x1ffe0f0;
   0x7010; 0x6000; 0x3fffffc; 0x3fffffc; 0x7000; 0x6000; 0x7000; 0x6000;
   0x7000; 0x0; 0x0; 0x0; 0x0; 0x202000; 0x0; 0x0;
   0x0; 0x700c0; 0x300e0; 0x3ffbfe0; 0x3ffbff0; 0x39c738; 0x30e61c; 0x30461c].
Definition hanzi_data_319 : list N :=
  [0x2aaab80; 0x3fffb98; 0x2aeab98; 0x60398; 0xaea398; 0x1fff398; 0x1aeb398; 0x1c63398;
   0x1863398; 0x1c63198; 0x1863180; 0x1c63180; 0x18631c0; 0x1f631c0; 0x1e630e0; 0x463070;
   0x60038; 0x60010; 0x0; 0x0; 0x0; 0x0; 0x202000; 0x0;
   0x0; 0x0; 0x700c0; 0x300e0; 0x1579570; 0x3ffbff0; 0x15dd778; 0x38e318;
   0x70471c; 0x6008; 0x7060e0; 0x3860c0; 0x1c61c0; 0xc6380; 0x5d7550; 0xfffff8;
   0xfffff0; 0xe00000; 0xe00000; 0xffffe0; 0xffffe0; 0xe00000; 0xe00000; 0xeaaaa8;
   0xfffff8; 0xeaaaa8; 0xe00000; 0x0; 0x0; 0x0; 0x0; 0x202000;
   0x0; 0x0; 0x0; 0x700e0; 0x300e0; 0x3ffbff0; 0x3ffbff0; 0x39c338;
   0x30ef18; 0x715f1e; 0x7ff08; 0x7ff80; 0x381e0; 0x7ffff0; 0x7ffff8; 0x606010;
   0x606000; 0x7fffffc; 0x3fffffc; 0x606000; 0x606000; 0x7fffe0; 0x7fffe0; 0x6000;
   0x6000; 0x6000; 0x7f00; 0x3f00; 0x0; 0x0; 0x0; 0x0;
   0x202000; 0x0; 0x0; 0x0; 0x700c0; 0x300e0; 0x3ffbfe0; 0x3ffbff0;
   0x39c330; 0x30e338; 0x70471c; 0xc0e8; 0xc0e0; 0x1ffe0e0; 0x1fff0e0; 0x18077fc;
   0x180bffc; 0x181d8e0; 0x1839ce0; 0x18700e0; 0x18600e0; 0x19000e0; 0x1ff07e0; 0x1cf87e0;
   0x1c1f3fc; 0xc0703c; 0xe01004; 0xfe0000; 0x7e0000; 0x0; 0x0; 0x0;
   0x0; 0x202000; 0x0; 0x0; 0x0; 0x700e0; 0x38060; 0x1579570;
   0x3ffbff0; 0x3fffff8; 0x18e3b8; 0x38731c; 0x30630e; 0x1fff1c0; 0x1fff0c0; 0x1dd75d4;
   0x18c3ffc; 0x18c7ffc; 0x18c30c0; 0x18c71c0; 0x1fffec0; 0x1ffffc0; 0x18033fc; 0x71fc;
   0x30c8; 0x70071c0; 0x30030c0; 0x3d571c0; 0x3ffe0f8; 0x1ffc0f0; 0x0; 0x0;
   0x0; 0x0; 0x202000; 0x0; 0x0; 0x0; 0x30060; 0x38060;
   0x3fffff0; 0x3fffff0; 0x15df5f8; 0x38e39c; 0x30730e; 0xe008; 0x7fffc0; 0x6aaac0;
   0x6000c0; 0x6aaac0; 0x7fffc0; 0x6000c0; 0x6000c0; 0x7fffc0; 0xffffc0; 0x1c060c0;
   0x1f0c0c0; 0x3dc0c0; 0x1f80c0; 0xef8e0; 0xfcfff0; 0x3f00fe0; 0x1c00060; 0x0;
   0x0; 0x0; 0x0; 0x202000; 0x0; 0x0; 0x0; 0x300e0;
   0x38060; 0x3ffbff0; 0x3fffff0; 0x15dd5f8; 0x38e318; 0x30731e; 0x2108; 0x7fffc0;
   0x3fffc0; 0x7000c0; 0x3000c0; 0x7555c0; 0x3fffc0; 0x555540; 0x0; 0xfffff0;
   0xfffff0; 0xd55570; 0xc00030; 0xc00070; 0xc00030; 0xfffff0; 0xfffff0; 0xc00070;
   0x0; 0x0; 0x0; 0x0; 0x202000; 0x0; 0x0; 0x0;
   0x700e0; 0x30060; 0x3ffbff0; 0x3ffbff0; 0x1dc3b8; 0x38e31c; 0x30770c; 0xaafaa8;
   0x1fffff8; 0x1fffff8; 0x1800018; 0x1bfffd8; 0x13fffd0; 0x0; 0x0; 0x3fffffc;
   0x3fffffc; 0x30e00; 0x30600; 0x30600; 0x3030700; 0x3030380; 0x3ff01f0; 0x3ff00fc;
   0x1fe001c; 0x0; 0x0; 0x0; 0x0; 0x202000; 0x0; 0x0;
   0x0; 0x700c0; 0x300e0; 0x1571560; 0x3ffbff0; 0x3fffff0; 0x39c338; 0x70e71c;
   0x60660e; 0x1555550; 0x1fffff8; 0x1fffff8; 0x6000; 0x386380; 0x386180; 0x1c61c0;
   0x1c61c0; 0x7c67c0; 0xfe67e0; 0x1e76e70; 0x183ec38; 0x1816018; 0x6000; 0x3fffffc;
   0x3fffffc; 0x0; 0x0; 0x0; 0x0; 0x0; 0x202000; 0x0;
   0x0; 0x0; 0x300e0; 0x38060; 0x3ffbff0; 0x3fffff0; 0x15df5f8; 0x38e39c;
   0x31f71c; 0x18188; 0x1c1c0; 0x2aac2e0; 0x3ffc660; 0x3ffe670; 0xe0f678; 0x60f678;
   0x71fe7e; 0x319e6c; 0x339664; 0x3b0660; 0x1f0660; 0xe0660; 0x3f0660; 0x7bc660;
   0x1f1f860; 0x3c07860; 0x1001860; 0x0; 0x0; 0x0; 0x0; 0x202000;
   0x0; 0x0; 0x0; 0x700c0; 0x300e0; 0x3ffbfe0; 0x3ffbff0; 0x39c338;
   0x30c338; 0x30675c; 0x7860e0; 0x3c63c0; 0xf6780; 0x66600; 0x7fffe0; 0x7fffe0;
   0x700060; 0x755560; 0x7fffe0; 0x755560; 0x700060; 0x7fffe0; 0x7fffe0; 0x700060;
   0x700060; 0x700060; 0x7e0060; 0x3e0060; 0x0; 0x0; 0x0; 0x0;
   0x202000; 0x0; 0x0; 0x0; 0x700c0; 0x300e0; 0x3ffbff0; 0x3ffbff0;
   0x15dc3b8; 0x38e71c; 0x70760c; 0xe001a8; 0x1fff3fc; 0x3ff9a8; 0x651c0; 0x600e0;
   0x1563870; 0x1fe3bf8; 0x1fe3bfc; 0x63b08; 0x63b90; 0x63998; 0x3fff9f0; 0x3fff8f0;
   0x1e0; 0x3f0; 0x7ffff7c; 0x3fffc1e; 0x155000c; 0x0; 0x0; 0x0;
   0x0; 0x202000; 0x0; 0x0; 0x0; 0x700e0; 0x300e0; 0x3ffbff0;
   0x3ffbff0; 0x39c338; 0x38e718; 0x70471c; 0x6388; 0x61c0; 0x7fffc0; 0x7fffe0;
   0x6070; 0x6030; 0x3fffffc; 0x3fffffc; 0x0; 0x0; 0x7fffe0; 0x7fffe0;
   0x6000e0; 0x6000e0; 0x6000e0; 0x7fffe0; 0x7fffe0; 0x6000e0; 0x0; 0x0;
   0x0; 0x0; 0x202000; 0x0; 0x0; 0x0; 0x300e0; 0x38060;
   0x3ffbff0; 0x3fffff0; 0x15df7f8; 0x38e31c; 0x33474c; 0x300e0; 0xfffae0; 0xfffbe8;
   0xd757f8; 0xc306f8; 0xc306fc; 0xc302ec; 0x7fffcec; 0x3fffcec; 0x55754e0; 0xf80e0;
   0xd80e0; 0x1dc0e0; 0x38e0e0; 0x78f0e0; 0x1f07ce0; 0x3c01ee0; 0x3000ce0; 0x0;
   0x0; 0x0; 0x0; 0x202000; 0x0; 0x0; 0x0; 0x700c0;
   0x300e0; 0x3ffbfe0; 0x3ffbff0; 0x19c330; 0x30e338; 0x707f1c; 0xfffff8; 0xfffff8;
   0x1800; 0x7fffe0; 0x7fffe0; 0xc00; 0x3fffffc; 0x3fffffc; 0xc0700; 0x1c0700;
   0xffff80; 0x1ffffc0; 0xc18e0; 0x1c3878; 0xc703c; 0x1c701c; 0xf8000; 0xf0000;
   0x0; 0x0; 0x0; 0x0; 0x202000; 0x0; 0x0; 0x0;
   0x701c0; 0x300e0; 0x3ffbfe0; 0x3fffff0; 0x39c738; 0x30e61c; 0x1555754; 0x3fffffc;
   0x3fffffc; 0x6000; 0xfffff0; 0xeaeae0; 0xe06070; 0xffffe0; 0xfffff0; 0xe06060;
   0xf57570; 0xffffe0; 0x7040; 0x38e0; 0x1fc0; 0xf80; 0x7fffff0; 0x3ffe0fc].
Definition hanzi_data_320 : list N :=
  [0x1d4001c; 0x0; 0x0; 0x0; 0x0; 0x202000; 0x0; 0x0;
   0x0; 0x700c0; 0x300e0; 0x3ffbff0; 0x3ffbff0; 0x39c738; 0x30e61c; 0x3fffdc;
   0x3fffc0; 0x3000c0; 0x3000c0; 0x3fffc0; 0x3fffc0; 0x0; 0xffffe0; 0xfffff0;
   0xe00060; 0xe07070; 0xe06060; 0xe07070; 0xe0f060; 0x47fc70; 0x3f9e00; 0x1fc0ff0;
   0x3e003f8; 0x1800078; 0x0; 0x0; 0x0; 0x0; 0x202000; 0x0;
   0x0; 0x0; 0x300e0; 0x38060; 0x3fffff0; 0x3fffff0; 0x15df5f8; 0x386398;
   0x30e71c; 0x30f30c; 0x1fc00; 0x78e00; 0x1e07c0; 0xf803e0; 0x7fffffc; 0x38fff3c;
   0x2004; 0x703040; 0x7070c0; 0x3861c0; 0x18e180; 0x1cc380; 0xc4300; 0xe0000;
   0x3fffffc; 0x3fffffc; 0x0; 0x0; 0x0; 0x0; 0x0; 0x202000;
   0x0; 0x0; 0x0; 0x700c0; 0x300e0; 0x3ffbfe0; 0x3ffbff0; 0x17dd770;
   0x38e638; 0x70e61c; 0x200268; 0x1fffcf0; 0x1fffdc0; 0x1c001f8; 0x1c000b8; 0x1c7fe38;
   0x1c7fe38; 0x1c60638; 0x1c60638; 0x1c7fe38; 0x1c7fe38; 0x1c60638; 0x1c60638; 0x1c7fe38;
   0x1c7fe38; 0x1c00038; 0xf80038; 0x780038; 0x0; 0x0; 0x0; 0x0;
   0x202000; 0x0; 0x0; 0x0; 0x300e0; 0x38060; 0x3fffff0; 0x3fffff8;
   0x1ce19c; 0x38738e; 0x55554c; 0x7fffe0; 0x757570; 0x606060; 0x7ffff0; 0x7fffe0;
   0x606070; 0x606060; 0x7ffff0; 0x7fffe0; 0x0; 0x3fffffc; 0x3fffffc; 0xe0300;
   0xe0300; 0xe0380; 0xe01f0; 0xe00f8; 0xe0018; 0x0; 0x0; 0x0;
   0x0; 0x202000; 0x0; 0x0; 0x0; 0x300e0; 0x38060; 0x3ffbff0;
   0x3fffff0; 0x15df5f8; 0x38e39c; 0x30735c; 0x2aaa8e8; 0x3fff8e0; 0x18e0; 0x181ffc;
   0x181ffc; 0x1ff98e0; 0x1ff98e0; 0x1999ce0; 0x1999fe0; 0x1999ffc; 0x19998fc; 0x1d998e4;
   0x1f998e0; 0x5818e0; 0x1818e0; 0x15558f0; 0x3fff8f8; 0x7fff878; 0x0; 0x0;
   0x0; 0x0; 0x202000; 0x0; 0x0; 0x0; 0x700c0; 0x300e0;
   0x3ffbff0; 0x2bbebb8; 0x39c73c; 0x30e608; 0x1fffff0; 0xfffff0; 0x6000; 0xffffe0;
   0xfffff0; 0x6000; 0x3fffffc; 0x2aaaaa8; 0x7fffe0; 0x7fffe0; 0x7000e0; 0x7fffe0;
   0x7fffe0; 0x7000e0; 0x7fffe0; 0x7fffe0; 0x7000e0; 0x3e00e0; 0x3e00e0; 0x0;
   0x0; 0x0; 0x0; 0x202000; 0x0; 0x0; 0x0; 0x30060;
   0x38060; 0x3fffff0; 0x3fffff8; 0x38e31c; 0x30730e; 0x157558; 0x3ffff0; 0x755550;
   0x300000; 0x7fffe0; 0x3aaaa0; 0x700000; 0x3fffffc; 0x3fffffc; 0xe060e0; 0x7061e0;
   0x38e380; 0x1fff00; 0xf7f00; 0x7e67e0; 0x3f860fc; 0x1e06038; 0x7e00; 0x7c00;
   0x0; 0x0; 0x0; 0x0; 0x202000; 0x0; 0x0; 0x0;
   0x300e0; 0x38060; 0x1559570; 0x3ffbff0; 0x3fffff8; 0x18e398; 0x38731c; 0x32230c;
   0x70130; 0x300f0; 0x1fff9e0; 0x1fff980; 0x1c01900; 0x180183c; 0x1c0187c; 0x1aab8e0;
   0x1fff940; 0x1fffb00; 0x1c01b80; 0x18019c0; 0x1c018e0; 0x1aab860; 0x1fff878; 0x1fff838;
   0x1c01810; 0x0; 0x0; 0x0; 0x0; 0x202000; 0x0; 0x0;
   0x0; 0x300e0; 0x38060; 0x3fffff0; 0x3fffff0; 0x15df5f8; 0x18739c; 0x18719c;
   0x180188; 0x1fffff8; 0x1fffff8; 0x180180; 0x180180; 0x1fff80; 0x1aab80; 0x180180;
   0x1fff80; 0x1fff80; 0x180180; 0x3fffffc; 0x3fffffc; 0xf0f00; 0x3e0780; 0xfc01f0;
   0x3e000fc; 0x1c00018; 0x0; 0x0; 0x0; 0x0; 0x202000; 0x0;
   0x0; 0x0; 0x300e0; 0x38060; 0x7ffbff0; 0x3fffff0; 0x55df5f8; 0x18e39c;
   0x387b1e; 0xc2188; 0x1c0180; 0xc0180; 0x3fffffc; 0x3fffffc; 0x1e01c0; 0x3e03c0;
   0x7f07e0; 0x6f0fe0; 0xfd9df0; 0xcd99b8; 0x1ddc19c; 0x38ce19c; 0x71c718c; 0xc2184;
   0x1c0180; 0xc0180; 0x1c0180; 0x0; 0x0; 0x0; 0x0; 0x202000;
   0x0; 0x0; 0x0; 0x30060; 0x38060; 0x3fffff0; 0x3fffff8; 0x1ce39c;
   0x38730e; 0x7fffec; 0x7fffe0; 0x6000e0; 0x7fffe0; 0x7fffe0; 0x6000e0; 0x7fffe0;
   0x6aaae0; 0x6000e0; 0x7fffe0; 0x5d5740; 0xc0600; 0x3fffffc; 0x3fffffc; 0x15d5754;
   0xc0380; 0xc01f0; 0xc00f8; 0xc0018; 0x0; 0x0; 0x0; 0x0;
   0x202000; 0x0; 0x0; 0x0; 0x700e0; 0x30060; 0x3ffbff0; 0x3fffff0;
   0x15df5f8; 0x38e39c; 0x70730e; 0x106100; 0x1fffff8; 0x3fffff8; 0x3800018; 0x3830e18;
   0x19f0f18; 0xf803e0; 0x1f001f8; 0x800030; 0x7fffe0; 0x7fffe0; 0x6000; 0x6000;
   0x6000; 0x6000; 0x3fffffc; 0x3fffffc; 0x0; 0x0; 0x0; 0x0;
   0x0; 0x202000; 0x0; 0x0; 0x0; 0x700c0; 0x300e0; 0x3ffbfe0;
   0x3ffbff0; 0x39c370; 0x30e738; 0x70c71c; 0xc0e2c8; 0xc0e0c0; 0xc0e0c0; 0x3fffffc;
   0x3fffffc; 0xc0e0c0; 0xc0e0c0; 0xc0e0c0; 0xeaefc0; 0xffeffc; 0xeae0fe; 0xc0e0dc;
   0xc0e0c0; 0xc0e0c0; 0xeae0c0; 0xffe0c0; 0xffe0f8; 0xc0e078; 0x0; 0x0;
   0x0; 0x0; 0x202000; 0x0; 0x0; 0x0; 0x70060; 0x30060;
   0x3ffbff0; 0x3ffbff8; 0x39c338; 0x30c31c; 0x70771c; 0xaaeaa8; 0x1fffff8; 0x1aaaab8;
   0x1800018; 0x1bfffd8; 0x3fffc0; 0x3000c0; 0x3555c0; 0x3fffc0; 0x1555c0; 0xc0;
   0x7fffc0; 0x7fffc0; 0x6001c0; 0x6000c0; 0x7fffc0; 0x7fffc0; 0x6001c0; 0x0;
   0x0; 0x0; 0x0; 0x202000; 0x0; 0x0; 0x0; 0x700c0;
   0x300e0; 0x3ff3ff0; 0x3ffbff0; 0x19c338; 0x38e71c; 0x70f61c; 0x2aaeaa8; 0x3fffffc;
   0x3aaaaac; 0x380019c; 0x3aa818c; 0x1ffffd4; 0xebbfe0; 0xc1b870; 0xc1b838; 0xc19cdc;
   0xe98dec; 0x798f80; 0x298700; 0x3018780; 0x30181e0; 0x3d580f0; 0x3ff807c; 0x1ff0018;
   0x0; 0x0; 0x0; 0x0; 0x202000; 0x0; 0x0; 0x0;
   0x700e0; 0x30060; 0x3ffbff0; 0x3ffbff8; 0x39c71c; 0x30e60e; 0x1557558; 0x1fffff0].
Definition hanzi_data_321 : list N :=
  [0x6000; 0xffffe0; 0xffffe0; 0x6000; 0x3fffffc; 0x3fffffc; 0x555540; 0x7fffe0;
   0x7555e0; 0x7060e0; 0x7070e0; 0x7070e0; 0x71f0e0; 0xfbc00; 0x7f1fc0; 0x1f003fc;
   0x1c00078; 0x0; 0x0; 0x0; 0x0; 0x202000; 0x0; 0x0;
   0x0; 0x70060; 0x38060; 0x3ffbff0; 0x3fffff8; 0x18e31c; 0x38f30e; 0x155775c;
   0x3fffff0; 0x3fffff0; 0xc030; 0xffffb0; 0xffffb0; 0x31c630; 0x38ce30; 0x1ddc30;
   0x1ffffb0; 0x1fffff0; 0x7e030; 0x1f7030; 0x383e30; 0x701ff0; 0x6003b0; 0x3fffff0;
   0x3fffff0; 0x0; 0x0; 0x0; 0x0; 0x0; 0x202000; 0x0;
   0x0; 0x0; 0x700e0; 0x30060; 0x3ffbff0; 0x3ffbff8; 0x1dc71c; 0x38e60e;
   0x1042ec; 0x1fff8e0; 0x1fff8e0; 0xe0e7fc; 0x7bc7fc; 0x1f00e0; 0x7fc0e0; 0x3fbf8e0;
   0x3ce77e0; 0xe07e0; 0x1fff1fc; 0x1fff0fc; 0xe00e4; 0xe00e0; 0x3fff8e0; 0x2aea8e0;
   0xe00e0; 0xe00f8; 0xe0078; 0x0; 0x0; 0x0; 0x0; 0x202000;
   0x0; 0x0; 0x0; 0x30060; 0x38060; 0x3fffff0; 0x3fffff8; 0x38e31c;
   0x30730e; 0x1fffffc; 0x1fffff8; 0x1d75d78; 0x1830c38; 0x1d75d78; 0x1fffff8; 0x1fffff8;
   0x1c00; 0x7fff00; 0x7fff80; 0x7555f0; 0x3802f8; 0x1c0f10; 0xf3e00; 0x7f800;
   0xf800; 0x7fc0; 0xff8; 0x78; 0x0; 0x0; 0x0; 0x0;
   0x202000; 0x0; 0x0; 0x0; 0x700c0; 0x300e0; 0x3ffbfe0; 0x3ffbff0;
   0x39c770; 0x30e638; 0x7c431c; 0xe0708; 0x70e00; 0x7fffe0; 0x7ffff0; 0x606060;
   0x757570; 0x7fffe0; 0x757570; 0x606060; 0x7ffff0; 0x7fffe0; 0x6000; 0x6000;
   0x3fffffc; 0x3fffffc; 0x6000; 0x6000; 0x6000; 0x0; 0x0; 0x0;
   0x0; 0x202000; 0x0; 0x0; 0x0; 0x700c0; 0x300e0; 0x3ffbff0;
   0x3ffbff0; 0x39c738; 0x30e61c; 0x10621c; 0xffffe0; 0xfffff0; 0xe06000; 0x3fffffc;
   0x3fffff8; 0xe06000; 0xfffff0; 0xfffff0; 0xa06020; 0xe36460; 0xe76e60; 0xe66660;
   0xee6660; 0xec6770; 0xec6330; 0xe463b8; 0xe0601c; 0xe06010; 0x0; 0x0;
   0x0; 0x0; 0x202000; 0x0; 0x0; 0x0; 0x300e0; 0x38060;
   0x3ffbff0; 0x3fffff0; 0x15df5f8; 0x38739c; 0x3e770c; 0xe2600; 0x3fffffc; 0x3fffffc;
   0xe1f00; 0xe1e00; 0x1555d54; 0x3fffffc; 0x3fffffc; 0x700; 0x380; 0xffffc0;
   0xfffff0; 0xe003f8; 0xe003bc; 0xe00388; 0xffff80; 0xffff80; 0xe00380; 0x0;
   0x0; 0x0; 0x0; 0x202000; 0x0; 0x0; 0x0; 0x700c0;
   0x380e0; 0x3ffbff0; 0x3ffbff0; 0x39c738; 0x30e61c; 0x1c418c; 0xe0380; 0x3fffffc;
   0x3fffffc; 0x1555554; 0x800000; 0x1c73ff0; 0xc63ab0; 0x1c73830; 0xc63ff0; 0x1c73ff0;
   0xc63830; 0x1c73830; 0xc63ff0; 0x1c73ff0; 0xc03830; 0x1d43830; 0xfc3e30; 0x781e30;
   0x0; 0x0; 0x0; 0x0; 0x202000; 0x0; 0x0; 0x0;
   0x300e0; 0x38060; 0x1559570; 0x3ffbff0; 0x3fffff8; 0x18e398; 0x38731c; 0x30230e;
   0x1554180; 0x1ffc180; 0x1ffd5d4; 0x180dffc; 0x180dffc; 0x1ffc1c0; 0x1ffc3c0; 0x180c7e0;
   0x180cff0; 0x1aaddb0; 0x1ffd9b8; 0x180c19c; 0x180c18e; 0x180c18c; 0x1ffc180; 0x1ffc180;
   0x180c180; 0x0; 0x0; 0x0; 0x0; 0x202000; 0x0; 0x0;
   0x0; 0x300e0; 0x38060; 0x3ffbff0; 0x3fffff0; 0x1cc1b8; 0x38e39c; 0x3bf31e;
   0xfb8008; 0x1d7d550; 0x3fffff0; 0x3fffff0; 0x30030; 0x1c37fb0; 0xc37fb0; 0xe70030;
   0x667fb0; 0x777fb0; 0x3e61b0; 0x1e71b0; 0x20e61b8; 0x71f7f98; 0x23bff98; 0x779e19c;
   0x3f0f00e; 0x1c0600c; 0x0; 0x0; 0x0; 0x0; 0x202000; 0x0;
   0x0; 0x0; 0x300e0; 0x38060; 0x3fffff0; 0x3fffff0; 0x15df5f8; 0x18739c;
   0x38739c; 0x1c03008; 0xffffe0; 0x7fffe0; 0x3c3000; 0xf3000; 0x3fffffc; 0x3fffffc;
   0x7c00; 0xffff80; 0xfffff0; 0xe003fe; 0xf5571c; 0xffff00; 0xf55700; 0xe00300;
   0xffff00; 0xffff00; 0xe00300; 0x0; 0x0; 0x0; 0x0; 0x202000;
   0x0; 0x0; 0x0; 0x700c0; 0x300e0; 0x3ffbff0; 0x3ffbff0; 0x39c338;
   0x30c31c; 0x30771c; 0x2abaa0; 0x7fffe0; 0x600060; 0x755560; 0x7fffe0; 0x600060;
   0x6aaae0; 0x7fffe0; 0x0; 0xfffff0; 0xfffff0; 0x6000; 0xaaeaa0; 0xfffff0;
   0x6000; 0x1557554; 0x3fffffc; 0x1555554; 0x0; 0x0; 0x0; 0x0;
   0x202000; 0x0; 0x0; 0x0; 0x700c0; 0x300e0; 0x3ffbff0; 0x3ffbff0;
   0x39c738; 0x30c31c; 0x1fff08; 0x1fff80; 0x1c0180; 0xeab80; 0xfffc0; 0xe0000;
   0x3fffffc; 0x3fffffc; 0x407c00; 0xf86fe0; 0x7ef1f8; 0xfde00; 0x1dc7f0; 0x39f8f0;
   0x719f10; 0x1e187e0; 0x3c1c1fc; 0x100f838; 0x7800; 0x0; 0x0; 0x0;
   0x0; 0x202000; 0x0; 0x0; 0x0; 0x30060; 0x38060; 0x3fffff0;
   0x3fffff8; 0x1ce3b8; 0x38631c; 0x10e30e; 0xe020; 0xffffe0; 0xeaaae0; 0xc00060;
   0xc00060; 0xffffe0; 0xffffe0; 0x70; 0x1ffffe0; 0x1fffff0; 0x18631f0; 0x1c631f0;
   0x1ffffb0; 0x1ffffb8; 0x18631b8; 0x1c6319c; 0x1f6318c; 0x1f0018c; 0x0; 0x0;
   0x0; 0x0; 0x202000; 0x0; 0x0; 0x0; 0x700c0; 0x300e0;
   0x3ffbfe0; 0x3ffbff0; 0x39c338; 0x30e61c; 0x1047dc; 0x3ff9c0; 0x3ff8c0; 0x3000e0;
   0x3fffe60; 0x3fffe70; 0x3070; 0xaab878; 0x1fffc7c; 0xabac6c; 0x30e6c; 0x2abaa60;
   0x3ffff60; 0x2afaa60; 0xfc060; 0x3de060; 0x1f8fc60; 0x3e03f60; 0x3800660; 0x0;
   0x0; 0x0; 0x0; 0x202000; 0x0; 0x0; 0x0; 0x700c0;
   0x380e0; 0x3ffbff0; 0x2bbfff8; 0x39c31c; 0x306208; 0x7fffe0; 0x7fffe0; 0x706060;
   0x7fffe0; 0x7fffe0; 0x6000; 0x3fffffc; 0x3fffffc; 0x0; 0x3fffe0; 0x7fffe0;
   0x3060e0; 0x7060e0; 0x3060e0; 0x71f0e0; 0xfbc00; 0x7e1fc0; 0x1e003f8; 0x1c00070].
Definition hanzi_data_322 : list N :=
  [0x0; 0x0; 0x0; 0x0; 0x202000; 0x0; 0x0; 0x0;
   0x30060; 0x38060; 0x3fffff0; 0x3fffff8; 0x1ce39c; 0x38731c; 0x10710c; 0x386080;
   0x3c71c0; 0x1c6380; 0x3fffffc; 0x3fffffc; 0x77f00; 0x3e63c0; 0x3f871fc; 0x1807c38;
   0x1c00; 0x3fffffc; 0x3fffffc; 0xe0380; 0x71fc0; 0x3ffe0; 0x7fff00; 0x3f83ffc;
   0x1c001fc; 0x0; 0x0; 0x0; 0x0; 0x202000; 0x0; 0x0;
   0x0; 0x700c0; 0x300e0; 0x3ffbff0; 0x3ffbff0; 0x19c3b8; 0x38e31c; 0x70770c;
   0xaaeaa8; 0x1fffff8; 0x0; 0x3fffc0; 0x3fffc0; 0x3800c0; 0x3fffc0; 0x3fffc0;
   0x0; 0x1fffff8; 0x1eaaab8; 0x1cfff38; 0x1cfff38; 0x1ce0738; 0x1cfff38; 0x1cfff38;
   0xf80338; 0xf80038; 0x0; 0x0; 0x0; 0x0; 0x202000; 0x0;
   0x0; 0x0; 0x30040; 0x380e0; 0x3fffff0; 0x3fffff0; 0x1ce3b8; 0x187b1c;
   0x15d755c; 0x3fffff8; 0x3fffff8; 0x63038; 0x1577538; 0xfe3fb8; 0x1577538; 0x63038;
   0xff7fb8; 0xfe3fb8; 0x77038; 0xae3ab8; 0x1ff7ff8; 0x63038; 0x77038; 0x63038;
   0x3fffff8; 0x3fffff8; 0x0; 0x0; 0x0; 0x0; 0x0; 0x202000;
   0x0; 0x0; 0x0; 0x30060; 0x38060; 0x7fffff0; 0x3fffff8; 0x1cf19c;
   0x3e778e; 0x62608; 0x1fffff0; 0x1575750; 0xaeaea0; 0xfffff0; 0x60600; 0x3fffffc;
   0x3fffffc; 0x557540; 0x7fffe0; 0x7060e0; 0x7fffe0; 0x7fffe0; 0x7060e0; 0x3fffffc;
   0x2faaae8; 0x7000e0; 0x7f00e0; 0x3e00e0; 0x0; 0x0; 0x0; 0x0;
   0x202000; 0x0; 0x0; 0x0; 0x700c0; 0x300e0; 0x3ffbff0; 0x2bbebb0;
   0x39e73c; 0x3aaab8; 0x7fffe0; 0x6000e0; 0x7fffe0; 0x6000e0; 0x7fffe0; 0x6aaae0;
   0x7555e0; 0x7fffe0; 0x1c00; 0x3fffffc; 0x7fffffc; 0x1e2380; 0x7c79e0; 0x3f218f8;
   0x3c70e3c; 0xe0708; 0x1fffc0; 0x38bf80; 0x300000; 0x0; 0x0; 0x0;
   0x0; 0x202000; 0x0; 0x0; 0x0; 0x30060; 0x38060; 0x7fffff0;
   0x3fffff8; 0x1cf19c; 0x38738e; 0x1557558; 0x1fffff8; 0x1fffffc; 0x30c00; 0xfffff0;
   0xfffff0; 0xc30c30; 0xc30c30; 0xfffff0; 0xfffff0; 0x6000; 0x3fffffc; 0x3fffffc;
   0x3fc00; 0xf7f00; 0x3e67e0; 0x7f861fc; 0x3c0603c; 0x6004; 0x0; 0x0;
   0x0; 0x0; 0x202000; 0x0; 0x0; 0x0; 0x300e0; 0x38060;
   0x3fffff0; 0x3fffff8; 0x18f39c; 0x38730e; 0x10730c; 0xfffff0; 0xfffff0; 0xc70e30;
   0xc1fc70; 0xc3f830; 0xcf9f70; 0xce0730; 0xfffff0; 0xaaaaa0; 0x1c070; 0xe1aae0;
   0x1fffff0; 0xf8060; 0x101c070; 0x301a860; 0x3fffff0; 0x3ff8ff0; 0x1ff0010; 0x0;
   0x0; 0x0; 0x0; 0x202000; 0x0; 0x0; 0x0; 0x700c0;
   0x300e0; 0x3ffbff0; 0x3ffbff0; 0x19c338; 0x70e31c; 0xffd70c; 0xfffe0; 0x55dff0;
   0xffc060; 0x1c070; 0x3fffe60; 0x1ffff70; 0x1a88260; 0xffff70; 0x1808a70; 0x1ffc770;
   0xaa0330; 0x1fe730; 0xfe330; 0x11c6338; 0x3086398; 0x31c719c; 0x3f83dce; 0x1f01c8c;
   0x0; 0x0; 0x0; 0x0; 0x202000; 0x0; 0x0; 0x0;
   0x700e0; 0x30060; 0x3ffbff0; 0x3ffbff8; 0x39c71c; 0x30e70e; 0x37460c; 0x30630;
   0x1ff8630; 0x1ff8630; 0x155c630; 0xcc630; 0x1ce630; 0x386630; 0x704630; 0x200600;
   0x7ffff0; 0xffffe0; 0xf75d70; 0xe30c60; 0xe30c70; 0xe30c60; 0x3fffffc; 0x3fffffc;
   0x0; 0x0; 0x0; 0x0; 0x0; 0x202000; 0x0; 0x0;
   0x0; 0x700e0; 0x30060; 0x3ffbff0; 0x3ffbff8; 0x39e71c; 0x30f62e; 0x374068;
   0xfb0070; 0x1c70ff0; 0x1ff0ff8; 0x1fff01c; 0x6e00e; 0x70ffc; 0x3e60ff8; 0x1ffc0c0;
   0x30ff0c0; 0x38e7ffc; 0x1cc0ffc; 0xfc00c0; 0x3c00c0; 0x1f04c0; 0x63fefc0; 0x771f7e0;
   0x3e020e0; 0x1c00060; 0x0; 0x0; 0x0; 0x0; 0x202000; 0x0;
   0x0; 0x0; 0x300e0; 0x38060; 0x3fffff0; 0x3fffff8; 0x1cf39c; 0x38730e;
   0x1fffffc; 0x1fffff8; 0x570040; 0x339cc0; 0x71fcc0; 0x33f8c0; 0x771fc0; 0x3fffc0;
   0x7fffc0; 0x3000; 0xfffff0; 0xfffff0; 0xc39c30; 0xc30e30; 0xc7ff30; 0xcffe30;
   0xcc0630; 0xf80030; 0x780030; 0x0; 0x0; 0x0; 0x0; 0x202000;
   0x0; 0x0; 0x0; 0x300e0; 0x38060; 0x3ffdff0; 0x3ffdff8; 0x1ce19c;
   0x38f38e; 0x11e71c; 0xffe038; 0x757870; 0x38fee0; 0x1fc5c0; 0x3fe000; 0x7fdff00;
   0x3860efc; 0x1fff8fc; 0xfff8e0; 0x5750e0; 0xfff8e0; 0x700e0; 0x3fffce0; 0x3fffde0;
   0x603f8; 0x7f57f3c; 0x3fffc0c; 0x17fd004; 0x0; 0x0; 0x0; 0x0;
   0x202000; 0x0; 0x0; 0x0; 0x700e0; 0x38060; 0x3ffbff0; 0x3fffff8;
   0x1de33c; 0x38c71c; 0x10620c; 0xaaf9c0; 0x1fffdf0; 0xc30c30; 0x1c70c30; 0xc3fc30;
   0x1c7fc30; 0xc30d30; 0x1ff5df0; 0xfbfcf8; 0x1555438; 0x38c08; 0x38c00; 0x2038e00;
   0x7038700; 0x3038780; 0x3ff83f0; 0x3ff00fc; 0x154001c; 0x0; 0x0; 0x0;
   0x0; 0x202000; 0x0; 0x0; 0x0; 0x300c0; 0x380e0; 0x3fffff0;
   0x3fffff0; 0x1ce3b8; 0x187b1c; 0x1fffffc; 0xfffff0; 0x1c30c70; 0xc30c30; 0x1fffff0;
   0xfffff0; 0x1c6000; 0x386000; 0x3fffff0; 0x3fffff0; 0x70c070; 0x71c0f0; 0x3d83f0;
   0x1f8730; 0x30f0e30; 0x30fe438; 0x33dfc1c; 0x3f83e0c; 0x1f00c0c; 0x0; 0x0;
   0x0; 0x0; 0x202000; 0x0; 0x0; 0x0; 0x300e0; 0x38060;
   0x3ffbff0; 0x3fffff0; 0x15df7f8; 0x38e31c; 0x1e730c; 0xaf0f80; 0x1ff8ffc; 0xe1e1f8;
   0x7171c0; 0x3ba180; 0x1f0ffc; 0x3f8ffc; 0x1df9e0; 0x3fe33e0; 0x3ff07f0; 0x183cfb8;
   0x1e3fddc; 0x77218e; 0x3e01cc; 0x1e0184; 0x7c1c0; 0x1f980; 0x71c0; 0x0;
   0x0; 0x0; 0x0; 0x202000; 0x0; 0x0; 0x0; 0x700e0;
   0x30060; 0x3ffbff0; 0x3ffbff8; 0x39c71c; 0x38e68e; 0x31c6cc; 0x180c0; 0x3ffc1c0].
Definition hanzi_data_323 : list N :=
  [0x3ffeffc; 0x1557ffc; 0x3f060; 0x155b060; 0x1ff8ae0; 0x1ffcfe0; 0xceee0; 0x1c4e70;
   0x3ffee30; 0x3fff630; 0x1e0630; 0x360638; 0x770618; 0x1e3c61c; 0x3c0f7ce; 0x30067c4;
   0x0; 0x0; 0x0; 0x0; 0x202000; 0x0; 0x0; 0x0;
   0x700c0; 0x300e0; 0x3ffbff0; 0x3ffbff0; 0x39c338; 0x30e31c; 0x37771c; 0x33838;
   0x1fff870; 0x1fffce0; 0x70fc0; 0x30000; 0x3fffe54; 0x3fffefc; 0xfc; 0xfff8e0;
   0xfff8e0; 0xc018e0; 0xc018e0; 0xfff8e0; 0xfff9e0; 0x3f8; 0x7f57f3c; 0x3fffc0c;
   0x17fd004; 0x0; 0x0; 0x0; 0x0; 0x202000; 0x0; 0x0;
   0x0; 0x300e0; 0x380e0; 0x3fffff0; 0x3fffff8; 0x18e31c; 0x38671c; 0x3fffe8;
   0x3fffe0; 0x300060; 0x3fffe0; 0x355560; 0x300060; 0xffffe0; 0xf0e060; 0x7ff060;
   0x3fbfe0; 0x3fc07e0; 0x1800000; 0x7fffe0; 0x6baee0; 0x631c60; 0x630c60; 0x3fffffc;
   0x3fffffc; 0x0; 0x0; 0x0; 0x0; 0x0; 0x202000; 0x0;
   0x0; 0x0; 0x700c0; 0x300e0; 0x3ffbff0; 0x3ffbff0; 0x39c338; 0x30e71c;
   0x77478c; 0x30180; 0x33ffc; 0x3ffbffc; 0x3ff8180; 0x1818ba8; 0x19ddff8; 0xccf998;
   0xdc5998; 0xc1998; 0x1c1ff8; 0x1c0be8; 0x3e0fe0; 0x361de0; 0x7739b0; 0xe39198;
   0x3c1c19e; 0x380e184; 0x1004180; 0x0; 0x0; 0x0; 0x0; 0x202000;
   0x0; 0x0; 0x0; 0x300c0; 0x380e0; 0x3fffff0; 0x3fffff0; 0x1cf338;
   0x387b1c; 0x30771c; 0x3fffff0; 0x3fffff0; 0x30c30; 0x70c30; 0x1fffff0; 0x1fffff0;
   0x1830c30; 0x1c70c30; 0x1fffff0; 0x1fffff0; 0x8303b8; 0x1f37f98; 0x3f7f98; 0x1070398;
   0x3030398; 0x3037f9c; 0x3ffff8e; 0x1fc0184; 0x0; 0x0; 0x0; 0x0;
   0x202000; 0x0; 0x0; 0x0; 0x700c0; 0x300e0; 0x3ffbfe0; 0x3ffbff0;
   0x39c738; 0x30e618; 0x74de7c; 0xc0860; 0xc7ffc; 0xc7ffc; 0x3ffdc60; 0x3ff8fe0;
   0x38c1740; 0x38c2ba8; 0x18c7ff8; 0x18e3318; 0x1867318; 0x1863ff8; 0x1877ff8; 0x1830300;
   0x1837ffc; 0x183aba8; 0x1fdc300; 0xf8e300; 0x784300; 0x0; 0x0; 0x0;
   0x0; 0x202000; 0x0; 0x0; 0x0; 0x700c0; 0x300e0; 0x3ffbff0;
   0x3fffff0; 0x15dd7f8; 0x38e31c; 0x110470c; 0x1e00608; 0x3ff66d8; 0xf26d8; 0x337d8;
   0x33798; 0x3ff7ff8; 0x3ff7ff8; 0x3ff0f18; 0x631f18; 0x633798; 0x6366d8; 0x6326f8;
   0x630658; 0x630618; 0x638018; 0x61fff8; 0x61bff8; 0x618000; 0x0; 0x0;
   0x0; 0x0; 0x202000; 0x0; 0x0; 0x0; 0x70060; 0x30060;
   0x3ffbff0; 0x3ffbff8; 0x31e39c; 0x70e30e; 0x60730c; 0x1fffff8; 0x1fffffc; 0xc30e30;
   0xe70770; 0x7eabe0; 0x7fffc0; 0xf801f8; 0x3dd55fc; 0x11fff88; 0x180180; 0x180180;
   0x1fff80; 0x86080; 0x1c61c0; 0x3860e0; 0x706070; 0xe07e38; 0x407c10; 0x0;
   0x0; 0x0; 0x0; 0x202000; 0x0; 0x0; 0x0; 0x30060;
   0x38060; 0x3fffff0; 0x3fffff8; 0x1cf39c; 0x38630e; 0x1fffffc; 0x1fffff8; 0x575d50;
   0xfffff0; 0x1c30c30; 0xfffff0; 0x1fffff0; 0xaaaaa0; 0xfffff0; 0xe00060; 0xfffff0;
   0xeaaae0; 0xfffff0; 0xffffe0; 0x6000; 0x3fffffc; 0x3fffffc; 0x6000; 0x6000;
   0x0; 0x0; 0x0; 0x0; 0x202000; 0x0; 0x0; 0x0;
   0x30060; 0x38060; 0x3fffff0; 0x3fffff8; 0x38f39c; 0x37730e; 0x1e710c; 0x3fffff8;
   0x3fffffc; 0x6000; 0xfffff0; 0xe06030; 0xfffff0; 0xfffff0; 0xe07070; 0xfffff0;
   0xe07070; 0xe06030; 0x7ffff0; 0x7fffe0; 0x639c70; 0x638c60; 0x7fffffc; 0x3fffffc;
   0x0; 0x0; 0x0; 0x0; 0x0; 0x202000; 0x0; 0x0;
   0x0; 0x700c0; 0x300e0; 0x3ffbff0; 0x3ffbff0; 0x39c338; 0x30e71c; 0x10621c;
   0x399ff8; 0x1d9ff8; 0x8f1c10; 0x1c70e78; 0xffffe0; 0x3fffc0; 0xf000f0; 0x7fffffe;
   0x3bfffcc; 0x3801c0; 0x3800c0; 0x3fffc0; 0x3fffc0; 0xe0700; 0x60600; 0x3fffffc;
   0x3fffffc; 0x1555554; 0x0; 0x0; 0x0; 0x0; 0x202000; 0x0;
   0x0; 0x0; 0x700c0; 0x380e0; 0x3ffbff0; 0x3fffff8; 0x38e71c; 0x32620c;
   0x60700; 0x1fffff8; 0x1fffff8; 0x60600; 0x3fffffc; 0x3fffffc; 0x6000; 0x2aeaa0;
   0x7fffe0; 0x606060; 0x7fffe0; 0x7fffe0; 0x606060; 0x6aeae0; 0x7fffe0; 0xe0600;
   0x7f07f0; 0x3f000fc; 0x1c00018; 0x0; 0x0; 0x0; 0x0; 0x202000;
   0x0; 0x0; 0x0; 0x30060; 0x38060; 0x3fffff0; 0x3fffff8; 0x18f31c;
   0x386308; 0x3fffff8; 0x3fffff8; 0x318318; 0x2bbabb8; 0x3fffff8; 0x3807c0; 0x67c36e0;
   0x2af3e78; 0x3f7cf3c; 0x8008; 0x7fffe0; 0x6aaae0; 0x600060; 0x7fffe0; 0x7fffe0;
   0x600060; 0x7fffe0; 0x7fffe0; 0x600060; 0x0; 0x0; 0x0; 0x0;
   0x202000; 0x0; 0x0; 0x0; 0x300e0; 0x38060; 0x7fffff0; 0x3fffff8;
   0x15df7f8; 0x38731c; 0x34770c; 0xe0330; 0x1fff330; 0x1fff330; 0x1863330; 0x1aeb330;
   0x1fffff0; 0x1863ff0; 0x1863030; 0x1fff030; 0x1fff3f0; 0x3b83b8; 0x39c318; 0x2baeb18;
   0x7fffb18; 0x2baab18; 0x38031c; 0x38030e; 0x380304; 0x0; 0x0; 0x0;
   0x0; 0x202000; 0x0; 0x0; 0x0; 0x300e0; 0x38060; 0x3fffff0;
   0x3fffff8; 0x1ce39c; 0x38730e; 0x186d3c; 0x180c30; 0x1fffffc; 0x3fffffc; 0x35dcc30;
   0x398ceb0; 0x199cff0; 0xffcc30; 0x1ffcd70; 0x182cff0; 0x1c7cd70; 0xcecc30; 0xecfffc;
   0x78fffc; 0x78c670; 0x78ee30; 0x1ff7c38; 0x387e81c; 0x303600c; 0x0; 0x0;
   0x0; 0x0; 0x202000; 0x0; 0x0; 0x0; 0x300c0; 0x380e0;
   0x3fffff0; 0x3fffff0; 0xce3b8; 0x58731c; 0x1ff770c; 0x3fffe10; 0x3fffe78; 0x301e0;
   0x1fffcc0; 0x1830c00; 0x1fffc0c; 0x1fffc3c; 0x1c71cf8; 0x1fffc60; 0x1c71d80; 0x1b30d80;
   0x17555c0; 0x3ffffe0; 0x1755d70; 0x303830; 0x307038; 0x3e6018; 0x3e0010; 0x0].
Definition hanzi_data_324 : list N :=
  [0x0; 0x0; 0x0; 0x202000; 0x0; 0x0; 0x0; 0x300e0;
   0x38060; 0x3fffff0; 0x3fffff8; 0x1cf39c; 0x387b0e; 0x11e16c; 0x3fff860; 0x3fe3c60;
   0x3988860; 0x199dffc; 0x1998bfc; 0x19ffc60; 0x1ff7c60; 0x1e71c60; 0x3e0; 0x1fffbfc;
   0x1aeb87e; 0x1c61864; 0x1fff860; 0x1fff860; 0x1861860; 0x1fff860; 0x1fff87c; 0x1c01878;
   0x0; 0x0; 0x0; 0x0; 0x202000; 0x0; 0x0; 0x0;
   0x30060; 0x38060; 0x3fffff0; 0x3fffff8; 0x1ce31c; 0x3a730e; 0x160188; 0x7e0180;
   0xff3ffc; 0x63aba8; 0x71c180; 0x1fffff8; 0x1fffffc; 0x1819988; 0x199999c; 0x1999ff8;
   0x1999ffc; 0x19983e0; 0x19d8fe0; 0x1bd9db0; 0x7c19b8; 0xee019c; 0x3c7818e; 0x783e184;
   0x300e180; 0x0; 0x0; 0x0; 0x0; 0x202000; 0x0; 0x0;
   0x0; 0x700c0; 0x300e0; 0x3ffbfe0; 0x3ffbff0; 0x15dd778; 0x38e638; 0x6347dc;
   0x6300c8; 0x3ffeffc; 0x3ffeff8; 0x6301c0; 0x630ff8; 0x3fffff8; 0x3fff0c0; 0x1ffc;
   0xaa8ffc; 0x1ffc1c0; 0x180c3e0; 0x1c0c7f0; 0x1ffcef0; 0x1ffddd8; 0x180c8dc; 0x1ffc1cc;
   0x1ffc0c4; 0x1c0c1c0; 0x0; 0x0; 0x0; 0x0; 0x202000; 0x0;
   0x0; 0x0; 0x70060; 0x38060; 0x7ffbff0; 0x3fffff8; 0x1de19c; 0x38738e;
   0x11f90c; 0x39e00; 0x1f0f80; 0xffffe0; 0x7fffffe; 0x300001c; 0x7fffe0; 0x479a20;
   0x7fffe0; 0x7ffbe0; 0x555550; 0xffffe0; 0xd75d70; 0xc30c60; 0xfffff0; 0xffffe0;
   0xc30c70; 0xfb0c60; 0x780070; 0x0; 0x0; 0x0; 0x0; 0x202000;
   0x0; 0x0; 0x0; 0x6000; 0x6000; 0x1c06070; 0xe06070; 0x7060e0;
   0x7060e0; 0x3861c0; 0x386180; 0x1c6180; 0x6000; 0x3fffffc; 0x3fffffc; 0x3fffffc;
   0x3f800; 0x7fc00; 0x76e00; 0xe6700; 0x1c6380; 0x7861c0; 0xf060e0; 0x1e06070;
   0x3c0603c; 0x380601c; 0x6008; 0x6000; 0x0; 0x0; 0x0; 0x0;
   0x202000; 0x0; 0x0; 0x0; 0x1800; 0x3800; 0xf000; 0x1f000;
   0x7bc00; 0xe0e00; 0x3c0780; 0xf803e0; 0x7e060fc; 0x39861bc; 0x1861c0; 0x1c6380;
   0xc6700; 0x6200; 0x3fffffc; 0x3fffffc; 0x1fc00; 0x3ee00; 0xf6f00; 0x3e6380;
   0x7861e0; 0x3e060f8; 0x3c0603c; 0x6008; 0x6000; 0x0; 0x0; 0x0;
   0x0; 0x202000; 0x0; 0x0; 0x0; 0x106000; 0x7060e0; 0x3861c0;
   0x1c6380; 0x1c6300; 0x3fffffc; 0x3fffffc; 0x2abfaa8; 0x7fc00; 0x1e6f00; 0x7c67c0;
   0x1f061f0; 0x1c0607c; 0x1006018; 0x7000; 0x6000; 0x3fffffc; 0x3fffffc; 0x1f800;
   0x39c00; 0x79e00; 0x1e0f80; 0x1fc07f4; 0x3f800fc; 0x1c0001c; 0x0; 0x0;
   0x0; 0x0; 0x202000; 0x0; 0x0; 0x0; 0xe00c0; 0xe00c0;
   0xe0ccc; 0xe0ecc; 0xe06dc; 0xe06d8; 0x18e37d8; 0x18e33d8; 0x18e30c0; 0x18e3ffc;
   0x18e3ffc; 0x18e3ae8; 0x18e30e0; 0x18e31e0; 0x18e33f0; 0x18e33f8; 0x18e36d8; 0x18e32d8;
   0x18e30dc; 0x18e30ce; 0x18e30c4; 0x1fff0c0; 0x1fff0c0; 0x18000c0; 0x18000c0; 0x0;
   0x0; 0x0; 0x0; 0x202000; 0x0; 0x0; 0x0; 0xc0;
   0xc0; 0x1fffccc; 0x3ffeccc; 0x1c00cdc; 0xe00ed8; 0x7006d8; 0x3802d8; 0x1c00c0;
   0xc0ffc; 0x1c0ffc; 0x2aeaae8; 0x7fff0e0; 0x3fff1e0; 0x1c03f0; 0xc07f0; 0x1c0ef8;
   0xc0cd8; 0x1c04dc; 0xc00ce; 0x1c00c4; 0xc00c0; 0x1c00c0; 0xfc0c0; 0x7c0c0;
   0x0; 0x0; 0x0; 0x0; 0x202000; 0x0; 0x0; 0x0;
   0x3000c0; 0x3380c0; 0x338ccc; 0x318ecc; 0x71c6dc; 0x61c6d8; 0xe1c7d8; 0xc0e3d8;
   0x1c070c0; 0x3807ffc; 0x7557ffc; 0x2fff2e8; 0xffe0e0; 0xc301e0; 0xc303f0; 0xc387f8;
   0xc386d8; 0xc186d8; 0xc1c4dc; 0xe1c0ce; 0xe0c0c4; 0xe0e0c0; 0x7470c0; 0x7e38c0;
   0x3c10c0; 0x0; 0x0; 0x0; 0x0; 0x202000; 0x0; 0x0;
   0x0; 0xe0; 0xe0; 0x3fffcec; 0x3fffeec; 0x38c76fc; 0x38c36f8; 0x38c77f8;
   0x38c33f8; 0x38c70e0; 0x38c37fc; 0x38c77fc; 0x38c30e0; 0x3fff1e0; 0x3fff1f0; 0x3d573f0;
   0x38037f8; 0x76f8; 0x36f8; 0x10070ec; 0x60030ec; 0x70070e4; 0x30030e0; 0x3fff0e0;
   0x3ffe0e0; 0x5540e0; 0x0; 0x0; 0x0; 0x0; 0x202000; 0x0;
   0x0; 0x0; 0x700e0; 0x600e0; 0x60cec; 0xe0eec; 0x406fc; 0x3fff6f8;
   0x3fff7f8; 0x3f8; 0x4040e0; 0xe0e7fc; 0xe0c7fc; 0xe0c0e0; 0x60c1e0; 0x60c1f0;
   0x61c3f0; 0x6187f8; 0x71c6f8; 0x3186f8; 0x3180ec; 0x3180ec; 0x3980e4; 0x1800e0;
   0x7fffce0; 0x3fff8e0; 0xe0; 0x0; 0x0; 0x0; 0x0; 0x202000;
   0x0; 0x0; 0x0; 0xe00c0; 0x600c0; 0x60ccc; 0x60ccc; 0x706dc;
   0x1ffe6d8; 0x1fff6d8; 0x18062d8; 0x18070c0; 0x1806ffc; 0x1807ffc; 0x18060e0; 0x18071e0;
   0x1ffe3e0; 0x1fff7f0; 0x18066f0; 0x1807ed8; 0x18064d8; 0x18074dc; 0x18060cc; 0x18070c4;
   0x1ffe0c0; 0x1fff0c0; 0x1aae0c0; 0x18070c0; 0x0; 0x0; 0x0; 0x0;
   0x202000; 0x0; 0x0; 0x0; 0x1c0; 0xffc0c0; 0xffddcc; 0xc0ccc8;
   0xc0cdd8; 0xc0ccd8; 0xc0c7d8; 0xc0c6f8; 0xffc5c0; 0xffcffc; 0xc0dffc; 0xc0c0e0;
   0xc0c1e0; 0xc0c3e0; 0xc0c7f0; 0xffcef0; 0xffddf8; 0xc0ccd8; 0xc0c1dc; 0xc0c0cc;
   0xc0c1cc; 0xc0c0c0; 0x7fffdc0; 0x3fff8c0; 0x1c0; 0x0; 0x0; 0x0;
   0x0; 0x202000; 0x0; 0x0; 0x0; 0xe01c0; 0xe0180; 0xe19cc;
   0xe198c; 0xe1ddc; 0x2ae0d98; 0x7fe0dd8; 0x3fe07b8; 0xe05c0; 0xe1ffc; 0xe1ffc;
   0xe0be8; 0xe01c0; 0x3ffe3e0; 0x3ffe7f0; 0x3806fb0; 0x3807df8; 0x3806998; 0x38069dc;
   0x380618e; 0x38061c4; 0x3aae180; 0x3ffe1c0; 0x3ffe180; 0x38061c0; 0x0; 0x0;
   0x0; 0x0; 0x202000; 0x0; 0x0; 0x0; 0x6000; 0x606060;
   0x606060; 0x7fffe0; 0x7fffe0; 0x6000; 0x1c06038; 0x1806038; 0x1fffff8; 0x1fffff8].
Definition hanzi_data_325 : list N :=
  [0x4000; 0x3060e0; 0x3861c0; 0x186380; 0x1c6300; 0x3fffffc; 0x3fffffc; 0x3f800;
   0x77e00; 0xe6780; 0x7c63c0; 0xf860f8; 0x7e0607c; 0x1806008; 0x6000; 0x0;
   0x0; 0x0; 0x0; 0x202000; 0x0; 0x0; 0x0; 0xc0;
   0x3ffe0c0; 0x7fffccc; 0x6ecc; 0x76dc; 0x66d8; 0x7fff7d8; 0x3ffe3d8; 0x15f70c0;
   0xe6ffc; 0xe7ffc; 0xe6ae8; 0x3fe71e0; 0x3fe61e0; 0x38673f0; 0x38636f8; 0x18676d8;
   0x18634d8; 0x18730dc; 0x18338ce; 0x18318c4; 0x18398c0; 0x1c1dcc0; 0x1f9cec0; 0xf0ccc0;
   0x0; 0x0; 0x0; 0x0; 0x202000; 0x0; 0x0; 0x0;
   0xe0; 0xe0; 0x3fffeec; 0x3fffeec; 0x1b86fc; 0x1b82f8; 0x1b83f8; 0x2bbabf8;
   0x3fff8e0; 0x3fffffc; 0x39b3ffc; 0x39b38e0; 0x39938f0; 0x39938f0; 0x39939f0; 0x399bbf8;
   0x399bff8; 0x3f8bae8; 0x3f0faec; 0x38078ee; 0x38038e4; 0x3fff8e0; 0x3fff8e0; 0x38038e0;
   0x38038e0; 0x0; 0x0; 0x0; 0x0; 0x202000; 0x0; 0x0;
   0x0; 0x0; 0x3fffffc; 0x3fffffc; 0x30c00; 0x30c00; 0xfffff0; 0xfffff0;
   0xc30c30; 0xc30c30; 0xc30c30; 0xfffff0; 0xfffff0; 0x106080; 0x3861c0; 0x186380;
   0x1c6380; 0x3fffffc; 0x3fffffc; 0x3fc00; 0x7ee00; 0x1e6780; 0x7c63e0; 0x7f060fc;
   0x3c0603c; 0x100600c; 0x0; 0x0; 0x0; 0x0; 0x202000; 0x0;
   0x0; 0x0; 0xe000; 0x6000; 0x7078; 0x3fff1f8; 0x1fff9c0; 0x1861c00;
   0x1c70e00; 0xc78200; 0x1fc7c0; 0x78e1f8; 0x1f0787c; 0x3c03e0c; 0x1106cc0; 0x3861c0;
   0x1c61c0; 0xc6380; 0x3fffffc; 0x3fffffc; 0x3fc00; 0x76e00; 0x1e67c0; 0xf863e0;
   0x7f060fe; 0x380603c; 0x6000; 0x0; 0x0; 0x0; 0x0; 0x202000;
   0x0; 0x0; 0x0; 0x7000; 0x3800; 0xfffff0; 0xffffe0; 0xee6770;
   0xe36e20; 0xfffff0; 0xefffa0; 0xe3fc70; 0xef6e20; 0xec67f0; 0xffffe0; 0xfffff0;
   0x0; 0x3fffffc; 0x3fffffc; 0x180; 0x180; 0x7fffc0; 0x7fffc0; 0x700000;
   0x300000; 0x304000; 0x3f8000; 0x1f8000; 0x0; 0x0; 0x0; 0x0;
   0x202000; 0x0; 0x0; 0x0; 0x1547000; 0x3fc61fc; 0x3ff77fc; 0x3836780;
   0x3837dc0; 0x3836d80; 0x3817dc0; 0x3f9edfc; 0x3f975fc; 0x18600c; 0x1ffe0c; 0xbfe0c;
   0x1cf00c; 0x3fcf9fc; 0x3fdf9fc; 0x381e980; 0x3037dc0; 0x3836e80; 0x38377c0; 0x38067c0;
   0x18073c0; 0x18062c0; 0x1d070d4; 0x1f860fc; 0xf8707c; 0x0; 0x0; 0x0;
   0x0; 0x202000; 0x0; 0x0; 0x0; 0x106000; 0x3060e0; 0x3861c0;
   0x1c6380; 0x15d7754; 0x3fffffc; 0x3fffffc; 0x3fc00; 0x1f6f00; 0x7c63e0; 0x3f061fc;
   0x18e2738; 0xe0700; 0xfffff0; 0x1fffff0; 0xe0700; 0xe0700; 0xe0700; 0x3fffffc;
   0x3fffffc; 0x70400; 0x3f0f80; 0x1fc07f0; 0x3e000fc; 0x100001c; 0x0; 0x0;
   0x0; 0x0; 0x202000; 0x0; 0x0; 0x0; 0x700c0; 0xe00c0;
   0xc1cdc; 0x1ffecd8; 0x1ffecd8; 0x18066d8; 0x1c066d0; 0x18062f0; 0x1ffe0c0; 0x1ffeffc;
   0x1c06ffc; 0x18060e0; 0x1ffe1e0; 0x1ffe3e0; 0x1ffe7f0; 0x18c6ef0; 0x3dc6cf8; 0xf864d8;
   0x7860dc; 0x3060ce; 0x7460cc; 0xef60c0; 0x7c7f0c0; 0x381f0c0; 0x70c0; 0x0;
   0x0; 0x0; 0x0; 0x202000; 0x0; 0x0; 0x0; 0x70;
   0x3ff8f8; 0x3ffdc0; 0xb18088; 0xf1cc3c; 0x1f0cc78; 0x1b0c660; 0x3b0e640; 0x33073e0;
   0x3387060; 0x3d3c70; 0x1f1e38; 0xf6e1c; 0x38618c; 0x386380; 0x1c6380; 0x15d7754;
   0x3fffffc; 0x3fffffc; 0x3ee00; 0x1f6780; 0x3c63e0; 0x7f061fc; 0x3c0603c; 0x100600c;
   0x0; 0x0; 0x0; 0x0; 0x202000; 0x0; 0x0; 0x0;
   0x700; 0x200; 0x3ffff00; 0x1ffbee0; 0x1c00760; 0xe1bfe0; 0xf7fff0; 0x7e3838;
   0x3c1c7c; 0xfe0ee8; 0x1e7c7c0; 0x383c3e0; 0x10041fc; 0x3860bc; 0x3861c0; 0x1c6380;
   0x15d7754; 0x3fffffc; 0x3fffffc; 0x7ee00; 0x1f6780; 0x7c63e0; 0x7f061fe; 0x3c0603c;
   0x1006000; 0x0; 0x0; 0x0; 0x0; 0x202000; 0x0; 0x0;
   0x0; 0xe0; 0x2e0; 0x3fffeec; 0x3fffeec; 0xe06fc; 0xe02f8; 0x3fff3f8;
   0x3fff3f8; 0x38e30e0; 0x38e37fc; 0x3fff7fc; 0x3fff0e0; 0x38e31f0; 0x38e31f0; 0x3fff3f0;
   0x3fff6f8; 0x63ef8; 0x674ec; 0x760ec; 0x3e0ee; 0x3c0e4; 0xfe0e0; 0x1fefce0;
   0x3f83ee0; 0x3c01ee0; 0x0; 0x0; 0x0; 0x0; 0x202000; 0x0;
   0x0; 0x0; 0xe00c0; 0xc00c0; 0x1c0ccc; 0x3fffecc; 0x3fff6dc; 0x2aaa6d8;
   0xe1c7d8; 0x60c3d8; 0x70c0c0; 0x70effc; 0xf9effc; 0x1fbfae8; 0x39d30e0; 0x30c39e0;
   0xe13f0; 0x2aeaff8; 0x7fffed8; 0x3fffad8; 0xe00dc; 0xe00ce; 0xe00c4; 0xe00c0;
   0xe00c0; 0xe00c0; 0xe00c0; 0x0; 0x0; 0x0; 0x0; 0x202000;
   0x0; 0x0; 0x0; 0x4710; 0x398e638; 0x1987770; 0x1983ee0; 0x19d5754;
   0x8dfffc; 0xcdfffc; 0xcc1fc0; 0xe677e0; 0x66e678; 0x66471e; 0x22262c; 0x776070;
   0x666030; 0xe7fff0; 0xcdffb8; 0x1cc6d9c; 0x18c6d8e; 0x19c6df4; 0x39aece0; 0x31bfee0;
   0x3386060; 0x7306070; 0x230603c; 0x6018; 0x0; 0x0; 0x0; 0x0;
   0x202000; 0x0; 0x0; 0x0; 0x700e0; 0xe00e0; 0xe06ec; 0x3fffeec;
   0x3fffefc; 0x3803ae8; 0x3803bf8; 0x3803bf8; 0xffe0e0; 0xffe7fc; 0x7fc; 0x2e8;
   0x15550f0; 0x3fff8f0; 0x3fff9f0; 0xe03f8; 0x4e67f8; 0xce66f8; 0x1ce70fc; 0x18e30ee;
   0x38e38e4; 0x30e1ce0; 0x10e1ce0; 0xf80e0; 0x780e0; 0x0; 0x0; 0x0;
   0x0; 0x202000; 0x0; 0x0; 0x0; 0xe00e0; 0xe00e0; 0x3fff6ec;
   0x3fff6ec; 0xe07fc; 0xaea3f8; 0x1fff3f8; 0xe01f8; 0x15f50e0; 0x3fffbfe; 0x7fffffe;
   0xe0; 0x1ffe0f0; 0x1ffe1f0; 0x1c063f0; 0x1aae3f8; 0x1ffe7f8; 0x18062f8; 0x1c060ec;
   0x1ffe0ee; 0x1ffe0e4; 0x18060e4; 0x1c060e0; 0x1f860e0; 0xf060e0; 0x0; 0x0].
Definition hanzi_data_326 : list N :=
  [0x0; 0x0; 0x202000; 0x0; 0x0; 0x0; 0xc0; 0xaaa0c0;
   0x1fffccc; 0x1aebecc; 0x18e76dc; 0x18e36d8; 0x1fff7d8; 0x1fff3d8; 0x18e70c0; 0x18e3ffc;
   0x1fffffc; 0x1fffae8; 0xe00e0; 0xe01e0; 0x3fffbf0; 0x3fffff8; 0x1f06d8; 0x3f86d8;
   0x7fc4dc; 0xeee0ce; 0x1ce70c4; 0x38e38c0; 0x70e1cc0; 0x20e08c0; 0xe00c0; 0x0;
   0x0; 0x0; 0x0; 0x202000; 0x0; 0x0; 0x0; 0x70060;
   0x70060; 0x3bc66c; 0x71c66c; 0xfff67c; 0x1fff278; 0x187f378; 0x70378; 0x3fff860;
   0x3fffbfc; 0x71c7fc; 0xe0e2e8; 0x3cc78f0; 0x38e3df0; 0x3078df0; 0x71e378; 0x3cf778;
   0x8e226c; 0x1c7c06c; 0xe1e06e; 0x7c6064; 0x1e0060; 0x7c060; 0x3f060; 0x7060;
   0x0; 0x0; 0x0; 0x0; 0x202000; 0x0; 0x0; 0x0;
   0xe0; 0xffe0e0; 0xffe6ec; 0x7186ec; 0x1f86fc; 0xe02e8; 0x7fffbf8; 0x3fffbf8;
   0x19f80e0; 0x189c7fc; 0xdcf7fc; 0xf7ae8; 0xf10f0; 0xe00f0; 0xe01f0; 0x2aeabf8;
   0x3fffff8; 0x2bfaef8; 0x3f80fc; 0x7fc0ee; 0xefe0e4; 0x3ce70e0; 0x78e3ce0; 0x20e18e0;
   0xe00e0; 0x0; 0x0; 0x0; 0x0; 0x202000; 0x0; 0x0;
   0x0; 0x6060; 0xff6060; 0xff676c; 0xc0736c; 0xc0336c; 0xc03b68; 0x3fff978;
   0x3ffbdf8; 0x1577d60; 0x63ffc; 0x73ffc; 0x1ff3860; 0x1ffb8f0; 0x39b8f0; 0x39f9f0;
   0x38bbf8; 0x3fffb78; 0x3fff868; 0x38386c; 0x78386e; 0x6c3864; 0xee3860; 0x1c73860;
   0x383f860; 0x101b860; 0x0; 0x0; 0x0; 0x0; 0x202000; 0x0;
   0x0; 0x0; 0x60; 0x3fff860; 0x3ffff6c; 0x306226c; 0x186636c; 0xfe6368;
   0xfe7378; 0x6f178; 0x7f160; 0x3ffbbfc; 0x3fc1ffc; 0x860; 0x1fff070; 0x1ffe0f0;
   0x1c071f0; 0x1ffe3f8; 0x1fff778; 0x1806268; 0x1c0706c; 0x1ffe06e; 0x1fff064; 0x1806060;
   0x1c07060; 0x1f86060; 0xf07060; 0x0; 0x0; 0x0; 0x0; 0x202000;
   0x0; 0x0; 0x0; 0x6060; 0x3f86060; 0x3f8676c; 0x318636c; 0x318636c;
   0x31aeb68; 0x31ffd78; 0x3bae9f8; 0x3f86160; 0x3b863fc; 0x31863fc; 0x3186060; 0x31bfcf0;
   0x31bfcf0; 0x3fb1df0; 0x3fb0ff8; 0x31f1f78; 0x30b0c68; 0x31f1c6c; 0x30fac6e; 0x30ffc64;
   0x30ffc60; 0x30e1c60; 0x3e60860; 0x1e60060; 0x0; 0x0; 0x0; 0x0;
   0x202000; 0x0; 0x0; 0x0; 0x70e060; 0x306060; 0x77f66c; 0xf7f66c;
   0x1f6367c; 0x1b33a78; 0x3f37f78; 0x333ef78; 0x71c060; 0x31c3fc; 0x77f7fc; 0x3fe3ae8;
   0x3fc1ef0; 0xdf0; 0x1fff1f0; 0x1fff378; 0x1c03778; 0x180326c; 0x1fff06c; 0x1fff06e;
   0x1c03064; 0x1803060; 0x1fff060; 0x1fff060; 0x1c03060; 0x0; 0x0; 0x0;
   0x0; 0x202000; 0x0; 0x0; 0x0; 0x606060; 0xe06060; 0x70e76c;
   0x30c36c; 0x31c36c; 0x3ffff68; 0x7fffd7c; 0x3021e8; 0x707160; 0x3033fe; 0x13933fe;
   0x39bbae8; 0x19d9870; 0x1fdfcf0; 0xfdfdf0; 0xeccdf8; 0x60637c; 0x60636c; 0x1b1b16c;
   0x3b9b86e; 0x3199c64; 0x3fffc60; 0x7fffe60; 0x2070460; 0x10060; 0x0; 0x0;
   0x0; 0x0; 0x202000; 0x0; 0x0; 0x0; 0x71c060; 0x318060;
   0x71c66c; 0x3fffa6c; 0x3fffb7c; 0x318368; 0x71c378; 0x3fffb78; 0x3fffc60; 0xc3fc;
   0xe7fc; 0x1ffe2e8; 0x1fff070; 0x18c78f0; 0x18c7ff0; 0x1ffe3f8; 0x1ffe778; 0x18c6268;
   0x18c606c; 0x1ffe06e; 0x1ffe064; 0x18c6060; 0x18c6060; 0x1ec6060; 0x1c46060; 0x0;
   0x0; 0x0; 0x0; 0x202000; 0x0; 0x0; 0x0; 0xc0c0e0;
   0xe0c2e0; 0x61c6ec; 0x6186ec; 0x3fff6fc; 0x3fff2f8; 0x3fff3f8; 0xe03f8; 0xe00e0;
   0xaea7fc; 0x1fff7fc; 0x1fff0e0; 0xe01f0; 0xe03f0; 0xe07f0; 0x3fffef8; 0x7fffaf8;
   0xec; 0x1dd30ec; 0x199b0ee; 0x199b8e4; 0x39998e0; 0x3339ce0; 0x3338ce0; 0x3110ce0;
   0x0; 0x0; 0x0; 0x0; 0x202000; 0x0; 0x0; 0x0;
   0x70060; 0xe0060; 0x1c066c; 0x3fffa6c; 0x3fffb6c; 0xc1b68; 0x15d5b7c; 0x1ffd9f8;
   0x1ffd860; 0x18c1bfc; 0x7fffffc; 0x3fffae8; 0x19c1870; 0x1ae98f0; 0x1ffd9f0; 0xc1bf8;
   0x1c1b78; 0x1ffdb6c; 0x1ffdc6c; 0x180cc6e; 0x180cc64; 0x180ce60; 0x1ffc660; 0x1ffc660;
   0x180c460; 0x0; 0x0; 0x0; 0x0; 0x202000; 0x0; 0x0;
   0x0; 0xe00c0; 0xe00c0; 0x1575cdc; 0x1ffecd8; 0x1d56cd8; 0x18066d8; 0x1ffe6d0;
   0x1aae2f0; 0x1c060c0; 0x1ffeffc; 0x1ffeffc; 0x18060e0; 0x1ffe1e0; 0x1ffe3e0; 0x6e07f0;
   0xee0ef0; 0x1d75cf8; 0x3fffcd8; 0x3fff8dc; 0xf00ce; 0x1f80cc; 0x39c0c0; 0x1f1f0c0;
   0x3c07cc0; 0x30018c0; 0x0; 0x0; 0x0; 0x0; 0x202000; 0x0;
   0x0; 0x0; 0x300060; 0x360060; 0x371f6c; 0x331b6c; 0x3ff1b6c; 0x3ffbb68;
   0x31f17c; 0x3091e8; 0x7ffc160; 0x3ffc3fe; 0x15543fe; 0x3ee8; 0x1ff3e70; 0x1ff30f0;
   0x18331f0; 0x18333f8; 0x183377c; 0x183326c; 0x1ff306c; 0x1ff306e; 0x7864; 0xfc60;
   0x7ffce60; 0x3ff0660; 0x460; 0x0; 0x0; 0x0; 0x0; 0x202000;
   0x0; 0x0; 0x0; 0x6000; 0xe000; 0x3fffff8; 0x3fffff8; 0x180c18;
   0x180c18; 0x3ff7fd8; 0x3ff7fd8; 0x7c1e18; 0xfe3f18; 0x1df7d98; 0x39bedd8; 0x1198cd8;
   0x180c18; 0x71c718; 0x318e18; 0x39dc18; 0x3ffffd8; 0x3ffffd8; 0x7e018; 0x1ff81c;
   0x799e0c; 0x7f1c7cc; 0x3c183ee; 0x101c044; 0x0; 0x0; 0x0; 0x0;
   0x202000; 0x0; 0x0; 0x0; 0x318060; 0x318060; 0x7fffe6c; 0x3fffe6c;
   0x31877c; 0x318378; 0x3fffb78; 0x331b9f8; 0x331b960; 0x3fffbfc; 0x3fffffc; 0x331bae8;
   0x375f8f0; 0x3fff9f0; 0x15551f0; 0xaaa378; 0x1fff778; 0x1aab26c; 0x180706c; 0x1fff06e;
   0x1fff064; 0x1803060; 0x1fff060; 0x1fff060; 0x1807060; 0x0; 0x0; 0x0;
   0x0; 0x202000; 0x0; 0x0; 0x0; 0x70060; 0x60060; 0x15f576c;
   0x3fffb6c; 0x15f5f6c; 0xe1b68; 0x1fffdf8; 0xfff9f8; 0x1cc1c60; 0x3aebbfe; 0x3fffffc].
Definition hanzi_data_327 : list N :=
  [0x8c1860; 0x1cc1cf0; 0xfff8f0; 0x1fffdf0; 0x18e2b78; 0x1ceff7c; 0xffce6c; 0x7e8c6c;
   0x7f8c66; 0x1efec64; 0x3ce7e60; 0x70e1660; 0x20f8660; 0x78660; 0x0; 0x0;
   0x0; 0x0; 0x202000; 0x0; 0x0; 0x0; 0x60; 0x1fef860;
   0x1feff6c; 0x186c36c; 0x186c36c; 0x186c368; 0x1fec178; 0x1fef9f8; 0x30f860; 0x301bfc;
   0x1ff1ffc; 0x1fe0ae8; 0x1b31c70; 0x1b2f8f0; 0x1b3fdf0; 0x1b2c3f8; 0x1ff4378; 0x1fee36c;
   0x130606c; 0x1b0606e; 0x1b06064; 0x3b06060; 0x3ff7060; 0x33f3c60; 0x3001c60; 0x0;
   0x0; 0x0; 0x0; 0x202000; 0x0; 0x0; 0x0; 0x60;
   0x3fff860; 0x3ffff6c; 0x6026c; 0x3ffff6c; 0x3fffb68; 0x3061f78; 0x3f7f978; 0x3f7fd60;
   0x603fc; 0x1f7f3fc; 0x60060; 0x1555470; 0x3fff8f0; 0x55755f0; 0x303f8; 0x3ffff78;
   0x3fffa68; 0x319986c; 0x319986e; 0x3199864; 0x3199860; 0x3199860; 0x3d99860; 0x1d99860;
   0x0; 0x0; 0x0; 0x0; 0x202000; 0x0; 0x0; 0x0;
   0x70600; 0x60600; 0x3fffffc; 0x2aeaea8; 0xf07c0; 0xc00c0; 0x1ffcff8; 0xaa8c18;
   0xe30d58; 0x2ebaff8; 0x3ffe018; 0xc1ff8; 0x1ffdff8; 0x1ffd818; 0x1c1ff8; 0x6c6060;
   0x7c63e0; 0xf6780; 0x3fffffc; 0x3fffffc; 0x7fe00; 0x1e6780; 0x1fc61f0; 0x3e0607c;
   0x100600c; 0x0; 0x0; 0x0; 0x0; 0x202000; 0x0; 0x0;
   0x0; 0x1000; 0x3800; 0x1c00; 0x80e00; 0x1c0700; 0xf0380; 0x781c0;
   0x3fff0; 0x1fff0; 0x187820; 0x383e00; 0x700f00; 0xfd07c0; 0x1fffff8; 0x3dffff0;
   0x380e030; 0x8e000; 0x1ce380; 0x3ce1c0; 0x70e0e0; 0xe0e0f0; 0x1c0e038; 0x380f63c;
   0x100fe08; 0x7c00; 0x0; 0x0; 0x0; 0x0; 0x202000; 0x0;
   0x0; 0x0; 0x700000; 0x7f8000; 0x7ffff8; 0xfff0; 0x1c50; 0x80e00;
   0x1e0700; 0xf0380; 0x3ffe0; 0xffe0; 0x1c7960; 0x383e00; 0x700f80; 0xfffbe0;
   0x1fffff8; 0x1806bf0; 0x1806100; 0x1e6380; 0x3c63c0; 0x7061e0; 0x1e060f0; 0x3c06078;
   0x1807e18; 0x7e00; 0x1c00; 0x0; 0x0; 0x0; 0x0; 0x202000;
   0x0; 0x0; 0x0; 0x7000; 0x6000; 0x3fffffc; 0x3fffffc; 0x1c03c0;
   0xe0f00; 0x7fe00; 0x1f800; 0x1fff00; 0x3ff9ffc; 0x3f83dfc; 0x61e00; 0xfd7c0;
   0x3ffe0; 0x19ffc0; 0x383e00; 0x7f57c0; 0xfffff8; 0x1c5fff0; 0x88e100; 0x1ee3c0;
   0x78e1e0; 0x1f0f478; 0x1c07c38; 0x7c00; 0x0; 0x0; 0x0; 0x0;
   0x202000; 0x0; 0x0; 0x0; 0x6000; 0x6000; 0x1fffff8; 0x1fffff8;
   0x6000; 0x7fffe0; 0x7fffe0; 0x6000; 0x1557554; 0x3fffffc; 0x1557d54; 0xc1e00;
   0x1f57c0; 0x3ffe0; 0x19ffc0; 0x383e00; 0x7f57c0; 0x1fffff8; 0x1c0fff8; 0x88e300;
   0x3ce3c0; 0xf8e1e0; 0x1e0e07c; 0x380fe3c; 0x1007c08; 0x0; 0x0; 0x0;
   0x0; 0x202000; 0x0; 0x0; 0x0; 0x6000; 0x6000; 0x3fffffc;
   0x3fffff8; 0x1557554; 0x6000; 0x1557554; 0x3fffffc; 0x3fffffc; 0x380380c; 0x38e1e1c;
   0x38f878c; 0x3ffe0; 0x18ffe0; 0x383e00; 0x700f80; 0xfffff0; 0x1cbfff8; 0x180e050;
   0xce380; 0x7ce3c0; 0xf0e0e0; 0x1c0f47c; 0x3807e38; 0x7c00; 0x0; 0x0;
   0x0; 0x0; 0x202000; 0x0; 0x0; 0x0; 0x100; 0xfff300;
   0xfff338; 0xe0c338; 0x71c338; 0x3b8338; 0x3f0338; 0xe0338; 0x7fc338; 0x3f9fb38;
   0x1e07f00; 0x20e00; 0x78780; 0x3ffe0; 0x19ffc0; 0x383e00; 0x7d4fc0; 0xfffff8;
   0x1c5fff0; 0x80e100; 0x1ee780; 0x78e1e0; 0x1f0e0f8; 0x1c0fe38; 0x807c10; 0x0;
   0x0; 0x0; 0x0; 0x202000; 0x0; 0x0; 0x0; 0x18300;
   0x18300; 0x1c18338; 0x1f9bf38; 0x7fbf38; 0x38338; 0x3018338; 0x301ab38; 0x3fffffc;
   0x1ff2ffe; 0x4781c; 0xe1e00; 0xfd780; 0x3ffe0; 0x1cffe0; 0x383e00; 0x7f4fc0;
   0xfffff0; 0x1c5fff0; 0x3886000; 0x3c63c0; 0x7861e0; 0x1e06078; 0x3807e3c; 0x7c08;
   0x0; 0x0; 0x0; 0x0; 0x202000; 0x0; 0x0; 0x0;
   0x0; 0xfffff0; 0xfffff0; 0xc06030; 0xc06070; 0xfffff0; 0xfffff0; 0xc06030;
   0xd57570; 0xfffff0; 0x555f50; 0xf0f00; 0x7ffc0; 0x9ffe0; 0x3c7de0; 0x781f00;
   0xfffff0; 0x1fffff8; 0x1c075f0; 0x8c6100; 0x1e63c0; 0x7860e0; 0x1f0607c; 0x1807c18;
   0x7c00; 0x0; 0x0; 0x0; 0x0; 0x202000; 0x0; 0x0;
   0x0; 0x180; 0xaa8180; 0x1ffdffc; 0x1ae9ffc; 0x1860180; 0x1861ff8; 0x1871ff8;
   0x1870180; 0x1c315d4; 0x1c3bffc; 0x1f9f5d4; 0xf8f980; 0x71f00; 0x78780; 0x1ffe0;
   0x18ffc0; 0x781f00; 0xffa3e0; 0x1fffff8; 0x180e2f0; 0x1ee780; 0x78e1e0; 0x1f0e0f8;
   0x380fe38; 0x7c00; 0x0; 0x0; 0x0; 0x0; 0x202000; 0x0;
   0x0; 0x0; 0x180; 0x1c0; 0x1ff9ffc; 0x1ffbffc; 0x1c3bd74; 0x1839830;
   0x1c39c78; 0x1838ff8; 0x1d787c0; 0x1ff9fc0; 0x1fffdf0; 0x8783c; 0x1f1f0c; 0x7ffe0;
   0x19ffc0; 0x383e00; 0x741fc0; 0xfffff8; 0x1c5fff0; 0x88e000; 0x3ce380; 0xf8e1e0;
   0x1e0e0f8; 0x180fe38; 0x7c00; 0x0; 0x0; 0x0; 0x0; 0x202000;
   0x0; 0x0; 0x0; 0x701c0; 0x30180; 0x7feffc; 0x7feffc; 0x6301c0;
   0x636980; 0x63fff0; 0x638ffc; 0x26fc1dc; 0x6ecc180; 0x7c8f1f8; 0x3c03cf0; 0x1070f50;
   0x3a380; 0x19ffe0; 0x387bc0; 0x701f00; 0xfffbe0; 0x1fffff0; 0x180e2e0; 0x9ee380;
   0x38e1e0; 0x1f0e0f0; 0x1c0fe38; 0x7c18; 0x0; 0x0; 0x0; 0x0;
   0x202000; 0x0; 0x0; 0x0; 0x1c0180; 0x180180; 0x1fffff8; 0x1fffff8;
   0x1c0180; 0x1fff80; 0x1d5580; 0x1fff80; 0x1fff80; 0x180180; 0x3fffffc; 0x2beaba8;
   0x3871c0; 0xf23ce0; 0x3e78f78; 0x38bffbe; 0x11c7f8c; 0x700f80; 0xfffff0; 0x1c2fff8;
   0x9ce110; 0x3ce3c0; 0xf0e1f0; 0x1c0fe3c; 0x807c10; 0x0; 0x0; 0x0].
Definition hanzi_data_328 : list N :=
  [0x0; 0x202000; 0x0; 0x0; 0x0; 0x60180; 0x60380; 0x3ff1750;
   0x3ffbff0; 0x1d5bd70; 0xe3f830; 0x77f830; 0x3e7ff8; 0x1c3ff8; 0xfe0838; 0x7f7dc1c;
   0x383ce1c; 0x7878c; 0x3ffe0; 0x19ffc0; 0x383e00; 0x7d4fc0; 0xfffff8; 0x1c5fff0;
   0x88e100; 0x3ee3c0; 0xf8e1e0; 0x1e0e078; 0x180fc38; 0x7c00; 0x0; 0x0;
   0x0; 0x0; 0x202000; 0x0; 0x0; 0x0; 0x380; 0xfe0380;
   0xfe7ffc; 0xc62ba8; 0xc60380; 0xc63ff8; 0xc71550; 0xc32aa8; 0x3c37ffc; 0x3c3e00c;
   0x1016ffc; 0xaa8fe0; 0x1ff8dc0; 0x1aa8ff0; 0x1c70ff8; 0xc61980; 0xe63df0; 0x6c3ff8;
   0x7c73f8; 0x380b00; 0x7c1f70; 0xee1b38; 0x1c7b31c; 0x383d3cc; 0x30181c0; 0x0;
   0x0; 0x0; 0x0; 0x202000; 0x0; 0x0; 0x0; 0x461000;
   0xe63bf8; 0x6733f8; 0x633318; 0x3fffb18; 0x3fffb18; 0x18318; 0x183f8; 0x3fffff8;
   0x3ffffb8; 0x777318; 0xe3bb18; 0x3f9ff18; 0x39fef18; 0xfe7f8; 0x6383f8; 0xe1e318;
   0xfffb18; 0x1d7f31c; 0xe66308; 0xe6731c; 0xc6330c; 0x1c61f4c; 0x1878fec; 0x781e4;
   0x0; 0x0; 0x0; 0x0; 0x202000; 0x0; 0x0; 0x0;
   0xe000; 0xc000; 0x3fffff8; 0x3fffff8; 0x180c38; 0x180c38; 0x3ff7ff8; 0x3ff2eb8;
   0x7c3e38; 0xfe6f38; 0x1df4fb8; 0x39b8df8; 0x119ecf8; 0xc7838; 0x1f5c38; 0x33ff38;
   0x71f718; 0xfe3e18; 0x1ffffd8; 0x181af98; 0x39cc1c; 0x718e0c; 0x1e1c78c; 0x181f9ee;
   0xf044; 0x0; 0x0; 0x0; 0x0; 0x202000; 0x0; 0x0;
   0x0; 0x60060; 0x63ff0; 0x3ff7ff8; 0x3ff0018; 0xc3bffe; 0xe7f9b0; 0x66db30;
   0x3c7ffc; 0x3c7ffc; 0x3c1bb8; 0xff1b18; 0x3e3fff8; 0x3819d50; 0x70e00; 0x7ffc0;
   0x8ffe0; 0x3c7e40; 0xffaf80; 0x1fffff8; 0x180ebf0; 0x1ce300; 0x7ce3e0; 0x1f0e0f8;
   0x380fc3c; 0x7c08; 0x0; 0x0; 0x0; 0x0; 0x202000; 0x0;
   0x0; 0x0; 0x0; 0x7f3ff8; 0x7f3ff8; 0x6300d8; 0x3e39fd8; 0x3c1c278;
   0x1ffbff8; 0xffbff8; 0xe30f98; 0x7e39f8; 0x3c1558; 0x3ffbff8; 0x3c7dd50; 0x60e00;
   0x7c780; 0x9ffe0; 0x3c7dc0; 0x780f80; 0xfffff0; 0x180fff8; 0x19ce300; 0x38e3c0;
   0x1f0e0f0; 0x1c0fe38; 0x7c10; 0x0; 0x0; 0x0; 0x0; 0x202000;
   0x0; 0x0; 0x0; 0x1001000; 0x3f83f80; 0x1ffdffc; 0x1b903c; 0xc31d8;
   0xce3998; 0xe71998; 0x638bb8; 0x7fcc10; 0xbf8830; 0xdc1ff0; 0x18e1ff8; 0x1c7019c;
   0x3ff818c; 0x3ffd5dc; 0x318bffc; 0x183ffc; 0xdb8998; 0x1d99998; 0x1999998; 0x319d998;
   0x318db98; 0x318dff8; 0x1f1bf8; 0x1e0000; 0x0; 0x0; 0x0; 0x0;
   0x202000; 0x0; 0x0; 0x0; 0x700c0; 0x380e0; 0x3ffbff0; 0x39c338;
   0x31e71c; 0x7fffe8; 0x755560; 0x7fffe0; 0x755560; 0x7fffe0; 0x755560; 0x6aaae0;
   0x7fffe0; 0x2aaaea8; 0x3fffffc; 0x1c3380; 0x7b1df0; 0x3e3ef78; 0x3dc7f1c; 0x3e8e00;
   0x7fffc0; 0x4ce2c0; 0x7ee7c0; 0xf0f8f0; 0x407870; 0x0; 0x0; 0x0;
   0x0; 0x202000; 0x0; 0x0; 0x0; 0x6000; 0xfffff0; 0x557550;
   0x7fffe0; 0x1557554; 0x3fffffc; 0x7fffc0; 0x7fffc0; 0x175f5d4; 0x3fffffc; 0x707860;
   0xffffe0; 0xf00000; 0x1ff9ff0; 0x1fdd70; 0x661ff0; 0x7fdff0; 0xdf9ab0; 0x1c71ff0;
   0x3ff9830; 0x75dfffc; 0xdb0fb0; 0x199dfb8; 0x31ef3fc; 0x11e41c4; 0x0; 0x0;
   0x0; 0x0; 0x202000; 0x0; 0x0; 0x0; 0x200; 0xe00;
   0x700; 0x300; 0x380; 0x1c0; 0x10e0; 0x3860; 0x3c70; 0x1ffc;
   0xffc; 0x708; 0x380; 0x1c0; 0x34f0; 0x3ff8; 0x1ffc; 0x38;
   0x0; 0x2000; 0x3f40; 0x3ff8; 0x1fc; 0x8; 0x0; 0x0;
   0x0; 0x0; 0x0; 0x202000; 0x0; 0x0; 0x0; 0x1c00100;
   0xc00380; 0x1c1c1c0; 0xc0c1c0; 0x1c1c0e0; 0xc0c0e0; 0x1c1cc70; 0xc0ce38; 0x1c1c71c;
   0xc0c7fc; 0x1c1c3fc; 0xc0c1c0; 0x1c1c1e0; 0xc0c0e0; 0x1c1cf70; 0xe0cffc; 0x1ffc5fc;
   0xffe00c; 0x1c7e000; 0xc06800; 0x1c00ff0; 0xc00ffc; 0x1c0007c; 0xc00000; 0x1c00000;
   0x0; 0x0; 0x0; 0x0; 0x202000; 0x0; 0x0; 0x0;
   0xc0; 0x2aaa1c0; 0x3fff0c0; 0x3fff0e0; 0xc0060; 0xc0070; 0xc0630; 0xc0638;
   0xc071c; 0xc03fe; 0x7fff9fc; 0x3fff8c0; 0x7fff8e0; 0xc0070; 0xc0738; 0xc07f8;
   0xc01fc; 0xc000c; 0xc0000; 0xc0e00; 0xc0ff0; 0xc03fc; 0xd403c; 0xfc000;
   0x7c000; 0x0; 0x0; 0x0; 0x0; 0x202000; 0x0; 0x0;
   0x0; 0x180; 0x1c0; 0x15551c0; 0x3fff0e0; 0x3fff0e0; 0xc0070; 0xc0670;
   0xc0e38; 0xc071c; 0xc03fe; 0xc01fc; 0xc01c0; 0xc00e0; 0xc0070; 0xc0738;
   0xc0ffc; 0xc07fc; 0xc000c; 0xc0000; 0xc0600; 0xc07f0; 0x3fffffe; 0x7fff87c;
   0x0; 0x0; 0x0; 0x0; 0x0; 0x0; 0x202000; 0x0;
   0x0; 0x0; 0x6001c0; 0x6001c0; 0x6001c0; 0x6000e0; 0x600070; 0x600270;
   0x7fff630; 0x3fff738; 0x575575c; 0x6003fe; 0x6001fc; 0x60e0c0; 0x61c0e0; 0x618070;
   0x618ff8; 0x638ffc; 0x6301fc; 0x63000c; 0x600000; 0x600e00; 0x600ff0; 0x6003fc;
   0x75003c; 0x7e0000; 0x3e0000; 0x0; 0x0; 0x0; 0x0; 0x202000;
   0x0; 0x0; 0x0; 0x800180; 0x1f80380; 0x1fff1c0; 0xfe0c0; 0xc40e0;
   0xc0060; 0xc0c70; 0xc0e38; 0xc071c; 0xc03fe; 0x15d53fc; 0x3fff1c0; 0x7fff0e0;
   0xc0060; 0xc0f70; 0xc0ffc; 0xc07fc; 0xc000c; 0xc0000; 0xc0800; 0xc0ff0;
   0xc0ffc; 0xc007c; 0xc0000; 0xc0000; 0x0; 0x0; 0x0; 0x0;
   0x202000; 0x0; 0x0; 0x0; 0x38180; 0x18180; 0x1c1c0; 0x1c0c0;
   0x3ffc0e0; 0x3ffe060; 0x1556c70; 0x7e38; 0x371c; 0x3bfe; 0xfff3fc; 0x7fe1c0].
Definition hanzi_data_329 : list N :=
  [0x7800e0; 0x3c0070; 0x1e0f78; 0xe0ff8; 0x707fc; 0x3800c; 0x101c000; 0x300e800;
   0x3006ff0; 0x3006ffc; 0x3ffe07c; 0x3ffe000; 0x1550000; 0x0; 0x0; 0x0;
   0x0; 0x202000; 0x0; 0x0; 0x0; 0x30180; 0x38180; 0x181c0;
   0x180e0; 0x1c0e0; 0x3ffc060; 0x1ffe670; 0x1806638; 0x180771c; 0x1803bfe; 0x180b1fc;
   0x181c0c0; 0x183c0e0; 0x1870070; 0x18f0f38; 0x18e0ffc; 0x19c01fc; 0x180000c; 0x1c00000;
   0x1800800; 0x1c00ff0; 0xc00ffe; 0xf4007c; 0xfe0000; 0x7e0000; 0x0; 0x0;
   0x0; 0x0; 0x202000; 0x0; 0x0; 0x0; 0xc0; 0x1c0;
   0x7ff8c0; 0x7ff8e0; 0x71c060; 0x30c070; 0x30c630; 0x38c738; 0x18c71c; 0x3f8c3fe;
   0x1fdc1fc; 0x181e0c0; 0x1c1e0e0; 0xc3e670; 0xc367f8; 0xe763f8; 0x76707c; 0x3e700c;
   0x3c7700; 0x3c37c0; 0x7e3bf8; 0xef187c; 0x3e7dc1c; 0x381ee00; 0x100cc00; 0x0;
   0x0; 0x0; 0x0; 0x202000; 0x0; 0x0; 0x0; 0x38180;
   0x381c0; 0x381c0; 0x380e0; 0x38060; 0x38060; 0x7ffe70; 0x7ffe38; 0x63871c;
   0x6383fc; 0x6181fc; 0x6180c0; 0x61f0e0; 0x61f060; 0x63c730; 0x67c7f8; 0x7fc1fc;
   0x6cc00c; 0x68e000; 0xe06e00; 0x2c077f0; 0x6c03bfc; 0x7c03c1c; 0x3801c00; 0x1800800;
   0x0; 0x0; 0x0; 0x0; 0x202000; 0x0; 0x0; 0x0;
   0x400c0; 0xe01c0; 0x1c01c0; 0x1800e0; 0x3fff060; 0x3ffe270; 0x7630; 0x6738;
   0x771c; 0x63fe; 0x71fc; 0x60c0; 0x70e0; 0x6070; 0x77f8; 0x67fc;
   0x707c; 0x300c; 0x3700; 0x3fc0; 0x39f8; 0x187c; 0x1c1c; 0xe00;
   0xc00; 0x0; 0x0; 0x0; 0x0; 0x202000; 0x0; 0x0;
   0x0; 0x180; 0x380; 0x1ffe1c0; 0x1ffe0c0; 0x1c000e0; 0x1800060; 0x1c00c70;
   0x1800e38; 0x1c0071c; 0x18007fe; 0x1d543fc; 0x1ffe1c0; 0x1ffe0e0; 0x180e060; 0xef78;
   0xeffc; 0xe5fc; 0xe00c; 0x700e000; 0x300e800; 0x700eff0; 0x300effc; 0x3ffe07c;
   0x3ffc000; 0x550000; 0x0; 0x0; 0x0; 0x0; 0x202000; 0x0;
   0x0; 0x0; 0xc0; 0x1c0; 0x3fff1c0; 0x3fff0e0; 0x3dd5060; 0x38e0070;
   0x18c0630; 0x38e6638; 0x18e671c; 0x18e63fe; 0x18661fc; 0x18660c0; 0x18670e0; 0x1863070;
   0x1873738; 0x1831ff8; 0x1c301fc; 0x183800c; 0x1c18000; 0x1c18600; 0x1c1c7f0; 0xc0e1fc;
   0xf4701c; 0xfe3c00; 0x7c1800; 0x0; 0x0; 0x0; 0x0; 0x202000;
   0x0; 0x0; 0x0; 0x600c0; 0x600c0; 0x600c0; 0x600e0; 0x1fff860;
   0x1fff830; 0x60730; 0x60338; 0x1fff31c; 0xfff1fe; 0x1fff1fc; 0x600c0; 0x60060;
   0x2aea870; 0x3ffff38; 0x3aeabf8; 0x30601fc; 0x306000c; 0x3060000; 0x3860600; 0x1f607f0;
   0x1e601fc; 0x46001c; 0x60000; 0x60000; 0x0; 0x0; 0x0; 0x0;
   0x202000; 0x0; 0x0; 0x0; 0xc0; 0x1c0; 0x1ffe1c0; 0x1ffe0e0;
   0x1554060; 0x70; 0x630; 0x638; 0x71c; 0x3fe; 0x7fff9fc; 0x3fff8c0;
   0x700e0; 0x70070; 0x70730; 0x6387f8; 0x6181fc; 0xe1c00c; 0xc0c000; 0x1c0e600;
   0x1fd77f0; 0x3fffbfc; 0x31ff07c; 0x3000000; 0x1000000; 0x0; 0x0; 0x0;
   0x0; 0x202000; 0x0; 0x0; 0x0; 0x18040; 0x180c0; 0x180e0;
   0x18060; 0x18070; 0x3fff030; 0x3fff638; 0x18618; 0x1c31c; 0x31c3fe; 0x39c1fc;
   0x38c0c0; 0x19c060; 0x18c070; 0x1cc738; 0xece7f8; 0xcce1fc; 0xce600c; 0x1c67000;
   0x1867600; 0x3c777f0; 0x3ff39fe; 0x3ff381c; 0x3031c00; 0x7001000; 0x0; 0x0;
   0x0; 0x0; 0x202000; 0x0; 0x0; 0x0; 0xe00c0; 0xe01c0;
   0xe00c0; 0xe00e0; 0x3fff860; 0x3fff870; 0xe0630; 0xe0638; 0x18e771c; 0x18e33fe;
   0x18e71fc; 0x18e30c0; 0x18e70e0; 0x18e3060; 0x18e7730; 0x1fff7f8; 0x1fff1fc; 0x1aea00c;
   0x18e0000; 0xe0e00; 0x70e0ff0; 0x30e03fc; 0x75c001c; 0x3fc0000; 0x1fc0000; 0x0;
   0x0; 0x0; 0x0; 0x202000; 0x0; 0x0; 0x0; 0x1c30c0;
   0x1830c0; 0x1c30c0; 0x1830e0; 0x1c3070; 0x183030; 0x11c3730; 0x3983338; 0x1dd739c;
   0xfbf1fe; 0x7ff1fc; 0x3830e0; 0x1c3060; 0x183070; 0x1c33f8; 0x1833fc; 0x1c307c;
   0x18300c; 0x11c3200; 0x31a3380; 0x71ff3f8; 0x31bf87e; 0x3fcf81c; 0x3f83800; 0x0;
   0x0; 0x0; 0x0; 0x0; 0x202000; 0x0; 0x0; 0x0;
   0xe0180; 0xe0180; 0xe01c0; 0xe00e0; 0x4e0060; 0xeee070; 0x1ce6630; 0x18e6638;
   0x18e671c; 0x38e63fe; 0x30e71fc; 0x30e30c0; 0x10e38e0; 0x8e2070; 0x1ce0738; 0xce07fc;
   0xee07fc; 0x60000c; 0x700000; 0x3c0f00; 0x1f0ff0; 0xf80fc; 0x3f01c; 0xfc00;
   0x1800; 0x0; 0x0; 0x0; 0x0; 0x202000; 0x0; 0x0;
   0x0; 0xc0; 0xaaa8c0; 0x1fff8e0; 0x1aab8e0; 0x1b03870; 0x1b03830; 0x1b0ff30;
   0x199bf38; 0x199bb1c; 0x19bbbfe; 0x19f39fc; 0x18e38c0; 0x18e38e0; 0x18e3870; 0x19e3f38;
   0x19b3ff8; 0x19b39fc; 0x1b3b80c; 0x1b1b800; 0x1a1fe00; 0x180fff0; 0x180bbfc; 0x1d0381c;
   0x1f03800; 0x703800; 0x0; 0x0; 0x0; 0x0; 0x202000; 0x0;
   0x0; 0x0; 0xe00c0; 0xe00c0; 0xe00c0; 0xe00e0; 0xe0060; 0xe0070;
   0x1fffe30; 0x1ffff38; 0x1863b1c; 0x1863bfe; 0x18639fc; 0x18e38c0; 0x19f3860; 0x19b3870;
   0x1bbbf38; 0x1b3bff8; 0x1f1f9fc; 0x1e0f80c; 0x1e0f800; 0x1803e00; 0x1803ff0; 0x1803bfc;
   0x1d0381c; 0x1f83800; 0x1f03800; 0x0; 0x0; 0x0; 0x0; 0x202000;
   0x0; 0x0; 0x0; 0x1c00040; 0x1f800c0; 0xffc0e0; 0xff060; 0xc7070;
   0xc0030; 0xc0638; 0xc0718; 0xc031c; 0xc03fe; 0xc01fc; 0x3fff8c0; 0x7fff860;
   0x2aea830; 0xc0738; 0xc07f8; 0xc01fc; 0xc000c; 0xc0000; 0xc0600; 0xc07f0;
   0xc01fe; 0x3fff01c; 0x3fff000; 0x0; 0x0; 0x0; 0x0; 0x0].
Definition hanzi_data_330 : list N :=
  [0x202000; 0x0; 0x0; 0x0; 0x30e0c0; 0x30e0c0; 0x3060e0; 0x30e0e0;
   0x306070; 0x306030; 0x306730; 0x306338; 0x30639c; 0x3861fe; 0x3871fc; 0x3860e0;
   0x787060; 0x38f070; 0x79f338; 0x79f3fc; 0x7db1fc; 0xefb80c; 0xcd3800; 0xce1b80;
   0x1c71ff0; 0x3870cfc; 0x3878e1c; 0x3038e00; 0x1010400; 0x0; 0x0; 0x0;
   0x0; 0x202000; 0x0; 0x0; 0x0; 0xc00c0; 0xe01c0; 0xf00c0;
   0x1f00e0; 0x3b8070; 0x3b8070; 0x71c630; 0xe0e738; 0x1c0771c; 0x3803bfe; 0x301d9fc;
   0x40c0c0; 0xf1c0e0; 0xf8c070; 0x3fc778; 0xfc7fc; 0x7c1fc; 0xc00c; 0x81c000;
   0x380ce00; 0x181cff0; 0x180c3fc; 0x1ffc01c; 0xff8000; 0x0; 0x0; 0x0;
   0x0; 0x0; 0x202000; 0x0; 0x0; 0x0; 0x3001c0; 0x3381c0;
   0x3181c0; 0x3180e0; 0x71c060; 0x60c070; 0xe0c630; 0xc0e638; 0x1c0771c; 0x3807bfe;
   0x75579fc; 0x2fff8c0; 0xffe0e0; 0xc30070; 0xc30738; 0xc387fc; 0xc381fc; 0xc1800c;
   0xc1c000; 0xe0c600; 0xe0e7f0; 0xe0e3fe; 0x74781c; 0x7e3800; 0x3c1800; 0x0;
   0x0; 0x0; 0x0; 0x202000; 0x0; 0x0; 0x0; 0xc00180;
   0x1f801c0; 0x1fff1c0; 0x1ff0e0; 0x1c7060; 0x183060; 0x1c7670; 0x183638; 0x18771c;
   0x1833fe; 0x3fff1fc; 0x3fff0c0; 0x3fff0e0; 0x183060; 0x187f70; 0x383ff8; 0x3071fc;
   0x30300c; 0x1307000; 0x2303600; 0x77477f0; 0x367b3fc; 0x3e7f03c; 0x3c0f800; 0x1c01000;
   0x0; 0x0; 0x0; 0x0; 0x202000; 0x0; 0x0; 0x0;
   0x300c0; 0x700c0; 0x700c0; 0xe00e0; 0x1c0070; 0x3fff870; 0x7fffe30; 0x2eaef38;
   0xe0631c; 0xe0e3fe; 0x60e1fc; 0x60c0c0; 0x71c060; 0x318070; 0x318738; 0x3b87f8;
   0x1f01fc; 0xf000c; 0xe0000; 0x1f0780; 0x7fc7f0; 0xf1e0fc; 0x7e0fc1c; 0x3803e00;
   0x3000c00; 0x0; 0x0; 0x0; 0x0; 0x202000; 0x0; 0x0;
   0x0; 0x600c0; 0xe01c0; 0xe00c0; 0xc00e0; 0x15d5070; 0x3fff270; 0x3fff630;
   0x38738; 0x1871c; 0x183fe; 0x15581fc; 0x1ff80e0; 0x1ff80e0; 0x1c18070; 0x1c1c738;
   0xc187fc; 0x1c1c1fc; 0xc0c00c; 0x1c0c000; 0xc0e600; 0xc077f0; 0xc033fe; 0xf6383c;
   0xfc1c00; 0x7c0800; 0x0; 0x0; 0x0; 0x0; 0x202000; 0x0;
   0x0; 0x0; 0x30180; 0x701c0; 0xe01c0; 0xe00e0; 0x1c0060; 0x3fff060;
   0x3fffe30; 0x3803638; 0x3803718; 0x38033fc; 0x38031fc; 0xc0; 0xe0; 0x60;
   0x7f0; 0x7f8; 0x7c; 0x8; 0x0; 0x600; 0x15557f0; 0x3fff8fc;
   0x3fff81c; 0x0; 0x0; 0x0; 0x0; 0x0; 0x0; 0x202000;
   0x0; 0x0; 0x0; 0x10000c0; 0x187f8c0; 0x187f8c0; 0x18600e0; 0x1860060;
   0x1860070; 0x1860330; 0x187f338; 0x187f39c; 0x18031fe; 0x18031fc; 0x18030e0; 0x1803860;
   0x18ff830; 0x187fbf8; 0x18e03f8; 0x186007c; 0x186000c; 0x1860000; 0x1860380; 0x18603f0;
   0x186007e; 0x187f01c; 0x183e000; 0x1814000; 0x0; 0x0; 0x0; 0x0;
   0x202000; 0x0; 0x0; 0x0; 0x1c0; 0x1fff9c0; 0x1fff9c0; 0x18300e0;
   0x1c30060; 0xc30070; 0x1c30670; 0xc30738; 0x1c3875c; 0xc383fe; 0xc381fc; 0xfff0c0;
   0xfff0e0; 0xc18070; 0xc187f8; 0xe183fc; 0xe1c1fc; 0xe1c00c; 0xe1c400; 0xe0c780;
   0x60c7f0; 0x60c0fc; 0x7fffc1c; 0x3fffc00; 0x0; 0x0; 0x0; 0x0;
   0x0; 0x202000; 0x0; 0x0; 0x0; 0xc0; 0xfff1c0; 0x1fff0c0;
   0xe000e0; 0x700070; 0x39c070; 0x1fc630; 0xe0738; 0x3c071c; 0x3803fe; 0x7fff9fc;
   0x3fff8c0; 0x38e00e0; 0x18e0070; 0x1ce07f8; 0xce07fc; 0xee01fc; 0xe000c; 0xe0000;
   0xe0600; 0xe07f0; 0xe03fe; 0xe003c; 0x7c000; 0x7c000; 0x0; 0x0;
   0x0; 0x0; 0x202000; 0x0; 0x0; 0x0; 0x170080; 0x3b0180;
   0xf701c0; 0xc300e0; 0x10700e0; 0x1fb0060; 0x1fff670; 0xff638; 0x71718; 0x603fc;
   0x3f701fc; 0x3ff80c0; 0x7ff0e0; 0x106f060; 0x3860770; 0x18e07f8; 0x1ec01fc; 0xfc0008;
   0x7c0000; 0x1e0700; 0x31f07f0; 0x23be0fc; 0x371fc1c; 0x3e03800; 0x1c01000; 0x0;
   0x0; 0x0; 0x0; 0x202000; 0x0; 0x0; 0x0; 0xc0e180;
   0xc0e380; 0xc0e1c0; 0xc0e0c0; 0xc0e0e0; 0x3fff860; 0x7fff870; 0xc0ee38; 0xc0e71c;
   0xc0e3fe; 0xc0e3fc; 0xc0e1c0; 0xc0e0e0; 0xffe060; 0xffe778; 0xc0effc; 0xc0e7fc;
   0xc0e00c; 0xc0e000; 0xc0ee00; 0xc0eff0; 0xffe3fc; 0xffe07c; 0xc0e000; 0xc0e000;
   0x0; 0x0; 0x0; 0x0; 0x202000; 0x0; 0x0; 0x0;
   0x4600c0; 0xc620c0; 0xc670c0; 0xc620e0; 0xc67070; 0xc62230; 0xc67730; 0x3ffff38;
   0x7ffff1c; 0x3fffbfe; 0xc671fc; 0xc620c0; 0xc67060; 0xc62070; 0xc67738; 0xc627f8;
   0xfe71fc; 0xfe200c; 0x7000; 0x2e00; 0x7ff0; 0x3ffe3fc; 0x3fff03c; 0x2aaa000;
   0x0; 0x0; 0x0; 0x0; 0x0; 0x202000; 0x0; 0x0;
   0x0; 0x11c180; 0x39c180; 0x71c1c0; 0xe1c0c0; 0x1c1c0e0; 0xc060; 0x3fffe70;
   0x3fffe30; 0x1c718; 0xc3fc; 0x55c1fc; 0x1ffc0c0; 0x1ffc0e0; 0xc3c060; 0xc3e770;
   0xe3e7f8; 0x7761fc; 0x3e6008; 0x3c7000; 0x1c3600; 0x3c37f0; 0xfe38fc; 0x1e79c1c;
   0x3c3cc00; 0x1018c00; 0x0; 0x0; 0x0; 0x0; 0x202000; 0x0;
   0x0; 0x0; 0x38040; 0x380e0; 0x180e0; 0x3fffc60; 0x3fffc70; 0xc030;
   0xc330; 0xaeb98; 0xfff9c; 0xff9fe; 0xe71fc; 0xe30e0; 0xe3870; 0x1fff830;
   0x1fffb38; 0xe03f8; 0x4e61fc; 0xee600c; 0x1ce7300; 0x18e3bc0; 0x38e1df8; 0x38e0c3c;
   0x70e0e1c; 0xfc000; 0x7c000; 0x0; 0x0; 0x0; 0x0; 0x202000;
   0x0; 0x0; 0x0; 0x180; 0xaaa180; 0xffe1c0; 0xeae0c0; 0xc0e0e0;
   0xc0e060; 0xc0e470; 0xc0ee38; 0xffe71c; 0xffe3fc; 0xd5e1fc; 0xc0e1c0; 0xc0e0e0].
Definition hanzi_data_331 : list N :=
  [0xc0e060; 0xc0e770; 0xffeff8; 0xffe1fc; 0xc0e00c; 0xc0e000; 0xc0e600; 0xc0e7f0;
   0xc0e1fc; 0x7fffc1c; 0x3fff800; 0x1555400; 0x0; 0x0; 0x0; 0x0;
   0x202000; 0x0; 0x0; 0x0; 0xe0180; 0xe0180; 0xe01c0; 0xe00e0;
   0x3fff0e0; 0x3fff060; 0x3df7670; 0x38e3638; 0x38e371c; 0x38e33fe; 0x3fff1fc; 0x3fff0c0;
   0x38e30e0; 0x38e3070; 0x38e3738; 0x3aeb7fc; 0x3fff7fc; 0x3aeb00c; 0x38e3000; 0xe0000;
   0xe07f0; 0xe07fc; 0xe007c; 0xe0000; 0xe0000; 0x0; 0x0; 0x0;
   0x0; 0x202000; 0x0; 0x0; 0x0; 0x180; 0x2aaa180; 0x3fff1c0;
   0x3fff0e0; 0x38c30e0; 0x38c3070; 0x38c3470; 0x38c3e38; 0x38c371c; 0x38c33fe; 0x38c33fc;
   0x3fff1c0; 0x3fff0e0; 0x3aeb060; 0x38c3f38; 0x38c3ffc; 0x38c37fc; 0x38c300c; 0x38c3000;
   0x38c3800; 0x3dd7ff0; 0x3fffffe; 0x3fff07c; 0x3803000; 0x1003000; 0x0; 0x0;
   0x0; 0x0; 0x202000; 0x0; 0x0; 0x0; 0xc0; 0x1c0;
   0x1fff1c0; 0x1fff0e0; 0x1c07060; 0x1c03070; 0x1c07670; 0x1c03638; 0x1c0771c; 0x1c033fe;
   0x1c071fc; 0x1c030c0; 0x1fff0e0; 0x1fff060; 0x730; 0x7f8; 0x4041fc; 0x70c00c;
   0xe0e000; 0xe0e600; 0x1c077f0; 0x18073fe; 0x380383c; 0x3801c00; 0x1001800; 0x0;
   0x0; 0x0; 0x0; 0x202000; 0x0; 0x0; 0x0; 0x700c0;
   0x380c0; 0x180c0; 0x1ffc0e0; 0x1ffe070; 0xe0e030; 0x71f630; 0x73bf38; 0x3f1b1c;
   0x1e03fe; 0x1f01fc; 0x3f80c0; 0xf3e060; 0x3e0f870; 0x7c37f38; 0x20f87fc; 0x3e05fc;
   0x38000c; 0x300000; 0xe000; 0x7f7f0; 0x1f87fe; 0x7c007c; 0xe00000; 0xc00000;
   0x0; 0x0; 0x0; 0x0; 0x202000; 0x0; 0x0; 0x0;
   0x701c0; 0x301c0; 0xd781c0; 0x1ff80e0; 0x1ffc060; 0xe0c070; 0xe0e630; 0x706738;
   0x70775c; 0x383bfe; 0x1fff1fc; 0x1fff0e0; 0x1d550e0; 0x1800070; 0x1800778; 0x1aaa7fc;
   0x1ffe1fc; 0x1ffe00c; 0x1800000; 0x1800780; 0x18007f0; 0x1fff0fc; 0x1fff01c; 0x1aaa000;
   0x1800000; 0x0; 0x0; 0x0; 0x0; 0x202000; 0x0; 0x0;
   0x0; 0xe00c0; 0x8e20c0; 0x1ce30e0; 0x1ce70e0; 0x1ce6070; 0xeee030; 0x6ec730;
   0x6ec718; 0xe031c; 0x3fff3fe; 0x3fff1fc; 0xe00e0; 0xe0060; 0xe0070; 0xe0738;
   0x3fffbfc; 0x7fff9fc; 0xe000c; 0xe0000; 0xe0600; 0xe07f0; 0xe03fc; 0xe001c;
   0xe0000; 0xe0000; 0x0; 0x0; 0x0; 0x0; 0x202000; 0x0;
   0x0; 0x0; 0x198040; 0x1980e0; 0x1980e0; 0x198060; 0x1fff870; 0x1fff830;
   0x1998330; 0x1998718; 0x199831c; 0x1fffbfe; 0x1fff9fc; 0x1998e0; 0x199860; 0x199870;
   0x3ffff38; 0x3fffffc; 0x35dd5fc; 0x318c00c; 0x318c000; 0x318e200; 0x3d867f0; 0x1d873fe;
   0x18783c; 0x183c00; 0x181800; 0x0; 0x0; 0x0; 0x0; 0x202000;
   0x0; 0x0; 0x0; 0xe00c0; 0xe01c0; 0x10e51c0; 0x18e30e0; 0x1ce7060;
   0x18e3070; 0x1ce7630; 0x18e3738; 0x1ce775c; 0x1aeb3fe; 0x1fff1fc; 0xaea0e0; 0xe00e0;
   0x38e3070; 0x38e37f8; 0x38e33fc; 0x38e31fc; 0x38e300c; 0x38e3400; 0x38e3780; 0x38e37f0;
   0x3fff0fc; 0x3fff01c; 0x3800000; 0x3800000; 0x0; 0x0; 0x0; 0x0;
   0x202000; 0x0; 0x0; 0x0; 0x80; 0x3fff1c0; 0x3fff1c0; 0x3aba0e0;
   0x1830060; 0x1830070; 0x1838630; 0x1838e38; 0x181c71c; 0x180e3fe; 0x1f8f1fc; 0xf839c0;
   0x10e0; 0x60; 0x1ffff30; 0x1ffeff8; 0x18071fc; 0x180600c; 0x1807000; 0x1806e00;
   0x1807ff0; 0x1aae3fc; 0x1fff03c; 0x1ffe000; 0x1807000; 0x0; 0x0; 0x0;
   0x0; 0x202000; 0x0; 0x0; 0x0; 0xc0; 0xaaa8c0; 0x1fff8c0;
   0x1fff8e0; 0xe0e070; 0x60c030; 0x7b8730; 0x1f0718; 0x1f031c; 0x3fc1fe; 0x1f1f1fc;
   0x7c27cc0; 0x3061860; 0x60030; 0x1fff738; 0x1fff3f8; 0x601fc; 0x6000c; 0x7fffc00;
   0x3fffe00; 0x7fffff0; 0x603fe; 0x6007c; 0x60000; 0x60000; 0x0; 0x0;
   0x0; 0x0; 0x202000; 0x0; 0x0; 0x0; 0xc0; 0x2aa1c0;
   0x1fff1c0; 0xfff0e0; 0x700060; 0x380070; 0x3c0630; 0x1e0638; 0x3f071c; 0xfbc3fe;
   0x3f1f1fc; 0x3807cc0; 0x30018e0; 0x70; 0x1fff738; 0x1fff7fc; 0xe01fc; 0xe000c;
   0xe0000; 0xe0600; 0xe07f0; 0xe01fe; 0x7fffc1c; 0x3fffc00; 0x0; 0x0;
   0x0; 0x0; 0x0; 0x202000; 0x0; 0x0; 0x0; 0x700c0;
   0x701c0; 0x300c0; 0x380e0; 0x31c070; 0x71c070; 0xe0e630; 0xc06638; 0x1c0771c;
   0x3fffbfe; 0x3fff9fc; 0x70038c0; 0x10000e0; 0x70; 0x1fff738; 0xffe7fc; 0x1c071fc;
   0xc0600c; 0x1c07000; 0xc06e00; 0x1c07ff0; 0xc063fc; 0x1fff03c; 0xffe000; 0x1c07000;
   0x0; 0x0; 0x0; 0x0; 0x202000; 0x0; 0x0; 0x0;
   0x6060; 0x60e0; 0x3f86060; 0x3f86060; 0x39bfc70; 0x19bfc30; 0x1986138; 0x1986398;
   0xd861dc; 0xd860fe; 0xfbfcfc; 0xdbfce0; 0x1d86070; 0x3986030; 0x31861f8; 0x31bfffc;
   0x71ffffc; 0x31aea0c; 0x3187100; 0x3f83180; 0x1f831f8; 0x18387e; 0x181c1c; 0x180e00;
   0x180c00; 0x0; 0x0; 0x0; 0x0; 0x202000; 0x0; 0x0;
   0x0; 0x4c00c0; 0xec01c0; 0x1cc00c0; 0x18c00e0; 0x19c0060; 0x3fff870; 0x7fffe30;
   0xc0738; 0x11cc31c; 0x398c3fe; 0x19cc1fc; 0x198c0c0; 0x199d060; 0xdbf870; 0xdbff38;
   0xf8e7f8; 0x7861fc; 0x78600c; 0x706000; 0x2387600; 0x67c77f0; 0x26e38fc; 0x3ef1c1c;
   0x3c38800; 0x1c10000; 0x0; 0x0; 0x0; 0x0; 0x202000; 0x0;
   0x0; 0x0; 0xe0040; 0xe01c0; 0xe00c0; 0xe00e0; 0x3fff870; 0x3fff870;
   0xe0638; 0xe0638; 0xe071c; 0xe03fe; 0x3fff1fc; 0x3fff0c0; 0xe0; 0x70;
   0x1ffe778; 0x1ffeffc; 0x1d561fc; 0x180600c; 0x1c06000; 0x1806e00; 0x1c06ff0; 0x18063fe;
   0x1ffe07c; 0x1ffe000; 0x1c06000; 0x0; 0x0; 0x0; 0x0; 0x202000].
Definition hanzi_data_332 : list N :=
  [0x0; 0x0; 0x0; 0x60040; 0x600c0; 0x700c0; 0x2aba8e0; 0x3fffc70;
   0x3fffc70; 0x39c230; 0x70e738; 0xe0731c; 0x3fffbfe; 0x7ffdffc; 0x2000cc0; 0xe0;
   0x3fff870; 0x3ffff38; 0xc3f8; 0xe1fc; 0xaae00c; 0x1ffe000; 0xeaa780; 0xc007f0;
   0xc000fe; 0xe0001c; 0xff8000; 0x7f0000; 0x0; 0x0; 0x0; 0x0;
   0x202000; 0x0; 0x0; 0x0; 0x1c040; 0xc0e0; 0x101c0e0; 0x1ff8060;
   0x1fff870; 0x83f830; 0x1c30338; 0xe30318; 0x7f039c; 0x31e01fe; 0x31fc1fc; 0x3b9f8e0;
   0x1f07070; 0xc00030; 0x3fffff8; 0x3fffffc; 0x15dd5fc; 0x18c00c; 0x19c000; 0x18c380;
   0x318e3f0; 0x31870fc; 0x3587c1c; 0x3f83e00; 0x1f00c00; 0x0; 0x0; 0x0;
   0x0; 0x202000; 0x0; 0x0; 0x0; 0x40; 0x2aaa8e0; 0x3fff860;
   0x3fff860; 0x70070; 0x238030; 0x71c638; 0xe0c718; 0x1d4e31c; 0x1fff9fe; 0x3fff1fc;
   0x30a00c0; 0x10e0060; 0xe0030; 0xe0738; 0x1fff7fc; 0x1fff1fc; 0xaea00c; 0xe0000;
   0xe0600; 0xe07f0; 0xe00fe; 0x7fffc1c; 0x3fffc00; 0x0; 0x0; 0x0;
   0x0; 0x0; 0x202000; 0x0; 0x0; 0x0; 0x4040; 0xe0c0;
   0x3fe7060; 0x3fe3060; 0x3870; 0x1c30; 0x1cd30; 0xc398; 0x7ffe19c; 0x3ff60fe;
   0x5f570fc; 0xe03860; 0xe07c70; 0xe02e30; 0xe075f8; 0xe021f8; 0xe0707c; 0xe0200c;
   0xe07000; 0xe02380; 0xe071f0; 0xe0203c; 0xe0701c; 0x7c2000; 0x7c7000; 0x0;
   0x0; 0x0; 0x0; 0x202000; 0x0; 0x0; 0x0; 0x60040;
   0x600e0; 0xf00e0; 0xf8060; 0x1d8070; 0x39c030; 0x70e738; 0x1e07398; 0x3c03f9c;
   0x3fffdfe; 0x17fedfc; 0xe0; 0x70; 0x30; 0x1fffbf8; 0x1fffbfc; 0x3807c;
   0x21c00c; 0x71c200; 0x60e380; 0xe073f8; 0xfe307e; 0x1fffc1c; 0x382f800; 0x1000000;
   0x0; 0x0; 0x0; 0x0; 0x202000; 0x0; 0x0; 0x0;
   0x600c0; 0x600c0; 0xf00c0; 0xf00e0; 0x1f8070; 0x398270; 0x71c630; 0xe0e738;
   0x1e0735c; 0x3bffbfe; 0x17fddfc; 0x8c0; 0xe0; 0x70; 0xfff738; 0xffe7fc;
   0xe071fc; 0xe0600c; 0xe07000; 0xe06600; 0xe077f0; 0xeae3fc; 0xfff03c; 0xffe000;
   0xe07000; 0x0; 0x0; 0x0; 0x0; 0x202000; 0x0; 0x0;
   0x0; 0x1c040; 0x1c0c0; 0x1c0e0; 0xe0e0; 0x3ffe070; 0x3ffe030; 0x3007638;
   0x3003f18; 0x3155f5c; 0x31ffbfe; 0x31fe1fc; 0x39860e0; 0x3986060; 0x39fe070; 0x39fe7f8;
   0x39867fc; 0x39861fc; 0x398600c; 0x19fe000; 0x19fe600; 0x18067f0; 0x18000fe; 0x1d4001c;
   0xfc0000; 0x7c0000; 0x0; 0x0; 0x0; 0x0; 0x202000; 0x0;
   0x0; 0x0; 0x700c0; 0x380c0; 0xffc0c0; 0xffc0e0; 0xf5f060; 0x61f870;
   0x7bbf30; 0x1f0b38; 0x1f039c; 0x7bc1fe; 0x7f1f1fc; 0x38c38e0; 0xc1860; 0x1fff030;
   0x1fff3f8; 0xaea3f8; 0xc707c; 0xc300c; 0xc3300; 0x3fffbc0; 0x3fff9f8; 0xc003c;
   0xc001c; 0xc0000; 0xc0000; 0x0; 0x0; 0x0; 0x0; 0x202000;
   0x0; 0x0; 0x0; 0x38040; 0x181c0; 0x55c0c0; 0x1ffc0e0; 0x1ffe060;
   0xc0e070; 0xe1f630; 0x71bf38; 0x3f9f5c; 0x1f03fe; 0x1f01fc; 0x7f80c0; 0x1f1f0e0;
   0x3c0f870; 0x3555ff8; 0x1ffe3fc; 0x1ffe07c; 0x1c0600c; 0x1c06000; 0x1c06700; 0x1c067f0;
   0x1ffe0fc; 0x1ffe01c; 0x1eae000; 0x1c06000; 0x0; 0x0; 0x0; 0x0;
   0x202000; 0x0; 0x0; 0x0; 0x381c0; 0x181c0; 0x15c0c0; 0x7fc0e0;
   0x7fe060; 0x306070; 0x387630; 0xbebe38; 0x1ffff5c; 0x1fffbfe; 0x1ce71fc; 0x18e30c0;
   0x1ce70e0; 0x18e3070; 0x1fff738; 0x1fff7f8; 0x15571fc; 0x300c; 0x7000; 0x3003e00;
   0x3007ff0; 0x30033fe; 0x3fff01c; 0x3ffe000; 0x554000; 0x0; 0x0; 0x0;
   0x0; 0x202000; 0x0; 0x0; 0x0; 0x700c0; 0x600c0; 0xe00c0;
   0xc00e0; 0x3fff870; 0x3fff830; 0x4630; 0x30c738; 0x70e71c; 0xe063fe; 0x1c071fc;
   0x3a038c0; 0x3707ce0; 0x70e870; 0x31c738; 0x3983fc; 0x1f81fc; 0x1f800c; 0xf0000;
   0xf0300; 0x1fc7f0; 0x79e0fc; 0x1f0f81c; 0x3e03c00; 0x1001800; 0x0; 0x0;
   0x0; 0x0; 0x202000; 0x0; 0x0; 0x0; 0x701c0; 0x601c0;
   0xe01c0; 0xc00e0; 0x3fff870; 0x3fff870; 0x70630; 0x238738; 0x71c75c; 0xe0e3fe;
   0x1f471fc; 0x1fff8e0; 0x39ff8e0; 0x318c870; 0x19c7f8; 0x18c7fc; 0x18c1fc; 0x18c00c;
   0x118e400; 0x318e780; 0x71877f0; 0x31870fc; 0x3f83c1c; 0x3f81e00; 0x1400400; 0x0;
   0x0; 0x0; 0x0; 0x202000; 0x0; 0x0; 0x0; 0xc0;
   0x1c0; 0x3fffcc0; 0x3fffce0; 0x60070; 0x60070; 0x3fff930; 0x3fffb38; 0x3861b9c;
   0x3861bfe; 0x3fff9fc; 0x3fff8e0; 0x38618e0; 0x3861870; 0x3fffb38; 0x3fffbf8; 0x711fc;
   0x7380c; 0x77000; 0x3e200; 0x1c7f0; 0xfe3fc; 0x17f7c3c; 0x3f83f00; 0x3c00700;
   0x0; 0x0; 0x0; 0x0; 0x202000; 0x0; 0x0; 0x0;
   0xc0040; 0x30c20c0; 0x38c70e0; 0x18c60e0; 0x1cce070; 0xccc030; 0xccc630; 0xc0718;
   0x1fff31c; 0x1fff3fe; 0x18071fc; 0x18030e0; 0x1fff060; 0x1fff070; 0x1d57738; 0x18037fc;
   0x18071fc; 0x1fff00c; 0x1fff000; 0x1803600; 0x18077f0; 0x18031fe; 0x1d0701c; 0x1f03000;
   0x1f07000; 0x0; 0x0; 0x0; 0x0; 0x202000; 0x0; 0x0;
   0x0; 0x1c0; 0xffe1c0; 0x1ffe1c0; 0xc060e0; 0x1c06060; 0xc06070; 0x1ffe630;
   0xffe738; 0x71c; 0x3fe; 0x1fff1fc; 0x1fff0c0; 0x18070e0; 0x1803070; 0x1fff738;
   0x1fff7fc; 0x18071fc; 0x180300c; 0x1fff000; 0x1fff600; 0x18077f0; 0x18033fc; 0x180701c;
   0x1f03000; 0x1f07000; 0x0; 0x0; 0x0; 0x0; 0x202000; 0x0;
   0x0; 0x0; 0xc00040; 0x1ff80c0; 0x7ff0e0; 0xca060; 0xc0070; 0x3fff830;
   0x7fffe38; 0x3f0718; 0x7f831c; 0xedc3fe; 0x1ccf1fc; 0x78c78c0; 0x30c1860; 0x3ff070].
Definition hanzi_data_333 : list N :=
  [0x7ff738; 0x3187fc; 0x17181fc; 0x3f9800c; 0x3f9c000; 0x380c600; 0x380c7f0; 0x180e1fe;
   0x180701c; 0x1f83800; 0x1f81800; 0x0; 0x0; 0x0; 0x0; 0x202000;
   0x0; 0x0; 0x0; 0x8040; 0x3380c0; 0x61c0e0; 0xe0c060; 0x1c0e070;
   0x18c6030; 0x38e7738; 0x10e3318; 0x1f039c; 0x3b01fe; 0x3381fc; 0x71c0e0; 0xe1e060;
   0x1c0f030; 0x7ffff38; 0x3fffbfc; 0x1ffe1fc; 0xc0600c; 0x1c06000; 0xc06600; 0x1c067f0;
   0xc061fe; 0x1ffe01c; 0xffe000; 0x1c06000; 0x0; 0x0; 0x0; 0x0;
   0x202000; 0x0; 0x0; 0x0; 0xc0; 0x1f800c0; 0x1fff8c0; 0xbf8e0;
   0x1840070; 0x1863830; 0x1c63630; 0xee3618; 0x6c771c; 0x6263fe; 0x701fc; 0x300c0;
   0x7fffce0; 0x3fff870; 0x7ffff38; 0x60c7f8; 0x70e1fc; 0x30600c; 0x39f000; 0x1f8700;
   0x1f07f0; 0x7f80fe; 0x1f3f01c; 0x1c0fc00; 0x1801c00; 0x0; 0x0; 0x0;
   0x0; 0x202000; 0x0; 0x0; 0x0; 0x301c0; 0x381c0; 0xff80c0;
   0xffc0e0; 0xf5e070; 0x60f270; 0x71be30; 0x3b1738; 0x1f035c; 0x3f83fe; 0x1fbe1fc;
   0x7e0fcc0; 0x38e3860; 0xe0070; 0x1ffff38; 0x3fffffc; 0x1fff9fc; 0xe000c; 0xeee000;
   0xce6600; 0x1ce77f0; 0x38e39fc; 0x30e1c1c; 0xf8000; 0x78000; 0x0; 0x0;
   0x0; 0x0; 0x202000; 0x0; 0x0; 0x0; 0x180040; 0x1838c0;
   0x399f8e0; 0x199b8e0; 0x199b870; 0xdb3830; 0xdb3f30; 0x1b3f38; 0x15d7b1c; 0x3fffbfe;
   0x3fff9fc; 0x3c38c0; 0x7e3860; 0xfe3870; 0x1df3f38; 0x19bbff8; 0x319f9fc; 0x118b80c;
   0x18b800; 0x183e00; 0x183ff0; 0x2aab9fc; 0x3fff81c; 0x2aaa800; 0x0; 0x0;
   0x0; 0x0; 0x0; 0x202000; 0x0; 0x0; 0x0; 0x6060c0;
   0x6060c0; 0x70e0c0; 0x38c0e0; 0x1fffc70; 0x1fff830; 0x1ffff30; 0x1860318; 0x1c7039c;
   0x1aea9fe; 0x1fff9fc; 0xaeb8e0; 0x71870; 0x61830; 0x3fffff8; 0x3fffff8; 0x307807c;
   0x387c00c; 0x387e300; 0x38673c0; 0x1f779f8; 0x1f63c7e; 0x571e1c; 0x60400; 0x70000;
   0x0; 0x0; 0x0; 0x0; 0x202000; 0x0; 0x0; 0x0;
   0xe00c0; 0xe01c0; 0x3fff8c0; 0x3fff8e0; 0xe0060; 0xaea070; 0x1fff630; 0xaea738;
   0xe031c; 0x3fffbfe; 0x7fffdfc; 0xc0; 0x1fff060; 0x1fff070; 0x1803738; 0x18637f8;
   0x18631fc; 0x186300c; 0x1863000; 0x1863600; 0x1707f0; 0x7b83fc; 0x1f1f01c; 0x3807e00;
   0x3001c00; 0x0; 0x0; 0x0; 0x0; 0x202000; 0x0; 0x0;
   0x0; 0x700c0; 0x300c0; 0x38700c0; 0x1bff0e0; 0x1fff070; 0xeba030; 0x770630;
   0x330638; 0x7ffff1c; 0x3fffbfe; 0x7fffdfc; 0x700c0; 0x3c060; 0x1ffe070; 0x1ffff38;
   0x180fff8; 0x1c0c9fc; 0x1ffc00c; 0x1ffc000; 0x180c600; 0x1c0c7f0; 0x180c3fc; 0x1ffc01c;
   0x1ffc000; 0x1c0c000; 0x0; 0x0; 0x0; 0x0; 0x202000; 0x0;
   0x0; 0x0; 0x60040; 0x600e0; 0x600e0; 0xfff060; 0x1fff070; 0x60030;
   0x60338; 0x2aeab18; 0x3ffff9c; 0x2aaa9fe; 0x71c1fc; 0x1e0f0e0; 0x7c77c70; 0x3039c30;
   0xffc338; 0xffe3fc; 0x60f1fc; 0x70fc0c; 0x39dc00; 0x1f8380; 0xf03f0; 0x3f80fc;
   0x1f9f01c; 0x3e0fc00; 0x1001c00; 0x0; 0x0; 0x0; 0x0; 0x202000;
   0x0; 0x0; 0x0; 0x600c0; 0x600c0; 0x15750c0; 0xfff0e0; 0x1fff060;
   0x60030; 0x1575730; 0x3fffb38; 0x1fffb9c; 0x18801fe; 0x1cce1fc; 0xcd80e0; 0xd1060;
   0xc7030; 0xce3f8; 0xe03f8; 0x3fffc7c; 0x3fff80c; 0x170300; 0x3b03c0; 0x73c1fc;
   0xe1e03c; 0x1c0f01c; 0x3803c00; 0x3001800; 0x0; 0x0; 0x0; 0x0;
   0x202000; 0x0; 0x0; 0x0; 0xe00c0; 0xe00c0; 0xe00c0; 0x3fff8e0;
   0x3fff870; 0x60030; 0x1f0730; 0x7f8318; 0x1f1f39c; 0x1c0f9fe; 0x10019fc; 0x3fffce0;
   0x7fffc60; 0xc00030; 0xcff338; 0xcff3f8; 0xcd71fc; 0xcc300c; 0xcc3000; 0xceb200;
   0xcff7f0; 0xc033fc; 0xc0301c; 0xf80000; 0x780000; 0x0; 0x0; 0x0;
   0x0; 0x202000; 0x0; 0x0; 0x0; 0x3180c0; 0x3181c0; 0x3180c0;
   0x3180e0; 0x171d070; 0x3f1f870; 0x3f1f930; 0x318738; 0x31831c; 0x3183fe; 0x3f1f9fc;
   0x3f1f8e0; 0x318060; 0x318070; 0x318338; 0x3183fc; 0x7f1fffc; 0x3f1fc0c; 0x318000;
   0x318200; 0x3183f0; 0x3180fe; 0x31801c; 0x318000; 0x318000; 0x0; 0x0;
   0x0; 0x0; 0x202000; 0x0; 0x0; 0x0; 0xc0180; 0xc0180;
   0x3fc01c0; 0x3fc00e0; 0x15c0060; 0xc0060; 0x1fff470; 0x1fff638; 0x1d5771c; 0x18033fe;
   0x1fff1fc; 0x1fff1c0; 0x18070e0; 0x1803060; 0x1fff730; 0x1fff7f8; 0xc01fc; 0xc000c;
   0x7fff800; 0x3fffe00; 0x55d57f0; 0xc03fc; 0xc001c; 0xc0000; 0xc0000; 0x0;
   0x0; 0x0; 0x0; 0x202000; 0x0; 0x0; 0x0; 0x600c0;
   0x30618c0; 0x38618c0; 0x18630e0; 0x1c67060; 0xe66030; 0x76e730; 0x60338; 0x3fffb9c;
   0x3fff9fe; 0x3d559fc; 0x38018e0; 0x3bfd860; 0x3bf9830; 0x3b5dbf8; 0x3b09bf8; 0x3b1d87c;
   0x3b0980c; 0x3bfda00; 0x3bf9b80; 0x381dbf8; 0x380987e; 0x380181c; 0x3f01800; 0x1f01800;
   0x0; 0x0; 0x0; 0x0; 0x202000; 0x0; 0x0; 0x0;
   0x40; 0xfff8c0; 0x1fff8c0; 0xc038e0; 0x1c03870; 0xfff870; 0x1fffa30; 0xc03f38;
   0x1c03b1c; 0xeabbfe; 0x1fff9fc; 0xaaa8c0; 0x1c38e0; 0x183870; 0x11c3b38; 0x3dbfbf8;
   0x1fff9fc; 0x3ab80c; 0x1c3800; 0x183b80; 0x71c3ff0; 0x21a38fe; 0x75ff81c; 0x3f8f800;
   0x1f01800; 0x0; 0x0; 0x0; 0x0; 0x202000; 0x0; 0x0;
   0x0; 0xc0; 0xffe1c0; 0x1fff0c0; 0xc020e0; 0x1c07060; 0xc02070; 0x1fff730;
   0xaea738; 0x6031c; 0x1fffbfe; 0x1fff9fc; 0x18638e0; 0x1863860; 0x1aeb870; 0x1ffff38;
   0x1863bfc; 0x18639fc; 0x186380c; 0x1fff800; 0x1fffb80; 0x7063ff0; 0x30600fc; 0x306001c;
   0x3fe0000; 0x1fc0000; 0x0; 0x0; 0x0; 0x0; 0x202000; 0x0].
Definition hanzi_data_334 : list N :=
  [0x0; 0x0; 0x1980c0; 0x1d80c0; 0x19c0c0; 0x38c0e0; 0x10e070; 0x3ffe030;
   0x3fff630; 0x187738; 0x187b1c; 0x187ffe; 0x1fffdfc; 0x1ffe8c0; 0x186060; 0x186070;
   0x186738; 0xbae3f8; 0x1ffe1fc; 0xbae00c; 0x186000; 0x186600; 0x1867f0; 0x3ffe3fc;
   0x7ffe01c; 0x6000; 0x6000; 0x0; 0x0; 0x0; 0x0; 0x202000;
   0x0; 0x0; 0x0; 0xe0180; 0x601c0; 0x15751c0; 0x1fff0e0; 0x1d57060;
   0x1803070; 0x1fff630; 0x1fff738; 0x180731c; 0x18033fe; 0x1fff1fc; 0x1fff0c0; 0xe00e0;
   0xe0070; 0x3fffff8; 0x3fffbf8; 0x38e39fc; 0x38e380c; 0x38e3a00; 0x38e3b80; 0x38e39f8;
   0x3ee387e; 0x1ee381c; 0xe0000; 0xe0000; 0x0; 0x0; 0x0; 0x0;
   0x202000; 0x0; 0x0; 0x0; 0x1c000c0; 0x1fe81c0; 0x7ff9c0; 0x80b8e0;
   0x1c63060; 0xce3070; 0xcc6630; 0x6c6638; 0x7ffff1c; 0x3fffbfe; 0x7001dfc; 0x30008c0;
   0x7001ce0; 0xfff070; 0x1fff738; 0xc067fc; 0xe0e1fc; 0x70c00c; 0x79c000; 0x3f8600;
   0x1f07f0; 0x3f80fe; 0x1f9f81c; 0x7e07c00; 0x3001c00; 0x0; 0x0; 0x0;
   0x0; 0x202000; 0x0; 0x0; 0x0; 0x40; 0x3f9fcc0; 0x3fdfce0;
   0x3898c60; 0x39d8c70; 0x3898c30; 0x39d8f30; 0x3f9ff98; 0x3fdfd9c; 0x3898cfe; 0x39d8cfc;
   0x3898c60; 0x39d8c70; 0x3898c30; 0x3fdfdd8; 0x3fdfdf8; 0x38d8c7c; 0x38d8c0c; 0x38d8d00;
   0x38d8fc0; 0x38d87f8; 0x38f863c; 0x3d7f71c; 0x1e7e380; 0x1e24100; 0x0; 0x0;
   0x0; 0x0; 0x202000; 0x0; 0x0; 0x0; 0xc0; 0x3fff0c0;
   0x3fff0c0; 0x3aab0e0; 0x38c3070; 0x38c3030; 0x3ffb630; 0x3bfb738; 0x38c331c; 0x38c33fe;
   0x3fff1fc; 0x3ffb0c0; 0x38030e0; 0x3803070; 0x3bfb738; 0x3bfbbf8; 0x3b199fc; 0x3b1980c;
   0x3b19800; 0x3bf9a00; 0x3bf9ff0; 0x3818ffc; 0x3800e1c; 0x1f00600; 0x1f00600; 0x0;
   0x0; 0x0; 0x0; 0x202000; 0x0; 0x0; 0x0; 0x6040;
   0x60c0; 0x70e0; 0x3060; 0x3fff870; 0x3fff830; 0x300dd30; 0x300ef98; 0x33fef9c;
   0x33fe1fe; 0x30331fc; 0x30338e0; 0x3031070; 0x3bff830; 0x37ffbf8; 0x3b333fc; 0x3b3307c;
   0x3b3300c; 0x3b33000; 0x3bff380; 0x1bff3f0; 0x180007c; 0x1c0001c; 0x1f80000; 0xf80000;
   0x0; 0x0; 0x0; 0x0; 0x202000; 0x0; 0x0; 0x0;
   0x70e040; 0x6060e0; 0x756060; 0x6ff060; 0x777070; 0x1e63830; 0x3f77d38; 0x3636f18;
   0x273ef9c; 0x61c1fe; 0x71c1fc; 0x63e0e0; 0x7ff7070; 0x3fc3c30; 0x1401df8; 0xffe3fc;
   0x1fff07c; 0xc0600c; 0x1c07000; 0xc06380; 0x1c073f0; 0xc0607e; 0x1fff01c; 0xffe000;
   0x1c07000; 0x0; 0x0; 0x0; 0x0; 0x202000; 0x0; 0x0;
   0x0; 0x60040; 0xc630e0; 0xc670e0; 0xe6e060; 0x774070; 0xaea830; 0x1fffb38;
   0xaba318; 0x3839c; 0x381fe; 0x3fffdfc; 0x3fffce0; 0x60e070; 0xc0e030; 0x1fff338;
   0x3bffffc; 0x330fdfc; 0x30e80c; 0x34e000; 0x3ce200; 0x194e3f0; 0x180e1fc; 0x1d5e01c;
   0x1ffc000; 0xffc000; 0x0; 0x0; 0x0; 0x0; 0x202000; 0x0;
   0x0; 0x0; 0x700c0; 0xe00c0; 0xe00c0; 0x3fff8e0; 0x3fff870; 0x3aab830;
   0x3003e30; 0x3003f38; 0xffe31c; 0xffe3fe; 0x1fc; 0xc0; 0x60; 0x3fff870;
   0x3ffff38; 0xe03f8; 0xe01fc; 0xeee00c; 0x1ce7000; 0x18e3600; 0x38e3ff0; 0x30e1ffc;
   0x70e1c1c; 0xf8800; 0x78000; 0x0; 0x0; 0x0; 0x0; 0x202000;
   0x0; 0x0; 0x0; 0x700c0; 0xe01c0; 0xe00c0; 0x2aea8e0; 0x3fff870;
   0x3aab870; 0x3001a30; 0x3001f38; 0x71c; 0x1fff3fe; 0x1fff1fc; 0xc00c0; 0xc00e0;
   0xc6070; 0xc6738; 0x1fc67fc; 0x1fc61fc; 0xc600c; 0xc7000; 0xcf600; 0xdf7f0;
   0xfb9fe; 0x7ff1c1c; 0x3fe1c00; 0x3f00800; 0x0; 0x0; 0x0; 0x0;
   0x202000; 0x0; 0x0; 0x0; 0x700c0; 0xe00c0; 0xe00e0; 0x3fff8e0;
   0x3fffc70; 0x3001830; 0x3001f30; 0x3ffff38; 0xfff31c; 0xe063fe; 0xe071fc; 0xe060c0;
   0xfff0e0; 0xffe070; 0x7738; 0x67f8; 0x1fff1fc; 0x1ffe00c; 0x1c07000; 0x1806600;
   0x1c077f0; 0x18063fc; 0x1fff01c; 0x1ffe000; 0x1c07000; 0x0; 0x0; 0x0;
   0x0; 0x202000; 0x0; 0x0; 0x0; 0x40; 0xfff0c0; 0x1fff0e0;
   0xc000e0; 0x1c00070; 0xffe030; 0x1ffe730; 0xc00338; 0xc0039c; 0x3fff9fe; 0x7fff9fc;
   0x2aea8e0; 0x10c1070; 0x38c7030; 0x1ccf338; 0xecc3fc; 0x7ec1fc; 0x3f000c; 0x7fc000;
   0xece380; 0x1cc7ff0; 0x38c38fc; 0x30c001c; 0xf8000; 0x78000; 0x0; 0x0;
   0x0; 0x0; 0x202000; 0x0; 0x0; 0x0; 0x40; 0xa8a8e0;
   0x3fdfc60; 0x1a9a860; 0x181c070; 0xcccc30; 0xfcfd38; 0xf8f398; 0x1f1f19c; 0x3f9b8fe;
   0x39d1cfc; 0xe0e60; 0x40470; 0x3fffe30; 0x3fffff8; 0x38d83f8; 0x18dc47c; 0x1d8ce0c;
   0xd8ff00; 0xf873c0; 0x71f1fc; 0xf9f83e; 0x1de9e0c; 0x38f8700; 0x3030300; 0x0;
   0x0; 0x0; 0x0; 0x202000; 0x0; 0x0; 0x0; 0x10440c0;
   0x18ce0c0; 0x1ce60c0; 0xc630e0; 0xe73070; 0x631830; 0x773e30; 0xe63638; 0x1ce731c;
   0x38ce3fe; 0x31cc1fc; 0x10840c0; 0x1fff0e0; 0x1fff070; 0x18e3738; 0x18e33f8; 0x18e31fc;
   0x1fff00c; 0x1fff000; 0x18e3600; 0x18e37f0; 0x18e33fc; 0x1fff01c; 0x1fff000; 0x1803000;
   0x0; 0x0; 0x0; 0x0; 0x202000; 0x0; 0x0; 0x0;
   0x60e0c0; 0x60e0c0; 0x60e0e0; 0x3fffce0; 0x7fffc70; 0x60e030; 0x60e730; 0x7fe738;
   0x7fe31c; 0xe03fe; 0x1fff1fc; 0x1fff0c0; 0x18e30e0; 0x18e3070; 0x18e3738; 0x1fff7f8;
   0x1fff1fc; 0xe000c; 0x15f5000; 0x3fffa00; 0x7fffff0; 0xe03fc; 0xe001c; 0xe0000;
   0xe0000; 0x0; 0x0; 0x0; 0x0; 0x202000; 0x0; 0x0;
   0x0; 0x6040; 0x3fc60e0; 0x3fc6060; 0x38c6060; 0x38c6070; 0x38c6030; 0x38ffd30;
   0x38fff98; 0x3fc71dc; 0x3fc71fc; 0x38cf0fc; 0x38cf8e0; 0x38df860; 0x38ff830; 0x3ff7df8].
Definition hanzi_data_335 : list N :=
  [0x3fd6df8; 0x3dc6e7c; 0x38c660c; 0x38c6500; 0x38c6380; 0x38c61f0; 0x3fc603c; 0x3fc601c;
   0x38c6000; 0x38c6000; 0x0; 0x0; 0x0; 0x0; 0x202000; 0x0;
   0x0; 0x0; 0xf00040; 0x1f000e0; 0x3b000e0; 0x3300060; 0x7fff870; 0x3fff830;
   0x5755f30; 0x301b18; 0x3ff9dc; 0x33ff9fe; 0x33019fc; 0x1b018e0; 0x1b7d860; 0x1b7d830;
   0x1f6dbf8; 0xe6dbf8; 0xf6d87c; 0x66d80c; 0x77de00; 0x27acf80; 0x678cff0; 0x6ec0c7c;
   0x7cf061c; 0x3c78600; 0x3830400; 0x0; 0x0; 0x0; 0x0; 0x202000;
   0x0; 0x0; 0x0; 0x40; 0x3fffcc0; 0x3fffce0; 0x2aea8e0; 0x60070;
   0x60030; 0x70730; 0x3fffb18; 0x3fffb9c; 0x39199fe; 0x39199fc; 0x39198e0; 0x39f9870;
   0x39b9830; 0x3919b38; 0x3919bfc; 0x39599fc; 0x39f980c; 0x3919800; 0x3919a00; 0x3919bf0;
   0x3919bfc; 0x3fff81c; 0x3fff800; 0x3801800; 0x0; 0x0; 0x0; 0x0;
   0x202000; 0x0; 0x0; 0x0; 0x3180c0; 0x3198c0; 0x3998c0; 0x3f998e0;
   0x3fd9870; 0xd9830; 0x7d9f30; 0xe79b18; 0x1c59b9c; 0x8189fe; 0x1fc; 0xfff0e0;
   0xfff060; 0xc03030; 0xc633f8; 0xc633f8; 0xc6307c; 0xc6300c; 0xc73600; 0xcf3780;
   0x10f83f8; 0x20d807c; 0x7fdf01c; 0x3fc7e00; 0x1501c00; 0x0; 0x0; 0x0;
   0x0; 0x202000; 0x0; 0x0; 0x0; 0xc0; 0xffe1c0; 0x1fff0c0;
   0xc060e0; 0x1c07060; 0xffe070; 0x1fff630; 0xc06638; 0x1d5771c; 0xffe3fe; 0x15551fc;
   0xc0; 0x3fff8e0; 0x3fff870; 0xe0738; 0xe67fc; 0xe75fc; 0x1fe600c; 0x1fe7000;
   0xe7600; 0xefff0; 0xfdbfe; 0x7ff9c3c; 0x3fe0e00; 0x1500400; 0x0; 0x0;
   0x0; 0x0; 0x202000; 0x0; 0x0; 0x0; 0x700060; 0x30fc60;
   0x70fc60; 0x30cc60; 0x1fccc70; 0x1becc30; 0x1f6cd38; 0x3b6ff98; 0x376fddc; 0x336ccfe;
   0x777ccfc; 0x233cc60; 0x273cc70; 0x332fc30; 0x370fd38; 0x3b0cdf8; 0x180cdfc; 0x1c0cc0c;
   0xe0cc00; 0x60fd80; 0x78fdf0; 0x3c0cfc; 0x1f0c1c; 0x78000; 0x30000; 0x0;
   0x0; 0x0; 0x0; 0x202000; 0x0; 0x0; 0x0; 0x40;
   0x1ffe0c0; 0x1fff0c0; 0x18060e0; 0x1c07070; 0x1aae070; 0x1fff730; 0xaaa738; 0x39c;
   0x3fffbfe; 0x3fff9fc; 0xc060e0; 0x1d56060; 0xffe070; 0x1d56738; 0xc063fc; 0x1ffe1fc;
   0xffe00c; 0x1c06000; 0x3f86380; 0x3fffff0; 0xcff8fc; 0x1c0001c; 0xc00000; 0x1c00000;
   0x0; 0x0; 0x0; 0x0; 0x202000; 0x0; 0x0; 0x0;
   0xc0; 0xfff0c0; 0xfff0c0; 0xc030e0; 0xc03060; 0xeab070; 0xfff630; 0xeab738;
   0xc0331c; 0xc033fc; 0xfff1fc; 0xfff0c0; 0xe0; 0x60; 0x1fffb30; 0x1fffbf8;
   0x19998fc; 0x199980c; 0x1999800; 0x1999b80; 0x1999ff0; 0x19998fc; 0x7fffe1c; 0x3fffe00;
   0x0; 0x0; 0x0; 0x0; 0x0; 0x202000; 0x0; 0x0;
   0x0; 0x700c0; 0x600c0; 0x1fff8e0; 0xeeb8e0; 0x1c71870; 0xeeb830; 0x1fff930;
   0x60338; 0x157579c; 0x3fffffe; 0x7fffdfc; 0xe0; 0x1fff860; 0xfff870; 0x1c01b38;
   0xc61bf8; 0x1c619fc; 0xc6180c; 0x1c71800; 0xc71a00; 0x15f13f0; 0x7fc3fc; 0x1f1f01c;
   0x3807e00; 0x1001c00; 0x0; 0x0; 0x0; 0x0; 0x202000; 0x0;
   0x0; 0x0; 0xc0; 0x1fff0c0; 0x1fff0e0; 0x18630e0; 0x1863070; 0x1863070;
   0x1fff630; 0x1fff738; 0x186335c; 0x18633fe; 0x18631fc; 0x1fff0e0; 0x1fff060; 0x70;
   0x607f8; 0x8edffc; 0x1ccd87c; 0x19cd80c; 0x398d800; 0x320db80; 0x760dff0; 0x360ccfe;
   0x17fcc1c; 0x7fc000; 0x150000; 0x0; 0x0; 0x0; 0x0; 0x202000;
   0x0; 0x0; 0x0; 0x400040; 0xff80e0; 0xfff0e0; 0xef060; 0xe0070;
   0xe0030; 0x3fffb38; 0x3fffb18; 0x1ff739c; 0xee61fe; 0xee61fc; 0x2eee8e0; 0x3fffc70;
   0x3fff830; 0xee6338; 0xee63fc; 0x1ff71fc; 0x3fff80c; 0x3fff800; 0xe0380; 0xe03f0;
   0xe00fc; 0x1fff01c; 0x1fff000; 0x0; 0x0; 0x0; 0x0; 0x0;
   0x202000; 0x0; 0x0; 0x0; 0x1c040; 0xfde0e0; 0xfcf860; 0xcc1860;
   0xcc1870; 0xcc1830; 0xcc5b30; 0xcefb98; 0xc7f99c; 0x3c619fe; 0x78718fc; 0x218e0;
   0x3fff870; 0x3fef830; 0x18619f8; 0x18c1bf8; 0x1cc187c; 0xd9980c; 0xf9fc00; 0x78fd80;
   0x781df8; 0xfc183c; 0x3df181c; 0x3879800; 0x3011800; 0x0; 0x0; 0x0;
   0x0; 0x202000; 0x0; 0x0; 0x0; 0x1060; 0x3060; 0x3fff070;
   0x3fff830; 0x181830; 0x181838; 0x3ffdd98; 0x3ff9d98; 0x399dddc; 0x3989efe; 0x3ffdffc;
   0x3ba9a60; 0x399d870; 0x3989830; 0x3ffd918; 0x3ff99f8; 0x18d9fc; 0x19980c; 0x1f9800;
   0xf1980; 0x1e19f0; 0x3e187e; 0x1ff981c; 0x3e3d800; 0x300d800; 0x0; 0x0;
   0x0; 0x0; 0x202000; 0x0; 0x0; 0x0; 0xc0040; 0xe00c0;
   0x600e0; 0x1ffe060; 0x1fff070; 0x1806030; 0x1c07638; 0x1ffe718; 0x1fff31c; 0x18063fe;
   0x1d571fc; 0x1ffe0c0; 0x1fff060; 0x10c0070; 0x39d5738; 0x1dffff8; 0xfdf9fc; 0x7d800c;
   0x7dc000; 0xece780; 0x1cc77f0; 0x3cc38fe; 0x78c1c1c; 0x20f8800; 0x78000; 0x0;
   0x0; 0x0; 0x0; 0x202000; 0x0; 0x0; 0x0; 0x60c0;
   0xff60c0; 0xff70c0; 0xc030e0; 0xc03870; 0xc01830; 0x3ffdd30; 0x3ffdfb8; 0x11f9c;
   0x31ffe; 0x319fc; 0x3ff98e0; 0x3ff9870; 0x19d830; 0x18d9f8; 0x189bf8; 0x3ffd87c;
   0x3ffd80c; 0x3c1b00; 0x3c1b80; 0x6c1bf8; 0xe6187c; 0x1c7981c; 0x383d800; 0x300d800;
   0x0; 0x0; 0x0; 0x0; 0x202000; 0x0; 0x0; 0x0;
   0x380040; 0x3808e0; 0x181c60; 0x1ff1860; 0x1ff3870; 0x1833030; 0x1c30138; 0x1830398;
   0x1ff019c; 0x1ff3efe; 0x1573efc; 0x33060; 0x1ff3070; 0x1ff3030; 0x1d731f8; 0x18333f8;
   0x183307c; 0x183300c; 0x1ff3300; 0x1ff33c0; 0x15579fc; 0xfc3e; 0x7ffce0c; 0x3ff8600;
   0x1540400; 0x0; 0x0; 0x0; 0x0; 0x202000; 0x0; 0x0].
Definition hanzi_data_336 : list N :=
  [0x0; 0x1c000c0; 0x1ffe8c0; 0x7ff8c0; 0x18228e0; 0x1c73070; 0xe63070; 0x667630;
   0x3ffff38; 0x3fffb1c; 0xc3fe; 0xc1fc; 0x3fffcc0; 0x3fffc60; 0xc070; 0x55e7f8;
   0xffe3fc; 0xd5e1fc; 0xe0e00c; 0x71f400; 0x3bbf80; 0x1f3ff0; 0x3e1cfe; 0x1ffce1c;
   0x3e3f700; 0x3806200; 0x0; 0x0; 0x0; 0x0; 0x202000; 0x0;
   0x0; 0x0; 0x600c0; 0xe00c0; 0x3fff8c0; 0x3fff8e0; 0x3fff870; 0x60c030;
   0x71c730; 0x318318; 0x3fffb9c; 0x3fff9fe; 0x30619fc; 0x30618e0; 0x3061860; 0x1fff030;
   0x1fff3f8; 0x18633fc; 0x186707c; 0x186300c; 0x1867400; 0x1863780; 0x1f677f0; 0xe630fe;
   0x6001c; 0x60000; 0x60000; 0x0; 0x0; 0x0; 0x0; 0x202000;
   0x0; 0x0; 0x0; 0xe0040; 0x18e30c0; 0x1ce70e0; 0xcee0e0; 0x6ec070;
   0x3fff830; 0x3ffff30; 0x1f8318; 0x7fc39c; 0xeee1fe; 0x3ce79fc; 0x38e38e0; 0x10f0070;
   0x30030; 0x1575338; 0x3fffbfc; 0x3fff9fc; 0x60c00c; 0x70e000; 0x3be200; 0x1fc3f0;
   0x3e01fc; 0x1f7c01c; 0x3e3f800; 0x1007000; 0x0; 0x0; 0x0; 0x0;
   0x202000; 0x0; 0x0; 0x0; 0x700c0; 0xe00c0; 0xc00e0; 0x1fff860;
   0x1fff870; 0x1803830; 0x1803f30; 0x1aabb18; 0x1fffb9c; 0xaab9fe; 0x39fc; 0x2aab8e0;
   0x3fff870; 0x3bef830; 0x3367bb8; 0x3367bf8; 0x336787c; 0x3fff80c; 0x3ffff00; 0x3366fc0;
   0x3366df8; 0x3366c3e; 0x3366e1c; 0x3f66600; 0x1c06400; 0x0; 0x0; 0x0;
   0x0; 0x202000; 0x0; 0x0; 0x0; 0x40; 0x1fff8c0; 0x1fff8e0;
   0x18038e0; 0x1fff870; 0x1fff830; 0xc3f30; 0xc3b38; 0x3fffb9c; 0x3fff9fe; 0x1839fc;
   0x23bb8e0; 0x7f7fc60; 0x3e03870; 0x1555738; 0x1fff3fc; 0x1d571fc; 0x180300c; 0x1fff000;
   0x1fff200; 0x1c037f0; 0x18031fc; 0x1fff01c; 0x1fff000; 0x1c03000; 0x0; 0x0;
   0x0; 0x0; 0x202000; 0x0; 0x0; 0x0; 0xc080; 0xe180;
   0x7fe1c0; 0x6ae0e0; 0x606060; 0x7fe060; 0x7ff770; 0x300338; 0x175571c; 0x3fffdfc;
   0x55755fc; 0x3c0c0; 0x3c3f060; 0x1e73c70; 0x7f1bf0; 0x7f83f8; 0x4df07c; 0xcc780c;
   0xdf1f00; 0x9b83c0; 0x19dc1f8; 0x398f83c; 0x31c3c1c; 0xf8800; 0x78000; 0x0;
   0x0; 0x0; 0x0; 0x202000; 0x0; 0x0; 0x0; 0xc0;
   0x3fff8c0; 0x3fff8e0; 0x2bba8e0; 0x19b9070; 0x19bb030; 0x1dbf730; 0xdbe718; 0xdbe39c;
   0x1ba3fe; 0x7fffdfc; 0x3fffce0; 0x60; 0xaaa070; 0x1fff738; 0x1aab3fc; 0x1c071fc;
   0x180300c; 0x1fff000; 0x1aab600; 0x1c077f0; 0x18033fe; 0x1fff01c; 0x1aab000; 0x1c07000;
   0x0; 0x0; 0x0; 0x0; 0x202000; 0x0; 0x0; 0x0;
   0x6e00c0; 0xee00c0; 0x1df50c0; 0x3fff8e0; 0x3fff870; 0xe0070; 0x1fff630; 0x1fff638;
   0x18e371c; 0x1fff3fe; 0x1fff1fc; 0x18e30c0; 0x1fff0e0; 0x1fff070; 0x1ce3738; 0x6023fc;
   0x7fffdfc; 0x3fff80c; 0x5755000; 0x60e000; 0x61c7f0; 0x6387fe; 0x61007c; 0x7c0000;
   0x7c0000; 0x0; 0x0; 0x0; 0x0; 0x202000; 0x0; 0x0;
   0x0; 0x40; 0x3fff8c0; 0x3fff8e0; 0x1860; 0x1ffd870; 0x1ff9830; 0x1b30;
   0x3fffb18; 0x7fffb9c; 0x11999fe; 0x1f999fc; 0xf198e0; 0xed9870; 0x3cfd830; 0x3e39b38;
   0x601bfc; 0x7fffdfc; 0x3ffec0c; 0x600c00; 0x61cf80; 0x638ff0; 0x670efe; 0x62071c;
   0x7c0300; 0x780000; 0x0; 0x0; 0x0; 0x0; 0x202000; 0x0;
   0x0; 0x0; 0xe0080; 0xe0180; 0x3fff9c0; 0x3fff8e0; 0x1575060; 0x60060;
   0x1fff670; 0xfff638; 0x1c0771c; 0xfff3fe; 0x1fff1fc; 0xc030c0; 0x1fff0e0; 0xeab060;
   0x1c07730; 0xfff7f8; 0x1d571fc; 0xc0300c; 0x7fff800; 0x3ffff00; 0x71c7f0; 0xf0e0fc;
   0x1c0781c; 0x3803e00; 0x1000c00; 0x0; 0x0; 0x0; 0x0; 0x202000;
   0x0; 0x0; 0x0; 0xc0040; 0xe0ce0; 0x1fe0ce0; 0x1ff0c60; 0x1c39c70;
   0xe7d830; 0x7ed938; 0x380398; 0x7f019c; 0x3e781fe; 0x3d9fefc; 0x183ee0; 0x1fff870;
   0x183830; 0x15d3b38; 0xffbbfc; 0x1839fc; 0x18380c; 0x3fff800; 0x2babb80; 0x183bf8;
   0x187cfc; 0x7ffce1c; 0x3ff8600; 0x1540200; 0x0; 0x0; 0x0; 0x0;
   0x202000; 0x0; 0x0; 0x0; 0x30040; 0x380e0; 0x1575460; 0x3fffc60;
   0x3fffc70; 0x30; 0xfff9b8; 0xfff998; 0xc039dc; 0x3eabcfe; 0x3fffcfc; 0xc03860;
   0xc03870; 0xfff830; 0xfff9d8; 0x18f81f8; 0x1cde07c; 0xecf00c; 0x7c7d00; 0x387fc0;
   0x7065f8; 0xe6603e; 0x7c7f00c; 0x381e000; 0x2000; 0x0; 0x0; 0x0;
   0x0; 0x202000; 0x0; 0x0; 0x0; 0x70040; 0x600c0; 0x600e0;
   0x3fffc60; 0x3fffc70; 0x30; 0xfff730; 0xfff318; 0xc0739c; 0xc031fe; 0xfff1fc;
   0xfff0e0; 0x60; 0x3fff830; 0x3ffff38; 0x3801bfc; 0x3bfddfc; 0x3bfd80c; 0x3b0dc00;
   0x3b0db80; 0x3bfdff0; 0x3bfd87c; 0x3801c1c; 0x3e01800; 0x1e01c00; 0x0; 0x0;
   0x0; 0x0; 0x202000; 0x0; 0x0; 0x0; 0xe0040; 0xe00c0;
   0x3fff8e0; 0x3fff860; 0x1870; 0xaa9830; 0x1ffdb30; 0x188db18; 0x19cdb9c; 0x1aad9fe;
   0x1ffd9fc; 0x188d8e0; 0x19cd860; 0x1ffd830; 0x1ffdbf8; 0x81bf8; 0x1c187c; 0x1ffd80c;
   0x1ffdd00; 0x80fc0; 0x1c0dfc; 0x80c3c; 0x3fffe0c; 0x3ffe600; 0x400; 0x0;
   0x0; 0x0; 0x0; 0x202000; 0x0; 0x0; 0x0; 0x70040;
   0x600c0; 0x3fffce0; 0x3fffce0; 0x3fffc70; 0x1b0b030; 0x1dfb730; 0x18e3318; 0x1df339c;
   0x1bbb1fe; 0x1d1f1fc; 0x1fff0e0; 0x1fff070; 0x60030; 0x1575338; 0x3fffbfc; 0x3fffdfc;
   0x399980c; 0x3b1dc00; 0x3beda00; 0x3ffdff0; 0x3e0d9fc; 0x3801c1c; 0x3f01800; 0x1f01c00;
   0x0; 0x0; 0x0; 0x0; 0x202000; 0x0; 0x0; 0x0;
   0x4060c0; 0xe060c0; 0x60e0c0; 0x70c0e0; 0x31c060; 0x70; 0x3fffd30; 0x3fffbb8;
   0x10819c; 0x39c1fe; 0xf0f0fc; 0x3e078e0; 0x3803c70; 0xc30; 0x1fffb38; 0x1fffbfc].
Definition hanzi_data_337 : list N :=
  [0x19999fc; 0x199980c; 0x1999800; 0x1999b80; 0x1999ff0; 0x19998fc; 0x7fffe1c; 0x7fffe00;
   0x0; 0x0; 0x0; 0x0; 0x0; 0x202000; 0x0; 0x0;
   0x0; 0x602040; 0x6060c0; 0x70e0e0; 0x38c060; 0x3fffc70; 0x3fffc30; 0x1cc330;
   0x8c398; 0x1fff99c; 0x1fff9fe; 0x19cc0fc; 0x3aae8e0; 0x3fffc70; 0x3aae830; 0x19cc1f8;
   0x1aaebf8; 0x1fffc7c; 0x38e00c; 0x3cf300; 0x68f3c0; 0xfcf9f8; 0x1c8dc3c; 0x79cce1c;
   0x308c600; 0x1cc000; 0x0; 0x0; 0x0; 0x0; 0x202000; 0x0;
   0x0; 0x0; 0x70040; 0xe00c0; 0xe00e0; 0x3fff860; 0x3fff870; 0x3001830;
   0x3f01f30; 0x3fffb18; 0x7fe39c; 0x61fe; 0x61fc; 0x1ffe0e0; 0x1ffe060; 0x386070;
   0x3863f8; 0x3863f8; 0x3860fc; 0x3fffc0c; 0x3ffff00; 0x8380; 0x71c1f8; 0xe0e07e;
   0x3c07c1c; 0x3801e00; 0x3000400; 0x0; 0x0; 0x0; 0x0; 0x202000;
   0x0; 0x0; 0x0; 0xc0; 0x3fff8c0; 0x3fff8c0; 0x1900e0; 0x190070;
   0x3fff830; 0x3fffb30; 0x3193b18; 0x3193b1c; 0x3fff9fe; 0x3fff9fc; 0xe0; 0x1fff060;
   0xffe070; 0x338; 0x3fc; 0x7fff9fc; 0x3fff80c; 0x4e4000; 0xeee200; 0x1ce77f0;
   0x38e39fe; 0x30e1c1c; 0x30f8800; 0x78000; 0x0; 0x0; 0x0; 0x0;
   0x202000; 0x0; 0x0; 0x0; 0xc0; 0x1ffe1c0; 0x1d570c0; 0x18060e0;
   0x1fff070; 0x1806070; 0x1d57730; 0x1ffe738; 0x31c; 0x3fffbfe; 0x3fff9fc; 0x31118e0;
   0x3111860; 0x3fff870; 0x3ffff38; 0x3fc; 0x1fff1fc; 0x1eae00c; 0xe0c000; 0x71c200;
   0x3f87f0; 0x1f01fc; 0xfff01c; 0x3f0fc00; 0x3c01c00; 0x0; 0x0; 0x0;
   0x0; 0x202000; 0x0; 0x0; 0x0; 0x40; 0x1fff8c0; 0x1fff8e0;
   0x18618e0; 0x1c61870; 0x1fff830; 0x1ffff30; 0x1861b38; 0x1fffb9c; 0x1fff9fe; 0x381fc;
   0x30e0e0; 0x3ff060; 0xff030; 0xe75338; 0xc3c3fc; 0x1fff1fc; 0x3fff80c; 0x70c7800;
   0x6ce200; 0xec77f0; 0x1cc33fc; 0x38c381c; 0x30f9800; 0x78000; 0x0; 0x0;
   0x0; 0x0; 0x202000; 0x0; 0x0; 0x0; 0x40; 0x1fdfcc0;
   0x1fdfce0; 0x16dac60; 0x16dec70; 0x16dac30; 0x16def38; 0x12daf98; 0x17dbd9c; 0x12dbdfe;
   0x7070fc; 0xf8f8e0; 0x1dd9c70; 0x38e8e30; 0x1058538; 0x181f8; 0x7fffffc; 0x2eaea0c;
   0x706000; 0x38f000; 0x1ff1f0; 0x3f80fc; 0x1fff01c; 0x3e0fe00; 0x1801c00; 0x0;
   0x0; 0x0; 0x0; 0x202000; 0x0; 0x0; 0x0; 0x700c0;
   0x600c0; 0x15754c0; 0x3fffce0; 0x3fffc60; 0x3000c30; 0x3007f30; 0x3ffe338; 0x3fff39c;
   0x1831fe; 0x1831fc; 0x1838e0; 0x1ffbc60; 0x1ffbc30; 0x183bff8; 0x183b7f8; 0x1d7b07c;
   0x1ffb00c; 0x1ffb300; 0x183b380; 0x183b3f0; 0x183b07c; 0x1ffb01c; 0x1ffb000; 0x183b000;
   0x0; 0x0; 0x0; 0x0; 0x202000; 0x0; 0x0; 0x0;
   0x40; 0x1fdfce0; 0x1fdfc60; 0x1898860; 0x1bdbc70; 0x1f1a030; 0x1c1c338; 0x1f1f398;
   0x1bdbd9c; 0x18989fe; 0x18501fc; 0xe00e0; 0x1fc070; 0xf9e030; 0x7ec7df8; 0x3871dfc;
   0x33c1fc; 0x38f00c; 0x1df2000; 0xe78200; 0xf1f3f0; 0x3c21fc; 0x1fc01c; 0x3f800;
   0x7800; 0x0; 0x0; 0x0; 0x0; 0x202000; 0x0; 0x0;
   0x0; 0x19c60c0; 0x1ce71c0; 0xe730c0; 0x7338e0; 0xe77070; 0x1ce6070; 0x19c6730;
   0x1fff738; 0x1fff31c; 0x18e33fe; 0x1fff1fc; 0x1fff0e0; 0x1ce3060; 0x1aeb070; 0x1fff738;
   0xe03fc; 0x3fff9fc; 0x3fff80c; 0x15f5000; 0x3f8380; 0x7fc7f0; 0xeef0fc; 0x3ce7c1c;
   0x38e1c00; 0x10e0000; 0x0; 0x0; 0x0; 0x0; 0x202000; 0x0;
   0x0; 0x0; 0x3060; 0x2aa3060; 0x3ff3060; 0x2ba3060; 0x31ff70; 0x31fe30;
   0x3fe3198; 0x3fe3198; 0x38631dc; 0x3a6bafe; 0x3b6fefc; 0x3a6aa60; 0x3b60070; 0x3b6aa30;
   0x3b6fed8; 0x3b6c6fc; 0x3b6c67c; 0x3b6c60c; 0x136c600; 0x30c6c0; 0xd8fff8; 0x198fe3c;
   0x38c061c; 0x3070200; 0x2030000; 0x0; 0x0; 0x0; 0x0; 0x202000;
   0x0; 0x0; 0x0; 0x60040; 0x600e0; 0x700e0; 0x3fff860; 0x3fffc70;
   0x9b8030; 0x1f9fb38; 0xf0f318; 0x70e39c; 0xfff1fe; 0x1fffdfc; 0x3e07ce0; 0x17ffc70;
   0x7fe030; 0x6073f8; 0x6063fc; 0x7ff07c; 0x2ea00c; 0x462000; 0x666380; 0xc673f0;
   0x1c638fc; 0x3861c1c; 0x1078800; 0x78000; 0x0; 0x0; 0x0; 0x0;
   0x202000; 0x0; 0x0; 0x0; 0x604080; 0x60e180; 0x71c1c0; 0x3fff8e0;
   0x3fff860; 0x60060; 0x1fff030; 0x1fff738; 0x6031c; 0x2aeabfe; 0x3fff9fc; 0x2eea8c0;
   0xc66060; 0xe66070; 0x3ffff38; 0x3fffffc; 0x1fc; 0x1fff00c; 0x1fff000; 0x1803000;
   0x1c037f0; 0x18033fe; 0x1fff07c; 0x1fff000; 0x1c03000; 0x0; 0x0; 0x0;
   0x0; 0x202000; 0x0; 0x0; 0x0; 0x606040; 0x60e0c0; 0x70c0e0;
   0xbae860; 0x1fffc70; 0x1aeb830; 0x1e67f38; 0x1a6db18; 0x1b6df9c; 0x19699fe; 0x1969dfc;
   0x1fff8e0; 0x1fffc70; 0x30; 0xfff338; 0xfff3fc; 0xc031fc; 0xc0300c; 0xfff000;
   0xfff380; 0xc033f0; 0xc030fc; 0xfff01c; 0xfff000; 0xc03000; 0x0; 0x0;
   0x0; 0x0; 0x202000; 0x0; 0x0; 0x0; 0xc0; 0x3fff8c0;
   0x3fff8c0; 0xe0; 0x1fff060; 0x18e3070; 0x1fff630; 0x1fff738; 0x1ce331c; 0x1fff3fe;
   0x1fff1fc; 0xc0; 0x3fff860; 0x2aaa870; 0x1fff738; 0x1fff3fc; 0x18631fc; 0x1fff00c;
   0x1fff000; 0x1863600; 0x1fff7f0; 0xaaa0fe; 0x3fffc1c; 0x3fffc00; 0x1555400; 0x0;
   0x0; 0x0; 0x0; 0x202000; 0x0; 0x0; 0x0; 0x1c0040;
   0x1800e0; 0x1ffc6e0; 0x1ffcc60; 0x19cdc70; 0x1ffd830; 0x1ffd930; 0x180398; 0x3ffe1dc;
   0x2aaa0fe; 0x1ff9efc; 0x1ff9ee0; 0x1c19870; 0x1819830; 0x1ff99f8; 0x199f8; 0x3ff987c;
   0x3ff980c; 0x3819900; 0x3ab9bc0; 0x3ff9df8; 0x3e3c; 0x755e71c; 0x3ffc300; 0x3ff0100;
   0x0; 0x0; 0x0; 0x0; 0x202000; 0x0; 0x0; 0x0].
Definition hanzi_data_338 : list N :=
  [0x40; 0x7fe0e0; 0x7fe060; 0x606060; 0x606070; 0x7fe030; 0x7fe338; 0x398;
   0x3fdfd9c; 0x3a9adfe; 0x31d9dfc; 0x3098ce0; 0x3fdfc70; 0x3fffc30; 0x60138; 0x601fc;
   0x3fffdfc; 0x3fffc0c; 0x1f8000; 0x3ec380; 0x76f3f8; 0x1e638fc; 0x7c61f1c; 0x3060e00;
   0x60000; 0x0; 0x0; 0x0; 0x0; 0x202000; 0x0; 0x0;
   0x0; 0xc0; 0x1fff8c0; 0x1fff8c0; 0x1999860; 0x1999870; 0x1fff830; 0x1ffff30;
   0x398; 0x3fffd9c; 0x3fffdfe; 0x1fc; 0xfff0e0; 0x1fff070; 0xc03030; 0x1c033f8;
   0xfff3fc; 0x1fff07c; 0x10f800c; 0x3ddf300; 0xf87f80; 0x707ff8; 0xe8607e; 0x3efe01c;
   0x383f000; 0x1007000; 0x0; 0x0; 0x0; 0x0; 0x202000; 0x0;
   0x0; 0x0; 0x307040; 0x3060e0; 0x33fc60; 0x33fc60; 0x330c70; 0x3b0c30;
   0x7fbfd38; 0x3fbff98; 0x19f0ddc; 0x19f0cfe; 0x19ffcfc; 0x19ea860; 0x1b47070; 0xb2ea30;
   0xf7ffd8; 0xe039fc; 0xe0307c; 0x63f80c; 0x63f900; 0xf319c0; 0x1f31df8; 0x1bb8c3e;
   0x39d8e1c; 0x70fe700; 0x304e600; 0x0; 0x0; 0x0; 0x0; 0x202000;
   0x0; 0x0; 0x0; 0x6c6440; 0x6c6ce0; 0x3fdfc60; 0x3fffe60; 0x666670;
   0x3fffe30; 0x7ffff38; 0xd8d998; 0xdbd9dc; 0x6dbccfe; 0x7cceefc; 0x3840660; 0x1fff870;
   0xfff830; 0x1d55bd8; 0xc61bf8; 0x1c7187c; 0xc6180c; 0x1c71a00; 0xc71b80; 0xf01fc;
   0x3b803e; 0x1f1f01c; 0x3c07e00; 0x1001c00; 0x0; 0x0; 0x0; 0x0;
   0x202000; 0x0; 0x0; 0x0; 0x180; 0x180; 0x1c0; 0xffffc0;
   0xffffc0; 0xaaeae0; 0x6070; 0x6070; 0x6038; 0x6038; 0x6000; 0x3fffffc;
   0x3fffffc; 0x6000; 0x6000; 0xe06060; 0xe06070; 0xe06060; 0xe06070; 0xe06060;
   0xe06070; 0xffffe0; 0xfffff0; 0xeaaaa0; 0x400000; 0x0; 0x0; 0x0;
   0x0; 0x202000; 0x0; 0x0; 0x0; 0x70; 0x30; 0x1554030;
   0x3ffdff8; 0x3ffdff8; 0x180198; 0x1c01dc; 0x18018e; 0x1c01c4; 0x180180; 0x1c3ffc;
   0x183ffc; 0x1c01c0; 0x180180; 0x1c19dc; 0x181988; 0x1c19dc; 0x181988; 0x1c19dc;
   0x181988; 0x1c1fdc; 0x3fffff8; 0x7fff97c; 0x800; 0x0; 0x0; 0x0;
   0x0; 0x0; 0x202000; 0x0; 0x0; 0x0; 0xc0030; 0xc0030;
   0xc0038; 0xc0ff8; 0x15d5ff8; 0xffc0d8; 0x1ffc1cc; 0xcc00ce; 0x1cc01c4; 0xcc00c0;
   0x1cc1ffc; 0xce1ffc; 0x3ffe1c0; 0x3ffe8c8; 0x3fffddc; 0x1e0cc8; 0x3e1ddc; 0x3e0cc8;
   0x771ddc; 0x630cc8; 0xe39ffc; 0x1e1cff8; 0x3c1fc1c; 0x380e000; 0x1004000; 0x0;
   0x0; 0x0; 0x0; 0x202000; 0x0; 0x0; 0x0; 0x0;
   0x1ff9ff8; 0x1ff9ff8; 0x1819818; 0x1999998; 0x1999998; 0x1999998; 0x1899998; 0x19d9bd8;
   0x7e07e0; 0x1e71c70; 0x383d8be; 0x100d19c; 0x7fffc0; 0x7fffe0; 0x6070; 0x6020;
   0x3fffffe; 0x3fffffe; 0x806020; 0xc06030; 0xc06030; 0xfffff0; 0xfffff0; 0xc00000;
   0x0; 0x0; 0x0; 0x0; 0x202000; 0x0; 0x0; 0x0;
   0x180; 0x7f8180; 0x7fbffc; 0x618180; 0x619ff8; 0x3e1fff8; 0x155d550; 0xffdff8;
   0xd5d998; 0x631998; 0x3e1ff8; 0x3e0018; 0x7f7e39c; 0x3c0c18c; 0x7fffc4; 0x7fffe0;
   0x6070; 0x2aaeaa8; 0x3fffffc; 0x6000; 0x606070; 0x606060; 0x7ffff0; 0x7fffe0;
   0x600000; 0x0; 0x0; 0x0; 0x0; 0x202000; 0x0; 0x0;
   0x0; 0xc0030; 0xc0030; 0x3fc0018; 0x3fc07f8; 0xc07f8; 0x3ffe0c8; 0x3fff0cc;
   0x38c20ce; 0x3fff0c4; 0xfa0c0; 0x35c7ffc; 0x3fc2ffc; 0x10070c0; 0x1fea2c8; 0x7ff6cc;
   0x1ba36cc; 0x1bb76cc; 0xfa36cc; 0x3fff6cc; 0x3ffb6cc; 0x3837fc; 0x383ffc; 0x381e14;
   0x3e1c00; 0x1e1800; 0x0; 0x0; 0x0; 0x0; 0x202000; 0x0;
   0x0; 0x0; 0x0; 0x3fffc0; 0x7060c0; 0x3fffc0; 0x7fffc0; 0x3aeac0;
   0x7fffc0; 0xaa8000; 0x1ffdffc; 0x1989998; 0x1ffdffc; 0x1ba9bb8; 0x1ffdffc; 0x1ff9ff8;
   0x1c0; 0x7fffe0; 0x7ffff0; 0x6020; 0x3fffffc; 0x3fffffc; 0xe06070; 0xe06060;
   0xfffff0; 0xffffe0; 0xe00000; 0x0; 0x0; 0x0; 0x0; 0x202000;
   0x0; 0x0; 0x0; 0x618030; 0x618038; 0x7fff818; 0x3fffff8; 0x6187fc;
   0x2aaa0cc; 0x3fff0cc; 0x31a30ce; 0x31f30c4; 0x3bab0c0; 0x3fffffc; 0xccffc; 0x1cc0c0;
   0x3ffe2c8; 0x3fff6cc; 0x187ec8; 0x1fffecc; 0x1ffeec8; 0x1866cc; 0x1ffe6c8; 0x1ffe7fc;
   0x1867f8; 0x7ffe61c; 0x7ffe000; 0x6000; 0x0; 0x0; 0x0; 0x0;
   0x202000; 0x0; 0x0; 0x0; 0x0; 0x0; 0x1fffff8; 0x1fffff8;
   0x1800018; 0x1880818; 0x1981818; 0x1981898; 0x19cfdd8; 0x18dd998; 0x18f9f98; 0x18f0f18;
   0x1870e18; 0x18e0e18; 0x18f1e18; 0x19f1e18; 0x19b3f18; 0x1bbb398; 0x1b1d1d8; 0x180e0d8;
   0x180f0f8; 0x1804018; 0x1d40018; 0x1f80018; 0xf80018; 0x0; 0x0; 0x0;
   0x0; 0x202000; 0x0; 0x0; 0x0; 0x0; 0x1fffff8; 0x1fffff8;
   0x1aaaab8; 0x18e0718; 0x1860618; 0x1870c18; 0x1830c18; 0x1bfffd8; 0x1bfffd8; 0x1807018;
   0x1806018; 0x180e018; 0x19fff98; 0x19fffd8; 0x1800618; 0x1800618; 0x1800618; 0x1855618;
   0x18ffe18; 0x19ffe18; 0x1800018; 0x1800018; 0x1f80018; 0x1f80018; 0x0; 0x0;
   0x0; 0x0; 0x202000; 0x0; 0x0; 0x0; 0x0; 0x0;
   0x1fffff8; 0x1fffff8; 0x1800018; 0x1830c18; 0x19f0f18; 0x3c0780; 0xf001f0; 0x3e000f8;
   0x1800038; 0x7fffe0; 0x7fffe0; 0x6000; 0x6000; 0x6000; 0x3fffffc; 0x3fffffc;
   0x3fffffc; 0x6000; 0x6000; 0x6000; 0x6000; 0x6000; 0x6000; 0x0;
   0x0; 0x0; 0x0; 0x202000; 0x0; 0x0; 0x0; 0x0;
   0xfffff8; 0x1fffff8; 0xc30c38; 0x1c30c38; 0xc30c38; 0x1c30c38; 0xfffff8; 0x1fffff8;
   0x1c00; 0xe00; 0x2aaf00; 0x7fff80; 0x7aabc0; 0x7001f0; 0x380678; 0x1c1e10].
Definition hanzi_data_339 : list N :=
  [0xe3800; 0x7f800; 0x3e000; 0x1f000; 0x7e00; 0x1ff0; 0x3f8; 0x78;
   0x0; 0x0; 0x0; 0x0; 0x202000; 0x0; 0x0; 0x0;
   0x0; 0x1fffff8; 0x1fffff8; 0x1830e18; 0x1c30e18; 0x1830e18; 0x1d75f58; 0x1fffff8;
   0x1fffff8; 0x0; 0x3fffffc; 0x3fffffc; 0x155d554; 0xe000; 0x7800; 0x67c00;
   0x1f7f00; 0x786780; 0x1f063f0; 0x3c060fe; 0x300603c; 0x6008; 0x6000; 0x6000;
   0x6000; 0x0; 0x0; 0x0; 0x0; 0x202000; 0x0; 0x0;
   0x0; 0x0; 0x1fffff8; 0x1fffff8; 0x1830c38; 0x1c30c38; 0x1830c38; 0x1fffff8;
   0x1fffff8; 0x40; 0xc000e0; 0x1c387c0; 0xc38700; 0x1c38600; 0xc380a8; 0x1c381fc;
   0xc381fc; 0x1c38180; 0xc38180; 0x1c38180; 0xc02180; 0x1c03d80; 0xc03f80; 0x1d407c0;
   0xfc01c0; 0x7c0040; 0x0; 0x0; 0x0; 0x0; 0x202000; 0x0;
   0x0; 0x0; 0x0; 0xfffff0; 0xfffff0; 0xc30c30; 0xc30c30; 0xc30c30;
   0xfffff0; 0xfffff0; 0x557550; 0x6000; 0x7000; 0x3fffffc; 0x3fffffc; 0x6000;
   0x7000; 0x6000; 0x7fffe0; 0x7fffe0; 0x7000e0; 0x6000e0; 0x7000e0; 0x6000e0;
   0x7fffe0; 0x7fffe0; 0x7000e0; 0x0; 0x0; 0x0; 0x0; 0x202000;
   0x0; 0x0; 0x0; 0x0; 0x1fffff8; 0x1fffff8; 0x1c30c38; 0x1c30c38;
   0x1c30c38; 0x1fffff8; 0x1fffff8; 0x1555550; 0x0; 0x1fffffc; 0x1fffff8; 0x1fffffc;
   0xe000; 0xe1c0; 0xe0c0; 0xffe1c0; 0xffe0c0; 0xe1c0; 0xe0c0; 0xe1c0;
   0xe0c0; 0x3fffffc; 0x3fffffc; 0x0; 0x0; 0x0; 0x0; 0x0;
   0x202000; 0x0; 0x0; 0x0; 0x0; 0x1fffff8; 0x1fffff8; 0x1830c38;
   0x1c30c38; 0x1830c38; 0x1c30c38; 0x1fffff8; 0x1fffff8; 0x6000; 0x6000; 0xfffff0;
   0x1fffff0; 0x6000; 0x6000; 0x6000; 0x3fffffc; 0x3fffffc; 0x1c1e00; 0x380700;
   0x7803c0; 0xff81e0; 0x1fffff8; 0x1c2fff8; 0x800050; 0x0; 0x0; 0x0;
   0x0; 0x202000; 0x0; 0x0; 0x0; 0x0; 0xfffff0; 0x1fffff0;
   0xc30c30; 0x1c30c30; 0xfffff0; 0x1fffff0; 0xc00; 0x3fffffc; 0x3fffffc; 0x15d57d4;
   0x386380; 0x7575e0; 0xfffff0; 0x7f575fc; 0x3b060dc; 0x7fffc4; 0x3fffc0; 0x7060c0;
   0x3060c0; 0x17fffc0; 0x30060c0; 0x30060c0; 0x1ffe000; 0x1ffc000; 0x0; 0x0;
   0x0; 0x0; 0x202000; 0x0; 0x0; 0x0; 0x0; 0xfffff8;
   0x1fffff8; 0xc30c38; 0x1c30c38; 0xfffff8; 0x1fffff8; 0x6000; 0x1fff000; 0x1ffe000;
   0x7000; 0xffffe0; 0xfffff0; 0xe00060; 0xfffff0; 0xffffe0; 0xe00070; 0xffffe0;
   0xfffff0; 0x6000; 0x3fffffc; 0x3fffffc; 0x6000; 0x6000; 0x6000; 0x0;
   0x0; 0x0; 0x0; 0x202000; 0x0; 0x0; 0x0; 0x0;
   0x1fffff8; 0x1fffff8; 0x1830c18; 0x1870c18; 0x1830c18; 0x1fffff8; 0x1fffff8; 0x30c00;
   0x30c00; 0x3ff0ffc; 0x3ff0ffc; 0x30c00; 0x30c00; 0x1ff0ffc; 0x1ff0ff8; 0x1570ffc;
   0x30c00; 0x30c00; 0x3ff0ffc; 0x3ff0ffc; 0x30c00; 0x30c00; 0x30c00; 0x30c00;
   0x0; 0x0; 0x0; 0x0; 0x202000; 0x0; 0x0; 0x0;
   0x0; 0x1fffff0; 0x1fffff0; 0x1c30c30; 0x1c30c30; 0x1fffff0; 0x1fffff0; 0x6000;
   0x3fffffc; 0x3fffffc; 0x3000; 0x3fffe0; 0x7fffe0; 0x3000e0; 0x7fffe0; 0x3aaae0;
   0x7555e0; 0x3fffe0; 0x7000e0; 0x3aaae0; 0x7fffe0; 0x3000e0; 0x3fffffc; 0x3fffffc;
   0x0; 0x0; 0x0; 0x0; 0x0; 0x202000; 0x0; 0x0;
   0x0; 0x0; 0x1fffff8; 0x1fffff8; 0x1c30c38; 0x1c30c38; 0x1fffff8; 0x1fffff8;
   0x6000; 0x3fffffc; 0x3fffffc; 0x7000; 0xaaeaa0; 0x1fffff0; 0xeaaeb0; 0x1c70c30;
   0xc38c30; 0x1dfffb0; 0xcaeab0; 0x1c06030; 0xdfffb0; 0x1dfffb0; 0xc06030; 0x1d06030;
   0xf86030; 0x784030; 0x0; 0x0; 0x0; 0x0; 0x202000; 0x0;
   0x0; 0x0; 0x0; 0x1fffff8; 0x1fffff8; 0x1c30c38; 0x1c30c38; 0x1fffff8;
   0x1fffff8; 0x3000; 0x1dffff0; 0xefffe0; 0x7d7550; 0x3e3000; 0x3fffffc; 0x3fffffc;
   0x1f000; 0x3e00; 0xffffe0; 0xeaabfe; 0xe0037c; 0xffff00; 0xffff00; 0xe00300;
   0xffff00; 0xffff00; 0xe00300; 0x0; 0x0; 0x0; 0x0; 0x202000;
   0x0; 0x0; 0x0; 0x0; 0x1fffff8; 0x1fffff8; 0x1830e18; 0x1c70e18;
   0x1fffff8; 0x1fffff8; 0x6000; 0x557550; 0xfffff0; 0xfffff0; 0x6000; 0x3fffffc;
   0x3fffffc; 0xc1e00; 0x1c0780; 0x7d43c0; 0xfffff0; 0x1e17ff0; 0x200000; 0x718c70;
   0xe38c30; 0x1c31c38; 0x3870c1c; 0x101040c; 0x0; 0x0; 0x0; 0x0;
   0x202000; 0x0; 0x0; 0x0; 0x0; 0x1fffff8; 0x1fffff8; 0x1c30c38;
   0x1c30c38; 0x1fffff8; 0x1fffff8; 0xe00; 0x1fffff8; 0x1ffe0f8; 0x1c60638; 0x830e38;
   0x1c39ff8; 0xfdfbf8; 0x7c7818; 0x2aaaa0; 0x7fffe0; 0x606060; 0x606060; 0x7fffe0;
   0x757560; 0x606060; 0x7fffe0; 0x7fffe0; 0x600060; 0x0; 0x0; 0x0;
   0x0; 0x202000; 0x0; 0x0; 0x0; 0x0; 0x1fffff8; 0x1fffff8;
   0x1830c38; 0x1c30c38; 0x1fffff8; 0x1fffff8; 0x8c0c0; 0xce0c0; 0x1c62c0; 0x1fff7d8;
   0x3fff6d8; 0x1c3ed8; 0x83ed8; 0x1fffedc; 0x1fffecc; 0x1c34cc; 0x830c0; 0x1fff0c0;
   0x1fff0c0; 0x1c30c0; 0x830c0; 0x3fff0c0; 0x3fff0c0; 0x30c0; 0x0; 0x0;
   0x0; 0x0; 0x202000; 0x0; 0x0; 0x0; 0x0; 0xfffff8;
   0x1fffff8; 0xc30c38; 0x1c30c38; 0xfffff8; 0x1fffff8; 0x0; 0x3fffff8; 0x3fffff8;
   0x1c01c18; 0x8ccd98; 0x1cccd98; 0x8c6cd8; 0x1cc3e58; 0x8c7718; 0x1ccdfd8; 0x8c0c98;
   0x1cdcd98; 0x8ccc98; 0x1cc7cdc; 0x803e0c; 0x1c0f70c; 0xf9c3ee; 0xf08064; 0x0;
   0x0; 0x0; 0x0; 0x202000; 0x0; 0x0; 0x0; 0x0].
Definition hanzi_data_340 : list N :=
  [0xfffff0; 0xfffff0; 0xe38c30; 0xe38c30; 0xfffff0; 0xfffff0; 0xe0700; 0x70600;
   0xfffff8; 0x1dd7578; 0xce63b8; 0x1c76738; 0xfffff8; 0x1fffff8; 0x0; 0x7fffc0;
   0x3fffc0; 0x7000c0; 0x3fffc0; 0x7fffc0; 0x3000c0; 0x7fffc0; 0x3fffc0; 0x7000c0;
   0x0; 0x0; 0x0; 0x0; 0x202000; 0x0; 0x0; 0x0;
   0x0; 0x1fffff8; 0x1fffff8; 0x1830e18; 0x1d75f58; 0x1fffff8; 0x1555550; 0xe30;
   0xfffffc; 0xffbffc; 0xc10e30; 0xe38ff0; 0x618ff0; 0x618180; 0x3ffdffc; 0x3ffdba8;
   0x380199c; 0x3801ff8; 0x1bfdffc; 0x1bfc180; 0x1803ffc; 0x1803ffc; 0x1c00180; 0xfc0180;
   0x780180; 0x0; 0x0; 0x0; 0x0; 0x202000; 0x0; 0x0;
   0x0; 0x180180; 0x380380; 0x1c0300; 0xc0700; 0x15f5750; 0x1fffff8; 0x1fffff8;
   0x6000; 0x6000; 0x6000; 0x7ffff0; 0x7fffe0; 0x7ffff0; 0x6000; 0x6000;
   0x6000; 0x3fffffc; 0x3fffffc; 0x3fffffc; 0x6000; 0x6000; 0x6000; 0x6000;
   0x6000; 0x6000; 0x0; 0x0; 0x0; 0x0; 0x202000; 0x0;
   0x0; 0x0; 0x180180; 0x1c0380; 0x1c0700; 0xe0600; 0x1fffff8; 0x1fffff8;
   0x1557550; 0x6000; 0x557550; 0xffffe0; 0xfffff0; 0x6000; 0x7000; 0x3fffffc;
   0x3fffffc; 0x1b800; 0x1f800; 0x19c00; 0x1de00; 0x3018f00; 0x301c7c0; 0x30181e0;
   0x3ffc0fc; 0x3ff803c; 0x1ff0008; 0x0; 0x0; 0x0; 0x0; 0x202000;
   0x0; 0x0; 0x0; 0x180180; 0x1c0380; 0x1c0700; 0xe0700; 0x1fffff8;
   0x1fffff8; 0x6000; 0x6000; 0xfffff0; 0xfffff0; 0x6000; 0x6000; 0x3fffffc;
   0x3fffffc; 0x7000; 0x7000; 0x3fffffc; 0x3fffff8; 0x1f800; 0x39c00; 0x71e00;
   0x1e0f80; 0x1fc07fc; 0x3f000fc; 0x1c0001c; 0x0; 0x0; 0x0; 0x0;
   0x202000; 0x0; 0x0; 0x0; 0x1c0100; 0x1c0380; 0xc0700; 0x1fffff8;
   0x1fffff8; 0x6000; 0x6000; 0xfffff0; 0xfffff0; 0x6000; 0x1557554; 0x3fffffc;
   0x3fffffc; 0xe00; 0xfff00; 0xfffc0; 0xe01e0; 0x70078; 0x3c038; 0x3e000;
   0xff800; 0x3e3e00; 0x7fc0ff0; 0x3e001fc; 0x100001c; 0x0; 0x0; 0x0;
   0x0; 0x202000; 0x0; 0x0; 0x0; 0x410; 0xe18; 0x3fff630;
   0x3fff630; 0x38c7770; 0x38c3ffc; 0x38c7ffc; 0x38c3ae8; 0x38c71c0; 0x38c30c0; 0x38c77fc;
   0x38c37f8; 0x3fff1c0; 0x3fff0c0; 0x3d571c0; 0x3803ae8; 0x7ffc; 0x3ae8; 0x10070c0;
   0x70030e0; 0x7007070; 0x3003070; 0x3fff03c; 0x1ffe01c; 0xc; 0x0; 0x0;
   0x0; 0x0; 0x202000; 0x0; 0x0; 0x0; 0x180180; 0x1c0380;
   0x1c0700; 0xe0700; 0x1fffff8; 0x1fffff8; 0x1557550; 0x6000; 0x6000; 0xffffe0;
   0xfffff0; 0xaaeaa0; 0x6000; 0x6000; 0x1557554; 0x3fffffc; 0x3fffffc; 0x0;
   0x610460; 0xe38c60; 0x1c30c70; 0x1830c38; 0x3871c38; 0x3060c1c; 0x1020408; 0x0;
   0x0; 0x0; 0x0; 0x202000; 0x0; 0x0; 0x0; 0x1c0300;
   0xc0300; 0x15f5750; 0x1fffff8; 0x1557550; 0x6000; 0xfffff0; 0xfffff0; 0x6000;
   0x3fffffc; 0x3fffffc; 0xc00; 0x1fc00; 0x7c000; 0x67fe0; 0xe0eaa0; 0xf1e7fc;
   0x39e7fc; 0x1fe700; 0x76380; 0x1e61c0; 0x7860e0; 0x7f0607c; 0x3c07e1c; 0x1007e00;
   0x0; 0x0; 0x0; 0x0; 0x202000; 0x0; 0x0; 0x0;
   0x410; 0x7fce18; 0x7fce38; 0x60c630; 0x61c770; 0x60cffc; 0x60dffc; 0x60eae8;
   0x3e071c0; 0x3e070c0; 0x3ffc; 0xff8; 0x1fff1c0; 0xffe0c0; 0xe0c1c0; 0xe0cffc;
   0x71dffc; 0x3b8ae8; 0x3f00c0; 0x1e00e0; 0x1f0070; 0x7bc070; 0x1f1f038; 0x3e07c1c;
   0x300180c; 0x0; 0x0; 0x0; 0x0; 0x202000; 0x0; 0x0;
   0x0; 0x1c0410; 0x1c0e18; 0x1c0638; 0x1e0630; 0x370770; 0x730ffc; 0x639ffc;
   0xe18ae8; 0x1c7c1c0; 0x38ee0c0; 0x31c7ffc; 0x80ff8; 0xd541c0; 0x1ffc0c0; 0x1ffc1c0;
   0xe00ae8; 0x601ffc; 0x700ae8; 0x3180c0; 0x3b80e0; 0x1f0070; 0x1e0070; 0x3c003c;
   0x70001c; 0x30000c; 0x0; 0x0; 0x0; 0x0; 0x202000; 0x0;
   0x0; 0x0; 0xc00618; 0xf80618; 0x1ff0718; 0xff338; 0x1df3b0; 0xc3ffc;
   0x1c7ffc; 0x83ae8; 0x1c70c0; 0x1830c0; 0x3fff7fc; 0x3fff7fc; 0x15d75d4; 0x1830c0;
   0x1870c0; 0x383aea; 0x387ffe; 0x303ffe; 0x307060; 0x6363060; 0x6767070; 0x26c3038;
   0x3edf03c; 0x3d9f81e; 0x1883004; 0x0; 0x0; 0x0; 0x0; 0x202000;
   0x0; 0x0; 0x0; 0x1c0100; 0x1c0380; 0xc0700; 0xaeaaa8; 0x1fffff8;
   0xaabaa8; 0x3800; 0x7fffe0; 0x7ffff0; 0x1800; 0x1555d54; 0x3fffffc; 0x3fffffc;
   0x700; 0x7fff80; 0x7fff80; 0x7061e0; 0x7060f8; 0x7ffffc; 0x3fff9c; 0x707000;
   0x303000; 0x3fffff0; 0x3fffff0; 0x1555550; 0x0; 0x0; 0x0; 0x0;
   0x202000; 0x0; 0x0; 0x0; 0x610; 0xaaa618; 0x1ffe730; 0xffe330;
   0xe003f0; 0x700ffc; 0x380ffc; 0x1c00c0; 0x3f00c0; 0xff80c0; 0x1e3e7fc; 0x380f7f8;
   0x10070c0; 0xc0; 0x1ffe0c0; 0x1ffeffc; 0xc0ffc; 0xc00e0; 0xc00e0; 0xc0060;
   0xc0070; 0xc0030; 0x3fff038; 0x3fff01c; 0x18; 0x0; 0x0; 0x0;
   0x0; 0x202000; 0x0; 0x0; 0x0; 0x1c0300; 0xe0700; 0x1575750;
   0x1fffff8; 0x1557550; 0x6000; 0xfffff0; 0xffffe0; 0x6000; 0x3fffffc; 0x3fffffc;
   0xe000; 0x6018; 0x3ffe078; 0x1fff1f0; 0x1c239c0; 0xc71c80; 0xe30e00; 0x478900;
   0xf83e0; 0x1dc0fc; 0x38e03e; 0x1f07c0c; 0x3e01f80; 0x3000700; 0x0; 0x0;
   0x0; 0x0; 0x202000; 0x0; 0x0; 0x0; 0x1810000; 0x1838aa8;
   0x1c31ff8; 0xc31ae8; 0xe719c0; 0x3ff98c0; 0x3fffffc; 0x2bafffc; 0x1818c0; 0x1818e0;
   0x15d1ff8; 0x3ff9ff8; 0x3ff8070; 0x180070; 0x181570; 0x183ff8; 0x7fffff8; 0x3fff83c].
Definition hanzi_data_341 : list N :=
  [0x7fff87e; 0x18382c; 0x183870; 0x183aa0; 0x183ff0; 0x182aa0; 0x180070; 0x0;
   0x0; 0x0; 0x0; 0x202000; 0x0; 0x0; 0x0; 0xe0610;
   0x260e38; 0x770630; 0x638630; 0xc1c370; 0x1ffeffc; 0x3ffeffc; 0x320aae8; 0x7700c0;
   0xe380c0; 0x1c1c7fc; 0x382e7fc; 0x30775d4; 0x320c0; 0x1ff80c0; 0xffcae8; 0xe1effc;
   0x73fffc; 0x7f30e0; 0x3e0060; 0x1e0070; 0x3f8030; 0x1f3f03c; 0x3e0f81c; 0x100300c;
   0x0; 0x0; 0x0; 0x0; 0x202000; 0x0; 0x0; 0x0;
   0x610; 0x1ffe618; 0x1ffe738; 0x1806330; 0x1806330; 0x1ffeffc; 0x1ffeffc; 0x1806ae8;
   0x1ffe0c0; 0x1ffe0c0; 0x155c7fc; 0xc7fc; 0x3ffe5d4; 0x3ffe0c0; 0x31c70c0; 0x30c3ae8;
   0x31c77fc; 0x3be67fc; 0x3f76060; 0x3a36060; 0x1ffe070; 0x1ffe038; 0x180003c; 0x1f0001e;
   0xf0000c; 0x0; 0x0; 0x0; 0x0; 0x202000; 0x0; 0x0;
   0x0; 0xc0718; 0x38c3318; 0x38c3338; 0x38c33b0; 0x3dd71b0; 0x3fff7fc; 0x3fff7fc;
   0xc060; 0x7fffc60; 0x3fff860; 0x7fffffc; 0x3863fc; 0x186060; 0x33b6060; 0x19b6060;
   0x19b62ea; 0x1d977fe; 0xf9b7fe; 0x3d3060; 0x2c3860; 0x6e1830; 0xe61838; 0x1c79c1c;
   0x383e80e; 0x300c004; 0x0; 0x0; 0x0; 0x0; 0x202000; 0x0;
   0x0; 0x0; 0x610; 0x3ffe618; 0x3ffe718; 0x2bae338; 0x186330; 0x186ffc;
   0x1ff6ffc; 0x1ff62e8; 0x18360c0; 0x18360c0; 0x1ff67fc; 0x1ab67fc; 0x18365d4; 0x1ab60c0;
   0x1ff70c0; 0x386aea; 0x397ffc; 0xfb2ffe; 0x1bb7060; 0x3bbb060; 0x339b070; 0x339f038;
   0x738f83c; 0x3e181e; 0x1c1004; 0x0; 0x0; 0x0; 0x0; 0x202000;
   0x0; 0x0; 0x0; 0x1c0300; 0xc0300; 0x15f5750; 0x1fffff8; 0x1557550;
   0x6000; 0xfffff0; 0x6000; 0x1557554; 0x3fffffc; 0x155d554; 0x7bbff8; 0x1f383f8;
   0x3fffffc; 0x3fffffc; 0x30fe0; 0xc77ff0; 0xe7629e; 0x771ffc; 0x3e0060; 0x31e1fe0;
   0x31f1fe0; 0x37fdc00; 0x3f0ef80; 0x1e04780; 0x0; 0x0; 0x0; 0x0;
   0x202000; 0x0; 0x0; 0x0; 0x7000; 0xe000; 0x7fffffe; 0x2aaaae8;
   0x1555570; 0xffffe0; 0x1555540; 0x7fffe0; 0x7fffe0; 0x600060; 0x7fffe0; 0x2aaaa0;
   0xffcdf8; 0xfed9f8; 0xc7fd98; 0xcffdb8; 0xde31f8; 0xdefd98; 0xf7fdd8; 0xf631f8;
   0xe7ffd8; 0x6c3ff88; 0x6c3318c; 0x3c3b1ee; 0x3c131e4; 0x0; 0x0; 0x0;
   0x0; 0x202000; 0x0; 0x0; 0x0; 0x1c0300; 0xc0300; 0x1fffff8;
   0x1fffff8; 0x6000; 0xffffe0; 0x557540; 0x3fffffc; 0x3fffffc; 0xf18c60; 0x1db9d38;
   0x39f0b9c; 0x1fffff8; 0xaaeaa8; 0xfffff0; 0xfffff0; 0x6000; 0x1fffff8; 0x1557550;
   0x2aaeaa8; 0x3fffffc; 0x1f800; 0x1f9f00; 0x3fe07fc; 0x3f0007c; 0x0; 0x0;
   0x0; 0x0; 0x202000; 0x0; 0x0; 0x0; 0x0; 0xfffff0;
   0x1fffff0; 0xc00030; 0x1fffff0; 0xaabab0; 0x1c3830; 0xffff30; 0xffff30; 0x7ffe30;
   0x7ffe30; 0xabaab0; 0x1ffffb0; 0x8db130; 0xcd7330; 0x2ee3bb8; 0x3ff7ff8; 0x300c38;
   0x1ff7fd8; 0xba2e98; 0x3ff7fdc; 0x3ffffcc; 0x30070c; 0x30038e; 0x300180; 0x0;
   0x0; 0x0; 0x0; 0x202000; 0x0; 0x0; 0x0; 0x0;
   0xaa8aa8; 0x1ffdffc; 0x1ffdffc; 0x1801c00; 0x1801800; 0x1819c18; 0x1839838; 0x1871c70;
   0x18e18e0; 0x19e1ce0; 0x18c18c0; 0x1801c00; 0x1e01c00; 0x1f81f00; 0x1be1f80; 0x19f1df0;
   0x183d8f8; 0x181dc3e; 0x180580c; 0x1801c00; 0x1801800; 0x1fc1fc0; 0x1fc1fc0; 0x7c07c0;
   0x0; 0x0; 0x0; 0x0; 0x202000; 0x0; 0x0; 0x0;
   0x0; 0xaa8aa8; 0x1ffdffc; 0x1ea9aa8; 0x1c11c30; 0x1cf98f0; 0x1df1dc0; 0x1e81e80;
   0x1fc1fc0; 0x1cf1be0; 0x1c7dc7c; 0x1c09818; 0x1c01c00; 0xc0600; 0xc0700; 0xc0600;
   0x3fffffc; 0x3fffffc; 0xc0700; 0xc0300; 0xc0380; 0xc01c0; 0xc01f0; 0xc007c;
   0xc0018; 0x0; 0x0; 0x0; 0x0; 0x202000; 0x0; 0x0;
   0x0; 0x180000; 0x182afc; 0x183ffc; 0x183ae8; 0x1830c0; 0x3ffb0c0; 0x3ffb7cc;
   0x399b6c8; 0x399b6d8; 0x399bed8; 0x399bcd0; 0x399b0f0; 0x399b0c0; 0x399b8c0; 0x3ffbcf0;
   0x3ffbef8; 0x3ddb7dc; 0x399b2cc; 0x1830c4; 0x1830c0; 0x1830c0; 0x1830c0; 0x1836d8;
   0x183ef8; 0x181c70; 0x0; 0x0; 0x0; 0x0; 0x202000; 0x0;
   0x0; 0x0; 0x40700; 0xe0700; 0x1c03c0; 0x3831e0; 0xf078f0; 0x3e21c3e;
   0x3c70e1c; 0xe0780; 0x3fffc0; 0x72ffc0; 0x700040; 0x0; 0x1ffdff8; 0x1ffdff8;
   0x1c11c30; 0x1879870; 0x1ce1de0; 0x18c1880; 0x1f01f00; 0x1fe1fc0; 0x1dfddf8; 0x183d83c;
   0x1c05c0c; 0x1f81f80; 0xf00f00; 0x0; 0x0; 0x0; 0x0; 0x202000;
   0x0; 0x0; 0x0; 0x0; 0x622afc; 0x763ffc; 0x663ae8; 0x6730e0;
   0xe332e0; 0xc333ec; 0xc3b2e8; 0x1c3b6f8; 0x381b6f8; 0x781fcf0; 0x3fff0e0; 0x1fff0e0;
   0xcc38e0; 0x1cc3cf0; 0xce3ef8; 0x1c637fc; 0xc633ee; 0xc631e4; 0xc630e0; 0xc730e0;
   0xc3b0e0; 0xe5f4e0; 0xf9fe78; 0x78de78; 0x0; 0x0; 0x0; 0x0;
   0x202000; 0x0; 0x0; 0x0; 0xe0; 0x3f7e0e0; 0x3f7e060; 0x3860060;
   0x3860060; 0x3861ffc; 0x3b6dffc; 0x3b6c060; 0x3f7c060; 0x3e78360; 0x3e78360; 0x3868360;
   0x3860370; 0x38603b0; 0x3c701b0; 0x3e787b0; 0x3f7cdb0; 0x3b66cb8; 0x3967cd8; 0x38608d8;
   0x3861cdc; 0x3861fec; 0x3871fec; 0x1e7982e; 0x1e78000; 0x0; 0x0; 0x0;
   0x0; 0x202000; 0x0; 0x0; 0x0; 0xc0; 0x1fbf0c0; 0x1fff0c0;
   0x18300c0; 0x1830ffc; 0x19b3ffc; 0x1b330c0; 0x1b360c0; 0x1f360c0; 0x1a3c0c0; 0x1830ffc;
   0x18307fc; 0x1e3c618; 0x1f3e618; 0x1bf7718; 0x18b3b30; 0x18313f0; 0x18301e0; 0x18301e0;
   0x1f3e0e0; 0x1f1e3f0; 0xff8; 0x7ffff3c; 0x3fff81e; 0x1550004; 0x0; 0x0;
   0x0; 0x0; 0x202000; 0x0; 0x0; 0x0; 0x0; 0x3fffff8].
Definition hanzi_data_342 : list N :=
  [0x3fffffc; 0x3aebba8; 0x38619dc; 0x3861988; 0x39e79dc; 0x3b6fff8; 0x3f6dffc; 0x3e69988;
   0x3e799dc; 0x3c69988; 0x38619dc; 0x3871ff8; 0x3c79ffc; 0x3e79ba8; 0x3f7d9dc; 0x3b6e180;
   0x39e71c0; 0x38e3180; 0x38601c0; 0x3860180; 0x39601c0; 0x3e7c180; 0x1e7c1c0; 0x0;
   0x0; 0x0; 0x0; 0x202000; 0x0; 0x0; 0x0; 0x40;
   0x3fbf870; 0x3fff870; 0x3aba8e0; 0x38300e0; 0x38303fc; 0x39f1bfc; 0x39b3000; 0x39b339c;
   0x3b32388; 0x3b36198; 0x3a36198; 0x3830198; 0x3838198; 0x3e3c198; 0x3f3e0b8; 0x3bb71f0;
   0x39b38f0; 0x38b1fc0; 0x38307f0; 0x38301fc; 0x383003c; 0x3835000; 0x3f3e000; 0x1f1e000;
   0x0; 0x0; 0x0; 0x0; 0x202000; 0x0; 0x0; 0x0;
   0x0; 0x1ffdff8; 0x1ffdffc; 0x1c01aa8; 0x1c11c30; 0x1cf98f0; 0x1df1dc0; 0x1f81e00;
   0x1fc1fc0; 0x1cf99f0; 0x1c7dc7c; 0x1c09818; 0x1c07c00; 0x6000; 0xfffff0; 0xfffff0;
   0xfffff0; 0x180380; 0x1c0300; 0xc0300; 0xe0700; 0x60600; 0x7fffffc; 0x3fffffc;
   0x1555554; 0x0; 0x0; 0x0; 0x0; 0x202000; 0x0; 0x0;
   0x0; 0x180; 0x3f7e180; 0x3f7e1c0; 0x3a6a3e0; 0x3860360; 0x3860660; 0x3b66e30;
   0x3b6ccb8; 0x3f6dddc; 0x3e6898c; 0x3e78380; 0x3868000; 0x38607f8; 0x3870ff8; 0x3c78600;
   0x3e7c600; 0x3f6e700; 0x3b67300; 0x39621b8; 0x38601f0; 0x38600e0; 0x38600c0; 0x38601c0;
   0x1e78380; 0x1e3c100; 0x0; 0x0; 0x0; 0x0; 0x202000; 0x0;
   0x0; 0x0; 0x608; 0x3fbff1c; 0x3fbff18; 0x3ababb8; 0x38301b8; 0x38307fe;
   0x39b17fe; 0x39b32ea; 0x3b330e0; 0x3b360e0; 0x3b367fc; 0x3a367fc; 0x38305f4; 0x38300e0;
   0x3c3c0e0; 0x3e3e2ea; 0x3bb77fe; 0x39b3ffe; 0x38b1860; 0x3830860; 0x3830070; 0x3830038;
   0x3d3d01c; 0x3f3e01c; 0x1f1e00c; 0x0; 0x0; 0x0; 0x0; 0x202000;
   0x0; 0x0; 0x0; 0x6000; 0xf000; 0x1f800; 0x79e00; 0x1f0f80;
   0xffffe0; 0x7f554fc; 0x380003c; 0x3fffc4; 0x380080; 0x3801c0; 0x3fff80; 0x155540;
   0xaa8; 0x1ffdff8; 0xeb9aa8; 0x1c39870; 0xc718e0; 0x1ce1dc0; 0xfc1e80; 0x1df1fc0;
   0xc7f8f8; 0x1c1d81c; 0xf81f00; 0x780f00; 0x0; 0x0; 0x0; 0x0;
   0x202000; 0x0; 0x0; 0x0; 0x60; 0xe0; 0x1f7f0e0; 0x1a6bfe0;
   0x19e5ffc; 0x19ec8fe; 0x1b6dcc4; 0x1b68ec0; 0x1e787c0; 0x1a793c0; 0x1c733f0; 0x1c73f3e;
   0x1e7be1c; 0x1e78800; 0x1b6fffc; 0x19efffc; 0x1964760; 0x1860260; 0x1d60760; 0x1e7c220;
   0x7638730; 0x3000238; 0x3ffff1c; 0x3fffe0e; 0x555004; 0x0; 0x0; 0x0;
   0x0; 0x202000; 0x0; 0x0; 0x0; 0x180; 0x1ffc988; 0x1ffd998;
   0x18c1998; 0x18c1998; 0x18c1998; 0x1bcd998; 0x1ad9ff8; 0x1ed9ff8; 0x1ed80c0; 0x1ef00c0;
   0x18c0fe0; 0x18c1ff0; 0x18e1ab0; 0x1cf1c38; 0x1ef8c1c; 0x1fdcefc; 0x1bce7e0; 0x19c4780;
   0x18c0380; 0x18c01c0; 0x18c00e0; 0x1cf807c; 0x1e7803c; 0xe1000c; 0x0; 0x0;
   0x0; 0x0; 0x202000; 0x0; 0x0; 0x0; 0x0; 0x1ffdff8;
   0x1ffdff8; 0x1839870; 0x1df19f0; 0x1f81e80; 0x1ff1ff0; 0x18f98f8; 0x1c19818; 0x1fffffc;
   0x1fffffc; 0x1801c1c; 0x1d55d5c; 0xfffff0; 0x700; 0xc380; 0x55d5c0; 0xffffc0;
   0x55d5c0; 0xc000; 0x3fffffc; 0x3fffffc; 0xc000; 0xc000; 0xc000; 0x0;
   0x0; 0x0; 0x0; 0x202000; 0x0; 0x0; 0x0; 0x381c0;
   0x181c0; 0xffc1c0; 0xffe0e0; 0xe0f760; 0x71fb60; 0x3b9f70; 0x1f0378; 0x7fc778;
   0x7fbfb7c; 0x3c07f7e; 0xaaab6e; 0x1ffff74; 0x183ab60; 0x19f3f70; 0x1bb3360; 0x1f36770;
   0x1a38360; 0x1e3c770; 0x1fbf360; 0x19f3f70; 0x18b0b60; 0x1830070; 0x1f3e060; 0xf1e070;
   0x0; 0x0; 0x0; 0x0; 0x202000; 0x0; 0x0; 0x0;
   0x0; 0x1ff9ff8; 0x1ffdff8; 0x1801820; 0x1cf99f0; 0x19e19c0; 0x1f81d00; 0x1fe1fc0;
   0x1dfd9fc; 0x1839838; 0x1c07b80; 0xe180; 0xffffc0; 0xffffe0; 0xc0f0; 0x7ffff8;
   0x7fffdc; 0xc0c8; 0x55d5c0; 0x7fffc0; 0x55d5c0; 0xc0c0; 0x1ffffc0; 0x1ffffc0;
   0xc0; 0x0; 0x0; 0x0; 0x0; 0x202000; 0x0; 0x0;
   0x0; 0x0; 0xffdff8; 0x1ffdff8; 0xc11820; 0x1cf99f0; 0xce19c0; 0x1fc1f00;
   0xff9bf0; 0x1c7d878; 0xc0b808; 0x7000; 0x1fffff8; 0x1fffff8; 0xc0600; 0xe0300;
   0x1f0f80; 0x7b9de0; 0xe1d878; 0x40e030; 0x3fffffc; 0x3fffffc; 0x6000; 0x6000;
   0x6000; 0x6000; 0x0; 0x0; 0x0; 0x0; 0x202000; 0x0;
   0x0; 0x0; 0x39c00; 0x38c00; 0x1ff9ff8; 0x1ff8ff8; 0x39c00; 0xff8ff8;
   0xff9ff8; 0x38c00; 0x1579d54; 0x3ff8ffc; 0x1579d54; 0x38c00; 0x1555550; 0x1ffdff8;
   0x1ffdff8; 0x1831830; 0x1c71870; 0x18e18e0; 0x1cc18c0; 0x1b81b80; 0x1ff1bf0; 0x187d8fc;
   0x1c1d81c; 0x1f81f80; 0xf01f00; 0x0; 0x0; 0x0; 0x0; 0x202000;
   0x0; 0x0; 0x0; 0x3800; 0xe2baa0; 0x7fffe0; 0x1e3800; 0x3fffffc;
   0x3fffffc; 0x7c00; 0x3fffc0; 0x7ffffe; 0x3001bc; 0x7fff84; 0x300180; 0x7fff80;
   0x3fff80; 0x1ffdff8; 0x1ffdff8; 0x1c31870; 0x18718e0; 0x1ce1dc0; 0x1fc1f80; 0x1df1fe0;
   0x187d8f8; 0x1c1d818; 0x1f81f00; 0xf00f00; 0x0; 0x0; 0x0; 0x0;
   0x202000; 0x0; 0x0; 0x0; 0x1c0300; 0xc0300; 0x3fffffc; 0x3fffffc;
   0x0; 0xc31ff0; 0xc71ff0; 0xc31830; 0xc71ff0; 0xc31830; 0xc71ff0; 0xc31ab0;
   0xf81e30; 0x280e20; 0x1ffdff8; 0x1ffdff8; 0x1c11810; 0x18f98f8; 0x1df19c0; 0x1f81f80;
   0x1ff1ff0; 0x187d8fc; 0x1c1d81c; 0x1f81f80; 0xf01f00; 0x0; 0x0; 0x0;
   0x0; 0x202000; 0x0; 0x0; 0x0; 0x1c0; 0x3ef8380; 0x3ff8300;
   0x30c3ff8; 0x30c3ff8; 0x30c3018; 0x37db018; 0x36db018; 0x36f3ff8; 0x3cf3ff8; 0x3cf0018;
   0x30e3ff8; 0x30c7ff8; 0x38c25b8; 0x3ce75b8; 0x3ef25b8; 0x37ffffc; 0x32dffe8; 0x30cf5bc].
Definition hanzi_data_343 : list N :=
  [0x30c25ac; 0x30c75bc; 0x30c25ac; 0x30c75be; 0x3efbda4; 0x1e73030; 0x0; 0x0;
   0x0; 0x0; 0x202000; 0x0; 0x0; 0x0; 0x0; 0x3ffbffc;
   0x3fffffc; 0x30c0000; 0x30c1ff8; 0x30c1ff8; 0x33dd818; 0x32d9818; 0x36d9ff8; 0x36f1ff8;
   0x3cf0000; 0x30c2aa8; 0x30c3ffc; 0x38e300c; 0x3cf366c; 0x3ef36cc; 0x37fb3cc; 0x33df7ec;
   0x30cb7fc; 0x30c318c; 0x30c318c; 0x30c318c; 0x30d318c; 0x1ef3d8c; 0x1e71d0c; 0x0;
   0x0; 0x0; 0x0; 0x202000; 0x0; 0x0; 0x0; 0x0;
   0x1ff9ff8; 0x1ffdff8; 0x1831830; 0x1df99f0; 0x1fc1f80; 0x1fe1ff0; 0x18f98f8; 0x1c1f818;
   0x2aaeaa8; 0x3fffff8; 0x0; 0x3fffc0; 0x3aabc0; 0x3555c0; 0x3fffc0; 0x0;
   0x1fffff8; 0x1fffff8; 0x182aa38; 0x1c7ff38; 0x1860238; 0x1c7ff38; 0x1faaa38; 0x1f00038;
   0x0; 0x0; 0x0; 0x0; 0x202000; 0x0; 0x0; 0x0;
   0x1c01c0; 0x1c00c0; 0x1e01c0; 0x3f1ffc; 0xf79ffc; 0x1e1c0c0; 0x7c0f1c0; 0x3007ff8;
   0x3ffeffc; 0x1ffec18; 0x1860d5c; 0x1860ff8; 0x1b66d5c; 0x1b6cc18; 0x1e7cffc; 0x1a68ff8;
   0x18701c0; 0x1e780c0; 0x1f7dffe; 0x1befffe; 0x19e71c0; 0x18600c0; 0x18601c0; 0x1e780c0;
   0x1e381c0; 0x0; 0x0; 0x0; 0x0; 0x202000; 0x0; 0x0;
   0x0; 0x1c0; 0x3ffe0c0; 0x3fffff8; 0x38e1ff8; 0x38e1818; 0x38e1818; 0x3bedff8;
   0x3bedab8; 0x3efd818; 0x3ef9ff8; 0x3ef9ff8; 0x38e00c0; 0x38e15d4; 0x38e3ffc; 0x3cf1774;
   0x3ef8e30; 0x3ffddb8; 0x3bef99c; 0x39e518c; 0x38e1ff8; 0x38e1ff8; 0x38e0180; 0x3d7c180;
   0x1e78180; 0x1e38180; 0x0; 0x0; 0x0; 0x0; 0x202000; 0x0;
   0x0; 0x0; 0x0; 0x7f3ff8; 0x7f3ff8; 0x630098; 0x3e39fd8; 0x3c1c278;
   0xfffff8; 0xffbff8; 0xe30f98; 0x761df8; 0x3e10f8; 0xffbff8; 0x3f7fff8; 0x8000;
   0x1ffdff8; 0x1ffdff8; 0x1c19870; 0x1831860; 0x1c619c0; 0x1fc1e80; 0x1ff1fc0; 0x18fd8f8;
   0x1c1d81c; 0x1f81f80; 0xf01f00; 0x0; 0x0; 0x0; 0x0; 0x202000;
   0x0; 0x0; 0x0; 0x1310; 0x3efb318; 0x3ff9b30; 0x30c1b60; 0x30c0f60;
   0x30c3ffc; 0x37dfffc; 0x36f0fc0; 0x36f1f70; 0x3ce3b38; 0x3cf331c; 0x30e2338; 0x30c3030;
   0x38c3ab0; 0x3ce7ff8; 0x3ef3098; 0x37fb6dc; 0x32db2fc; 0x30c37f4; 0x30cfe60; 0x30cff70;
   0x30c3030; 0x30c301c; 0x3ef300e; 0x1c73004; 0x0; 0x0; 0x0; 0x0;
   0x202000; 0x0; 0x0; 0x0; 0x1c00; 0x3fffff8; 0x3ffc7fc; 0x30c1998;
   0x30c1d98; 0x30c0db0; 0x33cfffc; 0x32cbffc; 0x36d97d4; 0x36d8fe0; 0x34d1df0; 0x30c39b8;
   0x30c119c; 0x38e018c; 0x3cf1ffc; 0x3ef9ff8; 0x37dd99c; 0x33cd988; 0x31c5ffc; 0x30c1ba8;
   0x30c199c; 0x30c1ba8; 0x30c1ffc; 0x3ef9aa8; 0x1e7181c; 0x0; 0x0; 0x0;
   0x0; 0x202000; 0x0; 0x0; 0x0; 0x0; 0x1ffdffc; 0x1ffdffc;
   0x1839870; 0x1c71ce0; 0x1fc1fc0; 0x19fddfc; 0x183d83c; 0x7fffe0; 0x7fffe0; 0x606060;
   0x7fffe0; 0x7fffe0; 0x606060; 0x7fffe0; 0x2eaea0; 0x1575750; 0x1fffff8; 0x60700;
   0x2aeaea8; 0x7fffffc; 0xe0e00; 0x7f07e0; 0x3e000fc; 0x1c0001c; 0x0; 0x0;
   0x0; 0x0; 0x202000; 0x0; 0x0; 0x0; 0x0; 0x3ffbff8;
   0x3fffffc; 0x3ac3248; 0x30c364c; 0x30c3ff8; 0x33cfffc; 0x32c8000; 0x36dfffc; 0x36dbffc;
   0x34d0000; 0x30d3ff8; 0x30c3ff8; 0x38e3018; 0x3cf3018; 0x3efbff8; 0x37dfff8; 0x32ca3e0;
   0x30c7770; 0x30c1c7c; 0x30c1c7c; 0x30c3260; 0x30c73e0; 0x3efa0e0; 0x1e70020; 0x0;
   0x0; 0x0; 0x0; 0x202000; 0x0; 0x0; 0x0; 0x40;
   0x3fbf0c0; 0x3fffccc; 0x3122ccc; 0x37776cc; 0x362c6c8; 0x3c746d8; 0x3f3e2d8; 0x37f73d8;
   0x30a1aea; 0x1dcffe; 0x18cffe; 0x3ffe330; 0x3fff330; 0x187b30; 0x3fffb30; 0x3fffb30;
   0x186338; 0x15d7318; 0x3ffff18; 0x15d6f98; 0x18639c; 0x7ffe18c; 0x3ffe00e; 0x6004;
   0x0; 0x0; 0x0; 0x0; 0x202000; 0x0; 0x0; 0x0;
   0x1800; 0x801800; 0x1c01800; 0xe01800; 0x7ffff0; 0x3ffff0; 0x1c1800; 0xe1800;
   0x71800; 0x3fffffc; 0x3fffffc; 0x2aafaa8; 0x7c00; 0x1e00; 0x380fc0; 0x3e07e0;
   0x1fe7fc; 0x3fe3c; 0x7e0c; 0x1800600; 0x1800600; 0x1800600; 0x1fffe00; 0xfffe00;
   0x7ff000; 0x0; 0x0; 0x0; 0x0; 0x202000; 0x0; 0x0;
   0x0; 0x3000; 0x3000; 0x1c03000; 0xefffe0; 0x7ffff0; 0x383000; 0x1c3000;
   0xe3000; 0x3fffffc; 0x3fffffc; 0xf000; 0x3800; 0x7fff00; 0x7fff80; 0x555ff0;
   0xefc; 0x15573c; 0x3fff0c; 0x3fff00; 0x380000; 0x180000; 0x180000; 0x1d5000;
   0xff000; 0x7f000; 0x0; 0x0; 0x0; 0x0; 0x202000; 0x0;
   0x0; 0x0; 0x1800; 0xc01800; 0xfffff0; 0x3ffff0; 0x1e1800; 0x3fffffc;
   0x3fffffc; 0x207800; 0x7f5f00; 0x30fffe0; 0x380167e; 0x1fffe0c; 0x5d5000; 0x1fe000;
   0x7fff0; 0x3ff0; 0x7ff000; 0x2fffe8; 0x3c037f0; 0x3fff000; 0x15ffff4; 0x3003bfc;
   0x3007004; 0x3fff000; 0x1ffc000; 0x0; 0x0; 0x0; 0x0; 0x202000;
   0x0; 0x0; 0x0; 0x1800; 0x801800; 0x1c01800; 0xeabaa0; 0x7ffff0;
   0x3abaa0; 0x1c1800; 0xe1800; 0x157dd54; 0x3fffffc; 0x3fffffc; 0x7800; 0x1e00;
   0x7fff80; 0x7ffff0; 0x7003fc; 0x7003bc; 0x700388; 0x7fff80; 0x7aab80; 0x700380;
   0x700380; 0x7fff80; 0x7fff80; 0x700380; 0x0; 0x0; 0x0; 0x0;
   0x202000; 0x0; 0x0; 0x0; 0x1800; 0xc01800; 0xeffff0; 0x7ffff0;
   0x3c1800; 0xf1800; 0x3fffffc; 0x2abeaa8; 0x307c00; 0x7f9f00; 0x5ffff0; 0xc02efe;
   0xf5573c; 0xfffe00; 0x555400; 0x2aaaa0; 0x7fffe0; 0x6000e0; 0x6000e0; 0x7fffe0;
   0x7555e0; 0x6000e0; 0x7fffe0; 0x7fffe0; 0x6000e0; 0x0; 0x0; 0x0;
   0x0; 0x202000; 0x0; 0x0; 0x0; 0x1c00; 0xc01800; 0xe01c00].
Definition hanzi_data_344 : list N :=
  [0x7ffff0; 0x3ffff0; 0xe1800; 0x79c00; 0x3fffffc; 0x3fffffc; 0x3c00; 0x1f80;
   0xaaafe0; 0x1fffffc; 0xeaaf3c; 0x1c003c4; 0xc3ffe0; 0xc3fff0; 0xc303b8; 0xc30390;
   0xc3ab80; 0xe3ff80; 0xe00380; 0x700300; 0x7f0000; 0x3f0000; 0x0; 0x0;
   0x0; 0x0; 0x202000; 0x0; 0x0; 0x0; 0x1800; 0xc01800;
   0xfffff0; 0x3ffff0; 0x1e1800; 0x3fffffc; 0x3fffffc; 0x207c00; 0xffdfc0; 0x8ffff8;
   0x1c0067c; 0xfffe08; 0x7ffc00; 0xaaaaa8; 0x1fffff8; 0xe0f00; 0x7d57c0; 0xffffe0;
   0x406160; 0xaaeaa0; 0xfffff0; 0x6000; 0x1557554; 0x3fffffc; 0x1555554; 0x0;
   0x0; 0x0; 0x0; 0x202000; 0x0; 0x0; 0x0; 0x0;
   0x2aaaaa8; 0x3fffffc; 0x3fffffc; 0x7000; 0x3000; 0x3000; 0x1fffff8; 0x1fffff8;
   0x1abaeb8; 0x1c30e38; 0x1830e38; 0x1c30e38; 0x1830e38; 0x1c30e38; 0x1830e38; 0x1c30e38;
   0x1830e38; 0x1c30e38; 0x1830e38; 0x1c30e38; 0x1830e38; 0x1d30e38; 0x1fb0e38; 0xf80038;
   0x0; 0x0; 0x0; 0x0; 0x202000; 0x0; 0x0; 0x0;
   0x0; 0x3fffffc; 0x3fffffc; 0x7000; 0x7000; 0xfffff0; 0xfffff0; 0xc30c30;
   0xc30c70; 0xc30c30; 0xc30c70; 0xfb0c30; 0xf30c70; 0x3820; 0x1c00; 0x3fffffc;
   0x3fffffc; 0xc0700; 0xe0380; 0x78fc0; 0x3ffc0; 0xff800; 0x1ff7fc0; 0x3f80ffc;
   0x1c00078; 0x0; 0x0; 0x0; 0x0; 0x202000; 0x0; 0x0;
   0x0; 0x0; 0x1c00000; 0xe0fffc; 0x70fffc; 0x3c0380; 0x1e0380; 0x70180;
   0x80fff8; 0x1c0fff8; 0x1c0ccc8; 0xe0ccdc; 0x70ccc8; 0x3cccdc; 0x1eccc8; 0x6ccdc;
   0x300ccc8; 0x380ccdc; 0x380ccc8; 0x1c0ccdc; 0xe0ccc8; 0x70ccdc; 0x38ccc8; 0x1eccdc;
   0xffcc8; 0x6745c; 0x0; 0x0; 0x0; 0x0; 0x202000; 0x0;
   0x0; 0x0; 0xc00000; 0xc0aaa8; 0xc0fffc; 0xc0fffc; 0xc00180; 0xc00180;
   0x7ff01c0; 0x3ff7ff8; 0x5d57ffc; 0xc06cc8; 0xc06cdc; 0xc36cc8; 0xc66cdc; 0xce6cc8;
   0xcc6cdc; 0xcc6cc8; 0xdc6cdc; 0xc06cc8; 0xc06cdc; 0xc06cc8; 0xc06cdc; 0xc06cc8;
   0xc06cdc; 0xf87808; 0x78701c; 0x0; 0x0; 0x0; 0x0; 0x202000;
   0x0; 0x0; 0x0; 0x6000; 0xc06030; 0x1c06030; 0xc06030; 0x1c06030;
   0xfffff0; 0x1fffff0; 0x0; 0x0; 0x3fffffc; 0x3fffffc; 0x7000; 0x7000;
   0x3000; 0xfffff0; 0xfffff0; 0xc30c30; 0xc30c30; 0xc30c30; 0xc30c30; 0xc30c30;
   0xc30c30; 0xc30c30; 0xfb0c30; 0x730c30; 0x0; 0x0; 0x0; 0x0;
   0x202000; 0x0; 0x0; 0x0; 0x6000; 0x6000; 0x6000; 0x1fffff8;
   0x1fffff8; 0xaaeaa8; 0x6000; 0x6000; 0xfffff0; 0xfffff0; 0x557550; 0x6000;
   0x6000; 0x3fffffc; 0x3fffffc; 0x1f800; 0x3fc00; 0x76e00; 0x1e6700; 0x3c63c0;
   0x7861f0; 0x1e060f8; 0x7c0603c; 0x3806008; 0x6000; 0x0; 0x0; 0x0;
   0x0; 0x202000; 0x0; 0x0; 0x0; 0x1c0; 0x180; 0x3ffd5d4;
   0x3ffdffc; 0x1c01ffc; 0xe00180; 0x7001c0; 0x381ffc; 0x1c1ffc; 0x180180; 0x1c01c0;
   0x3ffeba8; 0x7fffffc; 0x2babffc; 0x1c03e0; 0x1807e0; 0x1c0ff0; 0x181db0; 0x1c1df8;
   0x18099c; 0x1c01de; 0x18018c; 0x1d41c4; 0x1f8180; 0xf81c0; 0x0; 0x0;
   0x0; 0x0; 0x202000; 0x0; 0x0; 0x0; 0x6380c0; 0x6380c0;
   0x6380c0; 0x638ffc; 0x638ffc; 0x3ffe0c0; 0x3fff0c0; 0x6387f8; 0x6387fc; 0x6382e8;
   0x6380c0; 0x6380c0; 0x638ffc; 0x3fffffc; 0x7fff1e0; 0x2eba3e0; 0x6187f0; 0x618ef8;
   0x61c4d8; 0x61c4cc; 0x61c0ce; 0x60e0c4; 0x6070c4; 0x6038c0; 0x6010c0; 0x0;
   0x0; 0x0; 0x0; 0x202000; 0x0; 0x0; 0x0; 0xe01c0;
   0xe00c0; 0xe01c0; 0xe0ffc; 0x4e0ffc; 0xeec0c0; 0x1cee1c0; 0x18eeff8; 0x18e6ffc;
   0x38e60c0; 0x30e71c0; 0x30e30c0; 0x10e3ffc; 0x8e2ffc; 0x1ce01e0; 0xce03e0; 0xee07f0;
   0x600ef8; 0x780dd8; 0x3c00dc; 0x1f01ce; 0xf80cc; 0x3f1c4; 0xf8c0; 0x19c0;
   0x0; 0x0; 0x0; 0x0; 0x202000; 0x0; 0x0; 0x0;
   0x4001c0; 0xe000c0; 0x7c01c0; 0x3f8ffc; 0x7fffc; 0x6e0c0; 0x601c0; 0x60ff8;
   0x1fe0ffc; 0x3ffe0c0; 0x17e1c0; 0x600c0; 0x61ffc; 0x2061ffc; 0x7fe03e0; 0x3fff3e0;
   0x17f7f0; 0x62ef8; 0x1060ddc; 0x20608ce; 0x70601cc; 0x30600c4; 0x7fe01c0; 0x3fe00c0;
   0x1fc01c0; 0x0; 0x0; 0x0; 0x0; 0x202000; 0x0; 0x0;
   0x0; 0x1c0; 0xc0; 0x1ffc1c0; 0x1ffcffc; 0x1555ffc; 0xc0; 0x1c0;
   0xff8; 0xffc; 0xae8; 0x3ffe1c0; 0x3ffe0c0; 0xe1ffc; 0xe0ffc; 0x701e0;
   0x703e0; 0x6707f0; 0xe38ef0; 0xc38dd8; 0x1c188dc; 0x1c1c1ce; 0x3ffe0cc; 0x3ffe1c4;
   0x303e0c0; 0x30001c0; 0x0; 0x0; 0x0; 0x0; 0x202000; 0x0;
   0x0; 0x0; 0x1c0; 0xc0; 0x1fff1c0; 0x1ffeffc; 0x18c7ffc; 0x18c60c0;
   0x18c71c0; 0x18c6ff8; 0x18c7ff8; 0x18c62e8; 0x18c71c0; 0x18c60c0; 0x1fffffc; 0x1ffeffc;
   0x1d571e0; 0x18063e0; 0x77f0; 0x6ef0; 0x1007dd8; 0x60060dc; 0x70071ce; 0x30060cc;
   0x3ffe1c4; 0x3ffe0c0; 0x5501c0; 0x0; 0x0; 0x0; 0x0; 0x202000;
   0x0; 0x0; 0x0; 0x1c0; 0x180; 0x1ffc1c0; 0xffdffc; 0x1c0dffc;
   0xc0c180; 0x1c0c1c0; 0xc0cba8; 0x1d5cff8; 0xffcba8; 0x1ffc1c0; 0xc180; 0xdffc;
   0xdffc; 0x1ffc3c0; 0x1ffc3e0; 0x180c7f0; 0x180cdb0; 0x180ddf8; 0x180c998; 0x180c1de;
   0x1ffc18c; 0x1ffc1c4; 0x1aac180; 0x180c1c0; 0x0; 0x0; 0x0; 0x0;
   0x202000; 0x0; 0x0; 0x0; 0x400c0; 0xe00c0; 0xe00c0; 0x1f0ffc;
   0x1f0ffc; 0x3b80c0; 0x71c0c0; 0xe0e7f8; 0x1c0f7fc; 0x3fffae8; 0x17ff0c0; 0xc0;
   0xffc; 0xffc; 0xffe1e0; 0xffe3e0; 0xc067f0; 0xc06ef8; 0xc06cd8; 0xc060dc].
Definition hanzi_data_345 : list N :=
  [0xc060ce; 0xeae0c4; 0xffe0c4; 0xffe0c0; 0xc060c0; 0x0; 0x0; 0x0;
   0x0; 0x202000; 0x0; 0x0; 0x0; 0x6180e0; 0x6180e0; 0x6187fc;
   0x3fffffc; 0x7fffff8; 0x6180e0; 0x6180e0; 0x2083fc; 0x3fff7fc; 0x3fff0e0; 0x35570e0;
   0x30a30e0; 0x30e37fc; 0x607fc; 0x1ffe1e0; 0x1ffe1e0; 0x1c603f0; 0x1c607f8; 0x1c706fc;
   0xc306ec; 0xc380ec; 0xc1c0e4; 0xe4e0e0; 0x7c78e0; 0x7c30e0; 0x0; 0x0;
   0x0; 0x0; 0x202000; 0x0; 0x0; 0x0; 0x7180c0; 0x6180c0;
   0x7187fc; 0x2eba7fc; 0x3fff7fc; 0x3fff0c0; 0x7180c0; 0x6187fc; 0x7187fc; 0x3fff8c0;
   0x7fff8c0; 0xc0; 0x7fc; 0x1ffe7fc; 0x1ffe1e0; 0x1c063e0; 0x1c067f0; 0x1ffe6f8;
   0x1ffe6d8; 0x1c060dc; 0x1c060ce; 0x1c060cc; 0x1ffe0c4; 0x1ffe0c0; 0x1c060c0; 0x0;
   0x0; 0x0; 0x0; 0x202000; 0x0; 0x0; 0x0; 0xc01c0;
   0x18c20c0; 0x38c71c0; 0x18c6ffc; 0x1cceffc; 0xecc0c0; 0x7dc1c0; 0xc0ff8; 0x1fffffc;
   0x1fff0c0; 0x18071c0; 0x18030c0; 0x1bf7ffc; 0x1bf3ffc; 0x1b371e0; 0x1b333e0; 0x1b377f0;
   0x1b33ef0; 0x1bf75d8; 0x1ab30dc; 0x18371ce; 0x18030cc; 0x18071c4; 0x1e030c0; 0x1e071c0;
   0x0; 0x0; 0x0; 0x0; 0x202000; 0x0; 0x0; 0x0;
   0xc0; 0x3ffe0c0; 0x3ffe0c0; 0x38c6ffc; 0x38c6ffc; 0x3ffe0c0; 0x3ffe0c0; 0x38c67f8;
   0x38c67fc; 0x3ffe2e8; 0x3ffe0c0; 0xc00c0; 0xc0ffc; 0x3fffffc; 0x7fff1e0; 0x20c33e0;
   0x76c77f0; 0x2cc36f8; 0x7fc7cd8; 0x2fff4dc; 0x787f0ce; 0x28030cc; 0x70070c4; 0x3c030c0;
   0x3c070c0; 0x0; 0x0; 0x0; 0x0; 0x202000; 0x0; 0x0;
   0x0; 0xc00c0; 0x18c60c0; 0x1cc67fc; 0xcce7fc; 0x6dc7fc; 0x3fff8c0; 0x3fff8c0;
   0x3f07fc; 0x7f87fc; 0xece0c0; 0x3cc70c0; 0x38c38c0; 0xf17fc; 0x707fc; 0x15751e0;
   0x3fffbe0; 0x3fffbf0; 0x60c6f8; 0x70e6d8; 0x3be0dc; 0x1fc0ce; 0x3e00cc; 0x1ffc0c4;
   0x3e3f8c0; 0x18070c0; 0x0; 0x0; 0x0; 0x0; 0x202000; 0x0;
   0x0; 0x0; 0xc0; 0x3fff0c0; 0x7fff7fc; 0x37fc; 0x1ffb7fc; 0x1ffb0c0;
   0x30c0; 0x3fff7fc; 0x7fff7fc; 0x19b30c0; 0x1f330c0; 0xe330c0; 0x1df37fc; 0x79fb7fc;
   0x36731e0; 0x6033e0; 0x7fff3f0; 0x3fffef8; 0x611ed8; 0x6398dc; 0x671cce; 0x660ccc;
   0x660cc4; 0x780ec0; 0x7804c0; 0x0; 0x0; 0x0; 0x0; 0x202000;
   0x0; 0x0; 0x0; 0x7180e0; 0x3180e0; 0x3fffffc; 0x3fffffc; 0x7187fc;
   0xbba0e0; 0x1fff0e0; 0x3187fc; 0x7187fc; 0x3fff8e0; 0x7fff8e0; 0xe00e0; 0x1fff7fc;
   0x1fff7fc; 0x18e31e0; 0x1fff1e0; 0x1fff3f0; 0x18e36f8; 0x1df76f8; 0x3fffcfc; 0x5d574ee;
   0x18030ec; 0x18030e4; 0x1f830e0; 0x1f030e0; 0x0; 0x0; 0x0; 0x0;
   0x202000; 0x0; 0x0; 0x0; 0xc00c0; 0xc00c0; 0x15d50c0; 0x3ffe7fc;
   0x15557fc; 0xe180c0; 0x6180c0; 0x6302e8; 0x3fff7fc; 0x3fff2e8; 0x30c30c0; 0x30c30c0;
   0xc0ffc; 0x3ffeffc; 0x3fff1e0; 0x301e0; 0x303f0; 0x1ff06f8; 0x1ff86d8; 0x18184dc;
   0x1c1c0ce; 0xc0c0cc; 0x1c4f0c4; 0xf878c0; 0x7810c0; 0x0; 0x0; 0x0;
   0x0; 0x202000; 0x0; 0x0; 0x0; 0xc0; 0x3fff8c0; 0x3fffffc;
   0x607fc; 0xffe7fc; 0xc060c0; 0xffe0c0; 0xeae7fc; 0xffe7fc; 0xffe0c0; 0x1d570c0;
   0x3fff8c0; 0x3071ffc; 0x3ddbffc; 0x1e9f1e0; 0x3bfb3e0; 0x73f1bf0; 0x386f8; 0xffe6d8;
   0xe0f8dc; 0x73dcce; 0x3f08cc; 0x7fc0c4; 0x7fbfcc0; 0x3c07cc0; 0x0; 0x0;
   0x0; 0x0; 0x202000; 0x0; 0x0; 0x0; 0x60060; 0xc0060;
   0x3fffffc; 0x3fffbfc; 0x411ffc; 0x411860; 0x3f7f860; 0x2e7fbfc; 0x1e79bfc; 0x1ffd860;
   0x35d5860; 0x24d7860; 0x491ffc; 0x2aabbfc; 0x3fff9f0; 0x2ab99f0; 0x31bf0; 0x1ff9b78;
   0x1ffdf7c; 0x181ec6c; 0x181fc6e; 0x181ac64; 0x1ff8664; 0x1ff8660; 0x1818660; 0x0;
   0x0; 0x0; 0x0; 0x202000; 0x0; 0x0; 0x0; 0x70070;
   0x60060; 0x3fffd74; 0x3fffffc; 0x3fc; 0x3fff860; 0x3fff870; 0x31999fc; 0x31999fc;
   0x3fff860; 0x1555070; 0x3c63860; 0x1f6f1fc; 0x681fc; 0x1f6f0f0; 0x382fcf0; 0x3071df8;
   0x38fc1f8; 0x1fdf17c; 0x787e6e; 0x787e74; 0xe66064; 0x7c7f070; 0x383f060; 0x6070;
   0x0; 0x0; 0x0; 0x0; 0x202000; 0x0; 0x0; 0x0;
   0x0; 0x0; 0x3fffffc; 0x3fffffc; 0x3801c0; 0x3801c0; 0x3801c0; 0x3aabc0;
   0x3fffc0; 0x3fffc0; 0x3801c0; 0x3801c0; 0x3801c0; 0x3aabc0; 0x3fffc0; 0x3fffc0;
   0x3801c0; 0x3801c0; 0x3f801c0; 0x3ffffc0; 0x3fffffc; 0x380ffc; 0x380000; 0x380000;
   0x380000; 0x0; 0x0; 0x0; 0x0; 0x202000; 0x0; 0x0;
   0x0; 0x0; 0x1ffc; 0x7ffdffc; 0x3ffeeb8; 0x7ffec38; 0x300c38; 0x700c38;
   0x300ff8; 0x700ff8; 0x300c38; 0x700c38; 0x300c38; 0x700ff8; 0x300ff8; 0x700d78;
   0x300c38; 0x700c38; 0x303c38; 0x703ff8; 0x300ffc; 0x700c7c; 0x300c00; 0x7f8c00;
   0x3f8c00; 0x1f0c00; 0x0; 0x0; 0x0; 0x0; 0x202000; 0x0;
   0x0; 0x0; 0x0; 0xaa0000; 0x3ff7ffc; 0x3ff7ffc; 0x1c31c30; 0x1c31830;
   0xc31c30; 0xe31ff0; 0x631ff0; 0x331830; 0x731c30; 0xe31830; 0x1c31d70; 0x1831ff0;
   0x3831ff0; 0x3031830; 0x3031c30; 0x3033830; 0x3837ff0; 0x3f33ffe; 0x1f31dfc; 0x31800;
   0x31c00; 0x31800; 0x31c00; 0x0; 0x0; 0x0; 0x0; 0x202000;
   0x0; 0x0; 0x0; 0x7000; 0x3800; 0x3c00; 0x3fffffc; 0x3fffffc;
   0xe0700; 0x3c03c0; 0xf801e0; 0x3f5557c; 0x3fffffc; 0x17fffec; 0x180180; 0x1fff80;
   0x1fff80; 0x1d5580; 0x180180; 0x1fff80; 0x1fff80; 0x180180; 0x180180; 0x1fffff8;
   0x1fffff8; 0x180578; 0x180000; 0x180000; 0x0; 0x0; 0x0; 0x0;
   0x202000; 0x0; 0x0; 0x0; 0x1c0700; 0xc0300; 0xc0380; 0xe0180].
Definition hanzi_data_346 : list N :=
  [0x1f03c0; 0x3b07e0; 0x739ef0; 0xe1dc78; 0x1c0e83c; 0x2aaeaa8; 0x3fffffc; 0x2baaae8;
   0x3000c0; 0x3fffc0; 0x3fffc0; 0x3000c0; 0x3555c0; 0x3fffc0; 0x3555c0; 0x3000c0;
   0x3ffffd4; 0x3fffffc; 0x3057fc; 0x300000; 0x300000; 0x0; 0x0; 0x0;
   0x0; 0x202000; 0x0; 0x0; 0x0; 0x180000; 0x181ffc; 0x181ffc;
   0x180638; 0x180638; 0x180638; 0x19c638; 0x18c7f8; 0x19c7f8; 0x18c638; 0x3f9c638;
   0x3f8c638; 0x19c7f8; 0x18c7f8; 0x19c778; 0x18c638; 0x19c638; 0x18de38; 0x19dff8;
   0x18cffe; 0x19c67c; 0x18c600; 0x7fff600; 0x3fff600; 0x600; 0x0; 0x0;
   0x0; 0x0; 0x202000; 0x0; 0x0; 0x0; 0x60000; 0x60ffc;
   0x60ffc; 0x60618; 0x60718; 0x1fff618; 0x1fff718; 0x1aeb7f8; 0x18637f8; 0x1863618;
   0x19e3718; 0xe0618; 0x1e07f8; 0xe07f8; 0x1f0758; 0xf0618; 0x1f0718; 0xb8e18;
   0x11f8ff8; 0x2098ffe; 0x71dc77c; 0x308e600; 0x3fc7700; 0x3f83e00; 0x1f03700; 0x0;
   0x0; 0x0; 0x0; 0x202000; 0x0; 0x0; 0x0; 0xc0000;
   0xc1ffc; 0xc1ffc; 0xc0e38; 0xc0e38; 0x10c4e38; 0x38cce38; 0x38ccff8; 0x18ccff8;
   0x18cee38; 0xcc6e38; 0xcc6e38; 0x6c7ff8; 0xe2ff8; 0x1e0f78; 0x1e0e38; 0x1e0e38;
   0x1e1e38; 0x371ff8; 0x338ffe; 0x71ce7c; 0xe1ce00; 0x3c0fe00; 0x3807e00; 0x1001e00;
   0x0; 0x0; 0x0; 0x0; 0x202000; 0x0; 0x0; 0x0;
   0x0; 0x3fffffc; 0x3fffffc; 0x3000e0; 0x7fffe0; 0x3fffe0; 0x7000e0; 0x3aaae0;
   0x7fffe0; 0x3000e0; 0x7f550e0; 0x3fffffc; 0x757ffc; 0x300000; 0x1ffdffc; 0x1ffdff8;
   0x1c19c00; 0xe30e38; 0x670678; 0x3e07e0; 0x3c07c0; 0x3e0fe0; 0x1f7dc78; 0x3e3e83e;
   0x300600c; 0x0; 0x0; 0x0; 0x0; 0x202000; 0x0; 0x0;
   0x0; 0xc0000; 0xc0ffc; 0xc0ffc; 0xc0218; 0x1ffe718; 0x1ffe218; 0x18c6718;
   0x18c63f8; 0x18c67f8; 0x18c6218; 0x1ffe718; 0x1ffe218; 0x18c67f8; 0x18c63f8; 0x18c6758;
   0x18c6218; 0x7ffff18; 0x3fffe18; 0x1806ff8; 0x18063fe; 0x180675c; 0x1806200; 0x1d06700;
   0x1f06200; 0xf06700; 0x0; 0x0; 0x0; 0x0; 0x202000; 0x0;
   0x0; 0x0; 0x1c0000; 0xc0ffc; 0xe1ffc; 0x1e0618; 0x3f0718; 0x338618;
   0x71c718; 0xe0c7f8; 0x1c7f7f8; 0x38e7e18; 0x31c3718; 0x80618; 0x5547f8; 0x1ffc7f8;
   0xffc758; 0xe00618; 0x700718; 0x300e18; 0x399ff8; 0x1b8ffe; 0x1f077c; 0xe0600;
   0x1c0700; 0x380600; 0x100700; 0x0; 0x0; 0x0; 0x0; 0x202000;
   0x0; 0x0; 0x0; 0x10000; 0x787fc; 0x151e7fc; 0x3f8f318; 0x3f93318;
   0x31b3318; 0x31b3318; 0x31b33f8; 0x31b33f8; 0x31b3318; 0x31b3318; 0x31b3318; 0x31b33f8;
   0x31b33f8; 0x31b3358; 0x31b3318; 0x31bf318; 0x31bfb18; 0x3f9fff8; 0x1f983fe; 0x19c31c;
   0x18e300; 0x187300; 0x183b00; 0x181300; 0x0; 0x0; 0x0; 0x0;
   0x202000; 0x0; 0x0; 0x0; 0x71800; 0xe1800; 0x1c1c00; 0x3fffffc;
   0x3fffffc; 0x60ce00; 0x7dc700; 0x21fc380; 0x707f3c0; 0x3fffef8; 0x3ff9e7c; 0x8;
   0x3fffffc; 0x3fffffc; 0x17555d4; 0x3aaac0; 0x3fffc0; 0x3000c0; 0x3fffc0; 0x3fffc0;
   0x3000c0; 0x3fffff8; 0x7fffffc; 0x300000; 0x300000; 0x0; 0x0; 0x0;
   0x0; 0x202000; 0x0; 0x0; 0x0; 0x0; 0x1ffc; 0x1fffffc;
   0x1ffe618; 0x180e618; 0x180e618; 0x180e618; 0x180e7f8; 0x180e7f8; 0x180e618; 0x180e618;
   0x180e618; 0x1ffe7f8; 0x1ffe7f8; 0x758; 0x618; 0x410618; 0x639e18; 0xe19ff8;
   0xc18ffe; 0x1c1c67c; 0x380e600; 0x3807600; 0x3007600; 0x1003600; 0x0; 0x0;
   0x0; 0x0; 0x202000; 0x0; 0x0; 0x0; 0x60000; 0xe0ffc;
   0xc0ffc; 0xc0318; 0x3fff718; 0x3fff318; 0x3003718; 0x30033f8; 0x30037f8; 0x2002318;
   0x7ffff18; 0x3fffb18; 0x7fffff8; 0xc03f8; 0xc0758; 0xc0318; 0xc0718; 0xc0b18;
   0xc0ff8; 0xc07fe; 0xc077c; 0xc0300; 0xc4700; 0xf8300; 0x78700; 0x0;
   0x0; 0x0; 0x0; 0x202000; 0x0; 0x0; 0x0; 0xc00000;
   0x1f80ffc; 0x1fffffc; 0xfe618; 0xc4718; 0xc0618; 0xc0718; 0xc07f8; 0x7fff7f8;
   0x3fff618; 0x55d5718; 0xc0618; 0xc07f8; 0xc07f8; 0x15d4758; 0x1ffe618; 0x1ffe718;
   0x1806e18; 0x1807ff8; 0x1806ffe; 0x180677c; 0x1806600; 0x1ffe700; 0x1ffe600; 0x1806700;
   0x0; 0x0; 0x0; 0x0; 0x202000; 0x0; 0x0; 0x0;
   0x400000; 0xc0effc; 0xe1cffc; 0x638618; 0x738618; 0x390618; 0x1fff618; 0x1ffe7f8;
   0xe07f8; 0xe0618; 0xe0618; 0xe0618; 0x3fff7f8; 0x3fff7f8; 0x15f5758; 0xe0618;
   0x1f0618; 0x1f1e18; 0x1f1ff8; 0x3b8ffe; 0x71c67c; 0xe1e600; 0x1c0f600; 0x3807e00;
   0x1003600; 0x0; 0x0; 0x0; 0x0; 0x202000; 0x0; 0x0;
   0x0; 0xc0000; 0xc0ffc; 0x15d5ffc; 0x1ffe618; 0x1dd7718; 0x18c6618; 0x1fff758;
   0x1ffe7f8; 0x18c77f8; 0x18c6618; 0x1fff718; 0xaaa618; 0x7f8; 0x3fffff8; 0x7ffff18;
   0x18618; 0x1c718; 0x1ffce18; 0x1ffdff8; 0x18007fe; 0x1c0071c; 0xc00600; 0xd40700;
   0xfe0600; 0x7c0700; 0x0; 0x0; 0x0; 0x0; 0x202000; 0x0;
   0x0; 0x0; 0x0; 0x7ffc; 0x1fffffc; 0x1ff9830; 0x1c01ff0; 0xc39ff0;
   0x6f9830; 0x7e1ff0; 0x7c1ff0; 0xee3830; 0x3c7fff4; 0x1839ffc; 0x7d1814; 0xffffe0;
   0x5fff0; 0xc06020; 0x1f0ff00; 0x3cefe0; 0x1fe1fc; 0xf7808; 0x3e7f00; 0xf863e0;
   0x7f061fe; 0x3006038; 0x6000; 0x0; 0x0; 0x0; 0x0; 0x202000;
   0x0; 0x0; 0x0; 0xc0000; 0xc0ffc; 0x1fffffc; 0x1aeb618; 0x18c7718;
   0x1aeb618; 0x1fff718; 0xc07f8; 0x15d57f8; 0x3fffe18; 0x7ffff18; 0x618; 0x1fff7f8;
   0x1ffe7f8; 0x1c07718; 0x18e6618; 0x1ce7718; 0x18e6e18; 0x1ce7ff8; 0x18667fe; 0x157571c].
Definition hanzi_data_347 : list N :=
  [0xfb8600; 0x1f1f700; 0x380fe00; 0x3003700; 0x0; 0x0; 0x0; 0x0;
   0x202000; 0x0; 0x0; 0x0; 0x40c000; 0xe0cffc; 0x61cffc; 0x638318;
   0x730718; 0x1ffe318; 0x1ffe718; 0x1aae3f8; 0x18067f8; 0x1806318; 0x1806718; 0x1806318;
   0x1ffe7f8; 0x1ffe3f8; 0x60718; 0xe0318; 0xdd8718; 0x199af18; 0x199fff8; 0x381b3fe;
   0x3c1b71c; 0x2e1bb00; 0x27f9f00; 0x7f8300; 0x150700; 0x0; 0x0; 0x0;
   0x0; 0x202000; 0x0; 0x0; 0x0; 0xe0380; 0x62ba8; 0x1577ffc;
   0x3ff0380; 0x1d73ff8; 0xc38380; 0x67fffc; 0x7ebff8; 0x3c3fc0; 0x3e3fe0; 0x1ffd870;
   0x3c3de3c; 0x355555c; 0x3fffffc; 0x17555d4; 0x3aaac0; 0x3fffc0; 0x3000c0; 0x3fffc0;
   0x3fffc0; 0x3000c0; 0x3fffffc; 0x3fffffc; 0x300000; 0x300000; 0x0; 0x0;
   0x0; 0x0; 0x202000; 0x0; 0x0; 0x0; 0x7000; 0x6000;
   0x557550; 0x7fffe0; 0x7ffff0; 0x606000; 0x1757554; 0x3fffffc; 0x3fffffc; 0x606000;
   0x757550; 0x7ffff0; 0x7ffff0; 0x6000; 0x557550; 0xfffff0; 0xfffff0; 0x6000;
   0x7000; 0x3fffffc; 0x3fffffc; 0x6000; 0x7000; 0x6000; 0x7000; 0x0;
   0x0; 0x0; 0x0; 0x202000; 0x0; 0x0; 0x0; 0x6000;
   0x6000; 0x7ffff0; 0xffffe0; 0xfffff0; 0xe06000; 0x5f57554; 0x3fffffc; 0x7fffffc;
   0xe06000; 0xe06000; 0xffffe0; 0xfffff0; 0x6000; 0x6000; 0x6000; 0x6000;
   0x6000; 0x6000; 0x6000; 0x6000; 0x6000; 0x6000; 0x6000; 0x6000;
   0x0; 0x0; 0x0; 0x0; 0x202000; 0x0; 0x0; 0x0;
   0x6000; 0x6000; 0xfffff0; 0xffffe0; 0xe06000; 0xe06000; 0x3fffffc; 0x3fffffc;
   0xe06000; 0xe06000; 0xfffff0; 0xffffe0; 0x6000; 0xc06060; 0xc76e70; 0xc66660;
   0xc66670; 0xce6660; 0xcc6770; 0xcc6330; 0xdc6330; 0xc06238; 0xc06018; 0xc0601e;
   0xc0600c; 0x0; 0x0; 0x0; 0x0; 0x202000; 0x0; 0x0;
   0x0; 0xc001c; 0xc0208; 0x15d47dc; 0x1ffe3f8; 0x1ffe07c; 0x18c0c08; 0x5dd5c1c;
   0x3fffeb8; 0x7fffffc; 0x18c02a0; 0x1dd4030; 0x1ffeab8; 0x1fffffc; 0xc0afc; 0x1ffe1ce;
   0x1ffe0cc; 0x15d5ffc; 0xc1ffc; 0x3fff0c0; 0x3fff1e0; 0x15d53e0; 0xc0770; 0xc1e3c;
   0xc0c1e; 0xc000c; 0x0; 0x0; 0x0; 0x0; 0x202000; 0x0;
   0x0; 0x0; 0xc0000; 0xc0ff0; 0x1fffff0; 0x1ffe030; 0x1dd4030; 0x18c0ff0;
   0x7fffff0; 0x3fff030; 0x5dd5030; 0x18c0ff0; 0x1dd4ff0; 0x1ffe030; 0x15d4030; 0xc1ffc;
   0x1fffffc; 0x1ffe0e0; 0x15d4060; 0xc0660; 0x3fff670; 0x3fffe38; 0x15d5ff8; 0xc1ffc;
   0xc1c7c; 0xc0800; 0xc0000; 0x0; 0x0; 0x0; 0x0; 0x202000;
   0x0; 0x0; 0x0; 0x701c0; 0x30380; 0x3ff1ff0; 0x3ff9ff0; 0xe1d830;
   0x63f830; 0x3f5ff0; 0x1e1ff8; 0x7fc018; 0x3e3e01c; 0x3ffffee; 0x7fffe8; 0x606000;
   0x3fffffc; 0x3fffffc; 0x606000; 0x7fffe0; 0x2aeaa0; 0xfffff0; 0xfffff0; 0x6000;
   0x3fffffc; 0x3fffffc; 0x6000; 0x6000; 0x0; 0x0; 0x0; 0x0;
   0x202000; 0x0; 0x0; 0x0; 0xe000; 0xe000; 0x6000; 0x6000;
   0x1fffff8; 0x1fffff8; 0x1c07018; 0x1807018; 0x1c1f818; 0x183d818; 0x1cf1e18; 0x19e0f98;
   0x1dc67d8; 0x1806098; 0x1c07018; 0x180f018; 0x1c1f818; 0x1839c18; 0x1cf1e18; 0x19e0798;
   0x1dc03d8; 0x1880098; 0x1c40018; 0x1fc0018; 0xfc0018; 0x0; 0x0; 0x0;
   0x0; 0x202000; 0x0; 0x0; 0x0; 0x60000; 0x60ff8; 0x60ff8;
   0x60e18; 0x60e18; 0x60e18; 0x3fffe18; 0x3fffff8; 0x3fffff8; 0x3860eb8; 0x3870e18;
   0x3860e18; 0x3870e18; 0x3830e18; 0x1870ff8; 0x3830ff8; 0x1838e18; 0x1838e18; 0x1818e18;
   0x181ce18; 0x181ce1c; 0x180ee0c; 0x1d477cc; 0xfc7f8e; 0xfc3384; 0x0; 0x0;
   0x0; 0x0; 0x202000; 0x0; 0x0; 0x0; 0x0; 0x7fc7f8;
   0x7fc7f8; 0x60c638; 0x71c638; 0x60c638; 0x71c638; 0x60c7f8; 0x71c7f8; 0x60c6b8;
   0x71c638; 0x60c638; 0x71c638; 0x60c638; 0x71c7f8; 0x60c7f8; 0x70c618; 0x60c618;
   0x770c618; 0x660e618; 0x770e61c; 0x260660c; 0x7f0774c; 0x3e03fce; 0x14037c4; 0x0;
   0x0; 0x0; 0x0; 0x202000; 0x0; 0x0; 0x0; 0x7000;
   0x6000; 0x3fffffc; 0x3fffffc; 0x15555f4; 0xe0; 0xe0; 0xffffe0; 0xffffe0;
   0x0; 0x0; 0x7fffe0; 0x7fffe0; 0x6000e0; 0x7000e0; 0x7fffe0; 0x7fffe0;
   0x6000e0; 0x7fffe0; 0x7fffe0; 0x7555e0; 0x6000e0; 0x7000e0; 0x7e00e0; 0x3e00e0;
   0x0; 0x0; 0x0; 0x0; 0x202000; 0x0; 0x0; 0x0;
   0x6000; 0xe06020; 0xe06070; 0x7060e0; 0x3861c0; 0x386180; 0x1c6380; 0x86080;
   0x7fffe0; 0x7fffe0; 0x7000e0; 0x7000e0; 0x7fffe0; 0x7fffe0; 0x7000e0; 0x7000e0;
   0x7000e0; 0x7fffe0; 0x7fffe0; 0x7000e0; 0x7000e0; 0x7000e0; 0x7000e0; 0x7f00e0;
   0x3f00e0; 0x0; 0x0; 0x0; 0x0; 0x202000; 0x0; 0x0;
   0x0; 0x600000; 0x600ff8; 0x600ff8; 0x600e38; 0x600e38; 0x600e38; 0x3fffe38;
   0x3fffff8; 0x3fffff8; 0x600eb8; 0x600e38; 0x60ee38; 0x61ce18; 0x618e38; 0x638ff8;
   0x638ff8; 0x670e18; 0x630e18; 0x600e18; 0x600e18; 0x600e1c; 0x600e0c; 0x75074c;
   0x7f078e; 0x3f07c4; 0x0; 0x0; 0x0; 0x0; 0x202000; 0x0;
   0x0; 0x0; 0xc0000; 0xc07f8; 0xc07f8; 0xc0618; 0xc0618; 0xc0618;
   0xc0618; 0xc07f8; 0x3fff7f8; 0x3ffe6b8; 0x3fff618; 0xc0618; 0xc0618; 0xc0618;
   0xc07f8; 0xc07f8; 0xc0618; 0xc0618; 0xc061c; 0xc0618; 0xc061c; 0x2aeae0c;
   0x7ffff4c; 0x3ffffce; 0x3c4; 0x0; 0x0; 0x0; 0x0; 0x202000;
   0x0; 0x0; 0x0; 0x0; 0xff8; 0x1554ff8; 0x3ffee38; 0x3ffee38].
Definition hanzi_data_348 : list N :=
  [0xc0e38; 0x1c0e38; 0xc0ff8; 0x1c0ff8; 0xc0eb8; 0x1c0e38; 0xc0e38; 0x1c0e18;
   0xc0e38; 0x1c0ff8; 0xc0ff8; 0x1c0e18; 0xc0e18; 0x1c0e18; 0xc0e18; 0x1c0e1c;
   0x3ffee0c; 0x7fff74c; 0x3ffe78e; 0x7c4; 0x0; 0x0; 0x0; 0x0;
   0x202000; 0x0; 0x0; 0x0; 0x400000; 0xe00ff8; 0x700ff8; 0x380c38;
   0x1e0c38; 0xf8c38; 0x3ec38; 0x80cff8; 0x1c00ff8; 0xe00eb8; 0x700c38; 0x380c38;
   0x1e0c38; 0xf8c38; 0x3cff8; 0x3008ff8; 0x3800c18; 0x1c00c18; 0x1e00c18; 0x700c18;
   0x3c0c1c; 0x1e0c0c; 0x7cd0c; 0x3ef8e; 0x6784; 0x0; 0x0; 0x0;
   0x0; 0x202000; 0x0; 0x0; 0x0; 0x0; 0x2aaaff8; 0x3ffeff8;
   0x3ffee38; 0x1c0e38; 0xc0e38; 0x1c0e38; 0xc0ff8; 0x1c0ff8; 0xc0eb8; 0x15d5e38;
   0x3fffe38; 0x7fffe18; 0xc0e38; 0x1c0ff8; 0xc0ff8; 0x1c0e18; 0xc0e18; 0x1c0e18;
   0xc0e18; 0x1c0e1c; 0xc0e0c; 0x1c074c; 0xc078e; 0x1c07c4; 0x0; 0x0;
   0x0; 0x0; 0x202000; 0x0; 0x0; 0x0; 0x0; 0x7f8;
   0x1fff7f8; 0x1ffe618; 0x718; 0x618; 0x718; 0x7f8; 0x7fffff8; 0x3fffeb8;
   0x1c718; 0x1c618; 0x1c718; 0xc618; 0x1ffc7f8; 0x1ffe7f8; 0x1800718; 0x1800618;
   0x1c0071c; 0x1800608; 0x1c0071c; 0xc0060c; 0xf5874c; 0xff87ce; 0x7f03c4; 0x0;
   0x0; 0x0; 0x0; 0x202000; 0x0; 0x0; 0x0; 0x0;
   0xfffbf8; 0x1fffff8; 0x7aab18; 0x3c0718; 0x1e0318; 0xf0718; 0x383f8; 0x155f7f8;
   0x3fff3b8; 0x3fff718; 0x3b38318; 0x3b98718; 0x3998318; 0x39cc7f8; 0x38ce3f8; 0x18c7718;
   0x18e3b18; 0x1871f1c; 0x1838308; 0x1c1c71c; 0x1c1c30c; 0x1d4f74c; 0xf87bce; 0x7811c4;
   0x0; 0x0; 0x0; 0x0; 0x202000; 0x0; 0x0; 0x0;
   0x0; 0x7fc7f8; 0x7fc7f8; 0x60c618; 0x61c618; 0x60c618; 0x60c618; 0x60e7f8;
   0x3e077f8; 0x3e07eb8; 0x1403e18; 0x618; 0x1fff618; 0x1fff618; 0xc067f8; 0xe0e7f8;
   0x71c618; 0x718618; 0x3f8618; 0x1f0618; 0x1f061c; 0x3f860c; 0x1f1f74c; 0x3e0ffce;
   0x38013c4; 0x0; 0x0; 0x0; 0x0; 0x202000; 0x0; 0x0;
   0x0; 0xe0000; 0xe03f8; 0xe07f8; 0xe0218; 0x3ffff18; 0x3fffa18; 0x15f5718;
   0xe03f8; 0xe07f8; 0xe02b8; 0x1fff718; 0x1fff218; 0x1c06718; 0xc0e218; 0xc0c7f8;
   0xe1c3f8; 0x718718; 0x3b8218; 0x1f071c; 0xe0218; 0x1f071c; 0x7bc20c; 0x1f1f74c;
   0x3c07bce; 0x30019c4; 0x0; 0x0; 0x0; 0x0; 0x202000; 0x0;
   0x0; 0x0; 0xe0000; 0xe07f8; 0xe07f8; 0xe0638; 0xe0638; 0x3fff638;
   0x3fff638; 0xe07f8; 0xe07f8; 0xe06b8; 0xe0638; 0xe0638; 0x3fff618; 0x3fff618;
   0xe07f8; 0xe07f8; 0x1f0618; 0x1b0618; 0x3b8618; 0x338618; 0x71c61c; 0xe0e60c;
   0x3c0760c; 0x3803f8e; 0x3001784; 0x0; 0x0; 0x0; 0x0; 0x202000;
   0x0; 0x0; 0x0; 0x0; 0x1ffe7f8; 0x1ffe7f8; 0x1aee618; 0x18c6618;
   0x18c6618; 0x18c6618; 0x18c67f8; 0x18c67f8; 0x18c6618; 0x18c6618; 0x1ffe618; 0x1ffe618;
   0x18066b8; 0x18067f8; 0x67f8; 0x6618; 0x6618; 0x7006618; 0x3006618; 0x700661c;
   0x300660c; 0x3ffe7cc; 0x1ffe7ce; 0x5503c4; 0x0; 0x0; 0x0; 0x0;
   0x202000; 0x0; 0x0; 0x0; 0x7000; 0x6000; 0x55f550; 0xfffff0;
   0xfffff0; 0xe00070; 0xe00070; 0xeaaaf0; 0xfffff0; 0xaaaaf0; 0x70; 0xffff70;
   0xffff70; 0xc00330; 0xc00370; 0xffff30; 0xd55730; 0xc00338; 0xd55738; 0xffff18;
   0xd5571c; 0xc0031c; 0xc0030e; 0xfc030c; 0x7c0300; 0x0; 0x0; 0x0;
   0x0; 0x202000; 0x0; 0x0; 0x0; 0x60000; 0xe07f8; 0xc07f8;
   0xc0638; 0x5555638; 0x3fff638; 0x7fff638; 0x307f8; 0x307f8; 0x306b8; 0x1ff0638;
   0x1ff8638; 0x1ff0618; 0x1838618; 0x18387f8; 0x18387f8; 0x1c18618; 0x1818618; 0x1c1c618;
   0x1c0c618; 0x1c0e61c; 0xc0e60c; 0xf6760c; 0xfc3fce; 0x7c17c4; 0x0; 0x0;
   0x0; 0x0; 0x202000; 0x0; 0x0; 0x0; 0xe0000; 0xe07f8;
   0xe07f8; 0xe0618; 0x3ffff18; 0x3fffe18; 0xe0718; 0xe07f8; 0x18e37f8; 0x18e36b8;
   0x18e3718; 0x18e3618; 0x18e3718; 0x18e3618; 0x18e37f8; 0x1fff7f8; 0x1fff718; 0x1aea618;
   0x18e071c; 0xe0608; 0x70e071c; 0x30e060c; 0x75c074c; 0x3fc03ce; 0x1fc01c4; 0x0;
   0x0; 0x0; 0x0; 0x202000; 0x0; 0x0; 0x0; 0xe0000;
   0xe03f8; 0xe03f8; 0xe0318; 0xe0318; 0xe0318; 0x1fffb18; 0x1fffbf8; 0x18e3bf8;
   0x1863bb8; 0x1863b18; 0x18e3b18; 0x19f3b18; 0x19b3b18; 0x1bb3bf8; 0x1b3bbf8; 0x1f1fb1c;
   0x1e0fb18; 0x1e0fb1c; 0x1803b0c; 0x1803b0c; 0x1803b0c; 0x1d03b4c; 0x1f83bee; 0x1f039c4;
   0x0; 0x0; 0x0; 0x0; 0x202000; 0x0; 0x0; 0x0;
   0x38000; 0x307f8; 0x707f8; 0x60618; 0x60618; 0x3fffe18; 0x3fffe18; 0x7f8;
   0x7f8; 0x2aa6b8; 0x7fe618; 0x3ae618; 0x70e618; 0x30e618; 0x70e7f8; 0x30e7f8;
   0x70e618; 0x306618; 0x706618; 0x6306618; 0x670761c; 0x2303e0c; 0x7703f4c; 0x3e01fce;
   0x1e00dc4; 0x0; 0x0; 0x0; 0x0; 0x202000; 0x0; 0x0;
   0x0; 0x6000; 0x6000; 0x5561c0; 0x7fe0c0; 0x7fe1c0; 0x60c0; 0x61c0;
   0x3fffffc; 0x3fffffc; 0x0; 0x555540; 0x3fffe0; 0x7fffe0; 0x3000e0; 0x7fffe0;
   0x3fffe0; 0x7000e0; 0x3000e0; 0x7fffe0; 0x3fffe0; 0x7000e0; 0x3000e0; 0x7000e0;
   0x3f00e0; 0x3f00e0; 0x0; 0x0; 0x0; 0x0; 0x202000; 0x0;
   0x0; 0x0; 0x18000; 0x183f8; 0x187f8; 0x18218; 0x1c718; 0x3fffa18;
   0x3ffff18; 0x183f8; 0x9c7f8; 0x38c2b8; 0x19c718; 0x18c218; 0x1cc718; 0x1cc218;
   0x1cc7f8; 0x6ce3f8; 0xee6718; 0xc66218; 0x1c77718; 0x1837218; 0x1c3771c; 0x3ffba0c].
Definition hanzi_data_349 : list N :=
  [0x3ffbf4c; 0x3029bce; 0x30013c4; 0x0; 0x0; 0x0; 0x0; 0x202000;
   0x0; 0x0; 0x0; 0x7000; 0x6000; 0x155f554; 0x3fffffc; 0x3fffffc;
   0xe0f00; 0x1c0780; 0x3ea1e0; 0x7ffff0; 0xe0bfe0; 0xc00000; 0x3fffc0; 0x7fffc0;
   0x3000c0; 0x7000c0; 0x3fffc0; 0x7fffc0; 0x3000c0; 0x7555c0; 0x3fffc0; 0x7555c0;
   0x3000c0; 0x7000c0; 0x3f80c0; 0x1f80c0; 0x0; 0x0; 0x0; 0x0;
   0x202000; 0x0; 0x0; 0x0; 0x300040; 0x3807e0; 0x1f7f80; 0x7f800;
   0x1fff00; 0x7e3fe0; 0x703ff0; 0x1800; 0x3fffffc; 0x3fffffc; 0x1555754; 0x700;
   0x7fffc0; 0x7fffe0; 0x7001f0; 0x6001f8; 0x7fff9c; 0x6aab88; 0x700180; 0x7fff80;
   0x7fff80; 0x600180; 0x700180; 0x7f0180; 0x3f0180; 0x0; 0x0; 0x0;
   0x0; 0x202000; 0x0; 0x0; 0x0; 0x18000; 0x187f8; 0x1c7f8;
   0xc618; 0x3ffc618; 0x3ffc618; 0x300e618; 0x38a67f8; 0x18e77f8; 0x18e36b8; 0x1ce3618;
   0xe2618; 0xe0618; 0xe0618; 0x1e07f8; 0x1e07f8; 0x1f0618; 0x3b0618; 0x33061c;
   0x338618; 0x71c61c; 0xe0e60c; 0x1c0f74c; 0x3803fce; 0x10013c4; 0x0; 0x0;
   0x0; 0x0; 0x202000; 0x0; 0x0; 0x0; 0x0; 0x3a83f8;
   0x3187f8; 0x318318; 0x71c718; 0x71c318; 0x71c718; 0xe0e3f8; 0x1c067f8; 0x1ce73b8;
   0x78e3f18; 0x30e1b18; 0x10e1718; 0xe0318; 0x3fffff8; 0x3fffbf8; 0x15f5718; 0xe0318;
   0xe071c; 0xe0318; 0xe071c; 0xe030c; 0xe074c; 0xe03ee; 0x401c4; 0x0;
   0x0; 0x0; 0x0; 0x202000; 0x0; 0x0; 0x0; 0xe0000;
   0xe03f8; 0xe07f8; 0x2aeaa18; 0x7ffff18; 0x3fffa18; 0xe0718; 0xe03f8; 0x1fff7f8;
   0x1fff2b8; 0x1fff718; 0x18e3218; 0x18e7718; 0x18e3218; 0x18e77f8; 0x18e33f8; 0x18e7718;
   0x18e3218; 0x18e7718; 0x1ee3218; 0x1ee771c; 0xe020c; 0xe070c; 0xe03ee; 0xe03c4;
   0x0; 0x0; 0x0; 0x0; 0x202000; 0x0; 0x0; 0x0;
   0x61c000; 0x6183f8; 0x61c7f8; 0x618318; 0x61c718; 0x618318; 0x3fff718; 0x3fff3f8;
   0x61c7f8; 0x6183b8; 0x61c718; 0x618318; 0x61c718; 0x618318; 0x3fffff8; 0x3fffbf8;
   0x61c718; 0x61c318; 0x61c71c; 0x60c318; 0x60e71c; 0x60e30c; 0x60774c; 0x603bce;
   0x6011cc; 0x0; 0x0; 0x0; 0x0; 0x202000; 0x0; 0x0;
   0x0; 0xe0000; 0xe07f8; 0xe07f8; 0xe0618; 0xe0718; 0xe0618; 0xe0718;
   0x3fffff8; 0x7fffff8; 0x2aeaeb8; 0xe0718; 0xe0618; 0x1f0718; 0x1e0618; 0x1f07f8;
   0x3b07f8; 0x330718; 0x338618; 0x71c71c; 0xe3c618; 0xc7e71c; 0x1cef60c; 0x39c7f4c;
   0x3083fce; 0x3001bc4; 0x0; 0x0; 0x0; 0x0; 0x202000; 0x0;
   0x0; 0x0; 0x500; 0xfff600; 0x1fff738; 0xe0e638; 0x70c738; 0x71c638;
   0x3b8738; 0x1f0638; 0x1f0738; 0xffe638; 0x7f1ff38; 0x3c03600; 0x555540; 0x3fffe0;
   0x7555e0; 0x3000e0; 0x7fffe0; 0x3aaae0; 0x7000e0; 0x3fffe0; 0x7fffe0; 0x3000e0;
   0x7000e0; 0x3f00e0; 0x3f00e0; 0x0; 0x0; 0x0; 0x0; 0x202000;
   0x0; 0x0; 0x0; 0xe0000; 0xe03f8; 0xe07f8; 0xe0318; 0xe0718;
   0xe0318; 0x1fff718; 0x1fff3f8; 0x18e37f8; 0x18e33b8; 0x18e3718; 0x18e3318; 0x18e3718;
   0x18e3318; 0x1fff7f8; 0x1fff3f8; 0x18e3718; 0x18e3318; 0xe071c; 0xe0308; 0xe071c;
   0xe030c; 0xe074c; 0xe03ee; 0xe01c4; 0x0; 0x0; 0x0; 0x0;
   0x202000; 0x0; 0x0; 0x0; 0x4000; 0x80e3f8; 0x1c0e7f8; 0xe0e318;
   0xf0e718; 0x70e318; 0x3ce718; 0x1ee3f8; 0xfe7f8; 0x6e3b8; 0x3ffff18; 0x3fffb18;
   0x3ffff18; 0xce318; 0x1ce7f8; 0x18e3f8; 0x38e718; 0x30e318; 0x70e71c; 0x60e318;
   0xece71c; 0x1cfe30c; 0x787e74c; 0x301e3ce; 0x61c4; 0x0; 0x0; 0x0;
   0x0; 0x202000; 0x0; 0x0; 0x0; 0x30000; 0x303f8; 0x303f8;
   0x303b8; 0x30318; 0x7ff318; 0x7ff318; 0x6303b8; 0x7303f8; 0x6303b8; 0x1f37318;
   0x1e33318; 0x1f3b318; 0x3e3b318; 0x3719bf8; 0x3319bf8; 0x371df18; 0x330cb18; 0x70c31c;
   0x30e318; 0x30631c; 0x30730c; 0x3f3b4c; 0x3f3bce; 0x1f11c4; 0x0; 0x0;
   0x0; 0x0; 0x202000; 0x0; 0x0; 0x0; 0xe0000; 0xe07f8;
   0xe07f8; 0xe0618; 0x3fff718; 0x3fff618; 0x38e3718; 0x38e37f8; 0x38e37f8; 0x3aeb6b8;
   0x3fff718; 0x3aeb618; 0x38e3718; 0x38e3618; 0x38e37f8; 0x3fff7f8; 0x3fff718; 0x3aeb618;
   0x38e371c; 0xe060c; 0xe071c; 0xe060c; 0xe074c; 0xe03ce; 0xe01c4; 0x0;
   0x0; 0x0; 0x0; 0x202000; 0x0; 0x0; 0x0; 0x0;
   0xaaaaa0; 0xfffff0; 0xc06030; 0xc06030; 0xfffff0; 0xfffff0; 0xc06030; 0xc06030;
   0xfffff0; 0xfffff0; 0x0; 0x7fffc0; 0x3fffc0; 0x7000c0; 0x3aaac0; 0x7fffc0;
   0x3000c0; 0x7000c0; 0x3fffc0; 0x7fffc0; 0x3000c0; 0x7000c0; 0x3f00c0; 0x1f00c0;
   0x0; 0x0; 0x0; 0x0; 0x202000; 0x0; 0x0; 0x0;
   0x6000; 0x6000; 0xfffff0; 0xfffff0; 0xc06070; 0xfffff0; 0xfffff0; 0xc06030;
   0xc06070; 0xfffff0; 0xfffff0; 0x0; 0x7fffe0; 0x7fffe0; 0x7000e0; 0x7aaae0;
   0x7fffe0; 0x7000e0; 0x7000e0; 0x7fffe0; 0x7fffe0; 0x7000e0; 0x7000e0; 0x3f00e0;
   0x3f00e0; 0x0; 0x0; 0x0; 0x0; 0x202000; 0x0; 0x0;
   0x0; 0x0; 0xaa8ff8; 0x1ffcff8; 0x1ffce38; 0x180ce38; 0x180ce38; 0x180ce38;
   0x180cff8; 0x180cff8; 0x1ffceb8; 0x1ffce38; 0x180ce38; 0x180ce38; 0x180ce38; 0x180cff8;
   0x180cff8; 0x1ffce18; 0x1ffce18; 0xe18; 0xe18; 0xe1c; 0xe0c; 0x7ffffcc;
   0x3fff78e; 0x7c4; 0x0; 0x0; 0x0; 0x0; 0x202000; 0x0;
   0x0; 0x0; 0x118000; 0x3983f8; 0x7187f8; 0xe18318; 0x1c18718; 0x818318].
Definition hanzi_data_350 : list N :=
  [0x7ffff18; 0x3fffbf8; 0x187f8; 0x183b8; 0x55c718; 0xff8318; 0xffc718; 0xc1c318;
   0xe3c7f8; 0x63c3f8; 0x77c718; 0x36e318; 0x3c6718; 0x1c6318; 0x3e771c; 0x7f3b0c;
   0x1e7ff4c; 0x3c1ffee; 0x300c9c4; 0x0; 0x0; 0x0; 0x0; 0x202000;
   0x0; 0x0; 0x0; 0x38e00; 0x838e00; 0x1f38ffc; 0xff8ff8; 0x1f8e00;
   0x38e00; 0x3038f00; 0x3038ff8; 0x3ff8ffc; 0x1ff0e0c; 0x0; 0x3fffc0; 0x7fffc0;
   0x3000c0; 0x7555c0; 0x3fffc0; 0x7555c0; 0x3000c0; 0x7555c0; 0x3fffc0; 0x7555c0;
   0x3000c0; 0x7000c0; 0x3f00c0; 0x3f00c0; 0x0; 0x0; 0x0; 0x0;
   0x202000; 0x0; 0x0; 0x0; 0x1c00000; 0x3fe03f8; 0x7ff3f8; 0x63f318;
   0x673318; 0x623318; 0x673318; 0x6233f8; 0x6733f8; 0xe233b8; 0xc73318; 0xc23318;
   0xc73318; 0xc23318; 0xc733f8; 0xc33bf8; 0x1df1b18; 0x19b1b18; 0x19b1b1c; 0x1b39b08;
   0x3b19f1c; 0x3bf8f0c; 0x77fcf0c; 0x3608fee; 0x10005c4; 0x0; 0x0; 0x0;
   0x0; 0x202000; 0x0; 0x0; 0x0; 0x70000; 0x703f8; 0x307f8;
   0x38218; 0x31c718; 0x71c218; 0xe0e718; 0xc063f8; 0x1c077f8; 0x3fffab8; 0x3ffff18;
   0x7003a18; 0x1000718; 0x218; 0x1fff7f8; 0xffe3f8; 0x1c0771c; 0xc06218; 0x1c0771c;
   0xc0620c; 0x1c0770c; 0xc0620c; 0x1fff74c; 0xffe3ce; 0x1c071c4; 0x0; 0x0;
   0x0; 0x0; 0x202000; 0x0; 0x0; 0x0; 0xe0000; 0x8e07f8;
   0x18e37f8; 0x1ce7618; 0x1ce6718; 0xeee618; 0x6ec718; 0x6ec6b8; 0xe07f8; 0x1fff7f8;
   0x1fff718; 0xe0618; 0xe0718; 0xe0618; 0xe07f8; 0x3fffff8; 0x7ffff18; 0xe0618;
   0xe0718; 0xe0618; 0xe071c; 0xe060c; 0xe070c; 0xe07ce; 0xe03c4; 0x0;
   0x0; 0x0; 0x0; 0x202000; 0x0; 0x0; 0x0; 0x60000;
   0x607f8; 0xf07f8; 0x1f8618; 0x3f8718; 0x79c618; 0xf0e718; 0x3e07ff8; 0x7ce3ff8;
   0x3070eb8; 0x38718; 0x21e618; 0x70f718; 0x382618; 0x1c07f8; 0x8f07f8; 0x1c7c718;
   0x1c1e618; 0xf0671c; 0x780618; 0x3c071c; 0xf060c; 0x7f74c; 0x1fbce; 0x71c4;
   0x0; 0x0; 0x0; 0x0; 0x202000; 0x0; 0x0; 0x0;
   0x38000; 0x187f8; 0x1c7f8; 0x1c618; 0x3ffc618; 0x3ffe618; 0x3fff618; 0x677f8;
   0x73ff8; 0x63eb8; 0x3ff1618; 0x3fe0618; 0x70618; 0x60618; 0x707f8; 0x607f8;
   0x3ff0618; 0x3fe0618; 0x70618; 0x60618; 0x7061c; 0x6060c; 0x7074c; 0x6078e;
   0x7078c; 0x0; 0x0; 0x0; 0x0; 0x202000; 0x0; 0x0;
   0x0; 0x0; 0x3f8; 0x3fff7f8; 0x3fff218; 0x1c0718; 0xc0218; 0xe0718;
   0xe03f8; 0x1707f8; 0x3f82b8; 0x778718; 0xe7c218; 0x1c6e718; 0x3867218; 0x7867ff8;
   0x3061bf8; 0x60718; 0x60218; 0x6071c; 0x60208; 0x6071c; 0x2020c; 0x7ffff4c;
   0x3fffbce; 0x1c4; 0x0; 0x0; 0x0; 0x0; 0x202000; 0x0;
   0x0; 0x0; 0x0; 0x2aaa7f8; 0x3fff7f8; 0x3fff618; 0x38c3718; 0x38c3618;
   0x38c3718; 0x38c37f8; 0x3fff7f8; 0x3fff6b8; 0x38c3718; 0x38c3618; 0x38c3718; 0x38c3618;
   0x3dd77f8; 0x3fff7f8; 0x3fff718; 0x38c3618; 0xc0718; 0xc0618; 0xc071c; 0xc060c;
   0xc074c; 0xc03cc; 0xc01cc; 0x0; 0x0; 0x0; 0x0; 0x202000;
   0x0; 0x0; 0x0; 0xc0000; 0xc07f8; 0xce7f8; 0xce618; 0xc6718;
   0xc6618; 0x3fff718; 0x3fff7f8; 0xc37f8; 0xc3eb8; 0xc1f18; 0xc1e18; 0xc1718;
   0xc0618; 0x1fff7f8; 0x1ffe7f8; 0xc0718; 0xc0618; 0xc071c; 0xc0618; 0xc071c;
   0xc060c; 0x7ffff4c; 0x3ffffce; 0x1c4; 0x0; 0x0; 0x0; 0x0;
   0x202000; 0x0; 0x0; 0x0; 0xc00000; 0x1f803f8; 0x1ff07f8; 0xff218;
   0x1df718; 0xc3218; 0x1c7718; 0xc33f8; 0x1c77f8; 0x1832b8; 0x3fff718; 0x3fff218;
   0x15d7718; 0x183218; 0x1877f8; 0x3833f8; 0x387718; 0x303218; 0x30771c; 0x6363218;
   0x676771c; 0x26e320c; 0x3fff74c; 0x3d9fbce; 0x19831c4; 0x0; 0x0; 0x0;
   0x0; 0x202000; 0x0; 0x0; 0x0; 0x1c000; 0xc3f8; 0xc7f8;
   0xe3b8; 0x3ffe718; 0x3fff318; 0x1807718; 0x3803bb8; 0x19ffff8; 0x19ffff8; 0x19c7f18;
   0x1986318; 0x19c7718; 0x1986318; 0x19ff7f8; 0x19fe3f8; 0x1d07718; 0xf86318; 0x78771c;
   0x3006318; 0x700771c; 0x300630c; 0x355770c; 0x3ffe3ee; 0x1ffc3c4; 0x0; 0x0;
   0x0; 0x0; 0x202000; 0x0; 0x0; 0x0; 0xc0000; 0xc03f8;
   0xc07f8; 0xc0318; 0x15d5718; 0x3fff318; 0x3fff718; 0xc03f8; 0xc07f8; 0xc03b8;
   0xc0718; 0x2aea318; 0x7fff718; 0x3fff318; 0x707f8; 0x703f8; 0x670718; 0x638318;
   0xe1c71c; 0x1c1c318; 0x1c0e71c; 0x3fee30c; 0x3fff74c; 0x702f3ee; 0x70001c4; 0x0;
   0x0; 0x0; 0x0; 0x202000; 0x0; 0x0; 0x0; 0x180;
   0xaa0180; 0x1ff0180; 0x1ff0180; 0x1830180; 0x1833ffc; 0x1837ffc; 0x1ab2ba8; 0x1ff0180;
   0x1ff0180; 0x1830180; 0x1830180; 0x1831ff8; 0x1831ff8; 0x1ff1818; 0x1ff9818; 0x1839818;
   0x1839818; 0x1819818; 0x1819ab8; 0x181dff8; 0x180cab8; 0x1d8e018; 0x1f87008; 0xf06000;
   0x0; 0x0; 0x0; 0x0; 0x202000; 0x0; 0x0; 0x0;
   0x18000; 0x183f8; 0x1c7f8; 0x3ffc218; 0x7ffe718; 0x6218; 0xc7758; 0xc3a78;
   0xcffd8; 0x1ece398; 0x1fce798; 0x1bfe218; 0x18fff18; 0x18cfb98; 0x18ce7d8; 0x18ce2f8;
   0x18ce738; 0x8ce218; 0x1cce71c; 0xce208; 0x304e71c; 0x300e20c; 0x3d5c70c; 0x1ffc3ce;
   0x1ff83c4; 0x0; 0x0; 0x0; 0x0; 0x202000; 0x0; 0x0;
   0x0; 0x3000; 0x603830; 0x731c70; 0x638e30; 0x71d770; 0x60ffb0; 0x737f70;
   0x633830; 0x771c70; 0x6ffe30; 0x7fff70; 0x6c0330; 0x77ff70; 0x67fe30; 0x770730;
   0x660230; 0x77ff30; 0x660230; 0x3770738; 0x267fe38; 0x777ff18; 0x2660218; 0x3f7071c].
Definition hanzi_data_351 : list N :=
  [0x3e3c20e; 0x141c704; 0x0; 0x0; 0x0; 0x0; 0x202000; 0x0;
   0x0; 0x0; 0x0; 0x1fffff8; 0x1fffff8; 0x1806080; 0x1c061c0; 0xbfe0c0;
   0x3fe1e0; 0x63e0; 0x7f70; 0x3fffe38; 0x3fff01c; 0xc; 0x7fffc0; 0x3fffc0;
   0x7000c0; 0x3aaac0; 0x7fffc0; 0x3000c0; 0x7000c0; 0x3fffc0; 0x7fffc0; 0x3000c0;
   0x7000c0; 0x3f00c0; 0x3f00c0; 0x0; 0x0; 0x0; 0x0; 0x202000;
   0x0; 0x0; 0x0; 0x1c000; 0x1983f8; 0x7dc7f8; 0xe183b8; 0xc1c718;
   0x18318; 0x3ffff18; 0x3fffbb8; 0x19c7f8; 0x18c3b8; 0x119c718; 0x398c318; 0x1d9c718;
   0xd8c318; 0xd8c7f8; 0x78c3f8; 0x78e718; 0x38e318; 0x1c671c; 0x1e6318; 0x71f771c;
   0x21bbb0c; 0x319ff4c; 0x3f89fce; 0x1f009c4; 0x0; 0x0; 0x0; 0x0;
   0x202000; 0x0; 0x0; 0x0; 0x38000; 0x383f8; 0x183f8; 0x18318;
   0x3ffff18; 0x3ffff18; 0xc318; 0xe3f8; 0xe63f8; 0xe63b8; 0xe7318; 0xe3318;
   0x1fffb18; 0x1fffb18; 0xe03f8; 0xe03f8; 0xce631c; 0xce6318; 0x1ce731c; 0x18e330c;
   0x38e3b0c; 0x30e1b0c; 0x70f5f4c; 0xf83ee; 0x781e4; 0x0; 0x0; 0x0;
   0x0; 0x202000; 0x0; 0x0; 0x0; 0x70000; 0x307f8; 0x707f8;
   0x30618; 0x1ff0618; 0x1ff0618; 0x70618; 0x307f8; 0x707f8; 0x306b8; 0x7fffe18;
   0x3fffe18; 0x70618; 0x30618; 0x707f8; 0x1b07f8; 0x7f0618; 0xf30618; 0x1e70618;
   0x3830618; 0x107061c; 0x3060c; 0x7074c; 0x307cc; 0x703cc; 0x0; 0x0;
   0x0; 0x0; 0x202000; 0x0; 0x0; 0x0; 0x60000; 0x603f8;
   0x1fe03f8; 0x1fe0318; 0x1560318; 0x60318; 0x60318; 0x1fff3f8; 0x1fff3f8; 0x1c033b8;
   0x1c07318; 0x1c03318; 0x1c07318; 0x1fff318; 0x1fff3f8; 0x1eab3f8; 0x1c0731c; 0x3308;
   0x331c; 0x330c; 0x330c; 0x3b0c; 0x1b4c; 0x1bee; 0x19c4; 0x0;
   0x0; 0x0; 0x0; 0x202000; 0x0; 0x0; 0x0; 0x0;
   0x2aa3f8; 0x1fff7f8; 0xfff318; 0x700718; 0x380318; 0x3c0718; 0x1e03f8; 0x3f07f8;
   0xfbc3b8; 0x3f1f718; 0x3807f18; 0x3001f18; 0x318; 0x1fff7f8; 0x1fff3f8; 0xe0718;
   0xe0318; 0xe071c; 0xe0318; 0xe071c; 0xe030c; 0x7ffff4c; 0x3fffbce; 0x1c4;
   0x0; 0x0; 0x0; 0x0; 0x202000; 0x0; 0x0; 0x0;
   0x380; 0xaa8180; 0x1ffd5d4; 0x1abbffc; 0x1c3bffc; 0xe31870; 0x7e1c78; 0x3c0ff8;
   0x7c07c0; 0xff1fc0; 0x7e79dfc; 0x380e03c; 0x6004; 0xfffff0; 0xfffff0; 0xc1f830;
   0xc7dc30; 0xfe6fb0; 0xd873b0; 0xc1f030; 0xc7fc30; 0xde0fb0; 0xd807b0; 0xf80030;
   0xf80030; 0x0; 0x0; 0x0; 0x0; 0x202000; 0x0; 0x0;
   0x0; 0x0; 0x3fff3f8; 0x3fff3f8; 0x3aab318; 0x38c3318; 0x38c3318; 0x38c3318;
   0x38c33b8; 0x3dd73f8; 0x3fff3b8; 0x3fff318; 0x3863318; 0x38e3318; 0x38e3318; 0x39e33f8;
   0x3bb33f8; 0x3b3331c; 0x3b3b318; 0x3e1f31c; 0x3e0f30c; 0x380f30c; 0x3aab30c; 0x3fff34c;
   0x3aab3ee; 0x38031c4; 0x0; 0x0; 0x0; 0x0; 0x202000; 0x0;
   0x0; 0x0; 0x60000; 0x603f8; 0x703f8; 0x2abab18; 0x3fffb18; 0x3fffb18;
   0x31c318; 0x70c3f8; 0x1e0f3f8; 0x3fffbb8; 0x7ffff18; 0x2000b18; 0x318; 0x3fffb18;
   0x3fffbf8; 0xc3f8; 0xc318; 0xaae318; 0x1ffe31c; 0xeaa30c; 0xc0030c; 0xc0030c;
   0xe0034c; 0x7f83ee; 0x7f01c4; 0x0; 0x0; 0x0; 0x0; 0x202000;
   0x0; 0x0; 0x0; 0x60000; 0x603f8; 0x3fffff8; 0x3fffb18; 0x1575718;
   0x60318; 0x1fff718; 0x1fff3f8; 0x18607f8; 0x18603b8; 0x1fff718; 0x1fff318; 0x63718;
   0x63318; 0x3fff7f8; 0x3fffbf8; 0x3070718; 0x38f0318; 0x1ff071c; 0x1fb8318; 0x39c71c;
   0x70e30c; 0x1e0774c; 0x3c03bee; 0x10019c4; 0x0; 0x0; 0x0; 0x0;
   0x202000; 0x0; 0x0; 0x0; 0xe0000; 0x8e03f8; 0x18e73f8; 0x18e6318;
   0x1ce6318; 0xcee318; 0xcee318; 0xeec3f8; 0x6ec3f8; 0xe03b8; 0x3fffb18; 0x3fffb18;
   0x3fffb18; 0x398318; 0x3983f8; 0x3983f8; 0x39c318; 0x39c318; 0x139c318; 0x638c318;
   0x738e31c; 0x238630c; 0x7f07b4c; 0x3f03fcc; 0x1f019cc; 0x0; 0x0; 0x0;
   0x0; 0x202000; 0x0; 0x0; 0x0; 0x70000; 0xe03f8; 0xe07f8;
   0xc0318; 0x7ffff18; 0x3fffb18; 0x70718; 0x383f8; 0xe187f8; 0x61c3b8; 0x7de718;
   0x3ff318; 0x1df718; 0x38e0318; 0x1c707f8; 0xc383f8; 0xf1f718; 0x707b18; 0x3c371c;
   0x3e0308; 0xff071c; 0x1e3c30c; 0x3c1f74c; 0x3807bce; 0x10019c4; 0x0; 0x0;
   0x0; 0x0; 0x202000; 0x0; 0x0; 0x0; 0x70000; 0x307f8;
   0x387f8; 0xff86b8; 0xffc718; 0xe0e618; 0x61e718; 0x73f618; 0x3f3ff8; 0x1e17f8;
   0x1e0718; 0x3f0618; 0x77c718; 0x3e1e618; 0x7c0fff8; 0x2fff7f8; 0x1ffe718; 0xc0e618;
   0x1c0e718; 0xc0e618; 0x1c0e71c; 0xc0e60c; 0x1ffe70c; 0xffe3ce; 0x1c0e3c4; 0x0;
   0x0; 0x0; 0x0; 0x202000; 0x0; 0x0; 0x0; 0x0;
   0x3fff3f8; 0x3fff7f8; 0x3aab318; 0x3803718; 0x3803318; 0x3ffb718; 0x3bfb3f8; 0x38037f8;
   0x38033b8; 0x3bfb718; 0x3bfb318; 0x3b1b718; 0x3b1b318; 0x3b1b7f8; 0x3b1b3f8; 0x3b5b718;
   0x3bfb318; 0x3bfb71c; 0x381b318; 0x381371c; 0x380330c; 0x3d0370c; 0x1f033ee; 0x1f033c4;
   0x0; 0x0; 0x0; 0x0; 0x202000; 0x0; 0x0; 0x0;
   0x70000; 0xe03f8; 0xe07f8; 0xc03b8; 0x3ffff18; 0x3fffb18; 0x200718; 0x71c318;
   0xe1c7f8; 0xc0e3f8; 0x1c07718; 0x3a03b18; 0x360ff18; 0x60c318; 0x71c7f8; 0x3983f8;
   0x3b8718; 0x1f0318; 0xf0718; 0xf0318; 0x3f871c; 0x7be30c; 0x1f0f74c; 0x3c03fce;
   0x10019c4; 0x0; 0x0; 0x0; 0x0; 0x202000; 0x0; 0x0;
   0x0; 0xc000; 0xe3f8; 0x63f8; 0x2aae318; 0x3fff318; 0x3fff318; 0x3003b18].
Definition hanzi_data_352 : list N :=
  [0x3081ff8; 0x30c7ff8; 0x36cdbb8; 0x367db18; 0x3679b18; 0x3631b18; 0x3671b18; 0x3679bf8;
   0x36c9bf8; 0x37cdb18; 0x3787b18; 0x3605b1c; 0x37ffb18; 0x37ffb1c; 0x380030c; 0x380030c;
   0x3f803ee; 0x1f801c4; 0x0; 0x0; 0x0; 0x0; 0x202000; 0x0;
   0x0; 0x0; 0x70000; 0x603f8; 0xe07f8; 0x2aeabb8; 0x3ffff18; 0x3aabb18;
   0x3063f18; 0x3063bb8; 0x3073ff8; 0x303f8; 0x30718; 0x3fffb18; 0x7ffff18; 0xe1c318;
   0x61c7f8; 0x60e3f8; 0x70e718; 0x33e318; 0x3f871c; 0x1e0318; 0x7f071c; 0xf7830c;
   0x3c3f74c; 0x380fbce; 0x10011c4; 0x0; 0x0; 0x0; 0x0; 0x202000;
   0x0; 0x0; 0x0; 0xc04000; 0xc0e3f8; 0xe1c7f8; 0x618218; 0x738718;
   0x318218; 0x3fff718; 0x3fff3f8; 0x7187f8; 0x3182b8; 0x718718; 0x318218; 0x718718;
   0x3fffa18; 0x3fffff8; 0x3183f8; 0x718718; 0x318218; 0x71c71c; 0x30c218; 0x70e71c;
   0x30620c; 0x70774c; 0x303fce; 0x7019c4; 0x0; 0x0; 0x0; 0x0;
   0x202000; 0x0; 0x0; 0x0; 0x381c0; 0x380e0; 0xc38660; 0x1e38e70;
   0x7f9c30; 0xf9eb8; 0x3bffc; 0x303b0b8; 0x3039000; 0x3038aa8; 0x3ff9ff8; 0x1ff1ab8;
   0x11c18; 0x39ab8; 0x1839ff8; 0x1e39ab8; 0xff9c18; 0x3f9818; 0x79ff8; 0x2039ab8;
   0x7039c18; 0x3039818; 0x3579c18; 0x3ff9f18; 0x1ff0f18; 0x0; 0x0; 0x0;
   0x0; 0x202000; 0x0; 0x0; 0x0; 0x7000; 0x8067f8; 0x1e077f8;
   0xfc6618; 0x7ff718; 0x103e618; 0x7007718; 0x30067f8; 0x35577f8; 0x3ffe6b8; 0x1ffc718;
   0x618; 0x718; 0x1ffe618; 0x1ffe7f8; 0x18067f8; 0x1806718; 0x1ffe618; 0x1ffe71c;
   0x1806608; 0x180671c; 0x180660c; 0x1ffe74c; 0x1ffe7ce; 0x18063c4; 0x0; 0x0;
   0x0; 0x0; 0x202000; 0x0; 0x0; 0x0; 0x18000; 0x183f8;
   0x7fc3f8; 0x7fc318; 0x70e318; 0x306318; 0x387318; 0x3fffbf8; 0x7fffff8; 0x3fb8;
   0x7f18; 0x1ff3318; 0x1ff7318; 0x1833318; 0x18373f8; 0x18333f8; 0x1c3331c; 0x1f33318;
   0xf3331c; 0x2033b0c; 0x7033b1c; 0x3031b0c; 0x3ff1f4c; 0x3fe0fee; 0x5409c4; 0x0;
   0x0; 0x0; 0x0; 0x202000; 0x0; 0x0; 0x0; 0x18000;
   0xfc3f8; 0x3f07f8; 0x380318; 0x300718; 0xfe318; 0xff718; 0x10ea3f8; 0x38c07f8;
   0x38c03b8; 0x1ddff18; 0xfdfb18; 0x7dc718; 0x3cc318; 0x3cc7f8; 0x6ce3f8; 0x6c671c;
   0xec6318; 0x1cc771c; 0x38c3b0c; 0x78c1f0c; 0x20c0b0c; 0xc070c; 0xf83ee; 0x783c4;
   0x0; 0x0; 0x0; 0x0; 0x202000; 0x0; 0x0; 0x0;
   0xe000; 0xc0e0f0; 0x1fc63f0; 0x3c6780; 0x47200; 0x3eff80; 0x1fffff8; 0x1e39cf8;
   0x10f0e00; 0x3e0780; 0xfd57e0; 0x7fffffe; 0x3fffffc; 0x380188; 0x3fffc0; 0x3fff80;
   0x3d55c0; 0x380180; 0x3fffc0; 0x3fff80; 0x3801c0; 0x380180; 0x3801c0; 0x1f8180;
   0x1f01c0; 0x0; 0x0; 0x0; 0x0; 0x202000; 0x0; 0x0;
   0x0; 0xc0000; 0xe03f8; 0xf03f8; 0x1f0318; 0x3b8318; 0x31c318; 0xf1e318;
   0x1e0f3f8; 0x7c07bf8; 0x37ffbb8; 0x27fdb18; 0x318; 0x318; 0x318; 0x3fff3f8;
   0x3fff3f8; 0x30318; 0x238318; 0x71c318; 0x60c318; 0xe0e31c; 0xfe630c; 0x1fffb4c;
   0x383fbce; 0x10001c4; 0x0; 0x0; 0x0; 0x0; 0x202000; 0x0;
   0x0; 0x0; 0x0; 0x1c003f8; 0xe077f8; 0x73e318; 0x3fc718; 0x3e0318;
   0x7f8718; 0x1e3e3f8; 0x1c0fff8; 0x8e33b8; 0xe0718; 0xe0318; 0x3ffff18; 0x3fffb18;
   0xe07f8; 0x2e43f8; 0x6ec718; 0xeee318; 0x1ce671c; 0x18e3308; 0x18e3f1c; 0x38e3b0c;
   0x10e174c; 0xf83ce; 0x781c4; 0x0; 0x0; 0x0; 0x0; 0x202000;
   0x0; 0x0; 0x0; 0x60000; 0xe03f8; 0x1c03f8; 0x80318; 0x3fff318;
   0x3fff318; 0x183318; 0x1833f8; 0x1833f8; 0x183318; 0x183318; 0x183318; 0x3ffb318;
   0x3ffb318; 0x1833f8; 0x1833f8; 0x183318; 0x183b18; 0x183b1c; 0x183b08; 0x181b1c;
   0x181b0c; 0x3ffdf4c; 0x3ffcfce; 0x9c4; 0x0; 0x0; 0x0; 0x0;
   0x202000; 0x0; 0x0; 0x0; 0x70000; 0x603f8; 0xe07f8; 0x3fffb18;
   0x3ffff18; 0xe0e318; 0x61c718; 0x7183f8; 0x7b87f8; 0x3f03b8; 0x1f0718; 0xffc318;
   0x7f1ff18; 0x3807b18; 0x61c7f8; 0x6183f8; 0x61c718; 0x60c318; 0x61c71c; 0x60c308;
   0x60c71c; 0x60e30c; 0x60774c; 0x603bee; 0x6011c4; 0x0; 0x0; 0x0;
   0x0; 0x202000; 0x0; 0x0; 0x0; 0x30000; 0x303f8; 0x703f8;
   0xe0318; 0x3ffff18; 0x3fffb18; 0x1555318; 0x3003f8; 0x1b0fbf8; 0x198fb18; 0x199bb18;
   0x18f3b18; 0x18f3b18; 0x18e3bb8; 0x18e3bf8; 0x19e3bb8; 0x19b3b1c; 0x1b3bb18; 0x1f1fb1c;
   0x180fb0c; 0x1803b0c; 0x1fffb0c; 0x1fffb4c; 0x1aaabce; 0x18001c4; 0x0; 0x0;
   0x0; 0x0; 0x202000; 0x0; 0x0; 0x0; 0x60000; 0x8603f8;
   0x18633f8; 0x1863318; 0x1c67318; 0xc66318; 0x666318; 0x66e3f8; 0x6643f8; 0x603b8;
   0x3fffb18; 0x3fffb18; 0x1f0318; 0x1f8318; 0x3f83f8; 0x36c3f8; 0x76c318; 0x66e318;
   0xe6731c; 0x1c63b08; 0x3863f1c; 0x3061f0c; 0x1060b4c; 0x603ee; 0x601c4; 0x0;
   0x0; 0x0; 0x0; 0x202000; 0x0; 0x0; 0x0; 0xc0000;
   0xc03f8; 0xc03f8; 0xe0318; 0x3ffff18; 0x3fffb18; 0x3071f18; 0x30f0bf8; 0x30f1ff8;
   0xf83b8; 0x10dc318; 0x30dc318; 0x3dce318; 0xf8e318; 0x78f3f8; 0x38fbf8; 0x30df1c;
   0x30cb08; 0x70c31c; 0xe0c30c; 0x1ccc30c; 0x38fc30c; 0x78fe3dc; 0x301e3e6; 0x61e4;
   0x0; 0x0; 0x0; 0x0; 0x202000; 0x0; 0x0; 0x0;
   0x7000; 0x6000; 0x3fffffc; 0x3fffffc; 0x1575d54; 0x130c40; 0x7b0cc0; 0xf30ce0;
   0x1e30c70; 0x1c30c38; 0x836c10; 0x6000; 0x1fffff0; 0xfffff0; 0x1c1f830; 0xc3dc30;
   0x1df7f30; 0xdc67b0; 0x1c0f130; 0xc3f830; 0x1c79e30; 0xce0fb0; 0x1cc0330; 0xf80030].
Definition hanzi_data_353 : list N :=
  [0xf00030; 0x0; 0x0; 0x0; 0x0; 0x202000; 0x0; 0x0;
   0x0; 0xe0000; 0xe03f8; 0x15f57f8; 0x3fffb18; 0x3ffff18; 0xe0318; 0xe0718;
   0x3fffbf8; 0x3fffff8; 0x3003bb8; 0x3003f18; 0x37ffb18; 0xffe718; 0x700318; 0x3c07f8;
   0xe03f8; 0x15f5718; 0x3fffb18; 0x3ffff1c; 0xe0318; 0xe071c; 0xe030c; 0xe074c;
   0xfc3ce; 0x7c1c4; 0x0; 0x0; 0x0; 0x0; 0x202000; 0x0;
   0x0; 0x0; 0x70000; 0x603f8; 0xe07f8; 0x2aeab18; 0x3ffff18; 0x3aabb18;
   0x3003f18; 0x3003bf8; 0x1fff7f8; 0xffe3b8; 0x718; 0x318; 0x718; 0x3fffb18;
   0x3fffff8; 0x3183f8; 0x318718; 0x318318; 0x31c71c; 0x230c30c; 0x730e71c; 0x630e30c;
   0x7707f4c; 0x3f03bce; 0x1f009c4; 0x0; 0x0; 0x0; 0x0; 0x202000;
   0x0; 0x0; 0x0; 0x6000; 0x61f8; 0x3f861f8; 0x3f86198; 0x31bfd98;
   0x31bfd98; 0x31bfd98; 0x31861f8; 0x31861f8; 0x31861b8; 0x31d7598; 0x31bfd98; 0x31ffd98;
   0x3182198; 0x31971fc; 0x319b1f8; 0x319b19c; 0x31b1988; 0x3fb199c; 0x3dbe98c; 0x5ffd8c;
   0x1a0d8c; 0x1801cc; 0x1801e6; 0x1801e4; 0x0; 0x0; 0x0; 0x0;
   0x202000; 0x0; 0x0; 0x0; 0x60000; 0x603f8; 0xc663f8; 0xc66318;
   0xc66318; 0xc66318; 0xc67318; 0x6673b8; 0xe673f8; 0x1e6f3b8; 0x1f7fb18; 0x3b79b18;
   0x73f9f18; 0x21f8f18; 0x60bf8; 0x603f8; 0x1fff318; 0x1fff318; 0x6031c; 0x60308;
   0x6031c; 0x6030c; 0x7ffff0c; 0x3ffffce; 0x1c4; 0x0; 0x0; 0x0;
   0x0; 0x202000; 0x0; 0x0; 0x0; 0x1c00000; 0x1fe03f8; 0x1fffff8;
   0x83fb18; 0x1870318; 0x1863318; 0x1c67318; 0xce63f8; 0xcc63f8; 0xece3b8; 0x700318;
   0x600318; 0x700318; 0x3fffb18; 0x3fffbf8; 0x6003f8; 0x707318; 0x60e318; 0x71c31c;
   0x61c308; 0x71831c; 0x60030c; 0x75034c; 0x7e03ee; 0x3e01c4; 0x0; 0x0;
   0x0; 0x0; 0x202000; 0x0; 0x0; 0x0; 0x301c0; 0x381c0;
   0xff81c0; 0x1ffc6e0; 0x1d5e7e0; 0xe0f660; 0x71ff70; 0x3b3e78; 0x1f0778; 0x3e067c;
   0xffc77c; 0x7e1f66e; 0x7ffff74; 0xffee60; 0x1c0e770; 0xc0e660; 0x1ffe770; 0xc0e660;
   0x1c0e770; 0xffe660; 0x1ffe570; 0xc0e060; 0x1c0e070; 0xf8e060; 0xf0e070; 0x0;
   0x0; 0x0; 0x0; 0x202000; 0x0; 0x0; 0x0; 0x1c00000;
   0x3ff83f8; 0x7ff7f8; 0x80b318; 0x1c77718; 0xc66318; 0xc66718; 0xeee3f8; 0x7cc7f8;
   0xfff3b8; 0x1fff718; 0xeaa318; 0x780718; 0x1c0318; 0xe07f8; 0xe03f8; 0x7ffff18;
   0x3fffb18; 0xe0718; 0xe0318; 0xe071c; 0xe030c; 0xe070c; 0xf83ce; 0x783c4;
   0x0; 0x0; 0x0; 0x0; 0x202000; 0x0; 0x0; 0x0;
   0x6c0000; 0xec03f8; 0x1cc07f8; 0x18c0318; 0x7ffff18; 0x3fffb18; 0xc0718; 0xc03f8;
   0x3fff7f8; 0x3fff3b8; 0x38c3718; 0x38c3318; 0x3fff718; 0x3fff318; 0x3dd77f8; 0x38c33f8;
   0x38c3718; 0x3fff318; 0x3fff71c; 0x38c3318; 0x38c371c; 0x38c330c; 0x38c374c; 0x3ec33ee;
   0x1ec31c4; 0x0; 0x0; 0x0; 0x0; 0x202000; 0x0; 0x0;
   0x0; 0xc04000; 0xe0e7f8; 0xe1c7f8; 0x618618; 0x718718; 0xbaa618; 0x1fff718;
   0x1aab7f8; 0x1c077f8; 0x18036b8; 0x1c07718; 0x1803618; 0x1fff718; 0x1fff618; 0x3987f8;
   0x3987f8; 0x398718; 0x398618; 0x39c71c; 0x238c618; 0x738c71c; 0x238e60c; 0x7f07f4c;
   0x3f03bce; 0x1f019c4; 0x0; 0x0; 0x0; 0x0; 0x202000; 0x0;
   0x0; 0x0; 0x0; 0x1fff3f8; 0x1fff3f8; 0x1803318; 0x1803318; 0x1803318;
   0x1d57318; 0x1fff3b8; 0x1fff3f8; 0x1833f8; 0x183318; 0x1183b18; 0x39ff318; 0x1bffb18;
   0x1ff7bf8; 0x7a3bf8; 0x7b1b18; 0xfb1b18; 0xd99b1c; 0x1d99b08; 0x199df1c; 0x398fb0c;
   0x3187f4c; 0x1f0fce; 0xf0dc4; 0x0; 0x0; 0x0; 0x0; 0x202000;
   0x0; 0x0; 0x0; 0x0; 0xffe3f8; 0x1fff3f8; 0xc06318; 0x1c07318;
   0xc06318; 0x1fff318; 0xffe3f8; 0xc03f8; 0xc0318; 0xc0318; 0x3fffb18; 0x3fffb18;
   0x30e3b18; 0x30e3bf8; 0x30e3bf8; 0x31f3b18; 0x333bb18; 0x371fb1c; 0x360fb08; 0x340fb1c;
   0x3003b0c; 0x3003b6c; 0x3f03bce; 0x1f039c4; 0x0; 0x0; 0x0; 0x0;
   0x202000; 0x0; 0x0; 0x0; 0xe0000; 0x603f8; 0xf03f8; 0x1f83b8;
   0x39c318; 0x70c318; 0xf0f318; 0x1c07bb8; 0x7fffff8; 0x37ffff8; 0x2554f18; 0x318;
   0x1860318; 0x1863318; 0x1c633f8; 0xce23f8; 0xcc6318; 0x6c6318; 0x6c631c; 0x202308;
   0x30031c; 0x38030c; 0x3ffff4c; 0x3fffbce; 0x1c4; 0x0; 0x0; 0x0;
   0x0; 0x202000; 0x0; 0x0; 0x0; 0xe0000; 0xe03f8; 0x707f8;
   0x1fff218; 0x1fff718; 0x18e3218; 0x18e3718; 0x1fff3f8; 0x1fff7f8; 0x18e32b8; 0x18e3718;
   0x1fff218; 0x1fff718; 0x70218; 0x1b87f8; 0x19e3f8; 0x18f718; 0x3fffa18; 0x7ffff18;
   0x2baaa18; 0x18071c; 0x18020c; 0x18070c; 0x1803ce; 0x1803c4; 0x0; 0x0;
   0x0; 0x0; 0x202000; 0x0; 0x0; 0x0; 0x60000; 0x603f8;
   0x603f8; 0x1fffb18; 0x1fffb18; 0x60318; 0x60318; 0x1fffbf8; 0x1fffbf8; 0x603b8;
   0x60318; 0x3ffff18; 0x3ffff18; 0xf8318; 0x19dc3f8; 0x3d8e3f8; 0x1f8f318; 0x78ff18;
   0x70df1c; 0xe0c308; 0x1ecc31c; 0x3cfc30c; 0x787e34c; 0x201e3ee; 0x61e4; 0x0;
   0x0; 0x0; 0x0; 0x202000; 0x0; 0x0; 0x0; 0x198000;
   0x1983f8; 0x1983f8; 0xbbab18; 0x1fffb18; 0x1fffb18; 0x1999b18; 0x1999bf8; 0x1999bf8;
   0x1999bb8; 0x1fffb18; 0x1fffb18; 0x1999b18; 0x1999b18; 0x1999bf8; 0x1999bf8; 0x7ffff1c;
   0x3ffff18; 0x20031c; 0x31c30c; 0x71c30c; 0xe0e30c; 0x1c0734c; 0x3803bee; 0x10011e4;
   0x0; 0x0; 0x0; 0x0; 0x202000; 0x0; 0x0; 0x0;
   0xe0000; 0xe03f8; 0x3fff3f8; 0x3fff318; 0xe0318; 0xaea318; 0x1fff318; 0xe03f8].
Definition hanzi_data_354 : list N :=
  [0x15f53f8; 0x3fffbb8; 0x7fffb18; 0x318; 0x1ffe318; 0x1ffe318; 0x1c063f8; 0x1aae3f8;
   0x1ffe318; 0x1806318; 0x1c0631c; 0x1ffe308; 0x1ffe31c; 0x180630c; 0x1c0634c; 0x1f863ee;
   0xf061c4; 0x0; 0x0; 0x0; 0x0; 0x202000; 0x0; 0x0;
   0x0; 0x71c000; 0x6183f8; 0x71c7f8; 0x2eba218; 0x3fff718; 0x3fff218; 0x71c718;
   0x6183f8; 0x71c7f8; 0x3fffab8; 0x7ffff18; 0x218; 0x718; 0xffe218; 0x1ffe7f8;
   0xc063f8; 0x1c06718; 0xffe218; 0x1ffe718; 0xc06218; 0x1c0671c; 0xc0620c; 0x1ffe76c;
   0xffe3ee; 0x1c061c4; 0x0; 0x0; 0x0; 0x0; 0x202000; 0x0;
   0x0; 0x0; 0x70000; 0x603f8; 0x603f8; 0x3fffb18; 0x3ffff18; 0x2318;
   0x1ce318; 0xc63f8; 0x1fc73f8; 0x3fe33b8; 0x1863318; 0x19b3b18; 0x1ff3f18; 0xf7bf18;
   0xf7fff8; 0xeef3f8; 0x6cb31c; 0x783318; 0x38331c; 0x38330c; 0x7c330c; 0xee330c;
   0x3c7334c; 0x383b3ee; 0x101b1e4; 0x0; 0x0; 0x0; 0x0; 0x202000;
   0x0; 0x0; 0x0; 0xe0000; 0x603f8; 0x703f8; 0x3fffb18; 0x3fffb18;
   0x2bbab18; 0x71c318; 0x66c3f8; 0xe6f3f8; 0x1c67bb8; 0x7ffff18; 0x3fffb18; 0xc67318;
   0xc62318; 0xfff3f8; 0xeea3f8; 0xc67318; 0xc62318; 0xfff31c; 0xffe318; 0x706731c;
   0x206030c; 0x706034c; 0x3fe03ec; 0x1fc01c4; 0x0; 0x0; 0x0; 0x0;
   0x202000; 0x0; 0x0; 0x0; 0x6000; 0xe000; 0x3fffff0; 0x3fffff0;
   0x701830; 0x601830; 0x3ffec30; 0x3ffe730; 0x7047f0; 0x61e7b0; 0x738630; 0x780630;
   0x7d8630; 0x18030; 0x1ffffb0; 0xffffb8; 0x1c3c3b8; 0xcf73b8; 0x1fdbf98; 0xc1cb98;
   0x1c7e39c; 0xde7b9c; 0x1d81f9c; 0xf8038e; 0x78038c; 0x0; 0x0; 0x0;
   0x0; 0x202000; 0x0; 0x0; 0x0; 0x60000; 0xe03f8; 0xc03f8;
   0x3fffb98; 0x7fffb98; 0x821b98; 0x1c71b98; 0x831bf8; 0x1c31bf8; 0x3ff9bb8; 0x3fd9b98;
   0x819b98; 0x1c1db98; 0x8dfb98; 0x1ddfbf8; 0x999bf8; 0x1d99b98; 0xb19b98; 0x1f19b9c;
   0x819b88; 0x1c19f9c; 0x818f8c; 0x1c18fcc; 0xf98fee; 0xf18de4; 0x0; 0x0;
   0x0; 0x0; 0x202000; 0x0; 0x0; 0x0; 0x0; 0x3fff3f8;
   0x3fff3f8; 0x38033b8; 0x3803318; 0x3803318; 0x3fff318; 0x3fff3b8; 0x1c33f8; 0x1833f8;
   0x1c3318; 0x3fff318; 0x3fff318; 0x183318; 0x1c33f8; 0x1833f8; 0x1fff318; 0x1fffb18;
   0x181fb1c; 0x180db18; 0x181db1c; 0x180db0c; 0x1ffdf4c; 0x1ffcfce; 0x181c9c4; 0x0;
   0x0; 0x0; 0x0; 0x202000; 0x0; 0x0; 0x0; 0x398000;
   0x3983f8; 0x3983f8; 0x398318; 0x179d318; 0x3f9fb18; 0x3f9fb18; 0x3983f8; 0x3983f8;
   0x398318; 0x3f9fb18; 0x3f9fb18; 0x398318; 0x398318; 0x3983f8; 0x3983f8; 0x7f9fb18;
   0x3f9fb18; 0x39831c; 0x398318; 0x39831c; 0x39830c; 0x3983cc; 0x3983ce; 0x3981c4;
   0x0; 0x0; 0x0; 0x0; 0x202000; 0x0; 0x0; 0x0;
   0x70000; 0x603f8; 0xe03fc; 0x3fffb18; 0x7fffb1c; 0x3001b18; 0x7101b1c; 0x3339bb8;
   0x71c3fc; 0xe0e3b8; 0x1c0731c; 0x3803b18; 0x1001b1c; 0xaaa318; 0x1fff3fc; 0x1fff3f8;
   0xe031c; 0xe030c; 0xe030c; 0xe030c; 0xe030c; 0xe030e; 0x7fffb4e; 0x3fffbe6;
   0x1e4; 0x0; 0x0; 0x0; 0x0; 0x202000; 0x0; 0x0;
   0x0; 0x70000; 0xe03f8; 0x15d53f8; 0x3fffb18; 0x3fffb18; 0x3001b18; 0x3005b18;
   0x2006bf8; 0x1f973f8; 0x1fbf3b8; 0x19b7318; 0x19b3318; 0x19b1b18; 0x19b3b18; 0x19b7ff8;
   0x199eff8; 0x1d9c318; 0x1f98318; 0x59c31c; 0x18c308; 0x718e30c; 0x218630c; 0x3187b4c;
   0x3f83fee; 0x1f019e4; 0x0; 0x0; 0x0; 0x0; 0x202000; 0x0;
   0x0; 0x0; 0x0; 0x3fffbf8; 0x3fffbf8; 0x3801b18; 0x3801b18; 0x3801b18;
   0x3fffb18; 0x3aebbf8; 0x3861bf8; 0x3861bb8; 0x3861b18; 0x3bfdb18; 0x3bfdb18; 0x39e1b18;
   0x3961bf8; 0x3b61bf8; 0x3b61b18; 0x3fffb18; 0x3fffb1c; 0x3801b08; 0x3801b0c; 0x3fffb0c;
   0x3fffb4c; 0x3801bee; 0x38019e4; 0x0; 0x0; 0x0; 0x0; 0x202000;
   0x0; 0x0; 0x0; 0x70000; 0x603f8; 0xe07f8; 0x3fffa18; 0x3ffff18;
   0x3aaba18; 0x3003f18; 0x3003bf8; 0xffe7f8; 0xffe2b8; 0x718; 0x218; 0x718;
   0x3fffa18; 0x3fffff8; 0xe03f8; 0xe0718; 0xeee218; 0x1ce771c; 0x18e3208; 0x38e3f1c;
   0x30e1e0c; 0x70e1f4c; 0xf83ce; 0x781c4; 0x0; 0x0; 0x0; 0x0;
   0x202000; 0x0; 0x0; 0x0; 0x70000; 0xe03f8; 0xc07f8; 0x2aeab18;
   0x3ffff18; 0x3aabb18; 0x3003f18; 0x3003bf8; 0x7f8; 0x1fff3b8; 0x1fff718; 0xc0318;
   0xc0718; 0xce318; 0xc67f8; 0x1fc63f8; 0x1fc6718; 0xc6318; 0xcf71c; 0xcf318;
   0xdf71c; 0xfbb0c; 0x7ff1f4c; 0x3fe1fce; 0x3f00dc4; 0x0; 0x0; 0x0;
   0x0; 0x202000; 0x0; 0x0; 0x0; 0x60000; 0x603f8; 0x15753f8;
   0x3fffb18; 0x3fffb18; 0x30318; 0x1fffb18; 0x1fffbf8; 0x183f8; 0x183b8; 0x7ffff18;
   0x3ffff18; 0x70e318; 0xfff318; 0x1dffbf8; 0x7861ff8; 0x3070f18; 0xfff318; 0x1fff31c;
   0xb8308; 0x1dc31c; 0x78e30c; 0x1f0f34c; 0x3803fee; 0x1001de4; 0x0; 0x0;
   0x0; 0x0; 0x202000; 0x0; 0x0; 0x0; 0x0; 0x1fff3f8;
   0x1fff7f8; 0x1803318; 0x1c03718; 0x1fff318; 0x1fff718; 0x18033f8; 0x1c037f8; 0x1fff3b8;
   0x1fff718; 0xe6318; 0xe7718; 0x2aeb318; 0x3fff7f8; 0x2aebbf8; 0xe1f18; 0xe0b18;
   0x1fff71c; 0x1fff318; 0xe071c; 0xe030c; 0x7ffff4c; 0x3ffffee; 0x55555c4; 0x0;
   0x0; 0x0; 0x0; 0x202000; 0x0; 0x0; 0x0; 0x60000;
   0x601f8; 0xf01f8; 0x1f8198; 0x79e198; 0xf0f198; 0x7d57d98; 0x3fffff8; 0x7fe5f8;
   0x8001b8; 0x193fd98; 0x19bf998; 0x19b1d98; 0x19b1998; 0x19bfdfc; 0x19bf9f8; 0x19b1d9c;
   0x19bb988; 0x19bfd9c; 0x19b198c; 0x1931d8c; 0x183198c; 0x1835dcc; 0x1f3d9ee; 0xf1dde4].
Definition hanzi_data_355 : list N :=
  [0x0; 0x0; 0x0; 0x0; 0x202000; 0x0; 0x0; 0x0;
   0x60000; 0x1861bf8; 0x1861bf8; 0x1861b98; 0x1861b98; 0x1861b98; 0x1fffb98; 0x1fffbb8;
   0x3f8; 0x3b8; 0x3ffff98; 0x3ffff98; 0x70398; 0x30398; 0x3fffbf8; 0x3fffbf8;
   0x3999b98; 0x3999b98; 0x3999b9c; 0x3999b88; 0x3999b9c; 0x3999b8c; 0x3999b8c; 0x3d99bee;
   0x1d119e4; 0x0; 0x0; 0x0; 0x0; 0x202000; 0x0; 0x0;
   0x0; 0xe0000; 0xe03f8; 0x603f8; 0x3fffb18; 0x3ffff18; 0x60318; 0x60318;
   0x2aeabf8; 0x3fffbf8; 0x3aabb18; 0x3b1db18; 0x3b19b18; 0x3999b18; 0x3991b18; 0x3ffdbf8;
   0x3ae9bf8; 0x3861b18; 0x3ae9b18; 0x3ffdb1c; 0x3861b08; 0x3861b1c; 0x3861b0c; 0x3861b0c;
   0x3e61bee; 0x1e019c4; 0x0; 0x0; 0x0; 0x0; 0x202000; 0x0;
   0x0; 0x0; 0x0; 0x3fbf3f8; 0x3fbf7f8; 0x31b3318; 0x31b3718; 0x31b3318;
   0x3fbf718; 0x3fbf3f8; 0x7f8; 0xaaa318; 0x1fff718; 0xaaa318; 0x718; 0x3fffb18;
   0x7fffff8; 0xc3f8; 0xc718; 0xffc318; 0xffe71c; 0xc00308; 0xc0071c; 0xe0030c;
   0x61074c; 0x7f03ee; 0x3f01c4; 0x0; 0x0; 0x0; 0x0; 0x202000;
   0x0; 0x0; 0x0; 0x0; 0x1fff3f8; 0x1fff7f8; 0x1863318; 0x1c63718;
   0x1863318; 0x1fff718; 0x1fff3f8; 0x1c637f8; 0x18633b8; 0x1c63718; 0x1fff318; 0x1fff718;
   0x40318; 0xe07f8; 0x8db3f8; 0x1ddf718; 0x1b99b18; 0x391df1c; 0x3019b08; 0x7c1df1c;
   0x6e18f0c; 0x7fcf4c; 0x7f83ee; 0x1501c4; 0x0; 0x0; 0x0; 0x0;
   0x202000; 0x0; 0x0; 0x0; 0xc00000; 0x1fe03f8; 0x7ffbf8; 0x1bfb18;
   0x1c3b18; 0x183b18; 0x3fffb18; 0x3fffbf8; 0x1c3bf8; 0xc3bb8; 0x1c3b18; 0x1ffbb18;
   0x1fffb18; 0x180bb18; 0x1fffbf8; 0x1ffbbf8; 0x181db18; 0x1809b18; 0x1ffdb1c; 0x1ff9b08;
   0x181db1c; 0x1809b0c; 0x1ffdf4c; 0x1ff8fec; 0x181cdc4; 0x0; 0x0; 0x0;
   0x0; 0x202000; 0x0; 0x0; 0x0; 0x0; 0x2aaabf8; 0x3fffff8;
   0x2bbab18; 0x198318; 0xbbab18; 0x1fffb18; 0x1bbbbf8; 0x1999bf8; 0x1999bb8; 0x1dddb18;
   0x1fffb18; 0x1fffb18; 0x38318; 0x155d3f8; 0x3fffbf8; 0x3ffff1c; 0x60e308; 0x70731c;
   0x39f30c; 0x1fc30c; 0x3e030c; 0x1ffc34c; 0x3e1ffe6; 0x10079e4; 0x0; 0x0;
   0x0; 0x0; 0x202000; 0x0; 0x0; 0x0; 0x180000; 0x1869f8;
   0x1fffdf8; 0x1ff7d98; 0x1986198; 0x1982198; 0x7ffb198; 0x3ffb9f8; 0x19819f8; 0x1ba3998;
   0x1fffd98; 0xbae598; 0x186198; 0x1ff6998; 0x1ff6df8; 0x186df8; 0x187d98; 0x3ffb998;
   0x3ffb99c; 0x18398c; 0x18798c; 0x19f98c; 0x55fddcc; 0x3ff0fee; 0x3fc06e4; 0x0;
   0x0; 0x0; 0x0; 0x202000; 0x0; 0x0; 0x0; 0x60000;
   0x603f8; 0x6c3f8; 0x1f6e318; 0x1f67b18; 0x1861b18; 0x1861b18; 0x1861bf8; 0x1f6fbf8;
   0x1f6fbb8; 0x1861b18; 0x1861b18; 0x1861b18; 0x1fffb18; 0x1fffbf8; 0xf03f8; 0xf0318;
   0xf0318; 0x1b831c; 0x398318; 0x71c31c; 0xe0e30c; 0x1c07b4c; 0x3803fee; 0x10019c4;
   0x0; 0x0; 0x0; 0x0; 0x202000; 0x0; 0x0; 0x0;
   0x1c000; 0x1c3f8; 0x3ffc7f8; 0x3ffe218; 0x3fff718; 0x3a18; 0x1ffff18; 0x1fffbf8;
   0x1c067f8; 0x1ffe2b8; 0x1ffe718; 0x1806218; 0x1ffe718; 0x1ffe218; 0x387f8; 0xab83f8;
   0x1ffc718; 0xeae218; 0x71ff18; 0x3bba18; 0x3f171c; 0x3f020c; 0x1fff70c; 0x3e0fbce;
   0x3803bc4; 0x0; 0x0; 0x0; 0x0; 0x202000; 0x0; 0x0;
   0x0; 0xc0000; 0xe03f8; 0x1fff7f8; 0x1fff218; 0x1807718; 0x1803218; 0x1fff718;
   0x1fff3f8; 0x18077f8; 0x18032b8; 0x1fff718; 0x1fff218; 0xc0718; 0x10c0218; 0x39dfff8;
   0x1ddfbf8; 0xfdc718; 0x3cc218; 0x7cc718; 0xece218; 0x1cc771c; 0x38c3a0c; 0x70c1f0c;
   0x20f83ce; 0x783c4; 0x0; 0x0; 0x0; 0x0; 0x202000; 0x0;
   0x0; 0x0; 0x1b00000; 0x1b003f8; 0x37003f8; 0x1300318; 0x7ffff18; 0x2baab18;
   0x755318; 0x37fbf8; 0x7003f8; 0x3ffb18; 0x7fff18; 0x600318; 0x77fb18; 0x67fb18;
   0x665bf8; 0x66dbf8; 0x66db1c; 0x66db08; 0x66db1c; 0x2e6db0c; 0x6c4d30c; 0x2c3630c;
   0x7c7730c; 0x38e3fee; 0x38c0de4; 0x0; 0x0; 0x0; 0x0; 0x202000;
   0x0; 0x0; 0x0; 0x0; 0x3fffbf8; 0x3fffff8; 0x2aeab18; 0x60318;
   0x60318; 0x70318; 0x3fffbf8; 0x3fffbf8; 0x3919b18; 0x3919b18; 0x3919b18; 0x39f9b18;
   0x39f9b18; 0x3919bf8; 0x3919bf8; 0x3919b1c; 0x39f9b18; 0x39f9b1c; 0x3919b0c; 0x3919b0c;
   0x3919b0c; 0x3fffb4c; 0x3fffbee; 0x38019c4; 0x0; 0x0; 0x0; 0x0;
   0x202000; 0x0; 0x0; 0x0; 0x0; 0xaaa3f8; 0x1fff3f8; 0xeab318;
   0x1c07318; 0xc03318; 0x1fff318; 0xeab3f8; 0x1c073f8; 0xc033b8; 0x1fff318; 0xfff318;
   0x318; 0x318; 0x1fff3f8; 0x1fff3f8; 0x199b318; 0x199b318; 0x199b31c; 0x199b318;
   0x199b31c; 0x199b30c; 0x7ffff4c; 0x3ffffee; 0x55555c4; 0x0; 0x0; 0x0;
   0x0; 0x202000; 0x0; 0x0; 0x0; 0x463000; 0xe633f8; 0x6773fc;
   0x636318; 0x3fffb1c; 0x3fffb18; 0x1831c; 0x183f8; 0x3fffffc; 0x3ffffb8; 0x60731c;
   0x1e03b18; 0x7ffff1c; 0x33aaf18; 0x3067fc; 0x3863f8; 0x1fff31c; 0x1fff30c; 0x180031c;
   0x18aab0c; 0x1dffb0c; 0xc0030c; 0xc0034c; 0xfc03e6; 0x7c01e4; 0x0; 0x0;
   0x0; 0x0; 0x202000; 0x0; 0x0; 0x0; 0x0; 0x1ff01f8;
   0x1ff1df8; 0x1831998; 0x1831998; 0x1ab3198; 0x1ff7198; 0x18301f8; 0x18301f8; 0x1833d98;
   0x1ff3d98; 0xab3198; 0x11b3198; 0x39b3198; 0x1f331f8; 0xe331f8; 0xe3319c; 0xdb3188;
   0x19fb19c; 0x387b18c; 0x101f98c; 0xfd8c; 0x7ffcfcc; 0x3ff87ee; 0x1fc05e4; 0x0;
   0x0; 0x0; 0x0; 0x202000; 0x0; 0x0; 0x0; 0x60000;
   0xe03f8; 0x15f53f8; 0x1fffb18; 0x175d318; 0x60c318; 0x71c318; 0x31c3f8; 0x3fffff8].
Definition hanzi_data_356 : list N :=
  [0x3fffbb8; 0x3061f18; 0x3061b18; 0xe0318; 0x1fffb18; 0x1fffbf8; 0x183f8; 0x1831c;
   0xff8318; 0x1ffc31c; 0xc0c30c; 0xc0c30c; 0xc0e30c; 0xe0734c; 0xfc3fee; 0x7c19e4;
   0x0; 0x0; 0x0; 0x0; 0x202000; 0x0; 0x0; 0x0;
   0x381c0; 0x18180; 0x3ffdffc; 0x3ffdffc; 0xf0e060; 0xfe7060; 0x11fafe0; 0x3d98fe0;
   0xf18c70; 0x718c30; 0xffcc38; 0x3dfcf9c; 0x381c79c; 0x2aaa80; 0x3fffc0; 0x3000c0;
   0x3fffc0; 0x3fffc0; 0x3000c0; 0x3aaac0; 0x3fffc0; 0x3000c0; 0x3000c0; 0x3f00c0;
   0x1f00c0; 0x0; 0x0; 0x0; 0x0; 0x202000; 0x0; 0x0;
   0x0; 0x0; 0x3fffbf8; 0x3fffbf8; 0x318; 0x1fff318; 0x1fff318; 0x1c07318;
   0x18033f8; 0x1fff3f8; 0x1fff3b8; 0x318; 0x2aaab18; 0x3fffb18; 0x3209b18; 0x371dbf8;
   0x3319bf8; 0x31b1b1c; 0x37fdb18; 0x37fdb1c; 0x3061b0c; 0x3061b0c; 0x3061b0c; 0x3061b4c;
   0x3e61bee; 0x1c419e4; 0x0; 0x0; 0x0; 0x0; 0x202000; 0x0;
   0x0; 0x0; 0x6e0000; 0xee03f8; 0x1df53f8; 0x3fffb18; 0x3fffb18; 0xe0318;
   0x1fff318; 0x1fff3f8; 0x18e33f8; 0x1fff3b8; 0x1fff318; 0x18e3318; 0x1fff318; 0x1fff318;
   0x1ce33f8; 0x6023f8; 0x7fffb18; 0x3fffb18; 0x575531c; 0x60e308; 0x61c31c; 0x63830c;
   0x61034c; 0x7c03ee; 0x7c01c4; 0x0; 0x0; 0x0; 0x0; 0x202000;
   0x0; 0x0; 0x0; 0x7000; 0xe000; 0x3fffffc; 0x3fffff8; 0x7fffc0;
   0x3fffc0; 0x7555c0; 0x3fffc0; 0x0; 0x3fffffc; 0x3d5555c; 0x39fff8c; 0x39801dc;
   0x1fff80; 0x1fffc0; 0x2aaaa0; 0x7fffe0; 0x3000e0; 0x7fffe0; 0x3aaae0; 0x7fffe0;
   0x3fffe0; 0x7000e0; 0x3f00e0; 0x3f00e0; 0x0; 0x0; 0x0; 0x0;
   0x202000; 0x0; 0x0; 0x0; 0x70000; 0xe03f8; 0xe03f8; 0x3fffb18;
   0x3fffb18; 0x3003b18; 0x3f03b18; 0x3fffbf8; 0x7fc3f8; 0xc3b8; 0xc318; 0x1ffc318;
   0x1ffc318; 0x38c318; 0x38c3f8; 0x38c3f8; 0x38c318; 0x3fffb18; 0x3fffb1c; 0x308;
   0x71c31c; 0xe1e30c; 0x1c0f34c; 0x3803fee; 0x10019c4; 0x0; 0x0; 0x0;
   0x0; 0x202000; 0x0; 0x0; 0x0; 0x0; 0x3fffff8; 0x7fffff8;
   0x198318; 0x198318; 0x3fffb18; 0x3fffb18; 0x3999bf8; 0x3999bf8; 0x3999bb8; 0x3fffb18;
   0x2aaab18; 0x318; 0x1fff318; 0x1fff3f8; 0x3f8; 0x3ffff1c; 0x3ffff08; 0x46031c;
   0xe6630c; 0x1c6730c; 0x1863b0c; 0x3861f4c; 0x307cfee; 0x7c1c4; 0x0; 0x0;
   0x0; 0x0; 0x202000; 0x0; 0x0; 0x0; 0x0; 0x1fefdf8;
   0x1fefdf8; 0x186c198; 0x1c6c198; 0x186c198; 0x1fec198; 0x1fef9f8; 0x30fdf8; 0x3009b8;
   0x1ff1d98; 0x1fe0d98; 0x1b30d98; 0x1b2fd98; 0x1b37df8; 0x1b2e1f8; 0x1ff4198; 0x1fe6198;
   0x130619c; 0x1b06188; 0x1b0619c; 0x3b0618c; 0x3fffdcc; 0x33f3dee; 0x10000e4; 0x0;
   0x0; 0x0; 0x0; 0x202000; 0x0; 0x0; 0x0; 0xe0000;
   0x18e33f8; 0x1ce73f8; 0xeee318; 0x6ec318; 0x2aeab18; 0x3fffb18; 0x3aabbf8; 0x3801bf8;
   0x3fffbb8; 0x1fff318; 0xc06318; 0xc06318; 0xc06318; 0xffe3f8; 0xaea3f8; 0xe031c;
   0xaea318; 0x1fff31c; 0xaea30c; 0xe030c; 0xe030c; 0x7ffff4c; 0x3ffffee; 0x1c4;
   0x0; 0x0; 0x0; 0x0; 0x202000; 0x0; 0x0; 0x0;
   0x31c000; 0x30c3f8; 0x3fffff8; 0x3fffbb8; 0x31c318; 0x30c318; 0x555318; 0xfff3b8;
   0x1d573f8; 0xc033b8; 0x1fff318; 0xfff318; 0x1c03318; 0xeab318; 0x1fff3f8; 0x603f8;
   0x60318; 0x3fffb18; 0x3ffff1c; 0x1f0308; 0x1b831c; 0x39c30c; 0x1f1f34c; 0x3e07fee;
   0x18019c4; 0x0; 0x0; 0x0; 0x0; 0x202000; 0x0; 0x0;
   0x0; 0xe0000; 0xe03f8; 0x15f57f8; 0x3fffb18; 0x3ffff18; 0x3f8318; 0xffc718;
   0x1cef3f8; 0x38e7ff8; 0x3061bb8; 0x1f0718; 0x3b8318; 0x71c718; 0x1e2f318; 0x7c67ff8;
   0x2862bf8; 0xc6e718; 0x66c318; 0x3fc71c; 0x3f8318; 0xf7e71c; 0x1e6fb0c; 0x3861f0c;
   0x1078bee; 0x783c4; 0x0; 0x0; 0x0; 0x0; 0x202000; 0x0;
   0x0; 0x0; 0x70000; 0xe03f8; 0x15d53f8; 0x3fffb18; 0x3555b18; 0x3339b18;
   0x1f1db18; 0x1c0f3f8; 0x3807bf8; 0x3fffbb8; 0x3fffb18; 0x38318; 0x71c318; 0xe8e318;
   0x1fff3fc; 0x38ff3f8; 0x10e031c; 0xe0308; 0x1fff31c; 0x1fff30c; 0xe030c; 0xe030c;
   0x7fffb4c; 0x3fffbee; 0x1c4; 0x0; 0x0; 0x0; 0x0; 0x202000;
   0x0; 0x0; 0x0; 0x460000; 0xc633f8; 0xe673f8; 0x66e318; 0x364318;
   0x1ffff18; 0x1ffff18; 0x3f83f8; 0x77e3f8; 0xe673b8; 0x7c63f18; 0x3060b18; 0xc67318;
   0x2e83318; 0x3fffbf8; 0x2ebbbf8; 0xcd9f1c; 0xcd9f08; 0xcdf71c; 0x3fce30c; 0x3fc630c;
   0xc0330c; 0xc03f4c; 0xc00fee; 0xc005c4; 0x0; 0x0; 0x0; 0x0;
   0x202000; 0x0; 0x0; 0x0; 0xc000; 0x380c3f8; 0x1c5d7f8; 0xcfff18;
   0xefff18; 0x60c318; 0x7fff18; 0x37fbf8; 0x30557f8; 0x38003b8; 0x1c7fb18; 0xc6bb18;
   0xe61b18; 0x761b18; 0x3ffbf8; 0x17fbf8; 0x3071b18; 0x3833b08; 0x183331c; 0x1cbb30c;
   0xcfd30c; 0xefff0c; 0x787f4c; 0x3c03e6; 0x1801e4; 0x0; 0x0; 0x0;
   0x0; 0x202000; 0x0; 0x0; 0x0; 0x70000; 0x601f8; 0x3fff9f8;
   0x3fff998; 0x60e198; 0x60c198; 0x3fffd98; 0x3fffdf8; 0x3060df8; 0x3060db8; 0x3fffd98;
   0xffe198; 0xc67198; 0xc62198; 0xf671f8; 0xe621f8; 0x6019c; 0x1fff188; 0x1fff19c;
   0x180318c; 0x180318c; 0x180318c; 0x1fff18c; 0x1aab1ee; 0x18031e4; 0x0; 0x0;
   0x0; 0x0; 0x202000; 0x0; 0x0; 0x0; 0x604000; 0x60e3f8;
   0x71c3f8; 0x3fffb18; 0x3fffb18; 0x60318; 0x1fff318; 0x1fff3f8; 0x603f8; 0x2aeabb8;
   0x3fffb18; 0x2eeab18; 0xc66318; 0xe6e318; 0x3fffff8; 0x3fffbf8; 0x318; 0x1fff318;
   0x1fff31c; 0x1803308; 0x1c0331c; 0x180330c; 0x1fff34c; 0x1fff3ee; 0x1c031c4; 0x0].
Definition hanzi_data_357 : list N :=
  [0x0; 0x0; 0x0; 0x202000; 0x0; 0x0; 0x0; 0xe000;
   0xc000; 0x3fffff0; 0x3fffff0; 0xdcc30; 0x18ce30; 0x1ffe730; 0xbaf330; 0x1fffff0;
   0xbafaf0; 0x1ffe7f0; 0x1ffe238; 0x15d6730; 0x3ffe238; 0x6738; 0xffff38; 0xffff38;
   0xc00318; 0xffff18; 0xc00318; 0xffff1c; 0xffff0c; 0xc0070c; 0xfe030e; 0x7c0704;
   0x0; 0x0; 0x0; 0x0; 0x202000; 0x0; 0x0; 0x0;
   0x70000; 0x603f8; 0x3fffff8; 0x3ffff18; 0x318; 0x1fffb18; 0x1fffb18; 0x1bf9bf8;
   0x1bfdbf8; 0x1ba9bb8; 0x1bfdb18; 0x1aabb18; 0x1fffb18; 0x318; 0x1fff3f8; 0x1eab3f8;
   0x1d57318; 0x1fff318; 0x1c0331c; 0x1eab308; 0x1fff31c; 0x30c; 0x7ffff4c; 0x3ffffee;
   0x1c4; 0x0; 0x0; 0x0; 0x0; 0x202000; 0x0; 0x0;
   0x0; 0x0; 0x7f3ff8; 0x7f3ff8; 0x633018; 0x3e3bff8; 0x3e1ebb8; 0x559dd8;
   0xffbff8; 0xd78d98; 0x672bb8; 0x7e7ffc; 0x3e0d8c; 0x1ffd9cc; 0x3c3b06c; 0x7fffe0;
   0x7fffe0; 0x7000e0; 0x7fffe0; 0x7fffe0; 0x7000e0; 0x7fffe0; 0x7aaae0; 0x7000e0;
   0x3f00e0; 0x3f00e0; 0x0; 0x0; 0x0; 0x0; 0x202000; 0x0;
   0x0; 0x0; 0x70000; 0x601f8; 0x15755f8; 0x3fffd98; 0x155dd98; 0xe18d98;
   0x738d98; 0x3ffedf8; 0x3ffedf8; 0x330db8; 0x1ffed98; 0x1ffed98; 0x1b30d98; 0x3ffed98;
   0x3fffdf8; 0x1b30df8; 0x1f74d98; 0x1ffed98; 0x738d9c; 0x738d88; 0xf3cd9c; 0x1b3ed8c;
   0x7b37fcc; 0x23337ec; 0x3306c4; 0x0; 0x0; 0x0; 0x0; 0x202000;
   0x0; 0x0; 0x0; 0x1c0000; 0x181ff8; 0x3ffdff8; 0x2aa9818; 0xc31ff8;
   0x661ff8; 0x7ffc018; 0x2ba9ff8; 0x181ffc; 0x3ffd86c; 0x15d5d7c; 0x181fec; 0x180000;
   0x7fffe0; 0x7fffe0; 0x600060; 0x7fffe0; 0x7fffe0; 0x700060; 0x7fffe0; 0x7fffe0;
   0x600060; 0x700060; 0x7e0060; 0x7e0060; 0x0; 0x0; 0x0; 0x0;
   0x202000; 0x0; 0x0; 0x0; 0x30000; 0x701f8; 0x601f8; 0x3fffd98;
   0x3fffd98; 0x82198; 0x6c7198; 0xec31f8; 0x3fe59f8; 0x3fed9b8; 0x67fd98; 0x67ff98;
   0x177e598; 0x3fe3198; 0x177b1f8; 0x6799f8; 0x67fd98; 0x3fefd88; 0x3fec59c; 0x66618c;
   0x66718c; 0x3fe398c; 0x7fe1d8c; 0x60fee; 0x605e4; 0x0; 0x0; 0x0;
   0x0; 0x202000; 0x0; 0x0; 0x0; 0x70000; 0x603f8; 0x3fffbf8;
   0x3fffb18; 0x60e318; 0x70c318; 0x575d718; 0x7fffff8; 0x7fffff8; 0x3b8; 0x1fff318;
   0x1803318; 0x1803318; 0x1fff318; 0x1d573f8; 0x18033f8; 0x1fff318; 0xaba318; 0x87431c;
   0xccfb08; 0x1dcfb0c; 0x3c0ef0c; 0x7c0ef4c; 0x27fefee; 0x7fc1c4; 0x0; 0x0;
   0x0; 0x0; 0x202000; 0x0; 0x0; 0x0; 0x0; 0x7fe3f8;
   0x7fe3f8; 0x60e318; 0x70e318; 0x7fe318; 0x7fe318; 0x2aaabf8; 0x3fffbf8; 0x30b1bb8;
   0x31f1b18; 0x30b1b18; 0x3fffb18; 0x3fffb18; 0x603f8; 0x2aeabf8; 0x3ffff18; 0x2bfab18;
   0x1f831c; 0x37c308; 0xf6e31c; 0x1c67b0c; 0x7863f4c; 0x3060bee; 0x601c4; 0x0;
   0x0; 0x0; 0x0; 0x202000; 0x0; 0x0; 0x0; 0x707000;
   0x6021f8; 0x7071f8; 0x63ff98; 0x3ffff98; 0x3fc2198; 0x1747198; 0x63fff8; 0x73fff8;
   0x600198; 0x3fffd98; 0x3fffd98; 0x30d8d98; 0x3898d98; 0x19dfdfc; 0x199fdf8; 0x1d9819c;
   0xf18d88; 0x71dd9c; 0x70d98c; 0xfbc98c; 0x1dbff8c; 0x39e7f8c; 0x30703e6; 0x20200e4;
   0x0; 0x0; 0x0; 0x0; 0x202000; 0x0; 0x0; 0x0;
   0x0; 0x1fffbf8; 0x1fffbf8; 0x60398; 0x3ffff98; 0x3ffff98; 0x3060f98; 0x3f6fff8;
   0x3f7fff8; 0x603b8; 0x1f7f398; 0x60398; 0x1555798; 0x3ffff98; 0x15757f8; 0x303f8;
   0x3fffb98; 0x3fffb98; 0x3999b9c; 0x3999b88; 0x3999b9c; 0x3999b8c; 0x3999b8c; 0x3d99bee;
   0x1d999e4; 0x0; 0x0; 0x0; 0x0; 0x202000; 0x0; 0x0;
   0x0; 0x707000; 0x7869f8; 0x1fdfdf8; 0x1fdfd98; 0x646598; 0x3ffff98; 0x3ffff98;
   0xd8d9f8; 0x6dbd9f8; 0x2dbd998; 0x7dddd98; 0x38c0f98; 0x1fff598; 0xfff198; 0x1c031f8;
   0xc631f8; 0x1c6319c; 0xc63188; 0x1c6319c; 0xc6318c; 0x17f118c; 0xfb818c; 0x1e1f9cc;
   0x3807de6; 0x1001ce4; 0x0; 0x0; 0x0; 0x0; 0x202000; 0x0;
   0x0; 0x0; 0x0; 0x1fffff0; 0x1fffff0; 0x1fffff0; 0xe030; 0xe030;
   0xe030; 0xe030; 0x7ffff0; 0x7ffff0; 0x600030; 0x600030; 0x600030; 0x600030;
   0x7ffff0; 0x7ffff0; 0x7ffff0; 0xe030; 0xe030; 0xe030; 0xe030; 0x2aaeab0;
   0x3fffff0; 0x3fffff0; 0x0; 0x0; 0x0; 0x0; 0x0; 0x202000;
   0x0; 0x0; 0x0; 0x6c0000; 0x1ec0000; 0x18c0000; 0x3ffffd8; 0x7ffffd8;
   0xc00d8; 0xc01d8; 0xffed8; 0x18fffd8; 0x18c66f8; 0x19c67f8; 0x18ffec0; 0x1dfffc0;
   0xcb06c0; 0xdf07fc; 0x7bfef8; 0x7bffd8; 0x3866d8; 0x3866d8; 0x63bfec8; 0x63ffecc;
   0x23e00cc; 0x37700ee; 0x3e38060; 0x1c18060; 0x0; 0x0; 0x0; 0x0;
   0x202000; 0x0; 0x0; 0x0; 0x7000; 0x7000; 0x7000; 0x3000;
   0xffffe0; 0xffffe0; 0xe00060; 0xe00060; 0xe00060; 0xe00060; 0xffffe0; 0xffffe0;
   0xe00060; 0xe00060; 0xe00060; 0xeaaae0; 0xffffe0; 0xffffe0; 0xe00060; 0xe00060;
   0xe00060; 0xffffe0; 0xffffe0; 0xeaaae0; 0xe00060; 0x0; 0x0; 0x0;
   0x0; 0x202000; 0x0; 0x0; 0x0; 0xe000; 0x6000; 0x7fffe0;
   0x7fffe0; 0x700060; 0x600060; 0x7fffe0; 0x600060; 0x700060; 0x7fffe0; 0x755560;
   0x600060; 0x7fffe0; 0x7fffe0; 0x6000; 0x6000; 0x3fffffc; 0x3fffffc; 0x3fc00;
   0xf6f00; 0x1e67c0; 0xf861e0; 0x7f0607c; 0x380603c; 0x6004; 0x0; 0x0;
   0x0; 0x0; 0x202000; 0x0; 0x0; 0x0; 0x7000; 0x7000;
   0x7fffe0; 0x7fffe0; 0x700060; 0x600060; 0x7fffe0; 0x6aaae0; 0x700060; 0x7fffe0].
Definition hanzi_data_358 : list N :=
  [0x7fffe0; 0x600060; 0x755560; 0x7fffe0; 0x555540; 0x3ee000; 0x707000; 0x3fffffc;
   0x3fffffc; 0xf800; 0x3de00; 0xf0f80; 0x1fe03f0; 0x3f800fc; 0x1c0001c; 0x0;
   0x0; 0x0; 0x0; 0x202000; 0x0; 0x0; 0x0; 0x0;
   0xaaaaa8; 0x1fffffc; 0x1fffff8; 0xe00; 0x60700; 0x1e0380; 0x3c01c0; 0x7d01e0;
   0xfffff0; 0x1f7fff0; 0x802000; 0x6000; 0x6000; 0x6000; 0xfffff0; 0xfffff0;
   0x6000; 0x6000; 0x6000; 0x6000; 0x6000; 0x3fffffc; 0x3fffffc; 0x0;
   0x0; 0x0; 0x0; 0x0; 0x202000; 0x0; 0x0; 0x0;
   0x70000; 0x60000; 0x73ffc; 0x33ffc; 0x300e0; 0x3ff8660; 0x7ff8e70; 0xc18c38;
   0xc1dffc; 0xc3fffc; 0xe3f07c; 0xe3e180; 0x677180; 0x660180; 0x763ffc; 0x3e3ffc;
   0x3c0180; 0x3c0180; 0x1c0180; 0x3e3980; 0x777fc0; 0xe3bffe; 0x3c1e1fc; 0x380e000;
   0x1006000; 0x0; 0x0; 0x0; 0x0; 0x202000; 0x0; 0x0;
   0x0; 0x1c0000; 0xc0aa8; 0x15d4ffc; 0x3ffeffc; 0x15f4070; 0xe0270; 0x1ffe330;
   0x1ffe638; 0x7071c; 0x2abaffc; 0x7fffdfc; 0x2eba4c0; 0xd1c0c0; 0x1ffe0c0; 0x79ff7fc;
   0x30c37fc; 0x15d50c0; 0x1ffe0c0; 0x1ffe0c0; 0x3f08c0; 0xffcfc0; 0x1cceffe; 0x38c787e;
   0x10c3000; 0xc0000; 0x0; 0x0; 0x0; 0x0; 0x202000; 0x0;
   0x0; 0x0; 0x1800; 0x1e00; 0x1fc0; 0x1ff83e0; 0x1ff81f8; 0x1800038;
   0x1c00038; 0x1800038; 0x1c00038; 0x1800038; 0x1c00038; 0x1aa8ab8; 0x1ff9ff8; 0x1ff9ff8;
   0x1c00038; 0x1800038; 0x1c00038; 0x1800038; 0x1c00038; 0x1800038; 0x1fffff8; 0x1fffff8;
   0x1fffff8; 0x1800038; 0x1c00038; 0x0; 0x0; 0x0; 0x0; 0x202000;
   0x0; 0x0; 0x0; 0x6000; 0x6200; 0x1ff67c0; 0xfe63f0; 0x1ff6070;
   0xc06030; 0x1c06030; 0xc06030; 0x1fe67f0; 0xfe67f0; 0x1c06030; 0xc06030; 0x1c07030;
   0xeaeab0; 0x1fffff0; 0xfffff0; 0xf800; 0x1f800; 0x39c00; 0x30e00; 0xf0700;
   0x3e03c0; 0x1fc01f8; 0x3e0007c; 0x3c0001c; 0x0; 0x0; 0x0; 0x0;
   0x202000; 0x0; 0x0; 0x0; 0xc00000; 0x1ff8000; 0x7ffff8; 0xfff8;
   0xc03050; 0xe03030; 0x707070; 0x7060e0; 0x30e1c0; 0x3868c0; 0x1551f00; 0xff8ff0;
   0x1ff81f0; 0xc00030; 0x1c00030; 0xc00030; 0x1ff9ff0; 0xff9ff0; 0x1c00030; 0xc00030;
   0x1c00030; 0xeaaab0; 0x1fffff0; 0xfffff0; 0x1c00030; 0x0; 0x0; 0x0;
   0x0; 0x202000; 0x0; 0x0; 0x0; 0x0; 0xaa9f80; 0xffdff0;
   0xea8030; 0xc00030; 0xc00030; 0xff9ff0; 0xff9ff0; 0xc00030; 0xc00030; 0xd55570;
   0xfffff0; 0xfffff0; 0xc0700; 0xc0700; 0xc0700; 0x3fffffc; 0x3fffffc; 0xc0700;
   0xc0380; 0xc0380; 0xc01e0; 0xc00f0; 0xc007c; 0xc0018; 0x0; 0x0;
   0x0; 0x0; 0x202000; 0x0; 0x0; 0x0; 0x6000; 0x6000;
   0x1fffff8; 0x1fffff8; 0x1fffff8; 0x3000; 0x7ffff0; 0x7fffe0; 0x1c00; 0x1c00;
   0x3fffffc; 0x3fffffc; 0x1c0780; 0x380bc0; 0xffdff0; 0x3ff8ff8; 0x7f001fc; 0x33000c8;
   0x3fdfc0; 0x3f9fc0; 0x3000c0; 0x3000c0; 0x3fffc0; 0x3fffc0; 0x3000c0; 0x0;
   0x0; 0x0; 0x0; 0x202000; 0x0; 0x0; 0x0; 0x1c00;
   0xaa9f80; 0xffcff0; 0xea8060; 0xc00070; 0xc00060; 0xff9ff0; 0xff8ae0; 0xc00070;
   0xc00060; 0xfffff0; 0xffffe0; 0x380; 0x1c0; 0x1ffffe0; 0x1fffff8; 0x180003c;
   0x186001c; 0x18c6660; 0x198c660; 0x1d8c670; 0x1c0ce38; 0x1c4cc18; 0xfc0c18; 0x7c0000;
   0x0; 0x0; 0x0; 0x0; 0x202000; 0x0; 0x0; 0x0;
   0x800; 0xff9fa0; 0x1ffc7f8; 0xc00038; 0x1ffdff8; 0xff9ff8; 0x1d55578; 0xfffff8;
   0x1555550; 0xaaaaa0; 0xfffff0; 0xc06030; 0xfffff0; 0xfffff0; 0xc06030; 0xfffff0;
   0xfffff0; 0x3000; 0x1fffff8; 0xfffff8; 0xc01c00; 0xc00e00; 0xc007c0; 0xfe03fc;
   0x7e007c; 0x0; 0x0; 0x0; 0x0; 0x202000; 0x0; 0x0;
   0x0; 0x7100; 0xf833e0; 0x1fc31f0; 0xc3fe30; 0x1c7fc30; 0xc01830; 0x1d0fdf0;
   0xf8edf0; 0x1fbfdf0; 0xc3fc30; 0xc0e030; 0xc0e030; 0xfffff0; 0xfffff0; 0xc0e030;
   0xc0e030; 0xc0c030; 0x3fffffc; 0x7fffffc; 0x20200; 0x1f0700; 0x3c03c0; 0x1f001f0;
   0x3c0007c; 0x1800018; 0x0; 0x0; 0x0; 0x0; 0x202000; 0x0;
   0x0; 0x0; 0x300000; 0x7e0000; 0x3fffd0; 0x3fff0; 0x6170; 0x6000;
   0x6000; 0x6000; 0x3fffffc; 0x3fffffc; 0x6000; 0x6000; 0x6000; 0x6000;
   0x7fffe0; 0x7fffe0; 0x600060; 0x600060; 0x600060; 0x600060; 0x600060; 0x600060;
   0x7fffe0; 0x7fffe0; 0x600060; 0x0; 0x0; 0x0; 0x0; 0x202000;
   0x0; 0x0; 0x0; 0x6000; 0xe000; 0x1f800; 0x3bc00; 0x71f00;
   0x1e0780; 0x7c03e0; 0x1fffff8; 0x7dffffe; 0x300600c; 0x6000; 0x1fffff8; 0x1fffff8;
   0x6000; 0x6000; 0x6000; 0x7fffe0; 0x3fffe0; 0x7000e0; 0x3000e0; 0x7000e0;
   0x3000e0; 0x7fffe0; 0x3fffe0; 0x7000e0; 0x0; 0x0; 0x0; 0x0;
   0x202000; 0x0; 0x0; 0x0; 0xc00400; 0x1f80f80; 0x1ffcffc; 0x3fc0fc;
   0x30c1c4; 0x30c0c0; 0x30c1c0; 0x30c0c0; 0x30dffe; 0x30dffe; 0x7ffc1c0; 0x3ffc0c0;
   0x30c1c0; 0x30c0c0; 0x70cffc; 0x30cff8; 0x70cc1c; 0x60cc18; 0x70cc1c; 0x660cc18;
   0x660cc1c; 0x2eecff8; 0x3dfcffc; 0x3c3ec18; 0x180401c; 0x0; 0x0; 0x0;
   0x0; 0x202000; 0x0; 0x0; 0x0; 0x180; 0x1ff8180; 0x1ffc7c0;
   0xc00fe0; 0xe11c70; 0x73b83c; 0x3f355e; 0x1e0ffc; 0x380ff0; 0x300180; 0x3ffc180;
   0x3fffff8; 0x39c3ffc; 0x1980180; 0x1dc0180; 0x980ba8; 0x1c1ff8; 0x181ab8; 0x1c1818;
   0x181818; 0x1c1818; 0x181ff8; 0x1c1ff8; 0x1f1818; 0xf0018; 0x0; 0x0].
Definition hanzi_data_359 : list N :=
  [0x0; 0x0; 0x202000; 0x0; 0x0; 0x0; 0x300; 0xaaa7e0;
   0x1fff1fc; 0x1ffe0cc; 0x700c0; 0x300c0; 0x15750c0; 0x3fffae8; 0x3fffffc; 0x61c7fc;
   0xe0c0c0; 0xc0e0c0; 0x3c770c0; 0x78338c0; 0x3c71ffc; 0xdb67fc; 0x1df661c; 0x19b660c;
   0x337761c; 0x333360c; 0x7373e1c; 0x20317fc; 0x707fc; 0x3c60c; 0x3c01c; 0x0;
   0x0; 0x0; 0x0; 0x202000; 0x0; 0x0; 0x0; 0x3001c0;
   0x3000c0; 0x3000c0; 0x3000c0; 0x1755fe0; 0x3ffffe0; 0x3ffdd70; 0x301870; 0x301c70;
   0x319c38; 0x31dc38; 0x31cc5c; 0x31ccfc; 0x30cfc8; 0x175c780; 0x3ffc700; 0x7ffc700;
   0x300380; 0x3001c0; 0x3000c0; 0x3000e0; 0x300070; 0x30007c; 0x30001c; 0x300008;
   0x0; 0x0; 0x0; 0x0; 0x202000; 0x0; 0x0; 0x0;
   0xfd0000; 0xfffff8; 0x17fff0; 0x7030c0; 0x7071c0; 0x386180; 0x1ce380; 0x3fffffc;
   0x3fffffc; 0x300018c; 0x33801cc; 0x3380acc; 0x1ffffc0; 0x1ffbae0; 0x381870; 0x399838;
   0x39dcdc; 0x38cdcc; 0x3ffcf80; 0x3ffc700; 0x17d4780; 0x3801c0; 0x3801f0; 0x38007c;
   0x380018; 0x0; 0x0; 0x0; 0x0; 0x202000; 0x0; 0x0;
   0x0; 0x1c0; 0xc0; 0x1ffffe0; 0x1fffff0; 0x739cfc; 0x3398d8; 0x177ddd0;
   0x1fffff8; 0x1fffff8; 0x3398c0; 0x739cc0; 0x3fffffc; 0x3fffffc; 0x380180; 0x3800c0;
   0x1ffdfe0; 0x1ffdff0; 0x38cc38; 0x38ce7c; 0x38c7c0; 0x3ffe780; 0x3ffe3c0; 0x3801f0;
   0x38007c; 0x380018; 0x0; 0x0; 0x0; 0x0; 0x202000; 0x0;
   0x0; 0x0; 0x7000; 0x7000; 0x7000; 0x3fffc0; 0x3fffc0; 0x3aaac0;
   0x3011c0; 0x3038c0; 0x30f1c0; 0x30c0c0; 0x31c1c0; 0x3000c0; 0x3fffffc; 0x3fffffc;
   0x3000c0; 0x3018c0; 0x3078c0; 0x30f0e0; 0x31c060; 0x318060; 0x300070; 0x300038;
   0x3f003c; 0x3f001e; 0x1f000c; 0x0; 0x0; 0x0; 0x0; 0x202000;
   0x0; 0x0; 0x0; 0x180; 0x180; 0x3ffe1c0; 0x3ffeff8; 0x3d75ff8;
   0x3860c38; 0x3861cf8; 0x3860cb8; 0x3861db8; 0x3860db8; 0x1861d38; 0x3860c38; 0x1871ffc;
   0x1860ffc; 0x1871cb8; 0x1830cf8; 0x1831db8; 0x1838fb8; 0x1839f18; 0x1818c18; 0x1c1dc18;
   0x180cc18; 0x1c4fd1c; 0xfc7f8c; 0x7c670c; 0x0; 0x0; 0x0; 0x0;
   0x202000; 0x0; 0x0; 0x0; 0x180; 0x180; 0x15541c0; 0x3ffeff8;
   0x3fffff8; 0x1c0c38; 0x1c1cf8; 0x1c0cf8; 0x1c1db8; 0x1c0db8; 0x1c1d38; 0x1c0c38;
   0x1c1ffc; 0x1c0ffe; 0x1c1cb8; 0x1c0cf8; 0x1c1db8; 0x1c0db8; 0x1c1f18; 0x1c0c18;
   0x1c1c18; 0x3ffec18; 0x3fffd1c; 0x3ffef8e; 0x70c; 0x0; 0x0; 0x0;
   0x0; 0x202000; 0x0; 0x0; 0x0; 0x1c01c0; 0xc01c0; 0x1c00c0;
   0xc0ff8; 0x1c0ff8; 0xc0c38; 0x39c6cf8; 0x38c6cf8; 0x39c6df8; 0x38c6db8; 0x39c6db8;
   0x38c6c38; 0x39c6ffe; 0x38c6ffe; 0x39c6c58; 0x38c6cf8; 0x39c6dd8; 0x38c6d98; 0x39c6d98;
   0x38c6c18; 0x39c6c18; 0x3ffec18; 0x3ffed1c; 0x3800f8e; 0x3800784; 0x0; 0x0;
   0x0; 0x0; 0x202000; 0x0; 0x0; 0x0; 0x1c0; 0x601c0;
   0x30640c0; 0x38e6ff8; 0x19c6ff8; 0x19cec38; 0x198ccf8; 0x188ccf8; 0x1c1cdf8; 0xc1cdb8;
   0xc1cdb8; 0xe18c38; 0x638ffc; 0x630ffe; 0x770c58; 0x3e0cf8; 0x1e0dd8; 0x1e0d98;
   0x1e0d98; 0x3f0c18; 0x778c18; 0xe3cc18; 0x3c1fd1c; 0x3807f8e; 0x300378c; 0x0;
   0x0; 0x0; 0x0; 0x202000; 0x0; 0x0; 0x0; 0x1c0;
   0xc0; 0x3fff0c0; 0x3fff7f8; 0x38c77f8; 0x38c3618; 0x38c7658; 0x38c36d8; 0x38c76d8;
   0x38c3698; 0x38c7698; 0x38c3618; 0x3fff7fc; 0x3fff7fe; 0x3d57618; 0x38036d8; 0x76d8;
   0x3698; 0x1007798; 0x3003618; 0x700761c; 0x300360c; 0x3fff60c; 0x1ffe7ce; 0x5543c4;
   0x0; 0x0; 0x0; 0x0; 0x202000; 0x0; 0x0; 0x0;
   0x10001c0; 0x3fe0180; 0x1ffc1c0; 0x3cff8; 0xcff8; 0xcc38; 0xccf8; 0xccf8;
   0x3ffcdf8; 0x3ffcdb8; 0x183cdb8; 0x182cc38; 0x1c6cffc; 0xc6cffc; 0xc6cc78; 0xecccf8;
   0x7ccdf8; 0x78edb8; 0x78ed98; 0x386c18; 0x7c6c18; 0xee6c18; 0x1c77d1c; 0x383bf8c;
   0x101b70c; 0x0; 0x0; 0x0; 0x0; 0x202000; 0x0; 0x0;
   0x0; 0x701c0; 0x600c0; 0xe00c0; 0xc0ff8; 0x3fffff8; 0x3fffc38; 0x3fffcf8;
   0xcf8; 0xdf8; 0x7f8db8; 0x7fcdb8; 0x618c38; 0x61cffe; 0x618ffe; 0x61cc58;
   0x618cf8; 0x61cdd8; 0x608d98; 0x61cd98; 0x260cc18; 0x660cc18; 0x660ec18; 0x7607c1c;
   0x3e07f8c; 0x1c0378c; 0x0; 0x0; 0x0; 0x0; 0x202000; 0x0;
   0x0; 0x0; 0xe01c0; 0xc01c0; 0x1c00c0; 0x1c0ff8; 0x15d5ff8; 0x3fffc38;
   0x3fffcf8; 0x30cf8; 0x30df8; 0x30db8; 0x1570db8; 0x1ff0c38; 0x1ff0ffe; 0x1838ffe;
   0x1838c18; 0x1838cf8; 0x1c18dd8; 0x1818d98; 0x1c1cd98; 0x1c0cc18; 0x1c0cc18; 0xc0ec18;
   0xfc7d1c; 0xfc3f8e; 0x7c3784; 0x0; 0x0; 0x0; 0x0; 0x202000;
   0x0; 0x0; 0x0; 0x380; 0x7f8180; 0x7f95d0; 0x619ff0; 0x619ff0;
   0x619830; 0x619cf0; 0xe199b0; 0x7e1ddb0; 0x3c0fb30; 0x5d30; 0xaa9ab8; 0x1ffdffc;
   0x1ab9ffc; 0x1c1dc30; 0xc398b8; 0xe31db8; 0x671bb8; 0x771f18; 0x3e1818; 0x3c1c18;
   0xfe1818; 0x3f7dd1c; 0x3c1ef8c; 0x100470c; 0x0; 0x0; 0x0; 0x0;
   0x202000; 0x0; 0x0; 0x0; 0x1870c0; 0x1860c0; 0x187060; 0x1867f8;
   0x1877f8; 0x186618; 0x1187658; 0x39866d8; 0x1d976d8; 0xfbe698; 0x7ff798; 0x386618;
   0x1877fc; 0x1867fc; 0x187618; 0x186678; 0x1876d8; 0x186698; 0x1187798; 0x3186698;
   0x71f761c; 0x31be60c; 0x3f9f60c; 0x3f837ce; 0x13c4; 0x0; 0x0; 0x0;
   0x0; 0x202000; 0x0; 0x0; 0x0; 0xc01c0; 0xc00c0; 0xc00c0;
   0xc0ff8; 0xc0ff8; 0xc0e18; 0x3ffee58; 0x3ffeed8; 0x30c6fd8; 0x30c6f98; 0x30c6f98].
Definition hanzi_data_360 : list N :=
  [0x30c6e18; 0x30c6ffe; 0x30c6ffe; 0x3ffee58; 0x3ffeed8; 0x30c6fd8; 0x30c6f98; 0xc0f98;
   0xc0e18; 0xc0e1c; 0xc0e0c; 0xc0f4c; 0xc078e; 0xc0784; 0x0; 0x0;
   0x0; 0x0; 0x202000; 0x0; 0x0; 0x0; 0x1c0; 0x1ffe1c0;
   0x1ffe0c0; 0x1aaeff8; 0x1c0eff8; 0x188ec38; 0x1ccecf8; 0x18cecf8; 0x1ccedf8; 0x18cedb8;
   0x1ccedb8; 0x18cec38; 0x1cceffc; 0x18ceffc; 0x1ccec78; 0x9eacf8; 0x1e0df8; 0x1e0db8;
   0x71f0d98; 0x31b0c18; 0x71b8c18; 0x319cc18; 0x3f8fd1c; 0x3f87f8c; 0x278c; 0x0;
   0x0; 0x0; 0x0; 0x202000; 0x0; 0x0; 0x0; 0x1c01c0;
   0xc00c0; 0x1e00c0; 0x3e0ff8; 0x370ff8; 0x638c38; 0xe38cf8; 0xc1ccf8; 0x3c0edf8;
   0x7aafdb8; 0x3fffdb8; 0xeb8c38; 0xc1cffe; 0xc18ffe; 0xc1ccd8; 0xe18cf8; 0x7fcdd8;
   0x7d8d98; 0x101cd18; 0x3018c18; 0x301cc18; 0x3018c18; 0x3ff8d1c; 0x1ff8f8e; 0x540784;
   0x0; 0x0; 0x0; 0x0; 0x202000; 0x0; 0x0; 0x0;
   0xc01c0; 0xc0180; 0xc01c0; 0x1e00c0; 0x1f0ff8; 0x338ff8; 0x718c98; 0xe0ccd8;
   0x1c6edd8; 0x78e7d98; 0x71c3d98; 0x2180c18; 0xffe; 0x1ffeffe; 0x1ffec18; 0xc00cd8;
   0x600dd8; 0x700d98; 0x338d98; 0x3f0c18; 0x1e0c18; 0x1c0c08; 0x380c0c; 0x300f8e;
   0x100784; 0x0; 0x0; 0x0; 0x0; 0x202000; 0x0; 0x0;
   0x0; 0x1c01c0; 0xc00c0; 0x1c00c0; 0xc0ff8; 0x1c0ff8; 0xc0c38; 0x3ffecf8;
   0x3ffecf8; 0x39c6df8; 0x38c6db8; 0x39c6db8; 0x38c6c38; 0x39c6ffc; 0x3ffeffc; 0x3ffec58;
   0x3aeecf8; 0x39c6dd8; 0x38c6d98; 0x39c6d98; 0x38c6c18; 0x39c6c18; 0x3ffec18; 0x3ffed1c;
   0x3aaef8c; 0x380678c; 0x0; 0x0; 0x0; 0x0; 0x202000; 0x0;
   0x0; 0x0; 0x701c0; 0x30180; 0x301c0; 0x38ff8; 0x7ff9ff8; 0x3ff8c38;
   0x7ffdcf8; 0xcccb8; 0xcfdb8; 0xc7db8; 0x15c7d38; 0x3fc0c38; 0x3fc1ffe; 0xc0ffe;
   0xc1cb8; 0xc0cf8; 0x15c1db8; 0x3fc0fb8; 0x3fc1f18; 0xc0c18; 0xc1c18; 0xc0c18;
   0xc1c1c; 0xc0f8c; 0xc0f0c; 0x0; 0x0; 0x0; 0x0; 0x202000;
   0x0; 0x0; 0x0; 0xc01c0; 0xc00c0; 0x1c00c0; 0x180ff8; 0x3fffff8;
   0x3ffec18; 0x3007cd8; 0x3006cd8; 0x301fdd8; 0x18d98; 0x18d98; 0x1818c18; 0x1e18ffe;
   0xf98ffe; 0x3f8c58; 0xf8cd8; 0x38dd8; 0x18d98; 0x1018d98; 0x2018c18; 0x7018c1c;
   0x3018c0c; 0x3ff8d0c; 0x3ff8f8e; 0x1ff0784; 0x0; 0x0; 0x0; 0x0;
   0x202000; 0x0; 0x0; 0x0; 0x1c0180; 0xc0180; 0xc05d0; 0xe0ff0;
   0xe0ff0; 0x1ffec30; 0x1ffecf0; 0x180ecb0; 0x180edb0; 0x180edb0; 0x180ec30; 0x180eeb8;
   0x180effc; 0x1ffeffc; 0x1ffec30; 0x180ecf8; 0x180edb8; 0x180edb8; 0x180ed18; 0x180ec18;
   0x180ec18; 0x1ffec18; 0x1ffec1c; 0x1aaef8c; 0x180e78c; 0x0; 0x0; 0x0;
   0x0; 0x202000; 0x0; 0x0; 0x0; 0x401c0; 0xe00c0; 0x1c00c0;
   0x180ff8; 0x7fffff8; 0x3fffe18; 0x7fffe58; 0x60ed8; 0x70fd8; 0xc30f98; 0xe38f98;
   0xe18e18; 0x7dcffc; 0x3feffc; 0x1fee18; 0x1c0ed8; 0xe0ed8; 0x660f98; 0xe70f98;
   0xc38e18; 0x1c1ce18; 0x3ffee08; 0x3ffff4c; 0x300e78e; 0x1000784; 0x0; 0x0;
   0x0; 0x0; 0x202000; 0x0; 0x0; 0x0; 0x1c0; 0xc0;
   0x7fff0c0; 0x3ffeff8; 0x1c00ff8; 0x1800c18; 0x1c00cd8; 0x19fccd8; 0x1dfcdd8; 0x198cd98;
   0x1d8cc18; 0x198ceba; 0x1d8cffe; 0x198ceba; 0x1d8cc58; 0x19accd8; 0x1dfcdd8; 0x18acd98;
   0x1c0cd98; 0x1800c18; 0x1c00c1c; 0x1800c0c; 0x1d40c0c; 0x1fc0f8e; 0xfc0784; 0x0;
   0x0; 0x0; 0x0; 0x202000; 0x0; 0x0; 0x0; 0x180;
   0xaa0180; 0xff01c0; 0xff0ff8; 0xe31ff8; 0xe30c38; 0xe31cf8; 0xe38cb8; 0xe19db8;
   0xe18fb8; 0x3e1dd38; 0x3c0ec38; 0x5ffc; 0x1ff8ffc; 0x1ffdc98; 0x1ab8cb8; 0x1c1dd98;
   0x1818f98; 0x1c1df18; 0x1818c18; 0x1c1dc18; 0x1ab8c18; 0x1ffdd1c; 0x1ff8f0c; 0x1c1c704;
   0x0; 0x0; 0x0; 0x0; 0x202000; 0x0; 0x0; 0x0;
   0xc01c0; 0xc00c0; 0x3fc00c0; 0x3fc0ff8; 0x15c0ff8; 0xc0c38; 0xc0cf8; 0x1ffecf8;
   0x1ffedf8; 0x180edb8; 0x180edb8; 0x180ec38; 0x180effe; 0x1ffeffe; 0x1ffecd8; 0x1aaecf8;
   0x180edd8; 0xed98; 0x6f18; 0x6c18; 0x6c18; 0x6c18; 0x7d1c; 0x3f8e;
   0x3784; 0x0; 0x0; 0x0; 0x0; 0x202000; 0x0; 0x0;
   0x0; 0x1c0; 0xc0; 0x3fff0c0; 0x3fff7f8; 0x3307f8; 0x330618; 0x330658;
   0x2bba6d8; 0x3fff6d8; 0x3fff698; 0x3b33698; 0x3b33618; 0x3b337fe; 0x3b337fe; 0x3b33658;
   0x3b1b6f8; 0x3f1b6d8; 0x3f0f698; 0x380f798; 0x3803618; 0x380361c; 0x3fff60c; 0x3fff60c;
   0x38037ce; 0x38033c4; 0x0; 0x0; 0x0; 0x0; 0x202000; 0x0;
   0x0; 0x0; 0x1c01c0; 0xc00c0; 0x31c60c0; 0x18ceff8; 0x1dccff8; 0xcd8c18;
   0xfd8cd8; 0xc8cd8; 0x1ffedd8; 0x1ffed98; 0x1806d98; 0x1806c18; 0x1d56ffe; 0x1ffeffc;
   0x1ffec58; 0x1806cd8; 0x1806dd8; 0x1ffed98; 0x1ffed98; 0x1806c18; 0x1806c1c; 0x1806c0c;
   0x1d06d1c; 0x1f06f8e; 0xf06784; 0x0; 0x0; 0x0; 0x0; 0x202000;
   0x0; 0x0; 0x0; 0x1c01c0; 0xc00c0; 0x1e00c0; 0x1f07f8; 0x7387f8;
   0x618618; 0x1e1e658; 0x3c0f6d8; 0x7fffed8; 0x2ffd698; 0xc0698; 0xc0618; 0xc07fc;
   0x3fff7fc; 0x3fff618; 0xc06d8; 0xccc6d8; 0xcce698; 0x1cc6798; 0x38c6618; 0x30c361c;
   0x30c3e0c; 0x10c160c; 0xf878e; 0x70384; 0x0; 0x0; 0x0; 0x0;
   0x202000; 0x0; 0x0; 0x0; 0x10001c0; 0x1e0a8c0; 0x1fff8e0; 0x3eeff8;
   0x70c7f8; 0x20c618; 0x706658; 0x206678; 0x7076d8; 0x3fffe98; 0x3fffe98; 0x218618;
   0x7187fe; 0x2197fe; 0x71d618; 0x20f678; 0x70f6d8; 0x20e6d8; 0x3fee6d8; 0x3fee618;
   0x1e61c; 0x3b60c; 0x7ff3e0c; 0x3fe1fce; 0x15009c4; 0x0; 0x0; 0x0].
Definition hanzi_data_361 : list N :=
  [0x0; 0x202000; 0x0; 0x0; 0x0; 0x1c0; 0x3ffe0c0; 0x3ffe0c0;
   0x3806ff8; 0x3806ff8; 0x3806e18; 0x3ffee58; 0x3ffeed8; 0x406fd8; 0xf86f98; 0x7fef98;
   0x1fee18; 0x11c6ffe; 0x1f86ffe; 0x17fee58; 0x1beed8; 0x31c6fd8; 0x3f86f98; 0x1ffff98;
   0x1bae18; 0x71c7e1c; 0x2183e0c; 0x3fc3f4c; 0x3f83f8e; 0x1501784; 0x0; 0x0;
   0x0; 0x0; 0x202000; 0x0; 0x0; 0x0; 0xc0; 0xffe0c0;
   0xffe060; 0x7007f8; 0x3c07f8; 0x1c0618; 0xc0658; 0x3fffed8; 0x3fffed8; 0xc0698;
   0xc0698; 0xc0618; 0xfc7fc; 0xf87fc; 0x618; 0x1ffe678; 0x1fff6d8; 0x1932698;
   0x1937798; 0x1932698; 0x193761c; 0x193260c; 0x7fffe0c; 0x3ffffce; 0x3c4; 0x0;
   0x0; 0x0; 0x0; 0x202000; 0x0; 0x0; 0x0; 0xe01c0;
   0xe00c0; 0x600c0; 0x1ffe7f8; 0x1fff7f8; 0x1806618; 0x1fff658; 0x1ffe6d8; 0x18076d8;
   0x1806698; 0x1fff698; 0x1ffe618; 0x7fc; 0x2aaa7fe; 0x3fff618; 0x2aea6d8; 0xc06d8;
   0xc0698; 0x1ffe798; 0x1ffe618; 0xc061c; 0xc060c; 0x7fffe0c; 0x3ffff8e; 0x384;
   0x0; 0x0; 0x0; 0x0; 0x202000; 0x0; 0x0; 0x0;
   0xc1c1c0; 0xc180c0; 0x6380c0; 0x630ff8; 0x7fffff8; 0x3fffe18; 0xc0e58; 0xe0ed8;
   0x1574fd8; 0x1ffef98; 0x1ffef98; 0x180ee18; 0x180effe; 0x1ffeffe; 0x1ffee58; 0x180eed8;
   0x180efd8; 0x1ffef98; 0x1ffef98; 0x180ee18; 0x180ee1c; 0x180ee0c; 0x1ffef4c; 0x1aae78e;
   0x180e784; 0x0; 0x0; 0x0; 0x0; 0x202000; 0x0; 0x0;
   0x0; 0xc01c0; 0xd80c0; 0x1ffe0c0; 0x1fcf7f8; 0x18c37f8; 0x18c3618; 0x1fdf658;
   0x1edf6d8; 0x18c36d8; 0x18c3698; 0x1fff698; 0x1fff618; 0x15d57fc; 0xc07fe; 0xc0618;
   0x3fff6d8; 0x1fff6d8; 0xc0e698; 0xe1c798; 0x7b8618; 0x3f061c; 0x3f0608; 0x1ffe60c;
   0x3e0ffce; 0x30073c4; 0x0; 0x0; 0x0; 0x0; 0x202000; 0x0;
   0x0; 0x0; 0x3300c0; 0x3300c0; 0x7fff860; 0x3fffff8; 0x3307f8; 0x330618;
   0x3fff658; 0x33336d8; 0x33336d8; 0x3fff698; 0x3fff698; 0x3333618; 0x37777fc; 0x3fff7fc;
   0x1555618; 0xaaa678; 0x1fff6d8; 0x1aae698; 0x1807798; 0x1ffe698; 0x1fff61c; 0x180660c;
   0x1fff60c; 0x1ffe7ce; 0x18073c4; 0x0; 0x0; 0x0; 0x0; 0x202000;
   0x0; 0x0; 0x0; 0x601c0; 0xe00c0; 0x15d50e0; 0x3fff7f8; 0x155d7f8;
   0xe18618; 0x718658; 0x3fffed8; 0x7fffed8; 0x698; 0x1fff698; 0x1ffe618; 0x18c77fe;
   0x1ffe7fe; 0x1fff618; 0x18c6678; 0x1fff6d8; 0x1ffe6d8; 0xc0798; 0x3fff618; 0x3fff61c;
   0xc060c; 0x7fffe0c; 0x3ffffce; 0x3c4; 0x0; 0x0; 0x0; 0x0;
   0x202000; 0x0; 0x0; 0x0; 0x7180c0; 0x2180c0; 0x3fff860; 0x3fffbf8;
   0x7187f8; 0x218218; 0x3ffff58; 0x3fffa78; 0x3001fd8; 0x37fdad8; 0x7fc758; 0x218;
   0x3fffffc; 0x3fffbfc; 0x1078718; 0x3c3e278; 0xf77f58; 0x7f8ad8; 0x7df7d8; 0xee3a98;
   0x1df9f1c; 0x188e20c; 0x79c7f0c; 0x30f9bce; 0x781c4; 0x0; 0x0; 0x0;
   0x0; 0x202000; 0x0; 0x0; 0x0; 0x0; 0x3fffe0; 0x7fffe0;
   0x3aaae0; 0x7000e0; 0x3000e0; 0x7fffe0; 0x3fffe0; 0x7555e0; 0x3000e0; 0x7000e0;
   0x3aaae0; 0x7fffe0; 0x3fffe0; 0xc070e0; 0xe070e0; 0x78e0e0; 0x1fc0e0; 0xfc0e0;
   0xf80e0; 0x1f30e0; 0x7c3ee0; 0x7f03fe0; 0x3e003f0; 0x1000060; 0x0; 0x0;
   0x0; 0x0; 0x202000; 0x0; 0x0; 0x0; 0x7000; 0x6000;
   0x55f540; 0x7fffe0; 0x7fffe0; 0x6000e0; 0x7000e0; 0x6aaae0; 0x7fffe0; 0x6aaae0;
   0x7000e0; 0x6000e0; 0x7fffe0; 0x7fffe0; 0x557de0; 0xe030e0; 0xf070e0; 0x78e0e0;
   0x1fc0e0; 0xf80e0; 0x1f30e0; 0x3e3ee0; 0x1f83ff0; 0x3e003f0; 0x1000070; 0x0;
   0x0; 0x0; 0x0; 0x202000; 0x0; 0x0; 0x0; 0x0;
   0x1ffe000; 0x1fff000; 0x1c06ffc; 0x1c07ffc; 0x1c06e00; 0x1fff600; 0x1ffe608; 0x1c0771c;
   0x1c06338; 0x1c07370; 0x1ffe3e0; 0x1fff3e0; 0x661c0; 0x10e71c0; 0x38c63c0; 0x1fc73e0;
   0xf86360; 0x387770; 0x386e38; 0x70741c; 0xef601e; 0x3cff00c; 0x381f000; 0x3003000;
   0x0; 0x0; 0x0; 0x0; 0x202000; 0x0; 0x0; 0x0;
   0xc00; 0xe00; 0x7ff00; 0xfff80; 0x757c0; 0x381c0; 0x1c0f0; 0xaaeaf8;
   0xfffffc; 0xfffffc; 0xe0606c; 0xe06060; 0xe06060; 0xe06060; 0xffffe0; 0xffffe0;
   0xe00060; 0x800060; 0x1000060; 0x3000060; 0x7000060; 0x3800060; 0x3ffffe0; 0x1ffffc0;
   0x555500; 0x0; 0x0; 0x0; 0x0; 0x202000; 0x0; 0x0;
   0x0; 0x301c0; 0x380c0; 0x5581c0; 0xffc0c0; 0x7fcffc; 0x70effc; 0x3075d4;
   0xbab8c0; 0x1fff1c0; 0x1ffe0c0; 0x18c6ffc; 0x18c6ff8; 0x18c61c0; 0x18c60c0; 0x1ffe1c0;
   0x1ffe0c0; 0x7ffc; 0x6ffc; 0x61c0; 0x20060c0; 0x70061c0; 0x30060c0; 0x3ffe1c0;
   0x3ffe0c0; 0x15501c0; 0x0; 0x0; 0x0; 0x0; 0x202000; 0x0;
   0x0; 0x0; 0xc0660; 0xe0660; 0x60660; 0xfe2ee8; 0xff3ffc; 0x633ee8;
   0x73b660; 0x31b660; 0x1fffffc; 0x1fffff8; 0x199977c; 0x199866c; 0x199866c; 0x199aeec;
   0x1ddfffc; 0x1ffaee8; 0x1ffb660; 0x1b660; 0x1b660; 0x201b630; 0x701be30; 0x3018e38;
   0x357861c; 0x3ff060c; 0x1ff060c; 0x0; 0x0; 0x0; 0x0; 0x202000;
   0x0; 0x0; 0x0; 0x0; 0xa0200; 0xe0700; 0xe0300; 0xe0700;
   0x3fffffc; 0x3fffffc; 0x2aeaba8; 0xe0700; 0xe0300; 0xe0700; 0xa0200; 0x0;
   0x0; 0x0; 0x0; 0x0; 0x0; 0x0; 0x0; 0x0;
   0x0; 0x0; 0x0; 0x0; 0x0; 0x0; 0x0; 0x0;
   0x202000; 0x0; 0x0; 0x0; 0xe0700; 0xe0300; 0xe0700; 0x3fffffc;
   0x3fffffc; 0xe0300; 0xe0700; 0xe0300; 0x0; 0x1fffe0; 0x3ffff0; 0xfaaa0].
Definition hanzi_data_362 : list N :=
  [0x7c000; 0x1e000; 0x7800; 0x3c00; 0x1f00; 0x780; 0x18001c0; 0x38000e0;
   0x1800060; 0x18000e0; 0x1ffffe0; 0xffffc0; 0x0; 0x0; 0x0; 0x0;
   0x0; 0x202000; 0x0; 0x0; 0x0; 0xe0700; 0xe0700; 0x15f5754;
   0x3fffffc; 0x3fffffc; 0xe0700; 0xe0700; 0xe1f00; 0x1c00; 0x1800; 0x1c00;
   0xffff0; 0x1ffff0; 0xc0c00; 0x1c1c00; 0xc0c00; 0x1c0e00; 0xc0e00; 0x11c0700;
   0x30c0380; 0x31c03c0; 0x30c01e0; 0x3fc00f8; 0x3fc003c; 0x1f00018; 0x0; 0x0;
   0x0; 0x0; 0x202000; 0x0; 0x0; 0x0; 0xe0700; 0xe0300;
   0xe0700; 0x3fffffc; 0x3fffffc; 0xe0300; 0xe0700; 0xe0300; 0xe0700; 0x380080;
   0x3801c0; 0x180180; 0x1c0380; 0xc0300; 0xe0700; 0x70e00; 0x79c00; 0x3f800;
   0x1f800; 0xf800; 0x7fe00; 0x1f8f80; 0x1fe07fc; 0x3f800fc; 0x1c0001c; 0x0;
   0x0; 0x0; 0x0; 0x202000; 0x0; 0x0; 0x0; 0xe0700;
   0xe0300; 0x15f5754; 0x3fffffc; 0x3fffffc; 0xe0300; 0xe0700; 0x0; 0xffff8;
   0xffff8; 0x75f50; 0x60e00; 0x60600; 0x1fe0600; 0x1ff0700; 0x1800700; 0x1c00700;
   0x1c00380; 0x1c00380; 0xc001c0; 0xc001e0; 0xe000f0; 0xf5007c; 0x7e001c; 0x3f0004;
   0x0; 0x0; 0x0; 0x0; 0x202000; 0x0; 0x0; 0x0;
   0xe0700; 0xe0300; 0xe0700; 0x3fffffc; 0x3fffffc; 0xe0300; 0xe0700; 0xe0300;
   0x40500; 0xaaaaa8; 0xfffff8; 0xfffff8; 0xe01c00; 0xe00c00; 0xe01c00; 0xe00c00;
   0xe01c00; 0xe00c00; 0xe01c00; 0xff0c00; 0x7f1c00; 0xc00; 0x1c00; 0xc00;
   0x1c00; 0x0; 0x0; 0x0; 0x0; 0x202000; 0x0; 0x0;
   0x0; 0x60700; 0x60600; 0x3fffffc; 0x3fffffc; 0x3fffffc; 0x60600; 0x60700;
   0x0; 0x1fff80; 0xfff80; 0x1c0180; 0xc0180; 0x1c1d80; 0xc3d80; 0x1c7980;
   0xcf180; 0x1de1c0; 0xdc0c0; 0x31c81c0; 0x30c00e0; 0x71c0070; 0x30c0070; 0x3fc003c;
   0x3f8001e; 0x150000c; 0x0; 0x0; 0x0; 0x0; 0x202000; 0x0;
   0x0; 0x0; 0xe0700; 0xe0300; 0x15f5754; 0x3fffffc; 0x3fffffc; 0xe0300;
   0xe7700; 0x3000; 0x3000; 0x2abaa0; 0x3ffff0; 0x3ffff0; 0x383800; 0x383820;
   0x3819f0; 0x381be0; 0x381f80; 0x383e00; 0x138fe00; 0x339e700; 0x739c780; 0x33801e0;
   0x3f800fc; 0x3f0003c; 0x1f0001c; 0x0; 0x0; 0x0; 0x0; 0x202000;
   0x0; 0x0; 0x0; 0x6000; 0xc6300; 0xc6300; 0xc6300; 0xc6300;
   0x3fc63fc; 0x3fc63fc; 0xc6300; 0xc6300; 0xc6300; 0xc6300; 0xc6300; 0xfffff0;
   0xfffff0; 0x6000; 0x6000; 0x6000; 0x6000; 0x3fffffc; 0x3fffffc; 0x6000;
   0x6000; 0x6000; 0x6000; 0x6000; 0x0; 0x0; 0x0; 0x0;
   0x202000; 0x0; 0x0; 0x0; 0xe0700; 0xe0300; 0x15f5754; 0x3fffffc;
   0x3fffffc; 0xe0300; 0xe0700; 0x7e0200; 0x7fff40; 0x3fff0; 0x65f0; 0x6000;
   0x6000; 0x6000; 0x3fffffc; 0x3fffffc; 0x6000; 0x6000; 0x6000; 0x6000;
   0x6000; 0x6000; 0x6000; 0x6000; 0x6000; 0x0; 0x0; 0x0;
   0x0; 0x202000; 0x0; 0x0; 0x0; 0xe0700; 0xe0300; 0xe0700;
   0x3fffffc; 0x3fffffc; 0xe0300; 0xe0700; 0xe0300; 0xfffff0; 0xfffff0; 0x6000;
   0x6000; 0x6000; 0x6000; 0x3fffffc; 0x3fffffc; 0x1557554; 0x6000; 0x6000;
   0x6000; 0x6000; 0x6000; 0x7500; 0x7f00; 0x3f00; 0x0; 0x0;
   0x0; 0x0; 0x202000; 0x0; 0x0; 0x0; 0xe0700; 0xe0300;
   0x15f5754; 0x3fffffc; 0x3fffffc; 0xe0300; 0xe0700; 0x380; 0x180; 0x1ffffc0;
   0x1ffffc0; 0x1c000e0; 0x1c00070; 0xc00238; 0x1c0073c; 0xc00e18; 0xc01c00; 0xc03800;
   0xc07000; 0xe07000; 0xe00000; 0x600000; 0x75c000; 0x3f8000; 0x1fc000; 0x0;
   0x0; 0x0; 0x0; 0x202000; 0x0; 0x0; 0x0; 0xe0700;
   0xe0300; 0x3fffffc; 0x3fffffc; 0x15f5754; 0xe0300; 0xe0700; 0x7ffff0; 0x7ffff0;
   0x600000; 0x600000; 0x600000; 0x7fffe0; 0x7fffe0; 0x60; 0x60; 0x1fffff0;
   0x1fffff0; 0x1fffff0; 0xc00000; 0xe00000; 0xe00000; 0x700000; 0x7fc000; 0x3fc000;
   0x0; 0x0; 0x0; 0x0; 0x202000; 0x0; 0x0; 0x0;
   0xe0700; 0xe0300; 0xe0700; 0x3fffffc; 0x3fffffc; 0x2aeaba8; 0xe0700; 0xe0300;
   0xe6700; 0x6000; 0x6000; 0x6000; 0x6000; 0xffffe0; 0xfffff0; 0x6000;
   0x6000; 0x6000; 0x6000; 0x6000; 0x6000; 0x6000; 0x3fffffc; 0x3fffffc;
   0x0; 0x0; 0x0; 0x0; 0x0; 0x202000; 0x0; 0x0;
   0x0; 0xe0700; 0xe0300; 0x3fffffc; 0x3fffffc; 0x3fffffc; 0xe0300; 0xe0700;
   0x0; 0x7ffff0; 0x7ffff0; 0x700000; 0x700000; 0x700000; 0x700000; 0x7ffff0;
   0x7ffff0; 0x70; 0x70; 0x70; 0x3000070; 0x3000070; 0x3800070; 0x1fffff0;
   0x1ffffe0; 0x7fff00; 0x0; 0x0; 0x0; 0x0; 0x202000; 0x0;
   0x0; 0x0; 0xc0300; 0xc0300; 0x15d5754; 0x3fffffc; 0x3fffffc; 0xc0300;
   0xc1300; 0xc3b00; 0x7000; 0xe000; 0x1c000; 0x1fffff8; 0x1fffff8; 0xaaaae8;
   0xc0; 0xc0; 0xc0; 0xc0; 0xc0; 0xc0; 0xc0; 0xffffc0;
   0xffffc0; 0x0; 0x0; 0x0; 0x0; 0x0; 0x0; 0x202000;
   0x0; 0x0; 0x0; 0xe0700; 0xe0300; 0x15f5754; 0x3fffffc; 0x3fffffc;
   0xe0300; 0xe3f00; 0x3800; 0x41e00; 0xe0700; 0x7c3c0; 0x23ffe0; 0xe1ffe0;
   0x707800; 0x701e00; 0x3a0f80; 0x1ffff0; 0xeffe0; 0x78060; 0x3e000; 0x1fc00;
   0x3f00; 0x1ffc; 0x1f8; 0x18; 0x0; 0x0; 0x0; 0x0].
Definition hanzi_data_363 : list N :=
  [0x202000; 0x0; 0x0; 0x0; 0xe0700; 0xe0300; 0x15f5754; 0x3fffffc;
   0x3fffffc; 0xe0300; 0xe0700; 0x8020; 0x1c070; 0x18070; 0x181c070; 0x3e18070;
   0x1f1fff0; 0x3dbff0; 0x1fd570; 0x38070; 0x1c070; 0x18070; 0x101c070; 0x3018070;
   0x301f070; 0x301bff0; 0x3ff9ff0; 0x1ff81f0; 0x540010; 0x0; 0x0; 0x0;
   0x0; 0x202000; 0x0; 0x0; 0x0; 0xe0700; 0xe0300; 0x3fffffc;
   0x3fffffc; 0x3fffffc; 0xe0300; 0xe6700; 0x86200; 0x6000; 0xfffff0; 0xfffff0;
   0x6000; 0x6000; 0x6000; 0x3fffffc; 0x3fffffc; 0x155f554; 0xf800; 0x1fc00;
   0x39e00; 0xf0f00; 0x3e07c0; 0x1fc01f0; 0x3e000fc; 0x3c0001c; 0x0; 0x0;
   0x0; 0x0; 0x202000; 0x0; 0x0; 0x0; 0xe0700; 0xe0300;
   0x3fffffc; 0x3fffffc; 0x3fffffc; 0xe0300; 0xe0700; 0x0; 0xfffff0; 0xfffff0;
   0x6000; 0x6000; 0x7000; 0x3fffffc; 0x3fffffc; 0x2aafaa8; 0x1f000; 0xf800;
   0x1dc00; 0xdc00; 0x301cf00; 0x300c780; 0x3ffc1f0; 0x3ff80fc; 0x55001c; 0x0;
   0x0; 0x0; 0x0; 0x202000; 0x0; 0x0; 0x0; 0xc0700;
   0xc0300; 0x15d5754; 0x3fffffc; 0x3fffffc; 0xc0300; 0xc7700; 0xc7300; 0xe000;
   0xe000; 0x7ffff0; 0x7ffff0; 0x380000; 0x1c0000; 0xf0000; 0x78000; 0x3c000;
   0xf000; 0x7c00; 0x1e80; 0xff0; 0xff8; 0x3fffe3c; 0x3fff80c; 0x154008;
   0x0; 0x0; 0x0; 0x0; 0x202000; 0x0; 0x0; 0x0;
   0xe0700; 0xe0300; 0x3fffffc; 0x3fffffc; 0xe0700; 0xe0300; 0x155500; 0xfff00;
   0x1fff00; 0xc0380; 0x1c0380; 0xc01c0; 0x1fc01f0; 0x1f80078; 0x3ffff0; 0x3fffe0;
   0x3d55c0; 0x1c0380; 0x1f0700; 0x79e00; 0x3fc00; 0x3fe00; 0x1fffff4; 0x3fe03fc;
   0x1f0007c; 0x0; 0x0; 0x0; 0x0; 0x202000; 0x0; 0x0;
   0x0; 0xe0700; 0xe0300; 0xe0700; 0x3fffffc; 0x3fffffc; 0xe0300; 0xe0700;
   0xa7200; 0x7000; 0x2aaeaa8; 0x3fffffc; 0x2baaba8; 0x1c0380; 0xc0380; 0xe0700;
   0x60e00; 0x71c00; 0x3b800; 0x1f800; 0x1f800; 0x7fe00; 0x3f8f80; 0x1fe07fc;
   0x3f800fc; 0x1c0001c; 0x0; 0x0; 0x0; 0x0; 0x202000; 0x0;
   0x0; 0x0; 0xe0700; 0xe0300; 0x3fffffc; 0x3fffff8; 0x3fffffc; 0xe0300;
   0xe0700; 0x600; 0x555700; 0x1ffff80; 0x1ffffc0; 0xe021c0; 0x7060e0; 0x706078;
   0x386038; 0xe010; 0xf000; 0x1f000; 0x3b800; 0x71c00; 0xf1f00; 0x3c0f80;
   0x1f803f0; 0x3e000f8; 0x1c00038; 0x0; 0x0; 0x0; 0x0; 0x202000;
   0x0; 0x0; 0x0; 0xe0700; 0xe0300; 0x15f5754; 0x3fffffc; 0x3fffffc;
   0xe0300; 0xe0700; 0xa0200; 0x3fffffc; 0x3fffffc; 0x1c000; 0xe000; 0x67000;
   0xf7c00; 0x3e7f00; 0x786780; 0x1f063f0; 0x3c060f8; 0x380607c; 0x6008; 0x6000;
   0x6000; 0x6000; 0x6000; 0x6000; 0x0; 0x0; 0x0; 0x0;
   0x202000; 0x0; 0x0; 0x0; 0xe0700; 0xe0300; 0x3fffffc; 0x3fffffc;
   0x15f5754; 0xe0300; 0xe0700; 0x20000; 0x67ff8; 0x67ff8; 0x63c00; 0x60e00;
   0x60700; 0x60300; 0x6f700; 0x6ff80; 0x67ffc; 0x603fc; 0x1060704; 0x2060300;
   0x7060700; 0x3060300; 0x3fe0750; 0x3fe03e0; 0x1fc01e0; 0x0; 0x0; 0x0;
   0x0; 0x202000; 0x0; 0x0; 0x0; 0xc0300; 0xc0300; 0x15d5754;
   0x3fffffc; 0x3fffffc; 0xc0300; 0xce300; 0x8f200; 0x1fc00; 0x79e00; 0x1f0780;
   0xfc03e0; 0x7f000fe; 0x3ce073c; 0x10e0704; 0xe0700; 0xe0700; 0xe0300; 0xe0700;
   0xe0380; 0xe03c0; 0xe01e0; 0xe00f0; 0xe0078; 0xe0010; 0x0; 0x0;
   0x0; 0x0; 0x202000; 0x0; 0x0; 0x0; 0xe0700; 0xe0300;
   0x3fffffc; 0x3fffffc; 0x15f5754; 0xe7300; 0x46700; 0xaaeaa0; 0xffffe0; 0xeaaae0;
   0xe00060; 0xe00060; 0xe00060; 0xffffe0; 0xffffe0; 0xeaaae0; 0xe00060; 0x60;
   0x70; 0x30; 0x30; 0x38; 0x1c; 0xc; 0xc; 0x0;
   0x0; 0x0; 0x0; 0x202000; 0x0; 0x0; 0x0; 0xe0700;
   0xe0300; 0x3fffffc; 0x3fffffc; 0x15f5754; 0xe0300; 0xe0700; 0xffff0; 0x7fff0;
   0x6aea0; 0x70700; 0x38700; 0x558700; 0xff8700; 0xffcf00; 0x701f80; 0x703f80;
   0x387180; 0x1df1c0; 0xfc0e0; 0x1fc0f0; 0x3fe070; 0x7fcff3c; 0x3e03f9c; 0x3000704;
   0x0; 0x0; 0x0; 0x0; 0x202000; 0x0; 0x0; 0x0;
   0xc0300; 0xc0300; 0x3fffffc; 0x3fffffc; 0x15d5754; 0xc6300; 0xcf300; 0xf800;
   0x3dc00; 0xf8f00; 0x3e17c0; 0xf839f0; 0x7f0f07e; 0x380e01c; 0xc000; 0x3fffe0;
   0x7ffff0; 0x380000; 0x1c0000; 0xe0000; 0x70000; 0x38000; 0x1c000; 0xe000;
   0xc000; 0x0; 0x0; 0x0; 0x0; 0x202000; 0x0; 0x0;
   0x0; 0xe0700; 0xe0300; 0x3fffffc; 0x3fffffc; 0x3fffffc; 0xe0300; 0xe0700;
   0x7f8000; 0x7fffe0; 0x2ffe0; 0x1c060; 0x18060; 0x1c060; 0x18060; 0x1ffffe0;
   0x1ffffe0; 0x30060; 0x30060; 0x70060; 0x10e0060; 0x30e0060; 0x31c7e60; 0x3787ff0;
   0x3f003f0; 0x1e00070; 0x0; 0x0; 0x0; 0x0; 0x202000; 0x0;
   0x0; 0x0; 0xe0700; 0xe0300; 0x3fffffc; 0x3fffffc; 0x3fffffc; 0xe0300;
   0xe0700; 0x0; 0xfffff0; 0xffffe0; 0x0; 0x0; 0x0; 0x2aaaaa8;
   0x3fffffc; 0x3fffffc; 0x30600; 0x30600; 0x30700; 0x3030300; 0x7030380; 0x30301e0;
   0x3ff00f8; 0x3ff007c; 0x1fc001c; 0x0; 0x0; 0x0; 0x0; 0x202000;
   0x0; 0x0; 0x0; 0xe0700; 0xe0300; 0x3fffffc; 0x3fffffc; 0x15f5754;
   0xe0300; 0x40500; 0x70e00; 0xe0700; 0x1c0380; 0x3c03c0; 0x7001e0; 0x1e00078].
Definition hanzi_data_364 : list N :=
  [0x3fffffe; 0x31fffdc; 0x381800; 0x181c00; 0x180c00; 0x180e00; 0x180e00; 0x1c0700;
   0x1c0380; 0x1dc1f0; 0xfc0f8; 0x7c018; 0x0; 0x0; 0x0; 0x0;
   0x202000; 0x0; 0x0; 0x0; 0xe0700; 0xe0300; 0x3fffffc; 0x3fffffc;
   0x3fffffc; 0xe0300; 0xe0700; 0x0; 0xfffff0; 0xfffff0; 0xc06070; 0xc06030;
   0xc06070; 0xc06030; 0xfffff0; 0xfffff0; 0xd55570; 0x800030; 0x70; 0x3000030;
   0x3000070; 0x3800030; 0x1fffff0; 0x1ffffe0; 0x7fff00; 0x0; 0x0; 0x0;
   0x0; 0x202000; 0x0; 0x0; 0x0; 0xc0300; 0xc0300; 0x15d5754;
   0x3fffffc; 0x3fffffc; 0xc6300; 0xc6300; 0x6000; 0x6000; 0xfffff0; 0xfffff0;
   0xc06030; 0xc07030; 0xc07030; 0xc1f030; 0xc3b830; 0xc71c30; 0xce0e30; 0xdc0730;
   0xf803b0; 0xd801f0; 0xc00030; 0xc00030; 0xf80030; 0x780030; 0x0; 0x0;
   0x0; 0x0; 0x202000; 0x0; 0x0; 0x0; 0xe0700; 0xe0300;
   0xe0700; 0x2aeaba8; 0x3fffffc; 0x3fffffc; 0xe0700; 0xe0300; 0xe7700; 0x6000;
   0xe000; 0xe000; 0x1c700; 0xe18320; 0xe38770; 0xc18330; 0x1c00730; 0x1800338;
   0x1980718; 0x398031c; 0x318071c; 0x318030c; 0x1fff00; 0xffe00; 0x55400; 0x0;
   0x0; 0x0; 0x0; 0x202000; 0x0; 0x0; 0x0; 0xe0700;
   0xe0300; 0x3fffffc; 0x3fffffc; 0x15f5754; 0xe6300; 0x66700; 0x6000; 0x3fffffc;
   0x3fffffc; 0x6000; 0x6000; 0x157550; 0x7ffff0; 0x7ffff0; 0x380380; 0x1c0780;
   0xe0f00; 0x79e00; 0x3f800; 0x1f800; 0xffe00; 0x1ff1ff0; 0x3f803fc; 0x1c0001c;
   0x0; 0x0; 0x0; 0x0; 0x202000; 0x0; 0x0; 0x0;
   0xe0700; 0xe0600; 0x15f5754; 0x3fffffc; 0x3fffffc; 0xe0600; 0xe0700; 0x8000;
   0x1c700; 0x1c380; 0xc1c380; 0x1e1c1c0; 0x79c1e0; 0x3fc0f0; 0xfc1f8; 0x3e0fc;
   0x1f9dc; 0x1f8c0; 0x101c9c0; 0x301c0c0; 0x701c1c0; 0x301c0c0; 0x3ffc1c0; 0x3ff80c0;
   0x1ff01c0; 0x0; 0x0; 0x0; 0x0; 0x202000; 0x0; 0x0;
   0x0; 0xe0700; 0xe0300; 0x3fffffc; 0x3fffffc; 0x3fffffc; 0xe0300; 0xe7700;
   0x6000; 0xe000; 0x3fffffc; 0x3fffffc; 0x2aaaea8; 0xe00; 0xe00; 0x7ffe00;
   0x7ffe00; 0x7fff00; 0x700700; 0x700380; 0x300380; 0x3001c0; 0x3800e0; 0x3d4078;
   0x1fc03c; 0x1fc018; 0x0; 0x0; 0x0; 0x0; 0x202000; 0x0;
   0x0; 0x0; 0xe0700; 0xe0600; 0x15f5754; 0x3fffffc; 0x3fffffc; 0xe0600;
   0xe0700; 0xa0380; 0x1c0; 0x1ffffc0; 0x1ffffe0; 0x18e38e0; 0x1c61c70; 0x1870c38;
   0x1c70e1c; 0x1c3860c; 0x1c38700; 0xc18380; 0x1c1c1c0; 0xc0e0e0; 0xc07070; 0xe07830;
   0x753c10; 0x7e1c00; 0x3e0000; 0x0; 0x0; 0x0; 0x0; 0x202000;
   0x0; 0x0; 0x0; 0xe0700; 0xe0300; 0x15f5754; 0x3fffffc; 0x3fffffc;
   0xe0300; 0xe0700; 0xaa300; 0xe000; 0xe000; 0xe000; 0xe000; 0xe0c0;
   0xffe0c0; 0xffe0c0; 0xe0c0; 0xe0c0; 0xe0c0; 0xe0c0; 0xe0c0; 0xe0c0;
   0xe0c0; 0x3fffffc; 0x3fffffc; 0x0; 0x0; 0x0; 0x0; 0x0;
   0x202000; 0x0; 0x0; 0x0; 0xe0700; 0xe0300; 0x15f5754; 0x3fffffc;
   0x3fffffc; 0xe0300; 0xe0700; 0x0; 0x555540; 0x7fffe0; 0x7ffff0; 0x0;
   0x0; 0x0; 0x3fffffc; 0x3fffffc; 0x40e00; 0xe0e00; 0x1c0700; 0x1c0380;
   0x3801c0; 0x7e80e0; 0xfffff0; 0xe2ffe0; 0x1c00060; 0x0; 0x0; 0x0;
   0x0; 0x202000; 0x0; 0x0; 0x0; 0xc0700; 0xc0300; 0x3fffffc;
   0x3fffffc; 0x15d5754; 0xc0300; 0x7c0700; 0xffe800; 0x7fffe0; 0x3fe0; 0xe0;
   0xe0; 0xe0; 0x3ffffe0; 0x3ffffe0; 0x300e0; 0x700e0; 0x300e0; 0x70060;
   0x30070; 0x70070; 0x30038; 0x7003c; 0x3001c; 0x7000c; 0x0; 0x0;
   0x0; 0x0; 0x202000; 0x0; 0x0; 0x0; 0xe0700; 0xe0300;
   0x3fffffc; 0x3fffffc; 0x15f5754; 0xe0300; 0x3e0700; 0x7f8000; 0x1fff40; 0xfff0;
   0x71f0; 0x1e83000; 0x1fffd00; 0xffff8; 0x77f8; 0x3000; 0x3fd7000; 0x3fffe00;
   0x17fffc; 0x33fc; 0x3007000; 0x3003000; 0x3d57000; 0x3ffe000; 0x1ffc000; 0x0;
   0x0; 0x0; 0x0; 0x202000; 0x0; 0x0; 0x0; 0xe0700;
   0xe0300; 0x3fffffc; 0x3fffffc; 0x15f5754; 0xe0300; 0xe0700; 0xaaaaa8; 0x1fffff8;
   0x1fffff8; 0xe00c0; 0xe00e0; 0xe00e0; 0xe0060; 0x3ffffe0; 0x3ffffe0; 0xfc000;
   0xef000; 0xe7c00; 0xe1e00; 0xe07c0; 0xe03f8; 0xf507c; 0xfe008; 0x7e000;
   0x0; 0x0; 0x0; 0x0; 0x202000; 0x0; 0x0; 0x0;
   0xc0300; 0xc0300; 0x15d5754; 0x3fffffc; 0x3fffffc; 0xc0300; 0xc7300; 0x86200;
   0x1fffffc; 0x3fffff8; 0x3fffffc; 0x6000; 0x7000; 0xffffe0; 0xfffff0; 0xeaeae0;
   0xe07070; 0xe06060; 0xe07070; 0xe06060; 0xe07070; 0xfc6060; 0x7c7070; 0x6000;
   0x7000; 0x0; 0x0; 0x0; 0x0; 0x202000; 0x0; 0x0;
   0x0; 0xc0700; 0xc0300; 0x15d5754; 0x3fffffc; 0x3fffffc; 0xc0300; 0xc0700;
   0xc0300; 0x40100; 0xe0380; 0xe0380; 0xe0380; 0x60380; 0xe0180; 0xf07c0;
   0xf0fc0; 0x1f1fc0; 0x1bbcc0; 0x3bb8e0; 0x3190e0; 0x71c070; 0xe0e038; 0x7c0703c;
   0x380381e; 0x100100c; 0x0; 0x0; 0x0; 0x0; 0x202000; 0x0;
   0x0; 0x0; 0xc0700; 0xc0300; 0xc0700; 0x3fffffc; 0x3fffffc; 0xc0300;
   0xc7700; 0x87200; 0x7000; 0xe000; 0x3fffffc; 0x3fffffc; 0x1557554; 0x6000;
   0xf000; 0x3e000; 0xff000; 0x3e6000; 0x7c7000; 0x606000; 0x7000; 0x6000;
   0x7000; 0x6000; 0x7000; 0x0; 0x0; 0x0; 0x0; 0x202000].
Definition hanzi_data_365 : list N :=
  [0x0; 0x0; 0x0; 0xe0700; 0xe0300; 0x3fffffc; 0x3fffffc; 0x15f5754;
   0xe0300; 0xe7700; 0x6000; 0x1fffff8; 0x1fffff8; 0x7000; 0x6000; 0x7fffe0;
   0x7fffe0; 0x7000; 0x6000; 0x1fffffc; 0x1fffff8; 0x1807000; 0x1806000; 0x1c07000;
   0xe86000; 0xf87000; 0x286000; 0x7000; 0x0; 0x0; 0x0; 0x0;
   0x202000; 0x0; 0x0; 0x0; 0xe0700; 0xe0700; 0x3fffffc; 0x3fffffc;
   0x15f5754; 0xe0700; 0xe0700; 0x3fffff0; 0x3fffff0; 0xaaaab0; 0xe030; 0xe030;
   0x55f530; 0xffffb0; 0x1ffffb0; 0xc06030; 0xc07030; 0xc07038; 0xc07038; 0xc03838;
   0xc01c18; 0xe01e18; 0x750f1c; 0x7f03ce; 0x3f018c; 0x0; 0x0; 0x0;
   0x0; 0x202000; 0x0; 0x0; 0x0; 0xc0300; 0xc0300; 0x3fffffc;
   0x3fffffc; 0x15d5754; 0xc0300; 0x40300; 0x1fffff8; 0x1fffff8; 0x61838; 0x71c38;
   0x61838; 0x71c38; 0x61c38; 0x1871c38; 0x1860c38; 0x1870e38; 0x1fe0738; 0x1fe07f8;
   0x1b8; 0x38; 0x38; 0x3fffff8; 0x3fffff8; 0x0; 0x0; 0x0;
   0x0; 0x0; 0x202000; 0x0; 0x0; 0x0; 0xe0700; 0xe0300;
   0x3fffffc; 0x3fffffc; 0x3fffffc; 0xe0300; 0xe0700; 0x1fffff0; 0x1fffff0; 0x30;
   0x70; 0x30; 0x7ffe70; 0x7ffe30; 0x700670; 0x300630; 0x700630; 0x3f8630;
   0x11f8638; 0x3000638; 0x3800618; 0x3800e18; 0x1fffe1c; 0xfffc0e; 0xc; 0x0;
   0x0; 0x0; 0x0; 0x202000; 0x0; 0x0; 0x0; 0xe0700;
   0xe0300; 0x15f5754; 0x3fffffc; 0x3fffffc; 0xe0300; 0xe0700; 0x0; 0x7fffe0;
   0x7fffe0; 0x7000e0; 0x7060e0; 0x7070e0; 0x7060e0; 0x7070e0; 0x7060e0; 0x71f0e0;
   0x71b0e0; 0x71b840; 0x101bc00; 0x3019f00; 0x3018f80; 0x3ff83f0; 0x1ff80f8; 0x550010;
   0x0; 0x0; 0x0; 0x0; 0x202000; 0x0; 0x0; 0x0;
   0xe0700; 0xe0300; 0x3fffffc; 0x3fffffc; 0xe0700; 0xe0300; 0x100180; 0x380180;
   0x3f0180; 0xfc180; 0x1f980; 0x3980; 0x180; 0x3fffffc; 0x3fffffc; 0xe180;
   0xc180; 0x1c180; 0x38180; 0xf0180; 0x1ec180; 0xfcf980; 0x3f0ffc0; 0x3800fc0;
   0x1c0; 0x0; 0x0; 0x0; 0x0; 0x202000; 0x0; 0x0;
   0x0; 0xc0300; 0xc0300; 0x15d5754; 0x3fffffc; 0x3fffffc; 0xc4300; 0xcf300;
   0x8fa00; 0x1fc00; 0xf8e00; 0x3f07c0; 0xf803f0; 0x7f555fe; 0x38fffbc; 0x1fffc4;
   0xc0180; 0xc01c0; 0xc0180; 0xfe1c0; 0x2fe180; 0xe001c0; 0xe00180; 0x7fff80;
   0x7fff80; 0x1fff00; 0x0; 0x0; 0x0; 0x0; 0x202000; 0x0;
   0x0; 0x0; 0xc0300; 0xc0300; 0xc0300; 0x3fffffc; 0x3fffffc; 0xc0300;
   0xc0300; 0xc7300; 0x7000; 0xe000; 0x1fffff8; 0x1fffff8; 0x1d55558; 0x1800018;
   0x1c00018; 0x1800018; 0x0; 0x0; 0x0; 0x0; 0x0; 0x3fffffc;
   0x3fffffc; 0x0; 0x0; 0x0; 0x0; 0x0; 0x0; 0x202000;
   0x0; 0x0; 0x0; 0xe0700; 0xe0300; 0x15f5754; 0x3fffffc; 0x3fffffc;
   0xe0300; 0xe0700; 0xe3300; 0x3000; 0x3000; 0x3ffff0; 0x3ffff0; 0x183800;
   0x183800; 0xf818c0; 0xd818e0; 0x1d81c60; 0x1980c70; 0x39c0e38; 0x318071c; 0x11c0790;
   0x1c03c0; 0x1d41f0; 0xfc078; 0x7c018; 0x0; 0x0; 0x0; 0x0;
   0x202000; 0x0; 0x0; 0x0; 0xe0700; 0xe0300; 0x15f5754; 0x3fffffc;
   0x3fffffc; 0xe0300; 0xe0780; 0x180; 0x1ff95c0; 0xffbfc0; 0x1d7bfe0; 0xc3b060;
   0x1c3b070; 0xc3b838; 0x1c398fc; 0xc39bde; 0x1fb9f8c; 0xfb8e00; 0x138e00; 0x38700;
   0x7038380; 0x30381e0; 0x3ff81f0; 0x3ff807c; 0x1ff0018; 0x0; 0x0; 0x0;
   0x0; 0x202000; 0x0; 0x0; 0x0; 0xc0700; 0xc0300; 0x3fffffc;
   0x3fffffc; 0x15d5754; 0xc6300; 0x46100; 0x7fffe0; 0x7fffe0; 0x6aeae0; 0x706060;
   0x606060; 0x7fffe0; 0x7fffe0; 0x706060; 0x606060; 0x706060; 0x3fffffc; 0x3fffffc;
   0x600060; 0x700060; 0x600060; 0x7f0060; 0x7e0060; 0x1e0060; 0x0; 0x0;
   0x0; 0x0; 0x202000; 0x0; 0x0; 0x0; 0xe0700; 0xe0300;
   0x3fffffc; 0x3fffffc; 0x3fffffc; 0xe0300; 0xfe700; 0xf000; 0x1fc00; 0xf9e00;
   0x3f07c0; 0xf833f0; 0x7f070fe; 0x380e03c; 0x155540; 0x7fffe0; 0x7fffe0; 0x380000;
   0x1c0000; 0xf0e00; 0x7ff00; 0x1f800; 0x7e000; 0xf8000; 0x60000; 0x0;
   0x0; 0x0; 0x0; 0x202000; 0x0; 0x0; 0x0; 0xe0700;
   0xe0300; 0x3fffffc; 0x3fffffc; 0x3fffffc; 0xe0300; 0xe1f00; 0x23800; 0xf1e00;
   0x1c0700; 0x3803c0; 0x7fe9e0; 0xfffff0; 0x1c02ff0; 0x1800010; 0x2aaaa0; 0x7fffe0;
   0x7fffe0; 0x6000e0; 0x6000e0; 0x6000e0; 0x6aaae0; 0x7fffe0; 0x7fffe0; 0x6000e0;
   0x0; 0x0; 0x0; 0x0; 0x202000; 0x0; 0x0; 0x0;
   0xe0700; 0xe0300; 0x3fffffc; 0x3fffffc; 0xe0700; 0xe0300; 0x0; 0xfffff8;
   0xfffff8; 0xe01800; 0x601c00; 0x600e00; 0x700700; 0x7f03e0; 0x3f01fc; 0x2aaab8;
   0x7fffe0; 0x7fffe0; 0x600060; 0x600060; 0x600060; 0x600060; 0x7fffe0; 0x7fffe0;
   0x600060; 0x0; 0x0; 0x0; 0x0; 0x202000; 0x0; 0x0;
   0x0; 0xe0700; 0xe0300; 0xe0700; 0x3fffffc; 0x3fffffc; 0xe0300; 0xe0700;
   0xe0300; 0x40500; 0xffffe0; 0xfffff0; 0xe06060; 0xe06070; 0xe06060; 0xe06070;
   0xffffe0; 0xfffff0; 0xe06060; 0xe06070; 0xe06060; 0xe06070; 0xe06060; 0xfffff0;
   0xffffe0; 0xe00070; 0x0; 0x0; 0x0; 0x0; 0x202000; 0x0;
   0x0; 0x0; 0xe0700; 0xe0300; 0x3fffffc; 0x3fffffc; 0x3fffffc; 0xe0300;
   0xe0700; 0x0; 0x1fffff0; 0xfffff0; 0x1c00030; 0xc00030; 0x1c7fe30; 0xc7fe30].
Definition hanzi_data_366 : list N :=
  [0x1c75630; 0xc60630; 0x1c60630; 0xc60630; 0x1c7fe30; 0xc7fe30; 0x1c00630; 0xc00630;
   0x1c00030; 0xfc0030; 0x7c0030; 0x0; 0x0; 0x0; 0x0; 0x202000;
   0x0; 0x0; 0x0; 0xe0700; 0xe0300; 0x3fffffc; 0x3fffffc; 0x3fffffc;
   0xe0300; 0xe0700; 0x0; 0x3fffffc; 0x3fffffc; 0x300000; 0x300000; 0x30ffe0;
   0x30ffe0; 0x30d5e0; 0x30c0e0; 0x30c0e0; 0x30c0e0; 0x30ffe0; 0x30ffe0; 0x3055e0;
   0x3000e0; 0x300040; 0x3f8000; 0x1f0000; 0x0; 0x0; 0x0; 0x0;
   0x202000; 0x0; 0x0; 0x0; 0xe0700; 0xe0300; 0x3fffffc; 0x3fffffc;
   0x3fffffc; 0xe0300; 0xe0700; 0x2aaaa0; 0x7fffe0; 0x7fffe0; 0x700060; 0x600060;
   0x7fffe0; 0x7fffe0; 0x700060; 0x600060; 0x755560; 0x7fffe0; 0x7fffe0; 0x600060;
   0x700060; 0x6aaae0; 0x7fffe0; 0x6aaae0; 0x700060; 0x0; 0x0; 0x0;
   0x0; 0x202000; 0x0; 0x0; 0x0; 0xe0700; 0xe0600; 0x3fffffc;
   0x3fffffc; 0x3fffffc; 0xe0680; 0xe05c0; 0xaaabc0; 0xffffe0; 0xeaaae0; 0xc00070;
   0xc0aab8; 0xc1ffdc; 0xe1aac8; 0xe180c0; 0xe180c0; 0x61ffc0; 0x61ffc0; 0x17c00c0;
   0x33c00c0; 0x30000c0; 0x38000c0; 0x3ffffc0; 0x1ffff80; 0x555500; 0x0; 0x0;
   0x0; 0x0; 0x202000; 0x0; 0x0; 0x0; 0xe0700; 0xe0700;
   0x3fffffc; 0x3fffffc; 0x15f5754; 0xe0700; 0xe0780; 0x380; 0x1ffffc0; 0x1ffffe0;
   0x1c000f0; 0x1c00070; 0x1c1557c; 0xc1ffde; 0x1c1ffcc; 0xc180c0; 0x1c180c0; 0xc180c0;
   0xc1ffc0; 0xc1ffc0; 0xc155c0; 0xe000c0; 0xf58000; 0x7f0000; 0x3f0000; 0x0;
   0x0; 0x0; 0x0; 0x202000; 0x0; 0x0; 0x0; 0xe0700;
   0xe0300; 0x3fffffc; 0x3fffffc; 0x15f5754; 0xe0300; 0x60700; 0xffffe0; 0xfffff0;
   0xc00060; 0xc00070; 0xffffe0; 0xfffff0; 0xe060; 0xc070; 0xc060; 0x3fffff0;
   0x3ffffe0; 0x38070; 0x38060; 0x3077070; 0x30e7e60; 0x3fc7ff0; 0x3f803f0; 0x1c00030;
   0x0; 0x0; 0x0; 0x0; 0x202000; 0x0; 0x0; 0x0;
   0xe0700; 0xe0300; 0x3fffffc; 0x3fffffc; 0x15f5754; 0xe0300; 0xe0700; 0xe00000;
   0x601870; 0x601c60; 0x707870; 0x707060; 0x70e070; 0x30c060; 0x384070; 0x380060;
   0x1c1070; 0x3c1860; 0x7e1f70; 0xe70fe0; 0x1e7c3f0; 0x1c1e0f8; 0x380f830; 0x3003c00;
   0x1001c00; 0x0; 0x0; 0x0; 0x0; 0x202000; 0x0; 0x0;
   0x0; 0xe0700; 0xe0300; 0x3fffffc; 0x3fffffc; 0xe0700; 0xe0300; 0x40500;
   0x1ffffe0; 0x1fffff0; 0x60; 0x70; 0x2aaae0; 0x7ffff0; 0x6aaae0; 0x600070;
   0x600060; 0x600070; 0x7fffe0; 0x7ffff0; 0x60; 0x70; 0x60; 0x1fffff0;
   0x1ffffe0; 0x0; 0x0; 0x0; 0x0; 0x0; 0x202000; 0x0;
   0x0; 0x0; 0xe0700; 0xe0300; 0xe0700; 0x3fffffc; 0x3fffffc; 0xe0300;
   0xe0700; 0xa0200; 0x1fffff8; 0x1fffff8; 0x7000; 0x7800; 0x77c00; 0xf7e00;
   0x1e6f00; 0x3c6780; 0x7861c0; 0xe060f0; 0x1e06078; 0xc06010; 0x6000; 0x2000;
   0x3fffffc; 0x3fffffc; 0x0; 0x0; 0x0; 0x0; 0x0; 0x202000;
   0x0; 0x0; 0x0; 0xe0700; 0xe0300; 0x15f5754; 0x3fffffc; 0x3fffffc;
   0xe0300; 0xe3700; 0xa3a00; 0x3800; 0x3fffffc; 0x3fffffc; 0xe00; 0xe00;
   0x700; 0x555780; 0xffff80; 0xffffe0; 0xe003f0; 0xe003fc; 0xe003be; 0xe0038c;
   0xeaab80; 0xffff80; 0xffff80; 0xe00380; 0x0; 0x0; 0x0; 0x0;
   0x202000; 0x0; 0x0; 0x0; 0xe0700; 0xe0300; 0x15f5754; 0x3fffffc;
   0x3fffffc; 0xe0300; 0xe6700; 0xe6300; 0x6000; 0x2aaeaa8; 0x3fffffc; 0x2aaeaa8;
   0x6000; 0x6000; 0x6000; 0x7fffe0; 0x7fffe0; 0x6000e0; 0x6000e0; 0x6000e0;
   0x6000e0; 0x6aaae0; 0x7fffe0; 0x7fffe0; 0x6000e0; 0x0; 0x0; 0x0;
   0x0; 0x202000; 0x0; 0x0; 0x0; 0xe0300; 0xe0300; 0x3fffffc;
   0x3fffffc; 0x15f5754; 0xe3300; 0x47100; 0xaaeaa8; 0x1fffff8; 0x1fffff8; 0x1800018;
   0x1800018; 0x1800018; 0x3fffffc; 0x3fffffc; 0x2aaeaa8; 0x6000; 0x6000; 0x6000;
   0x6000; 0x6000; 0x6000; 0x7f00; 0x7f00; 0x3f00; 0x0; 0x0;
   0x0; 0x0; 0x202000; 0x0; 0x0; 0x0; 0xe0700; 0xe0300;
   0x15f5754; 0x3fffffc; 0x3fffffc; 0xe0300; 0xe7700; 0xa6200; 0x7000; 0x3ffe000;
   0x3fff000; 0x6000; 0x7000; 0x6000; 0x7fffe0; 0x7fffe0; 0x7fffe0; 0x600060;
   0x600060; 0x600060; 0x600060; 0x600060; 0x7fffe0; 0x7fffe0; 0x600060; 0x0;
   0x0; 0x0; 0x0; 0x202000; 0x0; 0x0; 0x0; 0xe0700;
   0xe0300; 0x3fffffc; 0x3fffffc; 0x15f5754; 0xe0300; 0xe6700; 0x6000; 0x1557554;
   0x3fffffc; 0x3fffffc; 0x3fc00; 0x76c00; 0xe6e00; 0x1e6700; 0x3c6380; 0x7861c0;
   0xf060e0; 0x1fffff8; 0x39fffbe; 0x300601c; 0x6000; 0x6000; 0x6000; 0x6000;
   0x0; 0x0; 0x0; 0x0; 0x202000; 0x0; 0x0; 0x0;
   0xc0300; 0xc0300; 0x15d5754; 0x3fffffc; 0x3fffffc; 0xc0300; 0xc7300; 0x86200;
   0x7000; 0x7fffe0; 0x7fffe0; 0x606060; 0x607060; 0x606060; 0x607060; 0x3fffffc;
   0x3fffffc; 0xf000; 0x1f800; 0x39c00; 0x71f00; 0x1e0780; 0x1fc03f0; 0x3f000fc;
   0x3c0001c; 0x0; 0x0; 0x0; 0x0; 0x202000; 0x0; 0x0;
   0x0; 0xe0700; 0xe0300; 0x3fffffc; 0x3fffffc; 0x15f5754; 0xe0300; 0xe0700;
   0x2aaa80; 0x7fffc0; 0x3aaac0; 0x7000c0; 0x3000c0; 0x7fffc0; 0x3fffc0; 0x7000c0;
   0x3000c0; 0x7000c0; 0x3fffc0; 0x7fffc0; 0x3000c0; 0x7000c0; 0x3000c0; 0x3fffffc;
   0x3fffffc; 0x0; 0x0; 0x0; 0x0; 0x0; 0x202000; 0x0].
Definition hanzi_data_367 : list N :=
  [0x0; 0x0; 0xe0700; 0xe0700; 0x3fffffc; 0x3fffffc; 0x15f5754; 0xe0700;
   0x1e0740; 0x3801c0; 0x3801c0; 0x3fffffc; 0x3fffffc; 0x3801c0; 0x3801c0; 0x3801c0;
   0x3801c0; 0x3fffc0; 0x3fffc0; 0x3801c0; 0x3801c0; 0x3801c0; 0x3801c0; 0x3fffc0;
   0x3fffc0; 0x3aabc0; 0x3801c0; 0x0; 0x0; 0x0; 0x0; 0x202000;
   0x0; 0x0; 0x0; 0xe0300; 0xe0300; 0x3fffffc; 0x3fffffc; 0x15f5754;
   0xe0300; 0xe0300; 0xfffff8; 0x1fffff8; 0xaaeaa8; 0x706060; 0x3060e0; 0x3861c0;
   0x186180; 0x1c6380; 0x86100; 0x3fffffc; 0x3fffffc; 0x6000; 0x6000; 0x6000;
   0x6000; 0x6000; 0x6000; 0x6000; 0x0; 0x0; 0x0; 0x0;
   0x202000; 0x0; 0x0; 0x0; 0xe0700; 0xe0300; 0x3fffffc; 0x3fffffc;
   0x3fffffc; 0xe0300; 0xe0700; 0x300380; 0x7001c0; 0x3001c0; 0x3fffee0; 0x3fffee0;
   0x17554f0; 0x3000f8; 0x7010fc; 0x3038ec; 0x7070e0; 0x3060e0; 0x70e0e0; 0x30c0e0;
   0x7040e0; 0x3000e0; 0x7500e0; 0x3f80e0; 0x1f00e0; 0x0; 0x0; 0x0;
   0x0; 0x202000; 0x0; 0x0; 0x0; 0xe0700; 0xe0300; 0xe0700;
   0x3fffffc; 0x3fffffc; 0xe0300; 0xe0700; 0xe0b00; 0x343d00; 0x387800; 0x1df000;
   0xdc600; 0x7e8770; 0x770660; 0xe38770; 0xe1c630; 0x1c0f738; 0x3807e38; 0x3983f1c;
   0x3380e0c; 0x11807c0; 0x1807f0; 0x1ffffc; 0xffe38; 0x7fc00; 0x0; 0x0;
   0x0; 0x0; 0x202000; 0x0; 0x0; 0x0; 0xe0700; 0xe0300;
   0x3fffffc; 0x3fffffc; 0xe0700; 0xe0b00; 0x30c00; 0xfffff8; 0xfffff8; 0xc30c00;
   0xc30c00; 0xebaea0; 0xfffff0; 0xabaeb0; 0x30c30; 0x30c30; 0x1fffff8; 0x1fffff8;
   0x1830e00; 0x1830600; 0x1d30700; 0xfb0380; 0x7b01f0; 0x300f8; 0x30010; 0x0;
   0x0; 0x0; 0x0; 0x202000; 0x0; 0x0; 0x0; 0xc0700;
   0xc0300; 0x3fffffc; 0x3fffffc; 0x3fffffc; 0xc0300; 0xc6700; 0x86200; 0x7060e0;
   0x6060e0; 0x7060e0; 0x6060e0; 0x7060e0; 0x7fffe0; 0x7fffe0; 0x6000; 0x1c06070;
   0xc06030; 0x1c06070; 0xc06030; 0x1c06070; 0xfffff0; 0x1fffff0; 0xeaaaa0; 0x1c00000;
   0x0; 0x0; 0x0; 0x0; 0x202000; 0x0; 0x0; 0x0;
   0xe0700; 0xe0300; 0x3fffffc; 0x3fffffc; 0x3fffffc; 0xe0300; 0x3ee700; 0x70e000;
   0x1e0e000; 0x80e000; 0x3fffff0; 0x3fffff0; 0x40c070; 0xe0c030; 0x71c070; 0x318030;
   0x398070; 0x1f8030; 0xf0030; 0x2078038; 0x70fc038; 0x30ef818; 0x37c7f1c; 0x3f80f8e;
   0x1e0030c; 0x0; 0x0; 0x0; 0x0; 0x202000; 0x0; 0x0;
   0x0; 0xe0700; 0xe0300; 0x3fffffc; 0x3fffffc; 0x3fffffc; 0xe0300; 0xe0700;
   0x20; 0xfff8f0; 0xfff9e0; 0xc03bc0; 0xc03900; 0xc03818; 0xc0383c; 0xc039f0;
   0xfe38e0; 0xfc3900; 0x283b00; 0x3b80; 0x30039c0; 0x70038e0; 0x3003870; 0x3fff078;
   0x3fff038; 0x554010; 0x0; 0x0; 0x0; 0x0; 0x202000; 0x0;
   0x0; 0x0; 0xe0700; 0xe0300; 0x3fffffc; 0x3fffffc; 0x3fffffc; 0xe0300;
   0xe07c0; 0xa02c0; 0xc0; 0x1ff80c0; 0x1ffbffc; 0x183bffc; 0x183b8c0; 0x183b8e0;
   0x183b8e0; 0x183b8e0; 0x183b860; 0x183b860; 0x1839870; 0x1839830; 0x1839830; 0x1ff9838;
   0x1ff9c1c; 0x1839f8e; 0x1038f0c; 0x0; 0x0; 0x0; 0x0; 0x202000;
   0x0; 0x0; 0x0; 0xe0700; 0xe0300; 0x3fffffc; 0x3fffffc; 0xe0700;
   0xe0300; 0x155550; 0x3ffff0; 0x3ffff0; 0x1e0200; 0x79f00; 0x3f800; 0x3f000;
   0x3fffffc; 0x3fffffc; 0x1c0f800; 0x1c0fc00; 0xe0ee00; 0x70e780; 0x38e3e0; 0xe0f8;
   0xe03e; 0xe01c; 0xfe00; 0x7c00; 0x0; 0x0; 0x0; 0x0;
   0x202000; 0x0; 0x0; 0x0; 0xe0700; 0xe0300; 0x3fffffc; 0x3fffffc;
   0x15f5754; 0xe0300; 0xe1f00; 0xaa9f80; 0x1ff9ff0; 0x1ff8030; 0x1c39c30; 0x1838c30;
   0x1c39c30; 0x1838c30; 0x1c39c30; 0x1838c30; 0x1c39f30; 0x1838ff8; 0x1c38dfc; 0x1fb8e38;
   0x1fb8700; 0x38380; 0x381e0; 0x380f8; 0x38070; 0x0; 0x0; 0x0;
   0x0; 0x202000; 0x0; 0x0; 0x0; 0x60700; 0x60600; 0x3fffffc;
   0x3fffffc; 0x1575754; 0x60600; 0x70d00; 0x1e0c00; 0x3c0e00; 0x3fffffc; 0x3fffffc;
   0x600; 0x700; 0x2aab00; 0x7fff00; 0x3aaf80; 0x1c1d80; 0xc39c0; 0xf70c0;
   0x7e0e0; 0x3c070; 0xff838; 0x7e7f1e; 0x3f80f8c; 0x1c00300; 0x0; 0x0;
   0x0; 0x0; 0x202000; 0x0; 0x0; 0x0; 0xe0700; 0xe0300;
   0x3fffffc; 0x3fffffc; 0x15f5754; 0xe0300; 0x40500; 0x30600; 0x30700; 0x30600;
   0x1c30730; 0x3e30630; 0xf37f30; 0x3f7e30; 0x1f0730; 0x30630; 0x30730; 0x30630;
   0x3030730; 0x3030630; 0x7037f30; 0x3037ff0; 0x3ff0ffc; 0x1fe00fc; 0xc; 0x0;
   0x0; 0x0; 0x0; 0x202000; 0x0; 0x0; 0x0; 0xc0300;
   0xc0300; 0x3fffffc; 0x3fffffc; 0x3fffffc; 0xc0300; 0xc6300; 0x6000; 0x3fffffc;
   0x3fffffc; 0x3fffffc; 0x6000; 0x6000; 0xaaeaa8; 0x1fffff8; 0xabfaa8; 0x3fc00;
   0x76e00; 0xe6700; 0x3c6380; 0x7861f0; 0x3e060f8; 0x3c0603c; 0x1006008; 0x6000;
   0x0; 0x0; 0x0; 0x0; 0x202000; 0x0; 0x0; 0x0;
   0xe0700; 0xe0300; 0x3fffffc; 0x3fffffc; 0x3fffffc; 0xe0300; 0x740700; 0xfffa00;
   0x1fffe0; 0xc2e0; 0x1c060; 0xc060; 0x1c060; 0x1ffffe0; 0x1ffffe0; 0xabaae0;
   0x30060; 0x70060; 0x73060; 0xe3060; 0x71c7460; 0x338cfe0; 0x3f9dff0; 0x3e180e0;
   0x1c00000; 0x0; 0x0; 0x0; 0x0; 0x202000; 0x0; 0x0;
   0x0; 0xe0700; 0xe0300; 0x3fffffc; 0x3fffffc; 0x15f5754; 0xe0300; 0xe0700;
   0x70380; 0x701c0; 0x700c0; 0x700e0; 0x70060; 0x3fffe70; 0x3fffe78; 0x157547c].
Definition hanzi_data_368 : list N :=
  [0x7006c; 0x70064; 0x70060; 0x70060; 0x70060; 0x70060; 0x70060; 0x3fffe60;
   0x3fffe60; 0x1555460; 0x0; 0x0; 0x0; 0x0; 0x202000; 0x0;
   0x0; 0x0; 0xe0700; 0xe0300; 0x3fffffc; 0x3fffffc; 0xe0700; 0xe0300;
   0x155550; 0x3ffff0; 0x3ffff0; 0x1e0000; 0xf8000; 0x3e000; 0x1ffc00; 0xfe3fe0;
   0x3f007fc; 0x300003c; 0x7fffe0; 0x7fffe0; 0x6000; 0x6000; 0x6000; 0x6000;
   0x3fffffc; 0x3fffffc; 0x1555554; 0x0; 0x0; 0x0; 0x0; 0x202000;
   0x0; 0x0; 0x0; 0xe0700; 0xe0300; 0x15f5754; 0x3fffffc; 0x3fffffc;
   0xe0300; 0xe0700; 0xe1800; 0x3f1c00; 0x381c00; 0x3fffffc; 0x3fffffc; 0x1cc00;
   0x218e00; 0x71ce00; 0x398600; 0x1dc700; 0xf8300; 0x7c380; 0x203e1c0; 0x701f9e0;
   0x301bef0; 0x3ffdc7c; 0x3ff801c; 0x0; 0x0; 0x0; 0x0; 0x0;
   0x202000; 0x0; 0x0; 0x0; 0xe0700; 0xe0300; 0x3fffffc; 0x3fffffc;
   0xe0700; 0xe6300; 0x47500; 0x2aba80; 0x3fffc0; 0x3aaac0; 0x301cc0; 0x303cc0;
   0x3ff0c0; 0x1e40c0; 0x400c0; 0x1ffffc0; 0x1ffffc0; 0x1800000; 0x1800000; 0x19ffffc;
   0x19ffffc; 0x1800000; 0x1c00000; 0xfc0000; 0x7c0000; 0x0; 0x0; 0x0;
   0x0; 0x202000; 0x0; 0x0; 0x0; 0xe0700; 0xe0300; 0x15f5754;
   0x3fffffc; 0x3fffffc; 0xe2300; 0xe7f00; 0xe7300; 0xe000; 0xaaeaa8; 0x1fffffc;
   0x1fffff8; 0x180001c; 0x1800018; 0x184001c; 0x1860618; 0x60700; 0xe0380; 0x1c0380;
   0x3801c0; 0x7000e0; 0xe000f0; 0x1e00078; 0x380003c; 0x1000018; 0x0; 0x0;
   0x0; 0x0; 0x202000; 0x0; 0x0; 0x0; 0xe0700; 0xe0700;
   0x3fffffc; 0x3fffffc; 0x3fffffc; 0xe0700; 0xe0700; 0xaaaaa8; 0x1fffff8; 0x1fffff8;
   0x1806018; 0x1806018; 0x1806018; 0x6000; 0x7ffff0; 0x7fffe0; 0x557550; 0x6000;
   0x6000; 0x6000; 0x6000; 0x2aaeaa8; 0x3fffffc; 0x3fffffc; 0x0; 0x0;
   0x0; 0x0; 0x0; 0x202000; 0x0; 0x0; 0x0; 0xe0700;
   0xe0300; 0x3fffffc; 0x3fffffc; 0x15f5754; 0xe0300; 0x0; 0x1fffff8; 0x1fffffc;
   0x1800018; 0x180001c; 0x1bfffd8; 0x3fffc0; 0x380c00; 0x381c00; 0x380c00; 0x395d50;
   0x3bfff8; 0x37fff8; 0x300c00; 0x3701c00; 0x3700c00; 0x3f01c00; 0x3e00c00; 0x1c01c00;
   0x0; 0x0; 0x0; 0x0; 0x202000; 0x0; 0x0; 0x0;
   0xe0700; 0xe0300; 0x3fffffc; 0x3fffffc; 0xe0700; 0xe3b00; 0x1c00; 0x3ffe00;
   0x7fff00; 0x3803c0; 0x1e01f0; 0xf0778; 0x7df10; 0x1fc00; 0xfc00; 0x3f80;
   0xfffffc; 0xfffffc; 0xe0039c; 0xe00380; 0xe00380; 0xeaab80; 0xffff80; 0xffff80;
   0xe00380; 0x0; 0x0; 0x0; 0x0; 0x202000; 0x0; 0x0;
   0x0; 0xe0700; 0xe0300; 0x3fffffc; 0x3fffffc; 0x15f5754; 0xe0300; 0xe0f00;
   0xaa9f80; 0x1ffc7f8; 0x1ff80f8; 0x1c1c038; 0x1818038; 0x1c1c038; 0x1819ff8; 0x1c1dff8;
   0x1818038; 0x1c1c038; 0x1818038; 0x1c1dc38; 0x1f99ff8; 0x1f9dffc; 0x2180f8; 0x1c000;
   0x18000; 0x1c000; 0x0; 0x0; 0x0; 0x0; 0x202000; 0x0;
   0x0; 0x0; 0x60700; 0x60700; 0x3fffffc; 0x3fffffc; 0x60700; 0x60700;
   0x7fffe0; 0x7fffe0; 0x7555e0; 0x6000e0; 0x7fffe0; 0x7fffe0; 0x7000e0; 0x6000e0;
   0x7fffe0; 0x7fffe0; 0x1c060e0; 0xe0e0e0; 0x7dc0e0; 0x1f80e0; 0x700e0; 0x3e78e0;
   0x1fc7fe0; 0x3e00fe0; 0x3c00060; 0x0; 0x0; 0x0; 0x0; 0x202000;
   0x0; 0x0; 0x0; 0xe0700; 0xe0300; 0x3fffffc; 0x3fffffc; 0x15f5754;
   0xe0300; 0xe0700; 0x3fffffc; 0x3fffffc; 0x38c00; 0x38c00; 0x38c00; 0x1fffff8;
   0x1fffff8; 0x1c38c38; 0x1838e38; 0x1d78738; 0x1ff83b8; 0x1ff03f8; 0x18000b8; 0x1c00038;
   0x1aaaab8; 0x1fffff8; 0x1aaaab8; 0x1c00038; 0x0; 0x0; 0x0; 0x0;
   0x202000; 0x0; 0x0; 0x0; 0xe0700; 0xe0300; 0x3fffffc; 0x3fffffc;
   0xe0700; 0xe0300; 0x40500; 0x1fffff0; 0x1fffff0; 0xc030; 0x1c030; 0x2aea30;
   0x7fff30; 0x6aab30; 0x700730; 0x600330; 0x700730; 0x7fff30; 0x7fff30; 0xc030;
   0x1c030; 0xc030; 0x1fffff0; 0x1fffff0; 0x0; 0x0; 0x0; 0x0;
   0x0; 0x202000; 0x0; 0x0; 0x0; 0xe0700; 0xe0300; 0x15f5754;
   0x3fffffc; 0x3fffffc; 0xe0300; 0xe6700; 0xa6300; 0x6000; 0x7fffe0; 0x7fffe0;
   0x606060; 0x706060; 0x606060; 0x706060; 0x7fffe0; 0x7fffe0; 0x2aeaa0; 0x106000;
   0x386000; 0x706000; 0xfa6000; 0x1fffffc; 0x3bffff8; 0x1800010; 0x0; 0x0;
   0x0; 0x0; 0x202000; 0x0; 0x0; 0x0; 0xc0700; 0xc0300;
   0x3fffffc; 0x3fffffc; 0x15d5754; 0xc0300; 0xc6700; 0x6010; 0x7038; 0x3fff070;
   0x3fff8e0; 0x18019c0; 0x1c31c80; 0xc30e00; 0xe30700; 0x38480; 0x781c0; 0x780e0;
   0xfc0e0; 0x1ce070; 0x3c7078; 0xf03838; 0x3f01e1c; 0x3c00f08; 0x1000700; 0x0;
   0x0; 0x0; 0x0; 0x202000; 0x0; 0x0; 0x0; 0xe0700;
   0xe0300; 0x3fffffc; 0x3fffffc; 0x15f5754; 0xe0300; 0xe0710; 0x70038; 0xe01f0;
   0xe01e0; 0x7fffd80; 0x3fffc00; 0x7fffc1c; 0x303c; 0x30f0; 0x3040; 0x3100;
   0x3100; 0x33c0; 0x31c0; 0x30f0; 0x3070; 0x1fff03c; 0x1fff018; 0x8;
   0x0; 0x0; 0x0; 0x0; 0x202000; 0x0; 0x0; 0x0;
   0xe0700; 0xe0300; 0x3fffffc; 0x3fffffc; 0x15f5754; 0xe0b00; 0xe1f00; 0xe00;
   0x3fffffc; 0x3fffffc; 0x70700; 0x70380; 0x701c0; 0x700e0; 0x1fffcf0; 0x1fffcf8;
   0x15754fc; 0x700cc; 0x700c0; 0x700c0; 0x700c0; 0x700c0; 0x3fffec0; 0x3fffec0;
   0xc0; 0x0; 0x0; 0x0; 0x0; 0x202000; 0x0; 0x0].
Definition hanzi_data_369 : list N :=
  [0x0; 0xe0700; 0xe0300; 0x3fffffc; 0x3fffffc; 0x15f5754; 0xe2300; 0xe7700;
   0xe000; 0x3fffffc; 0x3fffffc; 0xc0700; 0x1e0780; 0x7803c0; 0xe000e0; 0x3ce077c;
   0x18e0638; 0x70e00; 0x39c00; 0x1f800; 0xf000; 0x3fc00; 0xf9f80; 0x1ff07f4;
   0x3f800fc; 0x1c0001c; 0x0; 0x0; 0x0; 0x0; 0x202000; 0x0;
   0x0; 0x0; 0xe0700; 0xe0600; 0x3fffffc; 0x3fffffc; 0x15f5754; 0xe0600;
   0xf0700; 0x330380; 0x7301c0; 0xe301c0; 0x1c300e0; 0x2abaae0; 0x3fffef0; 0x3fffef8;
   0x700fe; 0x780ec; 0xf80e0; 0xd80e0; 0x1dc0e0; 0x38e0e0; 0x7870e0; 0xf038e0;
   0x1e03ce0; 0x3c00fe0; 0x10006e0; 0x0; 0x0; 0x0; 0x0; 0x202000;
   0x0; 0x0; 0x0; 0xe0700; 0xe0300; 0x3fffffc; 0x3fffffc; 0x15f5754;
   0xe0300; 0xc67c0; 0x61c0; 0x5575c0; 0xffffe0; 0xfffff0; 0x6038; 0x603c;
   0x6010; 0x3fffffc; 0x3fffffc; 0x1fc00; 0x3ee00; 0xf6f00; 0x1e6380; 0x7c61e0;
   0x1f060f8; 0x7c0607e; 0x380601c; 0x6004; 0x0; 0x0; 0x0; 0x0;
   0x202000; 0x0; 0x0; 0x0; 0xe0700; 0xe0300; 0x15f5754; 0x3fffffc;
   0x3fffffc; 0xe0300; 0xe0700; 0x30; 0x15554f8; 0x1fffde0; 0x1fffdc0; 0x30000;
   0x7001c; 0x3003c; 0x700f0; 0x30060; 0x70100; 0x30180; 0x701c0; 0x300e0;
   0x700f0; 0x30070; 0x3ffff38; 0x3fffe18; 0x10; 0x0; 0x0; 0x0;
   0x0; 0x202000; 0x0; 0x0; 0x0; 0xe0700; 0xe0700; 0x3fffffc;
   0x3fffffc; 0x15f5754; 0xe0700; 0x40500; 0xfffff0; 0xfffff0; 0xc00030; 0xc00030;
   0xc2aa30; 0xc7fe30; 0xc60630; 0xc60630; 0xc60630; 0xc60630; 0xc7fe30; 0xc7fe30;
   0xc00030; 0xc00030; 0xc00030; 0xfffff0; 0xfffff0; 0xc00030; 0x0; 0x0;
   0x0; 0x0; 0x202000; 0x0; 0x0; 0x0; 0xe0700; 0xe0300;
   0x3fffffc; 0x3fffffc; 0xe0700; 0xe0300; 0x555550; 0xfffff0; 0xfffff0; 0xc06030;
   0xc06030; 0xc06030; 0xdfffb0; 0xdfffb0; 0xc07030; 0xc0f030; 0xc3f030; 0xc73830;
   0xce1c30; 0xdc0fb0; 0xd807b0; 0xc00030; 0xfffff0; 0xfffff0; 0xc00030; 0x0;
   0x0; 0x0; 0x0; 0x202000; 0x0; 0x0; 0x0; 0xc0300;
   0xc0300; 0x15d5754; 0x3fffffc; 0x3fffffc; 0xc2300; 0xc7300; 0x8fa00; 0x3fc00;
   0x79e00; 0x1e4f80; 0x7863e0; 0x3f061fc; 0x3c0603c; 0x17ffffc; 0x7fffe0; 0x557540;
   0x86100; 0x1c6380; 0x3861c0; 0x7061e0; 0xe060f0; 0x1c0607c; 0x807c10; 0x7c00;
   0x0; 0x0; 0x0; 0x0; 0x202000; 0x0; 0x0; 0x0;
   0xe0700; 0xe0300; 0x3fffffc; 0x3fffffc; 0x15f5754; 0xe0300; 0x40500; 0x1fffff8;
   0x1fffffc; 0x380180; 0x3801c0; 0x3aab80; 0x3fffc0; 0x3aab80; 0x3801c0; 0x3aab80;
   0x3fffc0; 0x3aab80; 0x3801c0; 0x3b80180; 0x3fffffc; 0x2fffffc; 0x38017c; 0x380000;
   0x380000; 0x0; 0x0; 0x0; 0x0; 0x202000; 0x0; 0x0;
   0x0; 0xe0700; 0xe0300; 0x3fffffc; 0x3fffffc; 0x3fffffc; 0xe0300; 0xe0700;
   0x80180; 0x1c0; 0x1ff80c0; 0x1ffbffc; 0x183bffc; 0x1c3b8e0; 0x1839860; 0x1c39870;
   0x1839830; 0x1c39c78; 0x1838ef0; 0x1c387c0; 0x1838f80; 0x1ff9f80; 0x1ffb9c0; 0x1ffb1f0;
   0x183807c; 0x1438018; 0x0; 0x0; 0x0; 0x0; 0x202000; 0x0;
   0x0; 0x0; 0xe0700; 0xe0300; 0x3fffffc; 0x3fffffc; 0xe0700; 0xe7300;
   0x7000; 0x2aaeaa8; 0x3fffffc; 0x3fffffc; 0x61e00; 0xe0700; 0x3c03c0; 0x7fe9e0;
   0xfffff0; 0xe33ff0; 0x430e00; 0x30e00; 0x30600; 0x3030700; 0x7030780; 0x30303c0;
   0x3ff01f0; 0x3ff007c; 0x1540018; 0x0; 0x0; 0x0; 0x0; 0x202000;
   0x0; 0x0; 0x0; 0xe0700; 0xe0300; 0x3fffffc; 0x3fffffc; 0x15f5754;
   0xe0300; 0x60700; 0xfffff0; 0x1fffff0; 0xc00030; 0x1c55530; 0xcfff30; 0x1d55530;
   0xc00030; 0x1c7fe30; 0xc7fe30; 0x1c60630; 0xc60630; 0x1c60630; 0xc7fe30; 0x1c7fe30;
   0xc00630; 0x1c00630; 0xfc0030; 0x780030; 0x0; 0x0; 0x0; 0x0;
   0x202000; 0x0; 0x0; 0x0; 0xe0700; 0xe0300; 0x15f5754; 0x3fffffc;
   0x3fffffc; 0xe0300; 0xe0700; 0x30380; 0x701c0; 0x2aba9c0; 0x3fffce0; 0x3fffce0;
   0x3870cf0; 0x3830cf8; 0x3870cfc; 0x3830cee; 0x3fffcec; 0x3fffce0; 0x3870ce0; 0x830ce0;
   0x700e0; 0x300e0; 0x700e0; 0x300e0; 0x700e0; 0x0; 0x0; 0x0;
   0x0; 0x202000; 0x0; 0x0; 0x0; 0xe0700; 0xe0700; 0x3fffffc;
   0x3fffffc; 0x15f5754; 0xe0700; 0xe07c0; 0xc0; 0x1ffffe0; 0x1ffffe0; 0x1c00070;
   0xc00038; 0x1c1ffdc; 0xc1ffce; 0x1c1c0cc; 0xc180c0; 0xc1ffc0; 0xc1ffc0; 0xc1c0c0;
   0xc180c0; 0xe1ffc0; 0xe1ffc0; 0x7100c0; 0x7f00c0; 0x7f0000; 0x0; 0x0;
   0x0; 0x0; 0x202000; 0x0; 0x0; 0x0; 0xe0300; 0xe0300;
   0x3ffdffc; 0x3ff9ffc; 0xe0300; 0xe0300; 0x0; 0x1fffff8; 0x1fffff8; 0x0;
   0x3fffc0; 0x3fffc0; 0x3555c0; 0x3000c0; 0x3555c0; 0x3fffc0; 0x3555c0; 0x3000c0;
   0x3555c0; 0x3fffc0; 0x3fffc0; 0x0; 0x3fffffc; 0x3fffffc; 0x0; 0x0;
   0x0; 0x0; 0x0; 0x202000; 0x0; 0x0; 0x0; 0xc0300;
   0xc0300; 0x3fffffc; 0x3fffffc; 0x3fffffc; 0xc0300; 0xce300; 0xf800; 0x3fc00;
   0xf8e00; 0x7e07c0; 0xf801f0; 0x3fffffc; 0x11fff88; 0x157500; 0x6000; 0x6000;
   0x7fffe0; 0x7fffe0; 0x6000; 0x6000; 0x6000; 0x3fffffc; 0x3fffffc; 0x0;
   0x0; 0x0; 0x0; 0x0; 0x202000; 0x0; 0x0; 0x0;
   0xe0700; 0xe0300; 0x3fffffc; 0x3fffffc; 0xe0700; 0xe7300; 0x6000; 0x3fffffc;
   0x3fffffc; 0x2aaaea8; 0x40700; 0xe0380; 0x7d1c0; 0x43ffe0; 0xe1ffe0; 0x707800].
Definition hanzi_data_370 : list N :=
  [0x3c1f00; 0x1e0fe0; 0xf81f8; 0xfe030; 0x3ff800; 0x783f00; 0x1f01ff0; 0x3c003f8;
   0x1800078; 0x0; 0x0; 0x0; 0x0; 0x202000; 0x0; 0x0;
   0x0; 0x10018e0; 0x18018e0; 0x1815df4; 0x189fffc; 0x18dfffc; 0x18c18e0; 0x18c18e0;
   0x18caaa8; 0x18dfffc; 0x18cfffc; 0x18c38e0; 0x18c38e0; 0x18c38e0; 0x18c38e0; 0x18dfffc;
   0x18dfffc; 0x18c3860; 0x18c3860; 0x18c3860; 0x1803860; 0x1803870; 0x1803838; 0x1d0383c;
   0x1f8381e; 0x1f0380c; 0x0; 0x0; 0x0; 0x0; 0x202000; 0x0;
   0x0; 0x0; 0xe0700; 0xe0300; 0x3fffffc; 0x3fffffc; 0xe0700; 0xe0300;
   0x180; 0x1fff1c0; 0x1fff0e0; 0x70; 0x13c; 0x38c; 0x3fffbc0; 0x3fff9c0;
   0x3000f0; 0x3000f8; 0x3000fc; 0x3000ec; 0x3000e4; 0x3000e0; 0x3000e0; 0x3000e0;
   0x3000e0; 0x3f00e0; 0x1f00e0; 0x0; 0x0; 0x0; 0x0; 0x202000;
   0x0; 0x0; 0x0; 0xe0700; 0xe0300; 0x3fffffc; 0x3fffffc; 0xe0700;
   0xe0300; 0x7fffe0; 0x7fffe0; 0x755560; 0x600060; 0x7fffe0; 0x7fffe0; 0x700060;
   0x600060; 0x7fffe0; 0x7fffe0; 0x6000; 0x6000; 0x3fffffc; 0x3fffffc; 0x1557554;
   0x6000; 0x6000; 0x6000; 0x6000; 0x0; 0x0; 0x0; 0x0;
   0x202000; 0x0; 0x0; 0x0; 0xe0700; 0xe0300; 0xe0700; 0x3fffffc;
   0x3fffffc; 0xe0300; 0xe0780; 0xf80180; 0x1fffdc0; 0xffcc0; 0x700e0; 0x300e0;
   0x700f0; 0x300f8; 0x3fffffc; 0x3fffeec; 0x3ffffe4; 0x300e0; 0x700e0; 0x300e0;
   0x700e0; 0x300e0; 0x1fffce0; 0x1fffce0; 0xe0; 0x0; 0x0; 0x0;
   0x0; 0x202000; 0x0; 0x0; 0x0; 0xc0300; 0xc0300; 0x3fffffc;
   0x3fffffc; 0xc0300; 0xc1b00; 0x41d00; 0x2aaaea8; 0x3fffffc; 0x2aaafa8; 0x700;
   0x2aab80; 0xfff9c0; 0x7aa0e0; 0x3c00f0; 0xe00f8; 0x600de; 0x3fffecc; 0x3fffec4;
   0x600c0; 0x600c0; 0x600c0; 0x600c0; 0x7e0c0; 0x7c0c0; 0x0; 0x0;
   0x0; 0x0; 0x202000; 0x0; 0x0; 0x0; 0xe0700; 0xe0300;
   0x3fffffc; 0x3fffffc; 0xe6700; 0xe6300; 0x3fffffc; 0x3fffffc; 0x6000; 0xfffff8;
   0xfffff8; 0xc06000; 0xc06000; 0xfffff0; 0xfffff0; 0x6030; 0x1fffff0; 0x1fffff8;
   0x180f000; 0x181f800; 0x1f39c00; 0xff0f80; 0x7e07f0; 0x3f800fc; 0x3c0001c; 0x0;
   0x0; 0x0; 0x0; 0x202000; 0x0; 0x0; 0x0; 0xe0700;
   0xe0300; 0x3fffffc; 0x3fffffc; 0xe0700; 0xe7300; 0x47100; 0x2aaeaa8; 0x3fffffc;
   0x3fffffc; 0xc0; 0xc0; 0xffffc0; 0xffffc0; 0x555540; 0x82080; 0x1871c0;
   0x1861c0; 0x1871c0; 0x1860c0; 0x71870e0; 0x31860e0; 0x3587078; 0x3f8603e; 0x1f0701c;
   0x0; 0x0; 0x0; 0x0; 0x202000; 0x0; 0x0; 0x0;
   0xe0700; 0xe0300; 0x3fffffc; 0x3fffffc; 0x15f5754; 0xe0300; 0x180180; 0x380380;
   0x1c0700; 0xaeafa0; 0x1fffff0; 0xfffff0; 0xc0700; 0xc0300; 0xc0700; 0x2aeaba8;
   0x3fffffc; 0x3fffffc; 0xc0300; 0xc0380; 0xc01c0; 0xc01e0; 0xc00f0; 0xc0078;
   0xc0010; 0x0; 0x0; 0x0; 0x0; 0x202000; 0x0; 0x0;
   0x0; 0xe0700; 0xe0300; 0x3fffffc; 0x3fffffc; 0xe7700; 0xe6300; 0x7ffff0;
   0x7ffff0; 0x757d50; 0x601c00; 0x701f00; 0x3f07e0; 0x3f01f0; 0xc00c0; 0xc01c0;
   0x1ffdffc; 0x1ffdffc; 0x18e18c0; 0x18618c0; 0x18618e0; 0x1871c70; 0x1831870; 0x1c3dc3c;
   0xf9ef9e; 0xf8478c; 0x0; 0x0; 0x0; 0x0; 0x202000; 0x0;
   0x0; 0x0; 0xe0700; 0xe0300; 0x3fffffc; 0x3fffffc; 0x15f5754; 0xe3300;
   0x43500; 0xcabaa0; 0x1efffe0; 0x7fffe0; 0x3c3000; 0x1e3000; 0x3fffffc; 0x3fffffc;
   0x1f000; 0x3e00; 0x381fc0; 0x3e03f8; 0x1ff3fe; 0x83ff9c; 0x1c01f80; 0xc00380;
   0xffff00; 0xffff00; 0x0; 0x0; 0x0; 0x0; 0x0; 0x202000;
   0x0; 0x0; 0x0; 0x60700; 0x60600; 0x3fffffc; 0x3fffffc; 0x60700;
   0x60600; 0x70010; 0x30038; 0x300f0; 0x301c0; 0x3fffe80; 0x3fffe00; 0x380fc;
   0xf80fc; 0x1f80f4; 0x3dc0e0; 0x70e0e0; 0xe0f0e0; 0x1c07ce0; 0x3801ee0; 0x10005f0;
   0x3f8; 0x7ffff1c; 0x3fffc0c; 0x154000; 0x0; 0x0; 0x0; 0x0;
   0x202000; 0x0; 0x0; 0x0; 0xc0700; 0xc0300; 0x3fffffc; 0x3fffffc;
   0x3fffffc; 0xc2300; 0xc6700; 0x6000; 0x1fffff8; 0xfffff8; 0x7060c0; 0x3861c0;
   0x1c6180; 0xc6380; 0xc6100; 0x3fffffc; 0x3fffffc; 0xf800; 0x1fc00; 0x39e00;
   0xf0f00; 0x3e07c0; 0x1fc01f0; 0x3e0007c; 0x100001c; 0x0; 0x0; 0x0;
   0x0; 0x202000; 0x0; 0x0; 0x0; 0xe0700; 0xe0300; 0x3fffffc;
   0x3fffffc; 0xe0700; 0xe0b00; 0x1001c00; 0xfff800; 0x1fffffc; 0x203ff8; 0x7c7000;
   0x3ee000; 0x107f000; 0x383ff80; 0x1ff1ff8; 0x1fe00f0; 0x500000; 0x3fffffc; 0x3fffffc;
   0x30600; 0x30700; 0x3030380; 0x35701f0; 0x3ff00fc; 0x1fc001c; 0x0; 0x0;
   0x0; 0x0; 0x202000; 0x0; 0x0; 0x0; 0xe0700; 0xe0300;
   0x3fffffc; 0x3fffffc; 0xe0700; 0xe0300; 0x1c070; 0xc1c030; 0x1f1c070; 0x3fdff0;
   0xfdff0; 0x301c030; 0x301c070; 0x381fe30; 0x1fffff0; 0xffa3f0; 0x6010; 0x6000;
   0x3fffffc; 0x3fffffc; 0x6000; 0x6000; 0x6000; 0x6000; 0x6000; 0x0;
   0x0; 0x0; 0x0; 0x202000; 0x0; 0x0; 0x0; 0xe0700;
   0xe0300; 0x3fffffc; 0x3fffffc; 0xe0700; 0xe0300; 0x7f4000; 0x7fffe0; 0x1ffe0;
   0x3000; 0x3800; 0x3fffffc; 0x3fffffc; 0x70e00; 0x1e0780; 0x3c03e0; 0x7fe07fc;
   0x3ce063c; 0x10e0700; 0xe0700; 0xe0700; 0xe0380; 0xe01e0; 0xe00f8; 0xe0070;
   0x0; 0x0; 0x0; 0x0; 0x202000; 0x0; 0x0; 0x0].
Definition hanzi_data_371 : list N :=
  [0xc0300; 0xc0300; 0x3fffffc; 0x3fffffc; 0x3fffffc; 0xc6300; 0xcf300; 0xf800;
   0x3fc00; 0xf8e00; 0x1e07c0; 0xf803e0; 0x7fffffc; 0x38fff3c; 0x4; 0x0;
   0x1fffffc; 0x1fffff8; 0x41e00; 0x1e0f00; 0x3c0780; 0x7a01c0; 0xfffff0; 0x1efffe0;
   0x1c00060; 0x0; 0x0; 0x0; 0x0; 0x202000; 0x0; 0x0;
   0x0; 0xc0700; 0xc0300; 0x3fffffc; 0x3fffffc; 0xc0700; 0xc7300; 0x46100;
   0x3fffffc; 0x3fffffc; 0x1c0380; 0xf0700; 0x78e00; 0x3fc00; 0x3fc00; 0x17ffff0;
   0x3fe03fc; 0x1dc037c; 0xc0300; 0x1c0300; 0xc0380; 0x1c0380; 0xc0380; 0x1c01c0;
   0xc00e0; 0x1c0060; 0x0; 0x0; 0x0; 0x0; 0x202000; 0x0;
   0x0; 0x0; 0xe0700; 0xe0300; 0x3fffffc; 0x3fffffc; 0xe0700; 0xe0300;
   0x7ffc30; 0xfffcf8; 0x7ffde0; 0xf0080; 0x7c000; 0xf808; 0x3fffe7c; 0x3fffcf0;
   0x198c040; 0x18ce000; 0x18c7080; 0x18e30c0; 0x1863cc0; 0x1871ee0; 0x1c38e70; 0x1818030;
   0x1c1e038; 0xf8f01c; 0x786018; 0x0; 0x0; 0x0; 0x0; 0x202000;
   0x0; 0x0; 0x0; 0x60700; 0x60600; 0x3fffffc; 0x3fffffc; 0x60700;
   0x60600; 0x40500; 0x1fffff8; 0x1fffff8; 0x1802018; 0x1806018; 0x1806018; 0x6000;
   0x3fffffc; 0x3fffffc; 0x1f800; 0x3fc00; 0x76e00; 0x1e6700; 0x3c63c0; 0x7861f0;
   0x3e06078; 0x3c0603c; 0x1006008; 0x6000; 0x0; 0x0; 0x0; 0x0;
   0x202000; 0x0; 0x0; 0x0; 0xe0700; 0xe0300; 0x3fffffc; 0x3fffffc;
   0xe0700; 0xe0300; 0x1fffff8; 0x1fffff8; 0x1801c18; 0x1801c18; 0xfffff0; 0xfffff0;
   0x700; 0xc380; 0xc1c0; 0x2aeae0; 0x7fffe0; 0x2aeac0; 0xc000; 0x2aaeaa8;
   0x3fffffc; 0x2aaeaa8; 0xc000; 0xc000; 0xc000; 0x0; 0x0; 0x0;
   0x0; 0x202000; 0x0; 0x0; 0x0; 0x60700; 0x60600; 0x3fffffc;
   0x3fffffc; 0x1575754; 0x60600; 0x40500; 0x1fffff8; 0x1fffff8; 0x1800018; 0x180e018;
   0x180e018; 0x40e000; 0xe0eff8; 0x71eff8; 0x39e600; 0x1fe700; 0xfe300; 0xee380;
   0x1ce1c0; 0x7ce0f0; 0xf0e078; 0x3e0f43c; 0x1807e08; 0x7e00; 0x0; 0x0;
   0x0; 0x0; 0x202000; 0x0; 0x0; 0x0; 0xe0700; 0xe0300;
   0x3fffffc; 0x3fffffc; 0x15f5754; 0xe0300; 0x40500; 0x3fffff8; 0x3fffffc; 0x3802018;
   0x380619c; 0x38061d8; 0xffffc0; 0xffffe0; 0x6070; 0x6038; 0x6000; 0x2aaeaa8;
   0x3fffffc; 0x2aaeaa8; 0x6000; 0x6000; 0x6000; 0x6000; 0x6000; 0x0;
   0x0; 0x0; 0x0; 0x202000; 0x0; 0x0; 0x0; 0xe0700;
   0xe0300; 0x3fffffc; 0x3fffffc; 0x3fffffc; 0xe0300; 0xe0700; 0x0; 0x1fffffc;
   0x1fffff8; 0x180001c; 0x180e018; 0x180601c; 0x606180; 0x7071c0; 0x38f0e0; 0x1df060;
   0xdf870; 0x39c20; 0x70e00; 0x1f0f00; 0x3e07c0; 0x7f801fc; 0x3e000fc; 0x100001c;
   0x0; 0x0; 0x0; 0x0; 0x202000; 0x0; 0x0; 0x0;
   0xe0700; 0xe0300; 0x3fffffc; 0x3fffffc; 0xe0700; 0xe0300; 0x555540; 0x7fffe0;
   0x7ffff0; 0x600000; 0x7fffe0; 0x7fffe0; 0x700000; 0x7fffe0; 0x7ffff0; 0x180000;
   0x1c0000; 0x3fffffc; 0x7fffffc; 0x180380; 0x1c0700; 0x180e00; 0x1d4c00; 0x1fc000;
   0x78000; 0x0; 0x0; 0x0; 0x0; 0x202000; 0x0; 0x0;
   0x0; 0xe0700; 0xe0300; 0x3fffffc; 0x3fffffc; 0xe0700; 0xe0300; 0xffffe0;
   0xffffe0; 0xf555e0; 0xe000e0; 0xe000e0; 0xffffe0; 0xffffe0; 0xaeaae0; 0xc0060;
   0x1c1c60; 0x1cfe70; 0x3be070; 0x73c070; 0xe00138; 0x3c01f9c; 0x380fe0e; 0x107f00c;
   0xf8000; 0x40000; 0x0; 0x0; 0x0; 0x0; 0x202000; 0x0;
   0x0; 0x0; 0xe0700; 0xe0300; 0x3fffffc; 0x3fffffc; 0x15f5754; 0xe0300;
   0x40500; 0xc0ffc; 0xc1ffc; 0xc0e00; 0xc0780; 0xecc1c0; 0xcce1c0; 0xcce9c0;
   0x1cc6ff0; 0x18c6ffc; 0x18c71fc; 0x38c31c0; 0x30c39c0; 0x30c19c0; 0x10c11c0; 0xc01c0;
   0xf41f8; 0xfc0f0; 0x7c070; 0x0; 0x0; 0x0; 0x0; 0x202000;
   0x0; 0x0; 0x0; 0xe0700; 0xe0300; 0x3fffffc; 0x3fffffc; 0xe0700;
   0xe0300; 0x1ffc7f8; 0x1ffcff8; 0x1d5c618; 0x180c618; 0x1c0c318; 0x1ffc398; 0x1ffc1d8;
   0x1aac398; 0x1c0c718; 0x180ce18; 0x1ffcc18; 0x1ffcc18; 0x1ffee18; 0x180ef98; 0x1c077d8;
   0x1807018; 0x1c03818; 0x1fc3c18; 0xfc1818; 0x0; 0x0; 0x0; 0x0;
   0x202000; 0x0; 0x0; 0x0; 0xe0700; 0xe0300; 0x15f5754; 0x3fffffc;
   0x3fffffc; 0xe0300; 0xe0700; 0xfffff8; 0x1fffff8; 0x1eaaaa8; 0xc1c300; 0xe1cf80;
   0x41dc00; 0xc8f0; 0x1c1e0; 0xc380; 0x3fffffc; 0x3fffffc; 0x3fffffc; 0x7800;
   0xfbc00; 0x3e1e00; 0x1fc07f0; 0x1e003fc; 0x1800078; 0x0; 0x0; 0x0;
   0x0; 0x202000; 0x0; 0x0; 0x0; 0xe0700; 0xe0300; 0xe0700;
   0x3fffffc; 0x3fffffc; 0xe0300; 0xe0700; 0x80; 0x1c0; 0x1ffe0e0; 0x1fff470;
   0xc0e38; 0xc07fc; 0xc03fc; 0xc01c4; 0xc00e0; 0xc0770; 0xc07f8; 0xc01fc;
   0xc0008; 0xc0400; 0x3ffffe0; 0x7fffffc; 0x2aaa83c; 0x0; 0x0; 0x0;
   0x0; 0x0; 0x202000; 0x0; 0x0; 0x0; 0xe0700; 0xe0300;
   0x3fffffc; 0x3fffffc; 0x15f5754; 0xe0300; 0x600580; 0x6001c0; 0x6001c0; 0x2eaa8e0;
   0x3fffc70; 0x3ffee38; 0x6007fc; 0x6083fc; 0x61c1c4; 0x6380e0; 0x631f70; 0x630ff8;
   0x6701f8; 0x620008; 0x601c00; 0x601fe0; 0x6007fc; 0x7e003c; 0x7c0000; 0x0;
   0x0; 0x0; 0x0; 0x202000; 0x0; 0x0; 0x0; 0xe0700;
   0xe0300; 0x3fffffc; 0x3fffffc; 0x15f5754; 0xe0300; 0x381c0; 0x380c0; 0x155c0e0;
   0x1ffc460; 0x1ffce70; 0x180e6b8; 0x18073fc; 0x181b1fc; 0x18381c0; 0x18300e0; 0x1c70f70].
Definition hanzi_data_372 : list N :=
  [0x18e0ffc; 0x1cc01fc; 0x1c00000; 0x1c01c00; 0xc00ff8; 0xf407fc; 0xfc002c; 0x7c0000;
   0x0; 0x0; 0x0; 0x0; 0x202000; 0x0; 0x0; 0x0;
   0xe0700; 0xe0300; 0x3fffffc; 0x3fffffc; 0x15f5754; 0xe0300; 0xe0780; 0x380;
   0x3fffdc0; 0x3fffcc0; 0xe000e0; 0xe00070; 0xe7fc78; 0xe7fc7c; 0xe61c7e; 0xe60c6c;
   0xe61c64; 0xe60c60; 0xe7fc60; 0xe7fc60; 0xe01c60; 0xe00860; 0xf50060; 0xfe0060;
   0x7e0060; 0x0; 0x0; 0x0; 0x0; 0x202000; 0x0; 0x0;
   0x0; 0xe0700; 0xe0300; 0x3fffffc; 0x3fffffc; 0xe4700; 0xe6300; 0x3fffff8;
   0x3fffff8; 0x6000; 0x6000; 0x1fffff8; 0x1fffff8; 0x1800018; 0x19fff98; 0x19fff98;
   0xf8000; 0x1e000; 0x6000; 0x3fffffc; 0x3fffffc; 0x6000; 0x6000; 0x6000;
   0x7e00; 0x7e00; 0x0; 0x0; 0x0; 0x0; 0x202000; 0x0;
   0x0; 0x0; 0xe0700; 0xe0300; 0x3fffffc; 0x3fffffc; 0x15f5754; 0xe0300;
   0xe0700; 0x60218; 0x60778; 0x603f0; 0x38661e0; 0x18660e0; 0x1c671f8; 0xc631bc;
   0xe63b9c; 0x6e1b80; 0x4f13c0; 0x1b03e0; 0x1b83f8; 0x3b839c; 0x71c388; 0xe0e180;
   0x7c079c0; 0x3803df8; 0x30018f0; 0x0; 0x0; 0x0; 0x0; 0x202000;
   0x0; 0x0; 0x0; 0xe0700; 0xe0300; 0x3fffffc; 0x3fffffc; 0x15f7754;
   0xee300; 0x4fd00; 0x3fc00; 0x79f00; 0x1e0780; 0xfc03f0; 0x7fffffe; 0x3cfff3c;
   0x200600c; 0x6000; 0x1fffff8; 0x1fffff8; 0x6000; 0xc6180; 0x1c6180; 0x3861e0;
   0x7060e0; 0xe06078; 0x1c07e38; 0x7e10; 0x0; 0x0; 0x0; 0x0;
   0x202000; 0x0; 0x0; 0x0; 0xe0700; 0xe0300; 0x3fffffc; 0x3fffffc;
   0xe0700; 0x4e0300; 0xffd000; 0x3ffff8; 0x317ff8; 0x303040; 0x3870e0; 0x18e1c0;
   0x1cdb80; 0x81c80; 0x1555d54; 0x3fffffc; 0x3fffffc; 0xe0300; 0xf0380; 0x78fc0;
   0x3ff00; 0x1ff800; 0x1ff7fd0; 0x1f00ffc; 0xc00078; 0x0; 0x0; 0x0;
   0x0; 0x202000; 0x0; 0x0; 0x0; 0xe0700; 0xe0300; 0x3fffffc;
   0x3fffffc; 0xe0700; 0xe0300; 0xf0700; 0x381c0; 0x701c0; 0x700e0; 0x3fffe60;
   0x3fffe70; 0x601078; 0x603878; 0x70307c; 0x30306e; 0x307064; 0x386060; 0x387060;
   0x186060; 0x1c6060; 0xc6060; 0x7ffff60; 0x3ffff60; 0x60; 0x0; 0x0;
   0x0; 0x0; 0x202000; 0x0; 0x0; 0x0; 0xe0700; 0xe0300;
   0x3fffffc; 0x3fffffc; 0xe0700; 0x3ee300; 0xf8e000; 0xe0e000; 0x3fffff8; 0x3fffff8;
   0xe000; 0xffffe0; 0xfffff0; 0xc0e060; 0xc0e070; 0xffffe0; 0xfffff0; 0xc0e060;
   0xc0e070; 0xffffe0; 0xfffff0; 0xc0e060; 0xc0e070; 0xfce060; 0x7ce070; 0x0;
   0x0; 0x0; 0x0; 0x202000; 0x0; 0x0; 0x0; 0xe0700;
   0xe0300; 0x3fffffc; 0x3fffffc; 0xe0700; 0xe0300; 0x1c03000; 0x1867fe0; 0x1c61ff8;
   0x1860328; 0x1c60700; 0x1860300; 0x1c67ffc; 0x1867ffc; 0x1c60780; 0x1860f80; 0x1c61fc0;
   0x1863be0; 0x1c67770; 0x1862338; 0x1c0073c; 0x180031c; 0x1c00708; 0x1f80300; 0xf80700;
   0x0; 0x0; 0x0; 0x0; 0x202000; 0x0; 0x0; 0x0;
   0xe0700; 0xe0300; 0x3fffffc; 0x3fffffc; 0x15f5754; 0xe0300; 0xf0710; 0x30078;
   0x301f0; 0x7331c0; 0xe33080; 0xe33808; 0x1c3183c; 0x3831c78; 0x3831c70; 0x3e30e00;
   0x730400; 0x730080; 0x3801c0; 0x1c00e0; 0x1f0070; 0x7c038; 0x3fc3c; 0xfe18;
   0x1c08; 0x0; 0x0; 0x0; 0x0; 0x202000; 0x0; 0x0;
   0x0; 0xe0700; 0xe0300; 0x3fffffc; 0x3fffffc; 0x15f5754; 0xe0300; 0xe0700;
   0x3fffc0; 0x7fffc0; 0x3000c0; 0x7000c0; 0x3000c0; 0x7fffc0; 0x3fffc0; 0x0;
   0x0; 0xfffff0; 0xfffff0; 0xe00070; 0xe00030; 0xe00070; 0xe00030; 0xfffff0;
   0xfffff0; 0xe00070; 0x0; 0x0; 0x0; 0x0; 0x202000; 0x0;
   0x0; 0x0; 0xc0700; 0xc0300; 0x3fffffc; 0x3fffffc; 0xc0700; 0xc03c0;
   0x3ffffc0; 0x3ffffe0; 0x1555570; 0x38; 0x7fffdc; 0x7fffcc; 0x6071c8; 0x61e0c0;
   0x175d5d4; 0x3fffffc; 0x3fffffc; 0x6078c0; 0x71e0c0; 0x7180e0; 0x1ffffe0; 0x1ffffe0;
   0x300000; 0x3f8000; 0x1f0000; 0x0; 0x0; 0x0; 0x0; 0x202000;
   0x0; 0x0; 0x0; 0xe0700; 0xe0300; 0x3fffffc; 0x3fffffc; 0x3fffffc;
   0xe3300; 0xe7700; 0x6000; 0xfffff0; 0xfffff0; 0x1c0300; 0xe0300; 0x60700;
   0x2aeaaa8; 0x3fffffc; 0x3fffffc; 0x6000; 0x6000; 0x1fffff0; 0xfffff0; 0x1557550;
   0x6000; 0x6000; 0x6000; 0x6000; 0x0; 0x0; 0x0; 0x0;
   0x202000; 0x0; 0x0; 0x0; 0xe0700; 0xe0300; 0x3fffffc; 0x3fffffc;
   0xe0700; 0xe0300; 0x7fffe0; 0x7fffe0; 0x703000; 0x703800; 0x7fffffc; 0x3fffffc;
   0x701c00; 0x7aaea0; 0x7ffff0; 0x700; 0x380; 0xffffc0; 0xfffff0; 0xe001f8;
   0xe001bc; 0xe00188; 0xffff80; 0xffff80; 0xe00180; 0x0; 0x0; 0x0;
   0x0; 0x202000; 0x0; 0x0; 0x0; 0xe0700; 0xe0700; 0x3fffffc;
   0x3fffffc; 0xe0700; 0xe0700; 0xf00100; 0x1ffa3f8; 0x7ffbfc; 0x63980; 0x600c0;
   0x600e0; 0x1fff870; 0x1fffbf8; 0x15753f8; 0x60308; 0x60398; 0x601b8; 0x3fffdf0;
   0x3fffcf0; 0x1e0; 0x3f0; 0x7fffff8; 0x3fffe1e; 0x3ffc00c; 0x0; 0x0;
   0x0; 0x0; 0x202000; 0x0; 0x0; 0x0; 0xe0700; 0xe0300;
   0x15f5754; 0x3fffffc; 0x3fffffc; 0xe0300; 0xf87c0; 0x381c0; 0x185c0; 0x186e0;
   0x3ffc660; 0x3ffc670; 0xe1e670; 0xe1e678; 0x61f67c; 0x73be6e; 0x331664; 0x3f0660;
   0x1e0660; 0x1e0660; 0x3f0660; 0xfb8660; 0x1f1f060; 0x3c0f860; 0x3003060; 0x0;
   0x0; 0x0; 0x0; 0x202000; 0x0; 0x0; 0x0; 0xe0700].
Definition hanzi_data_373 : list N :=
  [0xe0300; 0x3fffffc; 0x3fffffc; 0x15f5754; 0xe0300; 0x1e6700; 0x386180; 0x386180;
   0x1861c0; 0x1c61c0; 0x3c63e0; 0xfe6770; 0x1e66e38; 0x3c7ee3c; 0x1836418; 0xfffff0;
   0xffffe0; 0xfffff0; 0x6000; 0x6000; 0x6000; 0x3fffffc; 0x3fffffc; 0x0;
   0x0; 0x0; 0x0; 0x0; 0x202000; 0x0; 0x0; 0x0;
   0xc0700; 0xc0300; 0x3fffffc; 0x3fffffc; 0xc7700; 0xc6300; 0x6000; 0x1fffff8;
   0x1fffffc; 0x1800018; 0x180001c; 0x1bfffd8; 0x3fffc0; 0x0; 0x0; 0x3fffffc;
   0x3fffffc; 0x30e00; 0x30600; 0x30600; 0x3030700; 0x3030380; 0x3ff01f0; 0x3ff00fc;
   0x1fc001c; 0x0; 0x0; 0x0; 0x0; 0x202000; 0x0; 0x0;
   0x0; 0xe0700; 0xe0300; 0x3fffffc; 0x3fffffc; 0xe0700; 0x380300; 0x7ffff0;
   0x3fff0; 0x6000; 0x2aaeaa8; 0x3fffffc; 0x2abfaa8; 0x76f00; 0x3e6780; 0x1f861f0;
   0x3e2aabe; 0x107fffc; 0x3ae80; 0xff0600; 0xff8700; 0x600780; 0x6003c0; 0x7001f0;
   0x7fc07c; 0x3fc018; 0x0; 0x0; 0x0; 0x0; 0x202000; 0x0;
   0x0; 0x0; 0xe0300; 0xe0300; 0x3fffffc; 0x3fffffc; 0xe0300; 0xe7300;
   0x6000; 0x7fffe0; 0x7fffe0; 0x6000e0; 0x6000e0; 0x7fffe0; 0x7fffe0; 0x6000e0;
   0x6000e0; 0x7fffe0; 0x1ffffe0; 0x3e0e0e0; 0xf9c0e0; 0x3f80e0; 0xf00e0; 0x3ef8e0;
   0x7fcffe0; 0x3e00fe0; 0x1000060; 0x0; 0x0; 0x0; 0x0; 0x202000;
   0x0; 0x0; 0x0; 0xe0700; 0xe0300; 0x3fffffc; 0x3fffffc; 0xe0700;
   0xe0300; 0x7f4000; 0xfffff8; 0x617ff0; 0x7030c0; 0x3870c0; 0x1ce180; 0x1fffe0;
   0x3fffe0; 0x1f5540; 0x78000; 0x1e000; 0x3fffffc; 0x3fffffc; 0x6000; 0x6000;
   0x6000; 0x6000; 0x7e00; 0x7e00; 0x0; 0x0; 0x0; 0x0;
   0x202000; 0x0; 0x0; 0x0; 0xe0700; 0xe0300; 0x3fffffc; 0x3fffffc;
   0xe0700; 0xe8300; 0x33bf00; 0x73bff8; 0x1e387fc; 0x1c38388; 0x830380; 0x2ababa8;
   0x3fffffc; 0x3fffffc; 0x1c70380; 0xe60380; 0x777f80; 0x767ff8; 0x3e07fc; 0x1e038c;
   0x71f0380; 0x21f8380; 0x379f380; 0x3f0f3f0; 0x1e031f0; 0x0; 0x0; 0x0;
   0x0; 0x202000; 0x0; 0x0; 0x0; 0xc0700; 0xc0300; 0x3fffffc;
   0x3fffffc; 0xc0700; 0xc0300; 0x7fffe0; 0x7fffe0; 0x600060; 0x600060; 0x7fffe0;
   0x7fffe0; 0x600060; 0x6aaae0; 0x7fffe0; 0x2aeaa0; 0x7000; 0x3fffffc; 0x3fffffc;
   0x1f800; 0x39c00; 0xf0f00; 0x1fe07f0; 0x3f801fc; 0x3c0001c; 0x0; 0x0;
   0x0; 0x0; 0x202000; 0x0; 0x0; 0x0; 0xe0700; 0xe0300;
   0x3fffffc; 0x3fffffc; 0x3fffffc; 0xe0300; 0xe4700; 0xc0e0; 0xc0e0; 0x3ffe0e0;
   0x1ffe0e0; 0x1c077fc; 0xc737fc; 0xe338e0; 0x6718e0; 0x700e0; 0x700e0; 0xf80e0;
   0xf87e0; 0x1dcfe0; 0x39e1fc; 0x70f03c; 0x1f07c04; 0x3c01e00; 0x3000400; 0x0;
   0x0; 0x0; 0x0; 0x202000; 0x0; 0x0; 0x0; 0xc0300;
   0xc0300; 0x3fffffc; 0x3fffffc; 0xc0300; 0xc6300; 0x6000; 0x6000; 0x1fffff8;
   0x1fffff8; 0x7061c0; 0x386180; 0x1c6380; 0xc6380; 0x3fffffc; 0x3fffffc; 0x155fd54;
   0x3fc00; 0x76f00; 0xe6780; 0x7c63c0; 0xf860f0; 0x7e0607c; 0x380601c; 0x6000;
   0x0; 0x0; 0x0; 0x0; 0x202000; 0x0; 0x0; 0x0;
   0xe0700; 0xe0300; 0x3fffffc; 0x3fffffc; 0xe0700; 0xec300; 0x1c01c; 0x1fffe38;
   0x1fffe70; 0x70e0; 0x67040; 0x63800; 0x1fffc7c; 0x1fffc7c; 0x60060; 0x60060;
   0x1575460; 0x3fffe60; 0x3fffe60; 0x60060; 0x601f0; 0x603f8; 0x7f57f1c; 0x3fffe0c;
   0x17ff004; 0x0; 0x0; 0x0; 0x0; 0x202000; 0x0; 0x0;
   0x0; 0xc0700; 0xc0300; 0x3fffffc; 0x3fffffc; 0x15d5754; 0xc0300; 0x740000;
   0x6007f8; 0x7007f8; 0x600618; 0x3fff618; 0x3fff618; 0x700618; 0x6046b8; 0x70e7f8;
   0x60c6b8; 0x71c618; 0x638618; 0x730618; 0x600618; 0x7007f8; 0x6007f8; 0x700018;
   0x7e0018; 0x3e0000; 0x0; 0x0; 0x0; 0x0; 0x202000; 0x0;
   0x0; 0x0; 0xc0700; 0xc0300; 0x3fffffc; 0x3fffffc; 0xc0700; 0xc0300;
   0x155540; 0x3fffe0; 0x7fffe0; 0x3000e0; 0x7000e0; 0x3fffe0; 0x7fffe0; 0x6000;
   0x6000; 0x1fffff8; 0x1fffff8; 0x1807038; 0x1c1f838; 0x1879e38; 0x1df0fb8; 0x18803b8;
   0x1d00038; 0x1f80038; 0xf00038; 0x0; 0x0; 0x0; 0x0; 0x202000;
   0x0; 0x0; 0x0; 0xc0300; 0xc0300; 0x3fffffc; 0x3fffffc; 0x3fffffc;
   0xce300; 0xc7300; 0x1f800; 0x79e00; 0xf0f80; 0x7c07c0; 0x3faaaf8; 0x3cfff7c;
   0xaaa0c; 0x3000; 0x7030e0; 0x7070c0; 0x3861c0; 0x18e180; 0x1cc380; 0xc4300;
   0xe0000; 0x3fffffc; 0x3fffffc; 0x0; 0x0; 0x0; 0x0; 0x0;
   0x202000; 0x0; 0x0; 0x0; 0xe0700; 0xe0600; 0x3fffffc; 0x3fffffc;
   0x15f5754; 0xe0600; 0x40510; 0x360638; 0x7707f0; 0xe603e0; 0x1c701f0; 0x2aea9f8;
   0x3fffd9c; 0x3fffb80; 0x70380; 0xf03c0; 0xf03f0; 0x1f8338; 0x19831e; 0x39c30c;
   0x71e300; 0xe0e380; 0x1e079c0; 0x3803df8; 0x1001cf0; 0x0; 0x0; 0x0;
   0x0; 0x202000; 0x0; 0x0; 0x0; 0xe0700; 0xe0300; 0x3fffffc;
   0x3fffffc; 0xe0700; 0xe0300; 0x130138; 0x7303f0; 0xe301f0; 0xc300e0; 0x3fffdf0;
   0x3fffdb8; 0x3fffd9c; 0x38380; 0x783c0; 0x783e0; 0x7c370; 0x6c3b8; 0x106e31e;
   0x306e38c; 0x7067380; 0x3063980; 0x3fe1fd0; 0x3fe0ef8; 0x500470; 0x0; 0x0;
   0x0; 0x0; 0x202000; 0x0; 0x0; 0x0; 0xe0700; 0xe0300;
   0x3fffffc; 0x3fffffc; 0x15f5754; 0xe0300; 0x40500; 0x1fffff8; 0x1fffffc; 0x1800018;
   0x180001c; 0x1aaaab8; 0x7fffe0; 0x2aeaa0; 0x6000; 0x6000; 0x7fffe0; 0x7fffe0].
Definition hanzi_data_374 : list N :=
  [0x5d7540; 0x1c6000; 0x786000; 0x306000; 0x3fffffc; 0x3fffffc; 0x0; 0x0;
   0x0; 0x0; 0x0; 0x202000; 0x0; 0x0; 0x0; 0xe0700;
   0xe0300; 0x3fffffc; 0x3fffffc; 0xe0700; 0xe0300; 0x1fffff8; 0x1fffff8; 0x1807018;
   0x1aaba98; 0x1bfffd8; 0x3aaac0; 0x303cc0; 0x30f0c0; 0x3ec0c0; 0xa00c0; 0x1ffffc0;
   0x1ffffc0; 0x1800000; 0x1800000; 0x19ffffc; 0x18ffffc; 0x1c00000; 0xfc0000; 0x7c0000;
   0x0; 0x0; 0x0; 0x0; 0x202000; 0x0; 0x0; 0x0;
   0xe0700; 0xe0300; 0x3fffffc; 0x3fffffc; 0xe0700; 0xe0300; 0xc01c0; 0xc00c0;
   0x3fff0e0; 0x3fff060; 0xc0e70; 0x18c6638; 0x1cc67fc; 0x18c63b8; 0x1cc61c0; 0x18c60e0;
   0x1dd6f70; 0x1ffeffc; 0x1ffe5fc; 0xc0000; 0x10c0c00; 0x30c0ff8; 0x30c07fc; 0x3fc002c;
   0x1f80000; 0x0; 0x0; 0x0; 0x0; 0x202000; 0x0; 0x0;
   0x0; 0xe0700; 0xe0300; 0x3fffffc; 0x3fffffc; 0xe0700; 0xe3300; 0x1e7000;
   0x7c3800; 0x3fffffc; 0x3fffffc; 0x70e00; 0xe0700; 0x3c07c0; 0xf801f8; 0x3ee077c;
   0x10e060c; 0x15f5754; 0x3fffffc; 0x3fffffc; 0xe0300; 0xe0380; 0xe03c0; 0xe01f0;
   0xe0078; 0xe0030; 0x0; 0x0; 0x0; 0x0; 0x202000; 0x0;
   0x0; 0x0; 0xe0700; 0xe0300; 0x3fffffc; 0x3fffffc; 0xe0700; 0xe0300;
   0x1800700; 0x1800300; 0x186fffc; 0x186fffc; 0x1860700; 0x1860300; 0x186fff8; 0x186ebb8;
   0x186e718; 0x186e318; 0x186ff18; 0x1867b98; 0x18607c0; 0x1821fc0; 0x1807f70; 0x180e338;
   0x180c71c; 0x1f8030c; 0x1f00704; 0x0; 0x0; 0x0; 0x0; 0x202000;
   0x0; 0x0; 0x0; 0xe0300; 0xe0300; 0x3fffffc; 0x3fffffc; 0xe0300;
   0xe3300; 0x7000; 0x3fffff8; 0x3fffffc; 0x3800088; 0x380019c; 0x3aa8188; 0xffbfc0;
   0xebbfe0; 0xc1b870; 0xc19838; 0xc19ddc; 0xe98fcc; 0x798f00; 0x18700; 0x3018780;
   0x30183c0; 0x3ff81f0; 0x3ff8078; 0x1ff0018; 0x0; 0x0; 0x0; 0x0;
   0x202000; 0x0; 0x0; 0x0; 0xe0700; 0xe0300; 0x3fffffc; 0x3fffffc;
   0xe4700; 0x86200; 0x1fffff0; 0xaaeaa0; 0x557540; 0xffffe0; 0x557550; 0x6000;
   0x3fffffc; 0x2aaaaa8; 0x7fffe0; 0x7fffe0; 0x7000e0; 0x7fffe0; 0x7fffe0; 0x6000e0;
   0x7fffe0; 0x6aaae0; 0x7000e0; 0x7e00e0; 0x3e00e0; 0x0; 0x0; 0x0;
   0x0; 0x202000; 0x0; 0x0; 0x0; 0xe0700; 0xe0300; 0x3fffffc;
   0x3fffffc; 0xe0700; 0xe0300; 0x301c0; 0x381c0; 0x15581c0; 0x1ffcff8; 0x1ffcff8;
   0x180ee18; 0x1807e18; 0x183be18; 0x1872e18; 0x1860ff8; 0x1ce0ff8; 0x18c0e18; 0x1c40e18;
   0x1c00e18; 0x1c00e18; 0xc00ff8; 0xfe0ff8; 0xfc0018; 0x7c0010; 0x0; 0x0;
   0x0; 0x0; 0x202000; 0x0; 0x0; 0x0; 0xc0700; 0xc0300;
   0x3fffffc; 0x3fffffc; 0xc0700; 0xc7300; 0x6000; 0x1fffff8; 0x1fffff8; 0x1800018;
   0x1bfffd8; 0x1bfffd8; 0x3801c0; 0x3800c0; 0x3fffc0; 0x3fffc0; 0x1c0; 0xc0;
   0x7fffc0; 0x7fffc0; 0x7001c0; 0x6000c0; 0x7fffc0; 0x7fffc0; 0x7001c0; 0x0;
   0x0; 0x0; 0x0; 0x202000; 0x0; 0x0; 0x0; 0x60700;
   0x60300; 0x3fffffc; 0x3fffffc; 0x1575754; 0x60300; 0x60740; 0xc00c0; 0x1c00c0;
   0xc00e0; 0x3fffffc; 0x3ffeffc; 0x1c0c70; 0xc0e30; 0x1c0e30; 0xae8638; 0x1ffc718;
   0x1ffc378; 0x180c3f0; 0x180c3c0; 0x180cfc0; 0x1aadee0; 0x1ffdc78; 0x1ffc83c; 0x180c018;
   0x0; 0x0; 0x0; 0x0; 0x202000; 0x0; 0x0; 0x0;
   0xe0700; 0xe0300; 0x3fffffc; 0x3fffffc; 0xe0700; 0x2aaaa0; 0x7ffff0; 0x300000;
   0x700000; 0x3fffe0; 0x755540; 0x300000; 0x3fffffc; 0x3fffffc; 0x606060; 0x7060e0;
   0x3c61c0; 0xfe380; 0x7fd00; 0xf6f80; 0x7c67f0; 0x3f860fc; 0x1c06038; 0x7e00;
   0x7c00; 0x0; 0x0; 0x0; 0x0; 0x202000; 0x0; 0x0;
   0x0; 0xc0700; 0xc0300; 0x3fffffc; 0x3fffffc; 0x15d5754; 0xc0380; 0xc05c0;
   0xc0; 0x1ffffe0; 0x1ffffe0; 0x1c03870; 0x1ce38f8; 0x1c739de; 0x1c33b88; 0x1c3bb00;
   0xdffff0; 0x1dffff0; 0xc07c00; 0x1c1fe00; 0xc3bf00; 0xc73bc0; 0xe638e0; 0xe03878;
   0xfe3830; 0x7c3800; 0x0; 0x0; 0x0; 0x0; 0x202000; 0x0;
   0x0; 0x0; 0xe0700; 0xe0300; 0x3fffffc; 0x3fffffc; 0xe0700; 0xe0300;
   0x555550; 0xfffff0; 0x1fffff0; 0xc60030; 0x1cfff30; 0xc0ff30; 0x1c06030; 0xcaeab0;
   0x1dffff0; 0xcafab0; 0x1c3fc30; 0xc76e30; 0x1ce6730; 0xdc63f0; 0x1d861b0; 0xc00030;
   0x1fffff0; 0xfffff0; 0x1c00030; 0x0; 0x0; 0x0; 0x0; 0x202000;
   0x0; 0x0; 0x0; 0xe0300; 0xe0300; 0x3fffffc; 0x3fffffc; 0xe6300;
   0xef300; 0x1f800; 0x39c00; 0xf0f00; 0x3e2780; 0x1f871f0; 0x3e0e0fc; 0x380c01c;
   0x3fffe0; 0x3fffe0; 0x380000; 0x1c1000; 0xc7800; 0x2cf700; 0x70c660; 0xe40770;
   0x1cc0638; 0x38d571c; 0x30ffe0c; 0x7fc00; 0x0; 0x0; 0x0; 0x0;
   0x202000; 0x0; 0x0; 0x0; 0xe0700; 0xe0300; 0x3fffffc; 0x3fffffc;
   0xe0700; 0xe0300; 0xe0710; 0x2aaaa38; 0x3fffff0; 0x2eaaac0; 0xe00000; 0xe0000c;
   0xe7fc3c; 0xe7fc78; 0xe61c70; 0xe60c00; 0xe61c00; 0xe6acc0; 0xe7fcc0; 0xe2ace0;
   0xe01c70; 0xe00030; 0xf40038; 0xfe001c; 0x7e0018; 0x0; 0x0; 0x0;
   0x0; 0x202000; 0x0; 0x0; 0x0; 0xe0700; 0xe0300; 0x3fffffc;
   0x3fffffc; 0xe0700; 0xe0300; 0x1ffcff0; 0x1ffcff0; 0x1d5cd70; 0x1c0cc30; 0x1d4cc30;
   0xf8cff0; 0x50cff0; 0xaacc30; 0x1ffcc30; 0x1abcc38; 0x1c7cff0; 0xcecff8; 0xeccc38;
   0x7ccc18; 0x78cc18; 0xf8cc18; 0x1ffcd1c; 0x38fcf8e; 0x103c78c; 0x0; 0x0;
   0x0; 0x0; 0x202000; 0x0; 0x0; 0x0; 0xe0700; 0xe0300].
Definition hanzi_data_375 : list N :=
  [0x3fffffc; 0x3fffffc; 0xe0700; 0xa0200; 0x3fffc0; 0x3fffc0; 0x3000c0; 0x3fffc0;
   0x3fffc0; 0x3000c0; 0x3fffc0; 0x3fffc0; 0x0; 0xfffff0; 0x1fffff0; 0xc00030;
   0x1d55570; 0xfffff0; 0x1d55570; 0xc00030; 0x1fffff0; 0xfffff0; 0x1c00030; 0x0;
   0x0; 0x0; 0x0; 0x202000; 0x0; 0x0; 0x0; 0xe0700;
   0xe0300; 0x3fffffc; 0x3fffffc; 0x15f5754; 0xe0300; 0x40540; 0x3080c0; 0x3181c0;
   0x7180c0; 0x61cffc; 0xe0cffc; 0x1c0e1c0; 0x38e71e0; 0x7867be0; 0x20736e0; 0x370ff0;
   0x338cf8; 0x7185dc; 0xe1c0dc; 0xc0c1cc; 0x1fee0c0; 0x1fff1c0; 0x383e0c0; 0x10001c0;
   0x0; 0x0; 0x0; 0x0; 0x202000; 0x0; 0x0; 0x0;
   0xe0700; 0xe0700; 0x3fffffc; 0x3fffffc; 0xe0700; 0x2e0700; 0xfff000; 0x3ffff8;
   0x417ff8; 0xe03820; 0xe07070; 0x6060e0; 0x7060c0; 0x3820c0; 0x106040; 0x2aaeaa8;
   0x3fffffc; 0x2abfaa8; 0x7fe00; 0xf6f00; 0x3e67c0; 0xf861f0; 0x7f0607e; 0x380603c;
   0x6000; 0x0; 0x0; 0x0; 0x0; 0x202000; 0x0; 0x0;
   0x0; 0xe0700; 0xe0300; 0x3fffffc; 0x3fffffc; 0xe0700; 0xe0300; 0x31c0c0;
   0x71c0c0; 0xe1c0c0; 0x2eaeffc; 0x3fffffc; 0x2aaeae8; 0xc0c0; 0xffc0c0; 0x1ffc4c0;
   0xc1e7c0; 0xe1e7fc; 0x63e0fc; 0x7770c4; 0x3e30c0; 0x1c38c0; 0x3e18c0; 0x1f7dcc0;
   0x3e3eef8; 0x1804478; 0x0; 0x0; 0x0; 0x0; 0x202000; 0x0;
   0x0; 0x0; 0xe0300; 0xe0300; 0x3fffffc; 0x3fffffc; 0xe0300; 0xe0f00;
   0x35700; 0x7ff00; 0x757c0; 0x381c0; 0x7ffff0; 0x7ffff8; 0x7575fc; 0x6060e8;
   0x6060e0; 0x6060e0; 0x7fffe0; 0x7fffe0; 0x1df800; 0x399c00; 0x171de00; 0x3218f80;
   0x355c3f0; 0x3ff80fc; 0x1ff003c; 0x0; 0x0; 0x0; 0x0; 0x202000;
   0x0; 0x0; 0x0; 0xe0700; 0xe0300; 0x3fffffc; 0x3fffffc; 0xe0700;
   0xe0300; 0x70038; 0x600f8; 0x3fffde0; 0x3fffc80; 0x1870c00; 0x1860c0c; 0x1870c3c;
   0xfffc78; 0xfffc60; 0xe06c00; 0x70ec40; 0x70cc40; 0x39ce60; 0x1f8e60; 0x1f0670;
   0x3f8738; 0x1f9f71c; 0x3e0ff9c; 0x1001908; 0x0; 0x0; 0x0; 0x0;
   0x202000; 0x0; 0x0; 0x0; 0xe0700; 0xe0300; 0x3fffffc; 0x3fffffc;
   0xe0700; 0xe0300; 0x1fffc0; 0x1fff80; 0xf0000; 0x183c018; 0x1d1e118; 0x1b86398;
   0x1de6718; 0x187ee18; 0x1c1f418; 0x183f818; 0x1cf7e18; 0x19c6798; 0x1fc61d8; 0x1907898;
   0x1c07818; 0x1800018; 0x1fffff8; 0x1fffff8; 0x1c00000; 0x0; 0x0; 0x0;
   0x0; 0x202000; 0x0; 0x0; 0x0; 0xe0700; 0xe0300; 0x3fffffc;
   0x3fffffc; 0x15f5754; 0xe0300; 0x1c001c0; 0x1fe0180; 0x7fc1c0; 0xc180; 0xdffc;
   0xdffc; 0x3ffc1c0; 0x3ffc3e0; 0x175c7e0; 0x30cfe0; 0x70ddf0; 0x30e9b8; 0x70e9dc;
   0x30618e; 0x7061cc; 0x306184; 0x7071c0; 0x303980; 0x7011c0; 0x0; 0x0;
   0x0; 0x0; 0x202000; 0x0; 0x0; 0x0; 0xe0700; 0xe0300;
   0x3fffffc; 0x3fffffc; 0xe0700; 0xe7300; 0x6000; 0x1fffff8; 0x1fffff8; 0x180380;
   0x1c0300; 0xc0700; 0x60700; 0x3fffffc; 0x3fffffc; 0x0; 0x7fffe0; 0x7fffe0;
   0x7555e0; 0x7000e0; 0x7000e0; 0x7000e0; 0x7fffe0; 0x7fffe0; 0x7000e0; 0x0;
   0x0; 0x0; 0x0; 0x202000; 0x0; 0x0; 0x0; 0xc0300;
   0xc0300; 0x3fffffc; 0x3fffffc; 0x15d5754; 0xc7300; 0x6000; 0x1fffff8; 0x1fffff8;
   0x1800038; 0x1c00038; 0x0; 0x3fffffc; 0x3fffffc; 0x700; 0x380; 0xffffc0;
   0xffffe0; 0xfffff0; 0xe001b8; 0xe0019c; 0xe00188; 0xffff80; 0xffff80; 0xe00180;
   0x0; 0x0; 0x0; 0x0; 0x202000; 0x0; 0x0; 0x0;
   0xe0700; 0xe0300; 0x3fffffc; 0x3fffffc; 0xe0700; 0xe0300; 0x1f00554; 0x3ff8ffc;
   0x7ff7fc; 0x66e300; 0x6673c0; 0xe660c0; 0xc670c0; 0xc67ec0; 0xc67ff0; 0xc633fc;
   0xc670fc; 0xc630c0; 0x1df30c0; 0x19b38c0; 0x1b318c0; 0x3bb98c0; 0x33fdcc0; 0x3238ef8;
   0x1200478; 0x0; 0x0; 0x0; 0x0; 0x202000; 0x0; 0x0;
   0x0; 0xe0700; 0xe0300; 0x3fffffc; 0x3fffffc; 0xe4700; 0xe6300; 0x7fffe0;
   0x7fffe0; 0x6000; 0x6000; 0x3fffffc; 0x3fffffc; 0x1f0f00; 0x7e07c0; 0x1f039f8;
   0x1801c38; 0x13fff10; 0x1aab80; 0x1e07f0; 0x70e78; 0x3fc10; 0x1f800; 0x7fffd0;
   0x3fe07fc; 0x1d0007c; 0x0; 0x0; 0x0; 0x0; 0x202000; 0x0;
   0x0; 0x0; 0xe0700; 0xe0300; 0x3fffffc; 0x3fffffc; 0xe0700; 0xe0300;
   0x30c00; 0x30c00; 0x3ff0ffc; 0x3ff0ffc; 0x1570d54; 0x30c00; 0x30c00; 0x1ff0ff8;
   0x1ff0ff8; 0x30c00; 0x30c00; 0x30c00; 0x7ff0ffc; 0x3ff0ffc; 0x30c00; 0x30c00;
   0x30c00; 0x30c00; 0x30c00; 0x0; 0x0; 0x0; 0x0; 0x202000;
   0x0; 0x0; 0x0; 0xe0700; 0xe0300; 0x3fffffc; 0x3fffffc; 0xe0700;
   0xe0300; 0x1c01c0; 0xc0180; 0x1e15d4; 0x363ffc; 0x773ffc; 0xe38060; 0x1c1c060;
   0x786efe0; 0x31f7fe0; 0x380c60; 0x700c70; 0x200c30; 0x8c30; 0x38c30; 0x1f8c38;
   0x3e0c18; 0xf00f5c; 0xe0078e; 0xc0078c; 0x0; 0x0; 0x0; 0x0;
   0x202000; 0x0; 0x0; 0x0; 0xe0700; 0xe0300; 0x3fffffc; 0x3fffffc;
   0xe0700; 0xe0300; 0x555530; 0xfff8f8; 0xfff9e0; 0xe03980; 0xe03900; 0xe03808;
   0xfff83c; 0xfff8f8; 0xe03860; 0xe03800; 0xe03980; 0xfff980; 0xfff9c0; 0xe038e0;
   0xe03870; 0xe03830; 0x7ffff38; 0x3ffff18; 0x1555510; 0x0; 0x0; 0x0;
   0x0; 0x202000; 0x0; 0x0; 0x0; 0xe0700; 0xe0300; 0x3fffffc;
   0x3fffffc; 0xe0700; 0xe6300; 0x607180; 0x706180; 0x7871c0; 0x18f0e0; 0x1ff870;
   0x3f1c00; 0xfc4f00; 0x1e063f8; 0x1c071fc; 0x607188; 0x70f1c0; 0x38f8e0; 0x1df870].
Definition hanzi_data_376 : list N :=
  [0xb9c38; 0x71e10; 0xe0f80; 0x1fc03f0; 0x3f800fc; 0x3c0001c; 0x0; 0x0;
   0x0; 0x0; 0x202000; 0x0; 0x0; 0x0; 0xe0700; 0xe0300;
   0x3fffffc; 0x3fffffc; 0xe0700; 0xe0300; 0x1c0; 0x1ffc180; 0x1ffffc0; 0x1c1bf80;
   0x1c381c0; 0xc30180; 0xc37ffc; 0xe77ffc; 0x677ffc; 0x7e0180; 0x7c19b0; 0x3c39b8;
   0x1c3198; 0x3e3198; 0x7f719c; 0xe7818c; 0x3c3c188; 0x380e1e0; 0x10041e0; 0x0;
   0x0; 0x0; 0x0; 0x202000; 0x0; 0x0; 0x0; 0xe0700;
   0xe0600; 0x3fffffc; 0x3fffffc; 0xe0700; 0x1a0380; 0x180180; 0x1fffff8; 0x1fffff8;
   0x180180; 0x180180; 0x1fff80; 0x1fff80; 0x180180; 0x1fff80; 0x1fff80; 0x180180;
   0x180180; 0x3fffffc; 0x3fffffc; 0xf0f00; 0x3e0780; 0xf801f0; 0x3e000fc; 0x1c00018;
   0x0; 0x0; 0x0; 0x0; 0x202000; 0x0; 0x0; 0x0;
   0xe0700; 0xe0300; 0x3fffffc; 0x3fffffc; 0x15f5754; 0xe3300; 0x47500; 0x1fffff8;
   0x1fffff8; 0x200; 0xc0700; 0xe0300; 0xf0780; 0x3f8fc0; 0x79dce0; 0xe0e878;
   0x406030; 0x2aaeaa8; 0x3fffffc; 0x3fffffc; 0x6000; 0x6000; 0x6000; 0x6000;
   0x6000; 0x0; 0x0; 0x0; 0x0; 0x202000; 0x0; 0x0;
   0x0; 0xe0700; 0xe0300; 0x3fffffc; 0x3fffffc; 0xe0700; 0xe03c0; 0xc0;
   0x1ffffe0; 0x1fffff0; 0x1800338; 0x1c003bc; 0x18fff9c; 0x1cfffcc; 0x18018e0; 0x1c01840;
   0x1dffff8; 0x1dffff8; 0xc01800; 0x1c618e0; 0xc618e0; 0x1c618e0; 0xc7ffe0; 0xc7ffe0;
   0xfc0000; 0x7c0000; 0x0; 0x0; 0x0; 0x0; 0x202000; 0x0;
   0x0; 0x0; 0xe0700; 0xe0300; 0x3fffffc; 0x3fffffc; 0xe5700; 0xe7300;
   0x557540; 0x7fffe0; 0x7fffe0; 0x606060; 0x7fffe0; 0x7fffe0; 0x607060; 0x603060;
   0x7fffe0; 0x7fffe0; 0x31e00; 0x30780; 0x15757d4; 0x3fffffc; 0x3fffffc; 0x30000;
   0x30000; 0x30000; 0x30000; 0x0; 0x0; 0x0; 0x0; 0x202000;
   0x0; 0x0; 0x0; 0xe0700; 0xe0300; 0x3fffffc; 0x3fffffc; 0xe6700;
   0x86200; 0x1fffff8; 0x1fffff8; 0x557540; 0x7fffe0; 0x706000; 0x3eaeaa8; 0x3fffffc;
   0x606000; 0x7ffff0; 0x7fffe0; 0x1c00; 0x3fffffc; 0x3fffffc; 0x1c0380; 0xf1fc0;
   0x7fe00; 0x3ffd00; 0x1fc3ffc; 0x1e007f8; 0x0; 0x0; 0x0; 0x0;
   0x202000; 0x0; 0x0; 0x0; 0xe0700; 0xe0300; 0x3fffffc; 0x3fffffc;
   0x15f5754; 0xe0300; 0xe0700; 0x1ffc000; 0x1ffcff8; 0x180cff8; 0x1c1cc18; 0x180cc18;
   0x1ffcff8; 0x1ffcff8; 0x1c1cd58; 0x180cc18; 0x1d5cc18; 0x1ffceb8; 0x1ffcff8; 0x180eff8;
   0x1c07018; 0x1807008; 0x1d03c00; 0x1f81e00; 0xf80c00; 0x0; 0x0; 0x0;
   0x0; 0x202000; 0x0; 0x0; 0x0; 0xe0700; 0xe0300; 0x3fffffc;
   0x3fffffc; 0x15f5754; 0xe0300; 0x10; 0x1fffc78; 0x1fffdf0; 0x8700c0; 0x1c71c80;
   0xc71808; 0xc7383c; 0x673078; 0x777070; 0x272000; 0x3ffff00; 0x3fffe80; 0x701c0;
   0x700e0; 0x70070; 0x70038; 0x7003c; 0x70018; 0x70000; 0x0; 0x0;
   0x0; 0x0; 0x202000; 0x0; 0x0; 0x0; 0xe0700; 0xe0300;
   0x3fffffc; 0x3fffffc; 0xe0700; 0x3e0300; 0x7ffff0; 0x2fff0; 0x6000; 0x3fffffc;
   0x3fffffc; 0x3fe00; 0x1f6780; 0x3f863f0; 0x3e07c7c; 0x1c08; 0x3fffffc; 0x3fffffc;
   0x1c0700; 0xe0f80; 0x77fc0; 0xff800; 0x7fff00; 0x3f83ff8; 0x1c001f8; 0x0;
   0x0; 0x0; 0x0; 0x202000; 0x0; 0x0; 0x0; 0xe0300;
   0xe0300; 0x3fffffc; 0x3fffffc; 0xe0300; 0xe0b00; 0x1c00; 0x1ffe00; 0x3fff00;
   0x1c0380; 0x1e01f0; 0x700f8; 0x79c3c; 0xffbf88; 0xffc7f0; 0xea8070; 0xc00070;
   0xea8af0; 0xff9ff0; 0xea8af0; 0xc00070; 0xc00070; 0xfffff0; 0xfffff0; 0xc00070;
   0x0; 0x0; 0x0; 0x0; 0x202000; 0x0; 0x0; 0x0;
   0xe0700; 0xe0300; 0x3fffffc; 0x3fffffc; 0xe0700; 0xe0380; 0x4e580; 0xc180;
   0x155d5c0; 0x1ffffe0; 0x1fffff0; 0x180f0; 0x1c0f8; 0xfffffc; 0xffffec; 0x180e0;
   0x1c0e0; 0xffffe0; 0xffffe0; 0x180e0; 0x1c0e0; 0x2abaae0; 0x3ffffe0; 0x2aaaae0;
   0xe0; 0x0; 0x0; 0x0; 0x0; 0x202000; 0x0; 0x0;
   0x0; 0xe0700; 0xe0300; 0x3fffffc; 0x3fffffc; 0xe1700; 0xe3b00; 0x1c00;
   0x3fffffc; 0x3fffffc; 0x70700; 0x1e0780; 0x3c01c0; 0x1fffff0; 0x7efff3e; 0x380001c;
   0xaaaaa0; 0xfffff0; 0xaaeaa0; 0xc6180; 0x1c6180; 0x7861e0; 0x7060f0; 0x1e0607c;
   0x407e18; 0x7c00; 0x0; 0x0; 0x0; 0x0; 0x202000; 0x0;
   0x0; 0x0; 0xe0700; 0xe0300; 0x3fffffc; 0x3fffffc; 0x15f5754; 0xe0300;
   0xc0; 0x1fff0c0; 0x1fff0c0; 0xe0e7fc; 0x73c7fc; 0x3f80c0; 0x7f80c0; 0x7fbf8c0;
   0x3ce7fc0; 0xe0bf8; 0x1fff0fc; 0xfff0cc; 0xe00c0; 0x2aea8c0; 0x3fff8c0; 0x2aea8c0;
   0xe00d0; 0xe00f8; 0xe0078; 0x0; 0x0; 0x0; 0x0; 0x202000;
   0x0; 0x0; 0x0; 0x60700; 0x60700; 0x3fffffc; 0x3fffffc; 0x60700;
   0x60700; 0xc01c0; 0xc00c0; 0xc01c0; 0x3fc0ff8; 0x3fc0ffc; 0xc0cc8; 0xc0ddc;
   0xc0cc8; 0x1ffeddc; 0x1ffecc8; 0x180eddc; 0x180ecc8; 0x180eddc; 0x180ecc8; 0x180efdc;
   0x1ffeec8; 0x1ffe1c0; 0x180e0c0; 0x180e1c0; 0x0; 0x0; 0x0; 0x0;
   0x202000; 0x0; 0x0; 0x0; 0xc0300; 0xc0300; 0x3fffffc; 0x3fffffc;
   0xc0300; 0xc0300; 0x1fffff8; 0x1fffff0; 0x1d75d78; 0x1830c38; 0x1d75d78; 0x1fffff8;
   0x1fffff8; 0x1c00; 0x7fff00; 0x7fff80; 0x7555f0; 0x3802f8; 0x1c0f10; 0xf3e00;
   0x7f800; 0xf800; 0x7fc0; 0xff8; 0x78; 0x0; 0x0; 0x0;
   0x0; 0x202000; 0x0; 0x0; 0x0; 0xc0700; 0xc0300; 0x3fffffc].
Definition hanzi_data_377 : list N :=
  [0x3fffffc; 0xc0700; 0xc7300; 0x6000; 0x1fffff8; 0x1fffff8; 0x1800018; 0x1800018;
   0x1aaaa98; 0x13fffd0; 0x2aea80; 0x6000; 0x6180; 0x7fe1c0; 0x7fe0c0; 0x5561c0;
   0x63e0; 0x6770; 0x7e70; 0x7fffc3c; 0x3ffe01c; 0x1540008; 0x0; 0x0;
   0x0; 0x0; 0x202000; 0x0; 0x0; 0x0; 0xe0700; 0xe0700;
   0x3fffffc; 0x3fffffc; 0xe0700; 0xe0700; 0x1555550; 0x1fffff8; 0x1fffffc; 0x1806018;
   0x180601c; 0x806008; 0x7fffe0; 0x6aeae0; 0x706060; 0x606060; 0x757560; 0x7fffe0;
   0x557540; 0x386000; 0x706000; 0xe86000; 0x1fffffc; 0x3bffff8; 0x1800050; 0x0;
   0x0; 0x0; 0x0; 0x202000; 0x0; 0x0; 0x0; 0xe0300;
   0xe0300; 0x3fffffc; 0x3fffffc; 0x15f5754; 0xe0300; 0x1555550; 0x1fffff8; 0x1fffff8;
   0x1800018; 0x19fff98; 0x19fff98; 0x180180; 0x180180; 0x1fff80; 0x1fff80; 0x0;
   0x7fffe0; 0x7fffe0; 0x600060; 0x600060; 0x600060; 0x7fffe0; 0x7fffe0; 0x600060;
   0x0; 0x0; 0x0; 0x0; 0x202000; 0x0; 0x0; 0x0;
   0xe0700; 0xe0300; 0x3fffffc; 0x3fffffc; 0xe0700; 0xe0300; 0x1555554; 0x3fffffc;
   0x3fffffc; 0x3803c1c; 0x38f1f1c; 0x38f879c; 0x3ffe0; 0x18ffc0; 0x383e00; 0x700f80;
   0xfffff0; 0x1effff0; 0x180e070; 0xce380; 0x7ce3c0; 0xf0e0e0; 0x1e0e07c; 0x180fe38;
   0x7c00; 0x0; 0x0; 0x0; 0x0; 0x202000; 0x0; 0x0;
   0x0; 0xc0300; 0xc0300; 0x3fffffc; 0x3fffffc; 0xc0300; 0x86300; 0xfffff0;
   0xffffe0; 0xe06000; 0xe06000; 0x3fffffc; 0x2eaeaa8; 0xe06000; 0xfffff0; 0xfffff0;
   0xe06060; 0xe26460; 0xe76e60; 0xe66660; 0xee6660; 0xec6770; 0xec6330; 0xe463b8;
   0xe0603c; 0xe06010; 0x0; 0x0; 0x0; 0x0; 0x202000; 0x0;
   0x0; 0x0; 0xe0700; 0xe0700; 0x3fffffc; 0x3fffffc; 0xe0700; 0xe0700;
   0x70150; 0xe03f8; 0x1fffbf8; 0x1fffb98; 0x60e198; 0x61c198; 0x31c1d8; 0x3fff998;
   0x3fffb98; 0x1b18; 0x1f18; 0x1b18; 0x1f58; 0x1bd8; 0x1dd8; 0xc18;
   0xc18; 0xe18; 0x418; 0x0; 0x0; 0x0; 0x0; 0x202000;
   0x0; 0x0; 0x0; 0xe0700; 0xe0300; 0x3fffffc; 0x3fffffc; 0xe0700;
   0xe0300; 0xe0700; 0xc0f80; 0xc07fc; 0xc00fc; 0x38cc1c0; 0x38cc0c0; 0x1cc7ffc;
   0xce6ffc; 0xce71c0; 0xee31e0; 0x1e37f0; 0x1e0ef0; 0x1b0df8; 0x3380d8; 0x71c1de;
   0xe0e0cc; 0x1c0f1c0; 0x38038c0; 0x30011c0; 0x0; 0x0; 0x0; 0x0;
   0x202000; 0x0; 0x0; 0x0; 0xe0700; 0xe0300; 0x3fffffc; 0x3fffffc;
   0xe6700; 0xe7300; 0x1557550; 0x1fffff8; 0x1fffff8; 0x1800018; 0x1bfffd8; 0xaaaa88;
   0x155540; 0x3fffc0; 0x3801c0; 0x3800c0; 0x3fffc0; 0x3aaac0; 0x3801c0; 0x3fffc0;
   0x3fffc0; 0x0; 0x3fffffc; 0x3fffffc; 0x0; 0x0; 0x0; 0x0;
   0x0; 0x202000; 0x0; 0x0; 0x0; 0xe0700; 0xe0300; 0x3fffffc;
   0x3fffffc; 0xe0700; 0xe6300; 0x6000; 0x3fffffc; 0x3fffffc; 0x6000; 0x6000;
   0xfffff0; 0x1fffff0; 0xc60e30; 0x1c30c30; 0xcbba30; 0x1dfff30; 0xc06030; 0x1d57530;
   0xdfffb0; 0x1d57530; 0xc06030; 0x1f86030; 0xf86030; 0x704030; 0x0; 0x0;
   0x0; 0x0; 0x202000; 0x0; 0x0; 0x0; 0xc0300; 0xc0300;
   0x3fffffc; 0x3fffffc; 0xc0300; 0xc6300; 0x6600; 0xff6f80; 0xff67f0; 0xc06030;
   0xc06030; 0xc06ab0; 0xff6ff0; 0xea6ab0; 0xc06030; 0xc06030; 0xfffff0; 0xfffff0;
   0xf000; 0x1f800; 0x79e00; 0xf0f80; 0x1fc07f0; 0x3f800fc; 0x3c0001c; 0x0;
   0x0; 0x0; 0x0; 0x202000; 0x0; 0x0; 0x0; 0xe0700;
   0xe0300; 0x3fffffc; 0x3fffffc; 0x15f5754; 0xe2300; 0x7000; 0xfffff0; 0xfffff0;
   0xc00030; 0xc00070; 0xfffff0; 0xfffff0; 0x30; 0x1fffff0; 0x1ffffb0; 0x1d775b0;
   0x18631b0; 0x1ffffb0; 0x1ffffb8; 0x1d77598; 0x1863198; 0x1c6319c; 0x1f6318e; 0xf00184;
   0x0; 0x0; 0x0; 0x0; 0x202000; 0x0; 0x0; 0x0;
   0xe0700; 0xe0300; 0x3fffffc; 0x3fffffc; 0xe0700; 0x0; 0xff9ff0; 0xc19830;
   0xc19870; 0xeb9ab0; 0xff9ff0; 0x0; 0x7ffff0; 0x7fffe0; 0x0; 0x3fffffc;
   0x3fffffc; 0x180; 0x7fffc0; 0x3fffc0; 0x700000; 0x300000; 0x380000; 0x3fe000;
   0x1fe000; 0x0; 0x0; 0x0; 0x0; 0x202000; 0x0; 0x0;
   0x0; 0xe0700; 0xe0300; 0x3fffffc; 0x3fffffc; 0xe0700; 0xec300; 0xc070;
   0xffe0f0; 0x1fff1c0; 0xe07980; 0x70fc00; 0x3fce0c; 0x1f867c; 0x1f80f8; 0xfff060;
   0x3f0fe00; 0x3d55e80; 0x2fffb80; 0xfff9c0; 0xc038e0; 0xc03870; 0xc03838; 0xfff83c;
   0xfff81c; 0xc03808; 0x0; 0x0; 0x0; 0x0; 0x202000; 0x0;
   0x0; 0x0; 0xe0700; 0xe0300; 0x3fffffc; 0x3fffffc; 0xe0700; 0xe0380;
   0xfffd80; 0xfff9c0; 0xe01dc0; 0xe018e0; 0xe01c70; 0xfff870; 0xfffc78; 0x3007c;
   0x3007e; 0x3ffff6c; 0x3ffff60; 0x2afaa60; 0x1fc060; 0x3be060; 0x737860; 0xe33c60;
   0x7c31f60; 0x3830660; 0x30060; 0x0; 0x0; 0x0; 0x0; 0x202000;
   0x0; 0x0; 0x0; 0xe0700; 0xe0300; 0x3fffffc; 0x3fffffc; 0xe0700;
   0xf0380; 0x301c0; 0xfffce0; 0xfffc70; 0xc30038; 0x7ffff9c; 0x3ffffc8; 0xc300c0;
   0xc300e0; 0xfffc70; 0xaba878; 0x3007e; 0x1fffc6c; 0x1fffc64; 0x30060; 0x3ffff60;
   0x3fffe60; 0x30060; 0x30060; 0x30060; 0x0; 0x0; 0x0; 0x0;
   0x202000; 0x0; 0x0; 0x0; 0xe0700; 0xe0300; 0x3fffffc; 0x3fffffc;
   0xe0700; 0xe0300; 0xe00180; 0xe00180; 0xe03ffc; 0xe03ff8; 0x7ffd5d0; 0x3ffc180;
   0xe015d4; 0xe1bffc; 0xe3fffc; 0xe30180; 0xe70180; 0xe63ffc; 0xee3ffc; 0xe00180].
Definition hanzi_data_378 : list N :=
  [0xe04180; 0xe07f80; 0xe07ffc; 0xfc00fc; 0x7c0004; 0x0; 0x0; 0x0;
   0x0; 0x202000; 0x0; 0x0; 0x0; 0xe0700; 0xe0300; 0x3fffffc;
   0x3fffffc; 0x15f5754; 0xe0300; 0xe0700; 0x30e030; 0x30e0f8; 0x30e1e0; 0x1fffdc0;
   0x1fffc00; 0x30e01c; 0x30e03c; 0x30e0f0; 0x30e0e0; 0x3ffff40; 0x3ffff80; 0x15557c0;
   0x38e1c0; 0x7870f0; 0xe03870; 0x1c01c3c; 0x3800f18; 0x1000608; 0x0; 0x0;
   0x0; 0x0; 0x202000; 0x0; 0x0; 0x0; 0xe0700; 0xe0300;
   0x3fffffc; 0x3fffffc; 0xe0700; 0xe7300; 0x6000; 0x3fffff8; 0x3fffffc; 0x3800018;
   0x38f1f1c; 0xbe0788; 0x1f841f0; 0xc66078; 0x1e7010; 0x87000; 0x3fffffc; 0x3fffffc;
   0x1f800; 0x19800; 0x79e00; 0xf0f80; 0x5fe07f0; 0x3f800fc; 0x3c0001c; 0x0;
   0x0; 0x0; 0x0; 0x202000; 0x0; 0x0; 0x0; 0xe0700;
   0xe0300; 0x3fffffc; 0x3fffffc; 0xe0700; 0xe1b00; 0x1c01800; 0xeffff0; 0x7ffff0;
   0x3c1800; 0x1f1800; 0x3fffffc; 0x3fffffc; 0xf800; 0x3f00; 0xffffc0; 0xfffffc;
   0xe003fc; 0xf5579c; 0xffff80; 0xe00380; 0xe00380; 0xffff80; 0xffff80; 0xe00380;
   0x0; 0x0; 0x0; 0x0; 0x202000; 0x0; 0x0; 0x0;
   0xe0700; 0xe0300; 0x3fffffc; 0x3fffffc; 0xe0700; 0xe0300; 0xe07c0; 0x1ffc180;
   0x1ffc1c0; 0x180c180; 0x180dffc; 0x180dffc; 0x1ffc1c0; 0x1ffc3c0; 0x180c7e0; 0x180cfe0;
   0x180ddf0; 0x1ffd9b8; 0x1ffc9d8; 0x180c19c; 0x180c1cc; 0x180c180; 0x1ffc1c0; 0x1ffc180;
   0x180c1c0; 0x0; 0x0; 0x0; 0x0; 0x202000; 0x0; 0x0;
   0x0; 0x60700; 0x60600; 0x3fffffc; 0x2aeaea8; 0x60700; 0x180180; 0x1fffff8;
   0x1fffff8; 0x15d55d0; 0x180180; 0x1fff80; 0x180180; 0x1d5580; 0x1fff80; 0x1d5580;
   0x180180; 0x3fffffc; 0x3fffffc; 0xf7060; 0x1e3860; 0x381e60; 0x300e60; 0x1ffffe0;
   0x1ffffe0; 0x0; 0x0; 0x0; 0x0; 0x0; 0x202000; 0x0;
   0x0; 0x0; 0xe0700; 0xe0300; 0x3fffffc; 0x3fffffc; 0xe0700; 0x2aaaa0;
   0x7fffe0; 0x7000e0; 0x7555e0; 0x7fffe0; 0x7000e0; 0x7000e0; 0x7fffe0; 0x300;
   0x1555780; 0x1ffffc0; 0x1d555e0; 0x180e0f0; 0x1c3f0fc; 0xcfb8de; 0x1de1fcc; 0xcfffc0;
   0xc7ffc0; 0xfc0000; 0x7c0000; 0x0; 0x0; 0x0; 0x0; 0x202000;
   0x0; 0x0; 0x0; 0xe0700; 0xe0300; 0x3fffffc; 0x3fffffc; 0xe0700;
   0xe0380; 0x1ffd5d0; 0x1fffff8; 0x18615d4; 0x1860180; 0x1c71ff8; 0x1870ba8; 0x1c38180;
   0xebfff8; 0xf9fffc; 0x6180; 0x7000; 0x3fffffc; 0x3fffffc; 0xf800; 0x39c00;
   0xf0e00; 0x7e07f0; 0x3f801fe; 0x3c0007c; 0x0; 0x0; 0x0; 0x0;
   0x202000; 0x0; 0x0; 0x0; 0xe0700; 0xe0300; 0x3fffffc; 0x3fffffc;
   0xe0700; 0xe03c0; 0xc0; 0x1ffffe0; 0x1fffff0; 0x1839870; 0x1871838; 0x18ffffc;
   0x1855d5c; 0x182baa0; 0x1c7ffe0; 0x1861860; 0x1c7ffe0; 0x187ffe0; 0x1c61860; 0x1c6bae0;
   0x1c7ffe0; 0xc61860; 0xc61860; 0xff9860; 0x790040; 0x0; 0x0; 0x0;
   0x0; 0x202000; 0x0; 0x0; 0x0; 0xe0700; 0xe0300; 0x3fffffc;
   0x3fffffc; 0xe0700; 0x7fea00; 0x7ffff0; 0x6000; 0x3fffffc; 0x3fffffc; 0x6000;
   0x7fffe0; 0x7fffe0; 0x606060; 0x7fffe0; 0x606060; 0x757560; 0x7fffe0; 0x6000;
   0xfffff0; 0xfffff0; 0x6000; 0x3fffffc; 0x3fffffc; 0x0; 0x0; 0x0;
   0x0; 0x0; 0x202000; 0x0; 0x0; 0x0; 0xe0700; 0xe0300;
   0x3fffffc; 0x3fffffc; 0xe0700; 0xe0300; 0xe07c0; 0x1ffe0c0; 0x1ffe0c0; 0x18c67f8;
   0x18c67f8; 0x18c6618; 0x18c6618; 0x18c6618; 0x1dd67f8; 0x1ffe7f8; 0x1ffe7f8; 0x806618;
   0x6618; 0x3006618; 0x70067f8; 0x30067f8; 0x3ffe558; 0x3ffe018; 0x1ffc000; 0x0;
   0x0; 0x0; 0x0; 0x202000; 0x0; 0x0; 0x0; 0xe0700;
   0xe0300; 0x3fffffc; 0x3fffffc; 0xe0700; 0xe0300; 0x1550180; 0x1ff8180; 0x1ff8180;
   0x181bffc; 0x1c1bffc; 0x1ff8180; 0x1ff8180; 0x1818180; 0x1c195d0; 0x1819ff8; 0x1ff9ff8;
   0x1ff9818; 0x1c1dc18; 0x181d818; 0x1c1dff8; 0x180fff8; 0x1c07558; 0x1f87818; 0xf03000;
   0x0; 0x0; 0x0; 0x0; 0x202000; 0x0; 0x0; 0x0;
   0xe0700; 0xe0300; 0x3fffffc; 0x3fffffc; 0xe0700; 0xe0200; 0x3fffff8; 0x3fffff8;
   0xc181c0; 0xf9bfe0; 0x7fb578; 0xf98fc; 0x3019fc8; 0x3038780; 0x3ff03f0; 0xfe00f8;
   0xe0718; 0xe0600; 0x3fffffc; 0x3fffffc; 0xe0700; 0xe0380; 0xe01f0; 0xe00f8;
   0xe0038; 0x0; 0x0; 0x0; 0x0; 0x202000; 0x0; 0x0;
   0x0; 0xe0700; 0xe0300; 0x3fffffc; 0x3fffffc; 0xe0700; 0xe0300; 0x1ffdff0;
   0xff9ff8; 0x1d55ff8; 0xc01838; 0x1c01838; 0xffdff8; 0x1ffdff8; 0x38; 0x554038;
   0x3ffcab8; 0x1ffdff8; 0xc38ab8; 0xe70038; 0x7e0038; 0x3e1ff8; 0x3e1ff8; 0x1ffc038;
   0x3e3f038; 0x3006038; 0x0; 0x0; 0x0; 0x0; 0x202000; 0x0;
   0x0; 0x0; 0xe0700; 0xe0600; 0x3fffffc; 0x3fffffc; 0xe0700; 0xec680;
   0x8e1c0; 0x1c71c0; 0x7838c0; 0xfffce0; 0x1fffe70; 0x886070; 0x7c7878; 0xf0bc7c;
   0x1c1cf7e; 0xa0e66c; 0x7ff060; 0x3ab860; 0x387e60; 0x1cef60; 0xfc660; 0xfc060;
   0x1fffc60; 0x3f83f60; 0x1c00760; 0x0; 0x0; 0x0; 0x0; 0x202000;
   0x0; 0x0; 0x0; 0xe0700; 0xe0300; 0x3fffffc; 0x3fffffc; 0xe0700;
   0xa0380; 0xffff80; 0xffffc0; 0xc738e0; 0xe31870; 0xe39fbc; 0xe1ff98; 0xe7f700;
   0x67e380; 0x7671e0; 0x7c38e0; 0x3c3040; 0x7300; 0x70e770; 0xe1c330; 0x1dc8730;
   0x18c0338; 0x39fff1c; 0x38ffe0c; 0x7fc00; 0x0; 0x0; 0x0; 0x0;
   0x202000; 0x0; 0x0; 0x0; 0xe0700; 0xe0300; 0x3fffffc; 0x3fffffc].
Definition hanzi_data_379 : list N :=
  [0x7e0700; 0xef0300; 0x1c70000; 0x3fffff0; 0x3fffff0; 0x60030; 0x1c7fff0; 0xc6fff0;
   0xc60c30; 0xe60e30; 0x667ff0; 0x6efff0; 0x7ce330; 0x3c63b8; 0x3c7798; 0x21c3f18;
   0x71e7c18; 0x23eef18; 0x377c7fc; 0x3e3c0ce; 0x1c1c004; 0x0; 0x0; 0x0;
   0x0; 0x202000; 0x0; 0x0; 0x0; 0xe0700; 0xe0700; 0x15f5754;
   0x3fffffc; 0x3fffffc; 0x2f8700; 0xff8700; 0xe38000; 0x3fffff0; 0x3fffff0; 0x30030;
   0xc32ab0; 0xc37fb0; 0xe30030; 0x670030; 0x767fb0; 0x367fb0; 0x3e61b0; 0x1e61b8;
   0x20e6bb8; 0x71f7f98; 0x33b8198; 0x379e19c; 0x3f0f00e; 0x1c0600c; 0x0; 0x0;
   0x0; 0x0; 0x202000; 0x0; 0x0; 0x0; 0xc0300; 0xc0300;
   0x3fffffc; 0x3fffffc; 0xc0300; 0x2cc300; 0x71dff8; 0x3b9ff8; 0x18f1c10; 0x3c70e70;
   0xee07e0; 0x3c03c0; 0x7fffc0; 0x1fffff0; 0x7c0607e; 0x300600c; 0x557550; 0xfffff0;
   0xfffff0; 0x3f800; 0xffc00; 0x3e0f00; 0xf807f0; 0x1e001fc; 0xc00038; 0x0;
   0x0; 0x0; 0x0; 0x202000; 0x0; 0x0; 0x0; 0xe0700;
   0xe0300; 0x3fffffc; 0x3fffffc; 0xe7700; 0xe6300; 0x3fffffc; 0x3fffffc; 0x0;
   0x3fffc0; 0x3fffc0; 0x3000c0; 0x3fffc0; 0x2aaa80; 0x1555554; 0x3fffff8; 0x3d5555c;
   0x3800018; 0x3bfffdc; 0x2aea80; 0xe000; 0xe000; 0xe000; 0xfc00; 0x7c00;
   0x0; 0x0; 0x0; 0x0; 0x202000; 0x0; 0x0; 0x0;
   0x60700; 0x60600; 0x3fffffc; 0x3fffffc; 0x60700; 0x60600; 0x7ffff0; 0x7ffff0;
   0x606070; 0x606030; 0x7ffff0; 0x7ffff0; 0x606070; 0x606030; 0x7ffff0; 0x7ffff0;
   0x3000; 0x207a00; 0x71e770; 0xe18370; 0x1dd0730; 0x18c0338; 0x39fff1c; 0x30ffe08;
   0x7fc00; 0x0; 0x0; 0x0; 0x0; 0x202000; 0x0; 0x0;
   0x0; 0xe0700; 0xe0300; 0x3fffffc; 0x3fffffc; 0xe0700; 0x3fffe0; 0x7fffe0;
   0x3000e0; 0x7555e0; 0x3fffe0; 0x555540; 0x0; 0x3fffffc; 0x2baaae8; 0x3000c0;
   0x3fffc0; 0x3555c0; 0x3000c0; 0x3fffc0; 0x3aaac0; 0x37000c0; 0x3fffffc; 0x1fffffc;
   0x300000; 0x300000; 0x0; 0x0; 0x0; 0x0; 0x202000; 0x0;
   0x0; 0x0; 0xc0300; 0xc0300; 0x3fffffc; 0x3fffffc; 0xc4300; 0xc6300;
   0x6000; 0x1fffff8; 0x1fffff8; 0xc0300; 0xe0700; 0xaeaea8; 0x1fffffc; 0x1aaeab8;
   0x180601c; 0x1aaeab8; 0x7fffe0; 0x6aeae0; 0x7060e0; 0x6060e0; 0x7060e0; 0x7a60e0;
   0x7c60e0; 0x860a0; 0x6000; 0x0; 0x0; 0x0; 0x0; 0x202000;
   0x0; 0x0; 0x0; 0xe0700; 0xe0300; 0x3fffffc; 0x3fffffc; 0xe0700;
   0xe0300; 0x3fffff8; 0x3fffff8; 0x380001c; 0x3b00008; 0x701ff4; 0x2ba9ff0; 0x3ffc000;
   0x300000; 0x71bffc; 0x33bffc; 0x730660; 0x360660; 0x700660; 0x300660; 0x73c0670;
   0x31c0638; 0x3fffe1c; 0x3fffc1e; 0x55500c; 0x0; 0x0; 0x0; 0x0;
   0x202000; 0x0; 0x0; 0x0; 0xe0700; 0xe0300; 0x3fffffc; 0x3fffffc;
   0x15f5754; 0x7e0300; 0xe60000; 0x3fffff0; 0x3fffff0; 0x2aeaab0; 0xe0030; 0x18effb0;
   0x1ccd5b0; 0xccc1b0; 0xccddb0; 0xecd9b8; 0x7cddb8; 0x78d9b8; 0x38dd98; 0x38dd98;
   0x73c7c1c; 0x33eee1c; 0x377c71c; 0x3e383ce; 0x1c10084; 0x0; 0x0; 0x0;
   0x0; 0x202000; 0x0; 0x0; 0x0; 0xe0700; 0xe0300; 0x3fffffc;
   0x3fffffc; 0xe0700; 0xb8260; 0xe1c070; 0xf99fe0; 0x3fdff0; 0x1038060; 0x301d070;
   0x3abbe60; 0x1ff9ff0; 0xaa30f0; 0x3810; 0x7fffe0; 0x7fffe0; 0x600060; 0x7fffe0;
   0x7fffe0; 0x600060; 0x600060; 0x7fffe0; 0x7fffe0; 0x600060; 0x0; 0x0;
   0x0; 0x0; 0x202000; 0x0; 0x0; 0x0; 0xe0700; 0xe0300;
   0x3fffffc; 0x3fffffc; 0xe0700; 0xa6200; 0x7fffe0; 0x7aeae0; 0x706060; 0x7fffe0;
   0x7fffe0; 0x6000; 0x3fffffc; 0x2aaaaa8; 0x555540; 0x3fffe0; 0x7555e0; 0x3060e0;
   0x7060e0; 0x3060e0; 0x77f0e0; 0x1fbc00; 0xfc1fc0; 0x1e003f8; 0x1800070; 0x0;
   0x0; 0x0; 0x0; 0x202000; 0x0; 0x0; 0x0; 0xe0700;
   0xe0700; 0x3fffffc; 0x3fffffc; 0xe0700; 0xe0780; 0x381c0; 0xabc188; 0x1fff1dc;
   0xe03998; 0x78ddf8; 0x3fc1b0; 0xfc1f0; 0x33f980; 0x707dc0; 0x2baabe0; 0x3fffff0;
   0x2baabbc; 0x7071dc; 0x30e184; 0x71c1c0; 0x318180; 0x7001c0; 0x3e0180; 0x3e01c0;
   0x0; 0x0; 0x0; 0x0; 0x202000; 0x0; 0x0; 0x0;
   0xe0700; 0xe0300; 0x3fffffc; 0x3fffffc; 0xe0700; 0xe6300; 0x3871c0; 0x186380;
   0x1c7380; 0x3fffffc; 0x3fffffc; 0x7ee00; 0x1f77c0; 0x3f861f8; 0x1e07c7c; 0x1c08;
   0x3fffffc; 0x3fffffc; 0x1c0700; 0xe0380; 0x7ffc0; 0x7fe00; 0x7fff40; 0x3f83ffc;
   0x1c001fc; 0x0; 0x0; 0x0; 0x0; 0x202000; 0x0; 0x0;
   0x0; 0xc0700; 0xc0300; 0x3fffffc; 0x3fffffc; 0x15d5754; 0xc0300; 0xcc0710;
   0x1fe0030; 0x7ffdf0; 0x3fbc0; 0xe01d00; 0x1fe1800; 0x7fdc1c; 0x1b9878; 0x119dcf0;
   0x39998c0; 0x1f9dd00; 0xf18d80; 0x71ddc0; 0x618ce0; 0xe1cc70; 0xf98e70; 0x1ffc73c;
   0x387e718; 0x100c308; 0x0; 0x0; 0x0; 0x0; 0x202000; 0x0;
   0x0; 0x0; 0xe0700; 0xe0300; 0x3fffffc; 0x3fffffc; 0xe6700; 0xe6300;
   0x557540; 0xffffe0; 0xfffff0; 0xe06060; 0xfffff0; 0xffffe0; 0xe07070; 0xe03060;
   0xfffff0; 0xffffe0; 0x18d800; 0x8dc00; 0x17cdc00; 0x366ce00; 0x7ffc780; 0x3cac3e0;
   0x355c1fc; 0x3ffc03c; 0x1ff0018; 0x0; 0x0; 0x0; 0x0; 0x202000;
   0x0; 0x0; 0x0; 0xe0700; 0xe0300; 0x3fffffc; 0x3fffffc; 0xe0700;
   0xe0300; 0x70030; 0xafa8f8; 0x1fffde0; 0x1aabd80; 0x1c01c00; 0x1fffc1c; 0x1fffc7c;
   0x1801cf0; 0x1c01c40; 0x1fffc80; 0x1fffdc0; 0x1861cc0; 0x1e61ce0; 0xfe1c60; 0x3c1c70].
Definition hanzi_data_380 : list N :=
  [0x7bdc38; 0x7f7fc38; 0x3c03c18; 0x1000410; 0x0; 0x0; 0x0; 0x0;
   0x202000; 0x0; 0x0; 0x0; 0xe0700; 0xe0300; 0x3fffffc; 0x3fffffc;
   0xe0700; 0xaaaaa8; 0x1fffff8; 0x1800018; 0x19fffd8; 0x19fff98; 0x0; 0xfffff0;
   0xfffff0; 0x1e00; 0x383fc0; 0x3e71f8; 0x1f7c7c; 0x7ef08; 0xff7e0; 0xdb8f8;
   0x3dde18; 0x798780; 0x1f1c1f0; 0x1c0f878; 0x7818; 0x0; 0x0; 0x0;
   0x0; 0x202000; 0x0; 0x0; 0x0; 0xe0700; 0xe0300; 0x3fffffc;
   0x3fffffc; 0x15f5754; 0xe0300; 0x40500; 0x1ff9ff8; 0x1ff9ff8; 0x0; 0x0;
   0x0; 0x3ffdffc; 0x3ffdffc; 0x180180; 0x988988; 0x1d99d98; 0x1999998; 0x399d998;
   0x318f99c; 0x718d18c; 0x618618e; 0x184184; 0x1f01e0; 0x1f01e0; 0x0; 0x0;
   0x0; 0x0; 0x202000; 0x0; 0x0; 0x0; 0xe0700; 0xe0300;
   0x3fffffc; 0x3fffffc; 0xe0700; 0xe8340; 0x18560; 0x1c0c0; 0x1ffc1c0; 0x1ffeffc;
   0x1d56ffc; 0x1807000; 0x1dffe18; 0x19fc618; 0x1d84718; 0x1984638; 0x1d84730; 0x1984330;
   0x1dfc370; 0x19fc3e0; 0x1d85fc0; 0x1c04ffc; 0x1c001fc; 0xf80000; 0xf80000; 0x0;
   0x0; 0x0; 0x0; 0x202000; 0x0; 0x0; 0x0; 0xe0700;
   0xe0300; 0x3fffffc; 0x3fffffc; 0xe7700; 0xe6300; 0x155f550; 0x1fffff8; 0x15d5750;
   0xe0300; 0x1575754; 0x3fffffc; 0x3fffffc; 0x380700c; 0x3d5755c; 0x2ffffe8; 0x555d50;
   0xc00; 0x3ffe00; 0x3ffe00; 0x300700; 0x300380; 0x3801f0; 0x3fc0f8; 0x1fc018;
   0x0; 0x0; 0x0; 0x0; 0x202000; 0x0; 0x0; 0x0;
   0xc0300; 0xc0300; 0x3fffffc; 0x3fffffc; 0xc0300; 0xb0380; 0x1fffd80; 0x1fffdc0;
   0x700c0; 0x1fffce0; 0x1fffc70; 0x30078; 0x3ffff7c; 0x3ffff7c; 0x1fffc6c; 0xfff864;
   0x1c01c60; 0xeab860; 0x1fffc60; 0xc01860; 0x1fffc60; 0xeab860; 0x1c01c60; 0xf81860;
   0xf81c60; 0x0; 0x0; 0x0; 0x0; 0x202000; 0x0; 0x0;
   0x0; 0x10030c0; 0x18030c0; 0x18175d4; 0x19bfffc; 0x19bfffc; 0x19830c0; 0x19830c0;
   0x199f9f8; 0x199fdfc; 0x1998988; 0x1999d9c; 0x1998988; 0x199fdfc; 0x199f9f8; 0x1999d9c;
   0x1998988; 0x199dddc; 0x199f9f8; 0x181fdfc; 0x1818d8c; 0x1818d8c; 0x1818d8c; 0x1d1cdcc;
   0x1f1e7e6; 0xf1e5e4; 0x0; 0x0; 0x0; 0x0; 0x202000; 0x0;
   0x0; 0x0; 0xe0700; 0xe0300; 0x3fffffc; 0x3fffffc; 0xe0700; 0x7a0320;
   0x1e70060; 0x2aea860; 0x3fffc60; 0x2aeaae8; 0x703fc; 0x1fffae8; 0x1fffc60; 0x1861860;
   0x1871e60; 0x1fffbe0; 0x1fffffe; 0x186187c; 0x1fffc64; 0x1fff860; 0x1d75c60; 0x1861860;
   0x1871c60; 0x1f61878; 0x1e71c78; 0x0; 0x0; 0x0; 0x0; 0x202000;
   0x0; 0x0; 0x0; 0xe0700; 0xe0300; 0x3fffffc; 0x3fffffc; 0xe0700;
   0x7f0300; 0x1e30078; 0x2abaaf8; 0x3ffffe0; 0x2abaa80; 0x30004; 0x1fffc1c; 0x1fffc7c;
   0x1830c70; 0x1c30c40; 0x1fffc00; 0x1fffc40; 0x1830cc0; 0x1fffce0; 0x1fffc60; 0x1d75c70;
   0x1830c38; 0x1c30c1c; 0x1f30c1c; 0x1f30c10; 0x0; 0x0; 0x0; 0x0;
   0x202000; 0x0; 0x0; 0x0; 0xe0700; 0xe0300; 0x3fffffc; 0x3fffffc;
   0xe0700; 0xe0b20; 0x1553870; 0x1ff9860; 0x1ff9c60; 0x183fffc; 0x183fffc; 0x1ff8180;
   0x1ffb198; 0x183b198; 0x183b198; 0x183b198; 0x1ffb5d8; 0x1ffbff8; 0x181bff8; 0x181b180;
   0x181c1c0; 0x180c0e0; 0x1f8e070; 0x1f87038; 0xf02010; 0x0; 0x0; 0x0;
   0x0; 0x202000; 0x0; 0x0; 0x0; 0xc0700; 0xc0300; 0x3fffffc;
   0x3fffffc; 0xc0700; 0xc0300; 0xfffc0; 0x1fffc0; 0x70000; 0x23c000; 0xf0eff8;
   0x39e7f8; 0x1fe700; 0xf6380; 0x3e61c0; 0x1f87cf0; 0x3f07c7c; 0x1aaaa88; 0x3fffc0;
   0x2aaa80; 0x718660; 0xe38e70; 0x1c70c38; 0x3860c1c; 0x1061c1c; 0x0; 0x0;
   0x0; 0x0; 0x202000; 0x0; 0x0; 0x0; 0xe0700; 0xe0300;
   0x3fffffc; 0x3fffffc; 0xe0700; 0x180380; 0x1e0700; 0x3fffff8; 0x3fffffc; 0x38c00;
   0x7fffe0; 0x7fffe0; 0x638c00; 0x3fffffc; 0x3fffffc; 0x638c00; 0x7fffe0; 0x7fffe0;
   0x78f00; 0x1f8f80; 0x7b8dc0; 0xf38cf0; 0x7c38c7c; 0x3838c1c; 0x38c00; 0x0;
   0x0; 0x0; 0x0; 0x202000; 0x0; 0x0; 0x0; 0xc0700;
   0xc0300; 0x3fffffc; 0x3fffffc; 0xdc700; 0xd8300; 0x157d540; 0x3ffffc8; 0x7ffffcc;
   0x30d8; 0x38d8; 0x1fff8f8; 0x1fffcd0; 0x30ec0; 0x307c0; 0x300e0; 0x3fffffc;
   0x3fffffe; 0x780ec; 0xf8060; 0x1de070; 0x38f070; 0x1f07c38; 0x3e01f38; 0x1800718;
   0x0; 0x0; 0x0; 0x0; 0x202000; 0x0; 0x0; 0x0;
   0xc0700; 0xc0300; 0x3fffffc; 0x3fffffc; 0xc0700; 0xc0300; 0x1ffdff8; 0xffdff8;
   0x1c01c00; 0xc01800; 0x1ff9ff0; 0xff9ff0; 0x18030; 0x18038; 0x1ffdff8; 0x1ff9ff8;
   0x1c1d838; 0x1c71c70; 0x1f61fc0; 0x1b81b80; 0x1df1de0; 0xc38c78; 0xc1dc1c; 0xf80f80;
   0x780700; 0x0; 0x0; 0x0; 0x0; 0x202000; 0x0; 0x0;
   0x0; 0xe0700; 0xe0700; 0x3fffffc; 0x3fffffc; 0xe0700; 0xa0200; 0x7ffff0;
   0x7fffe0; 0x606070; 0x6fff60; 0x6fff70; 0x60f060; 0x67dc70; 0x6e0fe0; 0x640370;
   0x7fffe0; 0x7ffff0; 0x3000; 0x70f3b0; 0xe0c3b8; 0x1d9c398; 0x398039c; 0x31fff0c;
   0x10fff0c; 0x55400; 0x0; 0x0; 0x0; 0x0; 0x202000; 0x0;
   0x0; 0x0; 0xe0700; 0xe0300; 0x3fffffc; 0x3fffffc; 0xe2700; 0xe7300;
   0x3fffffc; 0x3fffffc; 0x1555554; 0x2aaa80; 0x3fffc0; 0x3801c0; 0x3d55c0; 0x3fffc0;
   0x0; 0x1fffff8; 0x1fffff8; 0x1c00038; 0x1cfff38; 0x1ceae38; 0x1ce0738; 0x1cffe38;
   0x1cfff38; 0x1f00238; 0xf00038; 0x0; 0x0; 0x0; 0x0; 0x202000;
   0x0; 0x0; 0x0; 0xc0300; 0xc0300; 0x3fffffc; 0x3fffffc; 0xc6300].
Definition hanzi_data_381 : list N :=
  [0xc6300; 0x1fffff8; 0x1fffff8; 0x3000; 0xfffff0; 0xfffff0; 0xe00; 0x3fffffc;
   0x3fffffc; 0x3f03c0; 0xfffee0; 0x7e1ff7c; 0x380601e; 0x7fffe4; 0x7fffe0; 0x7fc00;
   0x1e6f00; 0x7c67f0; 0xe060f8; 0xc06010; 0x0; 0x0; 0x0; 0x0;
   0x202000; 0x0; 0x0; 0x0; 0xe0700; 0xe0300; 0x3fffffc; 0x3fffffc;
   0xe0700; 0x0; 0x1fffff8; 0x1aaaab8; 0x1955518; 0x1bfff98; 0x13801d0; 0x380080;
   0x3fffc0; 0x380080; 0x3801c0; 0x3fff80; 0x157540; 0xe000; 0x3fffffc; 0x3fffffc;
   0x60700; 0x3e0780; 0xf801f0; 0x3e000fc; 0x1800018; 0x0; 0x0; 0x0;
   0x0; 0x202000; 0x0; 0x0; 0x0; 0xe0700; 0xe0300; 0x3fffffc;
   0x3fffffc; 0xe7700; 0xe6300; 0x3fffffc; 0x3fffffc; 0x1555f54; 0xe0780; 0x7ffe0;
   0x38ffe0; 0x703f00; 0xffffe0; 0x1fffff0; 0x800000; 0xfffff0; 0xfffff0; 0xe06070;
   0xfffff0; 0xfffff0; 0xe06070; 0xfffff0; 0xfffff0; 0xe00070; 0x0; 0x0;
   0x0; 0x0; 0x202000; 0x0; 0x0; 0x0; 0xe0700; 0xe0300;
   0x3fffffc; 0x3fffffc; 0xe0700; 0x2aaa80; 0x3fffc0; 0x3000c0; 0x30ffc0; 0x30ffc0;
   0x30c1c0; 0x1fffff8; 0x1fffffc; 0x1800018; 0x19fffdc; 0x19fff98; 0x1801c0; 0x1fff80;
   0x1fffc0; 0x180180; 0x1fffc0; 0x1aab80; 0x1801c0; 0x1f8180; 0x1f01c0; 0x0;
   0x0; 0x0; 0x0; 0x202000; 0x0; 0x0; 0x0; 0xe0700;
   0xe0300; 0x3fffffc; 0x3fffffc; 0xe7700; 0xe6300; 0x1fffff8; 0x1fffff8; 0x1d55558;
   0x18e0618; 0x19c6798; 0x7873c0; 0xf1f9f0; 0xc3fc70; 0x79f00; 0x1e0780; 0x7fffe0;
   0x3fffff8; 0x3fd55fc; 0x380188; 0x3801c0; 0x380180; 0x3fffc0; 0x3fff80; 0x3801c0;
   0x0; 0x0; 0x0; 0x0; 0x202000; 0x0; 0x0; 0x0;
   0xe0700; 0xe0300; 0x3fffffc; 0x3fffffc; 0xe0700; 0x60600; 0x1e2780; 0x3c73c0;
   0x1f13cf0; 0x3e78e3c; 0x18f479c; 0x1fffc0; 0x397fc0; 0x0; 0x1ffdff8; 0xffdff8;
   0x1c79c70; 0xce18e0; 0x1ec1dc0; 0xf81e80; 0x1df9fe0; 0xc3d8f8; 0x1c05c1c; 0xf80f80;
   0xf80f00; 0x0; 0x0; 0x0; 0x0; 0x202000; 0x0; 0x0;
   0x0; 0xe0700; 0xe0300; 0x3fffffc; 0x3fffffc; 0xe3f00; 0xc03800; 0xf7ffe0;
   0x383800; 0x15f7d54; 0x3fffffc; 0x155f554; 0x7a3e00; 0x7fffc0; 0x803efc; 0x1fffe18;
   0xfffc00; 0x555540; 0xffffe0; 0xe00060; 0xe00060; 0xffffe0; 0xe00060; 0xf55560;
   0xffffe0; 0xe00060; 0x0; 0x0; 0x0; 0x0; 0x202000; 0x0;
   0x0; 0x0; 0xe0700; 0xe0300; 0x3fffffc; 0x3fffffc; 0xe0700; 0xce1b00;
   0x1fc3f00; 0xffcff0; 0x4fc1f0; 0xcccdb0; 0xcccdb0; 0xccc9b0; 0xccd9b0; 0xccd9b0;
   0xccd9b0; 0xccf1b0; 0x1ccf1b0; 0x8cd1b8; 0x1f6c598; 0x1b6ed98; 0x1b66dd8; 0x3bb6edc;
   0x37f7ffc; 0x36338ce; 0x2004; 0x0; 0x0; 0x0; 0x0; 0x202000;
   0x0; 0x0; 0x0; 0xe0700; 0xe0300; 0x3fffffc; 0x3fffffc; 0xe0700;
   0x3fffff0; 0x3fffff0; 0x30; 0x7fffb0; 0x7fffb0; 0x1555570; 0x3fffff0; 0xc1c730;
   0xfb8630; 0x1fd730; 0x3f9ff38; 0x3fc1f38; 0xc0038; 0x3ffffd8; 0x3ffffd8; 0x1c071c;
   0xc0e0c; 0x1c1c0e; 0xfc80c; 0xf8000; 0x0; 0x0; 0x0; 0x0;
   0x202000; 0x0; 0x0; 0x0; 0xe0700; 0xe0300; 0x3fffffc; 0x3fffffc;
   0xe7700; 0xe6300; 0x3fffffc; 0x3fffffc; 0x1555554; 0x2aaa80; 0x3fffc0; 0x3000c0;
   0x3fffffc; 0x3fffffc; 0x3000c0; 0x3aaac0; 0x3fffc0; 0x1c0fe00; 0x1f1cfc0; 0x3b83f8;
   0x1f037c; 0x3ee308; 0x1fcff80; 0x3e03f80; 0x1000180; 0x0; 0x0; 0x0;
   0x0; 0x202000; 0x0; 0x0; 0x0; 0xe0700; 0xe0600; 0x3fffffc;
   0x3fffffc; 0xe0700; 0xe0600; 0x70380; 0x70180; 0x3fffdc0; 0x3fffce0; 0x7070e0;
   0x3060f0; 0x3060f8; 0x3fffefc; 0x7fffffe; 0xec; 0xe0; 0xfff8e0; 0x1fff8e0;
   0xc018e0; 0x1c018e0; 0xc018e0; 0x1fff8e0; 0xfff8e0; 0x1c018e0; 0x0; 0x0;
   0x0; 0x0; 0x202000; 0x0; 0x0; 0x0; 0xe0700; 0xe0300;
   0x3fffffc; 0x3fffffc; 0xe6700; 0xe7300; 0xfffff0; 0xfffff0; 0xe70e70; 0xe3be30;
   0xe1f070; 0xe7be30; 0xee1f70; 0xeaaab0; 0xfffff0; 0x8020; 0x818060; 0x1e18060;
   0xffbfe0; 0xfbfe0; 0x7018060; 0x301a060; 0x355bff0; 0x3ffbff0; 0x1ff0070; 0x0;
   0x0; 0x0; 0x0; 0x202000; 0x0; 0x0; 0x0; 0xe0700;
   0xe0300; 0x3fffffc; 0x3fffffc; 0xe0700; 0xe0300; 0x30600; 0x38630; 0x1ff8630;
   0x1ff8630; 0xdc630; 0x1ce630; 0x38e630; 0x306630; 0x704630; 0x200200; 0xfffff0;
   0xffffe0; 0xe31c70; 0xe30c60; 0xe31c70; 0xe30c60; 0x7fffffc; 0x3fffffc; 0x0;
   0x0; 0x0; 0x0; 0x0; 0x202000; 0x0; 0x0; 0x0;
   0xe0700; 0xe0300; 0x3fffffc; 0x3fffffc; 0xe0700; 0x8e03c0; 0x1c005e0; 0x18c1fe0;
   0x1cc1ff0; 0x18c0c38; 0x1cc7ffc; 0x18c7ffe; 0x1cc633c; 0x18c6338; 0x1cc7ff8; 0x18c7ff8;
   0x1cc6338; 0x18c6338; 0x1cc7ff8; 0x18c7ff8; 0x1c00000; 0x180fa00; 0x1c0fffc; 0x1f80ffc;
   0xf80000; 0x0; 0x0; 0x0; 0x0; 0x202000; 0x0; 0x0;
   0x0; 0xc0300; 0xc0300; 0x3fffffc; 0x3fffffc; 0xc4300; 0xc6300; 0x1fffff8;
   0x1fffff8; 0x170440; 0x33bee0; 0x71fce0; 0x33f8e0; 0x771fe0; 0x3fffe0; 0x7fffe0;
   0x3000; 0xfffff0; 0xfffff0; 0xc39c30; 0xc30e30; 0xc7ff30; 0xcffe30; 0xcc0630;
   0xf80030; 0xf80030; 0x0; 0x0; 0x0; 0x0; 0x202000; 0x0;
   0x0; 0x0; 0xe0700; 0xe0300; 0x3fffffc; 0x3fffffc; 0xe0700; 0xe0380;
   0x1550180; 0x1ffaba8; 0x1ffbff8; 0x183bab8; 0x183b838; 0x1abbab8; 0x1ffbff8; 0x1ffb838;
   0x183b838; 0x183bab8; 0x1ffbff8; 0x1ff8038; 0x1d58638; 0x1818c38; 0x181df38; 0x180dff8].
Definition hanzi_data_382 : list N :=
  [0x1f0d9fc; 0x1f0d838; 0xf00000; 0x0; 0x0; 0x0; 0x0; 0x202000;
   0x0; 0x0; 0x0; 0xe0700; 0xe0300; 0x3fffffc; 0x3fffffc; 0xe0700;
   0xe0300; 0x3ffeffc; 0x3fffff8; 0x1c0e00; 0xc03b0; 0x1ffc1f0; 0x1ffc1e0; 0x1d5c7d4;
   0x180dffc; 0x19cdffc; 0x18cccc0; 0x19cccc0; 0x18ccec0; 0x18cc0c0; 0x18ec0c0; 0x3e00c0;
   0xf700c0; 0x1c3c0c0; 0x381f8f8; 0x3007078; 0x0; 0x0; 0x0; 0x0;
   0x202000; 0x0; 0x0; 0x0; 0xe0700; 0xe0700; 0x3fffffc; 0x3fffffc;
   0xe0700; 0xe0700; 0x1fffffc; 0x1fffff8; 0x1d5555c; 0x180e018; 0x181fc1c; 0xf8f80;
   0x1fe07f0; 0x3faaafc; 0x11fff9c; 0x6000; 0x6000; 0xfffff0; 0xfffff0; 0x186180;
   0x1c6380; 0xc6300; 0x3fffffc; 0x3fffffc; 0x0; 0x0; 0x0; 0x0;
   0x0; 0x202000; 0x0; 0x0; 0x0; 0xe0700; 0x2aeaba8; 0x3fffffc;
   0xe0300; 0x7fffe0; 0x7fffe0; 0x755560; 0x7fffe0; 0x700060; 0x7fffe0; 0x7fffe0;
   0x3fffffc; 0x3fffffc; 0x1c0380; 0x7fffe0; 0x3effff8; 0x3ce033c; 0xe0388; 0xffff80;
   0xeaaa80; 0x655550; 0x67fff8; 0x655550; 0x7e0000; 0x3e0000; 0x0; 0x0;
   0x0; 0x0; 0x202000; 0x0; 0x0; 0x0; 0xe0700; 0xe0300;
   0x3fffffc; 0x3fffffc; 0xe4700; 0xee300; 0x7ff01c; 0x7ff838; 0x387c70; 0x1eefe0;
   0xfc640; 0xffe000; 0x3f37f00; 0x2030efc; 0xfffcfc; 0xaba8e0; 0x7ffce0; 0x7ff8e0;
   0x300e0; 0x1fffee0; 0x1ffffe0; 0x303f8; 0x7f57f3c; 0x3fffe0c; 0x15fd004; 0x0;
   0x0; 0x0; 0x0; 0x202000; 0x0; 0x0; 0x0; 0xe0700;
   0xe0300; 0x3fffffc; 0x3fffffc; 0xe0700; 0xe0300; 0x601c0; 0x630c0; 0x1fe3070;
   0x1fe3038; 0x6331c; 0x6338c; 0x3ffffc0; 0x3fffee0; 0x15754f0; 0x630f8; 0x630fc;
   0x1fe38ec; 0x1fe38e4; 0x638e0; 0x67ce0; 0x6ece0; 0x7ffcee0; 0x3ff87e0; 0x15406e0;
   0x0; 0x0; 0x0; 0x0; 0x202000; 0x0; 0x0; 0x0;
   0xe0700; 0xe0300; 0x3fffffc; 0x3fffffc; 0xe0700; 0xffdff8; 0xffdff8; 0xc31870;
   0xce1dc0; 0xe81f80; 0xff7fc0; 0xcff8f8; 0xc1fc18; 0x78e00; 0x7f47c0; 0x3f8e1f8;
   0x3c47c7c; 0xe0f80; 0x7c180; 0x30f800; 0x3c1fc0; 0xf83c0; 0x7fc00; 0x3ff0;
   0x5e0; 0x0; 0x0; 0x0; 0x0; 0x202000; 0x0; 0x0;
   0x0; 0xc0300; 0xc0300; 0x3fffffc; 0x3fffffc; 0xc4300; 0xc6300; 0x155f550;
   0x1fffff8; 0x1fffffc; 0x1800398; 0x1ffff9c; 0xfffd80; 0x301c0; 0x380e0; 0xfff8f0;
   0xfff8f8; 0xc018fc; 0xc018ec; 0xfff8e8; 0xfff8e0; 0xc018e0; 0xc018e0; 0xfff8e0;
   0xfff8e0; 0xc018e0; 0x0; 0x0; 0x0; 0x0; 0x202000; 0x0;
   0x0; 0x0; 0xe0700; 0xe0300; 0x3fffffc; 0x3fffffc; 0xe0700; 0xe0300;
   0x1540380; 0x3fe2ba8; 0x3ff7ffc; 0x1862aa8; 0x1c71870; 0xe61860; 0x671c60; 0x36fffc;
   0xf7fffc; 0xc60000; 0x1873ff0; 0x3863ff0; 0x3873030; 0x3863030; 0x1ff3030; 0x1f63ab0;
   0x573ff0; 0x63ff0; 0x73030; 0x0; 0x0; 0x0; 0x0; 0x202000;
   0x0; 0x0; 0x0; 0xe0700; 0xe0300; 0x3fffffc; 0x3fffffc; 0xe0700;
   0xe0300; 0xfff3fc; 0xfff3fc; 0xc03354; 0xc03300; 0xfff300; 0xfff3a8; 0x603f8;
   0x1fff0b8; 0x1fff018; 0x1863008; 0x1c633fc; 0x1aeb3fc; 0x1fff300; 0x660300; 0xe60300;
   0x1e60300; 0x3ffffd0; 0x32ff9f0; 0x30001f0; 0x0; 0x0; 0x0; 0x0;
   0x202000; 0x0; 0x0; 0x0; 0xc0300; 0xc0300; 0x3fffffc; 0x3fffffc;
   0xc0300; 0xc0300; 0x1fffff8; 0x1fffff8; 0x30c00; 0xfffff0; 0xfffff0; 0xc30c30;
   0xfffff0; 0xfffff0; 0x0; 0x7fffe0; 0x7fffc0; 0x0; 0x3fffff8; 0x3fffff8;
   0x1c63c0; 0x3861e0; 0xf060f0; 0xe07e38; 0xc07e10; 0x0; 0x0; 0x0;
   0x0; 0x202000; 0x0; 0x0; 0x0; 0xe0700; 0xe0300; 0x3fffffc;
   0x3fffffc; 0xe0700; 0xe0320; 0x1555060; 0xfff060; 0x1d57660; 0xc03668; 0x1fff378;
   0xeab368; 0x1c031ec; 0xfff0ec; 0x1fff06c; 0x68; 0x1fff8e0; 0x1fff8e0; 0x601f0;
   0x2aeabb0; 0x7ffff30; 0x2aeaa38; 0x6001c; 0x6000e; 0x60004; 0x0; 0x0;
   0x0; 0x0; 0x202000; 0x0; 0x0; 0x0; 0xe0700; 0xe0300;
   0x3fffffc; 0x3fffffc; 0xe0700; 0xe0300; 0x70180; 0x30180; 0x33ffc; 0x3ffbffc;
   0x1ff8180; 0x181bff8; 0x1ddfff8; 0xccf198; 0xdc7198; 0x1c3bb8; 0x1c3ff8; 0x1c03c0;
   0x3e0fe0; 0x361df0; 0x7739b8; 0xe3919c; 0x1c1c18c; 0x380e180; 0x1004180; 0x0;
   0x0; 0x0; 0x0; 0x202000; 0x0; 0x0; 0x0; 0xe0700;
   0xe0300; 0x3fffffc; 0x3fffffc; 0xe0700; 0xa0200; 0xfffff0; 0xfffff0; 0xc30c30;
   0xc30c30; 0xfffff0; 0xfffff0; 0x1c6000; 0x78e000; 0x3fffff0; 0x3fffff0; 0x60c070;
   0x71c0f0; 0x3983f0; 0x1f8fb0; 0x30f1e30; 0x30fc838; 0x33dfc1c; 0x3f83e0e; 0x1f00c0c;
   0x0; 0x0; 0x0; 0x0; 0x202000; 0x0; 0x0; 0x0;
   0xe0700; 0x2aeaba8; 0x3fffffc; 0x2aeaba8; 0xe0700; 0x7fffe0; 0x755560; 0x6aaae0;
   0x7fffe0; 0x600060; 0x7fffe0; 0x2aaaa0; 0x1fffff8; 0x1fffff8; 0x1c30c38; 0x1fffff8;
   0x1fffff8; 0x2aaaa8; 0x7ffff8; 0x380380; 0x1f0f00; 0x7fe00; 0x1fff40; 0x3ffbffc;
   0x3f001fc; 0x0; 0x0; 0x0; 0x0; 0x202000; 0x0; 0x0;
   0x0; 0xc0700; 0xc0300; 0x3fffffc; 0x3fffffc; 0xc4700; 0xc6300; 0xe000;
   0x1fffff0; 0x1fffff0; 0x80830; 0x1c0c30; 0xc0c30; 0x1fffff0; 0x1fffff0; 0x1c0c30;
   0xc0c38; 0x1ffc38; 0xffc38; 0x18; 0x220018; 0x731b18; 0xe63398; 0x1c631dc;
   0x18e30ce; 0x18030c4; 0x0; 0x0; 0x0; 0x0; 0x202000; 0x0;
   0x0; 0x0; 0xe0700; 0xe0300; 0x3fffffc; 0x3fffffc; 0xe0700; 0xe0300].
Definition hanzi_data_383 : list N :=
  [0xe07ff8; 0xe07ff8; 0xe07018; 0xe06018; 0x7fffff8; 0x3fffff8; 0xe00018; 0xe23fd8;
   0xe77fd8; 0xe60018; 0xe67ff8; 0xee7ff8; 0xec0618; 0xe43698; 0xe076dc; 0xe066ec;
   0xe0c66c; 0xfc07ae; 0x7c0704; 0x0; 0x0; 0x0; 0x0; 0x202000;
   0x0; 0x0; 0x0; 0xe0700; 0xe0300; 0x3fffffc; 0x3fffffc; 0xe0700;
   0xe8380; 0x585c0; 0x18180; 0x3ffd7d4; 0x3fffffc; 0x77ffc; 0x37060; 0x3ffb060;
   0x3ff8fe0; 0x1dcfe0; 0xcec60; 0x1c4c70; 0x3ffec30; 0x3fffc30; 0x3c0c30; 0x7e0c38;
   0x770e18; 0x1e3c75c; 0x3c1f7ce; 0x10063c4; 0x0; 0x0; 0x0; 0x0;
   0x202000; 0x0; 0x0; 0x0; 0xe0700; 0xe0300; 0x3fffffc; 0x3fffffc;
   0xe0700; 0xe8380; 0x55dfc0; 0x1ffbfe0; 0xf5b870; 0x6399f8; 0x771f9c; 0x3e0e70;
   0x1c07e0; 0x3fffc0; 0x1f7fff0; 0x3c0007c; 0x1fffffc; 0xffffe0; 0x557550; 0xc6380;
   0x3c63c0; 0x7861e0; 0x1e06078; 0x1c07c38; 0x7c10; 0x0; 0x0; 0x0;
   0x0; 0x202000; 0x0; 0x0; 0x0; 0x60700; 0x60700; 0x3fffffc;
   0x3fffffc; 0x60700; 0xaaaaa8; 0x1fffff8; 0x6000; 0x5561c0; 0x7fe180; 0x61c0;
   0x6180; 0x3fffffc; 0x2aaaba8; 0x180; 0xffff80; 0x5555c0; 0xaaaac0; 0x1ffffc0;
   0x1840000; 0x1c67770; 0xcce630; 0xccc638; 0xfcc61c; 0x7c0000; 0x0; 0x0;
   0x0; 0x0; 0x202000; 0x0; 0x0; 0x0; 0xe0700; 0xe0300;
   0x3fffffc; 0x3fffffc; 0xe0700; 0xe0300; 0x607fc; 0xe0ffc; 0x3fff7fc; 0x3fff300;
   0x738380; 0xe1c188; 0x1fff198; 0x3fff198; 0x1056f98; 0x666f98; 0x666198; 0x666198;
   0x666198; 0x666998; 0x6666fd8; 0x6666ff8; 0x66670fc; 0x3e63c0c; 0x1c01c00; 0x0;
   0x0; 0x0; 0x0; 0x202000; 0x0; 0x0; 0x0; 0xe0700;
   0xe0300; 0x3fffffc; 0x3fffffc; 0xe6700; 0x6000; 0x1fffff8; 0x1fffff8; 0x3861c0;
   0x186380; 0x1c6300; 0x3fffffc; 0x3fffffc; 0x0; 0xfffff0; 0xffffe0; 0xe00070;
   0xe7fe60; 0xe60670; 0xe60660; 0xe7fe70; 0xe00060; 0xfffff0; 0xffffe0; 0xe00070;
   0x0; 0x0; 0x0; 0x0; 0x202000; 0x0; 0x0; 0x0;
   0xe0700; 0xe0300; 0x3fffffc; 0x3fffffc; 0xe0700; 0xe2300; 0x7080; 0x1fbfde0;
   0x1fffdf8; 0x1830c38; 0x1870c38; 0x183fc38; 0x187fc38; 0x1830db8; 0x1fffdf8; 0x1fbfcf8;
   0x10418; 0x38e08; 0x1038e00; 0x7038600; 0x7038700; 0x3038380; 0x3ff81f0; 0x3ff00fe;
   0x154001c; 0x0; 0x0; 0x0; 0x0; 0x202000; 0x0; 0x0;
   0x0; 0xe0700; 0xe0300; 0x3fffffc; 0x3fffffc; 0xe0700; 0xe0380; 0x60380;
   0x60fc0; 0x1571ee0; 0x3ff3870; 0x3ff7078; 0xc3affe; 0xc7dfec; 0xe6c000; 0x66f190;
   0x6e3198; 0x7c3b18; 0x3c1b30; 0x381b30; 0x381930; 0x7c7c10; 0xee7fe0; 0x1c787fc;
   0x383c038; 0x3018000; 0x0; 0x0; 0x0; 0x0; 0x202000; 0x0;
   0x0; 0x0; 0xe0700; 0xe0300; 0x3fffffc; 0x3fffffc; 0xe0700; 0xe0320;
   0x1fffc70; 0x1fffce0; 0x18001c0; 0x180cc80; 0x181cc18; 0x19ffe18; 0x19fff18; 0x1818398;
   0x19fffd8; 0x18ffed8; 0x181c718; 0x18ffe18; 0x19fff18; 0x1818218; 0x19fff18; 0x19ffe18;
   0x1c00718; 0x1fc0018; 0xfc0018; 0x0; 0x0; 0x0; 0x0; 0x202000;
   0x0; 0x0; 0x0; 0xc0300; 0xc0300; 0x3fffffc; 0x3fffffc; 0xc7300;
   0x86200; 0x1fffff8; 0x1fffff8; 0x1800018; 0x1860018; 0x7f1ff0; 0xfe1ff0; 0x70000;
   0x60000; 0xfffffc; 0xeabffc; 0x71c660; 0x3f8660; 0x1e0670; 0x3f0670; 0x3f7e670;
   0x340c638; 0x3fffe1c; 0x1fffe1c; 0x55500c; 0x0; 0x0; 0x0; 0x0;
   0x202000; 0x0; 0x0; 0x0; 0xe0700; 0xe0300; 0x3fffffc; 0x3fffffc;
   0xe0700; 0xe0300; 0xfff870; 0xfff8f0; 0xc039e0; 0xfff9c0; 0xd57880; 0xc03800;
   0xfff8fc; 0xaae8fc; 0x3ffe0e0; 0x3fff0e0; 0x38438e0; 0x3863ce0; 0x19f3ce0; 0x1bbb2e0;
   0x1b1f3e0; 0x1bff1e0; 0x1bff0f0; 0x1f80020; 0xf00000; 0x0; 0x0; 0x0;
   0x0; 0x202000; 0x0; 0x0; 0x0; 0xe0700; 0xe0300; 0x3fffffc;
   0x3fffffc; 0xe0700; 0xe0300; 0xc3390; 0xe3398; 0x633b8; 0x3fe3bb0; 0x3ff1ff0;
   0x1837ff8; 0x1c7fff8; 0xc7e108; 0xc7e55c; 0xeeed68; 0x7c6d7c; 0x7c6968; 0x386d7c;
   0x386928; 0x7c613c; 0xee6108; 0x3c7e11c; 0x383f908; 0x301b91c; 0x0; 0x0;
   0x0; 0x0; 0x202000; 0x0; 0x0; 0x0; 0xe0700; 0xe0300;
   0x3fffffc; 0x3fffffc; 0xe0700; 0x7e0300; 0x7ffff8; 0x10fff0; 0x3861c0; 0x186380;
   0x3fffffc; 0x3fffffc; 0x157fd54; 0xf6e00; 0x3e67c0; 0xf821f0; 0x7fffffe; 0x3eaeafc;
   0x706060; 0x7fffe0; 0x7fffe0; 0x606060; 0x7fffe0; 0x7fffe0; 0x700060; 0x0;
   0x0; 0x0; 0x0; 0x202000; 0x0; 0x0; 0x0; 0xe0700;
   0xe0300; 0x3fffffc; 0x2aeaba8; 0xe0700; 0x3fffffc; 0x3fffffc; 0x30c00; 0x1fffff0;
   0xc30c30; 0x1d75d70; 0xfffff0; 0x0; 0x7fffe0; 0x7fffe0; 0x6aaae0; 0x7fffe0;
   0x600060; 0x7fffe0; 0x2aeaa0; 0x3fffffc; 0x3fffffc; 0x6000; 0x6000; 0x6000;
   0x0; 0x0; 0x0; 0x0; 0x202000; 0x0; 0x0; 0x0;
   0xc0700; 0xc0300; 0x3fffffc; 0x3fffffc; 0xcc700; 0x8e380; 0x1c1c0; 0xffffe0;
   0x1fffff0; 0xc0f0; 0x55d5fc; 0xffffdc; 0x1c0c8; 0xc0c0; 0xffffc0; 0xaaeac0;
   0x1c0c0; 0x1ffffc0; 0x1ffffc0; 0xc0; 0x718460; 0xe38e70; 0x1c30c38; 0x3870c1c;
   0x1031c1c; 0x0; 0x0; 0x0; 0x0; 0x202000; 0x0; 0x0;
   0x0; 0xe0700; 0xe0300; 0x3fffffc; 0x3fffffc; 0xe0700; 0xe3300; 0x107700;
   0x38e360; 0x71c760; 0xec8330; 0xcc0730; 0xcfff38; 0x7ff10; 0x80; 0x1c01c0;
   0x980980; 0x1b75f60; 0x1b2db68; 0x337d16c; 0x302f06c; 0x7c75c6c; 0x826c6c; 0x1c74d64].
Definition hanzi_data_384 : list N :=
  [0xfe0fe0; 0x540540; 0x0; 0x0; 0x0; 0x0; 0x202000; 0x0;
   0x0; 0x0; 0xe0700; 0x2aeaba8; 0x3fffffc; 0x2aeaba8; 0xe0710; 0x1fffc70;
   0x1fffdf0; 0x1c80; 0xfffc1c; 0xfffcfc; 0xc01c70; 0xfffd80; 0xfffdc0; 0x1ce0;
   0x3fffc70; 0x2aaa838; 0x6018; 0x3fffffc; 0x3fffffc; 0x3fc00; 0x1f6f00; 0x3c63e0;
   0x7f061fc; 0x380603c; 0x6004; 0x0; 0x0; 0x0; 0x0; 0x202000;
   0x0; 0x0; 0x0; 0xe0700; 0xe0300; 0x3fffffc; 0x3fffffc; 0xe0700;
   0xf0300; 0x70ff8; 0xff8ff8; 0xffcd58; 0xe1cc18; 0x73ec18; 0x337c18; 0x3f3ff8;
   0x1c0ba8; 0x7f0198; 0x1f38198; 0x7d5ff98; 0x3ffff98; 0x1ffd198; 0xc0c198; 0x1c1d198;
   0xc0df98; 0x1ffdffc; 0xffc0fc; 0x1c1c000; 0x0; 0x0; 0x0; 0x0;
   0x202000; 0x0; 0x0; 0x0; 0xe0700; 0xe0300; 0x3fffffc; 0x3fffffc;
   0xe6700; 0xa6200; 0x1fffff8; 0xaaeaa8; 0xfffff0; 0xffffe0; 0xe06070; 0xffffe0;
   0xf57570; 0xeaeae0; 0xfffff0; 0x386000; 0x7ffffc; 0xfffff8; 0x1c03000; 0x60f1b0;
   0xe1c1b0; 0x1d881b8; 0x19d579c; 0x38fff8c; 0x107ff08; 0x0; 0x0; 0x0;
   0x0; 0x202000; 0x0; 0x0; 0x0; 0xe0700; 0xe0700; 0x3fffffc;
   0x3fffffc; 0xe0700; 0x7fffe0; 0x7fffe0; 0x600060; 0x7fffe0; 0x600060; 0x7fffe0;
   0x7fffe0; 0x0; 0x3fffffc; 0x3fffffc; 0x1860; 0x1ffdff0; 0x1ffdae0; 0xc39870;
   0xe71fe0; 0x7e1870; 0x3c7ee0; 0x1ff7ffc; 0x3e3f8bc; 0x381d800; 0x0; 0x0;
   0x0; 0x0; 0x202000; 0x0; 0x0; 0x0; 0xe0700; 0xe0300;
   0x3fffffc; 0x3fffffc; 0xe0700; 0xe0200; 0x3b7ffc; 0x3b3ffc; 0x1ff01c0; 0x1ff80e0;
   0x17df0f8; 0x38f9fe; 0x389d8c; 0x1ff0fc0; 0x1ff1f70; 0x381b38; 0x381f9c; 0x383788;
   0x3fff7e0; 0x3ffe670; 0x1c73c; 0xf831c; 0x7ff0304; 0x3f803e0; 0x34001e0; 0x0;
   0x0; 0x0; 0x0; 0x202000; 0x0; 0x0; 0x0; 0xe0700;
   0xe0300; 0x3fffffc; 0x3fffffc; 0xe0700; 0xe0300; 0x3fffff8; 0x3fffff8; 0x1557578;
   0xe6338; 0x67338; 0x3fefff8; 0x3fffff8; 0x3220c38; 0x1334cd8; 0x1b34cb8; 0x1b14cd8;
   0x384c98; 0x387fd8; 0x387f98; 0x7c0e1c; 0xee060c; 0x1c7070c; 0x383c3ce; 0x3018184;
   0x0; 0x0; 0x0; 0x0; 0x202000; 0x0; 0x0; 0x0;
   0xe0700; 0xe0300; 0x3fffffc; 0x3fffffc; 0xe0700; 0xe0300; 0x7ff878; 0x7ff8f0;
   0x6019c0; 0x601880; 0x7ff804; 0x6ab81c; 0x60187c; 0x7ff870; 0x7ff860; 0x0;
   0x1fffc40; 0x1fffcc0; 0x1cccc60; 0x188cc60; 0x1cccc70; 0x188cc38; 0x7ffff1c; 0x3ffff1c;
   0x5555508; 0x0; 0x0; 0x0; 0x0; 0x202000; 0x0; 0x0;
   0x0; 0xe0700; 0xe0300; 0x3fffffc; 0x3fffffc; 0xe0700; 0xe0320; 0x3d03870;
   0x3ff1860; 0x7f1ce0; 0x33ff8; 0x77ff8; 0x32318; 0x7ff7ff8; 0x3ff3ff8; 0x5f77318;
   0xe32318; 0xe37ff8; 0xe33ff8; 0xe30300; 0xe37ffc; 0xe37ffc; 0xe38300; 0xe18300;
   0xe1c300; 0xe08300; 0x0; 0x0; 0x0; 0x0; 0x202000; 0x0;
   0x0; 0x0; 0xe0700; 0xe0300; 0x3fffffc; 0x3fffffc; 0xe0700; 0xe0300;
   0x1ffe1c0; 0xffe0c0; 0x1c060e0; 0xc06c60; 0x1ffee70; 0xc066b8; 0x1c067fc; 0xffe3bc;
   0x1ffe1c0; 0xe0; 0x1fffff0; 0x1ffeff8; 0x193717c; 0x1932000; 0x1937f00; 0x1932fe0;
   0x7fffffc; 0x3fff83c; 0x5555400; 0x0; 0x0; 0x0; 0x0; 0x202000;
   0x0; 0x0; 0x0; 0xe0700; 0xe0300; 0x3fffffc; 0x3fffffc; 0xe7700;
   0xe6300; 0x3fffffc; 0x3fffffc; 0x15dd5d4; 0x19c0e0; 0x38c060; 0x3ffee30; 0x3fff7f8;
   0x18f3f8; 0x15df9f8; 0x1fffce0; 0x15dec70; 0x18e7f8; 0x1ffe7fc; 0x1ffe308; 0x18e380;
   0x18e1e0; 0x3ffe0f0; 0x3ffe03c; 0xe01c; 0x0; 0x0; 0x0; 0x0;
   0x202000; 0x0; 0x0; 0x0; 0xe0700; 0xe0300; 0x3fffffc; 0x3fffffc;
   0xe0700; 0xa0200; 0x373ff0; 0x663ab0; 0xe63070; 0xc63ff0; 0x61550; 0x3fffffc;
   0x3fffffc; 0x863030; 0x18e3ff0; 0x1ce3ff0; 0xcc3070; 0xec3ab0; 0x7c3ff0; 0x383030;
   0x71cfd70; 0x33efffc; 0x37735fc; 0x3e3b000; 0x1c03000; 0x0; 0x0; 0x0;
   0x0; 0x202000; 0x0; 0x0; 0x0; 0xe0700; 0xe0300; 0x3fffffc;
   0x3fffffc; 0xe0700; 0xe0300; 0x639ff0; 0x639ff0; 0x638030; 0x2ebaab0; 0x3ffeff0;
   0x2eba030; 0x638570; 0x638ff0; 0x638030; 0x638030; 0x7fffffe; 0x3fffffe; 0x1554770;
   0x670630; 0xe38630; 0xc38f98; 0x1c1dffc; 0x380f8fc; 0x1004000; 0x0; 0x0;
   0x0; 0x0; 0x202000; 0x0; 0x0; 0x0; 0xe0700; 0xe0300;
   0x3fffffc; 0x3fffffc; 0xe0700; 0xfffff0; 0xfffff0; 0x6000; 0x1fffffc; 0x1fffff8;
   0x180601c; 0x1bf6fd8; 0x195655c; 0x2a6aa0; 0x7f6fe0; 0x2000; 0xfffff0; 0xffffe0;
   0xe06070; 0xffffe0; 0xfffff0; 0xe06060; 0xfffff0; 0xffffe0; 0xe00070; 0x0;
   0x0; 0x0; 0x0; 0x202000; 0x0; 0x0; 0x0; 0xe0700;
   0xe0300; 0x3fffffc; 0x3fffffc; 0xe7700; 0x3800; 0xfffff0; 0xeaaab0; 0xec6770;
   0xe66e30; 0xe3ec70; 0xefffb0; 0xfffff0; 0xe3fc30; 0xe76f70; 0xec63b0; 0xe861f0;
   0x6000; 0x3fffffc; 0x3fffffc; 0x1fc00; 0x79e00; 0x17f0fc0; 0x3f803fc; 0x1c0007c;
   0x0; 0x0; 0x0; 0x0; 0x202000; 0x0; 0x0; 0x0;
   0xe0700; 0xe0300; 0x3fffffc; 0x3fffffc; 0x6e0700; 0xeb0218; 0x3fffe78; 0x3fffee0;
   0x300c0; 0x1fffc00; 0x1fffc04; 0x1830c1c; 0x1fffc7c; 0x1830c60; 0x1fffc40; 0x1fffc00;
   0x1d30c40; 0xb008c0; 0x3ffffe0; 0x3ffff60; 0x303870; 0x307038; 0x30e018; 0x3e401c;
   0x1e0008; 0x0; 0x0; 0x0; 0x0; 0x202000; 0x0; 0x0;
   0x0; 0xe0700; 0xe0300; 0x3fffffc; 0x3fffffc; 0xe0700; 0x1fff860; 0x1fff870].
Definition hanzi_data_385 : list N :=
  [0x1830; 0x1ffdbfc; 0xffdbfc; 0x1555b74; 0x3fffb30; 0x11d9b18; 0x1f99b98; 0x719998;
   0x3ef9998; 0x3e7d99c; 0x6019b8; 0x3fffcf0; 0x3fff8e0; 0x61dde0; 0x638ff0; 0x670f38;
   0x7c061c; 0x7c0008; 0x0; 0x0; 0x0; 0x0; 0x202000; 0x0;
   0x0; 0x0; 0xe0700; 0xe0300; 0x3fffffc; 0x3fffffc; 0xe0700; 0xe3340;
   0x1934e0; 0x19b260; 0x19b770; 0x3f9b238; 0x3fdffdc; 0x18dfec0; 0x19c00e0; 0x19fff70;
   0x1dfff78; 0xde0078; 0xf0fe7e; 0xf0fe6c; 0x70c660; 0x62c660; 0xf7c660; 0xf9e660;
   0x1dcc760; 0x38e03e0; 0x3060160; 0x0; 0x0; 0x0; 0x0; 0x202000;
   0x0; 0x0; 0x0; 0xe0700; 0xe0300; 0x3fffffc; 0x2aeaba8; 0xe7700;
   0x6000; 0x1fffff8; 0xaeaba8; 0xc0700; 0x2aeaea8; 0x3fffffc; 0x0; 0x7fffe0;
   0x6aaae0; 0x7000e0; 0x7fffe0; 0x7000e0; 0x6aaae0; 0x7fffe0; 0x607220; 0xe1e370;
   0x1d98330; 0x1980338; 0x39fff1c; 0xffe00; 0x0; 0x0; 0x0; 0x0;
   0x202000; 0x0; 0x0; 0x0; 0xe0700; 0xe0300; 0x3fffffc; 0x3fffffc;
   0xe0700; 0xe0380; 0xc01c0; 0xc00c0; 0x3ffeff8; 0x3ffeff8; 0xc18c18; 0x638c18;
   0x730d58; 0x3fffff8; 0x7fffff8; 0x2aea018; 0x1c1ff8; 0xc1ff8; 0x3fffc18; 0x3fff818;
   0x1c1c18; 0xc1ff8; 0x1c1ff8; 0xc1818; 0x1c0018; 0x0; 0x0; 0x0;
   0x0; 0x202000; 0x0; 0x0; 0x0; 0xc0700; 0xc0300; 0x3fffffc;
   0x3fffffc; 0xc0700; 0xc0300; 0xc0000; 0x1c0ff8; 0x3ffdff8; 0x3ffc818; 0xc19c18;
   0xe38ab8; 0x631ff8; 0x3ffeab8; 0x7fff018; 0x2aeaab8; 0x1c1ff8; 0xc1ff8; 0x3fff87c;
   0x3fff83c; 0x1c187c; 0xc1ffe; 0x1c1ffe; 0xc1830; 0x1c0070; 0x0; 0x0;
   0x0; 0x0; 0x202000; 0x0; 0x0; 0x0; 0xe0700; 0xe0300;
   0x3fffffc; 0x3fffffc; 0xe0700; 0xe03c0; 0x1ffc7e0; 0x1ffcfe0; 0x1860770; 0x1860238;
   0x1d73ffc; 0xe3fffc; 0x59f13c; 0x1b3138; 0x15dbff8; 0x1ffbbb8; 0x1fff118; 0x18fbb8;
   0x15dfff8; 0x3fff118; 0x3fff118; 0x183118; 0x18311c; 0x183f0e; 0x181f04; 0x0;
   0x0; 0x0; 0x0; 0x202000; 0x0; 0x0; 0x0; 0xe0700;
   0xe0700; 0x3fffffc; 0x3fffffc; 0xe0700; 0xe0700; 0x198ffc; 0x198ffc; 0x198574;
   0x3f9f860; 0x3f9f870; 0x1987f0; 0x1987f0; 0x1f9fe38; 0x1f9ff18; 0x19833c; 0x1983fe;
   0x2b9abc4; 0x3f9f9c0; 0x2b9a9c0; 0x1980e0; 0x198060; 0x7fffc78; 0x3fffc3c; 0x18;
   0x0; 0x0; 0x0; 0x0; 0x202000; 0x0; 0x0; 0x0;
   0xe0700; 0xe0300; 0x3fffffc; 0x3fffffc; 0xe0700; 0xffffe0; 0xfffff0; 0xc30c20;
   0xc30c70; 0xffffe0; 0x555550; 0x3fffff8; 0x3fffffc; 0x3800008; 0x3fffffc; 0x2ffffe8;
   0x18380; 0xe1bfc0; 0x7dfff0; 0x1fb8b8; 0x19dd0; 0x1818f80; 0x1d587c0; 0x1ff81f8;
   0x550070; 0x0; 0x0; 0x0; 0x0; 0x202000; 0x0; 0x0;
   0x0; 0xe0700; 0xe0300; 0x3fffffc; 0x3fffffc; 0xe0700; 0xe03c0; 0x1f001c0;
   0xffbffc; 0x1fbffc; 0x18c30; 0x18c70; 0x18e60; 0x7fffffc; 0x3ffbffc; 0x5758180;
   0x618180; 0x71bffc; 0x61bffc; 0x718db0; 0x6199b0; 0x71d998; 0x60f18c; 0x70e1cc;
   0x6061e0; 0x7041c0; 0x0; 0x0; 0x0; 0x0; 0x202000; 0x0;
   0x0; 0x0; 0xe0700; 0xe0300; 0x3fffffc; 0x3fffffc; 0xe0700; 0xe0380;
   0x63398; 0x63bb0; 0x71bf0; 0x3ff7ffc; 0x3ff7ffc; 0xc387e0; 0xc39ff0; 0xe3fbb8;
   0x67d39c; 0x66c180; 0x7e3ffc; 0x3c1ffc; 0x3c1c70; 0x3c0c30; 0x7e07f8; 0xef07c0;
   0x1e7dff0; 0x381f87c; 0x100401c; 0x0; 0x0; 0x0; 0x0; 0x202000;
   0x0; 0x0; 0x0; 0xe0700; 0xe0300; 0x3fffffc; 0x3fffffc; 0xe0700;
   0xfffff0; 0xfffff0; 0xc30c30; 0xfffff0; 0xfffff0; 0xc03800; 0xefffe0; 0x7ffff0;
   0x1e3800; 0x3fffffc; 0x3fffffc; 0x7e00; 0xffffe0; 0xfffffe; 0xe001bc; 0xffff80;
   0xe00180; 0xffff80; 0xffff80; 0xe00180; 0x0; 0x0; 0x0; 0x0;
   0x202000; 0x0; 0x0; 0x0; 0xe0700; 0xe0700; 0x3fffffc; 0x2aeafa8;
   0x7e0700; 0xfffff0; 0x17ff0; 0x3fffffc; 0x3fffffc; 0x6000; 0xfffff0; 0xee6260;
   0xe66770; 0xe36660; 0xfffff0; 0xaaeaa0; 0x1fffff8; 0x1fffff8; 0x6000; 0x3fffffc;
   0x3fffffc; 0x718e60; 0x1e38c70; 0x3c30c3c; 0x1011c18; 0x0; 0x0; 0x0;
   0x0; 0x202000; 0x0; 0x0; 0x0; 0xe0700; 0xe0300; 0x3fffffc;
   0x3fffffc; 0xe0700; 0xb0200; 0xfffc1c; 0xfffc38; 0x30070; 0x3fffee0; 0x3ffff40;
   0x0; 0xfffc54; 0xeaacfc; 0xc01cfc; 0xfffce0; 0x1fffce0; 0xe3f0e0; 0x7ffce0;
   0xf8cfe0; 0x1e1c6f0; 0x180c3f8; 0x7415f1c; 0x3fffe0c; 0x3fff004; 0x0; 0x0;
   0x0; 0x0; 0x202000; 0x0; 0x0; 0x0; 0xe0700; 0x2aeaba8;
   0x3fffffc; 0x2aeaba8; 0xe0700; 0xfffff0; 0xfffff0; 0x6000; 0x3fffffc; 0x3aaeaa8;
   0x3ff6fdc; 0x3bf6fc8; 0x556540; 0x7f6fe0; 0x6000; 0x3fffffc; 0x3fffffc; 0x7000;
   0x1fffff0; 0xfffff0; 0x1c30c70; 0xc30c30; 0x1c30c70; 0xf30c30; 0xf30c70; 0x0;
   0x0; 0x0; 0x0; 0x202000; 0x0; 0x0; 0x0; 0xe0700;
   0xe0300; 0x3fffffc; 0x3fffffc; 0xe0700; 0xa0200; 0x3ffff78; 0x3fffef0; 0x15dd5e0;
   0x1fffc80; 0x1dddc04; 0x188cc1c; 0x1fffc7c; 0x1fffc70; 0x555060; 0xfff800; 0x1555400;
   0x2aaaa40; 0x7ffffe0; 0x231060; 0x773870; 0xe31c38; 0x3c70f1c; 0x303e31c; 0x3c008;
   0x0; 0x0; 0x0; 0x0; 0x202000; 0x0; 0x0; 0x0;
   0xe0700; 0xe0300; 0x3fffffc; 0xe2300; 0x1557550; 0x3fffff8; 0x6000; 0xfffff0;
   0x555550; 0x7fffe0; 0x7555e0; 0x7fffe0; 0x7fffe0; 0x3fffff8; 0x3fffffc; 0x3bfffc8;
   0x3ffffdc; 0x1c0780; 0x7fffc0; 0x206000; 0xfffff0; 0xaaeaa0; 0x1557554; 0x3fffffc].
Definition hanzi_data_386 : list N :=
  [0x0; 0x0; 0x0; 0x0; 0x0; 0x202000; 0x0; 0x0;
   0x0; 0xe0700; 0xe0300; 0x3fffffc; 0x3fffffc; 0xe0700; 0xe0308; 0x1ffcc18;
   0x1ffcff8; 0xe101f8; 0x7fb818; 0x1e1ff8; 0x381ff8; 0x3ffe570; 0x3ffe030; 0x19c1ff8;
   0x1989ff8; 0x19d819c; 0x1f9aba8; 0x1fdfffc; 0x19c180; 0x1fc7c0; 0x1beee0; 0x7ff7c70;
   0x3fc783c; 0x150301c; 0x0; 0x0; 0x0; 0x0; 0x202000; 0x0;
   0x0; 0x0; 0xc0700; 0xc0300; 0x3fffffc; 0x2aeaba8; 0xc7700; 0x2aaeaa8;
   0x3fffffc; 0x2aaa80; 0x3fffc0; 0x3aaac0; 0x3fffc0; 0xaaaaa0; 0x1fffff0; 0xcaaa30;
   0x1cfff30; 0xce0330; 0x1ffff30; 0xf06030; 0x3fffffc; 0x3fffffc; 0x7fc00; 0x1e6f80;
   0x1fc61f0; 0x3e0607c; 0x100600c; 0x0; 0x0; 0x0; 0x0; 0x202000;
   0x0; 0x0; 0x0; 0xe0700; 0xe0300; 0x3fffffc; 0x3fffffc; 0xe0700;
   0x2e03c0; 0x6301c0; 0x630ffc; 0x1ffeffc; 0x1ffe0c0; 0x630ffc; 0x630ff8; 0x3fff5d4;
   0x3fff0c0; 0xffc; 0x1ffcffc; 0x1ffc1e0; 0x180c3e0; 0x1d5c7f0; 0x1ffcef8; 0x1d5cddc;
   0x180c0ce; 0x1ffc1cc; 0x1ffc0c0; 0x1c0c1c0; 0x0; 0x0; 0x0; 0x0;
   0x202000; 0x0; 0x0; 0x0; 0x60700; 0x60600; 0x3fffffc; 0x3fffffc;
   0x460700; 0x1ce0600; 0x3ffffc0; 0x3ffff88; 0x3ffffd8; 0xc0088; 0x1dffdd8; 0x18bfcf8;
   0x1dc65f8; 0xdbfc88; 0xdbfdc0; 0x7b04fc; 0x7b05fc; 0x3bfcd8; 0x3975d8; 0x3864d8;
   0x63ffcd8; 0x27ffcc8; 0x76704ec; 0x3e3806c; 0x3c10044; 0x0; 0x0; 0x0;
   0x0; 0x202000; 0x0; 0x0; 0x0; 0xe0700; 0xe0300; 0x3fffffc;
   0x3fffffc; 0xe0700; 0xe0300; 0x1c0700; 0xe03e0; 0x1ffe1fc; 0x1ffeb88; 0x1807f38;
   0x1806770; 0x1ffe3e0; 0x18063f8; 0x180673c; 0x1ffe780; 0x1ffe7f0; 0x330e38; 0x330f1c;
   0x330dc0; 0x1338cf0; 0x2318e3c; 0x771e61c; 0x3f0f7c0; 0x1e033c0; 0x0; 0x0;
   0x0; 0x0; 0x202000; 0x0; 0x0; 0x0; 0xe0700; 0xe0300;
   0x3fffffc; 0x3fffffc; 0xe0700; 0x8f03c0; 0x1c385e0; 0xe31fe0; 0x671ff0; 0x3ffce38;
   0x3ffdffc; 0x181ffc; 0x1c199c; 0x1ff9998; 0x1ffdff8; 0x181ff8; 0x1c1998; 0x2bab998;
   0x7fffff8; 0x3ffeaa8; 0x1c3000; 0x183ff8; 0x1c1ffc; 0x18000c; 0x1c0000; 0x0;
   0x0; 0x0; 0x0; 0x202000; 0x0; 0x0; 0x0; 0xe0700;
   0xe0300; 0x3fffffc; 0x3fffffc; 0xe0700; 0xe0300; 0x1ffe0c0; 0xffeae8; 0x1cc7ffc;
   0xcc6ae8; 0x1ffe0c0; 0xcc6ff8; 0x1cc6ffc; 0xffe0c0; 0x1ffeffc; 0xc0ffc; 0x3fff1e0;
   0x3aea3e0; 0x33c77f0; 0x32c2ef8; 0x37ffcdc; 0x343a0ce; 0x34070cc; 0x3e020c0; 0x1e070c0;
   0x0; 0x0; 0x0; 0x0; 0x202000; 0x0; 0x0; 0x0;
   0xe0700; 0xe0300; 0x3fffffc; 0x3fffffc; 0xf0700; 0x30ff8; 0x1558ff8; 0x1ff8180;
   0x1dddffc; 0x18cfffc; 0x18e67c0; 0x1862fe0; 0x1d375b8; 0xf1f99e; 0x579f0c; 0x3e6f80;
   0x1fc61f0; 0x3ec63fc; 0x10f679c; 0x3fe00; 0x7ff00; 0x3e67e0; 0xf861f0; 0x607c20;
   0x7c00; 0x0; 0x0; 0x0; 0x0; 0x202000; 0x0; 0x0;
   0x0; 0x60700; 0x60600; 0x3fffffc; 0x3fffffc; 0x60700; 0x2aaaa0; 0x7fffe0;
   0x6060e0; 0x7575e0; 0x7fffe0; 0x7060e0; 0x6060e0; 0x7fffe0; 0x0; 0x1ffdff8;
   0x1ff9ff8; 0x199d998; 0x1989998; 0x1ffdff8; 0x1ff9ff8; 0x199d998; 0x1989998; 0x1ffdff8;
   0x1ff9ff8; 0x181d818; 0x0; 0x0; 0x0; 0x0; 0x202000; 0x0;
   0x0; 0x0; 0x60700; 0x60600; 0x3fffffc; 0x3fffffc; 0x67700; 0x27200;
   0x7fffc0; 0x3fffc0; 0x7000c0; 0x3fffc0; 0x7555c0; 0x3000c0; 0x7fffc0; 0x80080;
   0x1c0180; 0x1ff9ff8; 0x1ffdff8; 0x1819818; 0x1d5dd58; 0x1ff9ff8; 0x1d5dd58; 0x1819818;
   0x1ffdff8; 0x1ff9ff8; 0x181d818; 0x0; 0x0; 0x0; 0x0; 0x202000;
   0x0; 0x0; 0x0; 0xe0700; 0xe0300; 0x3fffffc; 0x3fffffc; 0xe0700;
   0xe2300; 0xe773f8; 0x6663f8; 0x376318; 0x1fffb18; 0x1fffb18; 0x183f8; 0x3fffff8;
   0x3fffb18; 0x74e318; 0xe673b8; 0x7c63ff8; 0x3e67fb8; 0x76e318; 0x3fc318; 0x7fc31c;
   0xe6fb0c; 0x1c63b0c; 0x8783ce; 0x781c4; 0x0; 0x0; 0x0; 0x0;
   0x202000; 0x0; 0x0; 0x0; 0xe0700; 0xe0700; 0x3fffffc; 0x2aeafa8;
   0xe6700; 0xe000; 0x3fffff0; 0x2baaeb0; 0x15d5d30; 0x1ff7fb0; 0x3c0e30; 0x7e3e30;
   0x1df7fb0; 0x399acf0; 0x1308c70; 0x3fff30; 0x5ff30; 0xabaab8; 0x1ffff98; 0x18018;
   0x3ffffd8; 0x3ffffd8; 0x1c01c; 0x1f80e; 0xf80c; 0x0; 0x0; 0x0;
   0x0; 0x202000; 0x0; 0x0; 0x0; 0xe0700; 0xe0300; 0x3fffffc;
   0x3fffffc; 0xe7700; 0xae200; 0x3fffff0; 0x2abaeb0; 0x575d70; 0xfffff0; 0x1c30c30;
   0xebaeb0; 0x1fffff0; 0x830338; 0x1ffff30; 0x3fff38; 0x3030338; 0x3abffb8; 0x1ff7f98;
   0x18; 0xe7371c; 0x1c6339c; 0x18e719c; 0x38c61ce; 0x30460c4; 0x0; 0x0;
   0x0; 0x0; 0x202000; 0x0; 0x0; 0x0; 0xe0700; 0xe0300;
   0x3fffffc; 0x3fffffc; 0xe0700; 0x6e0300; 0x1fffe38; 0x23fef8; 0x631ce0; 0x331880;
   0x1775500; 0x3ffff1c; 0x15fd57c; 0x3b7070; 0x733c60; 0x1e31e00; 0x7ffff80; 0x2ebaf60;
   0xc30c60; 0xfffc60; 0xfffc70; 0xc30c38; 0xfffc1c; 0xfffc1c; 0xc00c08; 0x0;
   0x0; 0x0; 0x0; 0x202000; 0x0; 0x0; 0x0; 0xe0700;
   0xe0300; 0x3fffffc; 0x3fffffc; 0xe0700; 0x2aa310; 0x7ff078; 0x3030e0; 0x7031c0;
   0x3ff080; 0x555000; 0x3fcfe1c; 0x3fdfe7c; 0x38c86f0; 0x3fdfe60; 0x3fcfe00; 0x30000;
   0x3ffffe0; 0x3ffff70; 0xfc070; 0x3ff030; 0xf33838; 0x3e31f1c; 0x3830f8c; 0x1030108;
   0x0; 0x0; 0x0; 0x0; 0x202000; 0x0; 0x0; 0x0;
   0xe0700; 0x2aeaba8; 0x3fffffc; 0xe0300; 0x575750; 0xfffff0; 0x6000; 0x1fffff8].
Definition hanzi_data_387 : list N :=
  [0x1fffffc; 0x1aa6a98; 0x1bf6fdc; 0x6000; 0x7f6fe0; 0xc180; 0x1ffffc0; 0xffffe0;
   0x1c0f0; 0x7ffff8; 0x7fffdc; 0xc0c8; 0xffffc0; 0xc0c0; 0x1ffffc0; 0x1ffffc0;
   0xc0; 0x0; 0x0; 0x0; 0x0; 0x202000; 0x0; 0x0;
   0x0; 0xe0700; 0xe0300; 0x3fffffc; 0x3fffffc; 0xe0700; 0xe3bc0; 0x3f1fce0;
   0x3f3fc70; 0x1ce38; 0x2ef1c; 0x7ffcc; 0x3fe66e0; 0x7fffe70; 0xc7fe70; 0x1c66678;
   0xc7fe7c; 0x1c7fe7c; 0xc06060; 0x1cfff70; 0xcfff60; 0x1c0f070; 0xc1f860; 0x1d79c70;
   0xfe0f60; 0x700770; 0x0; 0x0; 0x0; 0x0; 0x202000; 0x0;
   0x0; 0x0; 0xe0700; 0xe0300; 0x3fffffc; 0x3fffffc; 0xe7700; 0x2aaeaa0;
   0x3fffff0; 0x180c30; 0x180c30; 0x1ff7ff0; 0x17d5d70; 0x7e3e30; 0xdf7f30; 0x39b8db8;
   0x3198cf0; 0x38; 0x3fffff8; 0x2aabab8; 0x555c18; 0xfffe18; 0xd55f98; 0xc00df8;
   0xfffcdc; 0xfffc0c; 0xc00c0c; 0x0; 0x0; 0x0; 0x0; 0x202000;
   0x0; 0x0; 0x0; 0xe0700; 0xe0300; 0x3fffffc; 0x3fffffc; 0xe0740;
   0xc00c0; 0x1ffcff8; 0x1ffcff8; 0xe30c18; 0x630ff8; 0x3ffeff8; 0x3fffff8; 0x1c1ff8;
   0x1ffd818; 0x15d5ff8; 0x87ff8; 0x1c6000; 0x3fffffc; 0x3fffffc; 0x3fc00; 0xf6f00;
   0x3e63e0; 0x7f861fc; 0x3c0603c; 0x1006004; 0x0; 0x0; 0x0; 0x0;
   0x202000; 0x0; 0x0; 0x0; 0xe0700; 0xe0300; 0x3fffffc; 0x2aeaba8;
   0xe7700; 0x3fffffc; 0x3fffffc; 0x0; 0x7f9ff0; 0x619820; 0x7f9ff0; 0x7f9fe0;
   0x1575750; 0x1fffff8; 0x60700; 0xfffff0; 0x575750; 0x3fffffc; 0x3fffffc; 0xe1de00;
   0x7f87f0; 0xf83fc; 0x1fcff84; 0x3e03f80; 0x1000180; 0x0; 0x0; 0x0;
   0x0; 0x202000; 0x0; 0x0; 0x0; 0xe0700; 0xe0300; 0x3fffffc;
   0x3fffffc; 0xf0700; 0xff0000; 0x1ff0018; 0x3abaa38; 0x3fffe70; 0x1bb86e0; 0x1fff640;
   0xff8600; 0x7f0654; 0x3fff6fc; 0x157d6fc; 0xe6e6e0; 0x7f76e0; 0x3ce6e0; 0xff77e0;
   0x3cbc3e0; 0x11c79e0; 0xf83f8; 0x7f77f1c; 0x3fffe0c; 0x17fd004; 0x0; 0x0;
   0x0; 0x0; 0x202000; 0x0; 0x0; 0x0; 0xe0700; 0xe0300;
   0x3fffffc; 0x3fffffc; 0xe0760; 0x67fe0; 0x3ff7ff0; 0x3ff8018; 0xe7fffc; 0x669ba0;
   0x7c7ffc; 0x3c3bb8; 0xff5f70; 0x3e3bff8; 0x3079f00; 0xf8380; 0x1dffe0; 0x387c20;
   0x7fffc0; 0x1fffff8; 0x184e5f0; 0x3ee380; 0x1f8e1f0; 0x3c0fe3c; 0x1007c18; 0x0;
   0x0; 0x0; 0x0; 0x202000; 0x0; 0x0; 0x0; 0xe0700;
   0xe0300; 0x3fffffc; 0x3fffffc; 0xe0700; 0x1b0200; 0x3b3ffc; 0x2bbbffc; 0x3ffc3c0;
   0x31c2c0; 0x175fff8; 0x1fffae8; 0x175b3d8; 0x31b268; 0x1ffbe78; 0xbbba28; 0x31b018;
   0x3ffbff8; 0x3ffbff8; 0xb008; 0x1b7b018; 0x3a6bff8; 0x364fff8; 0x26cf008; 0x45018;
   0x0; 0x0; 0x0; 0x0; 0x202000; 0x0; 0x0; 0x0;
   0xe0700; 0xe0700; 0x3fffffc; 0x2aeafa8; 0xe6700; 0xe000; 0x3fffff0; 0x2baaeb0;
   0x15d5d30; 0x1ff7fb0; 0x17d5f70; 0x7e3e30; 0x1df7fb0; 0x3998cf0; 0x11ffc70; 0x63038;
   0x1ff7ff8; 0x63038; 0x1ff7f98; 0xfe3f98; 0x7701c; 0x3fe3fdc; 0x3ff7fdc; 0x6300e;
   0x77004; 0x0; 0x0; 0x0; 0x0; 0x202000; 0x0; 0x0;
   0x0; 0x7000; 0x6000; 0xfff000; 0xffe000; 0xfff000; 0x6000; 0x1557550;
   0x3fffff0; 0x3fffff0; 0x1802030; 0x1c07070; 0xc07030; 0x7070; 0x687030; 0x7ff470;
   0x3fffb0; 0x7fb0; 0x7030; 0x807038; 0x1807038; 0x1807018; 0x180f018; 0x1fff01c;
   0xffe00e; 0xc; 0x0; 0x0; 0x0; 0x0; 0x202000; 0x0;
   0x0; 0x0; 0x7000; 0x6000; 0xfff000; 0xffe000; 0x7000; 0x6000;
   0x3fffff0; 0x3fffff0; 0x1c07030; 0x1ffe030; 0x1fffb0; 0x1806bb0; 0x1d57030; 0x1ffe030;
   0x7fc030; 0x30; 0x7fc30; 0x7fc30; 0x61c38; 0x60c38; 0x3060c18; 0x3060e18;
   0x3fe07dc; 0x1fe03ec; 0x5400cc; 0x0; 0x0; 0x0; 0x0; 0x202000;
   0x0; 0x0; 0x0; 0x7000; 0x6000; 0xfff000; 0xffe000; 0x7000;
   0x1aaeaa0; 0x3fffff0; 0x1aaeab0; 0x1f47030; 0xfffa30; 0x187ffb0; 0x38060b0; 0x1fff030;
   0x1ffe030; 0xc030; 0xc030; 0x1ffffb0; 0x1ffffb8; 0x1c0e038; 0xc06038; 0xc07018;
   0xe03818; 0xe01f1c; 0x7e0fce; 0x3e01cc; 0x0; 0x0; 0x0; 0x0;
   0x202000; 0x0; 0x0; 0x0; 0x7000; 0x6000; 0xfff000; 0xaae000;
   0x7000; 0x3fffff0; 0x3fffff0; 0x1806030; 0x1fd7030; 0xffffb0; 0x5ffb0; 0x1806030;
   0x1fff030; 0xffe030; 0x30; 0xfffe38; 0x1fffe38; 0x638; 0x638; 0x3ffffd8;
   0x1555758; 0x61c; 0x1fffe1c; 0x1fffe0e; 0xc; 0x0; 0x0; 0x0;
   0x0; 0x202000; 0x0; 0x0; 0x0; 0x7000; 0x6000; 0xfff000;
   0xffe000; 0x7000; 0x6000; 0x3fffff0; 0x3fffff0; 0x1c07030; 0x1fa6030; 0x3fffb0;
   0x80ffb0; 0x3807030; 0x1ffe030; 0x1ffe030; 0x8030; 0x1c030; 0x63aa38; 0xe73b38;
   0x1c63b38; 0x3903998; 0x3303998; 0x73ff0dc; 0x3ff08e; 0x54008; 0x0; 0x0;
   0x0; 0x0; 0x202000; 0x0; 0x0; 0x0; 0x300000; 0x7f8000;
   0x1fffc0; 0xfff8; 0xffc078; 0xffc038; 0xc038; 0x1ffff38; 0x1ffff38; 0x180c338;
   0x1fdc338; 0xbfff38; 0x101ff38; 0x180c338; 0x1ffc338; 0xaa03b8; 0xff398; 0xfe398;
   0xc7198; 0xc3198; 0x10c31dc; 0x30c38cc; 0x35c1cec; 0x3fc0f6e; 0x1f80744; 0x0;
   0x0; 0x0; 0x0; 0x202000; 0x0; 0x0; 0x0; 0xc0030;
   0xc0030; 0x1fc0030; 0x1fc0030; 0xc0030; 0x3fff2ba; 0x7fff3fe; 0x30e33fe; 0x30e3330;
   0x37eb330; 0x37ff330; 0x38e3330; 0x1dc3330; 0x1fc3330; 0x543330; 0x2a3330; 0x7f3338;
   0x3b3b18; 0x733f18; 0x2333f98; 0x6739b9c; 0x631980e; 0x7f1dc04; 0x3e0ee00; 0x1404c00].
Definition hanzi_data_388 : list N :=
  [0x0; 0x0; 0x0; 0x0; 0x202000; 0x0; 0x0; 0x0;
   0x7000; 0x6000; 0xfff000; 0xffe000; 0x7000; 0x1aaeaa0; 0x3fffff0; 0x1806030;
   0x1df7030; 0xbfffb0; 0x1007fb0; 0x3806030; 0x1ffe030; 0x2a8030; 0x1c030; 0x3fffff0;
   0x3fffff0; 0x380c38; 0x1c1838; 0xe3038; 0x7f018; 0x3e018; 0x7fff1c; 0x3fc1fcc;
   0x1c001cc; 0x0; 0x0; 0x0; 0x0; 0x202000; 0x0; 0x0;
   0x0; 0x7000; 0x6000; 0xfff000; 0xffe000; 0x7000; 0xaaeaa0; 0x3fffff0;
   0x1aaeab0; 0x1d07030; 0xdffa30; 0x117ffb0; 0x38060b0; 0x1fff030; 0x1ffe030; 0x41030;
   0x63030; 0xe731b0; 0xe633b0; 0x773338; 0x363338; 0x3f3718; 0x63018; 0x3fffffc;
   0x3ffffec; 0x155554c; 0x0; 0x0; 0x0; 0x0; 0x202000; 0x0;
   0x0; 0x0; 0x7000; 0x6000; 0xfff000; 0xaae000; 0x1557550; 0x1fffff8;
   0x1d57578; 0xffb838; 0x1dfffb8; 0x3803038; 0x1fff038; 0x38; 0x7fff38; 0x600238;
   0x7fff38; 0x7ffe38; 0x555538; 0xffffb8; 0x18018; 0x2abaa98; 0x3ffffdc; 0x3e01c;
   0x7e7c1c; 0x3f81fce; 0x1c007cc; 0x0; 0x0; 0x0; 0x0; 0x202000;
   0x0; 0x0; 0x0; 0x1c1c00; 0xc1f80; 0x3fc07fc; 0x3fc083c; 0x1c18cc;
   0x2aea8cc; 0x7ffeddc; 0x3aeed98; 0x30c6798; 0x3fc6208; 0x1ffe300; 0xee300; 0x30c7ffc;
   0x3fc7ffc; 0x1f06300; 0x2a6318; 0x7e6338; 0x666330; 0x666370; 0x666360; 0x7667320;
   0x2623300; 0x3e33300; 0x3e3fbe0; 0x1c191c0; 0x0; 0x0; 0x0; 0x0;
   0x202000; 0x0; 0x0; 0x0; 0x1c01c0; 0x180180; 0x3fc3fc0; 0x3f83f80;
   0x1c01c0; 0x3fffff8; 0x7fffff8; 0x318f198; 0x319d998; 0x2f8cf98; 0x1ffdff8; 0x118c198;
   0x319d598; 0x3f8df98; 0x151c518; 0xfccfd8; 0xfccfdc; 0xccccc8; 0x2ccccdc; 0x2cccccc;
   0x6c6cccc; 0x2c6fcec; 0x2c67c6c; 0x3c76e66; 0x1024424; 0x0; 0x0; 0x0;
   0x0; 0x202000; 0x0; 0x0; 0x0; 0x7000; 0x6000; 0x7000;
   0x6000; 0xfffff0; 0xfffff0; 0xfffff0; 0xe06030; 0xe07030; 0xe06030; 0xe07030;
   0xe06030; 0xe07030; 0xfffff0; 0xfffff0; 0x6000; 0x107000; 0x386000; 0x707000;
   0x606000; 0xf47000; 0x1fffffc; 0x1fffffc; 0x38002bc; 0x3000000; 0x0; 0x0;
   0x0; 0x0; 0x202000; 0x0; 0x0; 0x0; 0x60380; 0x60380;
   0x60380; 0x60380; 0x60380; 0x63ff8; 0x67ffc; 0x63318; 0x6731c; 0x63318;
   0x6731c; 0x63318; 0x6731c; 0x63ff8; 0x67ffc; 0x60398; 0x61b80; 0x3063b80;
   0x7063380; 0x3063b80; 0x7067ffc; 0x3066ffe; 0x3fee01c; 0x3fe0000; 0x500000; 0x0;
   0x0; 0x0; 0x0; 0x202000; 0x0; 0x0; 0x0; 0xc0;
   0x7fc0c0; 0x7fc0c0; 0x60c0c0; 0x71c0c0; 0x60cff8; 0x71cffc; 0x60ccc8; 0x71ccdc;
   0x60ccc8; 0x71ccdc; 0x60ccc8; 0x71ccdc; 0x60cff8; 0x71cffc; 0x60c0c8; 0x70c6c0;
   0x60c6c0; 0x770c4c0; 0x660eec0; 0x770eff0; 0x2606ffc; 0x7f07c1c; 0x3e03800; 0x1403000;
   0x0; 0x0; 0x0; 0x0; 0x202000; 0x0; 0x0; 0x0;
   0x0; 0x2aaaa8; 0x3ffffc; 0x3ffffc; 0x300000; 0x31fa00; 0x33fff8; 0x300ff8;
   0x300e00; 0x300e00; 0x33fff8; 0x33fff8; 0x738e18; 0x338e18; 0x738e18; 0x33fff8;
   0x73fff8; 0x600e00; 0x671ce00; 0x6638e00; 0x663ce00; 0x2e7fffc; 0x3c7fffc; 0x3ce002c;
   0x1840000; 0x0; 0x0; 0x0; 0x0; 0x202000; 0x0; 0x0;
   0x0; 0x180; 0x2aa8180; 0x3ffc180; 0x3ffc180; 0x180180; 0x181ff8; 0x181ffc;
   0x181988; 0x18199c; 0x181988; 0x15d599c; 0x3ffd988; 0x7ffdddc; 0x181ff8; 0x181ffc;
   0x180188; 0x181d80; 0x181980; 0x183980; 0x183980; 0x187ffc; 0x186ffe; 0x18705c;
   0x182000; 0x180000; 0x0; 0x0; 0x0; 0x0; 0x202000; 0x0;
   0x0; 0x0; 0xc0; 0xc0; 0x3ffc0c0; 0x3ffc0c0; 0x1c000c0; 0xe00ff8;
   0x700ffc; 0x380cc8; 0x1c0cdc; 0x1c0cc8; 0x1c0cdc; 0x2beacc8; 0x7ffecdc; 0x3ffeff8;
   0x1c0ffc; 0x1c00c8; 0x1c04c0; 0x1c0ec0; 0x1c0cc0; 0x1c0cc0; 0x1c1ff0; 0x1c1ffc;
   0x1c587c; 0xf8800; 0xf8000; 0x0; 0x0; 0x0; 0x0; 0x202000;
   0x0; 0x0; 0x0; 0x1c0; 0x180; 0x15541c0; 0x3ffe180; 0x3ffe1c0;
   0x181ff8; 0x1c1ffc; 0x181888; 0x1c1ddc; 0x181888; 0x1c1ddc; 0x181888; 0x1c1ddc;
   0x181ff8; 0x1c1ffc; 0x180188; 0x1c0dc0; 0x180d80; 0x1c19c0; 0x181f80; 0x1c3ff0;
   0x3fff3fe; 0x7fff01c; 0x3ffe000; 0x0; 0x0; 0x0; 0x0; 0x0;
   0x202000; 0x0; 0x0; 0x0; 0xc0000; 0xc0000; 0xc3ffc; 0xc3ffc;
   0x1ffee70; 0x1ffee30; 0x18c6e70; 0x18c6e30; 0x18c6e70; 0x18c6e30; 0x1ffee70; 0x1ffee30;
   0xc0e70; 0xcc0e30; 0x1cc0e30; 0x18c0e30; 0x1fd0e30; 0x3fffe38; 0x317fe38; 0x3000e38;
   0x3000e18; 0x3000e1c; 0x3fffc1c; 0x3fffc0e; 0x555004; 0x0; 0x0; 0x0;
   0x0; 0x202000; 0x0; 0x0; 0x0; 0x1c0; 0xe00c0; 0x1c01c0;
   0x3800c0; 0x3801c0; 0x100ff8; 0x7ffeffc; 0x3ffecc8; 0x18cdc; 0x18cc8; 0x18cdc;
   0x18cc8; 0x18cdc; 0x18ff8; 0x18ffc; 0x180c8; 0x185c0; 0x18cc0; 0x18dc0;
   0x198c0; 0x19ff0; 0x2ab9ffc; 0x3ff987c; 0x3ff8000; 0x0; 0x0; 0x0;
   0x0; 0x0; 0x202000; 0x0; 0x0; 0x0; 0x300c0; 0x380c0;
   0x380c0; 0x180c0; 0x3ffc0c0; 0x3ffcffc; 0xeffc; 0xeccc; 0x7ccc; 0x3ccc;
   0x1ffeccc; 0xffcccc; 0x700ccc; 0x380ffc; 0x1c0ffc; 0xe00cc; 0x704c0; 0x38ec0;
   0x1038cc0; 0x301ccc0; 0x700dff0; 0x300effe; 0x3fff87c; 0x3ffc800; 0x17f0000; 0x0;
   0x0; 0x0; 0x0; 0x202000; 0x0; 0x0; 0x0; 0x0;
   0x7fffe0; 0x7fffe0; 0x7000e0; 0x7000e0; 0x7000e0; 0x7fffe0; 0x7fffe0; 0x6000].
Definition hanzi_data_389 : list N :=
  [0x6000; 0xfffff0; 0xfffff0; 0xfffff0; 0xe06030; 0xe06070; 0xe06030; 0xfffff0;
   0xfffff0; 0x106070; 0x3c6020; 0x706000; 0xfee000; 0x1fffffc; 0x38bfffc; 0x1000000;
   0x0; 0x0; 0x0; 0x0; 0x202000; 0x0; 0x0; 0x0;
   0x1c0; 0xc0; 0x7fff9c0; 0x3fff8c0; 0x601c0; 0x60ff8; 0x60ffc; 0x60c88;
   0xe0ddc; 0x1e0c88; 0x7e0ddc; 0xf60c88; 0x1e60ddc; 0x3860ff8; 0x1060ffc; 0x600c8;
   0x605d4; 0x60cc0; 0x60dc0; 0x60cc0; 0x61fc0; 0x61ffe; 0x6187e; 0x60800;
   0x60000; 0x0; 0x0; 0x0; 0x0; 0x202000; 0x0; 0x0;
   0x0; 0x0; 0x2aaaaa8; 0x3fffffc; 0x2aaaea8; 0x600; 0xfffe00; 0x7fff00;
   0xeaab00; 0x6003c0; 0x6001e0; 0x7f60fc; 0x3e6038; 0x6018; 0xffffe0; 0xfffff0;
   0xe06060; 0xe06070; 0xffffe0; 0xfffff0; 0x86000; 0x3c6000; 0x7a6000; 0x1fffffc;
   0x3effff8; 0x1800000; 0x0; 0x0; 0x0; 0x0; 0x202000; 0x0;
   0x0; 0x0; 0xc0070; 0xc0060; 0xc0070; 0xc0030; 0xc0ff0; 0x1fffff8;
   0x1fffd58; 0x1aeb618; 0x1cc761c; 0x18c33ec; 0x1cc70ee; 0x18c30e4; 0x1cc70e0; 0x1aeb0e0;
   0x1fff0e0; 0x1fff0e0; 0x4c00e0; 0xec00e0; 0xcc04e0; 0x1cc0ee0; 0x1fc07e0; 0x3ffa3e0;
   0x3fff9f0; 0x300f870; 0x1000020; 0x0; 0x0; 0x0; 0x0; 0x202000;
   0x0; 0x0; 0x0; 0x401c0; 0x60080; 0x38e41c0; 0x38ee080; 0x19ce1c0;
   0x198eff8; 0x1d8dffc; 0x1c0c888; 0x1c1dddc; 0xc18888; 0xe19ddc; 0xe18888; 0x739ddc;
   0x730ff8; 0x771ffc; 0x3e0088; 0x1e0dc0; 0x1e0c80; 0x1e1dc0; 0x3f1880; 0x779ff0;
   0xe3dffc; 0x3c1f07c; 0x3807800; 0x3003000; 0x0; 0x0; 0x0; 0x0;
   0x202000; 0x0; 0x0; 0x0; 0xc0; 0xc0; 0xfff0c0; 0xffe0c0;
   0xe000c0; 0xe0cff8; 0xe0cffc; 0x60ccc8; 0x60cccc; 0x60ecc8; 0x60eccc; 0x60ecc8;
   0x3ffeccc; 0x3ffeff8; 0x3000ffc; 0x30000c8; 0x30007c0; 0x3bff6c0; 0x3bff6c0; 0x1800ec0;
   0x1800ff0; 0x1800ffc; 0x1c41c1c; 0xfc0000; 0x7c0000; 0x0; 0x0; 0x0;
   0x0; 0x202000; 0x0; 0x0; 0x0; 0xc00c0; 0xc00c0; 0x1c00c0;
   0x1800c0; 0x15d40c0; 0x3ffeff8; 0x3fffffc; 0x30cc8; 0x30cdc; 0x30cc8; 0x1570cdc;
   0x1ff0cc8; 0x1ff0cdc; 0x1830ff8; 0x1838ffc; 0x18380c8; 0x1c184c0; 0x1818ec0; 0x1c1ccc0;
   0xc0ccc0; 0x1c0fff0; 0xc07ffc; 0xd4787c; 0xfc3800; 0x7c1000; 0x0; 0x0;
   0x0; 0x0; 0x202000; 0x0; 0x0; 0x0; 0xc0; 0xc0;
   0x3ffe0c0; 0x3ffe0c0; 0x38c60c0; 0x38c6ff8; 0x38c6ffc; 0x38c6cc8; 0x38c6cdc; 0x38c6cc8;
   0x38c6cdc; 0x38c6cc8; 0x3ffecdc; 0x3ffeff8; 0x3d56ffc; 0x38060c8; 0x66c0; 0x66c0;
   0x1006cc0; 0x6006cc0; 0x7007ff0; 0x3007ffe; 0x3fff87c; 0x3ffe800; 0x0; 0x0;
   0x0; 0x0; 0x0; 0x202000; 0x0; 0x0; 0x0; 0x600c0;
   0xe00c0; 0x1c00c0; 0x1800c0; 0x3800c0; 0x3ffeff8; 0x7fffffc; 0x1c0ccc8; 0x1c1ccdc;
   0xc18cc8; 0xc18cdc; 0xe38cc8; 0x630cdc; 0x630ff8; 0x770ffc; 0x3e00c8; 0x3e04c0;
   0x1c0cc0; 0x1c0cc0; 0x3e08c0; 0x771ff0; 0xe39ffc; 0x3c1f87c; 0x380f800; 0x3002000;
   0x0; 0x0; 0x0; 0x0; 0x202000; 0x0; 0x0; 0x0;
   0x1c00c0; 0xc00c0; 0x1c00c0; 0xc00c0; 0x1c00c0; 0xc0ff8; 0x3ffeffc; 0x3ffecc8;
   0x38c6cdc; 0x38c6cc8; 0x38c6cdc; 0x38c6cc8; 0x39e6cdc; 0x3be6ff8; 0x3b76ffc; 0x3f760c8;
   0x3f366c0; 0x3e3e6c0; 0x3c1ecc0; 0x3806cc0; 0x3806ff0; 0x3806ffe; 0x1d0787c; 0x1f06000;
   0x1f06000; 0x0; 0x0; 0x0; 0x0; 0x202000; 0x0; 0x0;
   0x0; 0x1c01c0; 0xc00c0; 0x1c01c0; 0xc00c0; 0x3ffe1c0; 0x3ffeff8; 0x3ffeffc;
   0xc0c88; 0x1c0cdc; 0xc0c88; 0x1ffecdc; 0x1ffec88; 0x1c0cdc; 0xc0ff8; 0x1c0ffc;
   0xc00c8; 0x7fffdc0; 0x3fffcc0; 0x1c1dc0; 0xc18c0; 0x1c1ff0; 0xc3ffe; 0x1c307c;
   0xc1000; 0x1c0000; 0x0; 0x0; 0x0; 0x0; 0x202000; 0x0;
   0x0; 0x0; 0x1870c0; 0x1860c0; 0x1870c0; 0x1860c0; 0x1877fc; 0x1867fc;
   0x11877dc; 0x39866cc; 0x1d976cc; 0xfbe6cc; 0x7ff6cc; 0x3866cc; 0x1877fc; 0x1867fc;
   0x1875dc; 0x1862cc; 0x1876c0; 0x1866c0; 0x11876c0; 0x3186fe0; 0x71f7ffe; 0x31bec3e;
   0x3f9f404; 0x3f83000; 0x1000; 0x0; 0x0; 0x0; 0x0; 0x202000;
   0x0; 0x0; 0x0; 0x18000c0; 0x18fe0c0; 0x19ff0c0; 0x18c00c0; 0x19c00c0;
   0x18c07fc; 0x19c07fc; 0x18fe6cc; 0x19fe6cc; 0x18066cc; 0x18066cc; 0x18066cc; 0x18066cc;
   0x18fe7fc; 0x19ff7fc; 0x18c00cc; 0x19c06c0; 0x18c06c0; 0x18c06c0; 0x18c0cc0; 0x18c0ff4;
   0x18c0ffe; 0x18f5c1c; 0x187c000; 0x183c000; 0x0; 0x0; 0x0; 0x0;
   0x202000; 0x0; 0x0; 0x0; 0x0; 0xaaaaa0; 0xfffff0; 0xaabaa0;
   0x1800; 0x1c00; 0x3fffffc; 0x3fffffc; 0x70700; 0xe2380; 0x1c63c0; 0x7860e0;
   0x3fffff8; 0x3fffffe; 0x13060dc; 0x3060c0; 0x3060c0; 0x3fffc0; 0x3fffc0; 0x186000;
   0x786000; 0xfee000; 0x1fffffc; 0x38bfff8; 0x1000000; 0x0; 0x0; 0x0;
   0x0; 0x202000; 0x0; 0x0; 0x0; 0xc0; 0x3ffe0c0; 0x3fff0c0;
   0x2eaa0c0; 0x6060c0; 0x60e7fc; 0x6067fc; 0x6066cc; 0x6066cc; 0x6066cc; 0x7fff6cc;
   0x3fff6cc; 0x7fff6cc; 0x7807fc; 0x7c07fc; 0x6e00cc; 0x6704cc; 0x6386c0; 0x61c6c0;
   0x60eec0; 0x607ff0; 0x602ffe; 0x750c1c; 0x7e0c00; 0x3e0000; 0x0; 0x0;
   0x0; 0x0; 0x202000; 0x0; 0x0; 0x0; 0x4000c0; 0xf800c0;
   0x7f00c0; 0xfe0c0; 0x7f0c0; 0x60ff8; 0x60ffc; 0x1860cc8; 0x1ff0cdc; 0xffecc8;
   0x7ecdc; 0x60cc8; 0x60cdc; 0x3860ff8; 0x7ff0ffc; 0xffe0c8; 0x7f6c0; 0x626c0;
   0x1060cc0; 0x3060ec0; 0x3061ff0; 0x3061bfc; 0x3fe181c; 0x3fe0000; 0x1fc0000; 0x0].
Definition hanzi_data_390 : list N :=
  [0x0; 0x0; 0x0; 0x202000; 0x0; 0x0; 0x0; 0x2101c0;
   0x3300c0; 0x7301c0; 0x6380c0; 0xe381c0; 0xc18ff8; 0x1c1dffc; 0x180cc88; 0x180dcdc;
   0x380ec88; 0x71c7cdc; 0x20c7c88; 0xc1cdc; 0xe0ff8; 0x61ffc; 0x6600c8; 0x6705c0;
   0xe30cc0; 0x1c30dc0; 0x1c388c0; 0x1c1dff0; 0x3ffdffc; 0x3ffd87c; 0x300c800; 0x3000000;
   0x0; 0x0; 0x0; 0x0; 0x202000; 0x0; 0x0; 0x0;
   0x0; 0x7ffff0; 0x7ffff0; 0x3830c0; 0x3cf3c0; 0xee780; 0x71f00; 0x3fc00;
   0x1f800; 0xfff80; 0x3ff0ffc; 0x3f860fc; 0x100601c; 0x7fffe0; 0x7fffe0; 0x606060;
   0x706060; 0x7fffe0; 0x7fffe0; 0x186000; 0x3c6000; 0x7a6000; 0x1fffffc; 0x3affff8;
   0x1800000; 0x0; 0x0; 0x0; 0x0; 0x202000; 0x0; 0x0;
   0x0; 0x1c00c0; 0xc00c0; 0x1c00c0; 0x3e00c0; 0x3700c0; 0x730ffc; 0xe38ffc;
   0x1c1cecc; 0x3c1eedc; 0x3807ecc; 0x161bedc; 0x638ecc; 0x638edc; 0x638ffc; 0x638ffc;
   0x6380cc; 0x6187c0; 0x6186c0; 0x6186c0; 0x618ec0; 0x61cff0; 0x60cffc; 0x60fc7c;
   0x607000; 0x606000; 0x0; 0x0; 0x0; 0x0; 0x202000; 0x0;
   0x0; 0x0; 0xc00c0; 0xc00c0; 0xc00c0; 0xc00c0; 0xc00c0; 0x1ffeff8;
   0x1ffeffc; 0xc0cc8; 0xc0cdc; 0xc0cc8; 0xc0cdc; 0xc0cc8; 0x3fffcdc; 0x3ffeff8;
   0x15d5ffc; 0x1e00c8; 0x1e06c0; 0x3e06c0; 0x370cc0; 0x738ec0; 0xf3cff0; 0xe1cbfc;
   0x3c1f01c; 0x3807800; 0x1003000; 0x0; 0x0; 0x0; 0x0; 0x202000;
   0x0; 0x0; 0x0; 0x6000; 0xe06070; 0xe06070; 0xe06070; 0xfffff0;
   0xfffff0; 0x6000; 0x6000; 0x3fffffc; 0x3fffffc; 0x1555554; 0x6000; 0x557540;
   0xffffe0; 0xfffff0; 0xe06060; 0xe06070; 0xffffe0; 0xfffff0; 0x86000; 0x3c6000;
   0xfa6000; 0x1fffffc; 0x3fffffc; 0x3000000; 0x0; 0x0; 0x0; 0x0;
   0x202000; 0x0; 0x0; 0x0; 0x6001c0; 0x6000c0; 0x6181c0; 0x6380c0;
   0x6701c0; 0x6e0ff8; 0x641ffc; 0x600888; 0x601ddc; 0x60c888; 0x61dddc; 0x638888;
   0x671ddc; 0x660ff8; 0x601ffc; 0x3e000c8; 0x7fc05c0; 0x3ffecc0; 0x67fdc0; 0x6028c0;
   0x601ff0; 0x601ffc; 0x60187c; 0x600000; 0x600000; 0x0; 0x0; 0x0;
   0x0; 0x202000; 0x0; 0x0; 0x0; 0x1c0; 0x1ffe0c0; 0x1ffe1c0;
   0x1aae0c0; 0x180e1c0; 0x188eff8; 0x18ceffc; 0x18cecc8; 0x18cecdc; 0x18cecc8; 0x18cecdc;
   0x18cecc8; 0x18cecdc; 0x18ceff8; 0x18ceffc; 0x9ea0c8; 0x1e07c0; 0x1e06c0; 0x11f0dc0;
   0x21b0ec0; 0x71b9ff0; 0x319cbfc; 0x359f81c; 0x3f8f000; 0x1f06000; 0x0; 0x0;
   0x0; 0x0; 0x202000; 0x0; 0x0; 0x0; 0x8001c0; 0x1f800c0;
   0x1ff81c0; 0xf80c0; 0x181c0; 0x18ff8; 0x19ffc; 0x18c88; 0x19ddc; 0x2ab8c88;
   0x3ff9ddc; 0x2eb8c88; 0x619ddc; 0x618ff8; 0x619ffc; 0x6180c8; 0x618dc0; 0x618cc0;
   0x619dc0; 0x6198c0; 0x619ff0; 0x619ffc; 0x7fff87c; 0x3ffe000; 0x0; 0x0;
   0x0; 0x0; 0x0; 0x202000; 0x0; 0x0; 0x0; 0x1c00c0;
   0xc00c0; 0x1c00c0; 0xc00c0; 0x1c00c0; 0xc07fc; 0x3ffe7fc; 0x3ffe6cc; 0x39c66dc;
   0x38c66cc; 0x39c66dc; 0x38c66cc; 0x39c66dc; 0x3ffe7fc; 0x3ffe7fc; 0x3aee0cc; 0x39c64dc;
   0x38c66c0; 0x39c66c0; 0x38c66c0; 0x39c6ff0; 0x3ffeffc; 0x3ffec7c; 0x3aaec00; 0x3806000;
   0x0; 0x0; 0x0; 0x0; 0x202000; 0x0; 0x0; 0x0;
   0x301c0; 0x380c0; 0x181c0; 0x180c0; 0x7ffc1c0; 0x3ffcff8; 0x7ffeffc; 0x6ecc8;
   0x67cdc; 0x63cc8; 0x3fe2cdc; 0x3fe0cc8; 0x60cdc; 0x60ff8; 0x60ffc; 0x600c8;
   0x3fe07c0; 0x3fe0cc0; 0x60dc0; 0x618c0; 0x61ffc; 0x61bfe; 0x6381c; 0x60000;
   0x60000; 0x0; 0x0; 0x0; 0x0; 0x202000; 0x0; 0x0;
   0x0; 0x60; 0x60; 0x3fff060; 0x3fff060; 0xe0060; 0x18e33fc; 0x1ce77fc;
   0xce626c; 0xce676c; 0xcee26c; 0xeec76c; 0x6ec26c; 0xe076c; 0x3fffbfc; 0x7fffffc;
   0x2aea86c; 0xe036c; 0xe0360; 0xe0760; 0xe0660; 0xe07f0; 0xe07fe; 0xe061c;
   0xe0200; 0xe0000; 0x0; 0x0; 0x0; 0x0; 0x202000; 0x0;
   0x0; 0x0; 0x300060; 0x30e060; 0x306060; 0x306060; 0x307060; 0x3033fc;
   0x3fe33fc; 0x3ffb36c; 0x3319b6c; 0x3399b6c; 0x319ff6c; 0x338ff6c; 0x318c76c; 0x318e3fc;
   0x31863fc; 0x399e06c; 0x399b1ec; 0x389b360; 0x19ffb60; 0x18fff60; 0x18f1ff0; 0x18603fe;
   0x1c7061c; 0x1f38000; 0xf10000; 0x0; 0x0; 0x0; 0x0; 0x202000;
   0x0; 0x0; 0x0; 0xc0; 0x2aaa0c0; 0x7fff0c0; 0x3fff0c0; 0x1c000c0;
   0xc007fc; 0x1c007fc; 0xcfe6cc; 0x1cfe6cc; 0xcc66cc; 0x1cc66cc; 0xcc66cc; 0x1cc66cc;
   0xcc67fc; 0x1cc67fc; 0xcee0cc; 0x1cfe7c0; 0xcae6c0; 0x1c066c0; 0xc00cc0; 0x1c00ff0;
   0xc00ffe; 0x1d41c7c; 0xfe0000; 0x7c0000; 0x0; 0x0; 0x0; 0x0;
   0x202000; 0x0; 0x0; 0x0; 0x1c1c0c0; 0xc0c0c0; 0x1c1c0c0; 0xc0c0c0;
   0x1c1c0c0; 0x3fff7fc; 0x7fff7fc; 0xc0c6cc; 0x1c1c6cc; 0xc0c6cc; 0x1c1c6cc; 0xc0c6cc;
   0x1c1c6cc; 0xffc7fc; 0x1ffc7fc; 0xc0c0cc; 0x1c1c7c0; 0xc0c6c0; 0x1c1c6c0; 0xc0ccc0;
   0x1c1cff0; 0xffcffe; 0x1ffdc5c; 0xc0c000; 0x1c1c000; 0x0; 0x0; 0x0;
   0x0; 0x202000; 0x0; 0x0; 0x0; 0xc00c0; 0xc00c0; 0xc00c0;
   0xc00c0; 0x1ffe0c0; 0x1ffe7fc; 0x1cc67fc; 0x18c66cc; 0x1cc66cc; 0x18c66cc; 0x1ffe6cc;
   0x1ffe6cc; 0x1cc66cc; 0x18c67fc; 0x1cc67fc; 0x18c60cc; 0x7fffccc; 0x3fffec0; 0x1c066c0;
   0x1806ec0; 0x1c06ff0; 0x1806ffe; 0x1c06c7c; 0x1f06800; 0xe06000; 0x0; 0x0;
   0x0; 0x0; 0x202000; 0x0; 0x0; 0x0; 0x401c0; 0xe00c0;
   0xc01c0; 0x1c00c0; 0x1c01c0; 0x3ffeff8; 0x3fffffc; 0x180c88; 0x1c1cdc; 0x180c88].
Definition hanzi_data_391 : list N :=
  [0x1c1cdc; 0x180c88; 0x1c1cdc; 0x1ffeff8; 0x1fffffc; 0x1800c8; 0x1c07c0; 0x180cc0;
   0x1c0dc0; 0x180ec0; 0x1c1ff0; 0x1819fc; 0x7fff81c; 0x3fff000; 0x0; 0x0;
   0x0; 0x0; 0x0; 0x202000; 0x0; 0x0; 0x0; 0xc0;
   0x3fff0c0; 0x3fff0c0; 0x2aea0c0; 0xc00c0; 0xc0ff8; 0x3ffeffc; 0x3ffecc8; 0x38c6ccc;
   0x38c6cc8; 0x38c6ccc; 0x39e6cc8; 0x39e6ccc; 0x3b66ff8; 0x3f76ffc; 0x3e360c8; 0x3e3e7c0;
   0x3c1e6c0; 0x38066c0; 0x3806cc0; 0x3806ffc; 0x3806ffe; 0x3807c1c; 0x3e06000; 0x1e06000;
   0x0; 0x0; 0x0; 0x0; 0x202000; 0x0; 0x0; 0x0;
   0x1c00c0; 0x1c00c0; 0x1c00c0; 0x1c00c0; 0x1c00c0; 0x1c0ff8; 0x7fffffc; 0x3ffecc8;
   0x1c0cdc; 0x1c0cc8; 0x1c0cdc; 0x1c0cc8; 0x1c0cdc; 0x3ffcff8; 0x3ffcffc; 0x3aac0c8;
   0x380c4c0; 0x380c6c0; 0x380ccc0; 0x380ccc0; 0x380dff0; 0x3ffdffe; 0x3ffd87c; 0x3aac800;
   0x380c000; 0x0; 0x0; 0x0; 0x0; 0x202000; 0x0; 0x0;
   0x0; 0xc0; 0xffc0c0; 0xffc0c0; 0xc0c0c0; 0xc0c0c0; 0xc0cffc; 0xc0cffc;
   0xc0cccc; 0xffccdc; 0xffcccc; 0xc0ccdc; 0xc0cccc; 0xc0ccdc; 0xc0cffc; 0xc0cffc;
   0xffc0cc; 0xffc6c0; 0xc0c6c0; 0xc0ccc0; 0xc0ccc0; 0xc0cff0; 0xc0cffe; 0x7fffc7c;
   0x3fff800; 0x0; 0x0; 0x0; 0x0; 0x0; 0x202000; 0x0;
   0x0; 0x0; 0xc00c0; 0xc00c0; 0x1c00c0; 0x1800c0; 0x3fff0c0; 0x3ffeff8;
   0x3007ffc; 0x3006cc8; 0x301fcdc; 0x18cc8; 0x18cdc; 0x1818cc8; 0x1e18cdc; 0xf98ff8;
   0x3f8ffc; 0xf80c8; 0x384c0; 0x18cc0; 0x1018cc0; 0x20188c0; 0x7019ff0; 0x3019ffc;
   0x3ff987c; 0x3ff8800; 0x1ff0000; 0x0; 0x0; 0x0; 0x0; 0x202000;
   0x0; 0x0; 0x0; 0x1c00c0; 0xc00c0; 0x1e00c0; 0x1e00c0; 0x3f00c0;
   0x3387f8; 0x71c7fc; 0xe0e6c8; 0x1c7f6cc; 0x38e3ec8; 0x31c3ecc; 0x806c8; 0xd546cc;
   0x1ffe7f8; 0x1ffe7fc; 0xe000c8; 0x6003c0; 0x7006c0; 0x3986c0; 0x1b8ec0; 0x1f0ff0;
   0xe0ffc; 0x1c1c1c; 0x380000; 0x100000; 0x0; 0x0; 0x0; 0x0;
   0x202000; 0x0; 0x0; 0x0; 0x6000; 0x6000; 0x7fffe0; 0x7fffe0;
   0x7fffe0; 0x606060; 0x606060; 0x7fffe0; 0x7fffe0; 0x206000; 0x706000; 0xffe800;
   0x1fffffc; 0x182bff8; 0x1800000; 0xffffe0; 0xfffff0; 0xebaee0; 0xe31c70; 0xe30c60;
   0xe31c70; 0xe30c60; 0x7fffffc; 0x3fffffc; 0x0; 0x0; 0x0; 0x0;
   0x0; 0x202000; 0x0; 0x0; 0x0; 0x0; 0x1fffff8; 0x1fffff8;
   0x1806000; 0x1c06180; 0xffe180; 0x3fe1c0; 0x63e0; 0x7f70; 0x3fffe78; 0x3fff03c;
   0x201c; 0x600c; 0xffffe0; 0xfffff0; 0xe06060; 0xe06070; 0xffffe0; 0xfffff0;
   0x186000; 0x3c6000; 0xfa6000; 0x1fffffc; 0x38bfffc; 0x3000000; 0x0; 0x0;
   0x0; 0x0; 0x202000; 0x0; 0x0; 0x0; 0xc0; 0x2aaa0c0;
   0x7fff0c0; 0x2aae0c0; 0x77fc; 0x67fc; 0x15577dc; 0x3ffe6cc; 0x7fff6cc; 0xe66cc;
   0xe76cc; 0xe66cc; 0x1fe77fc; 0x1fe67fc; 0x18675dc; 0x18662cc; 0x18676c0; 0x18636c0;
   0x18736c0; 0x1833fe0; 0x1833ffe; 0x183bc3c; 0x1c19c04; 0xf9dc00; 0xf88c00; 0x0;
   0x0; 0x0; 0x0; 0x202000; 0x0; 0x0; 0x0; 0xc0;
   0xfff0c0; 0x1fff0c0; 0x1eae0c0; 0xc1c0c0; 0xe187fc; 0x7387fc; 0x3f06cc; 0x1e06cc;
   0x3f06cc; 0x1ffc6cc; 0x7e0fecc; 0x38c76cc; 0xc07fc; 0xc07fc; 0x2aea0cc; 0x3fff4cc;
   0x2aea6c0; 0xc06c0; 0xc0cc0; 0xc0ff0; 0xc0ffc; 0x7fffc7c; 0x3fff800; 0x0;
   0x0; 0x0; 0x0; 0x0; 0x202000; 0x0; 0x0; 0x0;
   0x3300c0; 0x3300c0; 0x3300c0; 0x3300c0; 0x3300c0; 0x2bba7f8; 0x3fff7fc; 0x3fff6c8;
   0x3b376dc; 0x3b336c8; 0x3b376dc; 0x3b336c8; 0x3b376dc; 0x3fff6c8; 0x3fff7fc; 0x3b337f8;
   0x3b370dc; 0x3b336c8; 0x3b376c0; 0x3b336c0; 0x3b377f0; 0x3b33ffe; 0x3fffc1c; 0x3803000;
   0x3807000; 0x0; 0x0; 0x0; 0x0; 0x202000; 0x0; 0x0;
   0x0; 0xe00c0; 0x600c0; 0x7700c0; 0x6380c0; 0xe1c7fc; 0xe8e7fc; 0x1fff7dc;
   0x3afe6cc; 0x10c46cc; 0xcc6cc; 0xcc6cc; 0xce6cc; 0x1ffe7fc; 0x1ffe7fc; 0xc75dc;
   0xc3acc; 0xc36c0; 0x3fffec0; 0x3fffec0; 0xc0fc0; 0xc0ffe; 0xc0c3e; 0xc0404;
   0xc0000; 0xc0000; 0x0; 0x0; 0x0; 0x0; 0x202000; 0x0;
   0x0; 0x0; 0xc0; 0x2aaa0c0; 0x3fff0c0; 0x3aaa0c0; 0x38070c0; 0x3802ff8;
   0x3807ffc; 0x3bf2cc8; 0x3bf7cdc; 0x3b32cc8; 0x3b37cdc; 0x3b32cc8; 0x3b37ddc; 0x3b32ff8;
   0x3b37ffc; 0x3b320c8; 0x3bf76c0; 0x3bf26c0; 0x38076c0; 0x3802ec0; 0x3807ffc; 0x3ffeffe;
   0x3fffc1c; 0x3802000; 0x3807000; 0x0; 0x0; 0x0; 0x0; 0x202000;
   0x0; 0x0; 0x0; 0x1c0c0c0; 0xc0c0c0; 0xc1c0c0; 0xe180c0; 0x7387fc;
   0x2baa7fc; 0x3fff7dc; 0x3fff6cc; 0xc06cc; 0xc06cc; 0xc06cc; 0x1ffe6cc; 0x1ffe7fc;
   0xc07fc; 0xc05dc; 0xc02cc; 0x7fff6c0; 0x3fff6c0; 0x7fff6c0; 0xc0fe0; 0xc0ffe;
   0xc0c3c; 0xc0004; 0xc0000; 0xc0000; 0x0; 0x0; 0x0; 0x0;
   0x202000; 0x0; 0x0; 0x0; 0x1c00c0; 0xc00c0; 0x1c00c0; 0xc00c0;
   0x3ffe0c0; 0x3ffeff8; 0x1c0ffc; 0xc0cc8; 0x1c0cdc; 0x2aeacc8; 0x3fffcdc; 0x3fffcc8;
   0x1c0cdc; 0xc0ff8; 0x1c0ffc; 0x2aea0c8; 0x3ffe6c0; 0x3ffeec0; 0x1c0cc0; 0xc0ec0;
   0x1c1ff0; 0xc1bfc; 0x7fff85c; 0x3fff000; 0x0; 0x0; 0x0; 0x0;
   0x0; 0x202000; 0x0; 0x0; 0x0; 0x1c00c0; 0xc80c0; 0x1dc0c0;
   0xdc0c0; 0x1dc0c0; 0x1ffcffc; 0x1ffcffc; 0xceccc; 0x1c6ccc; 0xc7ccc; 0x1c3ccc;
   0xc0ccc; 0x3fffccc; 0x3fffffc; 0x3f0ffc; 0x3f00cc; 0x7f06c0; 0x6d86c0; 0xddccc0;
   0x1ccefc0; 0x39c7ffc; 0x38c78fe; 0x31c381c; 0xc1000; 0x1c0000; 0x0; 0x0].
Definition hanzi_data_392 : list N :=
  [0x0; 0x0; 0x202000; 0x0; 0x0; 0x0; 0xc000c0; 0x1f800c0;
   0x1fff0c0; 0xfe0c0; 0xc40c0; 0xc0ffc; 0xc0ffc; 0xc0ecc; 0x7fffecc; 0x3fffecc;
   0x55d5ecc; 0xc0ecc; 0xc0ecc; 0xc0ffc; 0x15d4ffc; 0x1ffe0cc; 0x1ffe4cc; 0x18066c0;
   0x18066c0; 0x18066c0; 0x1806ff0; 0x1806ffe; 0x1ffec1c; 0x1ffec00; 0x1806000; 0x0;
   0x0; 0x0; 0x0; 0x202000; 0x0; 0x0; 0x0; 0x600c0;
   0xe00c0; 0x1c00c0; 0xc00c0; 0x3fff0c0; 0x3fffff8; 0x410ffc; 0xe38cc8; 0xc1ccdc;
   0x1c0ccc8; 0x380ecdc; 0x3206cc8; 0x761fcdc; 0x61aff8; 0x730ffc; 0x3300c8; 0x3f06c0;
   0x1e06c0; 0x1c0cc0; 0x3e0ec0; 0x7f1ff0; 0xf39bfe; 0x1e1f81c; 0x380f000; 0x1006000;
   0x0; 0x0; 0x0; 0x0; 0x202000; 0x0; 0x0; 0x0;
   0xc00c0; 0xe00c0; 0xe00c0; 0x1f00c0; 0x1f00c0; 0x338ff8; 0x71cffc; 0xe0ecc8;
   0x1c0fcdc; 0x3fffcc8; 0x17ffcdc; 0xcc8; 0xddc; 0xff8; 0xffeffc; 0xffe0c8;
   0xc066c0; 0xc06ec0; 0xc06cc0; 0xc06cc0; 0xc07ff4; 0xeafbfe; 0xfff81c; 0xffe000;
   0xc06000; 0x0; 0x0; 0x0; 0x0; 0x202000; 0x0; 0x0;
   0x0; 0x0; 0x7feaa8; 0x7feffc; 0x60eae8; 0x71e1c0; 0x63e0c0; 0x7fe1c0;
   0x27e68c0; 0x77c7ff0; 0x2607ffc; 0x3f0387c; 0x3e03c00; 0x7800; 0x7fffe0; 0x7fffe0;
   0x606060; 0x606060; 0x606060; 0x7fffe0; 0x2aeaa0; 0x1c6000; 0x786000; 0x1fffffc;
   0x3fffff8; 0x3801578; 0x0; 0x0; 0x0; 0x0; 0x202000; 0x0;
   0x0; 0x0; 0xc0; 0xc0; 0x3fff0c0; 0x3ffe0c0; 0x700c0; 0x630ff8;
   0xe38ffc; 0xc18cc8; 0x1c1ccdc; 0x1ffecc8; 0x3fffcdc; 0x3002cc8; 0x11c0ddc; 0xc0ff8;
   0x1c0ffc; 0x2aea0c8; 0x3ffe6c0; 0x3ffeec0; 0x1c0cc0; 0xc0ec0; 0x1c1ffc; 0xc1bfe;
   0x7fff81c; 0x3fff000; 0x0; 0x0; 0x0; 0x0; 0x0; 0x202000;
   0x0; 0x0; 0x0; 0x7000; 0x6000; 0x3fffffc; 0x3fffffc; 0x1575d54;
   0x30c80; 0x3b0dc0; 0x730ce0; 0x1e30c70; 0x1c30c38; 0x1830c38; 0x36c00; 0x6000;
   0xffffe0; 0xfffff0; 0xe06060; 0xe06070; 0xffffe0; 0xfffff0; 0x186000; 0x786000;
   0xea6000; 0x1fffffc; 0x3bffff8; 0x1800000; 0x0; 0x0; 0x0; 0x0;
   0x202000; 0x0; 0x0; 0x0; 0x701c0; 0x30180; 0x5745d4; 0x7feffc;
   0x7feffc; 0x630180; 0x63efc0; 0x63eff8; 0x6781fc; 0x2efc180; 0x6cce1c0; 0x3c879f8;
   0x3c071f0; 0x6000; 0x7ffff0; 0x7fffe0; 0x606070; 0x606060; 0x7ffff0; 0x7fffe0;
   0x1c6000; 0x786000; 0x1fffffc; 0x3fffff8; 0x100057c; 0x0; 0x0; 0x0;
   0x0; 0x202000; 0x0; 0x0; 0x0; 0xe00e0; 0xe00e0; 0xe00e0;
   0xe00e0; 0x1fff0e0; 0x1fff7fc; 0x4e07fc; 0xce664c; 0xce664c; 0xeee64c; 0x6ec64c;
   0x6ec64c; 0x4e464c; 0x3fffffc; 0x3fffffc; 0xe00ec; 0x1f03e0; 0x1b02e0; 0x3b86e0;
   0x3386e0; 0x71c7f0; 0xe0effe; 0x1c07c1c; 0x3803c00; 0x1001800; 0x0; 0x0;
   0x0; 0x0; 0x202000; 0x0; 0x0; 0x0; 0x1c0c0; 0x180c0;
   0x180c0; 0x1ff80c0; 0x1fff0c0; 0x83f7f8; 0x1c307fc; 0xe706c8; 0x7e06cc; 0x31e06c8;
   0x31fc6cc; 0x3fbf6c8; 0x1f076cc; 0x8007f8; 0x3fffffc; 0x3fff8c8; 0x17dd3c0; 0x3986c0;
   0x39c6c0; 0x39c6c0; 0x339cff0; 0x238effc; 0x778741c; 0x3f03c00; 0x1f01800; 0x0;
   0x0; 0x0; 0x0; 0x202000; 0x0; 0x0; 0x0; 0xc060;
   0xc060; 0x3fec060; 0x3fed860; 0x70d860; 0x20dbfc; 0x174dbfc; 0x3feda6c; 0x3fedb6c;
   0x326da6c; 0x376db6c; 0x326da6c; 0x376db6c; 0x326dbfc; 0x376dbfc; 0x326c06c; 0x376c16c;
   0x326c360; 0x376e360; 0x3a66260; 0x1f677f0; 0x2036fe; 0x703e1c; 0x201800; 0x701000;
   0x0; 0x0; 0x0; 0x0; 0x202000; 0x0; 0x0; 0x0;
   0x600c0; 0xe00c0; 0xc00c0; 0x3fff0c0; 0x7fff0c0; 0xc0c7fc; 0xe187fc; 0x6386cc;
   0x7706cc; 0x3e06cc; 0x1e06cc; 0xff86cc; 0x7f3f6cc; 0x380f7fc; 0xe187fc; 0xe180cc;
   0xe184c0; 0xe186c0; 0xe186c0; 0xe18ec0; 0xe1cff0; 0xe0effc; 0xe0f41c; 0xe07800;
   0xe01000; 0x0; 0x0; 0x0; 0x0; 0x202000; 0x0; 0x0;
   0x0; 0x1c00c0; 0x30c20c0; 0x31c70c0; 0x38ce0c0; 0x19cc0c0; 0xcccffc; 0xddcffc;
   0xaeaccc; 0x1ffeccc; 0x1ffeccc; 0x180eccc; 0x180eccc; 0x1ffeccc; 0x1ffeffc; 0x180effc;
   0x180e0cc; 0x1d5e4c4; 0x1ffe6c0; 0x1ffecc0; 0x180ecc0; 0x180ffc0; 0x180fffe; 0x180f9fc;
   0x1f0e800; 0x1f0e000; 0x0; 0x0; 0x0; 0x0; 0x202000; 0x0;
   0x0; 0x0; 0xc0; 0xaaa0c0; 0x3ffe0c0; 0xeaa0c0; 0xf180c0; 0x3bc7fc;
   0x1f07fc; 0x3e06cc; 0x3fff6dc; 0x3ffe6cc; 0x38c76dc; 0x38c66cc; 0x3dd76dc; 0x3ffe7fc;
   0x3fff7fc; 0x38c60cc; 0x38c74dc; 0x3aee6c0; 0x3fff6c0; 0x3aeeec0; 0x38c7ff0; 0x38c6ffc;
   0x38c7c7c; 0x3fc6c00; 0x1fc7000; 0x0; 0x0; 0x0; 0x0; 0x202000;
   0x0; 0x0; 0x0; 0x1b0060; 0xdf8060; 0x1dbf060; 0x198fc60; 0x398c460;
   0x318c3fc; 0x118c3fc; 0x18c26c; 0x3ffff6c; 0x3fffa6c; 0x18c36c; 0xb8c26c; 0x1b8c37c;
   0x1b8c3fc; 0x1f7c3fc; 0xf7f86c; 0xf1ff60; 0x70cb60; 0x70c760; 0x230c3e0; 0x678c7fe;
   0x27cc6fe; 0x7efc604; 0x3c7f800; 0x1c27000; 0x0; 0x0; 0x0; 0x0;
   0x202000; 0x0; 0x0; 0x0; 0x0; 0xfffff8; 0x1fffff8; 0xc30c38;
   0x1c30c38; 0xc30c38; 0x1fffff8; 0xfffff8; 0x380; 0xaaabc0; 0x1fffff0; 0x1aabaf8;
   0x1c0383c; 0x1cfffe8; 0x1cfffe0; 0xce3860; 0x1ce3860; 0xcfffe0; 0x1cfffe0; 0xc33860;
   0xc73800; 0xcffff0; 0xfdfff0; 0xfc0020; 0x7c0000; 0x0; 0x0; 0x0;
   0x0; 0x202000; 0x0; 0x0; 0x0; 0x700c0; 0x300c0; 0x7f80c0;
   0xff80c0; 0xe1c0c0; 0x61e7fc; 0x73fffc; 0x3f36cc; 0x1e06cc; 0x3f86cc; 0x1f3f6cc].
Definition hanzi_data_393 : list N :=
  [0x3ccfecc; 0x30c1ecc; 0x1ffe7fc; 0x1ffe7fc; 0xc00cc; 0x1ffe4c4; 0xffe6c0; 0xc06c0;
   0xc0ec0; 0x3ffffd0; 0x2aeaffe; 0xc0c7c; 0xc0400; 0xc0000; 0x0; 0x0;
   0x0; 0x0; 0x202000; 0x0; 0x0; 0x0; 0x0; 0x1fffff0;
   0x1fffff0; 0x30; 0x7fff30; 0x7fff30; 0x30; 0x3fffff0; 0x3fffff0; 0xe18630;
   0x7f0730; 0x3efe30; 0x3fc7f30; 0x3e0c330; 0x1ffffb0; 0xffffb8; 0xe1c1b8; 0xe0c1b8;
   0xffff98; 0xffff98; 0x71c01c; 0xe0c01c; 0x1ffffdc; 0x3ffffee; 0x300000c; 0x0;
   0x0; 0x0; 0x0; 0x202000; 0x0; 0x0; 0x0; 0xc001c0;
   0x1fe0180; 0x7fdffc; 0xdffc; 0xd5d4; 0x2aac180; 0x3ffdfc0; 0x2badffc; 0x70c1fc;
   0x30e180; 0x7071c0; 0x3039e8; 0x7071f0; 0x6000; 0xfffff0; 0xffffe0; 0xe06070;
   0xe06060; 0xfffff0; 0xffffe0; 0x386000; 0xf06000; 0x1fffffc; 0x3fffffc; 0x3000000;
   0x0; 0x0; 0x0; 0x0; 0x202000; 0x0; 0x0; 0x0;
   0xc0; 0x1ffe0c0; 0x1fff0c0; 0x1aae0c0; 0x1c070c0; 0x18067fc; 0x1c077fc; 0x1ffe6cc;
   0x1fff6cc; 0x6cc; 0x6cc; 0x3fff6cc; 0x3fff6cc; 0xe07fc; 0xe07fc; 0xe00cc;
   0x7fffccc; 0x3fffec0; 0x1f06c0; 0x1f06c0; 0x3b8ff0; 0x73cffc; 0x1e1fc1c; 0x3c07800;
   0x1001800; 0x0; 0x0; 0x0; 0x0; 0x202000; 0x0; 0x0;
   0x0; 0x1c000c0; 0x3ff80c0; 0x7ff0c0; 0x180b0c0; 0x18770c0; 0x1c667fc; 0xc667fc;
   0xece6cc; 0x6cc6cc; 0xffe6cc; 0x1fff6cc; 0xeaa6cc; 0x7806cc; 0x1c07fc; 0xe07fc;
   0xe00cc; 0x3fffec4; 0x3fffec0; 0xe06c0; 0xe0ec0; 0xe0fd0; 0xe0ffe; 0xe0c7c;
   0xf8400; 0x78000; 0x0; 0x0; 0x0; 0x0; 0x202000; 0x0;
   0x0; 0x0; 0x1800060; 0x1838060; 0x187f060; 0x198fc60; 0x198d860; 0x198c3fc;
   0x198c3fc; 0x198c26c; 0x19fff6c; 0x19ffa6c; 0x198e36c; 0x198e26c; 0x199f37c; 0x19bf3fc;
   0x19ff3fc; 0x19ed86c; 0x198df60; 0x198cf60; 0x198cf60; 0x180c3e0; 0x180c7fe; 0x180c6fe;
   0x180c604; 0x1f0c000; 0x1f0c000; 0x0; 0x0; 0x0; 0x0; 0x202000;
   0x0; 0x0; 0x0; 0xc00e0; 0xe00e0; 0x1f00e0; 0x3b80e0; 0x71c0e0;
   0xe0e7fc; 0x7c07ffc; 0x3803e4c; 0xffe74c; 0xffe64c; 0xc074c; 0xc064c; 0xc074c;
   0x3fffffc; 0x3fffffc; 0xc00ec; 0x6c40ec; 0xece3e0; 0x1cc67e0; 0x18c66e0; 0x38c77f0;
   0x38c3ffe; 0x10c167c; 0xf8200; 0x78000; 0x0; 0x0; 0x0; 0x0;
   0x202000; 0x0; 0x0; 0x0; 0xc0; 0x1ffe0c0; 0x1ffe0c0; 0x1c060c0;
   0x1c065d0; 0x1c06ff8; 0x1ffeffc; 0x1ffecc8; 0xcdc; 0xcc8; 0x1fffcdc; 0x1ffecc8;
   0x1807ffc; 0x1806ff8; 0x1fff5dc; 0x1ffe0c8; 0x18076c0; 0x1806ec0; 0x1fffcc0; 0x1ffefc0;
   0x1807ffe; 0x18068fe; 0x1807404; 0x1f06000; 0x1f07000; 0x0; 0x0; 0x0;
   0x0; 0x202000; 0x0; 0x0; 0x0; 0x306060; 0x306060; 0x306060;
   0x306060; 0x33f860; 0x33fbfc; 0x3fffbfc; 0x3fc636c; 0x330636c; 0x330636c; 0x337ff6c;
   0x333fb6c; 0x335776c; 0x33063fc; 0x331f3fc; 0x339b06c; 0x31b316c; 0x31b3360; 0x31bdb60;
   0x38ffa60; 0x18e7ff0; 0x18e0ffe; 0x1f6061c; 0xf70200; 0x520000; 0x0; 0x0;
   0x0; 0x0; 0x202000; 0x0; 0x0; 0x0; 0x1000060; 0x3e0fc60;
   0x1fffc60; 0x7ee860; 0x60e3fc; 0x6063fc; 0x60736c; 0x66336c; 0x66336c; 0x3e7fb6c;
   0x3e7ff6c; 0x668b6c; 0x67c36c; 0x66dbfc; 0x66dbfc; 0x66d86c; 0x66d364; 0x667360;
   0x3fe7360; 0x3fe63e0; 0xf7f0; 0x3fefe; 0x7ff9e1c; 0x3fe0e00; 0x1500400; 0x0;
   0x0; 0x0; 0x0; 0x202000; 0x0; 0x0; 0x0; 0x1000060;
   0x3e0fc60; 0x1fffc60; 0x3ee860; 0x30e3fc; 0x3063fc; 0x30736c; 0x30336c; 0x30336c;
   0x3fffb6c; 0x3ffff6c; 0x308b6c; 0x31c36c; 0x30dbfc; 0x30dbfc; 0x30d86c; 0x30d364;
   0x307360; 0x3ff7360; 0x3ff63e0; 0xf7f0; 0x3fefe; 0x7ff9e1c; 0x3fe0e00; 0x1500400;
   0x0; 0x0; 0x0; 0x0; 0x202000; 0x0; 0x0; 0x0;
   0x40c0c0; 0xe0c0c0; 0xe1c0c0; 0x6380c0; 0x7300c0; 0xbba7fc; 0x1fff7fc; 0x1aae4cc;
   0x18074cc; 0x18064cc; 0x18074cc; 0x18064cc; 0x1fff4cc; 0x1ffe7fc; 0x3307fc; 0x3380cc;
   0x3386c0; 0x3186c0; 0x3186c0; 0x2318cc0; 0x731cff0; 0x230effe; 0x3f07c7c; 0x3f03800;
   0x1f01000; 0x0; 0x0; 0x0; 0x0; 0x202000; 0x0; 0x0;
   0x0; 0xc0; 0x1ffe0c0; 0x1ffe0c0; 0x18060c0; 0x1c060c0; 0x18067fc; 0x1ffe7fc;
   0x1ffe64c; 0x15d464c; 0xc064c; 0xc064c; 0x3fff64c; 0x3fff64c; 0x30c37fc; 0x30e37fc;
   0x31e30cc; 0x33f33cc; 0x33333c0; 0x373b7c0; 0x3e1f6c0; 0x340f7f0; 0x30037fe; 0x3003c1c;
   0x3f03000; 0x1f03000; 0x0; 0x0; 0x0; 0x0; 0x202000; 0x0;
   0x0; 0x0; 0x7060; 0x3060; 0x1503060; 0x3f83060; 0x3fff860; 0x39ffbf8;
   0x398dffc; 0x398da48; 0x398ce4c; 0x398ca48; 0x398c64c; 0x39ffa48; 0x39ffe4c; 0x398c3f8;
   0x398c7fc; 0x398c068; 0x399c360; 0x399e260; 0x39b6660; 0x39f67e0; 0x3fe77fc; 0x3fa3cfe;
   0x3981c04; 0x3980c00; 0x100c00; 0x0; 0x0; 0x0; 0x0; 0x202000;
   0x0; 0x0; 0x0; 0x30c00; 0x30c00; 0x1ff0ff8; 0x1ff0ff8; 0x30c00;
   0xff0ff0; 0x1ff0ff0; 0x30c00; 0x1570d54; 0x3ff0ffc; 0x5570d54; 0x32c00; 0x16400;
   0xffffe0; 0xfffff0; 0xe06060; 0xe06070; 0xe06060; 0xfffff0; 0xaaeaa0; 0x706000;
   0xe06000; 0x1fffffc; 0x3affffc; 0x1000000; 0x0; 0x0; 0x0; 0x0;
   0x202000; 0x0; 0x0; 0x0; 0x7000; 0x6000; 0x3fffffc; 0x3fffff8;
   0x3843c1c; 0x38e7018; 0x1b7e75c; 0x738660; 0x1e9f770; 0x1987e38; 0x19fffd0; 0xffff8;
   0x6078; 0x6000; 0x7fffe0; 0x6aeae0; 0x606060; 0x606060; 0x7fffe0; 0x7fffe0;
   0x3c6000; 0x706000; 0x1fffff8; 0x3fffff8; 0x1000000; 0x0; 0x0; 0x0].
Definition hanzi_data_394 : list N :=
  [0x0; 0x202000; 0x0; 0x0; 0x0; 0xc0c0c0; 0xc0c0c0; 0xc0c0c0;
   0xc0c0c0; 0x3fff0c0; 0x3fff7fc; 0xc0c7fc; 0xc0c6cc; 0xffc6cc; 0xffc6cc; 0xc0c6cc;
   0xc0c6cc; 0xffc6cc; 0xffc7fc; 0xc0c7fc; 0xc0c0cc; 0x7fff8cc; 0x3fffac0; 0x55556c0;
   0x2386c0; 0xf1c7f0; 0xe0ecfe; 0x1c0fc1c; 0x3807800; 0x1003000; 0x0; 0x0;
   0x0; 0x0; 0x202000; 0x0; 0x0; 0x0; 0x6380c0; 0x6380c0;
   0x6380c0; 0x3ffe0c0; 0x3fff0c0; 0x6387fc; 0x6387fc; 0x6386cc; 0x6386cc; 0x3fff6cc;
   0x7fff6cc; 0x6cc; 0x6cc; 0x1ffc7fc; 0x1ffc7fc; 0x180c0cc; 0x1c0c4c4; 0x1ffc6c0;
   0x1ffccc0; 0x180cec0; 0x1c0cff0; 0x180dbfc; 0x1ffd87c; 0x1ffc800; 0x1c0c000; 0x0;
   0x0; 0x0; 0x0; 0x202000; 0x0; 0x0; 0x0; 0xc0;
   0xffc0c0; 0xffc0c0; 0x7000c0; 0x3800c0; 0x1c0ff8; 0xc0ffc; 0x3fffcc8; 0x3fffcdc;
   0xc0cc8; 0xc0cdc; 0xc0cc8; 0xfccdc; 0xf8ff8; 0xffc; 0x1ffe0c8; 0x1ffe7c0;
   0x1b266c0; 0x1b366c0; 0x1b26fc0; 0x1b36ffc; 0x1b26cfc; 0x7fffc1c; 0x3fff800; 0x0;
   0x0; 0x0; 0x0; 0x0; 0x202000; 0x0; 0x0; 0x0;
   0x40c0c0; 0xe0c0c0; 0x6180c0; 0x3380c0; 0x3fff0c0; 0x3fff7fc; 0xc07fc; 0xc06cc;
   0x1ffe6cc; 0x1ffe6cc; 0x15d46cc; 0xe06cc; 0xe06cc; 0x3fff7fc; 0x3fff7fc; 0x1e00cc;
   0x1f04c0; 0x1b06c0; 0x1b0cc0; 0x1b8cc0; 0x719cff0; 0x218effe; 0x758fc7c; 0x3f83800;
   0x1f01000; 0x0; 0x0; 0x0; 0x0; 0x202000; 0x0; 0x0;
   0x0; 0x1006060; 0x3c06060; 0x1f06060; 0x3c6060; 0x1c6060; 0xc63fc; 0x1ffffc;
   0xffb6c; 0x1c636c; 0x3fc636c; 0x7fcf36c; 0xccf36c; 0x1ddf36c; 0xcf7bfc; 0x1cf7bfc;
   0xcc786c; 0x1cc7d6c; 0xcc6f60; 0x1cc6760; 0xce6360; 0x1c667f0; 0xc662fe; 0x1c7661c;
   0xc36200; 0x1c06000; 0x0; 0x0; 0x0; 0x0; 0x202000; 0x0;
   0x0; 0x0; 0xc0; 0x1fff0c0; 0x1fff0c0; 0x18030c0; 0x18c30c0; 0x18c37fc;
   0x1bfb7fc; 0x1bfb6cc; 0x18c36cc; 0x18c36cc; 0x1ffb6cc; 0x1ffb6cc; 0x18036cc; 0x18037fc;
   0x1bfb7fc; 0x1bfb0cc; 0x1b1b0c4; 0x1b1b2c0; 0x1b1b6c0; 0x1bfbfc0; 0x1bf9ff0; 0x1819cfc;
   0x1801c1c; 0x1f00c00; 0x1f00c00; 0x0; 0x0; 0x0; 0x0; 0x202000;
   0x0; 0x0; 0x0; 0xd80060; 0x1d80060; 0x3980060; 0x3180060; 0x7fff860;
   0x3fffbfc; 0x1807fc; 0x38026c; 0x11bf76c; 0x3bbf26c; 0x1bb376c; 0x1bb326c; 0x1f3376c;
   0xf333fc; 0xf3f7fc; 0xf3f06c; 0x700364; 0x778360; 0x77f760; 0x278fa60; 0x67c1ff0;
   0x66e07fe; 0x6c7061c; 0x3c38000; 0x3810000; 0x0; 0x0; 0x0; 0x0;
   0x202000; 0x0; 0x0; 0x0; 0x1c00c0; 0xe00c0; 0xe00c0; 0x3ffe0c0;
   0x3fff5d4; 0x38c6ffc; 0x38c7ffc; 0x3ffeccc; 0x3fffccc; 0x38c6ccc; 0x38c7ccc; 0x38c6ccc;
   0x3fffffc; 0x3ffeffc; 0x7700cc; 0x3386cc; 0x71e6c0; 0x2baeec0; 0x7fffcc0; 0x3ffffe0;
   0x700ffe; 0x300c3e; 0x700400; 0x300000; 0x700000; 0x0; 0x0; 0x0;
   0x0; 0x202000; 0x0; 0x0; 0x0; 0xc0; 0xffe0c0; 0x1ffe0c0;
   0x8060c0; 0x1c060c0; 0xffe7fc; 0x1ffe7fc; 0x8066cc; 0x1c066cc; 0xffe6cc; 0x1ffe6cc;
   0x186cc; 0x1c6cc; 0x3ffc7fc; 0x3ffe7fc; 0x33270cc; 0x3333ccc; 0x3bb96c0; 0x399c6c0;
   0x398cec0; 0x18c6fd0; 0x18e7ffe; 0x1873c7c; 0x1f38800; 0xf10000; 0x0; 0x0;
   0x0; 0x0; 0x202000; 0x0; 0x0; 0x0; 0x1c00c0; 0x18c60c0;
   0xcc60c0; 0xecc0c0; 0x7fc0c0; 0xaea7f8; 0x1fff7f8; 0xaea6c8; 0x706cc; 0x306c8;
   0x3fffecc; 0x3fffec8; 0x61c6cc; 0xc0e7f8; 0x1fff7fc; 0x3bff8c8; 0x371ffc0; 0x30cac0;
   0x75c6c0; 0x3cc6c0; 0x195cff0; 0x180cffc; 0x1d5cc1c; 0x1ff8000; 0xff0000; 0x0;
   0x0; 0x0; 0x0; 0x202000; 0x0; 0x0; 0x0; 0xc00c0;
   0xc00c0; 0x3fff0c0; 0x3fff0c0; 0xc00c0; 0x1ffe7fc; 0x1fff7fc; 0xc06cc; 0x7fff6cc;
   0x3fff6cc; 0x6cc; 0x1ffe6cc; 0x1ffe6cc; 0x18067fc; 0x1c067fc; 0x1ffe0cc; 0x1d566c4;
   0x18066c0; 0x1ffe6c0; 0x1ffecc0; 0x1c06ff0; 0x1806ffe; 0x1c07c7c; 0x1f86000; 0xf06000;
   0x0; 0x0; 0x0; 0x0; 0x202000; 0x0; 0x0; 0x0;
   0xc0; 0x1ffe0c0; 0x1fff0c0; 0x18c20c0; 0x18c70c0; 0x1aea7fc; 0x1fff7fc; 0x1aea64c;
   0x18c764c; 0x18c264c; 0x1fff64c; 0x1ffe64c; 0xc064c; 0xc07fc; 0x3fffffc; 0x3fff8cc;
   0x1f03cc; 0x3f83c0; 0x7dc3c0; 0xecc2c0; 0x1ccf7f0; 0x38c7ffe; 0x30c3e1c; 0xc0000;
   0xc0000; 0x0; 0x0; 0x0; 0x0; 0x202000; 0x0; 0x0;
   0x0; 0x60060; 0xe0060; 0x15d5060; 0x3fff860; 0x3fff860; 0x3003bfc; 0x3007ffc;
   0x2006a6c; 0x3f9676c; 0x3ffe26c; 0x39f776c; 0x39b326c; 0x39b376c; 0x39b1bfc; 0x39b7ffc;
   0x39be86c; 0x3d9c36c; 0x1f98360; 0x59c760; 0x18c660; 0x618e7f0; 0x2186ffe; 0x7187c1c;
   0x3f83800; 0x1f01000; 0x0; 0x0; 0x0; 0x0; 0x202000; 0x0;
   0x0; 0x0; 0xc0; 0xffe0c0; 0xffe0c0; 0xc060c0; 0xc060c0; 0xc067f8;
   0xffe7fc; 0xaea6c8; 0xc06dc; 0x1fff6c8; 0x1fff6dc; 0x18c36c8; 0x18c76dc; 0x1aeb7f8;
   0x1fff7fc; 0x18c30c8; 0x18c77c0; 0x18c36c0; 0x1fff6c0; 0x1fffec0; 0x70c7ff0; 0x20c0ffc;
   0x70c0c1c; 0x3fc0000; 0x1f80000; 0x0; 0x0; 0x0; 0x0; 0x202000;
   0x0; 0x0; 0x0; 0x60; 0x3fff860; 0x3fff860; 0x3001860; 0x3001860;
   0x3001bfc; 0x37fdbfc; 0x32e9b6c; 0x3061b6c; 0x3061b6c; 0x3061b6c; 0x33fdb6c; 0x37fdb6c;
   0x3161bfc; 0x3361bfc; 0x366186c; 0x366196c; 0x37ffb60; 0x37ffb60; 0x3001a60; 0x3001ff0;
   0x3fffffe; 0x3fffe1c; 0x3001a00; 0x3001800; 0x0; 0x0; 0x0; 0x0;
   0x202000; 0x0; 0x0; 0x0; 0xc0c0c0; 0xe0c0c0; 0x61c0c0; 0x6380c0;
   0x17550c0; 0x1ffe7fc; 0x1dd77fc; 0x18c66cc; 0x18c76cc; 0x1ffe6cc; 0x1fff6cc; 0x18c66cc].
Definition hanzi_data_395 : list N :=
  [0x18c76cc; 0x18c67fc; 0x1fff7fc; 0x1ffe0cc; 0xc04cc; 0xc06c0; 0x7fffec0; 0x3fffec0;
   0xc0ff0; 0xc0ffe; 0xc0c7c; 0xc0c00; 0xc0000; 0x0; 0x0; 0x0;
   0x0; 0x202000; 0x0; 0x0; 0x0; 0x1c00060; 0xc38060; 0x1c7f060;
   0xc0fc60; 0x1dcdc60; 0xf8c3fc; 0x1f0c3fc; 0xe0c26c; 0x1c7ff6c; 0xc7fa6c; 0x1dce36c;
   0xfce26c; 0x1f1f37c; 0xe3f3fc; 0x1c7f3fc; 0xc6d86c; 0x7f2df60; 0x7fecf60; 0x1fecf60;
   0xc2c3e0; 0x1c0c7fe; 0xc0c6fe; 0x1c0c604; 0xc0c000; 0x1c0c000; 0x0; 0x0;
   0x0; 0x0; 0x202000; 0x0; 0x0; 0x0; 0xc0; 0x1ffe0c0;
   0x1fff0c0; 0x18060c0; 0x18070c0; 0x1ffe7fc; 0x1fff7fc; 0x18066cc; 0x1fff6cc; 0x1ffe6cc;
   0x155d6cc; 0xe6cc; 0x3ffe6cc; 0x3fff7fc; 0x30c37fc; 0x30c18ec; 0x30e7bec; 0x39e32e0;
   0x3f3f6e0; 0x3a1b6e0; 0x1fff7e0; 0x1bffffc; 0x1800c7c; 0x1f00400; 0xf00000; 0x0;
   0x0; 0x0; 0x0; 0x202000; 0x0; 0x0; 0x0; 0x40060;
   0xe0060; 0x1f0060; 0x3f8060; 0x79c060; 0xe0e3fc; 0x7d57ffc; 0x3ffff6c; 0x7feb6c;
   0x80036c; 0x197fb6c; 0x1b7fb6c; 0x1b63b6c; 0x1b63bfc; 0x1b7fbfc; 0x1b7f86c; 0x1b639ec;
   0x1b6bb60; 0x1b7fb60; 0x1b63b60; 0x1963bf0; 0x1863bfc; 0x1873e1c; 0x1e7b800; 0x1e3b800;
   0x0; 0x0; 0x0; 0x0; 0x202000; 0x0; 0x0; 0x0;
   0xe00c0; 0xe00c0; 0x700c0; 0x1ffe0c0; 0x1ffe0c0; 0x1806ff8; 0x1ffeffc; 0x1ffecc8;
   0x1806cdc; 0x1806cc8; 0x1ffecdc; 0x1ffecc8; 0xcdc; 0x2aaaff8; 0x3fffffc; 0x2aea0c8;
   0xc06c0; 0xc06c0; 0x1ffecc0; 0x1ffecc0; 0xc0ff0; 0xc0bfe; 0x7fffc7c; 0x3fff800;
   0x0; 0x0; 0x0; 0x0; 0x0; 0x202000; 0x0; 0x0;
   0x0; 0xc0; 0x3ffe0c0; 0x3fff0c0; 0x20c0; 0x1ff70c0; 0x1ff27f8; 0x18377fc;
   0x1ff26c8; 0x1ff76cc; 0x18326c8; 0x1ff76cc; 0xaa26c8; 0x1c76cc; 0x3ffa7f8; 0x3fff7fc;
   0xc620c8; 0xc777c0; 0x7e26c0; 0x7876c0; 0x1fe2ec0; 0x1c7fff0; 0xaffc; 0x7fffc1c;
   0x3ffe000; 0x0; 0x0; 0x0; 0x0; 0x0; 0x202000; 0x0;
   0x0; 0x0; 0x700c0; 0x600c0; 0xe00c0; 0x1fff0c0; 0x1fff0c0; 0x18037f8;
   0x18037fc; 0x1803648; 0x1fff64c; 0xaab648; 0x364c; 0x3fff648; 0x3fff64c; 0x336f7f8;
   0x336f7fc; 0x336f0c8; 0x336f3c0; 0x3ffdac0; 0x3ffdec0; 0x336dec0; 0x336d7f0; 0x336cffc;
   0x336cc1c; 0x3f6cc00; 0x1c0c000; 0x0; 0x0; 0x0; 0x0; 0x202000;
   0x0; 0x0; 0x0; 0xc0; 0x2aaa0c0; 0x3fff0c0; 0x2aaa0c0; 0xc0;
   0x1ffe7fc; 0x1ffe7fc; 0x18066cc; 0x1c066cc; 0x1aae6cc; 0x1ffe6cc; 0x6cc; 0x6cc;
   0x3fff7fc; 0x3fff7fc; 0x38c30cc; 0x38c36c0; 0x3fff6c0; 0x3fff6c0; 0x38c36c0; 0x38c37f0;
   0x38c3ffe; 0x3fffc7c; 0x3fff000; 0x3803000; 0x0; 0x0; 0x0; 0x0;
   0x202000; 0x0; 0x0; 0x0; 0x303060; 0x387060; 0x186060; 0x18e060;
   0x7fd5460; 0x3fffffc; 0xffffc; 0xe326c; 0x1ff336c; 0x3f8326c; 0x183f36c; 0xc3f26c;
   0xe3337c; 0x6333fc; 0x6333fc; 0x3ff306c; 0x7ff3360; 0x633b60; 0x631f60; 0x639be0;
   0x619ffe; 0x618efe; 0x618c04; 0x79ee00; 0x79e400; 0x0; 0x0; 0x0;
   0x0; 0x202000; 0x0; 0x0; 0x0; 0x40c0e0; 0xe0c0e0; 0x7180e0;
   0x3380e0; 0x3fff8e0; 0x3fffbfc; 0x1b07fc; 0x1b024c; 0x1fff64c; 0x1fff24c; 0x19b364c;
   0x19b324c; 0x199364c; 0x199b3fc; 0x1d9b7fc; 0x1f8f0ec; 0x18073e0; 0x18036e0; 0x1fff6e0;
   0x1fff6e0; 0x18037f0; 0x1803ffe; 0x1fffc7c; 0x1aab000; 0x1803000; 0x0; 0x0;
   0x0; 0x0; 0x202000; 0x0; 0x0; 0x0; 0x60000; 0x63ff8;
   0x3ff3ff8; 0x3ff1ce0; 0x1d787c0; 0xe3efa8; 0x67fffc; 0x3e33c0; 0x3c1fe0; 0x3e1a38;
   0x1ffc71c; 0x3e3e3c0; 0x10041c0; 0x6000; 0xfffff0; 0xeaeae0; 0xe06070; 0xe06060;
   0xfffff0; 0xaaeaa0; 0x786000; 0xe06000; 0x1fffffc; 0x3bffffc; 0x3000000; 0x0;
   0x0; 0x0; 0x0; 0x202000; 0x0; 0x0; 0x0; 0x180c0;
   0x180c0; 0x1c0c0; 0x3ffc0c0; 0x3ffe0c0; 0x77fc; 0x1fffffc; 0x1fffecc; 0x180f6cc;
   0x1ffe6cc; 0x1ffe6cc; 0x180e6cc; 0x1ffe6cc; 0x1ffe7fc; 0x707fc; 0xff80cc; 0x1ffc6c4;
   0xe0e6c0; 0x71f6c0; 0x3bbec0; 0x1f1ff0; 0x3f0ffe; 0x1fff41c; 0x3e0f800; 0x3801800;
   0x0; 0x0; 0x0; 0x0; 0x202000; 0x0; 0x0; 0x0;
   0x60060; 0x60060; 0x70060; 0x3fff860; 0x3fff860; 0x3183fc; 0xe5c7fc; 0xcce24c;
   0x3cc7e4c; 0x3fffa4c; 0xffd64c; 0xc024c; 0xc064c; 0x3fff3fc; 0x3fff7fc; 0x8006c;
   0xc026c; 0xc0360; 0x1fff760; 0xaea660; 0xc07f0; 0xc0ffc; 0x3fffc1c; 0x3fff800;
   0x0; 0x0; 0x0; 0x0; 0x0; 0x202000; 0x0; 0x0;
   0x0; 0x300c060; 0x300c060; 0x300c060; 0x33ffc60; 0x33ffc60; 0x330c3fc; 0x330c3fc;
   0x337fb6c; 0x337fb6c; 0x336cb6c; 0x336db6c; 0x336cb6c; 0x336db7c; 0x337fbfc; 0x337f97c;
   0x330e068; 0x331e160; 0x333e360; 0x307f360; 0x306fbe0; 0x304dffc; 0x300ce3c; 0x300c400;
   0x3e0c000; 0x1e0c000; 0x0; 0x0; 0x0; 0x0; 0x202000; 0x0;
   0x0; 0x0; 0xe060; 0x3f8e060; 0x3f8e060; 0x318e060; 0x318e060; 0x318e3f8;
   0x31ffffc; 0x3bbfb68; 0x3f8e36c; 0x3b8e368; 0x318e36c; 0x318e368; 0x31bfb6c; 0x31bfbf8;
   0x3fb1bfc; 0x3fb1868; 0x31f1b6c; 0x30b1b60; 0x31f1b60; 0x30fba60; 0x30ffff0; 0x30e1ffe;
   0x306167c; 0x3e60200; 0x1e30000; 0x0; 0x0; 0x0; 0x0; 0x202000;
   0x0; 0x0; 0x0; 0xc70060; 0xc63060; 0xc73060; 0xc63060; 0x7fffc60;
   0x3fffffc; 0xc737fc; 0xc6326c; 0xff376c; 0xfe326c; 0x376c; 0x2aab26c; 0x3fff76c;
   0x2aea3fc; 0x607fc; 0x2aea86c; 0x7fff86c; 0x2afab60; 0x1f8760; 0x37c7e0; 0xf6e7f0;
   0x1c676fe; 0x7c63c1c; 0x3061800; 0x60000; 0x0; 0x0; 0x0; 0x0].
Definition hanzi_data_396 : list N :=
  [0x202000; 0x0; 0x0; 0x0; 0xc00c0; 0xc00c0; 0xc00c0; 0x3fff8c0;
   0x3fff8c0; 0xe07fc; 0x607fc; 0x3fff6cc; 0x3fff6cc; 0x3a036cc; 0x3b1b6cc; 0x3b336cc;
   0x39b36cc; 0x3ffb7fc; 0x3fff7fc; 0x38c30cc; 0x38c30cc; 0x3ffb2c0; 0x3fff6c0; 0x38c36c0;
   0x38c37f0; 0x38c3ffe; 0x38c3c1c; 0x3ec3400; 0x1e03000; 0x0; 0x0; 0x0;
   0x0; 0x202000; 0x0; 0x0; 0x0; 0xc00c0; 0x1cc60c0; 0xcce0c0;
   0xecc0c0; 0x7dc0c0; 0x3fff7f8; 0x3fff7f8; 0x3f06c8; 0x7f86cc; 0xedc6c8; 0x3ccf6cc;
   0x38c3ec8; 0x10e16cc; 0x607f8; 0x15757fc; 0x3fff8c8; 0x3fff3c0; 0x6182c0; 0x71c6c0;
   0x33e6c0; 0x3f87f0; 0x7e0ffc; 0x1ffcc1c; 0x3c3f000; 0x1007000; 0x0; 0x0;
   0x0; 0x0; 0x202000; 0x0; 0x0; 0x0; 0xc00c0; 0xc00c0;
   0x15d50c0; 0x1ffe0c0; 0x1fff7fc; 0x607fc; 0x1ffe7dc; 0xffe6cc; 0x5746cc; 0x306cc;
   0x3fff6cc; 0x3fff6cc; 0x61c7fc; 0xe0c7fc; 0x1ffe5dc; 0x3fff0cc; 0x7e0fec0; 0x2e0d6c0;
   0xffc6c0; 0xeacfc0; 0xe0cffc; 0xe0ccfe; 0xffdc04; 0xffc000; 0xe0c000; 0x0;
   0x0; 0x0; 0x0; 0x202000; 0x0; 0x0; 0x0; 0x71c0c0;
   0x3180c0; 0x7fff8c0; 0x3fff8c0; 0x71c0c0; 0x3187f8; 0x51c7fc; 0x3fffec8; 0x3fffecc;
   0x38a3ec8; 0x38e3ecc; 0x38e3ec8; 0x15f56cc; 0x3fffff8; 0x3fffffc; 0x1f00c8; 0x3f80cc;
   0x3f86c0; 0x6fc6c0; 0xeee6c0; 0x1ce77f0; 0x38e3ffe; 0x30e3c1c; 0xe0800; 0xe0000;
   0x0; 0x0; 0x0; 0x0; 0x202000; 0x0; 0x0; 0x0;
   0x4060; 0x6060; 0x3f8c060; 0x3fae860; 0x31ff860; 0x19b1bfc; 0x19f1bfc; 0x19b1a6c;
   0x1dffb6c; 0xdbfa6c; 0xdf1b6c; 0x9b1a6c; 0x19ffb6c; 0x39bfbfc; 0x3195bfc; 0x318186c;
   0x319d96c; 0x3199b60; 0x31b9b60; 0x3bb9a60; 0x3dffff0; 0x1efffe; 0x1e3e1c; 0x180800;
   0x180000; 0x0; 0x0; 0x0; 0x0; 0x202000; 0x0; 0x0;
   0x0; 0xe0060; 0xc0060; 0x15d5060; 0x1fff060; 0x175d060; 0xe183fc; 0x6187fc;
   0x31826c; 0x3ffff6c; 0x3fffa6c; 0x3063f6c; 0x30c3a6c; 0xc076c; 0x1fff3fc; 0x1fff7fc;
   0x3806c; 0x1836c; 0xff8360; 0xff8760; 0xc18660; 0xc1c7f0; 0xc0e7fe; 0xe0741c;
   0x7c3c00; 0x7c1000; 0x0; 0x0; 0x0; 0x0; 0x202000; 0x0;
   0x0; 0x0; 0x1c00c0; 0xe00c0; 0x15f40c0; 0x1ffe0c0; 0x1d5e0c0; 0x180eff8;
   0x1ffeffc; 0x1ffecc8; 0x180ecdc; 0x180ecc8; 0x1ffecdc; 0x1ffecc8; 0x180eddc; 0x1aaeff8;
   0x1ffe7fc; 0xaaa0c8; 0xf06c0; 0x9d86c0; 0x1d9f4c0; 0x181afc0; 0x3e1bffc; 0x3e1bcfc;
   0x761b004; 0x27f9000; 0x7f0000; 0x0; 0x0; 0x0; 0x0; 0x202000;
   0x0; 0x0; 0x0; 0xc0; 0x3fff0c0; 0x3fff0c0; 0x2aab0c0; 0x1c37fc;
   0xc37fc; 0x1ffb7dc; 0x1ffb6cc; 0x181b6cc; 0x181b6cc; 0x1ffb6cc; 0x1ffb6cc; 0x181b7fc;
   0x181b7fc; 0x1ffb0cc; 0x1ffb0c8; 0x1837c0; 0xdbb6c0; 0x1d99fc0; 0x1999fe0; 0x399ddfc;
   0x318f81c; 0x7187c00; 0x1f0c00; 0x1e0000; 0x0; 0x0; 0x0; 0x0;
   0x202000; 0x0; 0x0; 0x0; 0xc00c0; 0xd80c0; 0x1ffe0c0; 0x1fcf0c0;
   0x18c30c0; 0x18c37fc; 0x1fdf7fc; 0x1edf6cc; 0x18c36cc; 0x18c36cc; 0x1fff6cc; 0x1fff6cc;
   0x15d56cc; 0xc07fc; 0xc07fc; 0x3fff0cc; 0x1fff4cc; 0xc0e6c0; 0xe1c6c0; 0x7b86c0;
   0x3f0ff0; 0x3f0ffe; 0x1ffec7c; 0x3e0f800; 0x3007000; 0x0; 0x0; 0x0;
   0x0; 0x202000; 0x0; 0x0; 0x0; 0x380000; 0x387ffc; 0x387ffc;
   0x380000; 0x381ff8; 0x1ffbff8; 0x1ffb818; 0x1bbb818; 0x191bff8; 0x191bff8; 0x1918000;
   0x191aaa8; 0x191fffc; 0x191a00c; 0x1fffc6c; 0x1ffa6cc; 0x3876cc; 0xb82fec; 0x1b87ffc;
   0x1b8218c; 0x338718c; 0x3f8218c; 0x3fff18c; 0x20fbd8c; 0x7001c0c; 0x0; 0x0;
   0x0; 0x0; 0x202000; 0x0; 0x0; 0x0; 0xc0060; 0xe0060;
   0x15f5060; 0x3fff060; 0x1575060; 0x603fc; 0x1fff7fc; 0x1fff26c; 0x3076c; 0x2abaa6c;
   0x7ffff6c; 0x60c26c; 0xf0e76c; 0x1fff3fc; 0x78ffffc; 0x30e186c; 0x15f506c; 0x1fff360;
   0x1fff760; 0x3f8660; 0x7fc7f0; 0xeeeffe; 0x1ce7c1c; 0x18e3000; 0xe1000; 0x0;
   0x0; 0x0; 0x0; 0x202000; 0x0; 0x0; 0x0; 0xe00e0;
   0xc00e0; 0x15d50e0; 0x3fff0e0; 0x3fff0e0; 0xc37fc; 0x1fff7fc; 0x1fff64c; 0x18c364c;
   0x18c364c; 0x7fff64c; 0x3fff64c; 0x18c364c; 0x1fff7fc; 0x1fff7fc; 0xc38ec; 0x15d78ec;
   0x1fffae0; 0x1ffdee0; 0x180dee0; 0x1c0dff0; 0x180cefe; 0x1ffcc1c; 0x1ffce00; 0x1c0c400;
   0x0; 0x0; 0x0; 0x0; 0x202000; 0x0; 0x0; 0x0;
   0xe0; 0x3fff8e0; 0x3fff8e0; 0x30018e0; 0x3001ffc; 0x3aabbfc; 0x1ffe75c; 0x180624c;
   0x1c0674c; 0x1ffe24c; 0x1ffe74c; 0x180624c; 0x1d567fc; 0x1ffe3fc; 0x15545fc; 0xe02ec;
   0x55d53e0; 0x3fffae0; 0x7ffffe0; 0x2387e0; 0x71c7fe; 0xe0e63c; 0x3c07004; 0x3803800;
   0x3001000; 0x0; 0x0; 0x0; 0x0; 0x202000; 0x0; 0x0;
   0x0; 0x404060; 0xc0e060; 0xe1c060; 0x618060; 0x718060; 0x2083fc; 0x3fff7fc;
   0x3fff26c; 0x11066c; 0x3b826c; 0xf1c66c; 0x1c0e26c; 0x7807e6c; 0x2003bfc; 0x1fff7fc;
   0x1ffe06c; 0x19b726c; 0x19b2360; 0x19b7760; 0x19b2660; 0x19b77f0; 0x19b26fe; 0x7fffc1c;
   0x3fff800; 0x0; 0x0; 0x0; 0x0; 0x0; 0x202000; 0x0;
   0x0; 0x0; 0x60000; 0xc63bf8; 0xe673f8; 0x6663b8; 0x676318; 0x3fffb18;
   0x3fffb18; 0x383b8; 0x183f8; 0x2ababf8; 0x7ffff18; 0x2eaeb18; 0xc66318; 0x1c67318;
   0x3fffbf8; 0x3fffff8; 0x2c67f18; 0xc62318; 0xfff31c; 0xffe318; 0x66031c; 0xc6030c;
   0x1fffb0c; 0x3fffbce; 0x30011c4; 0x0; 0x0; 0x0; 0x0; 0x202000;
   0x0; 0x0; 0x0; 0x71c060; 0x318060; 0x3fffc60; 0x3fff860; 0x71c060;
   0x3183f8; 0x15553fc; 0x3fffb68; 0x3fffb6c; 0x110368; 0x11036c; 0x1fffb68; 0x1fffb6c].
Definition hanzi_data_397 : list N :=
  [0x199bbf8; 0x199bbfc; 0x199b868; 0x1bbb960; 0x1ffbb60; 0x1fffb60; 0x1ccfbe0; 0x18c7ff0;
   0x1803efc; 0x1803e1c; 0x1f03800; 0x1f03800; 0x0; 0x0; 0x0; 0x0;
   0x202000; 0x0; 0x0; 0x0; 0xe0180; 0x60180; 0x1573ffc; 0x3ff2ba8;
   0x3ff8180; 0xc3fffc; 0xe7fffc; 0x7e1ed8; 0x3c36d8; 0x3c36ec; 0x7f6664; 0x1e3e6b0;
   0x3c1c7bc; 0x1006018; 0xfffff0; 0xffffe0; 0xe06070; 0xe06060; 0xfffff0; 0xffffe0;
   0x706000; 0xe06000; 0x1fffffc; 0x3fffff8; 0x1000000; 0x0; 0x0; 0x0;
   0x0; 0x202000; 0x0; 0x0; 0x0; 0x3300c0; 0x3300c0; 0x7fff8c0;
   0x3fff8c0; 0x3300c0; 0x3307f8; 0x3fff7fc; 0x33336c8; 0x33336cc; 0x3fff6c8; 0x3fff6cc;
   0x33336c8; 0x37776cc; 0x3fff7f8; 0x15557fc; 0xaaa0c8; 0x1fff3c0; 0x1aae2c0; 0x18076c0;
   0x1ffe6c0; 0x1fff7f0; 0x1806ffc; 0x1fffc1c; 0x1ffe000; 0x1807000; 0x0; 0x0;
   0x0; 0x0; 0x202000; 0x0; 0x0; 0x0; 0x600c0; 0xe00c0;
   0x3fff8c0; 0x3fff8c0; 0x3fff8c0; 0x1a1b7f8; 0x1bf37fc; 0x19e3648; 0x19f364c; 0x1b3b648;
   0x1a1b64c; 0x1fff648; 0x1fff64c; 0xe07f8; 0x15757fc; 0x3fff0c8; 0x3fff3c0; 0x39b33c0;
   0x3b3b7c0; 0x3bfb6c0; 0x3fff7f0; 0x3e0b7fc; 0x380341c; 0x3f03000; 0x1e03000; 0x0;
   0x0; 0x0; 0x0; 0x202000; 0x0; 0x0; 0x0; 0xe0180;
   0x62ba8; 0x73ffc; 0x3ff0180; 0x3ff9ff8; 0xc3dff8; 0xe7d5d4; 0x6e3ffc; 0x7c00c0;
   0x381fe0; 0x7f1fe0; 0x1e7d830; 0x7c1df3c; 0x3006f0c; 0xfffff4; 0xffffe0; 0xc06070;
   0xc06060; 0xfffff0; 0xffffe0; 0x706000; 0xe06000; 0x1fffffc; 0x3fffff8; 0x3000000;
   0x0; 0x0; 0x0; 0x0; 0x202000; 0x0; 0x0; 0x0;
   0xe01550; 0xe03ff8; 0xe03558; 0x2eab018; 0x3ffbff8; 0x2ea8018; 0xe33fd8; 0xe32a98;
   0xe67ff8; 0xee7ff8; 0xe416dc; 0xe036cc; 0xe0666c; 0x7827ae; 0x786704; 0xffffe0;
   0xfffff0; 0xe06060; 0xf57570; 0xffffe0; 0x757540; 0xe06000; 0x1fffffc; 0x3fffff8;
   0x3000000; 0x0; 0x0; 0x0; 0x0; 0x202000; 0x0; 0x0;
   0x0; 0xc00c0; 0x18c70c0; 0x1cc60c0; 0xcce0c0; 0x6cc0c0; 0x3fffffc; 0x3fffffc;
   0x3003ecc; 0x3557ecc; 0x3fffecc; 0xd5c6cc; 0xc0c6cc; 0xc0c6cc; 0xffc7fc; 0xffc7fc;
   0xc00cc; 0xc07c0; 0x1ffe6c0; 0x1fff6c0; 0xc06c0; 0xc0ffc; 0xc0ffe; 0x7fffc1c;
   0x3fff800; 0x0; 0x0; 0x0; 0x0; 0x0; 0x202000; 0x0;
   0x0; 0x0; 0x60; 0x3fff860; 0x3fff860; 0x330060; 0x330060; 0x3fff3fc;
   0x3fff7fc; 0x333324c; 0x333364c; 0x3fff24c; 0x3fff64c; 0x24c; 0x1ffe64c; 0x1ffe3fc;
   0x15547fc; 0x6c; 0x7fff86c; 0x3fffa60; 0x4e4660; 0xeec660; 0x1ce67f0; 0x38e7ffc;
   0x30e3c1c; 0x30f9800; 0x78000; 0x0; 0x0; 0x0; 0x0; 0x202000;
   0x0; 0x0; 0x0; 0xc0; 0x1fff0c0; 0x1fff0c0; 0x18630c0; 0x18630c0;
   0x1fff7f8; 0x1fff7f8; 0x18636c8; 0x1fff6cc; 0x1fff6c8; 0x386cc; 0x71c6c8; 0x3ff6cc;
   0xff7f8; 0xe757fc; 0xc3c0c8; 0x1fff3c0; 0x3fffac0; 0x70d76c0; 0x6cc6c0; 0xec67f0;
   0x1cc7ffc; 0x38c3c1c; 0x30f9800; 0x78000; 0x0; 0x0; 0x0; 0x0;
   0x202000; 0x0; 0x0; 0x0; 0x1c00; 0xaae00; 0x3fff00; 0xe07e0;
   0x79ef8; 0x3f830; 0x7fc00; 0x2ff8fe0; 0x3fdf9fe; 0x203e20c; 0x17f00; 0x3f800;
   0x1bc180; 0x180180; 0x1ffdffc; 0x1ba9ba8; 0x199d99c; 0x1989988; 0x1ffdffc; 0x1ff8ba8;
   0x1d80d80; 0x1980980; 0x3ffdffc; 0x3fffffc; 0x6001000; 0x0; 0x0; 0x0;
   0x0; 0x202000; 0x0; 0x0; 0x0; 0x70060; 0x60060; 0x15f5060;
   0x3fff860; 0x3fffc60; 0x603fc; 0x3071ffc; 0x19bba6c; 0x1ddf76c; 0xcfa26c; 0x4f476c;
   0xde626c; 0x1f3776c; 0x3bfbbfc; 0x37fdffc; 0x22006c; 0x6006c; 0x3fffb60; 0x7ffff60;
   0x2aeae60; 0x607f0; 0x607fc; 0x6047c; 0x60400; 0x60000; 0x0; 0x0;
   0x0; 0x0; 0x202000; 0x0; 0x0; 0x0; 0x7180c0; 0x6180c0;
   0x3fff8c0; 0x3fff8c0; 0x7187fc; 0x6187fc; 0x1fff7dc; 0x1ffe6cc; 0x18076cc; 0x18066cc;
   0x1fff6cc; 0x1aae6cc; 0x18077fc; 0x1ffe7fc; 0x1fff5dc; 0xe02cc; 0xe06c0; 0x3fff6c0;
   0x3fff6c0; 0x1f0fe0; 0x3f0ffe; 0x738c3c; 0x1f1f004; 0x3c0f800; 0x3001800; 0x0;
   0x0; 0x0; 0x0; 0x202000; 0x0; 0x0; 0x0; 0x0;
   0x3fffe0; 0x3fffe0; 0xfbe00; 0x1fc00; 0xabeaa8; 0x1fffffc; 0xe0f800; 0x70df00;
   0x38c7c0; 0x10c1fc; 0xfc38; 0x187d80; 0xba8ba8; 0x1ffdffc; 0x1989988; 0x198d99c;
   0x1989988; 0x1ffdffc; 0xba8ba8; 0x1d80d80; 0x1981980; 0x3ffdffe; 0x3bffbfe; 0x7003000;
   0x0; 0x0; 0x0; 0x0; 0x202000; 0x0; 0x0; 0x0;
   0xc000e0; 0x1fe00e0; 0x7ff0e0; 0x8cf0e0; 0x1cc60e0; 0xccc3fc; 0x6dc7fc; 0x3fffa4c;
   0x3fffe4c; 0x3f024c; 0x7f864c; 0xedc24c; 0x1ccf64c; 0x38c7bfc; 0x30717fc; 0xe00ec;
   0x1d83e0; 0xf9a2e0; 0x1d1b6e0; 0x181b6e0; 0x3e1b7f0; 0x361b7fe; 0x775947c; 0x27f8000;
   0x1f0000; 0x0; 0x0; 0x0; 0x0; 0x202000; 0x0; 0x0;
   0x0; 0x30c060; 0x30c060; 0x3fffc60; 0x3fff860; 0x36c060; 0x603fc; 0x1fff3fc;
   0xfff36c; 0x1c6036c; 0x3fffb6c; 0x7ffff6c; 0x86036c; 0x1fff36c; 0xfff3fc; 0x603fc;
   0x186106c; 0x19f936c; 0x1969360; 0x1b6d360; 0x1b6dbe0; 0x1b6dff0; 0x1a6de7c; 0x1e67c1c;
   0x1860c00; 0x1860c00; 0x0; 0x0; 0x0; 0x0; 0x202000; 0x0;
   0x0; 0x0; 0x60060; 0xe0060; 0x3fff060; 0x3fff060; 0x61c060; 0x3183fc;
   0x7fffffc; 0x3fffa6c; 0x76c; 0xaaa26c; 0x1fff76c; 0x180326c; 0x1d5776c; 0x1fff3fc;
   0x1c077fc; 0x180306c; 0x1fff064; 0xaea360; 0xe0760; 0x3fffe60; 0x7fffff0; 0xe07fe;
   0xe061c; 0xe0600; 0xe0000; 0x0; 0x0; 0x0; 0x0; 0x202000].
Definition hanzi_data_398 : list N :=
  [0x0; 0x0; 0x0; 0x71c0e0; 0x6180e0; 0x7fff8e0; 0x3fff8e0; 0x71c0e0;
   0x6787fc; 0xf607fc; 0x1e6064c; 0x7fffe4c; 0x3fffe4c; 0x3b864c; 0x31864c; 0xf1e64c;
   0x3e0fffc; 0x3f1fffc; 0x26180ec; 0x71c3e0; 0x3fffbe0; 0x7ffffe0; 0x61c7e0; 0x71c7fc;
   0x60e6fe; 0x70f404; 0x607800; 0x701000; 0x0; 0x0; 0x0; 0x0;
   0x202000; 0x0; 0x0; 0x0; 0x38060; 0x18060; 0x7fc060; 0x7ac060;
   0x306060; 0x2baf3fc; 0x3fffffc; 0x3887a6c; 0x38c6f6c; 0x38c626c; 0x3ffe76c; 0x3ffe26c;
   0x107876c; 0x387e3fc; 0x1ec7ffc; 0x7e106c; 0xfbc36c; 0xdce360; 0x1de7b60; 0x19f03e0;
   0x199c7f0; 0x318f6fe; 0x7187c1c; 0xf8800; 0xf0000; 0x0; 0x0; 0x0;
   0x0; 0x202000; 0x0; 0x0; 0x0; 0xc060; 0x380c060; 0x185d460;
   0x1cffc60; 0xeffc60; 0x60c3fc; 0x77fbfc; 0x3ffb6c; 0x305536c; 0x380036c; 0x1c7fb6c;
   0xc6bb6c; 0xe61b6c; 0x761bfc; 0x7ffbfc; 0x27f86c; 0x707316c; 0x3033360; 0x1837360;
   0x1836260; 0x1cfc7f0; 0xeffffe; 0x707e1c; 0x3c0000; 0x180000; 0x0; 0x0;
   0x0; 0x0; 0x202000; 0x0; 0x0; 0x0; 0xc000c0; 0x1ffa0c0;
   0x7ff0c0; 0x8c40c0; 0x1cc60c0; 0xccc7fc; 0x6dc7fc; 0x3fffecc; 0x3fffecc; 0x3f06cc;
   0x7dc6cc; 0xece6cc; 0x7cc76cc; 0x38c3ffc; 0x1fff7fc; 0x1ffe0cc; 0x18c73c0; 0x18c66c0;
   0x1fff6c0; 0x1ffe6c0; 0x18c77f0; 0x18c6ffe; 0x1fffc5c; 0x1ffe000; 0x1807000; 0x0;
   0x0; 0x0; 0x0; 0x202000; 0x0; 0x0; 0x0; 0x618060;
   0x618060; 0x175d060; 0x3fff060; 0x3fff060; 0x6187fc; 0x6187fc; 0x3fffe6c; 0x7fffe6c;
   0xc066c; 0x1fff66c; 0x1ffe66c; 0x18c766c; 0x18c67fc; 0x1fff7fc; 0x1ffe06c; 0x18c7164;
   0x18c6260; 0x1fff660; 0x1ffe660; 0x7307f0; 0xe38ffe; 0x1c1fc1c; 0x3807800; 0x1001000;
   0x0; 0x0; 0x0; 0x0; 0x202000; 0x0; 0x0; 0x0;
   0xe0060; 0xe0060; 0x3fff860; 0x3fff860; 0xe0060; 0x1fff7fc; 0x1fff7fc; 0x18e366c;
   0x1fff66c; 0x1fff66c; 0x1ce766c; 0x1aeb66c; 0x1fff66c; 0xee07fc; 0x1df07fc; 0x3fff86c;
   0x75ff964; 0x2070260; 0xcfd660; 0x19cf660; 0x189f7f0; 0x360defe; 0x775dc1c; 0x27f9800;
   0x3f0000; 0x0; 0x0; 0x0; 0x0; 0x202000; 0x0; 0x0;
   0x0; 0x60; 0x3fff860; 0x7fff860; 0x330060; 0x3fff060; 0x3fff3fc; 0x33337fc;
   0x333326c; 0x3fff66c; 0x3fff26c; 0x66c; 0x1ffe26c; 0x1fff66c; 0x18023fc; 0x1fff7fc;
   0x1aaa06c; 0x180706c; 0x1ffe360; 0x15d5760; 0xc0660; 0x7fffff0; 0x2aeaffe; 0xc061c;
   0xc0000; 0xc0000; 0x0; 0x0; 0x0; 0x0; 0x202000; 0x0;
   0x0; 0x0; 0x6040e0; 0xe0c0e0; 0x71c0e0; 0x3fff8e0; 0x3fff8e0; 0xe03fc;
   0x1fff7fc; 0x1fff26c; 0xe066c; 0x2aeaa6c; 0x3fffe6c; 0x2eeea6c; 0xce666c; 0xcee3fc;
   0x3fffffc; 0x3fff86c; 0x6c; 0x1fff260; 0x1fff660; 0x1803660; 0x18077f0; 0x1803ffe;
   0x1fffc7c; 0x1fffc00; 0x1807000; 0x0; 0x0; 0x0; 0x0; 0x202000;
   0x0; 0x0; 0x0; 0x60; 0x3ffcfe0; 0x3ffcff0; 0x18e0638; 0x1873ffc;
   0x1e3fffc; 0x7bb338; 0x2bb3ff8; 0x3ffb758; 0x39f318; 0x17d7ff8; 0x3fff318; 0x17d7f1c;
   0x383c0e; 0x106004; 0x7fffe0; 0x7fffe0; 0x606060; 0x606060; 0x7fffe0; 0x757540;
   0x706000; 0xffffd0; 0x1fffff8; 0x1800150; 0x0; 0x0; 0x0; 0x0;
   0x202000; 0x0; 0x0; 0x0; 0x18060; 0x2b8060; 0x7fc060; 0x38e060;
   0x15d7060; 0x3fffbfc; 0x5757ffc; 0xee3a6c; 0x1c7b76c; 0x399b26c; 0x118376c; 0x3fff26c;
   0x3fff76c; 0x33fc; 0x1ffb7fc; 0x306c; 0x1ffb064; 0x1ffb360; 0x3760; 0x1ffbe60;
   0x1d59ff0; 0x1819ffe; 0x1ff9e1c; 0x1ff8c00; 0x1818800; 0x0; 0x0; 0x0;
   0x0; 0x202000; 0x0; 0x0; 0x0; 0x7000; 0x6000; 0x7fffffe;
   0x2aaaae8; 0x7fffe0; 0x7fffe0; 0x0; 0x7fffe0; 0x7fffe0; 0x600060; 0x7fffe0;
   0x2aaaa0; 0xfc71f8; 0xfc21f8; 0xcdfd98; 0xcdfdb8; 0xddadf8; 0xfdad98; 0xfdfdd8;
   0xedfdf8; 0xe5f1d8; 0x2c7a188; 0x6c7fd8c; 0x3c30dee; 0x3c301c4; 0x0; 0x0;
   0x0; 0x0; 0x202000; 0x0; 0x0; 0x0; 0x60060; 0xe0060;
   0x15d5060; 0x3fff860; 0x1555860; 0xc39bf8; 0x671bfc; 0x3ffdb68; 0x3ffdb6c; 0x321b68;
   0x1ffdb6c; 0x1ffdb68; 0x1b61b6c; 0x3fffbf8; 0x3fffbfc; 0x1b21868; 0x1f759e0; 0x1ffdb60;
   0x771b60; 0xf39be0; 0x1f79ff0; 0x3b2defc; 0x7367e1c; 0x2322c00; 0x360c00; 0x0;
   0x0; 0x0; 0x0; 0x202000; 0x0; 0x0; 0x0; 0xc0;
   0x3fff0c0; 0x3fff0c0; 0x39130c0; 0x39130c0; 0x3bbb7fc; 0x3fff7fc; 0xaae6cc; 0xc6cc;
   0x3ffe6cc; 0x3fff6cc; 0x3833ecc; 0x3031ecc; 0x3bfeffc; 0x3b777fc; 0x3b320cc; 0x3b773c0;
   0x3bfe6c0; 0x19306c0; 0x39306c0; 0x1bfdffc; 0x1bffcfe; 0x1f0541c; 0x1f00000; 0xf00000;
   0x0; 0x0; 0x0; 0x0; 0x202000; 0x0; 0x0; 0x0;
   0x71c060; 0x318060; 0x3fff860; 0x3fff860; 0x71c060; 0x3183fc; 0x3fffffc; 0x3fffa6c;
   0x3001f6c; 0x37fda6c; 0x55476c; 0x26c; 0x3fff76c; 0x2afa3fc; 0x183c7fc; 0x1e7f86c;
   0x7f116c; 0x7dc360; 0x6efb60; 0xef3a60; 0x1dfc7f0; 0x38ce7fe; 0x78c7e1c; 0x20f8800;
   0x78000; 0x0; 0x0; 0x0; 0x0; 0x202000; 0x0; 0x0;
   0x0; 0x60; 0x3fff060; 0x3fff060; 0xc0060; 0x7fff860; 0x3fffbfc; 0x70c1ffc;
   0x2fdfa6c; 0x7fdff6c; 0xc026c; 0x1fdf76c; 0xc026c; 0x555576c; 0x3fffbfc; 0x55757fc;
   0x6006c; 0x3fff360; 0x3fff360; 0x3333760; 0x3333660; 0x33337f0; 0x33337fe; 0x333365c;
   0x3f33200; 0x3f33000; 0x0; 0x0; 0x0; 0x0; 0x202000; 0x0;
   0x0; 0x0; 0x718060; 0x618060; 0x7fff860; 0x3fff860; 0x75c060; 0xce7fc;
   0x15d67fc; 0x1fff66c; 0x1c766c; 0x1fffe6c; 0x1fffe6c; 0x186e6c; 0x1ffe66c; 0x1867fc].
Definition hanzi_data_399 : list N :=
  [0x3ffe7fc; 0x3ffe06c; 0x6164; 0x1fffa60; 0x1fffe60; 0xe0c660; 0x7fc7f0; 0x3f07fe;
   0x1ffc41c; 0x3f3f800; 0x1807800; 0x0; 0x0; 0x0; 0x0; 0x202000;
   0x0; 0x0; 0x0; 0x71c060; 0x318060; 0x3fff860; 0x3fff860; 0x71c060;
   0x3183fc; 0x1fff7fc; 0x1fff26c; 0x19b376c; 0x19b326c; 0x1fff76c; 0x1fff26c; 0x7c076c;
   0x1cc03fc; 0x3fff7fc; 0x3fff06c; 0x9c316c; 0x1c83360; 0xd9f360; 0x7bb260; 0x7b3ff0;
   0x23c1ffe; 0x37f1e1c; 0x3e38c00; 0x1c10800; 0x0; 0x0; 0x0; 0x0;
   0x202000; 0x0; 0x0; 0x0; 0x700; 0x1fff00; 0x1fff00; 0xeab80;
   0xfff80; 0xe0000; 0x3fffffc; 0x603800; 0xfc7fc0; 0x3ff8f0; 0xfdf00; 0x18f3f0;
   0x799e10; 0x3e087e0; 0x1d0f1f8; 0x183180; 0x1ffdff8; 0x1ff9ff8; 0x199d998; 0x1ff9ff8;
   0x1ffdff8; 0xd80d80; 0x1fd5fd4; 0x3fffffc; 0x3017014; 0x0; 0x0; 0x0;
   0x0; 0x202000; 0x0; 0x0; 0x0; 0x7000; 0xaafaa8; 0x1fffff8;
   0x3800; 0xfffff0; 0xaabea0; 0x3fffffc; 0x3fffffc; 0x1d57c0; 0x3fffe0; 0x7fc01fc;
   0x38fffbc; 0x1c0180; 0xfff80; 0x155500; 0x180180; 0x1ffdffc; 0x1ba9ba8; 0x199d99c;
   0x1ff9ff8; 0x1ffdffc; 0x1980980; 0x3fd5ff4; 0x3fffffc; 0x7017014; 0x0; 0x0;
   0x0; 0x0; 0x202000; 0x0; 0x0; 0x0; 0x410; 0x3ffec38;
   0x3ffe630; 0x3366630; 0x3366770; 0x3366ba8; 0x3fffffc; 0x2abaaa8; 0x18370; 0x2ab8630;
   0x3ffc638; 0x302ec18; 0x3067c1c; 0x33fcaac; 0x37fdff8; 0x3a6cb48; 0x366db58; 0x3bfcb48;
   0x3ffdb58; 0x3b60b48; 0x1b63f58; 0x1fffff8; 0x1e7e7fc; 0x1e0000c; 0x1e00000; 0x0;
   0x0; 0x0; 0x0; 0x202000; 0x0; 0x0; 0x0; 0x6000;
   0x1fffff8; 0x1fffff8; 0x2aeaa0; 0x7fffe0; 0x606060; 0x7fffe0; 0x6000; 0x3fffffc;
   0x3800008; 0x3fffffc; 0x3aaae88; 0x3fff80; 0x3aabe0; 0x35577c; 0x3fff08; 0x180180;
   0x1ff9ff8; 0x1ddddd8; 0x1989988; 0x1ffdff8; 0xd80d80; 0x1fd1fd0; 0x3fffffc; 0x3015014;
   0x0; 0x0; 0x0; 0x0; 0x202000; 0x0; 0x0; 0x0;
   0x60; 0x3fbf860; 0x35b5860; 0x3fbf860; 0x35b5860; 0x3fbfbf8; 0x35b5bfc; 0x3fbfa48;
   0x1c634c; 0x3ffe248; 0x3fff34c; 0x1fffa48; 0x1ffff4c; 0xbabbf8; 0x1fff3fc; 0x183068;
   0x3fff160; 0x3360; 0x1fff360; 0xfff260; 0xf1c7f0; 0x3f87fc; 0x7fc61c; 0x3fbf800;
   0x1c07800; 0x0; 0x0; 0x0; 0x0; 0x202000; 0x0; 0x0;
   0x0; 0x7000; 0x7000; 0x3000; 0x3800; 0x1800; 0xfffff0; 0xfffff0;
   0xebaeb0; 0xc30c70; 0xc30c30; 0xc30c70; 0xc30c30; 0xc30c70; 0xc30c30; 0xc30c70;
   0xc30c30; 0xc30c70; 0xc30c30; 0xc30c70; 0xc30c30; 0xc30c70; 0x3fffffe; 0x7fffffe;
   0x2aaaaaa; 0x0; 0x0; 0x0; 0x0; 0x0; 0x202000; 0x0;
   0x0; 0x0; 0x1c0; 0x2aaa1c0; 0x3ffe1c0; 0x3ffe0c0; 0x1815f4; 0x180ff8;
   0x1c1f7c; 0xe0b68; 0x3e1b6c; 0x7f0b68; 0xef1b6c; 0x1cf8b68; 0x38ddb6c; 0x70ceb68;
   0x30c7b6c; 0xc2b68; 0xc1b6c; 0xc0b68; 0xc3f6c; 0xc3fe8; 0xc07fe; 0xc003e;
   0xc0000; 0xc0000; 0xc0000; 0x0; 0x0; 0x0; 0x0; 0x202000;
   0x0; 0x0; 0x0; 0x1c0; 0x1ffe180; 0x1ffe1c0; 0x1aea0c0; 0x1c615d0;
   0x1861ff8; 0x1c71f5c; 0xc61b48; 0x1c71b5c; 0xc21b48; 0x1c71b5c; 0xfffb48; 0xfffb5c;
   0xc31b48; 0xc31b5c; 0xc31b48; 0xc31b5c; 0xc31b48; 0xc37f5c; 0xc3bfe8; 0xc387fe;
   0xe3803e; 0x7fff004; 0x3fff000; 0x0; 0x0; 0x0; 0x0; 0x0;
   0x202000; 0x0; 0x0; 0x0; 0x180180; 0x180180; 0x318c1c0; 0x398c0c0;
   0x199dffc; 0x1999ffc; 0x1db9ffc; 0xfb1b6c; 0x15d5b7c; 0x3ffdb6c; 0x3ffdb7c; 0x181b6c;
   0x181b7c; 0x181b6c; 0x181b7c; 0x3fffb6c; 0x7fffb7c; 0x2babb6c; 0x187b7c; 0x183fec;
   0x187ffe; 0x1800fe; 0x180000; 0x180000; 0x180000; 0x0; 0x0; 0x0;
   0x0; 0x202000; 0x0; 0x0; 0x0; 0x180; 0x380; 0x3fff1c0;
   0x3fff0e0; 0x78; 0x3c; 0x71c; 0x380; 0x380; 0x3fff9c0; 0x7fff8e0;
   0x3000f0; 0x3000f8; 0x3000fc; 0x3000de; 0x3000c4; 0x3000c0; 0x3000c0; 0x3000c0;
   0x3000c0; 0x3000c0; 0x3000c0; 0x3500c0; 0x3f80c0; 0x1f00c0; 0x0; 0x0;
   0x0; 0x0; 0x202000; 0x0; 0x0; 0x0; 0x1c0; 0x2aa08c0;
   0x3fe3ce0; 0x2aaf070; 0x6038; 0x9e; 0x18c; 0x1c0; 0x4c0; 0x3ff1ee0;
   0x7ff7c70; 0x603078; 0x60207c; 0x60006e; 0x60c064; 0x60c060; 0x60e060; 0x606060;
   0x607060; 0x603860; 0x601860; 0x601c60; 0x740c60; 0x7e0c60; 0x7c0060; 0x0;
   0x0; 0x0; 0x0; 0x202000; 0x0; 0x0; 0x0; 0x40;
   0xe0; 0x3fbfe70; 0x3fbfe38; 0x701c; 0x608e; 0x71c4; 0x60c0; 0x70e0;
   0x3f86060; 0x7ffff70; 0xc7fe78; 0xc0707c; 0xc0606e; 0xc07074; 0xc06060; 0xc07070;
   0xc06060; 0xc07070; 0xc06060; 0xc07070; 0xc06060; 0xd47070; 0xfc6060; 0x7c7070;
   0x0; 0x0; 0x0; 0x0; 0x202000; 0x0; 0x0; 0x0;
   0x1040; 0x2a838e0; 0x3f87070; 0x3f86030; 0x7ff38; 0x7fe1c; 0x7ffcc; 0x38c0;
   0x18e0; 0x3fc9860; 0x7ff9c70; 0xc18e78; 0xc1c67c; 0xc0ff6e; 0xc07f74; 0xc07060;
   0xc13070; 0xc1b860; 0xc39c70; 0xc30e60; 0xc7ff70; 0xc6ff60; 0xd70770; 0xf80060;
   0x780070; 0x0; 0x0; 0x0; 0x0; 0x202000; 0x0; 0x0;
   0x0; 0x1040; 0x38c0; 0x3fc18e0; 0x3fbf870; 0x3fc38; 0x2ae38; 0x79c;
   0x3c8; 0x7fdffc0; 0x3fdfce0; 0x5d47070; 0xc02078; 0xc0707c; 0xc2aa7e; 0xc3fe6c;
   0xc2aa60; 0xc07060; 0xc02060; 0xc07060; 0xc22060; 0xc3f060; 0xc1f060; 0xfc7860;
   0xf83060; 0x780060; 0x0; 0x0; 0x0; 0x0; 0x202000; 0x0].
Definition hanzi_data_400 : list N :=
  [0x0; 0x0; 0x70c0; 0x30e0; 0x3f87070; 0x3faba38; 0x3fe3c; 0x2ba9e;
   0x71cc; 0x30c0; 0x70e0; 0x3fbff60; 0x7ffff70; 0xc03078; 0xc0707c; 0xc0306e;
   0xc7ff74; 0xc3ff60; 0xc57570; 0xc03060; 0xc07070; 0xc03060; 0xc7fc70; 0xc7ff60;
   0xd41f70; 0xfc0060; 0x7c0070; 0x0; 0x0; 0x0; 0x0; 0x202000;
   0x0; 0x0; 0x0; 0x40; 0xe0; 0x3fffe70; 0x3fbfe38; 0x303c;
   0x389e; 0x3ffcc; 0x3fec0; 0x318e0; 0x3fb1860; 0x7fb1c70; 0xcbbe78; 0xcfff7c;
   0xcaaa7e; 0xc00074; 0xc3fe70; 0xc3fe70; 0xc30670; 0xc30670; 0xc30670; 0xc30670;
   0xc3fe70; 0xd3fe70; 0xf80670; 0x780670; 0x0; 0x0; 0x0; 0x0;
   0x202000; 0x0; 0x0; 0x0; 0x6040; 0x60e0; 0x3f87070; 0x3ffff70;
   0x57538; 0x301e; 0x3ffcc; 0x3fec0; 0x7ff06e0; 0x3fbfe60; 0xc3fe70; 0xc30638;
   0xc3fe3c; 0xc3fe3e; 0xc30634; 0xc3fe30; 0xc3fe30; 0xc30630; 0xcfffb0; 0xcfffb0;
   0xc0cc30; 0xc18e30; 0xd78730; 0xf603b0; 0x760130; 0x0; 0x0; 0x0;
   0x0; 0x202000; 0x0; 0x0; 0x0; 0x1840; 0x18e0; 0x3f1fc70;
   0x3f1fc38; 0x1cc1c; 0xc61c; 0x7ffcc; 0x7ffe0; 0x7fe6760; 0x3fe6670; 0x7fffe78;
   0xc7fe38; 0xc6667c; 0xc6662e; 0xc7fe74; 0xc7fe20; 0xc06070; 0xcfff20; 0xcfff70;
   0xc0f020; 0xc1f870; 0xc39820; 0xd71e70; 0xf20720; 0x700170; 0x0; 0x0;
   0x0; 0x0; 0x202000; 0x0; 0x0; 0x0; 0x60; 0x2afff60;
   0x3fdf770; 0x3fcf338; 0xfff18; 0xcf31c; 0xfffce; 0xfffe4; 0x7fcf370; 0x3ffff30;
   0x1c55538; 0xc0ce38; 0x1cffe3c; 0xcfff3c; 0x1c0c734; 0xc2efb0; 0x1c7fff0; 0xc0c6b0;
   0x1c7fe30; 0xc7fe30; 0x1c0c630; 0xc0c630; 0x1cffe30; 0xfaae30; 0xf00430; 0x0;
   0x0; 0x0; 0x0; 0x202000; 0x0; 0x0; 0x0; 0x7000;
   0x7000; 0xe000; 0xe000; 0x3fffffc; 0x3fffffc; 0x3fffffc; 0xf800; 0x1dc00;
   0x181ce00; 0x1c1c700; 0xe18380; 0x7383e0; 0x3b03f8; 0x1f03fe; 0xe038c; 0xe0384;
   0x1c0380; 0x3c0380; 0x390380; 0xf1f380; 0x1e1ff80; 0x7c03fc0; 0x30003c0; 0x80;
   0x0; 0x0; 0x0; 0x0; 0x202000; 0x0; 0x0; 0x0;
   0x100; 0x380; 0x700; 0x600; 0x600; 0x7ff8; 0x7ff8; 0x3000;
   0x3800; 0x1c00; 0x4e00; 0xe700; 0x7f80; 0x3fc0; 0x3ff0; 0x7378;
   0x1e73c; 0xc30c; 0x700; 0x300; 0x700; 0x300; 0x700; 0x300;
   0x700; 0x0; 0x0; 0x0; 0x0; 0x202000; 0x0; 0x0;
   0x0; 0x70040; 0x700e0; 0x701c0; 0x70180; 0x70180; 0x70ffc; 0x71ffc;
   0x70e00; 0xf0600; 0x1f0700; 0x7f3380; 0xf73980; 0x1e71fc0; 0x3870fe0; 0x7070ff0;
   0x71dbc; 0x739de; 0x7318c; 0x711c0; 0x70180; 0x701c0; 0x70180; 0x701c0;
   0x70180; 0x701c0; 0x0; 0x0; 0x0; 0x0; 0x202000; 0x0;
   0x0; 0x0; 0x6000; 0x6000; 0x1fffff8; 0x1fffff8; 0x1557550; 0x6000;
   0xfffff0; 0xffffe0; 0x557540; 0x6000; 0x3fffffc; 0x3fffffc; 0x155fd54; 0x80de00;
   0x1c1cf00; 0xe38380; 0x7f03f0; 0x1f03fc; 0xe039c; 0x1c0380; 0x79c380; 0x1f0fb80;
   0x7c07f80; 0x3800780; 0x180; 0x0; 0x0; 0x0; 0x0; 0x202000;
   0x0; 0x0; 0x0; 0x40; 0xe0; 0x3fff9c0; 0x3fff980; 0x1d57080;
   0x1803ffc; 0x1c777fc; 0x1c66600; 0x1cc6700; 0xcce380; 0xfcc1c0; 0x60dcc0; 0x71cfe0;
   0x3187f0; 0x3b87f8; 0x1b0edc; 0x1f1ccc; 0xe08c4; 0x1f00c0; 0x3f80c0; 0x7bc0c0;
   0xf0e0c0; 0x3e07cc0; 0x38038c0; 0x10008c0; 0x0; 0x0; 0x0; 0x0;
   0x202000; 0x0; 0x0; 0x0; 0x400040; 0xe000e0; 0x7001c0; 0x3c0180;
   0x1f0180; 0x78ffc; 0x3e7fc; 0x80c600; 0x1c00700; 0xe00380; 0x7001c0; 0x380dc0;
   0x1f0fe0; 0xf87f0; 0x3e7f8; 0x300cedc; 0x3801cde; 0x1c008c4; 0xf000c0; 0x7800c0;
   0x3c00c0; 0xf80c0; 0x7e0c0; 0x1f0c0; 0x70c0; 0x0; 0x0; 0x0;
   0x0; 0x202000; 0x0; 0x0; 0x0; 0x600040; 0x6000e0; 0x6001c0;
   0x600180; 0x600180; 0x6007fc; 0x7fff7fc; 0x3ffe700; 0x5755300; 0x600380; 0x6001c0;
   0x60ccc0; 0x61cfe0; 0x6187f0; 0x6387f8; 0x630edc; 0x670cdc; 0x6308cc; 0x6000c0;
   0x6000c0; 0x6000c0; 0x6000c0; 0x7500c0; 0x7f00c0; 0x3f00c0; 0x0; 0x0;
   0x0; 0x0; 0x202000; 0x0; 0x0; 0x0; 0x7000; 0xe000;
   0x3fffffc; 0x3fffffc; 0x1555554; 0xe0e00; 0x3e0780; 0xf871e0; 0x3e078fc; 0x1871c38;
   0xe0f00; 0x1fa380; 0x7fffe0; 0x702fe0; 0x60f000; 0x40f800; 0xf1df00; 0x3b87c0;
   0x1f83fc; 0xe033c; 0x3c0308; 0xf8e300; 0x7f0ff80; 0x3803f80; 0x180; 0x0;
   0x0; 0x0; 0x0; 0x202000; 0x0; 0x0; 0x0; 0x7000;
   0x7000; 0x155f554; 0x3fffffc; 0x1555554; 0x0; 0x3fffc0; 0x3fffc0; 0x3000c0;
   0x3000c0; 0x3fffffc; 0x3faaafc; 0x3000c0; 0x3fffc0; 0x3fffc0; 0x80f800; 0x1c1de00;
   0xf38780; 0x7f03e0; 0xe03f8; 0x1f033c; 0x78e308; 0x7f1ff00; 0x3c00f80; 0x1000100;
   0x0; 0x0; 0x0; 0x0; 0x202000; 0x0; 0x0; 0x0;
   0xe0060; 0xe0060; 0xe00e0; 0xe00c0; 0xe00c0; 0xe07fc; 0x3fff7fc; 0x3fff300;
   0x38e3180; 0x38e3180; 0x38635c0; 0x38e36e0; 0x39f37f0; 0x39b33f8; 0x3bb33fc; 0x3b3b7ee;
   0x3f1f6e4; 0x3e0f0e0; 0x3e0f0e0; 0x38030e0; 0x38030e0; 0x38030e0; 0x1d030e0; 0x1f830e0;
   0x1f030e0; 0x0; 0x0; 0x0; 0x0; 0x202000; 0x0; 0x0;
   0x0; 0x7000; 0x6000; 0x3fffffc; 0x3fffffc; 0x1557554; 0x6000; 0x7ffff0;
   0x7fffe0; 0x757570; 0x606060; 0x606070; 0x7fffe0; 0x7ffff0; 0x6000; 0x407000].
Definition hanzi_data_401 : list N :=
  [0xe0fc00; 0xf1df80; 0x3d83e0; 0x1f83fe; 0xf039c; 0x1e0380; 0x78e380; 0x3f0ff80;
   0x3c00fc0; 0x10001c0; 0x0; 0x0; 0x0; 0x0; 0x202000; 0x0;
   0x0; 0x0; 0x60; 0xe00060; 0x1ff40e0; 0x3ff0c0; 0xdf040; 0xc0ffc;
   0xc0ffc; 0xc0600; 0xc0700; 0xc0380; 0xc0d80; 0x2aeadc0; 0x7fff7e0; 0x3fff3e0;
   0xc07f8; 0xc0efc; 0xc0cde; 0xc00cc; 0xc00c4; 0xc00c0; 0xc00c0; 0xc00c0;
   0x3fff0c0; 0x3fff0c0; 0xc0; 0x0; 0x0; 0x0; 0x0; 0x202000;
   0x0; 0x0; 0x0; 0x4000; 0x7000; 0x1fc00; 0x79e00; 0x1f37c0;
   0xf873e0; 0x7f0e0fe; 0x380c03c; 0x3fffe0; 0x3fffe0; 0x1c0000; 0xe2000; 0x73000;
   0x27000; 0x3fffffc; 0x3fffffc; 0xc0fc00; 0xe1cf00; 0x7b87f0; 0x1f03fe; 0x1f033c;
   0x3ce300; 0x1f87f00; 0x3e03f80; 0x1000180; 0x0; 0x0; 0x0; 0x0;
   0x202000; 0x0; 0x0; 0x0; 0xc0020; 0xe0070; 0xe0070; 0x1f00e0;
   0x3b0040; 0x3383fc; 0x71c3fc; 0xe2e380; 0x1c77180; 0x38e3980; 0x31c19c0; 0x1806e0;
   0x807f0; 0x1fff3f0; 0xfff3f8; 0xe003fc; 0x6007fc; 0x6002e4; 0x7000e0; 0x3800e0;
   0x3800e0; 0x1800e0; 0x1c00e0; 0xe00e0; 0xc00e0; 0x0; 0x0; 0x0;
   0x0; 0x202000; 0x0; 0x0; 0x0; 0x6000; 0x6000; 0x7ffff0;
   0x7fffe0; 0x6000; 0x6000; 0x1fffffc; 0x1fffff8; 0x0; 0x2aaaa0; 0x7fffe0;
   0x3000e0; 0x7000e0; 0x3000e0; 0x7fffe0; 0x3fffe0; 0x1c1de00; 0xf18f80; 0x7f83f0;
   0x1f03fe; 0x1e031c; 0x3ce300; 0x1f0ff80; 0x3e01f80; 0x1000180; 0x0; 0x0;
   0x0; 0x0; 0x202000; 0x0; 0x0; 0x0; 0x70030; 0x60070;
   0x700e0; 0x600c0; 0x575040; 0xfff3fc; 0x1fff3fc; 0xc60380; 0x1c70180; 0xc60180;
   0x1c705c0; 0xc706e0; 0x3fffbf0; 0x3fffbf0; 0x3fffbf8; 0xf077c; 0xf866c; 0x1f8264;
   0x1dc060; 0x39c060; 0x70e060; 0xe07060; 0x3e07c60; 0x3801e60; 0x1000c60; 0x0;
   0x0; 0x0; 0x0; 0x202000; 0x0; 0x0; 0x0; 0x70;
   0x1e00060; 0x3ff00e0; 0x7ff1c0; 0xfe1c0; 0xc07fc; 0xc07fc; 0xc0300; 0xc0380;
   0xc0180; 0x7fffdc0; 0x3fffee0; 0x7fff7f0; 0x1e03f8; 0x1e07fc; 0x1e06fe; 0x3f06ec;
   0x3300e4; 0x7380e0; 0x6380e0; 0xe1c0e0; 0xe0e0e0; 0x3c070e0; 0x38038e0; 0x10010e0;
   0x0; 0x0; 0x0; 0x0; 0x202000; 0x0; 0x0; 0x0;
   0x7000; 0x3800; 0x7fffe0; 0x7fffe0; 0x700060; 0x301c60; 0x347c60; 0x3ee060;
   0x144060; 0x1aaaae0; 0x1ffffe0; 0x1800000; 0x1c07000; 0x1f06000; 0x3fffffc; 0x3fffffc;
   0x155fd54; 0x61de00; 0x7b87c0; 0x3f03f8; 0x1e037e; 0x7ce30c; 0x7f0ff00; 0x3e03f80;
   0x1000180; 0x0; 0x0; 0x0; 0x0; 0x202000; 0x0; 0x0;
   0x0; 0x70060; 0x60060; 0x700e0; 0x600c0; 0x3fff840; 0x3fffbfc; 0x707fc;
   0x60300; 0x575180; 0xfff180; 0x1fff5c0; 0x60ee0; 0x707f0; 0x2aeabf8; 0x3fffbfc;
   0x3ffffee; 0x30706ec; 0x30600e0; 0x30700e0; 0x38600e0; 0x3d700e0; 0x1e600e0; 0x1e700e0;
   0x600e0; 0x700e0; 0x0; 0x0; 0x0; 0x0; 0x202000; 0x0;
   0x0; 0x0; 0x1c0; 0x180; 0x1ff15d4; 0x1ff3ffc; 0x1833ffc; 0x18338c0;
   0x18338c0; 0x18338e0; 0x1831870; 0x1ff1a38; 0x1ff1f1e; 0x620c; 0x7000; 0x2aaeaa8;
   0x3fffffc; 0x2aafaa8; 0x1c0de00; 0xf1cf80; 0x3f83f0; 0xf03fe; 0x1f031c; 0x3ce300;
   0x7f0ff80; 0x3e00f80; 0x1000180; 0x0; 0x0; 0x0; 0x0; 0x202000;
   0x0; 0x0; 0x0; 0x18c300; 0x38c380; 0xf1c1c0; 0x41c1c0; 0x3ffc0f0;
   0x3fffef0; 0x7fefc; 0x700de; 0x30f00cc; 0x31e20c0; 0x3fc70c0; 0x1f060c0; 0xe000;
   0x3fffffc; 0x3fffffc; 0xf800; 0x1e1df00; 0xf38780; 0x3f03f0; 0xe037e; 0x3cc31c;
   0xf8fb00; 0x7f07f80; 0x3800780; 0x80; 0x0; 0x0; 0x0; 0x0;
   0x202000; 0x0; 0x0; 0x0; 0x1c030; 0x1c030; 0x1c070; 0x1ffe0e0;
   0x1ffe040; 0x18063fc; 0x1c073fc; 0x1803b80; 0x1dffd80; 0x18fe8c0; 0x1dc66c0; 0x18866e0;
   0x1dc63f0; 0x18861f8; 0x1dfe3fc; 0x1cfe76e; 0x1f86664; 0xf86060; 0x506060; 0x6060;
   0x7006060; 0x3006060; 0x355e060; 0x3ffe060; 0x1ffc060; 0x0; 0x0; 0x0;
   0x0; 0x202000; 0x0; 0x0; 0x0; 0x40; 0x60; 0x1fff0e0;
   0x1ffe0c0; 0x1c070c0; 0x18067fc; 0x1c077fc; 0x1806300; 0x1c07300; 0x1ffe180; 0x1fff5c0;
   0x1806ce0; 0x1c077e0; 0x18063f0; 0x1c073f8; 0x18066fc; 0x1fffeec; 0x1ffe4e4; 0x1fff0e0;
   0xe0; 0xe0; 0xe0; 0x7fffce0; 0x3fff8e0; 0xe0; 0x0; 0x0;
   0x0; 0x0; 0x202000; 0x0; 0x0; 0x0; 0xc0060; 0xc0060;
   0xc00e0; 0xc01c0; 0xc0040; 0xc07fc; 0x3fff7fc; 0x3fff300; 0x38c7380; 0x38c3180;
   0x38c75c0; 0x38c3ee0; 0x38c77f0; 0x3fff3f8; 0x3fff3fc; 0x3aeb6fe; 0x38c76ec; 0x38c30e0;
   0x38c70e0; 0x38c30e0; 0x38c70e0; 0x3fff0e0; 0x3fff0e0; 0x3aab0e0; 0x38070e0; 0x0;
   0x0; 0x0; 0x0; 0x202000; 0x0; 0x0; 0x0; 0xc0060;
   0xe0060; 0xf00e0; 0x1f00c0; 0x3b8040; 0x71c7fc; 0xf0e7fc; 0x3c07300; 0x78e3f80;
   0x3061980; 0x785c0; 0x21cee0; 0x70f7f0; 0x3863f8; 0x1c03fc; 0x8e06fe; 0x1c7c6ec;
   0xe1e0e4; 0x70c0e0; 0x3800e0; 0x1c00e0; 0xf00e0; 0x7e0e0; 0x1f0e0; 0x70e0;
   0x0; 0x0; 0x0; 0x0; 0x202000; 0x0; 0x0; 0x0;
   0xe0030; 0xe0030; 0xe0070; 0xe00e0; 0x15f5040; 0x3fffbfc; 0x3fffbfc; 0xe0380;
   0xe0180; 0xe00c0; 0xe06c0; 0x3fff6e0; 0x3fff3f0; 0x1f01f8; 0x1f83fc; 0x3f876e;
   0x7fc664; 0x6ee060; 0xee7060; 0x1ce7860; 0x3ce3c60; 0x38e1e60; 0x30e0c60; 0xe0060;
   0xe0060; 0x0; 0x0; 0x0; 0x0; 0x202000; 0x0; 0x0].
Definition hanzi_data_402 : list N :=
  [0x0; 0xc0030; 0x8c0070; 0x18c70e0; 0x1cc60c0; 0x1cc6040; 0xece7fc; 0x6cc7fc;
   0x6cc300; 0xc0380; 0x1fff180; 0x1fff5c0; 0xc0ee0; 0xc07f0; 0xc03f8; 0xc07fc;
   0x3fffeee; 0x3fffeec; 0xc00e0; 0xc00e0; 0xc00e0; 0xc00e0; 0xc00e0; 0xc00e0;
   0xc00e0; 0xc00e0; 0x0; 0x0; 0x0; 0x0; 0x202000; 0x0;
   0x0; 0x0; 0x7000; 0xe000; 0x3fffffc; 0x3fffffc; 0x0; 0x3fffe0;
   0x7ffff0; 0xf1e00; 0x7fc00; 0xabeaa8; 0x1fffffc; 0x1c07c00; 0xe06f00; 0x7063c0;
   0x207dfc; 0x7c3c; 0x7000; 0xe0fe00; 0x71cfc0; 0x3f83f8; 0x1f037c; 0x3c6388;
   0x7f07f80; 0x3c00f80; 0x1000180; 0x0; 0x0; 0x0; 0x0; 0x202000;
   0x0; 0x0; 0x0; 0xe0060; 0xe0060; 0xe00e0; 0xe00c0; 0x15f5040;
   0x1fff3fc; 0x1fff3fc; 0xe0380; 0xe0180; 0xe0180; 0xe04c0; 0x2aeaee0; 0x7fffff0;
   0x3fffbf8; 0x703fc; 0x3076e; 0x33866c; 0x718260; 0x71c060; 0xe0e060; 0x1c07060;
   0x1fff060; 0x3fff860; 0x302f860; 0x1000060; 0x0; 0x0; 0x0; 0x0;
   0x202000; 0x0; 0x0; 0x0; 0xe0020; 0xe0060; 0xe0060; 0xe00e0;
   0x3fff040; 0x3fff3fe; 0x38e33fe; 0x18e3380; 0x18e3180; 0x18e31c0; 0x5f74c0; 0x1fff6e0;
   0x1fff7f0; 0xc0f1f8; 0xc1f3fc; 0xe1bb6e; 0x733f6c; 0x373a64; 0x3f1860; 0x1e1860;
   0x3f1c60; 0xff8c60; 0x1f3ee60; 0x3c0f660; 0x3006460; 0x0; 0x0; 0x0;
   0x0; 0x202000; 0x0; 0x0; 0x0; 0x21800; 0xf1800; 0x3c1c00;
   0x3fffffc; 0x3fffffc; 0x218e00; 0x798600; 0x3f8700; 0x70f8380; 0x303f1c0; 0x355fff0;
   0x3ff8c7c; 0x1ff7018; 0x6000; 0x3fffffc; 0x3fffffc; 0xc1dc00; 0xe18f80; 0x7f87f0;
   0x1f03fe; 0x1e031c; 0xf8e300; 0x7f1ff00; 0x3803f80; 0x180; 0x0; 0x0;
   0x0; 0x0; 0x202000; 0x0; 0x0; 0x0; 0xe0060; 0x2e6060;
   0xe660e0; 0xc660c0; 0x1867040; 0x8637fc; 0x3fffffc; 0x3fffb00; 0x1577b80; 0x38180;
   0x5585c0; 0x1ff8ee0; 0x1ffc7f0; 0xc0c3f8; 0xe1e3fc; 0x61e7fe; 0x73f6ec; 0x3f38e4;
   0x3f3ce0; 0x1e1ee0; 0x3f0fe0; 0xff86e0; 0x1f3e0e0; 0x3c0f0e0; 0x10070e0; 0x0;
   0x0; 0x0; 0x0; 0x202000; 0x0; 0x0; 0x0; 0x18c030;
   0xd8e070; 0xd86060; 0x19860e0; 0x1987040; 0x31831fc; 0x1831fc; 0x2bab980; 0x7ffbdc0;
   0x3ffbcc0; 0x383fe0; 0x383760; 0x3835f0; 0x3831f8; 0x3c31f8; 0x2c33fc; 0x6c337e;
   0x6e3064; 0xee3070; 0xc63060; 0x1c73070; 0x183b060; 0x383b070; 0x301f060; 0x100f070;
   0x0; 0x0; 0x0; 0x0; 0x202000; 0x0; 0x0; 0x0;
   0x60030; 0x60070; 0xf0060; 0xf00e0; 0x1f8040; 0x3983fc; 0x71c3fc; 0xe0e380;
   0x1c071c0; 0x3bff8c0; 0x17fdec0; 0xe60; 0x3f0; 0x1f8; 0xfff3fc; 0xffe36e;
   0xe0776c; 0xe06260; 0xe07060; 0xe06060; 0xe07060; 0xeae060; 0xfff060; 0xffe060;
   0xe07060; 0x0; 0x0; 0x0; 0x0; 0x202000; 0x0; 0x0;
   0x0; 0x38060; 0x180e0; 0x155c0e0; 0x3ffc1c0; 0x1ffe040; 0xc0e7fc; 0xe1f7fc;
   0x71bb00; 0x3f9b80; 0x1f0180; 0x1f0dc0; 0x3f8ee0; 0x1f1f7f0; 0x3c0fbf8; 0x35557fc;
   0xffeede; 0x1ffeccc; 0xc060c4; 0x1c060c0; 0xc060c0; 0x1c060c0; 0xffe0c0; 0x1ffe0c0;
   0xeae0c0; 0x1c060c0; 0x0; 0x0; 0x0; 0x0; 0x202000; 0x0;
   0x0; 0x0; 0x70700; 0x260300; 0x770700; 0xe67ff8; 0x1c77ff8; 0x1860300;
   0x60700; 0x3fffffc; 0x3fffffc; 0x2aeaaa8; 0x60700; 0x1860600; 0x1cefffc; 0xcefff8;
   0xec0380; 0x6c63c0; 0x7c77f0; 0x3c3ef8; 0x11c3cfc; 0x21e70e8; 0x71fe4e0; 0x33f8fe0;
   0x3f3c7f0; 0x3e0e060; 0x1c04000; 0x0; 0x0; 0x0; 0x0; 0x202000;
   0x0; 0x0; 0x0; 0x1800000; 0x18afff8; 0x18efffc; 0x18e0180; 0x18e7fc0;
   0x18e7ff0; 0x18e307c; 0x18e38fc; 0x18e1fc0; 0x18e0f00; 0x18007c0; 0x1f831f8; 0x1f0707c;
   0xe008; 0x3fffffc; 0x3fffffc; 0xc1dc00; 0xe18f80; 0x7f83f0; 0x1f03fe; 0x1e031c;
   0x3de300; 0x1f1ff80; 0x3e03f80; 0x1000180; 0x0; 0x0; 0x0; 0x0;
   0x202000; 0x0; 0x0; 0x0; 0x60300; 0x60308; 0x6031c; 0x60338;
   0x3fffb70; 0x3fffb20; 0x60300; 0x603c0; 0x603f0; 0x6037e; 0x1fffb1c; 0x1fffb00;
   0x7300; 0x6000; 0x3fffffc; 0x3fffffc; 0x40fc00; 0x1e18e00; 0x7387c0; 0x3f03f8;
   0x1e03fc; 0x3ce380; 0x1f8ff80; 0x3e00fc0; 0x10001c0; 0x0; 0x0; 0x0;
   0x0; 0x202000; 0x0; 0x0; 0x0; 0xc0040; 0xc00e0; 0x38c31c0;
   0x38c31c0; 0x18c7080; 0x18c67fc; 0x1cce7fc; 0xece300; 0x4c4300; 0xc0380; 0x1fff5c0;
   0x1fffee0; 0x18007f0; 0x18003f0; 0x18007fc; 0x1aaaede; 0x1fffccc; 0x1ffe0c4; 0x18000c0;
   0x18000c0; 0x18000c0; 0x18000c0; 0x1fff8c0; 0x1fff8c0; 0x18000c0; 0x0; 0x0;
   0x0; 0x0; 0x202000; 0x0; 0x0; 0x0; 0x30; 0x2aaa870;
   0x3fffc60; 0x3aab8e0; 0x3801c40; 0x3839bfc; 0x3839ffc; 0xfff380; 0x1fff180; 0xc0c0;
   0xcc6c0; 0xce6e0; 0xc73f0; 0x1fff1f8; 0x1fff3fc; 0xc136e; 0xc076c; 0xc0260;
   0x7fffc60; 0x3fffc60; 0xc0060; 0xc0060; 0xc0060; 0xc0060; 0xc0060; 0x0;
   0x0; 0x0; 0x0; 0x202000; 0x0; 0x0; 0x0; 0x60;
   0xfff060; 0x1fff0e0; 0xc030c0; 0x1c07040; 0xc037fc; 0x1fff7fc; 0xfff300; 0x1c07380;
   0xc03180; 0x1c075c0; 0xfffee0; 0x1fff7f0; 0x233f8; 0x10677fc; 0x38636fe; 0x1ec7cec;
   0x7c34e4; 0x3c70e0; 0x3830e0; 0x7070e0; 0xe7b0e0; 0x7c7f0e0; 0x380f8e0; 0x30010e0;
   0x0; 0x0; 0x0; 0x0; 0x202000; 0x0; 0x0; 0x0;
   0x30; 0x1fff030; 0x1fff070; 0x18030e0; 0x1c07040; 0x18033fc; 0x1c073fc; 0x1fff380;
   0x1fff180; 0xc0; 0x6c0; 0x3fff6e0; 0x3fff3f0; 0xc01f8; 0xc03fc; 0xc076e].
Definition hanzi_data_403 : list N :=
  [0x15d5664; 0x1ffe060; 0x1fff060; 0xc0060; 0xc0060; 0xc0060; 0x3fffc60; 0x3fff860;
   0x60; 0x0; 0x0; 0x0; 0x0; 0x202000; 0x0; 0x0;
   0x0; 0x7000; 0x6000; 0x3fffffc; 0x3fffffc; 0x0; 0xaa9e00; 0xff9ff0;
   0xe00060; 0xe00070; 0xff9fe0; 0xff9ff0; 0xe00060; 0xe00070; 0xffffe0; 0x7ffff0;
   0x80f800; 0x1e1df00; 0x798f80; 0x1f81f8; 0xf01fc; 0x1e019c; 0x78e180; 0x7f0ff80;
   0x3c00fc0; 0x1c0; 0x0; 0x0; 0x0; 0x0; 0x202000; 0x0;
   0x0; 0x0; 0x7000; 0xe000; 0x3fffffc; 0x3fffffc; 0x155fd54; 0xe0de00;
   0x7b87c0; 0x1f03f8; 0x1e037c; 0xf8fb80; 0x3f07fc0; 0x1800380; 0xfffff0; 0xfffff0;
   0xc11830; 0xc79e30; 0xde0730; 0xfaabb0; 0xd7fff0; 0xc60630; 0xc60630; 0xc7fe30;
   0xc7fe30; 0xf80630; 0x780030; 0x0; 0x0; 0x0; 0x0; 0x202000;
   0x0; 0x0; 0x0; 0x200060; 0x3180e0; 0x71c0e0; 0xe0e1c0; 0x1c0e040;
   0x18e77fc; 0x38e3ffc; 0x18e3b00; 0x1f1380; 0x1b8180; 0x398dc0; 0x71cee0; 0xf0e7f0;
   0x1e073f8; 0x3fffffc; 0x3fffede; 0x1ffeccc; 0xc060c4; 0xc060c0; 0xc060c0; 0xc060c0;
   0xc060c0; 0xffe0c0; 0xffe0c0; 0xc060c0; 0x0; 0x0; 0x0; 0x0;
   0x202000; 0x0; 0x0; 0x0; 0x1c6000; 0x7e6000; 0x706000; 0x3fffffc;
   0x3fffffc; 0xe06060; 0x7061f0; 0x3ce380; 0xfff00; 0x3e7f80; 0x1fc67f0; 0x3e060fc;
   0x180701c; 0x6000; 0x3fffffc; 0x3fffffc; 0xc1dc00; 0xe18f00; 0x7b87e0; 0x1f03fe;
   0x1e031c; 0x3ce300; 0x1f0ff80; 0x3e03f80; 0x1000180; 0x0; 0x0; 0x0;
   0x0; 0x202000; 0x0; 0x0; 0x0; 0x30; 0xaaa070; 0x1fff0e0;
   0x1eba0c0; 0x1c70040; 0x1c303fc; 0x7fffbfc; 0x3fffb80; 0x1c30180; 0x1c38180; 0x1d5d5c0;
   0x1fff6e0; 0x1fff3f0; 0xc3f0; 0xc3f8; 0x1ffe77c; 0x1fff66c; 0x180f264; 0x180fc60;
   0x180de60; 0x180cc60; 0x180c060; 0x1ffc060; 0x1ffc060; 0x180c060; 0x0; 0x0;
   0x0; 0x0; 0x202000; 0x0; 0x0; 0x0; 0x7000; 0xe000;
   0x3fffffc; 0x3fffffc; 0x3fffc0; 0x3fffc0; 0x3000c0; 0x3fffc0; 0x155540; 0xfffff0;
   0xfffff0; 0xe06030; 0xfffff0; 0x3000030; 0x3fffff0; 0x1ffffe0; 0x407000; 0xe0fe00;
   0x79cfc0; 0x3f83f8; 0xf037c; 0x3e8300; 0x1f8ff00; 0x3e0bf80; 0x3000180; 0x0;
   0x0; 0x0; 0x0; 0x202000; 0x0; 0x0; 0x0; 0x70030;
   0x2300f0; 0x7771c0; 0xe33880; 0x1c7181c; 0x1831878; 0x3f71c70; 0x33b0e80; 0x1d05c0;
   0xf80e0; 0x3ff78; 0x7e3c; 0x7418; 0xe000; 0x3fffffc; 0x3fffffc; 0x41fc00;
   0xe18e00; 0xf387c0; 0x3f03f8; 0x1e037c; 0x3ce308; 0x1f0ff80; 0x3e00f80; 0x1000180;
   0x0; 0x0; 0x0; 0x0; 0x202000; 0x0; 0x0; 0x0;
   0x1c0030; 0xc0030; 0x15d4e70; 0x3ffcce0; 0x3ffdc40; 0x639fc; 0x3f11fc; 0x3b00c0;
   0x3980c0; 0x3ffbee0; 0x3ffff60; 0x38bbb0; 0x3839f0; 0x3838f8; 0x17d79fc; 0x3fff9be;
   0x3fff9b4; 0x383830; 0x383830; 0x383830; 0x383c30; 0x38fe30; 0x7ffc730; 0x3ff8330;
   0x1540230; 0x0; 0x0; 0x0; 0x0; 0x202000; 0x0; 0x0;
   0x0; 0xe0070; 0x60060; 0xf00e0; 0x1f80c0; 0x39c040; 0x70c3fc; 0xf0f3fc;
   0x1c07b80; 0x7fffdc0; 0x37ffcc0; 0x25544e0; 0x6e0; 0x18607f0; 0x18633f8; 0x1c633fc;
   0xce237e; 0xcc676c; 0xec6264; 0x6c6060; 0x202060; 0x300060; 0x380060; 0x7fffc60;
   0x3fffc60; 0x60; 0x0; 0x0; 0x0; 0x0; 0x202000; 0x0;
   0x0; 0x0; 0x60030; 0xe0030; 0x3fff870; 0x3fff8e0; 0x1555840; 0xc1bfc;
   0xe1bfc; 0x3ffd980; 0x3ffd9c0; 0x318c0; 0x331ae0; 0x339b60; 0x319bf0; 0x3ffd9f8;
   0x3ffd9fc; 0x301b6e; 0x301b64; 0x301860; 0x3fffc60; 0x3ffec60; 0x301c60; 0x300c60;
   0x300e60; 0x300e60; 0x300460; 0x0; 0x0; 0x0; 0x0; 0x202000;
   0x0; 0x0; 0x0; 0x10; 0xaa1838; 0x1ff3870; 0x1aa70e0; 0x1806040;
   0x18003fc; 0x1801dfc; 0x1bf9980; 0x1bfddc0; 0x1b098c0; 0x1b1dec0; 0x1b09b60; 0x1b5dff0;
   0x1bf99f0; 0x1bfddf8; 0x1b09b7c; 0x1b1df6c; 0x1b09864; 0x1b5dc60; 0x1bf9860; 0x1955c60;
   0x1801860; 0x1801c60; 0x1f01860; 0x1f01c60; 0x0; 0x0; 0x0; 0x0;
   0x202000; 0x0; 0x0; 0x0; 0xe0030; 0x60030; 0x1575070; 0x1fff0e0;
   0x1fff040; 0x18c33fc; 0x18c33fc; 0x1fff380; 0x1fff180; 0x18e30c0; 0x18636c0; 0x1aeb6e0;
   0x1fff3f0; 0x1b81f8; 0x19c3fc; 0x18e76e; 0x187664; 0x2baa860; 0x3fffc60; 0x2baa860;
   0x180060; 0x180060; 0x180060; 0x180060; 0x180060; 0x0; 0x0; 0x0;
   0x0; 0x202000; 0x0; 0x0; 0x0; 0x30; 0x3fffc70; 0x3fffc60;
   0x18380e0; 0x1898154; 0x1fdbbfc; 0xf9f1fc; 0xe0e180; 0x1f3e1c0; 0x3bb70c0; 0x31c3ee0;
   0xe1f60; 0x403f0; 0x3fffdf8; 0x3fdfdfc; 0x38d836c; 0x19d8b6c; 0x198fc64; 0x1d8f860;
   0xf0e060; 0x71f060; 0xfbb860; 0x1dd3c60; 0x38f0e60; 0x3060460; 0x0; 0x0;
   0x0; 0x0; 0x202000; 0x0; 0x0; 0x0; 0x60030; 0x60030;
   0x60070; 0x1fff8e0; 0x1fff840; 0x601fc; 0x601fc; 0x1fff980; 0x1fff9c0; 0x600e0;
   0x60160; 0x3ffff60; 0x3fffdf0; 0xf80f8; 0x18dc1fc; 0x3cce3ee; 0x1fcf974; 0x78fe60;
   0x38dc70; 0x30c060; 0x74c070; 0xeec060; 0x7c7e070; 0x381e060; 0x1006070; 0x0;
   0x0; 0x0; 0x0; 0x202000; 0x0; 0x0; 0x0; 0x106040;
   0x7060e0; 0x3861c0; 0x2baeaa8; 0x3fffffc; 0x3fffff8; 0x380001c; 0x3bfff98; 0x3bfffdc;
   0x380180; 0x3fffc0; 0x3fff80; 0x7000; 0xe000; 0x3fffffc; 0x3fffffc; 0x40fc00;
   0xe1de00; 0x7b87c0; 0x3f03f8; 0x1f037c; 0x3ce30c; 0x7f1ff80; 0x3e00f80; 0x1000180;
   0x0; 0x0; 0x0; 0x0; 0x202000; 0x0; 0x0; 0x0].
Definition hanzi_data_404 : list N :=
  [0x30c00; 0x30c00; 0x3ff0ff8; 0x3ff0ff8; 0x30c00; 0x30ea8; 0x1ff0ff8; 0xab0ea0;
   0x30c00; 0x3ff0ffc; 0x3ff0ffc; 0x30c00; 0x37c00; 0x6000; 0x3fffffc; 0x3fffffc;
   0xc1dc00; 0xe18f00; 0x7b87e0; 0x3f03fe; 0x1e033c; 0x3cf300; 0x7f0ff00; 0x3c00f80;
   0x1000180; 0x0; 0x0; 0x0; 0x0; 0x202000; 0x0; 0x0;
   0x0; 0x60; 0x1fff0e0; 0x1fff0e0; 0x18e31c0; 0x18e7040; 0x1aeb7fc; 0x1fff7fc;
   0x1aeb300; 0x18e7380; 0x18e3180; 0x1fffdc0; 0x1fffee0; 0xe07f0; 0xe03f8; 0x7fffffc;
   0x3fffede; 0x1f0ccc; 0x3f80c4; 0x7fc0c0; 0xeee0c0; 0x1ce70c0; 0x38e38c0; 0x30e1cc0;
   0xe08c0; 0xe00c0; 0x0; 0x0; 0x0; 0x0; 0x202000; 0x0;
   0x0; 0x0; 0x7000; 0x6000; 0x3fffffc; 0x3fffffc; 0x7fffe0; 0x7fffe0;
   0x706060; 0x7fffe0; 0x757560; 0x6aeae0; 0x7fffe0; 0x6000; 0x3fffffc; 0x2abfea8;
   0x3f6f80; 0xf863f8; 0x3c0787c; 0x120fe08; 0x7dcfc0; 0x1f83f8; 0x1f037c; 0x3c6308;
   0x7f07f00; 0x3c00f80; 0x180; 0x0; 0x0; 0x0; 0x0; 0x202000;
   0x0; 0x0; 0x0; 0x60; 0x1fff060; 0x1fff0e0; 0x18030c0; 0x1c070c0;
   0x1fff7fc; 0x1fff7fc; 0x1803300; 0x1c07300; 0x1fff180; 0x1fff5c0; 0xc6e0; 0xe7e0;
   0x3ffe3f0; 0x3fff7f8; 0x3b3befc; 0x3999efc; 0x399c8e4; 0x19cc0e0; 0x18c60e0; 0x18e70e0;
   0x1863ce0; 0x1c318e0; 0xfb80e0; 0xf980e0; 0x0; 0x0; 0x0; 0x0;
   0x202000; 0x0; 0x0; 0x0; 0x70; 0x3fff060; 0x3fff0e0; 0x38030c0;
   0x3803040; 0x38033fc; 0x3fff3fc; 0x3fff380; 0x1c3180; 0x1831c0; 0x1c34c0; 0x3fff6e0;
   0x7fff7f0; 0x1831f8; 0x1c33fc; 0x183f6e; 0x3fffe6c; 0x3fffa60; 0x380d860; 0x380d860;
   0x380dc60; 0x380cc60; 0x3ffcc60; 0x3ffce60; 0x380c460; 0x0; 0x0; 0x0;
   0x0; 0x202000; 0x0; 0x0; 0x0; 0x70c030; 0x60c030; 0x70c070;
   0x60c060; 0x77fc60; 0x67f9fc; 0x70c1fc; 0x60c180; 0x70c0c0; 0xeffce0; 0x1ffff60;
   0x1e003f0; 0x3f0c1f8; 0x360c0f8; 0x770c1fc; 0x67fdac; 0x77fd74; 0x60c020; 0x70c070;
   0x60c020; 0x7dc070; 0x6ffe20; 0x77fe70; 0x600a20; 0x700070; 0x0; 0x0;
   0x0; 0x0; 0x202000; 0x0; 0x0; 0x0; 0x70030; 0xe0030;
   0xc0070; 0x1fff8e0; 0x1fff940; 0x1803bfc; 0x18039fc; 0x1aab980; 0x1fff9c0; 0xaab8c0;
   0x3ae0; 0x2aabb60; 0x3fffbf0; 0x3bef9f8; 0x33679fc; 0x3367bee; 0x3367b64; 0x3fff860;
   0x3fffc60; 0x3366c60; 0x3366c60; 0x3366c60; 0x3366e60; 0x3f66660; 0x1c06460; 0x0;
   0x0; 0x0; 0x0; 0x202000; 0x0; 0x0; 0x0; 0x60;
   0x1ffe060; 0x1fff0e0; 0x18060c0; 0x1807154; 0x1ffe7fc; 0x1fff7fc; 0x1806300; 0x1fff380;
   0x1ffe180; 0x155d5c0; 0xcee0; 0x3ffe7f0; 0x3ffe3f0; 0x30c77fc; 0x30c3afe; 0x30e7cee;
   0x39e28e4; 0x3f3f0e0; 0x3a1a0e0; 0x1fff0e0; 0x1ffe0e0; 0x18000e0; 0x1f000e0; 0xf000e0;
   0x0; 0x0; 0x0; 0x0; 0x202000; 0x0; 0x0; 0x0;
   0x7000; 0x6000; 0x3fffffc; 0x3fffffc; 0x555180; 0xfff980; 0xe01cc0; 0xeab8e0;
   0xfffcf8; 0x300fc; 0x3fffffc; 0x3fffee0; 0x3f70e0; 0xf33ee0; 0x3c34fe0; 0x103e2e0;
   0xc07c00; 0xe0ff00; 0x7dc7f0; 0xf83fe; 0x1f039c; 0x7c8380; 0x7f0ff80; 0x3803f80;
   0x180; 0x0; 0x0; 0x0; 0x0; 0x202000; 0x0; 0x0;
   0x0; 0x6030; 0x1ff6030; 0x1ff7070; 0x18330e0; 0x1c33040; 0x18331fc; 0x1c339fc;
   0x1833980; 0x1ff3cc0; 0x1ff3ec0; 0x383f60; 0x3837e0; 0x3831f0; 0x3fff0f8; 0x3fff1fc;
   0x7c31be; 0x7c317c; 0xfe3034; 0xff3070; 0x1bb3030; 0x1bbb070; 0x339f030; 0x338f070;
   0x383030; 0x383070; 0x0; 0x0; 0x0; 0x0; 0x202000; 0x0;
   0x0; 0x0; 0xc0030; 0xe0030; 0x1f0070; 0x3b80e0; 0x71e040; 0x1e0fbfc;
   0x7d57dfc; 0x37fed80; 0x7ff1c0; 0xc0; 0x193fa60; 0x1b3fb60; 0x1b31bf0; 0x1b319f8;
   0x1b3f9fc; 0x1b3fbee; 0x1b31b76; 0x1b31860; 0x1b3f870; 0x1b3f860; 0x1931870; 0x1831860;
   0x1835870; 0x1e3d860; 0x1e1d870; 0x0; 0x0; 0x0; 0x0; 0x202000;
   0x0; 0x0; 0x0; 0x198030; 0x198070; 0x1198060; 0x3d9f8e0; 0x1f9f840;
   0x3983fc; 0x11983fc; 0x219e380; 0x759f980; 0x3f999c0; 0x1f186c0; 0x1ffe6e0; 0x1ffe3f0;
   0x18061f8; 0x1c063fc; 0x1ffe7ee; 0x1ffe6e4; 0x18060e0; 0x1d560e0; 0x1ffe0e0; 0x1d560e0;
   0x18060e0; 0x1c060e0; 0x1f860e0; 0xf060e0; 0x0; 0x0; 0x0; 0x0;
   0x202000; 0x0; 0x0; 0x0; 0x70060; 0x30060; 0x38700e0; 0x1bff0c0;
   0x1fff154; 0xeba7fc; 0x7707fc; 0x330300; 0x7ffff80; 0x3fff980; 0x7fffdc0; 0x78ee0;
   0x3c7f0; 0x1ffe3f0; 0x1fffffc; 0x180fefe; 0x1c0e8ee; 0x1ffe0e4; 0x1ffe0e0; 0x180e0e0;
   0x1c0e0e0; 0x180e0e0; 0x1ffe0e0; 0x1ffe0e0; 0x1c0e0e0; 0x0; 0x0; 0x0;
   0x0; 0x202000; 0x0; 0x0; 0x0; 0x60030; 0x1c63030; 0xc67070;
   0xe660e0; 0x76c140; 0x3fffbfc; 0x3fff9fc; 0x1f8180; 0x3fc1c0; 0xf6e0c0; 0x1e67ae0;
   0x3863b60; 0x1070bf0; 0x301f8; 0x157d5fc; 0x3ffffee; 0x3ffff64; 0x60e060; 0x706060;
   0x39f060; 0x1fc060; 0x3f0060; 0x1fff060; 0x3e0fc60; 0x1001c60; 0x0; 0x0;
   0x0; 0x0; 0x202000; 0x0; 0x0; 0x0; 0x20; 0xfff860;
   0x1fff8e0; 0xc038c0; 0x1d57840; 0xfffbfc; 0x1d57bfc; 0xc03b80; 0x1fff980; 0xfff8c0;
   0x6c0; 0x2aaaee0; 0x3fffff0; 0x3aba9f8; 0x31f1ffc; 0x33b1b6e; 0x333376c; 0x3a3b260;
   0x3e3c060; 0x37bf860; 0x31f3e60; 0x30f0c60; 0x3030060; 0x3e3e060; 0x1e1e060; 0x0;
   0x0; 0x0; 0x0; 0x202000; 0x0; 0x0; 0x0; 0x60c020;
   0x60c060; 0x60c0e0; 0x3fffcc0; 0x7fffc40; 0x60c3fc; 0x66c3fc; 0x2e8380; 0x1f0180;
   0x3b81c0; 0xf1e0c0; 0x1e0fee0; 0x7fffff0; 0x33fcbf8; 0x1fc; 0x36e; 0x1fff76c].
Definition hanzi_data_405 : list N :=
  [0xfff260; 0x1c07060; 0xc03060; 0x1c07060; 0xc03060; 0x1fff060; 0xfff060; 0x1c07060;
   0x0; 0x0; 0x0; 0x0; 0x202000; 0x0; 0x0; 0x0;
   0x30; 0x3fff830; 0x3fff870; 0x18e0; 0x1ffd974; 0x1ff9bfc; 0x1bfc; 0x3fff980;
   0x7fff9c0; 0x11998c0; 0x3d99ae0; 0xf19b60; 0xfd9bf0; 0x3ef99f8; 0x3e1dbfc; 0x601b6e;
   0x3fffd7e; 0x3ffec64; 0x610c70; 0x638c60; 0x630e70; 0x660660; 0x620770; 0x7c0360;
   0x7c0070; 0x0; 0x0; 0x0; 0x0; 0x202000; 0x0; 0x0;
   0x0; 0x30; 0x1ff0030; 0x1ff1c70; 0x18318e0; 0x1833840; 0x1ab33fc; 0x1ff71fc;
   0x1830180; 0x18301c0; 0x1833cc0; 0x1ff3de0; 0xab3360; 0x11b31f0; 0x39b30f8; 0x1f331fc;
   0xe333ee; 0xe3317c; 0xdb3060; 0x19fb070; 0x383b060; 0x101f870; 0xfc60; 0x7ffce70;
   0x3ff8660; 0x1fc0470; 0x0; 0x0; 0x0; 0x0; 0x202000; 0x0;
   0x0; 0x0; 0x1c00010; 0x3fe0030; 0x1fffc70; 0xcf860; 0x3fc1c40; 0x3fc19fc;
   0x1c1dfc; 0xae9980; 0x3ffdcc0; 0x30cd8c0; 0x30cdf60; 0xffdb60; 0x37fddf0; 0x20cd8f8;
   0x3fcddfc; 0x1f8cfac; 0x7edd7c; 0x7eec24; 0x666c70; 0x666e20; 0x666670; 0x2666620;
   0x7677770; 0x3e3bb20; 0x1c11070; 0x0; 0x0; 0x0; 0x0; 0x202000;
   0x0; 0x0; 0x0; 0x70030; 0x60030; 0xe0070; 0x3fff8e0; 0x7fffd40;
   0x639bfc; 0x639dfc; 0x3fff980; 0x3fffdc0; 0x6398c0; 0x639fe0; 0x6b9b60; 0x7f9df0;
   0xc18f8; 0x1c1dfc; 0x1ffdbee; 0x1ffdd74; 0x18ccc60; 0x19ccc70; 0x18ccc60; 0x19ccc70;
   0x1ecce60; 0x7cc670; 0xc0660; 0x1c0670; 0x0; 0x0; 0x0; 0x0;
   0x202000; 0x0; 0x0; 0x0; 0x7000; 0xe000; 0x1fffffc; 0x1fffff8;
   0x186061c; 0x1aeaeb8; 0x1fffffc; 0x60600; 0x7fffe0; 0x7fffe0; 0x60600; 0x2aeaea8;
   0x3fffffc; 0xe0700; 0x1c73c0; 0x7aebe0; 0x3fffff8; 0x3a0f83e; 0x171de0c; 0x1f8780;
   0xf07f0; 0x1ec670; 0x1fcff00; 0x1e03f80; 0x700; 0x0; 0x0; 0x0;
   0x0; 0x202000; 0x0; 0x0; 0x0; 0x11c010; 0x38c838; 0x19dc70;
   0x18d8e0; 0x7fddc60; 0x3fcd9fc; 0xdddfc; 0xed980; 0x77ddc0; 0xe7d8c0; 0x1c7df60;
   0x180db60; 0x1c1f0; 0xf8; 0x1fffdf8; 0x1fffbfc; 0x1999d7c; 0x1999864; 0x1999c70;
   0x1999860; 0x1999c70; 0x1999860; 0x7ffff70; 0x3fffe60; 0x70; 0x0; 0x0;
   0x0; 0x0; 0x202000; 0x0; 0x0; 0x0; 0x20; 0x3fff870;
   0x3fffc60; 0x30300e0; 0x31b3840; 0x33373fc; 0x36363fc; 0x3838380; 0x3f3f180; 0x33f79c0;
   0x31b1cc0; 0x30206e0; 0x603f0; 0xaea1f8; 0x1fff3fc; 0x1aab36e; 0x1c0766c; 0x1803260;
   0x1fff060; 0x1aab060; 0x1c07060; 0x1803060; 0x1fff060; 0x1fff060; 0x1c07060; 0x0;
   0x0; 0x0; 0x0; 0x202000; 0x0; 0x0; 0x0; 0x10;
   0xfe7e30; 0x1ff7e70; 0x8260e0; 0x1c76040; 0x8261fc; 0x1ff61fc; 0xfe7c80; 0x187cc0;
   0x180ce0; 0x1ff0f60; 0x1ff0f60; 0x1930df0; 0x1937cf8; 0x1937dfc; 0x19361ae; 0x1ff6176;
   0x1ff6024; 0x186070; 0x1986020; 0x1987070; 0x3b82020; 0x3ffbe70; 0x32fbe20; 0x1001470;
   0x0; 0x0; 0x0; 0x0; 0x202000; 0x0; 0x0; 0x0;
   0x7000; 0x6000; 0x3fffffc; 0x3fffffc; 0x551ff0; 0xff9fe0; 0xe19c70; 0xe19820;
   0xff9ff0; 0xae8ea0; 0x1fffff8; 0x1fffff8; 0x60600; 0xfffff0; 0xfffff0; 0x60600;
   0x3fffffc; 0x3fffffc; 0xc1df00; 0xf387c0; 0x7f03fe; 0x3ee33c; 0x1fcff80; 0x3e00f80;
   0x1000180; 0x0; 0x0; 0x0; 0x0; 0x202000; 0x0; 0x0;
   0x0; 0x10; 0x2aa8c30; 0x3ff9c70; 0x3aab860; 0x3047040; 0x30629fc; 0x3575dfc;
   0x37fe880; 0x3575cc0; 0x30608e0; 0x37fff60; 0x36eeb60; 0x377fdf0; 0x37fe8f8; 0x37f7dfc;
   0x37febae; 0x37ffd76; 0x31f0824; 0x33f9c70; 0x376c820; 0x3667c70; 0x3062820; 0x3061c70;
   0x3f60820; 0x1f01c70; 0x0; 0x0; 0x0; 0x0; 0x202000; 0x0;
   0x0; 0x0; 0x1810010; 0x1830038; 0xc70c70; 0xe60c60; 0x7ffdc60; 0x3ffd9fc;
   0x55d59fc; 0xe00c0; 0x38f00c0; 0x1dbdee0; 0xf9df60; 0x7c19b0; 0x7719f0; 0xf398f8;
   0x1f9d8fc; 0x1bc19be; 0x36f19b4; 0x3639830; 0x71f830; 0x30d830; 0x3e1c30; 0x1c7e30;
   0x7ffe730; 0x3ff8230; 0x1fc0230; 0x0; 0x0; 0x0; 0x0; 0x202000;
   0x0; 0x0; 0x0; 0x18060; 0xbc060; 0x7fc0e0; 0x38e0c0; 0x55d7040;
   0x3fffbfc; 0x5757bfc; 0xee3380; 0x1c73180; 0x189f180; 0x11834c0; 0x3fff6e0; 0x3fff7f0;
   0x33f8; 0x1ffb3fc; 0x376e; 0x1ffb66c; 0x1ffb260; 0x3060; 0x1ffb860; 0x1d59860;
   0x1819860; 0x1ff9c60; 0x1ff8c60; 0x1818c60; 0x0; 0x0; 0x0; 0x0;
   0x202000; 0x0; 0x0; 0x0; 0x1c0000; 0x181ff8; 0x3ffdff8; 0x3ffd818;
   0xc31818; 0x631ff8; 0x3fff558; 0x2baa018; 0x1c1ff8; 0x3ffdaf8; 0x3ffd87c; 0x18186c;
   0x1c7fec; 0x186000; 0x3fffffc; 0x3fffffc; 0x155fd54; 0xe19e00; 0x7b87c0; 0x3f03f8;
   0x1f037c; 0x3ca308; 0x1f8ff00; 0x3e03f80; 0x1000180; 0x0; 0x0; 0x0;
   0x0; 0x202000; 0x0; 0x0; 0x0; 0x606030; 0x606070; 0x606060;
   0x3fdfce0; 0x3fdfc40; 0xf0f3fc; 0xf9f1fc; 0x1fb7980; 0x3ed7dc0; 0x36e6ec0; 0x6465e0;
   0x202360; 0x1fff9f0; 0x1fff8f8; 0x1fc; 0x3ee; 0x3ffff74; 0x3fffc60; 0x667070;
   0xe63060; 0x1c63870; 0x3861c60; 0x3060e70; 0x107c460; 0x7c070; 0x0; 0x0;
   0x0; 0x0; 0x202000; 0x0; 0x0; 0x0; 0x30; 0x3fff830;
   0x3fff870; 0x600e0; 0x3fffc40; 0x3fffdfc; 0x3060dfc; 0x3f6fd80; 0x3f7fdc0; 0x600c0;
   0x1f7f360; 0x60360; 0x15555f0; 0x3fffcf8; 0x55755fc; 0x303ec; 0x3fff96e; 0x3fff864;
   0x3199860; 0x3199860; 0x3199860; 0x3199860; 0x3199860; 0x3d99860; 0x1d99860; 0x0;
   0x0; 0x0; 0x0; 0x202000; 0x0; 0x0; 0x0; 0x60030].
Definition hanzi_data_406 : list N :=
  [0x60030; 0x60060; 0x60060; 0x3fffc40; 0x3fffdfc; 0x601fc; 0x2aea980; 0x3fffdc0;
   0xc620c0; 0x3f6fee0; 0x3f6fa60; 0x316cff0; 0x31689f8; 0x3f6fdfc; 0x316ab6e; 0x317cf6e;
   0x3bfa864; 0x3fffc60; 0x1b8060; 0x39c060; 0x70e060; 0x1e07860; 0x3c03e60; 0x3000660;
   0x0; 0x0; 0x0; 0x0; 0x202000; 0x0; 0x0; 0x0;
   0xc43030; 0xcf2030; 0x1d77470; 0x3fefce0; 0x1df7440; 0xe973fc; 0x1fffbfc; 0x3f7ab80;
   0x2df3d80; 0xdba580; 0xc336c0; 0x2abaee0; 0x3fffff0; 0x2baebf0; 0x7ce3f8; 0xfff37c;
   0x1c7ff6e; 0x7fffe64; 0x37fe460; 0x60060; 0x1fff860; 0x1fff860; 0x60060; 0x7e060;
   0x7c060; 0x0; 0x0; 0x0; 0x0; 0x202000; 0x0; 0x0;
   0x0; 0x0; 0x0; 0x3fffffc; 0x3fffffc; 0x30c00; 0x30c00; 0x30c00;
   0x30c00; 0x1fffff8; 0x1fffff8; 0x1c30c38; 0x1c30c38; 0x1c30e38; 0x1c30638; 0x1ff0738;
   0x1ff03f8; 0x1ff01f8; 0x1c00038; 0x1c00038; 0x1c00038; 0x1c00038; 0x1fffff8; 0x1fffff8;
   0x1c00038; 0x1c00038; 0x0; 0x0; 0x0; 0x0; 0x202000; 0x0;
   0x0; 0x0; 0x0; 0x3fffffc; 0x3fffffc; 0x30c00; 0x30c00; 0xfffff0;
   0x1fffff0; 0xc30c30; 0x1c30c30; 0xc30c30; 0x1d75d70; 0xfffff0; 0x1555d50; 0x1c00;
   0x1555d54; 0x3fffffc; 0x3fffffc; 0xc0380; 0xe01c0; 0x78fc0; 0x3ff00; 0xff800;
   0xff7fc0; 0x1f80ffc; 0x1c00078; 0x0; 0x0; 0x0; 0x0; 0x202000;
   0x0; 0x0; 0x0; 0x0; 0x3fffffc; 0x3fffffc; 0x30e00; 0x1fffff0;
   0xfffff0; 0x1c70e30; 0xc30e30; 0x1fffff0; 0xaaaaa0; 0x7fffe0; 0x7fffe0; 0x700060;
   0x6aaae0; 0x7fffe0; 0x600060; 0x7fffe0; 0x7fffe0; 0x6000; 0x6000; 0x7fffffc;
   0x2aaeaa8; 0x6000; 0x6000; 0x6000; 0x0; 0x0; 0x0; 0x0;
   0x202000; 0x0; 0x0; 0x0; 0x0; 0x3fffffc; 0x3fffffc; 0x30c00;
   0x1fffff8; 0xebaeb8; 0x1c30c38; 0xfffff8; 0x1557550; 0x30c0; 0x1fff8e0; 0x1c70;
   0xffffbc; 0xc01fcc; 0xfffee0; 0xeab870; 0xfff878; 0xfff87c; 0x7fe06c; 0xfff860;
   0x707f60; 0x3fe660; 0x1fc060; 0x3fdfe60; 0x3c01e60; 0x0; 0x0; 0x0;
   0x0; 0x202000; 0x0; 0x0; 0x0; 0x0; 0x2aaaa0; 0x7fffe0;
   0x7fffe0; 0x7000e0; 0x7000e0; 0x7070e0; 0x7060e0; 0x7070e0; 0x7060e0; 0x7070e0;
   0x7070e0; 0x7070e0; 0x7030e0; 0x71f0e0; 0x70f8e0; 0x71f8e0; 0xd800; 0x101dc00;
   0x300ce00; 0x301cf00; 0x380c3c0; 0x3ffc1f8; 0x1ff80fc; 0x1c; 0x0; 0x0;
   0x0; 0x0; 0x202000; 0x0; 0x0; 0x0; 0x0; 0x1ffe000;
   0x1ffeffc; 0x1aaeffc; 0x1c06754; 0x18a6600; 0x1ce6600; 0x18e660c; 0x1ce671c; 0x18e6338;
   0x1ce6370; 0x18e63e0; 0x1ce63e0; 0x18e61c0; 0x1c661c0; 0x19e63c0; 0x1f03c0; 0x1b07e0;
   0x31b0770; 0x61b8e30; 0x719c638; 0x218e01c; 0x358781c; 0x3f83c08; 0x1501800; 0x0;
   0x0; 0x0; 0x0; 0x202000; 0x0; 0x0; 0x0; 0x0;
   0x1aabff8; 0x3ffbff8; 0x1aab818; 0x1c03918; 0xe03998; 0x703998; 0x183998; 0x183998;
   0x2bab998; 0x7fff998; 0x3fff998; 0x183998; 0x183998; 0x183998; 0x183b98; 0x183f98;
   0x180780; 0x1807c0; 0x31f06c0; 0x71f06e0; 0x3000670; 0x3fffe38; 0x3fffe1c; 0x55500c;
   0x0; 0x0; 0x0; 0x0; 0x202000; 0x0; 0x0; 0x0;
   0xc0; 0x1ffe0c0; 0x1ffe0c0; 0x1aae0c0; 0x1c06ffc; 0x1886ffc; 0x1cc6ffc; 0x18c60c0;
   0x1cc60c0; 0x18c60c0; 0x1cc65d4; 0x18c6ffc; 0x1cc6ffc; 0x18c60c0; 0x1cc61c0; 0x19e61e0;
   0x1e03e0; 0x1e0760; 0x11f0e70; 0x31b8c70; 0x719c430; 0x318e038; 0x3f8701c; 0x3f8380c;
   0x1501800; 0x0; 0x0; 0x0; 0x0; 0x202000; 0x0; 0x0;
   0x0; 0x700000; 0xfffa00; 0x5ffff0; 0xe02bf0; 0x707070; 0x3070e0; 0x3861c0;
   0x18e1c0; 0x5d5540; 0x3fffe0; 0x7fffe0; 0x3020e0; 0x7070e0; 0x3060e0; 0x7070e0;
   0x3060e0; 0x7070e0; 0x31b0e0; 0x71b8e0; 0x1b800; 0x3019e00; 0x3018f80; 0x3ff83f0;
   0x3ff80f8; 0x540018; 0x0; 0x0; 0x0; 0x0; 0x202000; 0x0;
   0x0; 0x0; 0x40; 0x1ffe0e0; 0x1fff1c0; 0x1aae1c0; 0x1c071d4; 0x18e67fc;
   0x1ce77fc; 0x18e6300; 0x1ce7300; 0x18e6380; 0x1ce71c0; 0x18e60e0; 0x1ce71f0; 0x18e63f8;
   0x1c677fc; 0x18e6efc; 0x1f04ec; 0xf00e0; 0x11f80e0; 0x20f80e0; 0x71dc0e0; 0x30ce0e0;
   0x35c78e0; 0x3f83ce0; 0x1f018e0; 0x0; 0x0; 0x0; 0x0; 0x202000;
   0x0; 0x0; 0x0; 0xc0; 0x1ffc0c0; 0x1ffc0c0; 0x180c0c0; 0x1c0d5c0;
   0x18cdfc0; 0x1ccdfc0; 0x18cc0c0; 0x1ccc0c0; 0x18cc0c0; 0x1ccc0c0; 0x18ccae8; 0x1cccffc;
   0x18cceac; 0x1dccc1c; 0x19ecc0c; 0x1decc1c; 0x1e0c0c; 0x1f0c1c; 0x21b0c0c; 0x71b8ffc;
   0x219cffc; 0x359f55c; 0x3f8780c; 0x1f01800; 0x0; 0x0; 0x0; 0x0;
   0x202000; 0x0; 0x0; 0x0; 0x70600; 0x30628; 0x38638; 0x3ff8638;
   0x3ffc638; 0x9c638; 0x1cc638; 0x38e638; 0x707638; 0x600620; 0x0; 0x7fffc0;
   0x7fffc0; 0x7000c0; 0x7070c0; 0x7060c0; 0x7070c0; 0x7060c0; 0x71f0c0; 0x21b8c0;
   0x301dc00; 0x3818f00; 0x3d5c7f0; 0x1ff80f8; 0xff0038; 0x0; 0x0; 0x0;
   0x0; 0x202000; 0x0; 0x0; 0x0; 0x603040; 0x603060; 0x7070e0;
   0x38e1c0; 0x1c6180; 0x1fffff8; 0x1fffff8; 0x1800018; 0x1800018; 0x1bfffd8; 0x13fffd0;
   0x3000c0; 0x3071c0; 0x3060c0; 0x3071c0; 0x3060c0; 0x3071c0; 0x31f0c0; 0x31f1c0;
   0x1b800; 0x3019c00; 0x3018f80; 0x3ff87f0; 0x1ff80f8; 0x550078; 0x0; 0x0;
   0x0; 0x0; 0x202000; 0x0; 0x0; 0x0; 0x180; 0xaa8180;
   0x1ffd99c; 0x1809988; 0x181d99c; 0x1989988; 0x199dffc; 0x1989ff8; 0x19dc000; 0x1988000;
   0x19ddffc; 0x1889ff8; 0x19dd800; 0x18c9800; 0x1bdd800; 0x1bc9ff8; 0x13d5ff8; 0x3e0018].
Definition hanzi_data_407 : list N :=
  [0x360018; 0x2360018; 0x6371f18; 0x2339ff8; 0x7f1e1fc; 0x3f0f018; 0x6000; 0x0;
   0x0; 0x0; 0x0; 0x202000; 0x0; 0x0; 0x0; 0x0;
   0xaa8000; 0x1ffbffc; 0x1abbffc; 0x1818180; 0x18999b0; 0x1999990; 0x1999998; 0x1999d98;
   0x1998998; 0x1999d98; 0x1999db8; 0x19dbdb8; 0x199bda8; 0x19dedfc; 0x1bda7ec; 0x3c078c;
   0x3e0184; 0x3367184; 0x2377f80; 0x7339ffc; 0x231c0fe; 0x370f01c; 0x3f07000; 0x1400000;
   0x0; 0x0; 0x0; 0x0; 0x202000; 0x0; 0x0; 0x0;
   0x380; 0x1ff8380; 0x1ffbff8; 0x181bff8; 0x19197d0; 0x1998380; 0x199fffc; 0x199bffc;
   0x199b554; 0x199b330; 0x199bb70; 0x1999bc8; 0x199835c; 0x1998338; 0x1998330; 0x1b9aba8;
   0x1bd7ffc; 0x3c2ba8; 0x3c0180; 0x23e0fc0; 0x7371ce0; 0x2333870; 0x373f07c; 0x3f0e01c;
   0x1404004; 0x0; 0x0; 0x0; 0x0; 0x202000; 0x0; 0x0;
   0x0; 0x300; 0x1ff0380; 0x1ff07c0; 0x1830ec0; 0x1833cf0; 0x1b37038; 0x1b37ffc;
   0x1bb1fec; 0x1b31554; 0x1bb0000; 0x1b361fc; 0x1bb65fc; 0x19b658c; 0x19b658c; 0x1fb65fc;
   0x1bb65ac; 0x179658c; 0x3865ac; 0x7c65fc; 0x23c658c; 0x77e658c; 0x236618c; 0x377e18c;
   0x3e3fdec; 0x1c1bccc; 0x0; 0x0; 0x0; 0x0; 0x202000; 0x0;
   0x0; 0x0; 0xc60; 0x3ff8c60; 0x3fffffc; 0x381bffc; 0x3918c60; 0x399aee8;
   0x399bffc; 0x3998c60; 0x399dd74; 0x399fffc; 0x399fffc; 0x3998180; 0x399bff8; 0x399bff8;
   0x3b9b198; 0x3b9bff8; 0x3bdbff8; 0x3c3198; 0x3c75dc; 0x23e7ffe; 0x636755c; 0x2373018;
   0x773b018; 0x3e1fe18; 0x140de18; 0x0; 0x0; 0x0; 0x0; 0x202000;
   0x0; 0x0; 0x0; 0x1c30; 0x1ff8c30; 0x1fffffc; 0x181bffc; 0x1919c30;
   0x1998eb0; 0x1999ff0; 0x1998180; 0x199bffc; 0x199bff8; 0x199b19c; 0x199b188; 0x199bffc;
   0x199bff8; 0x1bd8180; 0x1bdbffc; 0x3c3ffc; 0x3c0180; 0x3e1ffc; 0x2361ff8; 0x7370180;
   0x233bfa0; 0x371fffc; 0x3f0e03c; 0x1404000; 0x0; 0x0; 0x0; 0x0;
   0x202000; 0x0; 0x0; 0x0; 0x380; 0x2aa0380; 0x3ff7f80; 0x3ab7f80;
   0x3834380; 0x3a3fff8; 0x3b37ff8; 0x3b36318; 0x3b37f58; 0x3b30ff8; 0x3b36318; 0x3bb7f18;
   0x3b33f18; 0x3bb0898; 0x39b4d98; 0x3fbc9b8; 0x786df8; 0x6869e8; 0x7c3ddc; 0x66e29cc;
   0x6764d8c; 0x6677f8c; 0x773fffc; 0x3e1c0f6; 0x1408004; 0x0; 0x0; 0x0;
   0x0; 0x202000; 0x0; 0x0; 0x0; 0xe00; 0xe00; 0xfff00;
   0xfff80; 0x701c0; 0x301e0; 0xfffff0; 0xfffff8; 0xd5f5fc; 0xc0e0e8; 0xc0e0e0;
   0xeaeae0; 0xffffe0; 0xeaeae0; 0xc0e0e0; 0xc0e0e0; 0xd5f5e0; 0xffffe0; 0xffffe0;
   0xc0e060; 0xc0e070; 0xc0e030; 0xd4e038; 0xfce01c; 0x7c4018; 0x0; 0x0;
   0x0; 0x0; 0x202000; 0x0; 0x0; 0x0; 0xc00c0; 0xc00e0;
   0xc07e0; 0xc0fe0; 0x15d4770; 0x1ffc730; 0x1ffc338; 0x18c1ff8; 0x1cc1ffc; 0x18c19bc;
   0x1cc19b8; 0x18c1bb8; 0x3ffdff8; 0x3fff9b8; 0x3ffd9b8; 0x1e19b8; 0x3e1ff8; 0x361ff8;
   0x771998; 0x631998; 0xe31998; 0xe39998; 0x1c1d99c; 0x380fe0c; 0x1005e04; 0x0;
   0x0; 0x0; 0x0; 0x202000; 0x0; 0x0; 0x0; 0x1800060;
   0x3f80060; 0x1ffc7f0; 0xcfcff0; 0xccc630; 0xccc618; 0xccc31c; 0xcccffe; 0xcccffc;
   0xcccd98; 0xcccd98; 0xcccd98; 0x1cccff8; 0x8ccfb8; 0x1cccd98; 0x18ccd98; 0x18ccdd8;
   0x19ecff8; 0x1b6cdd8; 0x1b6ed98; 0x3b66d98; 0x3236d88; 0x37f7d8c; 0x36f3f8e; 0x1402604;
   0x0; 0x0; 0x0; 0x0; 0x202000; 0x0; 0x0; 0x0;
   0x1c380; 0x818380; 0x1f1d7b8; 0xffbfb8; 0x1fd7b8; 0x30183b8; 0x301ffb8; 0x3ffbffe;
   0x1ff17fe; 0x2af00; 0xfff80; 0x701c0; 0xfffff0; 0xfffff8; 0xe0e0fc; 0xe0e0c8;
   0xffffc0; 0xe0e0c0; 0xe0e0e0; 0xffffe0; 0xffffe0; 0xe0e070; 0xe0e078; 0xfee03c;
   0x7ee018; 0x0; 0x0; 0x0; 0x0; 0x202000; 0x0; 0x0;
   0x0; 0x30060; 0x38060; 0x3ff87f0; 0x3ff8ff0; 0x155c778; 0xe318; 0x55731c;
   0x1ffdffe; 0xffdffc; 0x38199c; 0x1e1998; 0x79998; 0x3ffdff8; 0x3ffdbb8; 0x1b71998;
   0x3b31998; 0x1999dd8; 0x1999ff8; 0x19dddd8; 0x18cf998; 0x186599c; 0x1871988; 0x1c3998c;
   0xf9df8e; 0x788c04; 0x0; 0x0; 0x0; 0x0; 0x202000; 0x0;
   0x0; 0x0; 0x1c0060; 0x180060; 0x1c07f0; 0x1807f0; 0x1ffc770; 0x1ffc338;
   0x1c0318; 0x180ffc; 0x1c1ffc; 0x2baa99c; 0x3fffd98; 0x2aaabb8; 0x1c1ff8; 0x180998;
   0x1c1d98; 0xba8998; 0x1ffdff8; 0x1ffcff8; 0x1c1d98; 0x180998; 0x1c1d9c; 0x18098c;
   0x7fffd8c; 0x3ffef8e; 0x1554f04; 0x0; 0x0; 0x0; 0x0; 0x202000;
   0x0; 0x0; 0x0; 0xe0; 0x2aa8060; 0x3ffc7e0; 0x3ae8ff0; 0x38e0f70;
   0x3860638; 0x1870718; 0x1831ffc; 0x1f3dffe; 0xf1d99c; 0x3b5998; 0x3b1998; 0x17f1ff8;
   0x3ff9bb8; 0x3ffd998; 0x38d998; 0x38ddd8; 0x381ff8; 0x7ffdff8; 0x3ffd998; 0x381998;
   0x381998; 0x381d9c; 0x381e8c; 0x381c04; 0x0; 0x0; 0x0; 0x0;
   0x202000; 0x0; 0x0; 0x0; 0x1c0060; 0x80060; 0x31ce7f0; 0x388cff0;
   0x19dc630; 0x1898618; 0xdd831c; 0xcb8ffe; 0x7d1ffc; 0x80998; 0x3fffd98; 0x3ffe998;
   0x771ff8; 0x330bb8; 0x771d98; 0x330998; 0x731dd8; 0x330ff8; 0x739dd8; 0x338998;
   0x771dd98; 0x231c988; 0x770fd9c; 0x3f07f8c; 0x1c06e04; 0x0; 0x0; 0x0;
   0x0; 0x202000; 0x0; 0x0; 0x0; 0x1c00e0; 0x1800e0; 0x1c07e0;
   0x180ff0; 0x1c0f70; 0x1ffc638; 0x1ffc718; 0x188dffc; 0x19cdffe; 0x188d99c; 0x19cd998;
   0x188d998; 0x19cdff8; 0x1aadbb8; 0x1ffd998; 0xba9998; 0x1c1ff8; 0xd81ff8; 0x1dc1998;
   0x1981998; 0x1dc199c; 0x3ff9988; 0x37ffd8c; 0x300ff8e; 0x3000c04; 0x0; 0x0;
   0x0; 0x0; 0x202000; 0x0; 0x0; 0x0; 0x1c00e0; 0xc0060].
Definition hanzi_data_408 : list N :=
  [0x1c07f0; 0x3ffeff0; 0x7ffe770; 0xc0638; 0x1c0718; 0xae9ffc; 0x1ffdffe; 0x1aed99c;
   0x19cd998; 0x18cd998; 0x19cdff8; 0x1aedbb8; 0x1ffd998; 0xbe9998; 0x3e1ff8; 0x6f1ff8;
   0x7f1998; 0xcd9998; 0x1ddd998; 0x38cf988; 0x71c7d8c; 0x20c2f8c; 0x1c0604; 0x0;
   0x0; 0x0; 0x0; 0x202000; 0x0; 0x0; 0x0; 0x180060;
   0x180060; 0x15d43f0; 0x3ffe7f0; 0x3ffe770; 0xc0318; 0x7e0318; 0xf70ffc; 0x1c7cffe;
   0x381ec9c; 0x1554d98; 0x3ffec98; 0x7fffff8; 0x1800eb8; 0x1dfcd98; 0x19fcc98; 0x1d8cff8;
   0x198cff8; 0x1d8cd98; 0x19fcc98; 0x1dfcd9c; 0x180cc8c; 0x1c04d8c; 0x1f80e8e; 0xf00604;
   0x0; 0x0; 0x0; 0x0; 0x202000; 0x0; 0x0; 0x0;
   0xc10060; 0xc18060; 0xc307f0; 0x6707f0; 0x1774770; 0x3ffe338; 0x35d631c; 0x30c6ffc;
   0x31c7ffe; 0x3ffe89c; 0x3fffd98; 0x30c6898; 0x31c7ff8; 0x30c6ab8; 0x3fffd98; 0x3ffe898;
   0x1c1ff8; 0xc0ff8; 0x7fffd98; 0x3ffe898; 0x1c1d9c; 0xc088c; 0x1c1d8c; 0xc0e8e;
   0x1c0604; 0x0; 0x0; 0x0; 0x0; 0x202000; 0x0; 0x0;
   0x0; 0x130000; 0x7b0000; 0x3fffff0; 0x3fffff0; 0x470030; 0xe67fb0; 0x765530;
   0x3e7fb0; 0x11c75b0; 0x21f61b8; 0x33fff98; 0x3f0871c; 0x1e7ff8c; 0x701c0; 0xfffff0;
   0xfffff8; 0xc060d8; 0xffffc0; 0xffffc0; 0xc060e0; 0xffffe0; 0xeaeae0; 0xc06078;
   0xfc6038; 0x7c6010; 0x0; 0x0; 0x0; 0x0; 0x202000; 0x0;
   0x0; 0x0; 0x300; 0xfe0300; 0xfe7ffc; 0xc60300; 0xc63ff8; 0xc63ff8;
   0xc70000; 0xc67ffc; 0x5c7755c; 0x3c3effc; 0x7c1dff4; 0x8060; 0x3ff9ff0; 0x1ff8e30;
   0x1c73ff8; 0xc63ffc; 0xc6333c; 0xee3ff8; 0x7c3ff8; 0x383338; 0x7c3ff8; 0xee3318;
   0x3e7b31c; 0x383ff0c; 0x301dc0c; 0x0; 0x0; 0x0; 0x0; 0x202000;
   0x0; 0x0; 0x0; 0xc0060; 0x30c6060; 0x30c67f0; 0x3ffe7f0; 0x3ffe738;
   0xcc318; 0x15dc31c; 0x3ffeffc; 0x187ffc; 0x1fffc98; 0x15d7dd8; 0x1ffec98; 0x1ffeff8;
   0x186eb8; 0x3ffedd8; 0x6c98; 0x3fffdd8; 0x3aaaff8; 0x3777dd8; 0x3ffac98; 0x3fffddc;
   0x3232c88; 0x37f7dcc; 0x3c32e8e; 0x3c07604; 0x0; 0x0; 0x0; 0x0;
   0x202000; 0x0; 0x0; 0x0; 0x3000; 0x7000; 0xe000; 0xe000;
   0x3fffffc; 0x3fffffc; 0x0; 0x0; 0x3fffc0; 0x3fffc0; 0x0; 0x0;
   0x3fffc0; 0x3fffc0; 0x0; 0x0; 0x7fffe0; 0x3fffe0; 0x7000e0; 0x3000e0;
   0x7000e0; 0x3000e0; 0x7fffe0; 0x3fffe0; 0x7000e0; 0x0; 0x0; 0x0;
   0x0; 0x202000; 0x0; 0x0; 0x0; 0x60060; 0x60060; 0xe0060;
   0xc0060; 0x3fff060; 0x3fff2e8; 0x7fc; 0xaaa7fc; 0xffe670; 0x660; 0x554670;
   0xffe660; 0x554670; 0x630; 0xffe670; 0xffe630; 0xc0e630; 0xc0e630; 0xffe638;
   0xffe638; 0x1c0e618; 0x3000618; 0x3fffe1c; 0x3fffc0e; 0x555004; 0x0; 0x0;
   0x0; 0x0; 0x202000; 0x0; 0x0; 0x0; 0x180; 0x380;
   0x1c0; 0x1ffffc0; 0x1ffffe0; 0x18010e0; 0x1803870; 0x1803038; 0x19ffffc; 0x19fffee;
   0x1800004; 0x187ffc0; 0x1c7ffc0; 0x1800000; 0x1c7ffc0; 0x182aa80; 0x1c00000; 0x1c7ffc0;
   0x1c7ffc0; 0xc600c0; 0x1c600c0; 0xc7ffc0; 0xe7ffc0; 0xfc00c0; 0x7c0000; 0x0;
   0x0; 0x0; 0x0; 0x202000; 0x0; 0x0; 0x0; 0x20;
   0x1fffc30; 0x1fffc70; 0x1aaa8e0; 0x18031c0; 0x1807080; 0x180e01c; 0x1bfffd8; 0x1bfffd8;
   0x1800018; 0x18fff1c; 0x18fff18; 0x180001c; 0x18fff18; 0x18fff1c; 0x1800018; 0x18fff1c;
   0x18fff18; 0x18c031c; 0x18c0318; 0x18fff1c; 0x18fff18; 0x1dc031c; 0x1f80018; 0xf8001c;
   0x0; 0x0; 0x0; 0x0; 0x202000; 0x0; 0x0; 0x0;
   0x1c300; 0x18300; 0x1f1c338; 0xffbf38; 0x1fff38; 0x18338; 0x301c338; 0x301bfb8;
   0x3ffbffc; 0xaa70bc; 0x6000; 0x3fffffc; 0x3fffffc; 0x0; 0x7fffc0; 0x2aaa80;
   0x7fffc0; 0x3fffc0; 0x0; 0x7fffe0; 0x7fffe0; 0x600060; 0x7fffe0; 0x7fffe0;
   0x700060; 0x0; 0x0; 0x0; 0x0; 0x202000; 0x0; 0x0;
   0x0; 0x0; 0xfffff0; 0xfffff0; 0xc30c30; 0xc30c30; 0xfffff0; 0xfffff0;
   0x7000; 0xe000; 0x3fffffc; 0x3fffffc; 0x0; 0x7fffc0; 0x3fffc0; 0x0;
   0x3fffc0; 0x7fffc0; 0x0; 0x7fffe0; 0x3fffe0; 0x7000e0; 0x3000e0; 0x7fffe0;
   0x3fffe0; 0x7000e0; 0x0; 0x0; 0x0; 0x0; 0x202000; 0x0;
   0x0; 0x0; 0x61c00; 0xf0c00; 0x7c0c00; 0x3fffffc; 0x3fffffc; 0x60c600;
   0x7dc700; 0x3fc380; 0x107f1e0; 0x300fef8; 0x3ffc43c; 0xffe008; 0x1557554; 0x3fffffc;
   0x0; 0x3fffc0; 0x3fffc0; 0x3fffc0; 0x3fffc0; 0x0; 0x7fffe0; 0x3000e0;
   0x7555e0; 0x3fffe0; 0x7000e0; 0x0; 0x0; 0x0; 0x0; 0x202000;
   0x0; 0x0; 0x0; 0x700; 0xab00; 0x7ff80; 0x381c0; 0x155d5e0;
   0x3fffff0; 0x3fffff8; 0x1c707c; 0x7c3c6c; 0x1e1cfe0; 0xc18760; 0x2abaae0; 0x3ffffe0;
   0x60; 0xfffe60; 0xaaaa60; 0x7ffe70; 0xfffe60; 0x70; 0xfffe30; 0xf55630;
   0xe00638; 0xfffe1c; 0xfffe0c; 0xe0060c; 0x0; 0x0; 0x0; 0x0;
   0x202000; 0x0; 0x0; 0x0; 0x303040; 0x7030e0; 0x3871c0; 0x3861c0;
   0x15d75d4; 0x3fffffc; 0x3fffffc; 0x1c2380; 0x3c71c0; 0x7060e0; 0x1fffff0; 0x3fffffc;
   0x300001c; 0x3fffc0; 0x3fffc0; 0x0; 0x3fffc0; 0x3fffc0; 0x0; 0x3fffc0;
   0x7555c0; 0x3000c0; 0x7fffc0; 0x3fffc0; 0x7000c0; 0x0; 0x0; 0x0;
   0x0; 0x202000; 0x0; 0x0; 0x0; 0x10e180; 0x386180; 0x187180;
   0xc3300; 0xfffff0; 0xaabaa0; 0x1c00; 0x3fffffc; 0x3fffffc; 0xe0380; 0x7c71e0;
   0x1f060f8; 0x7fffffe; 0x22aaaac; 0x3fffc0; 0x3fffc0; 0x0; 0x3fffc0; 0x3fffc0].
Definition hanzi_data_409 : list N :=
  [0x0; 0x7fffe0; 0x300060; 0x755560; 0x3fffe0; 0x700060; 0x0; 0x0;
   0x0; 0x0; 0x202000; 0x0; 0x0; 0x0; 0xc00180; 0x1fe0180;
   0x7fdffc; 0xdffc; 0xc180; 0x3ffdf80; 0x3ffdffc; 0x30e1fc; 0x707180; 0x3079f0;
   0x7031f0; 0x207000; 0x3fffffc; 0x3fffffc; 0x0; 0x3fffc0; 0x0; 0x3fffc0;
   0x7fffc0; 0x2aaaa0; 0x7fffe0; 0x7000e0; 0x7555e0; 0x7fffe0; 0x7000e0; 0x0;
   0x0; 0x0; 0x0; 0x202000; 0x0; 0x0; 0x0; 0x7000;
   0xe000; 0x3fffffc; 0x3aaaaac; 0x386061c; 0x3ffffec; 0x575740; 0x7fffe0; 0x7fffe0;
   0x2aeaea8; 0x3fffffc; 0xc2300; 0x3c61c0; 0xffffe0; 0x7fffffc; 0x380001c; 0x3fffc0;
   0x0; 0x3fffc0; 0x0; 0x7fffc0; 0x3000c0; 0x7555c0; 0x3fffc0; 0x7000c0;
   0x0; 0x0; 0x0; 0x0; 0x202000; 0x0; 0x0; 0x0;
   0x550180; 0x7f2ba8; 0x777ffc; 0x638180; 0x3e1fff8; 0x2aac000; 0x1fffff8; 0xe3bbb8;
   0x773118; 0x3e3ff8; 0x1ffdff8; 0x3e3f81c; 0x100700c; 0x3fffffc; 0x3fffffc; 0x2aaa80;
   0x3fffc0; 0x0; 0x3fffc0; 0x0; 0x7fffc0; 0x3000c0; 0x7000c0; 0x3fffc0;
   0x7000c0; 0x0; 0x0; 0x0; 0x0; 0x202000; 0x0; 0x0;
   0x0; 0x60c60; 0x67ffc; 0x3ff7ffc; 0x3ff0c60; 0xc7bff0; 0xe7fff8; 0x7ef3fc;
   0x3c3bfe; 0x7c1b14; 0xff9bf0; 0x7c79ff0; 0x300ee00; 0x3fffffc; 0x3fffffc; 0x0;
   0x3fffc0; 0x555540; 0x3fffc0; 0x7fffc0; 0x0; 0x7fffe0; 0x6000e0; 0x7555e0;
   0x7fffe0; 0x7000e0; 0x0; 0x0; 0x0; 0x0; 0x202000; 0x0;
   0x0; 0x0; 0x1c0000; 0x181ff8; 0x3ffdff8; 0xeb9818; 0xe31ff8; 0x3fffff8;
   0x3fff558; 0x181ff8; 0x3ffd87c; 0x3ffd83c; 0x1c1ffc; 0x187ff0; 0x6000; 0x3fffffc;
   0x1555554; 0x3fffc0; 0x3fffc0; 0x2aaa80; 0x3fffc0; 0x0; 0x7fffe0; 0x3000e0;
   0x7555e0; 0x3fffe0; 0x7000e0; 0x0; 0x0; 0x0; 0x0; 0x202000;
   0x0; 0x0; 0x0; 0x0; 0x30; 0x70; 0xe0; 0x1c0;
   0x380; 0x100; 0x0; 0x3fe; 0x3fe; 0x3fe; 0x380; 0x380;
   0x380; 0x380; 0x380; 0x380; 0x380; 0x3380; 0x3f80; 0x1f80;
   0x780; 0x3c0; 0x80; 0x0; 0x0; 0x0; 0x0; 0x0;
   0x202000; 0x0; 0x0; 0x0; 0xe0020; 0xe0060; 0xe00f0; 0xe01c0;
   0xe03c0; 0xe0100; 0xe0100; 0xe0000; 0xe00fc; 0x3fffcfc; 0x7fffcfc; 0xe00c0;
   0xe00c0; 0xe00c0; 0xe00c0; 0xe00c0; 0xe00c0; 0xe00c0; 0xe0cc0; 0xe0ec0;
   0xe07c0; 0xe03e0; 0xe01f0; 0xe0060; 0xe0000; 0x0; 0x0; 0x0;
   0x0; 0x202000; 0x0; 0x0; 0x0; 0x0; 0x30; 0x7fff870;
   0x3fff8e0; 0x7fff9c0; 0x380180; 0x380080; 0x380000; 0x3801fc; 0x3800fc; 0x3801fc;
   0x3800c0; 0x3801c0; 0x3800c0; 0x3801c0; 0x3800c0; 0x3801c0; 0x3800c0; 0x381dc0;
   0x381ec0; 0x3807c0; 0x3803c0; 0x3fc1e0; 0x1f8060; 0xf8000; 0x0; 0x0;
   0x0; 0x0; 0x202000; 0x0; 0x0; 0x0; 0x30010; 0x30030;
   0x30070; 0x300e0; 0x303c0; 0x30380; 0x30100; 0x30000; 0xf01fc; 0x1f01fe;
   0x7f01fe; 0xf30180; 0x1e30180; 0x3c30180; 0x3830180; 0x30180; 0x30180; 0x31180;
   0x31d80; 0x31f80; 0x30f80; 0x30380; 0x301c0; 0x300c0; 0x30000; 0x0;
   0x0; 0x0; 0x0; 0x202000; 0x0; 0x0; 0x0; 0x60000;
   0x60060; 0x600f0; 0x601c0; 0x60380; 0x60100; 0x60000; 0x60000; 0x601fc;
   0x600fc; 0xe01fc; 0xe00c0; 0xf01c0; 0xf00c0; 0x1f01c0; 0x1b00c0; 0x1b81c0;
   0x3b88c0; 0x71cdc0; 0x71cfc0; 0xe0e7c0; 0xe0e1e0; 0x3c078e0; 0x3803800; 0x1001000;
   0x0; 0x0; 0x0; 0x0; 0x202000; 0x0; 0x0; 0x0;
   0x20; 0x2aa070; 0x7fe0f0; 0x3fe1c0; 0x7063c0; 0x306180; 0x706100; 0x306000;
   0x7060fc; 0x3060fc; 0x7060fc; 0x3060c0; 0x7060c0; 0x3060c0; 0x7060c0; 0x3060c0;
   0x7070c0; 0x3070c0; 0x77076c0; 0x2303fc0; 0x7703fc0; 0x23039e0; 0x7f01cf0; 0x3f00e20;
   0x1c00c00; 0x0; 0x0; 0x0; 0x0; 0x202000; 0x0; 0x0;
   0x0; 0x0; 0x2aaa830; 0x3fff870; 0x3fff8e0; 0xe01c0; 0xe0180; 0xe0000;
   0xe0000; 0xe00fc; 0xe00fc; 0x15f54fc; 0x3fffcc0; 0x3fffcc0; 0xe00c0; 0xe00c0;
   0xe00c0; 0xe00c0; 0xe00c0; 0xe04c0; 0xe0ec0; 0xe07c0; 0xe01e0; 0xe00f0;
   0xe0020; 0xe0000; 0x0; 0x0; 0x0; 0x0; 0x202000; 0x0;
   0x0; 0x0; 0x0; 0x30; 0x3fff070; 0x3fff8e0; 0x3fff9c0; 0xe0180;
   0xe0000; 0xe0000; 0xe0000; 0xe00fc; 0xe00fc; 0xe00c0; 0xe00c0; 0xe00c0;
   0xe00c0; 0xe00c0; 0xe00c0; 0xe08c0; 0xe0ec0; 0xe0fc0; 0xe07c0; 0x3fff9e0;
   0x7fff8f0; 0x20; 0x0; 0x0; 0x0; 0x0; 0x0; 0x202000;
   0x0; 0x0; 0x0; 0x700000; 0x600030; 0x700070; 0x6000e0; 0x7001c0;
   0x600180; 0x7fffd00; 0x3fff800; 0x7000fc; 0x6000fe; 0x7000fe; 0x6060c0; 0x70e0c0;
   0x60c0c0; 0x71c0c0; 0x6380c0; 0x7380c0; 0x6300c0; 0x7004c0; 0x600fc0; 0x7007c0;
   0x6001e0; 0x7f80e0; 0x3f0060; 0x50000; 0x0; 0x0; 0x0; 0x0;
   0x202000; 0x0; 0x0; 0x0; 0x70020; 0x30030; 0x700f0; 0x301e0;
   0x703c0; 0x30180; 0x70000; 0x30000; 0x700fc; 0xff00fc; 0x1ff00fc; 0x300c0;
   0x700c0; 0x300c0; 0x700c0; 0x300c0; 0x700c0; 0x300c0; 0x70cc0; 0x30fc0;
   0x707c0; 0x301e0; 0x7fffcf0; 0x3fffc20; 0x0; 0x0; 0x0; 0x0;
   0x0; 0x202000; 0x0; 0x0; 0x0; 0xe0020; 0xe0060; 0xe00f0].
Definition hanzi_data_410 : list N :=
  [0xe01c0; 0xe03c0; 0xe0100; 0x38e3000; 0x38e3000; 0x38e30fc; 0x38e30fc; 0x38e30fc;
   0x38e30c0; 0x38e30c0; 0x38e30c0; 0x38e30c0; 0x38e30c0; 0x38e30c0; 0x38e30c0; 0x38e34c0;
   0x38e36c0; 0x38e37c0; 0x3fff3e0; 0x3fff1f0; 0x3800060; 0x3800000; 0x0; 0x0;
   0x0; 0x0; 0x202000; 0x0; 0x0; 0x0; 0x1c000; 0xc030;
   0xc070; 0xe0e0; 0x3fff1c0; 0x3fff080; 0x3800; 0x3800; 0x1cfc; 0xcfe;
   0x1fff0fe; 0xffe0c0; 0x7800c0; 0x1c00c0; 0x1e00c0; 0x700c0; 0x380c0; 0x1c0c0;
   0x100e4c0; 0x7006fc0; 0x70077c0; 0x30031e0; 0x3fff0f0; 0x3ffe020; 0x1554000; 0x0;
   0x0; 0x0; 0x0; 0x202000; 0x0; 0x0; 0x0; 0x1000000;
   0x3803038; 0x38c3078; 0x38c30e0; 0x38c31c0; 0x38c3180; 0x38c3000; 0x38c3000; 0x38c30fc;
   0x38c30fe; 0x38c30fe; 0x38c30e0; 0x38c30e0; 0x38c30e0; 0x38c30e0; 0x38c30e0; 0x38c30e0;
   0x38c38e0; 0x38c3fe0; 0x38c3fe0; 0x38c1fe0; 0x3881ce0; 0x3801c70; 0x3800e20; 0x1800400;
   0x0; 0x0; 0x0; 0x0; 0x202000; 0x0; 0x0; 0x0;
   0x10000; 0x38030; 0x1c39c70; 0x1c318e0; 0x1c719c0; 0xce18c0; 0xce1800; 0xe03800;
   0xe030fc; 0xe030fc; 0x7070fc; 0x7060e0; 0x70e0e0; 0x38e0e0; 0x19c0e0; 0x1d80e0;
   0x1f80e0; 0xf00e0; 0xf04e0; 0x1f8fe0; 0x3dc7e0; 0xf8f1e0; 0x1f07cf0; 0x3c01e20;
   0x3000c00; 0x0; 0x0; 0x0; 0x0; 0x202000; 0x0; 0x0;
   0x0; 0x0; 0x2aa830; 0x7ffc70; 0x7ffce0; 0x60c1c0; 0x60c080; 0x60c000;
   0x60c000; 0x60c0fc; 0x60c0fc; 0x60c0fc; 0x6ffce0; 0x6ffce0; 0x60c0e0; 0x60c0e0;
   0x60c0e0; 0x60c0e0; 0xe0c2e0; 0xe0c7e0; 0x2e0c3e0; 0x6c0c1e0; 0x2c0c0e0; 0x7c0c070;
   0x380c020; 0x380c000; 0x0; 0x0; 0x0; 0x0; 0x202000; 0x0;
   0x0; 0x0; 0x0; 0x20; 0x1fff070; 0xfff0e0; 0x1c001c0; 0xc00180;
   0x1c00100; 0xc00000; 0x1c000fc; 0xc000fc; 0x1d550fc; 0xfff0c0; 0x1fff0c0; 0xc030c0;
   0x14070c0; 0x30c0; 0x70c0; 0x30c0; 0x30074c0; 0x3003ec0; 0x70077c0; 0x30033c0;
   0x3fff1e0; 0x1ffe060; 0xffc000; 0x0; 0x0; 0x0; 0x0; 0x202000;
   0x0; 0x0; 0x0; 0x0; 0x30; 0x1fff870; 0x1fff8e0; 0x1d751c0;
   0x1860080; 0x1870000; 0x1866000; 0x18770fc; 0x18630fc; 0x1c730fc; 0x18330c0; 0x1c718c0;
   0x1c318c0; 0x1c31cc0; 0xc388c0; 0x1c180c0; 0xc180c0; 0x1c1c6c0; 0xc0e7c0; 0xc0e3e0;
   0xe070e0; 0xf57870; 0x7e1c20; 0x7e1c00; 0x0; 0x0; 0x0; 0x0;
   0x202000; 0x0; 0x0; 0x0; 0x70c010; 0x70c038; 0x70c070; 0x70c0e0;
   0x70c1c0; 0x3fffc80; 0x3fffc00; 0x2fae800; 0x70c07c; 0x70c0fc; 0x70c0fc; 0x70c0e0;
   0x70c0e0; 0x2faeae0; 0x7fffee0; 0x3fffee0; 0x70e0e0; 0x70e0e0; 0x7066e0; 0x7067e0;
   0x7073e0; 0x7038e0; 0x703c70; 0x701c20; 0x700800; 0x0; 0x0; 0x0;
   0x0; 0x202000; 0x0; 0x0; 0x0; 0x70000; 0x60030; 0x70070;
   0x600e0; 0x3fffdc0; 0x3fffc80; 0x70000; 0x60000; 0x700fc; 0xfff8fc; 0x1fff8fc;
   0x600c0; 0x700c0; 0x2aea8c0; 0x3fffcc0; 0x3fffcc0; 0x30700c0; 0x30600c0; 0x30704c0;
   0x3860ec0; 0x3d707c0; 0x1e603e0; 0x1e701e0; 0x60040; 0x70000; 0x0; 0x0;
   0x0; 0x0; 0x202000; 0x0; 0x0; 0x0; 0x10; 0x38;
   0x3fff870; 0x3fff8e0; 0x39c0; 0xc03880; 0xc1f800; 0xe3b800; 0x6338fc; 0x7738fc;
   0x7e38fc; 0x3c38e0; 0x1c38e0; 0x3c38e0; 0x7c38e0; 0x6e38e0; 0xe738e0; 0xc3b8e0;
   0x1c3fce0; 0x81ffe0; 0xbfe0; 0x39e0; 0x7fff8f0; 0x3fff820; 0x0; 0x0;
   0x0; 0x0; 0x0; 0x202000; 0x0; 0x0; 0x0; 0x0;
   0x2aaa030; 0x3fff070; 0x3fff0e0; 0x31c0; 0x3180; 0x3000; 0xaab000; 0xfff0fc;
   0xfff0fe; 0xc030fe; 0xc030c0; 0xc030c0; 0xc030c0; 0xc030c0; 0xfff0c0; 0xfff0c0;
   0x30c0; 0x34c0; 0x36c0; 0x37c0; 0x33e0; 0x3fff0f0; 0x3fff060; 0x0;
   0x0; 0x0; 0x0; 0x0; 0x202000; 0x0; 0x0; 0x0;
   0x10; 0x3fff838; 0x3fff870; 0x2baa8e0; 0x3041c0; 0x306080; 0x307000; 0x3030a8;
   0x3070fc; 0x3030fc; 0x7fff0c0; 0x3fff8c0; 0x7fff8c0; 0x3c00c0; 0x3e00c0; 0x3700c0;
   0x3786c0; 0x338fc0; 0x31c7c0; 0x30e1e0; 0x3078f0; 0x303e20; 0x3d1f00; 0x3f0000;
   0x1f0000; 0x0; 0x0; 0x0; 0x0; 0x202000; 0x0; 0x0;
   0x0; 0x60000; 0x60030; 0x60070; 0x600e0; 0x601c0; 0x60080; 0x1fff800;
   0x1fff800; 0x18618fc; 0x18618fc; 0x18718fc; 0x18e18e0; 0x18f18e0; 0x19f18e0; 0x19b98e0;
   0x1bb98e0; 0x1f1d8e0; 0x1e0f8e0; 0x1e0ffe0; 0x1a05fe0; 0x1801be0; 0x18018e0; 0x1d01870;
   0x1f81820; 0x1f01800; 0x0; 0x0; 0x0; 0x0; 0x202000; 0x0;
   0x0; 0x0; 0xe000; 0xe030; 0x6070; 0x60e0; 0x3fff1c0; 0x3fff180;
   0x3fff000; 0xe3800; 0xe1cfc; 0xe1cfc; 0xe00fc; 0xe00c0; 0xe00c0; 0x3fffcc0;
   0x7fffcc0; 0xe00c0; 0xe00c0; 0xe00c0; 0xe04c0; 0xe0ec0; 0xe07c0; 0xe03e0;
   0xe01e0; 0xe0040; 0xe0000; 0x0; 0x0; 0x0; 0x0; 0x202000;
   0x0; 0x0; 0x0; 0x15c000; 0x19c030; 0x1dc070; 0x18e0e0; 0x1ce1c0;
   0x3186080; 0x39c7000; 0x1d83800; 0x1fc7cfc; 0xf83cfc; 0x7c7efc; 0x383ee0; 0x1c74e0;
   0x1f30e0; 0x1ff0e0; 0x1930e0; 0x1c70e0; 0x1830e0; 0x11c77e0; 0x31837e0; 0x71c73e0;
   0x31830e0; 0x3fc7070; 0x3f83020; 0x1f07000; 0x0; 0x0; 0x0; 0x0;
   0x202000; 0x0; 0x0; 0x0; 0xe0000; 0x60030; 0xf0070; 0xf80e0;
   0x1dc1c0; 0x39c180; 0x70e100; 0xe07000; 0x1c038fc; 0x3801efe; 0x3006efe; 0x2064c0;
   0x7060c0; 0x7860c0; 0x1f60c0; 0xfe0c0; 0x1e0c0; 0xe0c0; 0x66c0; 0x38067c0].
Definition hanzi_data_411 : list N :=
  [0x38067c0; 0x38061e0; 0x1ffe0f0; 0x1ffe060; 0x0; 0x0; 0x0; 0x0;
   0x0; 0x202000; 0x0; 0x0; 0x0; 0x100000; 0x300030; 0x307070;
   0x3860e0; 0x18e1c0; 0x198cc80; 0x19ddc00; 0x18f8c00; 0x18f1cfc; 0x18f0cfc; 0x1861cfc;
   0x18e0cc0; 0x19f1cc0; 0x19b8cc0; 0x1bb9cc0; 0x1b9ccc0; 0x1f1dcc0; 0x1e0ecc0; 0x1a07cc0;
   0x1800fc0; 0x1801fe0; 0x1fffde0; 0x1fffc70; 0x1800020; 0x1800000; 0x0; 0x0;
   0x0; 0x0; 0x202000; 0x0; 0x0; 0x0; 0x104000; 0x38c030;
   0x30c070; 0x30e0e0; 0x70e1c0; 0x606180; 0x607000; 0xe03000; 0x1c03800; 0x1c038fc;
   0x7871cfc; 0x3030cc0; 0x10308c0; 0x380c0; 0x180c0; 0x3980c0; 0x71c0c0; 0x60e0c0;
   0xe0e4c0; 0xc06fc0; 0x1fd77c0; 0x1fff9e0; 0x39ff8f0; 0x3803820; 0x1000000; 0x0;
   0x0; 0x0; 0x0; 0x202000; 0x0; 0x0; 0x0; 0x0;
   0xaaa830; 0xfff870; 0xfff8e0; 0xe019c0; 0xe81880; 0xf85800; 0xe8f800; 0xdcd87c;
   0xed987c; 0xcd987c; 0xef1860; 0xc71860; 0xc61860; 0xc71860; 0xcf1860; 0xcf9860;
   0xd99a60; 0xd9df60; 0xf8efe0; 0x6f06de0; 0x2c06ee0; 0x7c00670; 0x3800720; 0x1000200;
   0x0; 0x0; 0x0; 0x0; 0x202000; 0x0; 0x0; 0x0;
   0x0; 0x3fc030; 0x7fc070; 0x30c0e0; 0x70c1c0; 0x30e180; 0x70e000; 0x306000;
   0x3f070fc; 0x3e03cfc; 0x1cfc; 0xe0; 0x1fff8e0; 0xfff8e0; 0xc030e0; 0xe060e0;
   0x70e0e0; 0x38c0e0; 0x3dc6e0; 0x1f87e0; 0xf07e0; 0x3fc1e0; 0x1f9f8f0; 0x3e07c20;
   0x3801c00; 0x0; 0x0; 0x0; 0x0; 0x202000; 0x0; 0x0;
   0x0; 0x70000; 0x60030; 0x60070; 0xe00e0; 0x601c0; 0x3fff880; 0x3fffc00;
   0x1c000; 0x1c0fc; 0xc0fc; 0x55c0fc; 0xffc0c0; 0x1ffc0c0; 0xc0c0c0; 0xc0c0c0;
   0xc0c0c0; 0xc0e0c0; 0xc0e4c0; 0xc06ec0; 0xe067c0; 0xe073c0; 0xe038e0; 0x751c70;
   0x7e1e20; 0x3e0c00; 0x0; 0x0; 0x0; 0x0; 0x202000; 0x0;
   0x0; 0x0; 0x70000; 0x30030; 0x70070; 0x300e0; 0x5751c0; 0xfff980;
   0xfff800; 0xc30000; 0xc700fe; 0xc300fe; 0xc700fe; 0xc300c0; 0x3fffcc0; 0x3fffcc0;
   0x3fffcc0; 0xf80c0; 0xf80c0; 0x1d80c0; 0x1dc6c0; 0x38efc0; 0x70f7c0; 0xe079e0;
   0x3e03cf0; 0x3800e20; 0x1000400; 0x0; 0x0; 0x0; 0x0; 0x202000;
   0x0; 0x0; 0x0; 0x0; 0x30; 0x3fff870; 0x3fff8e0; 0xc01c0;
   0xc0080; 0xc0000; 0xc0000; 0xc00fc; 0xc30fc; 0xc70fc; 0x1fc30e0; 0x1fc70e0;
   0xc30e0; 0xc70e0; 0xc30e0; 0xc70e0; 0xc30e0; 0xc76e0; 0xc37e0; 0xc73e0;
   0xc31e0; 0x7fffc70; 0x3fffc20; 0x0; 0x0; 0x0; 0x0; 0x0;
   0x202000; 0x0; 0x0; 0x0; 0x60000; 0x60030; 0x60070; 0x600e0;
   0x601c0; 0x60180; 0x7fffe00; 0x3fffe00; 0x60000; 0x600fc; 0x600fc; 0x600c0;
   0x600c0; 0x1fff8c0; 0x1fff8c0; 0x1aab8c0; 0x1c038c0; 0x18038c0; 0x1c03ec0; 0x1803fc0;
   0x1c03fc0; 0x18039e0; 0x1fff8f0; 0x1fff820; 0x1c03800; 0x0; 0x0; 0x0;
   0x0; 0x202000; 0x0; 0x0; 0x0; 0x0; 0x30; 0x7fffc70;
   0x3fffce0; 0x1c001c0; 0xc00080; 0x1c00000; 0xcaa800; 0x1cff8fc; 0xceb8fc; 0x1ce38fc;
   0xce38c0; 0x1ce38c0; 0xce38c0; 0x1ce38c0; 0xce38c0; 0x1cff8c0; 0xcff8c0; 0x1c03cc0;
   0xc02ec0; 0x1c007c0; 0xc003e0; 0x1d400e0; 0xfe0020; 0x7c0000; 0x0; 0x0;
   0x0; 0x0; 0x202000; 0x0; 0x0; 0x0; 0x0; 0xaaa810;
   0x1fffc78; 0x1fffc70; 0x701e0; 0x18618c0; 0x1c71800; 0xc63800; 0xc7307c; 0xe630fc;
   0x6770fc; 0x6630e0; 0x700e0; 0x3fffee0; 0x7fffee0; 0x2aeaae0; 0x700e0; 0x600e0;
   0x702e0; 0x607e0; 0x703e0; 0x601e0; 0x70070; 0x60020; 0x70000; 0x0;
   0x0; 0x0; 0x0; 0x202000; 0x0; 0x0; 0x0; 0x0;
   0xffe020; 0xffe0f0; 0xc061e0; 0xc063c0; 0xc06380; 0xc06100; 0xc06000; 0xffe0fc;
   0xffe0fc; 0xc060fc; 0xc060c0; 0xc060c0; 0xc060c0; 0xc060c0; 0xffe0c0; 0xffe0c0;
   0xc060c0; 0xc064c0; 0xc06ec0; 0xc067c0; 0xc063e0; 0x7fffcf0; 0x3fffc60; 0x0;
   0x0; 0x0; 0x0; 0x0; 0x202000; 0x0; 0x0; 0x0;
   0x0; 0x30; 0x1fff070; 0x1fff0e0; 0x1c071c0; 0x1c03080; 0x1c07000; 0x1c03000;
   0x1c070fc; 0x1c030fc; 0x1c070fc; 0x1c030e0; 0x1fff0e0; 0x1fff0e0; 0xe0; 0xe0;
   0x4040e0; 0x70c0e0; 0xe0e6e0; 0xe0e7e0; 0x1c073e0; 0x18031e0; 0x3803870; 0x3801c20;
   0x1001800; 0x0; 0x0; 0x0; 0x0; 0x202000; 0x0; 0x0;
   0x0; 0x0; 0x30; 0x1fff870; 0x1fff8e0; 0x18019c0; 0x1801880; 0x1801800;
   0x1801800; 0x19f98fc; 0x19f98fc; 0x19998fc; 0x19898e0; 0x19998e0; 0x19898e0; 0x19998e0;
   0x19898e0; 0x19f98e0; 0x19f9ae0; 0x1819fe0; 0x1809be0; 0x18019e0; 0x18018f0; 0x1f81870;
   0x1f01820; 0xf01800; 0x0; 0x0; 0x0; 0x0; 0x202000; 0x0;
   0x0; 0x0; 0x4000; 0xe030; 0xe070; 0x60e0; 0x7fff1c0; 0x3fff080;
   0x7fff000; 0x3b800; 0x39cfc; 0x39cfc; 0x3ff8efc; 0x3ff8ce0; 0x15780e0; 0x380e0;
   0x380e0; 0x380e0; 0x3ff80e0; 0x3ff80e0; 0x15786e0; 0x38fe0; 0x383e0; 0x381e0;
   0x38070; 0x38020; 0x38000; 0x0; 0x0; 0x0; 0x0; 0x202000;
   0x0; 0x0; 0x0; 0x400000; 0xfc0030; 0x7ff070; 0x7f0e0; 0x71c0;
   0x3180; 0x7100; 0x3000; 0x3fff0fc; 0x3fff0fe; 0x3fff0fe; 0x1830c0; 0x1870c0;
   0x19b0c0; 0x1ff0c0; 0x1f30c0; 0x7c30c0; 0xf830c0; 0x3d83ec0; 0x1983fc0; 0x181bc0;
   0x181de0; 0x181cf0; 0x180e60; 0x180400; 0x0; 0x0; 0x0; 0x0;
   0x202000; 0x0; 0x0; 0x0; 0x60000; 0x60030; 0xf00f0; 0x1f81e0].
Definition hanzi_data_412 : list N :=
  [0x39c3c0; 0x71e180; 0x1f0f000; 0x3c07800; 0x78e3cfc; 0x2070cfc; 0x380fc; 0x21e0c0;
   0x70f0c0; 0x3820c0; 0x1c00c0; 0x8f00c0; 0x1c7c0c0; 0x1c1e0c0; 0xf064c0; 0x780fc0;
   0x3c07c0; 0xf81e0; 0x7f0f0; 0x1f820; 0x7000; 0x0; 0x0; 0x0;
   0x0; 0x202000; 0x0; 0x0; 0x0; 0xc00000; 0xf80030; 0x1ffc070;
   0xff8e0; 0xdf9c0; 0xc38c0; 0xc3800; 0xc3800; 0x1c38fc; 0xc38fc; 0x3fff8fc;
   0x3fff8e0; 0x1c38e0; 0x1838e0; 0x1c38e0; 0x1838e0; 0x1838e0; 0x383ee0; 0x383fe0;
   0x6333be0; 0x77639e0; 0x277b8f0; 0x3edf870; 0x3ecfc20; 0x1c41800; 0x0; 0x0;
   0x0; 0x0; 0x202000; 0x0; 0x0; 0x0; 0x70010; 0x30030;
   0xd78070; 0x1ff80e0; 0x1ffc1c0; 0xe0e180; 0x607100; 0x707800; 0x383cfc; 0x3c18fe;
   0x1fff8fc; 0x1fff0c0; 0x18000c0; 0x18000c0; 0x18000c0; 0x1ffe0c0; 0x1fff0c0; 0x1aaa0c0;
   0x18006c0; 0x1800fc0; 0x18007c0; 0x1fff1e0; 0x1fff0f0; 0x1aaa020; 0x1800000; 0x0;
   0x0; 0x0; 0x0; 0x202000; 0x0; 0x0; 0x0; 0x0;
   0x2aaa830; 0x3fffc78; 0x3aaa8e0; 0x38001c0; 0x3800180; 0x3bff880; 0x3bff800; 0x38000fc;
   0x38000fc; 0x39ff0fc; 0x38ff0c0; 0x39d70c0; 0x38c30c0; 0x39c30c0; 0x38c30c0; 0x39c30c0;
   0x38ff0c0; 0x39ff4c0; 0x38037c0; 0x38037c0; 0x38001e0; 0x1d000f0; 0x1f80020; 0x1f00000;
   0x0; 0x0; 0x0; 0x0; 0x202000; 0x0; 0x0; 0x0;
   0xe0000; 0xe0038; 0x10e1078; 0x18e38e0; 0x18e39c0; 0x18e3980; 0x18e3800; 0x18e3800;
   0x18e38fc; 0x1aeb8fe; 0x1fff8fe; 0xaea8e0; 0xe00e0; 0x38e18e0; 0x38e18e0; 0x38e18e0;
   0x38e18e0; 0x38e18e0; 0x38e1fe0; 0x38e1fe0; 0x38e1be0; 0x3fff8e0; 0x3fff870; 0x3800020;
   0x3800000; 0x0; 0x0; 0x0; 0x0; 0x202000; 0x0; 0x0;
   0x0; 0x10; 0x1fff830; 0x1fff870; 0x1aba8e0; 0x18181c0; 0x1818080; 0x1c1c000;
   0x181c000; 0x1c0e0fc; 0x1c0e0fc; 0x1fc78fc; 0xf83ce0; 0x18e0; 0xe0; 0x1fff8e0;
   0x1fff8e0; 0x1c038e0; 0x18038e0; 0x1c03ee0; 0x1803fe0; 0x1c03be0; 0x1aab9e0; 0x1fff870;
   0x1fff820; 0x1c03800; 0x0; 0x0; 0x0; 0x0; 0x202000; 0x0;
   0x0; 0x0; 0x60000; 0x60030; 0x60070; 0x600e0; 0x3fff9c0; 0x3fff880;
   0x3861800; 0x1861800; 0x186187c; 0x186187c; 0x57587c; 0x1fff860; 0x1fff860; 0xc0f860;
   0xe0d860; 0xe1d860; 0x719c60; 0x339a60; 0x3f1f60; 0x1e0fe0; 0x1f0de0; 0x7f8ef0;
   0x1f3e670; 0x3e0f720; 0x1006000; 0x0; 0x0; 0x0; 0x0; 0x202000;
   0x0; 0x0; 0x0; 0x0; 0xaaa838; 0x1fffc70; 0xeaf870; 0xe060e0;
   0x70e0c0; 0x3dc040; 0x1f8000; 0x1f00fc; 0x3fe0fc; 0x1f9fcfc; 0x3e23ee0; 0x3061ce0;
   0x600e0; 0x1fff8e0; 0xfff8e0; 0x600e0; 0x600e0; 0x3fffee0; 0x3ffffe0; 0x3ffffe0;
   0x601e0; 0x600f0; 0x60020; 0x60000; 0x0; 0x0; 0x0; 0x0;
   0x202000; 0x0; 0x0; 0x0; 0x70010; 0x38038; 0x38070; 0x180e0;
   0x31c1c0; 0x70e180; 0x607000; 0xe07000; 0x1c038fc; 0x3fff8fc; 0x3fffcfc; 0x7002ce0;
   0x10000e0; 0xe0; 0xfff0e0; 0xfff0e0; 0xc030e0; 0xc030e0; 0xc036e0; 0xc037e0;
   0xc033e0; 0xc031e0; 0xfff0f0; 0xfff030; 0xc03000; 0x0; 0x0; 0x0;
   0x0; 0x202000; 0x0; 0x0; 0x0; 0x0; 0x30; 0x3fffc70;
   0x3fffce0; 0x1dc0; 0x1c80; 0x1ffdc00; 0x1ffdc00; 0x1c1cfc; 0xc1cfc; 0x1c1cfc;
   0xae9ce0; 0x1ffdce0; 0xae9ce0; 0x1c1ce0; 0xc1ce0; 0x1c1ce0; 0x1fffce0; 0x1fffce0;
   0x1ee0; 0x1fe0; 0x2aabde0; 0x7fffcf0; 0x3fffc20; 0x0; 0x0; 0x0;
   0x0; 0x0; 0x202000; 0x0; 0x0; 0x0; 0x70000; 0x60030;
   0x70070; 0x1fff8e0; 0x1fffdc0; 0xaea880; 0x70000; 0x60000; 0x1fff8fc; 0x1fff8fe;
   0x700fe; 0x600c0; 0x3fffcc0; 0x3fffcc0; 0x15f54c0; 0xf80c0; 0x1fc0c0; 0x3ec0c0;
   0x77f6c0; 0xe677c0; 0x1c73fc0; 0x7861fe0; 0x3070cf0; 0x60020; 0x70000; 0x0;
   0x0; 0x0; 0x0; 0x202000; 0x0; 0x0; 0x0; 0x5c0000;
   0xf80030; 0x1dc0070; 0x39800e0; 0x31c01c0; 0x180080; 0x7fffc00; 0x3fffc00; 0x1c00fc;
   0x1800fc; 0x1800fc; 0x1aa8e0; 0x1bfce0; 0x3bf8e0; 0x38e0e0; 0x38e0e0; 0x38e0e0;
   0x38e0e0; 0x334e4e0; 0x637e6e0; 0x777f7e0; 0x360fde0; 0x3e01cf0; 0x3e00020; 0x1c00000;
   0x0; 0x0; 0x0; 0x0; 0x202000; 0x0; 0x0; 0x0;
   0x70000; 0x60030; 0x70070; 0xaea8e0; 0x1fffdc0; 0x1fff880; 0x70000; 0x60000;
   0x700fc; 0x2aeaafc; 0x3fffefc; 0x3fffee0; 0x700e0; 0x600e0; 0x700e0; 0x1fffce0;
   0x1fffce0; 0xaeaae0; 0x707e0; 0x603e0; 0x701e0; 0x600e0; 0x7fffe70; 0x3fffe20;
   0x0; 0x0; 0x0; 0x0; 0x0; 0x202000; 0x0; 0x0;
   0x0; 0x60000; 0x60030; 0x60070; 0xaea8e0; 0x1fff9c0; 0x1fff880; 0x60000;
   0x60000; 0x600fc; 0x3fffefc; 0x7fffefc; 0x6000e0; 0x7000e0; 0x6000e0; 0x7fffce0;
   0x3fffce0; 0x7060e0; 0x6070e0; 0x70e6e0; 0x60c7e0; 0x71c3e0; 0x6081e0; 0x7000f0;
   0x7e0020; 0x3e0000; 0x0; 0x0; 0x0; 0x0; 0x202000; 0x0;
   0x0; 0x0; 0xe0000; 0xe0030; 0xe0070; 0xe00e0; 0x3fffdc0; 0x3fff880;
   0xe0000; 0xe0000; 0xe00fc; 0xe00fc; 0x1fff8fc; 0x1fff8c0; 0xc0; 0xc0;
   0x15550c0; 0x1fff0c0; 0x1fff0c0; 0x18070c0; 0x1c074c0; 0x1807ec0; 0x1c077c0; 0x18071e0;
   0x1fff0f0; 0x1fff060; 0x1c07000; 0x0; 0x0; 0x0; 0x0; 0x202000;
   0x0; 0x0; 0x0; 0xc010; 0xc038; 0xc078; 0xe070; 0x3fffee0;
   0x3fffec0; 0x6040; 0x186000; 0x18707c; 0x18707c; 0x19b707c; 0x19b3060; 0x1993060;
   0x199b860; 0x1dd9c60; 0xcc9c60; 0xdccc60; 0x1c0e60; 0x3e0460; 0x360360; 0x7707e0].
Definition hanzi_data_413 : list N :=
  [0xe381e0; 0x1c1e0f0; 0x380f030; 0x1007000; 0x0; 0x0; 0x0; 0x0;
   0x202000; 0x0; 0x0; 0x0; 0x4c0010; 0xec0038; 0x1cc0078; 0x18c00e0;
   0x55d55e0; 0x3fff980; 0x7fffc80; 0xc1800; 0x1c1c7c; 0x30c187e; 0x39ffc7e; 0x39bf860;
   0x19b1c60; 0x19b9860; 0x1db1c60; 0xdb9c60; 0xfb9c60; 0x7b8c60; 0x719f60; 0x239afe0;
   0x67dffe0; 0x26caee0; 0x3ee0670; 0x3c70630; 0x1830400; 0x0; 0x0; 0x0;
   0x0; 0x202000; 0x0; 0x0; 0x0; 0xe0000; 0xe6070; 0xe60f0;
   0xe61c0; 0xe73c0; 0x1fff180; 0x1fff000; 0xe3800; 0xe1cfc; 0xe0cfc; 0xe08fc;
   0x2aea8c0; 0x3fffcc0; 0x2bfa8c0; 0x1f80c0; 0x3f80c0; 0x7fc0c0; 0x6ec0c0; 0xeee6c0;
   0xce77c0; 0x1ce7bc0; 0x38e3de0; 0x30e1cf0; 0xe0820; 0xe0000; 0x0; 0x0;
   0x0; 0x0; 0x202000; 0x0; 0x0; 0x0; 0x60000; 0x66030;
   0x67070; 0x630e0; 0x1fff1c0; 0x1fff880; 0x1fff800; 0x61800; 0x61cfc; 0x60cfc;
   0x608fc; 0x3fffcc0; 0x7fffcc0; 0x2bae8c0; 0x18c0c0; 0x18c0c0; 0x18c0c0; 0x18e4c0;
   0x1866c0; 0x61867c0; 0x61873c0; 0x61838e0; 0x7f81c60; 0x3f80e20; 0x1f00600; 0x0;
   0x0; 0x0; 0x0; 0x202000; 0x0; 0x0; 0x0; 0xc00000;
   0xfe0030; 0xfffc78; 0x7f8e0; 0x611e0; 0x60080; 0x60000; 0x60000; 0x7fffc7c;
   0x3fffcfc; 0x55754fc; 0x600e0; 0x600e0; 0x600e0; 0x15750e0; 0x1fff0e0; 0x1fff0e0;
   0x18030e0; 0x1c037e0; 0x18037e0; 0x1c033e0; 0x18030e0; 0x1fff070; 0x1fff020; 0x1c03000;
   0x0; 0x0; 0x0; 0x0; 0x202000; 0x0; 0x0; 0x0;
   0x1000010; 0x3e07e18; 0x1ff7f38; 0x3fea70; 0x3170e0; 0x3030e0; 0x301840; 0x331800;
   0x331c7c; 0x3f37e7c; 0x3f37e7c; 0x336260; 0x336060; 0x336660; 0x337660; 0x332e60;
   0x333c60; 0x333c60; 0x7ff3b60; 0x3ff3be0; 0x7de0; 0xecf0; 0x7ffcf78; 0x3ff0710;
   0x1500300; 0x0; 0x0; 0x0; 0x0; 0x202000; 0x0; 0x0;
   0x0; 0xc00000; 0x1fe8030; 0x1fff870; 0x3f8e0; 0x39c0; 0x3880; 0x3800;
   0x3fff800; 0x3fff8fc; 0x2aab8fc; 0x38fc; 0x38e0; 0x15578e0; 0x1fff8e0; 0x1fff8e0;
   0x180f8e0; 0x181d8e0; 0x180dae0; 0x181dbe0; 0x180dbe0; 0x181dde0; 0x1ffcce0; 0x1ffce70;
   0x180c720; 0x181c600; 0x0; 0x0; 0x0; 0x0; 0x202000; 0x0;
   0x0; 0x0; 0x60020; 0x60070; 0xf00f0; 0x1f81c0; 0x39c3c0; 0x30e180;
   0xf0f000; 0x1c07800; 0x7c03cfc; 0x37feefe; 0x27fe4fe; 0x2ea0c0; 0x600c0; 0x600c0;
   0x600c0; 0xfff0c0; 0xfff0c0; 0x600c0; 0x606c0; 0x607c0; 0x607c0; 0x601e0;
   0x3fffcf0; 0x3fffc20; 0x0; 0x0; 0x0; 0x0; 0x0; 0x202000;
   0x0; 0x0; 0x0; 0x1c000; 0xc030; 0x3fe070; 0x7fe0e0; 0x3571c0;
   0x383080; 0x183800; 0x3fff800; 0x3fffc7c; 0x3efc; 0x3efc; 0xffb8e0; 0x1ffb8e0;
   0x83b8e0; 0x1c3b8e0; 0x83b8e0; 0x1c3b8e0; 0xf3b8e0; 0xf39ee0; 0x1039fe0; 0x3039fe0;
   0x3039ce0; 0x3ff0c70; 0x3ff0e20; 0x1540400; 0x0; 0x0; 0x0; 0x0;
   0x202000; 0x0; 0x0; 0x0; 0xc000; 0xe030; 0xe070; 0x60e0;
   0x3fff1c0; 0x3fff880; 0x3003800; 0x3801c00; 0x3155efc; 0x38ffefc; 0x39d74fc; 0x38830e0;
   0x39c30e0; 0x38ff0e0; 0x39ff0e0; 0x38830e0; 0x19c30e0; 0x18830e0; 0x19ff7e0; 0x18ab7e0;
   0x1c033e0; 0x1c000e0; 0x1d60070; 0xfe0020; 0x7c0000; 0x0; 0x0; 0x0;
   0x0; 0x202000; 0x0; 0x0; 0x0; 0x3000; 0x803030; 0x1f03070;
   0xfe30e0; 0x1ff1c0; 0xf080; 0x3003000; 0x3003000; 0x3fff0fc; 0x1fff0fc; 0x5540fc;
   0xe0; 0x1fff0e0; 0x1fff0e0; 0x18030e0; 0x18030e0; 0x18030e0; 0x1fff0e0; 0x1fff6e0;
   0x18037e0; 0x18033e0; 0x1fff1e0; 0x1fff070; 0x1803020; 0x1803000; 0x0; 0x0;
   0x0; 0x0; 0x202000; 0x0; 0x0; 0x0; 0x1c010; 0xc030;
   0x3fe070; 0x3fe0e0; 0x3d71c0; 0x183880; 0x1c1c00; 0xfffe00; 0x1fffefc; 0xc304fc;
   0x1c700fc; 0xc300c0; 0x7fffcc0; 0x3fffcc0; 0x1c700c0; 0xc300c0; 0x1fff8c0; 0xfff8c0;
   0x1d754c0; 0x8307c0; 0x707c0; 0x301e0; 0x700f0; 0x3e020; 0x1e000; 0x0;
   0x0; 0x0; 0x0; 0x202000; 0x0; 0x0; 0x0; 0x70000;
   0x60038; 0xe0070; 0x2aea8e0; 0x3fffdc0; 0x3fffc80; 0x38000; 0x18000; 0xe1c0fc;
   0x70e0fc; 0x7ff0fc; 0x3ff8c0; 0x19d78c0; 0x38e00c0; 0x1c780c0; 0xe3c0c0; 0x71f0c0;
   0x387cc0; 0x1c1cc0; 0x3e06c0; 0x77c7c0; 0xe3e3c0; 0x1c0fde0; 0x3803e60; 0x1000c00;
   0x0; 0x0; 0x0; 0x0; 0x202000; 0x0; 0x0; 0x0;
   0x1c04000; 0xc0e030; 0xc0e070; 0xe1c0e0; 0x71c1c0; 0x3fff880; 0x3fff800; 0xe0000;
   0xe00fc; 0xe00fe; 0x15f50fe; 0x1fff0c0; 0x1fff0c0; 0xe00c0; 0xe00c0; 0xe00c0;
   0x3fffcc0; 0x3fff8c0; 0x3fffcc0; 0xe07c0; 0xe07c0; 0xe01e0; 0xe00f0; 0xe0020;
   0xe0000; 0x0; 0x0; 0x0; 0x0; 0x202000; 0x0; 0x0;
   0x0; 0x70010; 0x70030; 0x60070; 0xe00e0; 0x3fffdc0; 0x3fffc80; 0x3001c00;
   0x3200c00; 0x37c1cfc; 0x3fe0fc; 0x7f8fc; 0x330c0; 0x300c0; 0x38300c0; 0x3ff00c0;
   0xfff8c0; 0x7fcc0; 0x308c0; 0x304c0; 0x10307c0; 0x30307c0; 0x30301e0; 0x3ff00f0;
   0x1ff0020; 0x540000; 0x0; 0x0; 0x0; 0x0; 0x202000; 0x0;
   0x0; 0x0; 0x0; 0x2aaa830; 0x3fffc78; 0x3fffce0; 0x3810de0; 0x3830c80;
   0x3838c00; 0xaba800; 0x1fff87c; 0xc07c; 0xee07c; 0xe6060; 0xe7060; 0x1fff860;
   0x1fff860; 0xe0060; 0xe0060; 0xe0260; 0x7ffff60; 0x3ffffe0; 0xe01e0; 0xe00e0;
   0xe0070; 0xe0020; 0xe0000; 0x0; 0x0; 0x0; 0x0; 0x202000;
   0x0; 0x0; 0x0; 0x10; 0x3fdfe18; 0x3fdfe38; 0x3a9aa70; 0x38180e0].
Definition hanzi_data_414 : list N :=
  [0x38180c0; 0x39d8c00; 0x3998c00; 0x3999c7c; 0x3b1987c; 0x3b1987c; 0x3b19860; 0x381c070;
   0x3c1e060; 0x3f1f070; 0x3b9b860; 0x39d9e70; 0x38d8660; 0x3858270; 0x3818260; 0x38183f0;
   0x38181e0; 0x3f1f8f8; 0x3f1f830; 0x1f07010; 0x0; 0x0; 0x0; 0x0;
   0x202000; 0x0; 0x0; 0x0; 0x5c0000; 0xf80038; 0x1dc0070; 0x39800e0;
   0x11c01e0; 0x3fffec0; 0x7fffe00; 0x180000; 0x18007c; 0x399987c; 0x199987c; 0x1999860;
   0x1d99860; 0xdffe60; 0xdffe60; 0xf99860; 0x719860; 0x719860; 0x319d60; 0x2398fe0;
   0x67d8de0; 0x26e0ee0; 0x7e70670; 0x3c38630; 0x1c10000; 0x0; 0x0; 0x0;
   0x0; 0x202000; 0x0; 0x0; 0x0; 0x0; 0x30; 0x3fffc78;
   0x3fffcf0; 0x701e0; 0x600c0; 0xc77000; 0xc63000; 0xe730fc; 0xe630fc; 0x6730fc;
   0xe638e0; 0x1f778e0; 0x1f6f8e0; 0x3b7dce0; 0x33ecce0; 0x71fcee0; 0x21e86e0; 0x704e0;
   0x606e0; 0x707e0; 0x601e0; 0x7fffef0; 0x3fffe20; 0x0; 0x0; 0x0;
   0x0; 0x0; 0x202000; 0x0; 0x0; 0x0; 0x0; 0x3fffc30;
   0x3fffc78; 0x380e0; 0x181e0; 0x180c0; 0xfff800; 0xfff800; 0xe1c0fc; 0xe0c0fc;
   0x60c0fc; 0x3fffee0; 0x7fffee0; 0x2aaaae0; 0xe0; 0xfff8e0; 0x1fff8e0; 0xc038e0;
   0x1c03ce0; 0xc03ee0; 0x1c03fe0; 0xc039e0; 0x1fff8f0; 0xfff820; 0x1c03800; 0x0;
   0x0; 0x0; 0x0; 0x202000; 0x0; 0x0; 0x0; 0xe0000;
   0x38e3060; 0x38e30f0; 0x18e71c0; 0x1ce63c0; 0xeee100; 0x4e4000; 0xe0000; 0x1fff0fc;
   0x1fff0fc; 0x18030fc; 0x18030c0; 0x1fff0c0; 0x1fff0c0; 0x1d570c0; 0x18030c0; 0x18030c0;
   0x1fff0c0; 0x1fff6c0; 0x18037c0; 0x18037c0; 0x18031e0; 0x1d030e0; 0x1f83020; 0xf03000;
   0x0; 0x0; 0x0; 0x0; 0x202000; 0x0; 0x0; 0x0;
   0x0; 0x1fff030; 0x1fff078; 0x1c030e0; 0x1c031c0; 0x1c03080; 0x1c03000; 0x1fff000;
   0x1fff0fc; 0xfc; 0xfc; 0x1fff8e0; 0x1fff8e0; 0x600e0; 0x600e0; 0x600e0;
   0x7fffce0; 0x3fffce0; 0xf04e0; 0x1f86e0; 0x3dc7e0; 0x79e1e0; 0x1f0f8f0; 0x3c03c20;
   0x3001c00; 0x0; 0x0; 0x0; 0x0; 0x202000; 0x0; 0x0;
   0x0; 0xe0000; 0xe6030; 0xe7070; 0xe30e0; 0x1fff1c0; 0x1fff980; 0x15f5800;
   0xe1c00; 0xe1c00; 0xe08fc; 0x3fffcfc; 0x3fffcc0; 0x15554c0; 0xc0; 0x15550c0;
   0x1fff0c0; 0x1fff0c0; 0x18030c0; 0x1c036c0; 0x18037c0; 0x1c037c0; 0x18031e0; 0x1fff0f0;
   0x1fff020; 0x1c03000; 0x0; 0x0; 0x0; 0x0; 0x202000; 0x0;
   0x0; 0x0; 0x400000; 0xffa030; 0x7ff870; 0x638e0; 0x601c0; 0x3fffc80;
   0x3fffc00; 0x1f8000; 0x3fc0fc; 0x76e0fc; 0x1e670fc; 0x3863ce0; 0x3061ce0; 0x3ff8e0;
   0x3ff8e0; 0x38c0e0; 0x159c0e0; 0x1f8c0e0; 0x1fcc7e0; 0x180e3e0; 0x18061e0; 0x18070e0;
   0x1c03870; 0xf81c20; 0xf80c00; 0x0; 0x0; 0x0; 0x0; 0x202000;
   0x0; 0x0; 0x0; 0xe000; 0xe030; 0x6070; 0x3fff0e0; 0x3fff1c0;
   0x3880; 0x1c00; 0x1fffc00; 0x1fffcfc; 0x18260fe; 0x1c770fe; 0x18e30c0; 0x1dc70c0;
   0x3fffcc0; 0x7fffcc0; 0xc330c0; 0x1c730c0; 0xce30c0; 0xcc3ec0; 0x3ffffc0; 0x3fffbc0;
   0xc001e0; 0xe000f0; 0xfc0020; 0x7c0000; 0x0; 0x0; 0x0; 0x0;
   0x202000; 0x0; 0x0; 0x0; 0x400; 0xce18; 0x3fffc38; 0x3ff7870;
   0x3078e0; 0x3038c0; 0x307c40; 0x303e00; 0x30777c; 0x30627c; 0x30607c; 0x3fe6060;
   0x3ff7060; 0x307860; 0x307c60; 0x306e60; 0x306760; 0x306260; 0x306260; 0x3063e0;
   0x3063e0; 0x3060e0; 0x7fffe70; 0x3ffbc20; 0x1c00; 0x0; 0x0; 0x0;
   0x0; 0x202000; 0x0; 0x0; 0x0; 0x603000; 0x607030; 0x706070;
   0x30e0e0; 0x38c1c0; 0xbae980; 0xfff800; 0xeab800; 0xc018fc; 0xc018fc; 0xc018fc;
   0xc018c0; 0xfff8c0; 0xfff8c0; 0x1dc0c0; 0x18c0c0; 0x1cc0c0; 0x18c4c0; 0x1ce7c0;
   0x118e7c0; 0x71c73e0; 0x31838e0; 0x3fc3c70; 0x3f80e20; 0x1f00600; 0x0; 0x0;
   0x0; 0x0; 0x202000; 0x0; 0x0; 0x0; 0x0; 0xfff830;
   0x1fff870; 0xe000e0; 0x79c1c0; 0x1fe180; 0x1f0000; 0x3e0000; 0x1fff8fc; 0x1fff8fc;
   0x18618fc; 0x18618e0; 0x1fff8e0; 0x1fff8e0; 0x1fff8e0; 0x18618e0; 0x18618e0; 0x1fff8e0;
   0x1fffee0; 0x1861fe0; 0x1861be0; 0x18619e0; 0x1861870; 0x1e61820; 0x1e61800; 0x0;
   0x0; 0x0; 0x0; 0x202000; 0x0; 0x0; 0x0; 0x30000;
   0x38030; 0x19c070; 0x38e0e0; 0x7071c0; 0xfff880; 0x1fffc00; 0x380b800; 0x100707c;
   0x30fc; 0x1fff0fc; 0x1fff8e0; 0x71ce0; 0x60ee0; 0x70ce0; 0x3fffee0; 0x3fffee0;
   0x2afaae0; 0xf82e0; 0xf83e0; 0x3dc7e0; 0x78f1e0; 0x1f07c70; 0x3c01f20; 0x3000600;
   0x0; 0x0; 0x0; 0x0; 0x202000; 0x0; 0x0; 0x0;
   0x60000; 0x60030; 0x3fffc70; 0x3fff8e0; 0x601c0; 0xaea880; 0x1fff800; 0x60000;
   0x15754fc; 0x3fffcfc; 0x7fffcfc; 0xc0; 0x1fff0c0; 0xfff0c0; 0x1c030c0; 0xeab0c0;
   0x1fff0c0; 0xc030c0; 0x1c036c0; 0xfff7c0; 0x1fff7c0; 0xc031e0; 0x1c030f0; 0xf83020;
   0x783000; 0x0; 0x0; 0x0; 0x0; 0x202000; 0x0; 0x0;
   0x0; 0x38000; 0x3838038; 0x3838078; 0x1fff8e0; 0x1fffdc0; 0xe38080; 0x738000;
   0x3b8000; 0x7fffefc; 0x3fffefc; 0x700fc; 0x380e0; 0x155e0e0; 0x1fff8e0; 0x1fffce0;
   0x1807ee0; 0x1c066e0; 0x1ffe0e0; 0x1ffe6e0; 0x18067e0; 0x1c063e0; 0x18061e0; 0x1ffe070;
   0x1ffe020; 0x1c06000; 0x0; 0x0; 0x0; 0x0; 0x202000; 0x0;
   0x0; 0x0; 0x0; 0x2aa18; 0x7fe38; 0x3ffae70; 0x3fd8c60; 0x3198ce0;
   0x3198c40; 0x319fc00; 0x319fc7c; 0x3998c7c; 0x1998c7c; 0x1b98c60; 0x1b1dc60; 0x1b1fc60;
   0x1f1fc60; 0xf18c60; 0xf18c60; 0xe18c60; 0x67dd60; 0xe7ffe0; 0x1f1fff0; 0x1b980f0].
Definition hanzi_data_415 : list N :=
  [0x39d8070; 0x30f8030; 0x3058000; 0x0; 0x0; 0x0; 0x0; 0x202000;
   0x0; 0x0; 0x0; 0x70e000; 0x30e038; 0x70e078; 0x3fffce0; 0x3fffdc0;
   0x30e080; 0x70e000; 0x23a000; 0x3807c; 0x180fc; 0x7fffefc; 0x3fffee0; 0xc0e0;
   0xe0e0; 0x70e0; 0x1fff8e0; 0x1fffce0; 0x1807ee0; 0x1c07ee0; 0x18063e0; 0x1c077e0;
   0x18061e0; 0x1fff070; 0x1ffe020; 0x1c07000; 0x0; 0x0; 0x0; 0x0;
   0x202000; 0x0; 0x0; 0x0; 0x60000; 0x60030; 0x1575070; 0x1fff8e0;
   0x1fff9c0; 0x60080; 0x1575400; 0x3fffc00; 0x1fffcfc; 0x18a20fe; 0x1ce70fe; 0xcfc0e0;
   0xf98e0; 0xe38e0; 0xef0e0; 0xe40e0; 0x3fffce0; 0x3fffce0; 0x702e0; 0x3b87e0;
   0x71c3e0; 0xe0e1e0; 0x1c078f0; 0x3803e20; 0x3001c00; 0x0; 0x0; 0x0;
   0x0; 0x202000; 0x0; 0x0; 0x0; 0x0; 0x10; 0x3fffc78;
   0x3fffc70; 0x700e0; 0x380c0; 0x1c000; 0x303f000; 0x3c77c7c; 0x1e61e7c; 0xff167c;
   0x7fb060; 0x7df060; 0xec7060; 0xdc7c60; 0xdecc60; 0x1df4060; 0x19b8260; 0x19de360;
   0x3987be0; 0x71c3de0; 0x20c08e0; 0xf4070; 0xfc020; 0x7c000; 0x0; 0x0;
   0x0; 0x0; 0x202000; 0x0; 0x0; 0x0; 0x39c000; 0x398030;
   0x39c070; 0x3980e0; 0x179d5c0; 0x3f9fc80; 0x3f9fc80; 0x398000; 0x39c0fc; 0x3980fc;
   0x3f9fcfc; 0x3f9fce0; 0x39c0e0; 0x3980e0; 0x39c0e0; 0x3980e0; 0x7f9fce0; 0x3f9fce0;
   0x39c7e0; 0x3983e0; 0x39c1e0; 0x3980e0; 0x39c070; 0x398020; 0x39c000; 0x0;
   0x0; 0x0; 0x0; 0x202000; 0x0; 0x0; 0x0; 0x10;
   0x1fff838; 0x1fff870; 0x18618e0; 0x1c619e0; 0x18618c0; 0x1fff800; 0x1aeb800; 0x1c618fc;
   0x18618fc; 0x1fff8fc; 0x1fff8e0; 0x600e0; 0x600e0; 0x7fffee0; 0x3fffee0; 0x1f80e0;
   0x3f82e0; 0x76c7e0; 0xe663e0; 0x1c679e0; 0x3863ce0; 0x7061f70; 0x2060420; 0x60000;
   0x0; 0x0; 0x0; 0x0; 0x202000; 0x0; 0x0; 0x0;
   0x400000; 0xfe0010; 0x1fffc78; 0x6f8e0; 0x701e0; 0x2aea8c0; 0x3fffc80; 0x3fffc00;
   0x1fc07c; 0x76e0fc; 0x1e778fc; 0x3c63ee0; 0x3070ce0; 0x380e0; 0x3fffce0; 0x3fffee0;
   0x3fffce0; 0x3060e0; 0x3074e0; 0x39ffe0; 0x1fc7e0; 0x3f81e0; 0xfff0f0; 0x1e0fc20;
   0xc01c00; 0x0; 0x0; 0x0; 0x0; 0x202000; 0x0; 0x0;
   0x0; 0x70010; 0x60018; 0x74038; 0x1f6f070; 0x1f77ce0; 0x1860cc0; 0x1871c00;
   0x1860c00; 0x1f7fc7c; 0x1f6fc7c; 0x1871c7c; 0x1860c60; 0x1871c60; 0x1fffc60; 0x1fffc60;
   0x70060; 0xf0060; 0xf8060; 0x1dc260; 0x39c360; 0x70e3e0; 0xe070e0; 0x1c03c70;
   0x7801e30; 0x3000410; 0x0; 0x0; 0x0; 0x0; 0x202000; 0x0;
   0x0; 0x0; 0xc4000; 0xce030; 0x1ce070; 0x1860e0; 0x1871c0; 0x3fff080;
   0x3fff800; 0x183800; 0x1c3cfc; 0x183efc; 0x1fff6fc; 0x1fff0e0; 0x1c30e0; 0x1830e0;
   0x1c30e0; 0xbab0e0; 0x1fff0e0; 0xbab0e0; 0x1c36e0; 0x1837e0; 0x1c33e0; 0x3fff0e0;
   0x7fff070; 0x3020; 0x3000; 0x0; 0x0; 0x0; 0x0; 0x202000;
   0x0; 0x0; 0x0; 0x70000; 0x30038; 0x78070; 0xfc0e0; 0x1ce1c0;
   0x387080; 0x1f33c00; 0x3e31e00; 0x387077c; 0x202027c; 0xfffc7c; 0xfff860; 0x700060;
   0x380060; 0x198060; 0x1b8060; 0x476460; 0xe66f60; 0x1c66fe0; 0x1806de0; 0x3f06fe0;
   0x3206670; 0x3756770; 0x3fe020; 0x1fc000; 0x0; 0x0; 0x0; 0x0;
   0x202000; 0x0; 0x0; 0x0; 0x0; 0x3fff830; 0x3fffc70; 0x38018e0;
   0x3861dc0; 0x3861880; 0x3bfdc00; 0x3bfd800; 0x3861cfc; 0x38618fc; 0x3fffcfc; 0x3fff8e0;
   0x3801ce0; 0x38018e0; 0x3bfdce0; 0x3bfd8e0; 0x3b0dce0; 0x3b0cce0; 0x3b0cee0; 0x3bfcfe0;
   0x3bfcfe0; 0x380cee0; 0x3800770; 0x1f00720; 0x1f00200; 0x0; 0x0; 0x0;
   0x0; 0x202000; 0x0; 0x0; 0x0; 0x18010; 0x18038; 0x1c070;
   0xffc0e0; 0x1ffe1c0; 0xe06080; 0x607000; 0x703800; 0x701c7c; 0x380e7c; 0x11c47c;
   0xabe060; 0x1fc7c60; 0x1a81860; 0x1801c60; 0x1801860; 0x1fdfc60; 0x1f9fa60; 0x1801f60;
   0x1801be0; 0x1801de0; 0x1aab8e0; 0x1fffc70; 0x1aab820; 0x1801c00; 0x0; 0x0;
   0x0; 0x0; 0x202000; 0x0; 0x0; 0x0; 0x70010; 0x60038;
   0xe0070; 0x3fff8e0; 0x3fff9c0; 0x80; 0x0; 0x1fff000; 0x1fff07c; 0x1c030fc;
   0x1c070fc; 0x1c030e0; 0x1c070e0; 0x1fff0e0; 0x1fff0e0; 0xe00e0; 0x4e60e0; 0xee60e0;
   0x1ce77e0; 0x18e3fe0; 0x18e39e0; 0x38e1ce0; 0x30e0c70; 0xfc020; 0x7c000; 0x0;
   0x0; 0x0; 0x0; 0x202000; 0x0; 0x0; 0x0; 0x70000;
   0x60030; 0x3fffc70; 0x3fffce0; 0x15555c0; 0x80; 0x1fff000; 0xeab000; 0x1c030fc;
   0xc030fc; 0x1fff0fc; 0xfff0e0; 0xe0; 0xfff8e0; 0x1fff8e0; 0x7800e0; 0x1e00e0;
   0xe02e0; 0x7ffffe0; 0x3ffffe0; 0xe01e0; 0xe00e0; 0xe0070; 0xfc020; 0x7c000;
   0x0; 0x0; 0x0; 0x0; 0x202000; 0x0; 0x0; 0x0;
   0x30000; 0x30030; 0x70070; 0x3fffce0; 0x3fffdc0; 0x2aaa880; 0x70e000; 0x306000;
   0x3070fc; 0x3870fc; 0x78f0fc; 0xfdf8e0; 0x3cf9ce0; 0x18c0ce0; 0x700e0; 0x600e0;
   0x7fffee0; 0x3fffee0; 0x7fffee0; 0x603e0; 0x707e0; 0x601e0; 0x70070; 0x60020;
   0x70000; 0x0; 0x0; 0x0; 0x0; 0x202000; 0x0; 0x0;
   0x0; 0x60000; 0x60020; 0x1c77070; 0x1c630e0; 0xe739c0; 0x631880; 0x771c00;
   0x1f8800; 0x7dc0fc; 0xf1e0fc; 0x1e0f0fc; 0x3863cc0; 0x1071cc0; 0x8630c0; 0x1c730c0;
   0x1c730c0; 0xc738c0; 0xef18c0; 0x7f1cc0; 0x1f82c0; 0x3dc7c0; 0x78e1e0; 0x1f07cf0;
   0x3c03e60; 0x3000400; 0x0; 0x0; 0x0; 0x0; 0x202000; 0x0;
   0x0; 0x0; 0x30000; 0x70018; 0x70078; 0x3fffcf0; 0x3fffde0; 0x3800cc0].
Definition hanzi_data_416 : list N :=
  [0x3800c00; 0x3aaac00; 0x7ff0fc; 0x7ff0fc; 0x6070fc; 0x6030e0; 0x7ff0e0; 0x7ff0e0;
   0x6070e0; 0x6030e0; 0x6070e0; 0x7ff0e0; 0x7ff6e0; 0x6037e0; 0x6073e0; 0x6030e0;
   0x7fffe70; 0x3fffe20; 0x0; 0x0; 0x0; 0x0; 0x0; 0x202000;
   0x0; 0x0; 0x0; 0x607000; 0x606018; 0x607078; 0x3fffef0; 0x3ffffe0;
   0x6060c0; 0x607000; 0x7fe000; 0x7ff07c; 0x6060fc; 0x6070fc; 0x7fe0e0; 0x7ff0e0;
   0x600e0; 0x600e0; 0x3fffce0; 0x3fffce0; 0x1f80e0; 0x3fc7e0; 0x36e3e0; 0xf671e0;
   0x1e638e0; 0x7c61f70; 0x3060e20; 0x60000; 0x0; 0x0; 0x0; 0x0;
   0x202000; 0x0; 0x0; 0x0; 0x603800; 0x603818; 0x603838; 0x3fffe70;
   0x3fffee0; 0x6038c0; 0x757840; 0x7ff800; 0x75787c; 0x60387c; 0x7ff87c; 0x7ff860;
   0x603860; 0x603860; 0x7ffff60; 0x3ffff60; 0x191c60; 0x338c60; 0x719d60; 0xe0cfe0;
   0xc0ddf0; 0x400cf0; 0x3fffc78; 0x3fffc30; 0x0; 0x0; 0x0; 0x0;
   0x0; 0x202000; 0x0; 0x0; 0x0; 0x470000; 0xe23030; 0xe73070;
   0xe230e0; 0x3fffee0; 0x3fffec0; 0xe73000; 0xe23000; 0xff30fc; 0xfe30fc; 0x30fc;
   0x2aab0e0; 0x3fff0e0; 0x2aea0e0; 0x700e0; 0x2aea8e0; 0x7fffce0; 0x2afa8e0; 0x1fc3e0;
   0x3ee7e0; 0x7773e0; 0xe638e0; 0x3c71e70; 0x1860e20; 0x70400; 0x0; 0x0;
   0x0; 0x0; 0x202000; 0x0; 0x0; 0x0; 0x70e000; 0x30e018;
   0x3fffe78; 0x3fffe60; 0x175f4e0; 0x32e0c0; 0x77e000; 0x2aea800; 0x3fffc7c; 0x2aab87c;
   0x307c; 0x3060; 0x1fff060; 0x1fff060; 0x60; 0x663060; 0x673060; 0x663060;
   0x673760; 0x6637e0; 0x6673be0; 0x26638e0; 0x7671c70; 0x3e60e20; 0x1c00400; 0x0;
   0x0; 0x0; 0x0; 0x202000; 0x0; 0x0; 0x0; 0x60000;
   0x60010; 0x60078; 0x3fffc70; 0x3fffde0; 0x600c0; 0x60080; 0x1fff800; 0x1fff8fc;
   0x1a658fc; 0x1f6d8fc; 0x1b6d8c0; 0x1b6d8c0; 0x19698c0; 0x1fff8c0; 0x1fff8c0; 0x1f80c0;
   0x3f80c0; 0x77c6c0; 0x66e7c0; 0x1e673c0; 0x3c638e0; 0x7861e70; 0x3060c20; 0x60000;
   0x0; 0x0; 0x0; 0x0; 0x202000; 0x0; 0x0; 0x0;
   0x1c1800; 0xc1830; 0x11c1878; 0x38c18e0; 0x1fff9e0; 0x7ff9c0; 0x1c1880; 0x10c1800;
   0x71c18fc; 0x30ff8fc; 0x3fffcfc; 0x3fb3ce0; 0x704e0; 0x380e0; 0x1fff8e0; 0x1aab8e0;
   0x1c038e0; 0x18038e0; 0x1fffee0; 0x1ffffe0; 0x1c03be0; 0x18038e0; 0x1fff870; 0x1fff820;
   0x1c03800; 0x0; 0x0; 0x0; 0x0; 0x202000; 0x0; 0x0;
   0x0; 0x30000; 0x30030; 0x1ff0070; 0xab00e0; 0x301c0; 0x3fff880; 0x3fffc00;
   0x3838800; 0x1bf9c7e; 0x3fe87e; 0x187fc7e; 0x1838860; 0x1ff1c60; 0xfe0860; 0x1c60;
   0x1ff8c60; 0x1ffdc60; 0x18c60; 0x155df60; 0x3ffefe0; 0x155dde0; 0x18ee0; 0x1ffc670;
   0x1ff8620; 0x400; 0x0; 0x0; 0x0; 0x0; 0x202000; 0x0;
   0x0; 0x0; 0x0; 0x1fff030; 0x1fff070; 0x18030e0; 0x1c031c0; 0x1fff080;
   0x1fff000; 0x1803000; 0x1fff0fc; 0x1fff0fc; 0x60fc; 0x60e0; 0x3fff0e0; 0x3fff8e0;
   0x30c1ce0; 0x3060ee0; 0x30e3ce0; 0x39f38e0; 0x339fae0; 0x3a0bfe0; 0x3fffbe0; 0x3fff8e0;
   0x1800070; 0x1f00020; 0x1f00000; 0x0; 0x0; 0x0; 0x0; 0x202000;
   0x0; 0x0; 0x0; 0x0; 0x3fff830; 0x3fffc78; 0x38608f0; 0x3861de0;
   0x3fff8c0; 0x3fffc00; 0x3860800; 0x3d75cfc; 0x3fff8fc; 0x15554fc; 0xe0; 0x1fff0e0;
   0x1fff0e0; 0x1c030e0; 0x1fff0e0; 0x1fff0e0; 0x18030e0; 0x1c034e0; 0x1fff6e0; 0x1fff7e0;
   0x18031e0; 0x1c030f0; 0x1f83020; 0xf03000; 0x0; 0x0; 0x0; 0x0;
   0x202000; 0x0; 0x0; 0x0; 0x10; 0x1fdfc30; 0x1fdfc70; 0x18d8ce0;
   0x18d9dc0; 0x18d8c80; 0x1fdfc00; 0x1fdfc00; 0xfc; 0xaaa8fc; 0xfff8fc; 0xaaa8c0;
   0xc0; 0x3fffec0; 0x3fffec0; 0xe0c0; 0x60c0; 0xffe0c0; 0xfff4c0; 0xe006c0;
   0xe007c0; 0xe001e0; 0x7000f0; 0x7f8060; 0x3f8000; 0x0; 0x0; 0x0;
   0x0; 0x202000; 0x0; 0x0; 0x0; 0x70010; 0x30038; 0x7c070;
   0x1ee0e0; 0x7cf0e0; 0xf038c0; 0x7e01e00; 0x3bfff80; 0x23ff37c; 0x80007c; 0x199fe7c;
   0x199fe60; 0x1998e60; 0x1998e60; 0x199fe60; 0x199fe60; 0x1998e60; 0x1998e60; 0x199fe60;
   0x199af60; 0x1998fe0; 0x1818ee0; 0x1818e70; 0x1f1ee30; 0xf1ce10; 0x0; 0x0;
   0x0; 0x0; 0x202000; 0x0; 0x0; 0x0; 0xc00000; 0x1ffe838;
   0x7ffc70; 0x1c30860; 0xc318e0; 0xe338c0; 0x773000; 0x1fffc00; 0x1fffc7c; 0xc07c;
   0xc07c; 0x3fffe60; 0x3fffe60; 0xe060; 0x556060; 0xffe060; 0xd5f060; 0xe0f060;
   0x71f760; 0x3bbbe0; 0x1f1df0; 0x3e1cf0; 0x1ffcf30; 0x3e3f780; 0x3807300; 0x0;
   0x0; 0x0; 0x0; 0x202000; 0x0; 0x0; 0x0; 0x4000;
   0xe038; 0x1ff070; 0x3ff0e0; 0x1c38e0; 0xc1cc0; 0x1ffff00; 0x1fffe00; 0x1c71cfc;
   0x18308fc; 0x1fffcfc; 0x1fff8e0; 0x1dc0e0; 0x20ce0e0; 0x71c70e0; 0x3fc3ee0; 0x3f9dee0;
   0xfc0e0; 0x3f02e0; 0x3803e0; 0x1fbe0; 0xfe0e0; 0x7f0070; 0x780020; 0x600000;
   0x0; 0x0; 0x0; 0x0; 0x202000; 0x0; 0x0; 0x0;
   0x30010; 0x38218; 0x18738; 0x3ff9e70; 0x1ffdce0; 0x188e0c0; 0x1ce7040; 0xce4000;
   0xe387c; 0x1f3e7c; 0x3f8f7c; 0x738360; 0x1f1e060; 0x3c0f860; 0x3803c60; 0xfff860;
   0xfff860; 0xeab860; 0xc03f60; 0xc03fe0; 0xc03be0; 0xc038e0; 0xfff870; 0xfff820;
   0xc03800; 0x0; 0x0; 0x0; 0x0; 0x202000; 0x0; 0x0;
   0x0; 0x30000; 0x30030; 0x70078; 0x3fffce0; 0x3fffde0; 0x602080; 0x706000;
   0x306000; 0x30e054; 0x3fffefe; 0x7fffefe; 0x2aaaae0; 0xe0; 0xfff8e0; 0xfff8e0;
   0xc038e0; 0xc038e0; 0xeab8e0; 0xfff8e0; 0xeabae0; 0xc03fe0; 0xc03be0; 0xfff8f0].
Definition hanzi_data_417 : list N :=
  [0xfff860; 0xc03820; 0x0; 0x0; 0x0; 0x0; 0x202000; 0x0;
   0x0; 0x0; 0x70010; 0x60038; 0xe0070; 0x3fffc60; 0x3fffce0; 0x60e0c0;
   0x71c000; 0x318000; 0x7fffc7c; 0x3fffc7c; 0x5555c7c; 0x200c60; 0x7c1c60; 0x1f8c60;
   0x47fc60; 0xe0cc60; 0x781c60; 0x3e0c60; 0x10fed60; 0x381cde0; 0x1f00fe0; 0x7c06e0;
   0x1fc770; 0x3f3b0; 0x6300; 0x0; 0x0; 0x0; 0x0; 0x202000;
   0x0; 0x0; 0x0; 0x30000; 0x30030; 0x1fffc70; 0x1fffc60; 0x1fffce0;
   0x3060c0; 0x306040; 0x38e000; 0x3fffe7c; 0x3fffe7c; 0x3050e7c; 0x3060e60; 0x3070e60;
   0xfff860; 0xfff860; 0xc61860; 0xc71860; 0xc61860; 0xc71b60; 0xc61be0; 0xf719e0;
   0xf618f0; 0x570070; 0x60020; 0x70000; 0x0; 0x0; 0x0; 0x0;
   0x202000; 0x0; 0x0; 0x0; 0x180000; 0x980218; 0x199c738; 0x1998e70;
   0x1d98c70; 0xdb9ce0; 0xdb1840; 0xdb0000; 0x18007c; 0x3ffdf7c; 0x3ffdf7c; 0x3c1860;
   0x7c1870; 0x7e1860; 0xdf1870; 0xdb1860; 0x1999870; 0x399d860; 0x118d970; 0x1819e0;
   0x183df0; 0x87ef0; 0x7ffe778; 0x3ff8310; 0x3fc0200; 0x0; 0x0; 0x0;
   0x0; 0x202000; 0x0; 0x0; 0x0; 0x70000; 0x60018; 0xe0078;
   0x1fff870; 0x1fffce0; 0x18018c0; 0x1801c40; 0x1aab800; 0x1fffc7c; 0xaab87c; 0x1c7c;
   0x2aab860; 0x3fffc70; 0x3bef860; 0x3367c70; 0x3366c60; 0x3367c70; 0x3ffec60; 0x3ffed70;
   0x3366de0; 0x3366ff0; 0x33666e0; 0x3366670; 0x3f66630; 0x1c06010; 0x0; 0x0;
   0x0; 0x0; 0x202000; 0x0; 0x0; 0x0; 0x0; 0x3fffc30;
   0x3fffc70; 0x38660e0; 0x18671c0; 0xfe6080; 0xfe7000; 0x6f000; 0x7f87c; 0x3ff98fc;
   0x3fc1efc; 0xce0; 0x1fff0e0; 0xfff0e0; 0x1c030e0; 0xfff0e0; 0x1fff0e0; 0xc032e0;
   0x1c037e0; 0xfff3e0; 0x1fff1e0; 0xc030f0; 0x1c03070; 0xf83020; 0xf03000; 0x0;
   0x0; 0x0; 0x0; 0x202000; 0x0; 0x0; 0x0; 0x30c010;
   0x30c038; 0x3fffc78; 0x3fffce0; 0x30c1c0; 0x30c080; 0x1fff800; 0xfff800; 0x1d5587c;
   0xc018fc; 0x1fff8fc; 0xfff8e0; 0x1c018e0; 0xfff8e0; 0x1fff8e0; 0x600e0; 0x700e0;
   0x3fffee0; 0x3ffffe0; 0xf87e0; 0x1dc3e0; 0x38e0e0; 0x1f07c70; 0x3c03e20; 0x1000c00;
   0x0; 0x0; 0x0; 0x0; 0x202000; 0x0; 0x0; 0x0;
   0x30000; 0xc30818; 0xc31c38; 0xe31870; 0x731870; 0x230060; 0x3ffff00; 0x3ffff00;
   0x300077c; 0x300037c; 0x37fff7c; 0x27ffa60; 0x601860; 0x601860; 0x601860; 0x6ab860;
   0x7ff860; 0x7ffa60; 0xcc360; 0xce3e0; 0x70c71f0; 0x30c3870; 0x3fc3c30; 0x3fc0f10;
   0x1f00700; 0x0; 0x0; 0x0; 0x0; 0x202000; 0x0; 0x0;
   0x0; 0x0; 0x1fff830; 0x1fffc78; 0x18618e0; 0x1d75dc0; 0x1fff880; 0x1d75c80;
   0x1861800; 0x1fffc7c; 0x1fff8fc; 0x31c0fc; 0xf0e0e0; 0x1c178e0; 0x7839ee0; 0x355c4e0;
   0xffe0e0; 0xf570e0; 0x70fce0; 0x39cce0; 0x1f83e0; 0x1f07e0; 0x3f81e0; 0x1fdf8f0;
   0x3e07e20; 0x3001c00; 0x0; 0x0; 0x0; 0x0; 0x202000; 0x0;
   0x0; 0x0; 0x1c06000; 0x1806018; 0x1c07038; 0x181fc70; 0x1c1fce0; 0x1818cc0;
   0x7fddc40; 0x3fdfc00; 0x1c1dc7c; 0x1818c7c; 0x1cdfc7c; 0x18dfc60; 0x1dd8c60; 0x1998c60;
   0x1d9ff60; 0x1b9ff60; 0x1f1e060; 0x181e060; 0x1c1f160; 0x181bbe0; 0x1c19df0; 0x1818ef0;
   0x1c18778; 0x1f9f230; 0xf1f000; 0x0; 0x0; 0x0; 0x0; 0x202000;
   0x0; 0x0; 0x0; 0xc00000; 0x1fe0030; 0x1fffe78; 0x82fce0; 0x1c311e0;
   0xc618c0; 0xc63000; 0x663000; 0x70707c; 0x1fff07c; 0x1fff87c; 0x61860; 0x71e60;
   0x60860; 0x3fffe60; 0x3fffe60; 0x70060; 0x1860a60; 0x1871f60; 0x1861be0; 0x1871de0;
   0x18618e0; 0x1fffc70; 0x1fff820; 0x1800000; 0x0; 0x0; 0x0; 0x0;
   0x202000; 0x0; 0x0; 0x0; 0x70000; 0x60018; 0x1575478; 0x3fffc70;
   0x17555e0; 0x60e0c0; 0x70c000; 0x30c000; 0x3fffcfc; 0x3fffcfc; 0x3070cfc; 0x3060cc0;
   0x600c0; 0x3fff8c0; 0x3fffcc0; 0x180c0; 0x1c0c0; 0xffc0c0; 0xffc4c0; 0xc0e6c0;
   0xc0e7c0; 0xe073e0; 0xe07cf0; 0x7e1e60; 0x7c0c20; 0x0; 0x0; 0x0;
   0x0; 0x202000; 0x0; 0x0; 0x0; 0x403010; 0xe03038; 0x707038;
   0x38e070; 0x38c0e0; 0x60; 0x3fffe00; 0x3fffe00; 0x1040fc; 0x38e0fc; 0xf070f4;
   0x1e038e0; 0x3c01ee0; 0x3000ee0; 0x1fffce0; 0x1fff8e0; 0x1999ce0; 0x1889ae0; 0x1999fe0;
   0x1889be0; 0x1999de0; 0x18898e0; 0x7ffff70; 0x7ffff20; 0x0; 0x0; 0x0;
   0x0; 0x0; 0x202000; 0x0; 0x0; 0x0; 0x301000; 0x303818;
   0x387038; 0x18e070; 0x3fffee0; 0x3fffec0; 0x1cc000; 0xcc000; 0x1fffc7c; 0xfffc7c;
   0x1dcc07c; 0x2aeea60; 0x3fffe60; 0x2aeea60; 0x1dcc060; 0xaee860; 0x1fffc60; 0x1ce060;
   0x3cf360; 0x6cfbe0; 0xfcdde0; 0x1cccee0; 0x79cc770; 0x30cc230; 0x1cc000; 0x0;
   0x0; 0x0; 0x0; 0x202000; 0x0; 0x0; 0x0; 0xc000;
   0x1c010; 0xe78038; 0x660070; 0x70c0e0; 0xb8d8c0; 0x1dcdc40; 0x38ecc00; 0x307ce7c;
   0x763c67c; 0x161f47c; 0x60f860; 0x7ffe60; 0x3f8e60; 0x60; 0x1fff860; 0x1fff860;
   0x1889860; 0x1d99960; 0x1889be0; 0x1d999e0; 0x18898e0; 0x7fffe70; 0x3fffe30; 0x10;
   0x0; 0x0; 0x0; 0x0; 0x202000; 0x0; 0x0; 0x0;
   0x706010; 0x306038; 0x7fffe70; 0x3fffee0; 0x17575e0; 0x3060c0; 0x7fe000; 0x3fe000;
   0x157507c; 0x1fff8fc; 0x1d75cfc; 0x18618e0; 0x1fffce0; 0x1fff8e0; 0x700e0; 0xaea8e0;
   0x1fffce0; 0x600e0; 0x703e0; 0x1fffbe0; 0x1fffbe0; 0x600e0; 0x7fffe70; 0x3fffe20;
   0x0; 0x0; 0x0; 0x0; 0x0; 0x202000; 0x0; 0x0;
   0x0; 0x10; 0xfff038; 0x1d57078; 0xc030e0; 0x1fff1c0; 0xc03080; 0x1c03000].
Definition hanzi_data_418 : list N :=
  [0xfff000; 0x5550fc; 0x3fffcfc; 0x3fffcfc; 0x3188ce0; 0x319cce0; 0x3fffce0; 0x3fffce0;
   0x8000e0; 0x1fffce0; 0xeab8e0; 0xe076e0; 0x78e7e0; 0x3fc3e0; 0xf81e0; 0x7ff070;
   0x3f8fe20; 0x3c01c00; 0x0; 0x0; 0x0; 0x0; 0x202000; 0x0;
   0x0; 0x0; 0x70000; 0x60030; 0x3fffc70; 0x3fffc60; 0x6060e0; 0x70e0c0;
   0x30c040; 0x1fffc00; 0x1fffc7c; 0x1860cfc; 0x1861cfc; 0x1aeace0; 0x1fffce0; 0x1860ce0;
   0x1861ce0; 0x1bfcce0; 0x1bfdce0; 0x1b0cce0; 0x1b0dfe0; 0x1bacfe0; 0x1bfdde0; 0x180cce0;
   0x1801c70; 0x1f00c20; 0x1f01c00; 0x0; 0x0; 0x0; 0x0; 0x202000;
   0x0; 0x0; 0x0; 0x607000; 0x60e010; 0x30c038; 0x3fffe70; 0x7fffee0;
   0x18000c0; 0x19bfc40; 0x19b0c00; 0x19bfcfc; 0x19bfcfc; 0x19b5cfc; 0x19bfce0; 0x1930ce0;
   0x1a38ce0; 0x1f1cce0; 0xe0; 0x1fffce0; 0x1fffce0; 0x18180e0; 0x18182e0; 0x181c7e0;
   0x180e1e0; 0x1c478f0; 0xf83e20; 0x780c00; 0x0; 0x0; 0x0; 0x0;
   0x202000; 0x0; 0x0; 0x0; 0x0; 0x1fdfc30; 0x1fdfc70; 0x18988e0;
   0x1bd9dc0; 0x1f1b080; 0x1e1e000; 0x1f9f800; 0x1bd9efc; 0x18d8cfc; 0x18700fc; 0x700c0;
   0x1fc0c0; 0x78e0c0; 0x7fe7cc0; 0x3871ec0; 0x33c4c0; 0x38f0c0; 0xdf06c0; 0xe3e7c0;
   0x71f7c0; 0x3e21e0; 0x1fc0f0; 0x3fc20; 0x7c00; 0x0; 0x0; 0x0;
   0x0; 0x202000; 0x0; 0x0; 0x0; 0x0; 0x3fffe18; 0x7fffe78;
   0x188070; 0x1fffde0; 0x1fffcc0; 0x199dc00; 0x1988c00; 0x1fffcfc; 0x1fffcfc; 0xfc;
   0x1fff8e0; 0x1fff8e0; 0x18018e0; 0x1fff8e0; 0x1aab8e0; 0x1c018e0; 0x1fff8e0; 0x15750e0;
   0x602e0; 0x3ffffe0; 0x3fffde0; 0x600f0; 0x60030; 0x60000; 0x0; 0x0;
   0x0; 0x0; 0x202000; 0x0; 0x0; 0x0; 0x0; 0x3fdfe18;
   0x3fdfe38; 0x686c70; 0x6c64e0; 0x6c66c0; 0x3fdfe40; 0x3fffe00; 0x7070fc; 0x7078fc;
   0x67bd8fc; 0x279ece0; 0x7ee6fe0; 0x3c622e0; 0x1fff8e0; 0x1fff8e0; 0x1c018e0; 0x18018e0;
   0x1fffae0; 0x1fffbe0; 0x1c01be0; 0x18018e0; 0x1fff870; 0x1fff820; 0x1c01800; 0x0;
   0x0; 0x0; 0x0; 0x202000; 0x0; 0x0; 0x0; 0x46000;
   0xe6030; 0x1c7070; 0x1c30e0; 0x3fff1c0; 0x3fff880; 0x15d7c00; 0x83c00; 0x1fffe7c;
   0x1ffff7c; 0x1c3e7c; 0x83860; 0x1fff860; 0x1fff860; 0x1c3860; 0x83860; 0x7fff860;
   0x3fff860; 0x3b60; 0xc9b7e0; 0x1dd9be0; 0x39998e0; 0x3199c70; 0x3318c20; 0x3118c00;
   0x0; 0x0; 0x0; 0x0; 0x202000; 0x0; 0x0; 0x0;
   0x400; 0x2aa8e18; 0x3ffdc38; 0x3aab870; 0x3813070; 0x38300e0; 0x3975640; 0x3bff600;
   0x397567c; 0x383067c; 0x3bff67c; 0x3aab660; 0x3bbf670; 0x3aab660; 0x3b7b670; 0x3bff660;
   0x3bff670; 0x38f8660; 0x39fc770; 0x3b3e7e0; 0x3f37ff0; 0x3831ef0; 0x3830678; 0x1f00610;
   0x1f00600; 0x0; 0x0; 0x0; 0x0; 0x202000; 0x0; 0x0;
   0x0; 0x703000; 0x306018; 0x386038; 0x2baea70; 0x3fffee0; 0xbaeac0; 0x19cce40;
   0x198cc00; 0xdcd87c; 0x78d8fc; 0x7fffffc; 0x3fffee0; 0x55555e0; 0xe0; 0xfff8e0;
   0xfff8e0; 0xc018e0; 0xc018e0; 0xfff8e0; 0xeabbe0; 0xc01fe0; 0xc019e0; 0xfff8f0;
   0xeab820; 0xc01800; 0x0; 0x0; 0x0; 0x0; 0x202000; 0x0;
   0x0; 0x0; 0x10; 0xfff838; 0x1fff870; 0x38e060; 0x1fc0e0; 0x2beaac0;
   0x3fffe40; 0x38f8000; 0x1cde07c; 0xec787c; 0x4f9f7c; 0xf0e60; 0x3fffc60; 0x3fffc60;
   0x38d8c60; 0x3b9cc60; 0x3f0ec60; 0x3e03c60; 0x3ffdd60; 0x3b0cfe0; 0x3b0cde0; 0x3baccf0;
   0x3bfcc70; 0x3e0cc10; 0x1e00c00; 0x0; 0x0; 0x0; 0x0; 0x202000;
   0x0; 0x0; 0x0; 0x606000; 0x606010; 0x1e07038; 0x1e7ff30; 0x367ff70;
   0x36030e0; 0x1603040; 0x2ebfe00; 0x3fffe00; 0x3fa867c; 0x67de7c; 0x62f660; 0x675670;
   0xe2fe60; 0xf7fe70; 0xe22660; 0xf77670; 0xb2fe60; 0x1f77770; 0x1ba27e0; 0x19f67f0;
   0x39a26f0; 0x31f6670; 0x30f8630; 0x90600; 0x0; 0x0; 0x0; 0x0;
   0x202000; 0x0; 0x0; 0x0; 0x1c0010; 0x80038; 0x1ffc738; 0x1ffc670;
   0x19ccee0; 0x1ffccc0; 0x1ffdc40; 0x80000; 0x3fff07c; 0x2aaa07c; 0x1ffdf7c; 0x1ff9f60;
   0x1c1dc60; 0x1ab9860; 0x1ffdc60; 0x19860; 0x1ffdc60; 0x1ff9860; 0x181dd60; 0x1ab99e0;
   0x1ffdde0; 0x3ef0; 0x7d5f778; 0x3ffc3b0; 0x3ff0100; 0x0; 0x0; 0x0;
   0x0; 0x202000; 0x0; 0x0; 0x0; 0x1c000; 0x1ae030; 0x3ff070;
   0x3830e0; 0x15d79c0; 0x3fffc80; 0x1775e00; 0xf71e00; 0x1c3da7c; 0x38cf8fc; 0x11c58fc;
   0x3fff8e0; 0x3fff8e0; 0x18e0; 0x1ffd8e0; 0x18e0; 0x1ffdce0; 0x1ffd8e0; 0x1fe0;
   0x1ffcfe0; 0x1d5cfe0; 0x180cce0; 0x1ffce70; 0x1ffc620; 0x180c400; 0x0; 0x0;
   0x0; 0x0; 0x202000; 0x0; 0x0; 0x0; 0x373010; 0x323038;
   0x1f31870; 0x1b33860; 0x3b77ce0; 0x33fecc0; 0x13dce00; 0x30c600; 0x7ffff7c; 0x3fffe7c;
   0x31b07c; 0x13fbe60; 0x37fbe60; 0x321b060; 0x1ffbe60; 0x1efbe60; 0x1e1b060; 0xefba60;
   0xefbf60; 0x261b3e0; 0x67ff1e0; 0x2fffee0; 0x3dc7e70; 0x38e0020; 0x1840000; 0x0;
   0x0; 0x0; 0x0; 0x202000; 0x0; 0x0; 0x0; 0x0;
   0x60e00; 0x1e0700; 0x3c0380; 0x7801c0; 0xe060e0; 0x1c07078; 0x180f038; 0x1f810;
   0x39c00; 0x70f00; 0xe0780; 0x7c03c0; 0xf800f0; 0x7fffffe; 0x3bfffbc; 0x13801c0;
   0x380180; 0x3801c0; 0x380180; 0x3801c0; 0x380180; 0x3fffc0; 0x3fff80; 0x3801c0;
   0x0; 0x0; 0x0; 0x0; 0x202000; 0x0; 0x0; 0x0;
   0x630000; 0x630360; 0x630770; 0x630e30; 0x631c38; 0x63189c; 0x3fff9ce; 0x3ffe1c0;
   0x6303e0; 0x630760; 0x630e70; 0x630c38; 0x631c1c; 0x63180e; 0x7fffffc; 0x3ffeff4;
   0x7fffe30; 0xe30; 0x770e30; 0xe38e30; 0x1c1ce30; 0x1c0cff0; 0x380eff0; 0x3807030].
Definition hanzi_data_419 : list N :=
  [0x1006030; 0x0; 0x0; 0x0; 0x0; 0x202000; 0x0; 0x0;
   0x0; 0x401000; 0xe63fa0; 0xc71ffc; 0x1c330bc; 0x183b1dc; 0x389d998; 0x319ddd8;
   0x1880e8; 0x3c0c70; 0x7e0e38; 0xe707fc; 0x1c38df8; 0x3c3dcf0; 0x700ffb8; 0x3fffffc;
   0x1ffb1a8; 0x1d78180; 0x183bffc; 0x1c3bffc; 0x18381c0; 0x1c387c0; 0x1838ee0; 0x1ff9c7c;
   0x1ffb83e; 0x1c39004; 0x0; 0x0; 0x0; 0x0; 0x202000; 0x0;
   0x0; 0x0; 0x1c0; 0x6e0180; 0xe615d4; 0xc63ffc; 0x1c7355c; 0x3bbb18c;
   0x319f5dc; 0x1389ff8; 0x3c15d0; 0x7c0180; 0x6e1ff0; 0xe60ff0; 0x1c70180; 0x383bff8;
   0x7fffffc; 0x3ffc180; 0x1d595d0; 0x1819ff8; 0x1819d78; 0x1819838; 0x1819838; 0x1819838;
   0x1ff9ff8; 0x1ff9ab8; 0x1819838; 0x0; 0x0; 0x0; 0x0; 0x202000;
   0x0; 0x0; 0x0; 0x0; 0xaaaaa8; 0x1fffffc; 0x1fffff8; 0x0;
   0x0; 0x7fffe0; 0x3fffe0; 0x755560; 0x300060; 0x700060; 0x300060; 0x700060;
   0x3fffe0; 0x7fffe0; 0x0; 0x1c0380; 0xc0380; 0xe0700; 0xe0700; 0x70700;
   0x30200; 0x3fffffc; 0x3fffffc; 0x0; 0x0; 0x0; 0x0; 0x0;
   0x202000; 0x0; 0x0; 0x0; 0x0; 0x0; 0x1555ffc; 0x3ffdffc;
   0x3ffc000; 0x1c0000; 0x1c1ffc; 0x1c1ff8; 0x1c1c1c; 0x1c1818; 0x1c1c1c; 0x1c1818;
   0x1c1ffc; 0x1c1ff8; 0x1c0410; 0x1c0e18; 0x1c0630; 0x1c0630; 0x1c0730; 0x1c2330;
   0x1c3fd0; 0x3fffffe; 0x7ffe1fc; 0x3ffe000; 0x0; 0x0; 0x0; 0x0;
   0x0; 0x202000; 0x0; 0x0; 0x0; 0x1c0000; 0xc0000; 0x1c1ffc;
   0xc1ffc; 0x3fff000; 0x3ffe000; 0x15d5ffc; 0xc0ff8; 0x1c0c1c; 0xc0c08; 0x1ffec1c;
   0x1ffec08; 0x1c0cffc; 0xc0cff8; 0xc1c610; 0xe38618; 0x730730; 0x3f0330; 0x3e0330;
   0x1c1b30; 0x3f1fc0; 0xf787fe; 0x1e1f07c; 0x3c0f800; 0x3003000; 0x0; 0x0;
   0x0; 0x0; 0x202000; 0x0; 0x0; 0x0; 0x60000; 0xe0000;
   0x15d57fc; 0x3fffffc; 0x3fff800; 0x3003800; 0x3007ffc; 0x2006ff8; 0x3f9671c; 0x3ffe608;
   0x39f771c; 0x39b3608; 0x39f37fc; 0x39b3ff8; 0x39b7900; 0x39beb18; 0x3d9c318; 0x1f98338;
   0x59c1b0; 0x18c1b0; 0x618efc0; 0x2186ffe; 0x71879fc; 0x3f81c00; 0x1f00800; 0x0;
   0x0; 0x0; 0x0; 0x202000; 0x0; 0x0; 0x0; 0x0;
   0xaaaaa8; 0x1fffffc; 0x1fffff8; 0x7000; 0x3c00; 0xc01f00; 0xf03fe0; 0x7c71fc;
   0x1e703c; 0xffc1c; 0xffe00; 0x1dc780; 0x19c3e0; 0x39e0fc; 0x39f038; 0x71bc00;
   0xe18e00; 0x1e1c7c0; 0x3c183f0; 0x781c07e; 0x301c01c; 0xf500; 0xfe00; 0x7e00;
   0x0; 0x0; 0x0; 0x0; 0x202000; 0x0; 0x0; 0x0;
   0x0; 0x3f8; 0x3fffff8; 0x3fffb18; 0x70318; 0x38318; 0x101e318; 0x383fbf8;
   0x1c37ff8; 0xe70bb8; 0x7f8318; 0x7fc318; 0x6cf318; 0x6c7b18; 0xee1ff8; 0xcf0bf8;
   0x1cf8318; 0x18dc318; 0x19cf31c; 0x38c7b08; 0x70c3f1c; 0x30e0b0c; 0xe034c; 0x7c3ee;
   0x3c1c4; 0x0; 0x0; 0x0; 0x0; 0x202000; 0x0; 0x0;
   0x0; 0xe00; 0x600; 0x3ff00; 0x3ff80; 0x1c1e0; 0xaaeaf0; 0xfffffc;
   0xeaeaf8; 0xe06060; 0xe03060; 0xffffe0; 0xffffe0; 0x601f00; 0xf83be0; 0x3c70fc;
   0xffc18; 0x1fcf80; 0x19e3e0; 0x39f878; 0x73be00; 0x1e38fc0; 0x3c383f8; 0x381d478;
   0xfc00; 0x7c00; 0x0; 0x0; 0x0; 0x0; 0x202000; 0x0;
   0x0; 0x0; 0xe000; 0x38e1c0; 0x186180; 0x1c7380; 0xfffff0; 0xfffff0;
   0x1c00; 0x3fffffc; 0x3fffffc; 0xe0700; 0x1c0780; 0x3fffe0; 0x1fffff0; 0x7e0783e;
   0x3b87f1c; 0x1ce7f0; 0xff870; 0xfce00; 0x3de7f0; 0x71f8f8; 0xf19e10; 0x1c18f80;
   0x1c1c1fc; 0xfc38; 0x7c00; 0x0; 0x0; 0x0; 0x0; 0x202000;
   0x0; 0x0; 0x0; 0xc00000; 0xe0c000; 0x77dffc; 0x3f1ffc; 0x3e00e0;
   0xff8060; 0x1e3fc70; 0x86eef8; 0x707de; 0x3fff3cc; 0x7fff3e0; 0x983f0; 0x1dc7b8;
   0x8cf9e; 0x1ffff8c; 0x1fffbc0; 0x19cfbe0; 0x188d370; 0x19cc33c; 0x188c31e; 0x1fcc304;
   0x1c8c380; 0x1c0180; 0x801f0; 0x1c00f0; 0x0; 0x0; 0x0; 0x0;
   0x202000; 0x0; 0x0; 0x0; 0x7000; 0xe000; 0x3fffffc; 0x3fffffc;
   0x0; 0x3fffc0; 0x7555c0; 0x3000c0; 0x7fffc0; 0x2aaa80; 0x3fffffc; 0x3fffffc;
   0x380001c; 0x3bfffcc; 0x3bfffdc; 0x603e00; 0xfc77f0; 0x3ff8f0; 0xfdf00; 0x19e3e0;
   0x39bc70; 0x718e00; 0x1e1c7f0; 0x180f8f8; 0x1007818; 0x0; 0x0; 0x0;
   0x0; 0x202000; 0x0; 0x0; 0x0; 0x18000; 0x1c7fc; 0x7fc7fc;
   0x3ae300; 0x387380; 0xbab9f8; 0x1fffcf0; 0x18c3ce0; 0x18c31c0; 0x18e33fe; 0x1fff7fe;
   0x1fff6ea; 0x1038660; 0x387e260; 0x1e67f60; 0x7f1b60; 0x7dc060; 0xccf060; 0xdf3c60;
   0x19b8860; 0x199e060; 0x3987860; 0x71c1c74; 0xf807c; 0x7803c; 0x0; 0x0;
   0x0; 0x0; 0x202000; 0x0; 0x0; 0x0; 0x1c0000; 0xc0000;
   0x3ffeffc; 0x3ffeffc; 0x15d40c0; 0xed80e0; 0xe18c78; 0x3fffcfc; 0x7fffecc; 0xe187c0;
   0xe187e0; 0x1ffe7f0; 0x1ffedb8; 0x1806b9e; 0x18c6b8c; 0x18c63c0; 0x18c63e0; 0x18c6370;
   0x18c633c; 0x18c631e; 0x7e4304; 0xf78380; 0x3c3f1c0; 0x380f9f0; 0x20010f0; 0x0;
   0x0; 0x0; 0x0; 0x202000; 0x0; 0x0; 0x0; 0x6000;
   0x6000; 0x100601c; 0x1aaeab8; 0x1fffffc; 0x18c6318; 0x186619c; 0x1a368d8; 0x1e7f9fc;
   0x1bcef38; 0x19e679c; 0x19b66d8; 0x1b9ee7c; 0x1fcff38; 0x1fe779c; 0x1db76d8; 0x19be6fc;
   0x188e638; 0x19d675c; 0x18e6398; 0x180601c; 0x1aaeab8; 0x1fffffc; 0x1fffff8; 0x1800000;
   0x0; 0x0; 0x0; 0x0; 0x202000; 0x0; 0x0; 0x0;
   0xc0000; 0xf0000; 0x7f000; 0x1ff80; 0x105fe0; 0x38e0e0; 0x3dc300; 0xfc700].
Definition hanzi_data_group_2 : list (list N) :=
  [hanzi_data_280; hanzi_data_281; hanzi_data_282; hanzi_data_283;
   hanzi_data_284; hanzi_data_285; hanzi_data_286; hanzi_data_287;
   hanzi_data_288; hanzi_data_289; hanzi_data_290; hanzi_data_291;
   hanzi_data_292; hanzi_data_293; hanzi_data_294; hanzi_data_295;
   hanzi_data_296; hanzi_data_297; hanzi_data_298; hanzi_data_299;
   hanzi_data_300; hanzi_data_301; hanzi_data_302; hanzi_data_303;
   hanzi_data_304; hanzi_data_305; hanzi_data_306; hanzi_data_307;
   hanzi_data_308; hanzi_data_309; hanzi_data_310; hanzi_data_311;
   hanzi_data_312; hanzi_data_313; hanzi_data_314; hanzi_data_315;
   hanzi_data_316; hanzi_data_317; hanzi_data_318; hanzi_data_319;
   hanzi_data_320; hanzi_data_321; hanzi_data_322; hanzi_data_323;
   hanzi_data_324; hanzi_data_325; hanzi_data_326; hanzi_data_327;
   hanzi_data_328; hanzi_data_329; hanzi_data_330; hanzi_data_331;
   hanzi_data_332; hanzi_data_333; hanzi_data_334; hanzi_data_335;
   hanzi_data_336; hanzi_data_337; hanzi_data_338; hanzi_data_339;
   hanzi_data_340; hanzi_data_341; hanzi_data_342; hanzi_data_343;
   hanzi_data_344; hanzi_data_345; hanzi_data_346; hanzi_data_347;
   hanzi_data_348; hanzi_data_349; hanzi_data_350; hanzi_data_351;
   hanzi_data_352; hanzi_data_353; hanzi_data_354; hanzi_data_355;
   hanzi_data_356; hanzi_data_357; hanzi_data_358; hanzi_data_359;
   hanzi_data_360; hanzi_data_361; hanzi_data_362; hanzi_data_363;
   hanzi_data_364; hanzi_data_365; hanzi_data_366; hanzi_data_367;
   hanzi_data_368; hanzi_data_369; hanzi_data_370; hanzi_data_371;
   hanzi_data_372; hanzi_data_373; hanzi_data_374; hanzi_data_375;
   hanzi_data_376; hanzi_data_377; hanzi_data_378; hanzi_data_379;
   hanzi_data_380; hanzi_data_381; hanzi_data_382; hanzi_data_383;
   hanzi_data_384; hanzi_data_385; hanzi_data_386; hanzi_data_387;
   hanzi_data_388; hanzi_data_389; hanzi_data_390; hanzi_data_391;
   hanzi_data_392; hanzi_data_393; hanzi_data_394; hanzi_data_395;
   hanzi_data_396; hanzi_data_397; hanzi_data_398; hanzi_data_399;
   hanzi_data_400; hanzi_data_401; hanzi_data_402; hanzi_data_403;
   hanzi_data_404; hanzi_data_405; hanzi_data_406; hanzi_data_407;
   hanzi_data_408; hanzi_data_409; hanzi_data_410; hanzi_data_411;
   hanzi_data_412; hanzi_data_413; hanzi_data_414; hanzi_data_415;
   hanzi_data_416; hanzi_data_417; hanzi_data_418; hanzi_data_419].
