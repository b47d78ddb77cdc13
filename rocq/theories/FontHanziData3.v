(** GENERATED by tools/gen_fonts.py from /repo/src/fonts/hanzi.rs -- do not edit.
    DATA (src/fonts/hanzi.rs:17024-67287), words 215040 to 276440. *)
From Verif Require Import Prim FontDefs.

Definition hanzi_data_420 : list N :=
  [0x7e700; 0x1fe00; 0x3ffc0; 0x30fe0; 0x7c0e0; 0xef000; 0xe7c00; 0xe1f80;
   0xf87f0; 0xfe0e0; 0x1cf800; 0xc3e00; 0x1c1fe0; 0xe03e0; 0xf5060; 0x7e000;
   0x3e000; 0x0; 0x0; 0x0; 0x0; 0x202000; 0x0; 0x0;
   0x0; 0x30400; 0x38780; 0x187f0; 0x180fe; 0x1c1dc; 0x3ffc988; 0x3ffdf1c;
   0x380e738; 0x38073f0; 0x38033f0; 0x380b77c; 0x381c60c; 0x1838f80; 0x3870dc0; 0x18e0cf0;
   0x19c0e3c; 0x19c1f1c; 0x1880f80; 0x1801dc0; 0x1800cf0; 0x1c00c3c; 0x1c00c0c; 0x1d40f44;
   0xfe07c0; 0x7c03c0; 0x0; 0x0; 0x0; 0x0; 0x202000; 0x0;
   0x0; 0x0; 0x600600; 0x600780; 0x6003f0; 0x6000fe; 0x6001dc; 0x2eaa988;
   0x3ffff18; 0x3ffef38; 0x7003f0; 0x7801f0; 0x7803fc; 0x7c031c; 0x6c0780; 0x6e07e0;
   0x670670; 0x630e3c; 0x638f1c; 0x61cf80; 0x61ede0; 0x60fef8; 0x606e3c; 0x600e0c;
   0x740704; 0x7e03e0; 0x3c01e0; 0x0; 0x0; 0x0; 0x0; 0x202000;
   0x0; 0x0; 0x0; 0x200; 0x3ffe780; 0x3ffe3f0; 0x3aea0fe; 0x38601dc;
   0x3860b88; 0x3871f1c; 0x3830f38; 0x18383f0; 0x181c1f0; 0x1f1f3fc; 0x1f0730c; 0x37c0;
   0xaaa6e0; 0x1ffe678; 0x1aae63c; 0x180ef0c; 0x180ef80; 0x180efe0; 0x180ee78; 0x180e63e;
   0x1aae60c; 0x1ffe740; 0x1aae3e0; 0x180e1e0; 0x0; 0x0; 0x0; 0x0;
   0x202000; 0x0; 0x0; 0x0; 0x318300; 0x318780; 0x31c1f0; 0x30c07e;
   0x30c1dc; 0x30ed88; 0x3ffef9c; 0x3fff7b8; 0x3fff3f0; 0x3879f0; 0x7c7dfc; 0x7c6f8c;
   0x7c6fc0; 0xfc63e0; 0xf66778; 0xb6663c; 0x1b7678c; 0x1b367c0; 0x333e6f0; 0x331e678;
   0x331e61e; 0x30660c; 0x306750; 0x3063e0; 0x3061e0; 0x0; 0x0; 0x0;
   0x0; 0x202000; 0x0; 0x0; 0x0; 0x200; 0x2aaaf80; 0x3fffbf0;
   0x3fff8fe; 0x1dc; 0xd88; 0x1fff79c; 0xffe3b8; 0x1c071f0; 0xc061f0; 0x1c071fc;
   0xc0638c; 0x1fff3c0; 0xffe3e0; 0x1c07778; 0xc0671c; 0x1c0778c; 0xffe7c0; 0x1fff6f0;
   0x678; 0x61c; 0x60c; 0x7ffff50; 0x3fffbe0; 0x1e0; 0x0; 0x0;
   0x0; 0x0; 0x202000; 0x0; 0x0; 0x0; 0x70400; 0x30780;
   0x10383f0; 0x3ff80fe; 0x3ffc1dc; 0x181e990; 0x1c1ff18; 0xe3ff30; 0x7733f0; 0x3e03f0;
   0x1e077c; 0x7f060c; 0x1f7c780; 0x7c1ffe0; 0x3557cf0; 0x1ffce3c; 0x1ffcf1c; 0x180cf80;
   0x180cde0; 0x180cc70; 0x180cc3c; 0x1ffce0c; 0x1ffc744; 0x180c7e0; 0x180c1c0; 0x0;
   0x0; 0x0; 0x0; 0x202000; 0x0; 0x0; 0x0; 0x400;
   0x3ffe780; 0x3fff3e0; 0x2aea0f8; 0xc01fc; 0xc0988; 0xc1f18; 0x1ffe738; 0x1ffe3f0;
   0x1aae1f0; 0x180e3fc; 0x180e31c; 0x180e780; 0x180e7e0; 0x1ffe670; 0x1ffee3c; 0x180ef1c;
   0x180ef80; 0x180ede0; 0x180ee78; 0x180ee3e; 0x1ffee0c; 0x1ffe704; 0x180e3e0; 0x180e1e0;
   0x0; 0x0; 0x0; 0x0; 0x202000; 0x0; 0x0; 0x0;
   0x1c0400; 0xc0780; 0xc03e0; 0x1ffe0f8; 0x1ffe1fc; 0x1806988; 0x1807f18; 0x1806738;
   0x1ffe3f0; 0x1ffe1f0; 0x18063fc; 0x180631c; 0x1ffe780; 0x1ffe7e0; 0x1774670; 0x338e3c;
   0x338f1c; 0x338f80; 0x318de0; 0x2318e78; 0x731ce3c; 0x230e60c; 0x3f0f704; 0x3f03be0;
   0x14011e0; 0x0; 0x0; 0x0; 0x0; 0x202000; 0x0; 0x0;
   0x0; 0xc0200; 0xe0780; 0x15753f0; 0x1fff0fc; 0x1fff1dc; 0x1b3bd88; 0x1bf3f98;
   0x18e37b8; 0x1bf31f0; 0x1b3b1f0; 0x1a131fc; 0x1fff30c; 0x1fff3c0; 0x1832e0; 0x1187678;
   0x398363c; 0x1dff78c; 0xfbf7c0; 0x3876e0; 0x183678; 0x118761c; 0x21bb60c; 0x7fff740;
   0x3f8f3e0; 0x15031e0; 0x0; 0x0; 0x0; 0x0; 0x202000; 0x0;
   0x0; 0x0; 0x718300; 0x618780; 0x3fff9f0; 0x3fff87e; 0x7180dc; 0x618588;
   0x1554f9c; 0x1ffe7b8; 0x1d573f0; 0x18060f0; 0x1fff1fc; 0x1ffe38c; 0x1c073c4; 0x1aae3e0;
   0x1fff778; 0xe063e; 0xe070c; 0x3ffff80; 0x3fffee0; 0x1f0678; 0x3f063c; 0x73860c;
   0x1f1f704; 0x3c0fbe0; 0x10019e0; 0x0; 0x0; 0x0; 0x0; 0x202000;
   0x0; 0x0; 0x0; 0x0; 0x2aaaa0; 0x7fffe0; 0x7fffe0; 0x7000e0;
   0x6060e0; 0x7060e0; 0x6060e0; 0x7060e0; 0x6060e0; 0x7060e0; 0x6060e0; 0x7060e0;
   0x6060e0; 0x7070e0; 0x6070e0; 0x7070e0; 0x2038e0; 0x11c00; 0x78e00; 0x1f0700;
   0x7c03c0; 0x1f001f0; 0x1e0007c; 0x800018; 0x0; 0x0; 0x0; 0x0;
   0x202000; 0x0; 0x0; 0x0; 0x7000; 0x6000; 0x1fff000; 0x3ffe000;
   0x1fff000; 0x6000; 0x7000; 0x7fffe0; 0x7fffe0; 0x6000e0; 0x7000e0; 0x6060e0;
   0x7060e0; 0x6060e0; 0x7060e0; 0x6060e0; 0x7060e0; 0x6070e0; 0x7070e0; 0x23b8e0;
   0xfde00; 0x3e0f80; 0x1f807f0; 0x3e000fc; 0x1000018; 0x0; 0x0; 0x0;
   0x0; 0x202000; 0x0; 0x0; 0x0; 0xc00; 0xe00; 0x7ff00;
   0xfff00; 0x75780; 0x301c0; 0x380e0; 0x18070; 0x7ffffc; 0x7fffdc; 0x7000c8;
   0x7020c0; 0x7060c0; 0x7060c0; 0x7060c0; 0x7060c0; 0x7070c0; 0x7030c0; 0x7038c0;
   0x73b8c0; 0xfdc00; 0x3e0f00; 0xf807f0; 0x1e000fc; 0x1c00018; 0x0; 0x0;
   0x0; 0x0; 0x202000; 0x0; 0x0; 0x0; 0x0; 0xaaaaa0;
   0xfffff0; 0xfffff0; 0x7000; 0x6000; 0x1557554; 0x3fffffc; 0x3fffffc; 0x0;
   0x555540; 0x7fffe0; 0x7fffe0; 0x7000e0; 0x7070e0; 0x7060e0; 0x7070e0; 0x7060e0;
   0x7070e0; 0x71b8e0; 0xffc00; 0x3f0f80; 0x1fc07f0; 0x3e000f8; 0x1800018; 0x0;
   0x0; 0x0; 0x0; 0x202000; 0x0; 0x0; 0x0; 0x600000;
   0x600ff8; 0x600ff8; 0x600c18; 0x600c58; 0x3ffec98; 0x3ffedd8; 0x2faac98; 0x700dd8;
   0x780c98; 0x780dd8; 0x7c0c98; 0x6c0dd8; 0x6e0c98; 0x670dd8; 0x630cd8; 0x638cd8;
   0x61ccd8; 0x61e3c0; 0x60f360; 0x606770; 0x600e30; 0x741c3c; 0x7e081e; 0x3c0004].
Definition hanzi_data_421 : list N :=
  [0x0; 0x0; 0x0; 0x0; 0x202000; 0x0; 0x0; 0x0;
   0x6000; 0x6000; 0x1fffff8; 0x1fffff8; 0x6000; 0xffffe0; 0xffffe0; 0x6000;
   0x1557554; 0x3fffffc; 0x3fffffc; 0x0; 0x7fffe0; 0x7fffe0; 0x7060e0; 0x7060e0;
   0x7060e0; 0x7060e0; 0x7070e0; 0x70b0e0; 0x7fc00; 0x3f1e00; 0x1fc07f0; 0x3e003f8;
   0x1800078; 0x0; 0x0; 0x0; 0x0; 0x202000; 0x0; 0x0;
   0x0; 0x500; 0xfff600; 0x1fff738; 0xe0e638; 0x70c738; 0x71c638; 0x3b8738;
   0x1f0638; 0x1f0738; 0xfbe638; 0x7f1f738; 0x1803600; 0x7fffc0; 0x3fffc0; 0x7000c0;
   0x3060c0; 0x7070c0; 0x3060c0; 0x7070c0; 0x31b8c0; 0x5ffcc0; 0x3f0e00; 0x1fc07f0;
   0x1e001f8; 0x800070; 0x0; 0x0; 0x0; 0x0; 0x202000; 0x0;
   0x0; 0x0; 0x60000; 0x61ff8; 0x71ff8; 0x31ab8; 0x31c18; 0x3ff1998;
   0x3ff9dd8; 0xc19998; 0xc1ddd8; 0xc1d998; 0xc1fdd8; 0x61f998; 0x63ddd8; 0x631998;
   0x771dd8; 0x361998; 0x3e1dd8; 0x1c18d8; 0x1c02c0; 0x3c07e0; 0x7e0e70; 0xe70c30;
   0x1c3dc3c; 0x381f81e; 0x300400c; 0x0; 0x0; 0x0; 0x0; 0x202000;
   0x0; 0x0; 0x0; 0x4000; 0x80c7f8; 0x1c1c7f8; 0xc0c608; 0xe1c658;
   0x70c6c8; 0x39c6d8; 0x1cc6c8; 0x1fc6d8; 0x4c6c8; 0x3fff6d8; 0x3fff6c8; 0x3fff6d8;
   0x18c6c8; 0x19c6d8; 0x38c6c8; 0x39c6d8; 0x30c6c8; 0x71c160; 0xe0c3e0; 0x1f9c770;
   0x1cec630; 0x79fcc1c; 0x303ec0e; 0x4004; 0x0; 0x0; 0x0; 0x0;
   0x202000; 0x0; 0x0; 0x0; 0x1c600; 0x818700; 0x1f1c3c0; 0xff81e0;
   0x1ff1f0; 0x1f9b8; 0x301d9dc; 0x3018180; 0x3ffc1c0; 0x1ff8180; 0x1c0; 0x2aaa80;
   0x7fffc0; 0x7aaac0; 0x7060c0; 0x7060c0; 0x7060c0; 0x7060c0; 0x7070c0; 0x70b0c0;
   0x7bc00; 0x3f1e00; 0x1fc07f0; 0x3e001f8; 0x1000018; 0x0; 0x0; 0x0;
   0x0; 0x202000; 0x0; 0x0; 0x0; 0x700000; 0xffe000; 0x7ffff0;
   0x1bff0; 0x18070; 0x18030; 0x3fffff0; 0x3fffff0; 0x1c070; 0xc030; 0xffff70;
   0xffff30; 0xd55770; 0xc18330; 0xc18730; 0xc18330; 0xc18730; 0xc18330; 0xc1c738;
   0xc0e338; 0x1ff018; 0x3e781c; 0x1f01f1c; 0x3c00fce; 0x1000188; 0x0; 0x0;
   0x0; 0x0; 0x202000; 0x0; 0x0; 0x0; 0x1000000; 0x3fe0aa8;
   0x1ffeffc; 0x3eff8; 0xec1c; 0xecd8; 0xecdc; 0xecd8; 0x3ffecdc; 0x3ffecd8;
   0x183ecdc; 0x183ecd8; 0x1c7ecdc; 0xc6ecd8; 0xc66cdc; 0xeeecd8; 0x6c6cdc; 0x7c6cd8;
   0x7861e0; 0x3863e0; 0x7c7770; 0xee3630; 0x3c7be3c; 0x383b81e; 0x1019004; 0x0;
   0x0; 0x0; 0x0; 0x202000; 0x0; 0x0; 0x0; 0x4000;
   0xf000; 0x1fc00; 0xf9e00; 0x7e77c0; 0x3f8e3f8; 0x3e1c07c; 0xaaaa8; 0x7fffe0;
   0x1eaaa0; 0x1e0000; 0xf0000; 0x7fffe0; 0x3fffe0; 0x7040e0; 0x3060e0; 0x7060e0;
   0x3060e0; 0x7070e0; 0x30b8e0; 0x7fc00; 0x3f9e00; 0x1fc07e0; 0x1e001f8; 0x1c00070;
   0x0; 0x0; 0x0; 0x0; 0x202000; 0x0; 0x0; 0x0;
   0x70600; 0xe0e00; 0x1e0700; 0x3803c0; 0xf555f0; 0x3fffff8; 0x39fffdc; 0x1c1c08;
   0x1c1e00; 0xec780; 0xfc3f8; 0xf0; 0x3fffd0; 0x3fffc0; 0x3070c0; 0x3060c0;
   0x3070c0; 0x3060c0; 0x3070c0; 0x30b8c0; 0x17bcc0; 0x1f9e00; 0xfc07c0; 0x1e001f8;
   0x1c00078; 0x0; 0x0; 0x0; 0x0; 0x202000; 0x0; 0x0;
   0x0; 0x800000; 0x1e00aa8; 0x1ff4ffc; 0x3feff8; 0x5ec1c; 0x60cd8; 0x60cdc;
   0xe0cd8; 0x1c0cdc; 0xffecd8; 0x1fffcdc; 0x1eaacd8; 0xe00cdc; 0xe00cd8; 0x700cdc;
   0x380cd8; 0x1c0cdc; 0xe0cd8; 0x741e0; 0x3e3e0; 0x1f770; 0x33630; 0x7ff3e3c;
   0x3fc101e; 0x1501004; 0x0; 0x0; 0x0; 0x0; 0x202000; 0x0;
   0x0; 0x0; 0x30000; 0x38000; 0x18ffc; 0x18ff8; 0x3ffcc1c; 0x3ffcc88;
   0x3d5ecdc; 0x3806cc8; 0x3837cdc; 0x3833cc8; 0x3830cdc; 0x3838cc8; 0x19d8cdc; 0x3998cc8;
   0x199ccdc; 0x1b8ccc8; 0x1bfccdc; 0x1bfecc8; 0x1f1e160; 0x18003e0; 0x1c00770; 0x1c00e30;
   0x1d41c1c; 0xfc080e; 0x7c0004; 0x0; 0x0; 0x0; 0x0; 0x202000;
   0x0; 0x0; 0x0; 0x60000; 0x60000; 0xe0ffc; 0xc0ff8; 0x1c0c1c;
   0x3ffecc8; 0x3fffcdc; 0x3806cc8; 0x3807cdc; 0x3806cc8; 0x3807cdc; 0xcc8; 0xcdc;
   0xcc8; 0xcdc; 0xcc8; 0xcdc; 0xce8; 0x60; 0x3e0; 0x1555770;
   0x3ffe638; 0x3fffc1c; 0xc0e; 0x4; 0x0; 0x0; 0x0; 0x0;
   0x202000; 0x0; 0x0; 0x0; 0x0; 0x7fff80; 0x7fffc0; 0x60e0c0;
   0x17061d4; 0x3fffffc; 0x3f575f4; 0x3060e0; 0x7fffe0; 0x3fffe0; 0x0; 0x2aaa80;
   0x7fffc0; 0x7000c0; 0x7060c0; 0x7060c0; 0x7060c0; 0x7060c0; 0x7070c0; 0x70b0c0;
   0x7fc40; 0x3f1e00; 0x1fc07f0; 0x3e001f8; 0x1800078; 0x0; 0x0; 0x0;
   0x0; 0x202000; 0x0; 0x0; 0x0; 0x6c0000; 0xec0000; 0x1cc0000;
   0x2aeaaa8; 0x3fffffc; 0x2aeaaa8; 0xc0000; 0xcfff0; 0xcfff0; 0xc0000; 0x1dfffc;
   0xdfff8; 0x1c0000; 0x18aaa0; 0x1cfff0; 0x18eab0; 0x18c630; 0x18c630; 0x38c630;
   0x38c630; 0x3304f30; 0x2703f80; 0x3f0f1f0; 0x3e3c0fc; 0x1c10018; 0x0; 0x0;
   0x0; 0x0; 0x202000; 0x0; 0x0; 0x0; 0x70000; 0x3b0000;
   0x770ff8; 0xe60ff8; 0x470c18; 0x1fe0cd8; 0x1ffedd8; 0xfecd8; 0x76dd8; 0x60cd8;
   0x3c60dd8; 0x3fe0cd8; 0x7ffdd8; 0x107ecd8; 0x38e1dd8; 0x18c0cd8; 0x1cc0cd8; 0xec0cd8;
   0x7c03c0; 0x3c0360; 0x21f0670; 0x23f8e30; 0x371fc3c; 0x3e0e01c; 0x1c00004; 0x0;
   0x0; 0x0; 0x0; 0x202000; 0x0; 0x0; 0x0; 0x6000;
   0x6000; 0xfffff0; 0xffffe0; 0x6000; 0xc6380; 0x1c0380; 0x3fffffc; 0x3fffffc].
Definition hanzi_data_422 : list N :=
  [0xc0380; 0x1c0380; 0x0; 0x7fffe0; 0x7fffe0; 0x7040e0; 0x7060e0; 0x7070e0;
   0x7070e0; 0x7070e0; 0x7038e0; 0x579c40; 0x3f0e00; 0x1fc07f0; 0x3e001fc; 0x180001c;
   0x0; 0x0; 0x0; 0x0; 0x202000; 0x0; 0x0; 0x0;
   0x3838e0; 0x3838e0; 0x17d7df4; 0x3fffffc; 0x3fffffc; 0x3838e0; 0x3ff8e0; 0x3ff8e0;
   0xe0; 0x1ffffe0; 0x1ffffe0; 0xaaaaa0; 0x0; 0x7fffe0; 0x7fffe0; 0x6000e0;
   0x7060e0; 0x6060e0; 0x7070e0; 0x60b0e0; 0x57fce0; 0x3f1e00; 0x1fc07c0; 0x3e003fc;
   0x180007c; 0x0; 0x0; 0x0; 0x0; 0x202000; 0x0; 0x0;
   0x0; 0xc0000; 0xc0aa8; 0xc0ff8; 0xc0ff8; 0xc0c18; 0x2ac0c98; 0x7fc0dd8;
   0x3fc0c98; 0xc0dd8; 0xc0c98; 0xc0dd8; 0xc0c98; 0xc0dd8; 0x3ffec98; 0x3ffedd8;
   0x380ecd8; 0x380ecd8; 0x380ecd8; 0x380e1c0; 0x380e3e0; 0x380e770; 0x3aaee30; 0x3ffec3c;
   0x3ffec1e; 0x380e00c; 0x0; 0x0; 0x0; 0x0; 0x202000; 0x0;
   0x0; 0x0; 0x6000; 0x6000; 0x7fffe0; 0x7fffe0; 0x706060; 0x6aeae0;
   0x7fffe0; 0x6000; 0x1557554; 0x3fffffc; 0x3fffffc; 0x0; 0x7fffe0; 0x3fffe0;
   0x7070e0; 0x3060e0; 0x7070e0; 0x3060e0; 0x7070e0; 0x30b8e0; 0x7fc00; 0x3f0f00;
   0x1fc07f0; 0x1e001f8; 0x1800078; 0x0; 0x0; 0x0; 0x0; 0x202000;
   0x0; 0x0; 0x0; 0x0; 0xaaa000; 0x1ffe7fc; 0x1ffe7f8; 0x180661c;
   0x18066c8; 0x18066dc; 0x18066c8; 0x18066dc; 0x18066c8; 0x1d566dc; 0x1ffe6c8; 0x1ffe6dc;
   0x3386c8; 0x3386dc; 0x3386c8; 0x3186dc; 0x318668; 0x318160; 0x31c3e0; 0x731c730;
   0x230ee38; 0x770741c; 0x3f0380e; 0x1e01004; 0x0; 0x0; 0x0; 0x0;
   0x202000; 0x0; 0x0; 0x0; 0x186700; 0x38e380; 0x70c180; 0x220c1c0;
   0x3fff4f0; 0x2fffef8; 0x3dcfc; 0x30700cc; 0x31e00c0; 0x3fc00c0; 0x1f000c0; 0x2aaa80;
   0x7fffc0; 0x3fffc0; 0x7070c0; 0x3060c0; 0x7070c0; 0x3060c0; 0x7070c0; 0x30b8c0;
   0x7fc40; 0x3f8f00; 0xfc07f0; 0x1e000f8; 0xc00030; 0x0; 0x0; 0x0;
   0x0; 0x202000; 0x0; 0x0; 0x0; 0xc00; 0x1ffdfe0; 0x1ffc7f0;
   0x18e0030; 0x1860730; 0x1860e30; 0x1c70c30; 0x1c31f30; 0x1c79ff0; 0xf9f8f8; 0x78e030;
   0x0; 0x7fffe0; 0x7fffe0; 0x7060e0; 0x6060e0; 0x7060e0; 0x6060e0; 0x7070e0;
   0x60b0e0; 0x4ffc40; 0x3e1e00; 0x1f807f0; 0x3e001f8; 0x1000078; 0x0; 0x0;
   0x0; 0x0; 0x202000; 0x0; 0x0; 0x0; 0x30c00; 0x30c00;
   0xfffff8; 0xebaea8; 0xc30c00; 0xfffff0; 0xfffff0; 0x30c30; 0x1575f70; 0x3fffff0;
   0x3d75750; 0x1a30380; 0x1e301f0; 0x2aaafc; 0x7ffff8; 0x7aaae0; 0x7060e0; 0x7060e0;
   0x7070e0; 0x7030e0; 0x77bce0; 0x3f9e00; 0x1fc0ff0; 0x3e003fc; 0x100007c; 0x0;
   0x0; 0x0; 0x0; 0x202000; 0x0; 0x0; 0x0; 0x1c0;
   0xaa8180; 0x1ffbffc; 0x1ffbff8; 0x1c3b1c0; 0x183b0c0; 0x1c3b0e0; 0x183b860; 0x1ffbf78;
   0x1ff9f3e; 0x51c; 0x3fffc0; 0x7fffc0; 0x3aaac0; 0x7060c0; 0x3060c0; 0x7060c0;
   0x3060c0; 0x7070c0; 0x30b8c0; 0x7fc00; 0x3f0f00; 0xfc07f0; 0x1e001f8; 0x800070;
   0x0; 0x0; 0x0; 0x0; 0x202000; 0x0; 0x0; 0x0;
   0xc0000; 0xe0aa8; 0x70ffc; 0x70ea8; 0x730c0c; 0x638cc8; 0xe1cccc; 0xc0ccc8;
   0x1c0eccc; 0x3fffcc8; 0x3fffccc; 0x700fcc8; 0xccc; 0xcc8; 0x1ffeccc; 0x1ffecc8;
   0x180eccc; 0x180ece8; 0x180e160; 0x180e3e0; 0x180e770; 0x180e638; 0x1ffec1c; 0x1ffec0e;
   0x180e004; 0x0; 0x0; 0x0; 0x0; 0x202000; 0x0; 0x0;
   0x0; 0x5c0000; 0xec0000; 0x1dc0ffc; 0x38c0ff8; 0x11c0c1c; 0x3fffcc8; 0x7fffcdc;
   0x180cc8; 0x11dccdc; 0x318ccc8; 0x399ccdc; 0x198ccc8; 0x19ddcdc; 0x19bfcc8; 0x1dffcdc;
   0xf8ccc8; 0x78ccdc; 0x70cce8; 0x70c160; 0x238e3e0; 0x67c7370; 0x66e3638; 0x7e72e1c;
   0x3c3040e; 0x1810004; 0x0; 0x0; 0x0; 0x0; 0x202000; 0x0;
   0x0; 0x0; 0x701c0; 0x30180; 0x7feffc; 0x7feffc; 0x6301c0; 0x636980;
   0x63eff0; 0x638ffc; 0x66fc1dc; 0x2ecc180; 0x7c8f1f8; 0x38020f0; 0x7fffe0; 0x7fffe0;
   0x7555e0; 0x7060e0; 0x7070e0; 0x7060e0; 0x7070e0; 0x70b8e0; 0x57fc40; 0x3f1e00;
   0x1fc07e0; 0x1e001f8; 0x800070; 0x0; 0x0; 0x0; 0x0; 0x202000;
   0x0; 0x0; 0x0; 0x0; 0x3fffffc; 0x3fffffc; 0x30c00; 0x30c00;
   0xfffff0; 0x1fffff0; 0xc30c30; 0x1c30c30; 0xebaeb0; 0x1fffff0; 0x0; 0x555540;
   0x3fffe0; 0x7fffe0; 0x3000e0; 0x7070e0; 0x3060e0; 0x7070e0; 0x3030e0; 0x73b8e0;
   0xf9e00; 0x7c0fd0; 0x1e003fc; 0x1c0007c; 0x0; 0x0; 0x0; 0x0;
   0x202000; 0x0; 0x0; 0x0; 0x70000; 0x30000; 0x307fc; 0x307f8;
   0x7fff61c; 0x3fff688; 0x186dc; 0x1c6c8; 0x155c6dc; 0x1ffe6c8; 0x1ffe6dc; 0x180f6c8;
   0x181fedc; 0x1ffdec8; 0x1ffd6dc; 0x180c6c8; 0x181c6dc; 0x1ffc6e8; 0x1ffc160; 0x180c3e0;
   0x181c770; 0x180c630; 0x181cc38; 0x1f0c41c; 0x1f1c00c; 0x0; 0x0; 0x0;
   0x0; 0x202000; 0x0; 0x0; 0x0; 0x18700; 0x818300; 0x1e18738;
   0xfdbf38; 0x3fbf38; 0x38338; 0x1018738; 0x301a338; 0x357bff8; 0x3ffbffe; 0x1ff01fc;
   0x0; 0x7fffe0; 0x7fffe0; 0x7000e0; 0x6060e0; 0x7070e0; 0x6070e0; 0x7030e0;
   0x61b8e0; 0x1fdc00; 0x3e0f80; 0x1f807f0; 0x3c000fc; 0x100001c; 0x0; 0x0;
   0x0; 0x0; 0x202000; 0x0; 0x0; 0x0; 0x700300; 0xfffb80;
   0x1ff9c0; 0x300e0; 0x700f8; 0x3fffefe; 0x3fffecc; 0x300c0; 0x700c0; 0xaba8c0;
   0x1fffcc0; 0xc0; 0x555540; 0x7fffe0; 0x7fffe0; 0x7060e0; 0x7060e0; 0x7060e0;
   0x7070e0; 0x70f0e0; 0x57fc40; 0x3f9e00; 0xfc0fc0; 0x1e003f8; 0x1c00078; 0x0].
Definition hanzi_data_423 : list N :=
  [0x0; 0x0; 0x0; 0x202000; 0x0; 0x0; 0x0; 0x70000;
   0x30000; 0x1030ffc; 0x3ff8ff8; 0x3ffcc1c; 0x181cc88; 0x1c3fcdc; 0xe37cc8; 0x773cdc;
   0x3e0cc8; 0x3e0cdc; 0x7f0cc8; 0x1f7ccdc; 0x781fcc8; 0x3557cdc; 0x1ffccc8; 0x1ffccdc;
   0x180c8c8; 0x180c140; 0x180c3e0; 0x180c770; 0x1ffc630; 0x1ffce1c; 0x180c00e; 0x180c004;
   0x0; 0x0; 0x0; 0x0; 0x202000; 0x0; 0x0; 0x0;
   0xc0000; 0xc0000; 0x1c0ffc; 0x180ff8; 0x7ffec1c; 0x3ffecc8; 0x106cdc; 0x386cc8;
   0x386cdc; 0x386cc8; 0x386cdc; 0x386cc8; 0x3ffecdc; 0x3ffecc8; 0x386cdc; 0x386cc8;
   0x387cdc; 0x386ce8; 0x387060; 0x3833e0; 0x383770; 0x383638; 0x7fffe1c; 0x3ffdc0e;
   0x1004; 0x0; 0x0; 0x0; 0x0; 0x202000; 0x0; 0x0;
   0x0; 0xe000; 0x6038; 0x1fff078; 0x1fff1e0; 0x1d779c0; 0xc31d00; 0xe70c00;
   0xf8380; 0x1dc3f0; 0xf8f0fc; 0x3f07c1c; 0x1801c00; 0x555540; 0x7fffe0; 0x7fffe0;
   0x6060e0; 0x7060e0; 0x6060e0; 0x7070e0; 0x61b8e0; 0xfdc40; 0x3e0e00; 0x1fc07c0;
   0x3e001fc; 0x100007c; 0x0; 0x0; 0x0; 0x0; 0x202000; 0x0;
   0x0; 0x0; 0x60000; 0xe0000; 0x1c07fc; 0x1c07f8; 0x3fff61c; 0x3fff6c8;
   0x706dc; 0x306c8; 0xc386dc; 0xe186c8; 0x7dc6dc; 0x3fe6c8; 0x3de6dc; 0x39c06c8;
   0x18f06dc; 0x1c386c8; 0xe1c6dc; 0x70f6e8; 0x786160; 0x3c03e0; 0xff0770; 0x1c78e38;
   0x3c1ec1c; 0x300f40e; 0x1003004; 0x0; 0x0; 0x0; 0x0; 0x202000;
   0x0; 0x0; 0x0; 0x0; 0x2aaa2a8; 0x3ffe7fc; 0x3aae7f8; 0x380661c;
   0x3806688; 0x38066dc; 0x3ffe6c8; 0x3ffe6dc; 0x2bae6c8; 0x3066dc; 0x6066c8; 0x6176dc;
   0xe3e6c8; 0xcf76dc; 0x1dc36c8; 0x19836dc; 0x38038e8; 0x3019d60; 0x3c3e0; 0xf0770;
   0x1e0638; 0x3c0c1c; 0x700c0e; 0x200004; 0x0; 0x0; 0x0; 0x0;
   0x202000; 0x0; 0x0; 0x0; 0xe0000; 0x7e0000; 0xee07fc; 0x1ce07f8;
   0x8e061c; 0x3fff6c8; 0x3fff6dc; 0xe06c8; 0x10e26dc; 0x38e36c8; 0x1ce66dc; 0xcee6c8;
   0xffc6dc; 0x7e86c8; 0x3e06dc; 0x3e06c8; 0x7f06dc; 0xef8668; 0x1cfe160; 0x1cef3e0;
   0x78e7330; 0x30e0638; 0x20e0e1c; 0xf840e; 0x78004; 0x0; 0x0; 0x0;
   0x0; 0x202000; 0x0; 0x0; 0x0; 0x0; 0x3ffe7f8; 0x3ffe7f8;
   0x2aae608; 0x6658; 0x66c8; 0x1ff66d8; 0x1ff66c8; 0x66d8; 0x66c8; 0x3ffe6d8;
   0x3ffe6c8; 0x1b66d8; 0x11b66c8; 0x39376d8; 0x1f366c8; 0xf376d8; 0x2326e8; 0x637160;
   0xe333e0; 0x1d33770; 0x19f3e30; 0x79f3c1c; 0x303980e; 0x11004; 0x0; 0x0;
   0x0; 0x0; 0x202000; 0x0; 0x0; 0x0; 0x6000; 0x6000;
   0x1fffff8; 0x1fffff8; 0x3861c0; 0x186180; 0x3fffffc; 0x3fffff8; 0x157fd54; 0xf6f00;
   0x7e67e0; 0x3f860fc; 0x3c0607c; 0x7fffe8; 0x7fffe0; 0x6020e0; 0x7060e0; 0x6060e0;
   0x7070e0; 0x60b8e0; 0x5fdce0; 0x3f0e00; 0x1fc07f0; 0x3e001fc; 0x100007c; 0x0;
   0x0; 0x0; 0x0; 0x202000; 0x0; 0x0; 0x0; 0x1c0000;
   0xc02a8; 0x1e07fc; 0x3e07f8; 0x77061c; 0x7386c8; 0x1e1c6dc; 0x3c0e6c8; 0x3fffedc;
   0x17fb6c8; 0x6dc; 0x6c8; 0x15556dc; 0x3fff6c8; 0x3fff6dc; 0xc06c8; 0x4c46dc;
   0xecc668; 0x1ccc160; 0x18ce3e0; 0x38c7770; 0x30c3638; 0xc2e1c; 0xf840c; 0x70004;
   0x0; 0x0; 0x0; 0x0; 0x202000; 0x0; 0x0; 0x0;
   0x300000; 0xf00000; 0x1b7f7fc; 0x3b7f3f8; 0x330061c; 0x3002c8; 0x7fffedc; 0x3fffac8;
   0x7fffedc; 0x3302c8; 0x3306dc; 0x3332c8; 0x3336dc; 0x3b32e8; 0x7f36dc; 0x6f32e8;
   0x73367c; 0x633268; 0x6331e0; 0x66331e0; 0x67f3330; 0x6fff338; 0x6c7ff1c; 0x3c03a0c;
   0x3800004; 0x0; 0x0; 0x0; 0x0; 0x202000; 0x0; 0x0;
   0x0; 0x60000; 0x60000; 0x1060ffc; 0x3bfeff8; 0x1ffee1c; 0xeeaec8; 0xe60edc;
   0x660ec8; 0x5775edc; 0x3fffec8; 0x7fffedc; 0xf0ec8; 0x78edc; 0x1ffeec8; 0x1fffedc;
   0x181bec8; 0x1c1dedc; 0x1ff8ee8; 0x1ffc060; 0x18183e0; 0x1c1c770; 0x1ab8638; 0x1ffcc1c;
   0x1ab8c0e; 0x1c1c004; 0x0; 0x0; 0x0; 0x0; 0x202000; 0x0;
   0x0; 0x0; 0x6000; 0x6000; 0x3fffffc; 0x3fffff8; 0x306380; 0x186180;
   0x3c61c0; 0xfe67e0; 0x1c76e78; 0x826000; 0x3fffffc; 0x3aaaab8; 0x380001c; 0x3bffff8;
   0x7fffe0; 0x3000e0; 0x7060e0; 0x3060e0; 0x7070e0; 0x3030e0; 0x77b8e0; 0x1f9e00;
   0x7c0fc0; 0x3e003fc; 0x1c0007c; 0x0; 0x0; 0x0; 0x0; 0x202000;
   0x0; 0x0; 0x0; 0xc0000; 0xc07f8; 0x15d47f8; 0x1ffe608; 0x1ffe658;
   0xc06c8; 0x15d56d8; 0x3fff6c8; 0x1fff6d8; 0x18886c8; 0x1ddc6d8; 0xdb86c8; 0x1f76d8;
   0x18e6c8; 0x1dc6d8; 0xc86c8; 0x3fff6d8; 0x3fff6e8; 0xe0160; 0x3e03e0; 0x770770;
   0xe38630; 0x1c1e41c; 0x380f80e; 0x3003004; 0x0; 0x0; 0x0; 0x0;
   0x202000; 0x0; 0x0; 0x0; 0x106040; 0x3060e0; 0x3861c0; 0x2baeba8;
   0x3fffffc; 0x3aaaab8; 0x380001c; 0x39fff98; 0x39fff9c; 0x180180; 0x1d5580; 0x1fff80;
   0x0; 0x2aaaa0; 0x7fffe0; 0x3aaae0; 0x7060e0; 0x3060e0; 0x7070e0; 0x3030e0;
   0x77b8e0; 0x3f9e00; 0x1fc0fd0; 0x3e003fc; 0x180007c; 0x0; 0x0; 0x0;
   0x0; 0x202000; 0x0; 0x0; 0x0; 0x0; 0x1ffe000; 0x1ffe7fc;
   0x18067f8; 0x1c0661c; 0x1ffe688; 0x1ffe6dc; 0x18066c8; 0x1c066dc; 0x1ffe6c8; 0x1ffe6dc;
   0x186c8; 0x1c6dc; 0x3ffc6c8; 0x3ffe6dc; 0x32676c8; 0x3373edc; 0x3331668; 0x3198160;
   0x318c1e0; 0x31ce370; 0x38e7638; 0x1862e1c; 0x1f3040e; 0x1f30004; 0x0; 0x0;
   0x0; 0x0; 0x202000; 0x0; 0x0; 0x0; 0x0; 0x2aaaa0;
   0x7fffe0; 0x3aaae0; 0x7070e0; 0x3070e0; 0x7070e0; 0x30b8e0; 0x1f9f40; 0xfe0ff8].
Definition hanzi_data_424 : list N :=
  [0x3f001fc; 0x1000000; 0x1ffdff8; 0x1ff9ff8; 0x1c1d818; 0x1889998; 0x1ddd998; 0x1889998;
   0x1cdd998; 0x18c9998; 0x1fddfd8; 0xf60ee0; 0x1e79c70; 0x381f83c; 0x1005004; 0x0;
   0x0; 0x0; 0x0; 0x202000; 0x0; 0x0; 0x0; 0x0;
   0x3fff000; 0x3fff7fc; 0x38c37f8; 0x38c761c; 0x38c36c8; 0x3fff6dc; 0x3aeb6c8; 0x38c76dc;
   0x38c36c8; 0x3fff6dc; 0x3ffb6c8; 0x38076dc; 0x3bf36c8; 0x3bf36dc; 0x3a136c8; 0x3b1365c;
   0x3a13668; 0x3b131e0; 0x3bf31e0; 0x3953b30; 0x3811b38; 0x3801e1c; 0x3f00c0e; 0x1f00c04;
   0x0; 0x0; 0x0; 0x0; 0x202000; 0x0; 0x0; 0x0;
   0xe000; 0xe000; 0x3fffff0; 0x3fffff0; 0x1c030; 0xaaea30; 0xffff30; 0xe0c030;
   0x3f5d570; 0x3fffff0; 0x1e06030; 0xeafab8; 0xffffb0; 0x1c1c38; 0x781f38; 0x3fffff8;
   0x3fffff8; 0x618618; 0x71c618; 0x61c618; 0x77c61c; 0x3ef00c; 0x1fc7f0c; 0x3e00fce;
   0x1000184; 0x0; 0x0; 0x0; 0x0; 0x202000; 0x0; 0x0;
   0x0; 0x60000; 0xe0000; 0xc07fc; 0x3fff7f8; 0x3fff61c; 0xc086c8; 0xc0c6dc;
   0xe0c6c8; 0x61c6dc; 0x6186c8; 0x7fffedc; 0x3fffec8; 0x7fffedc; 0x6c8; 0x15546dc;
   0x1ffe6c8; 0x1ffe65c; 0x1806668; 0x1c06160; 0x18061e0; 0x1c06370; 0x1aae638; 0x1ffe61c;
   0x1ffe40e; 0x1c06004; 0x0; 0x0; 0x0; 0x0; 0x202000; 0x0;
   0x0; 0x0; 0xe0000; 0xe0000; 0x18ec7fc; 0x1cee7f8; 0xc6761c; 0xe636c8;
   0x763edc; 0x1f06c8; 0x7f06dc; 0xf386c8; 0x1c1f6dc; 0x38e76c8; 0x10e16dc; 0x8e06c8;
   0x18ee6dc; 0x1ce66c8; 0xce765c; 0x6e3668; 0x7f3960; 0x1b01e0; 0x3b8370; 0xf3c738;
   0x3e1f61c; 0x3c07a0e; 0x3001004; 0x0; 0x0; 0x0; 0x0; 0x202000;
   0x0; 0x0; 0x0; 0xe0180; 0x60180; 0xff0180; 0xff3ffc; 0xe3bffc;
   0x618180; 0x71c180; 0x1ffeba8; 0x1ffdffc; 0x1819998; 0x199d99c; 0x1999998; 0x199d99c;
   0x1999ff8; 0x19ddffc; 0x18983c0; 0x19dc7e0; 0x18d8fe0; 0x18dddf0; 0xcb9b8; 0x76119c;
   0xe7018c; 0x3c3c18c; 0x301f180; 0x2006180; 0x0; 0x0; 0x0; 0x0;
   0x202000; 0x0; 0x0; 0x0; 0x0; 0x3fff000; 0x3fff7fc; 0x38037f8;
   0x3d5761c; 0x3ffb6c8; 0x3d576dc; 0x38036c8; 0x3fff6dc; 0x3ffb6c8; 0x10056dc; 0xaaa6c8;
   0x1ffe6dc; 0x1aae6c8; 0x18066dc; 0x1ffe6c8; 0x1ffe6dc; 0x1806668; 0x1d56160; 0x1ffe3e0;
   0x1d56330; 0x1806638; 0x1ffe61c; 0x1ffe00e; 0x1806004; 0x0; 0x0; 0x0;
   0x0; 0x202000; 0x0; 0x0; 0x0; 0x60380; 0x63ff8; 0x3ff7ffc;
   0x3ff2ba8; 0x1d7bff8; 0xe3c380; 0xe6fffc; 0x7e2ae8; 0x3c3fc0; 0x3c3fe0; 0x1ff3070;
   0x3c3df3e; 0x300df1c; 0x3fffe0; 0x7fffe0; 0x3000e0; 0x7060e0; 0x3060e0; 0x7070e0;
   0x3030e0; 0x77b8e0; 0x1f9e00; 0xfc0ff4; 0x1e003fc; 0x180001c; 0x0; 0x0;
   0x0; 0x0; 0x202000; 0x0; 0x0; 0x0; 0x6c0000; 0x1ec02a8;
   0x18c07fc; 0x3fff6a8; 0x3fff61c; 0xc06c8; 0x1ffe6dc; 0x1ffe6c8; 0x18c66dc; 0x1ffe6c8;
   0x1ffe6dc; 0x18c66c8; 0x1ffe6dc; 0x1ffe6c8; 0x18c66dc; 0x6026c8; 0x7fff6dc; 0x3fff668;
   0x5755160; 0x60c1e0; 0x61c370; 0x638638; 0x630e1c; 0x7c040c; 0x7c0004; 0x0;
   0x0; 0x0; 0x0; 0x202000; 0x0; 0x0; 0x0; 0x404000;
   0xe0c000; 0x61c7fc; 0x3187f8; 0x3fff61c; 0x3fff6c8; 0x1986dc; 0x1986c8; 0x1fff6dc;
   0x1ffe6c8; 0x19986dc; 0x3bba6c8; 0x7fff6dc; 0x3bba6c8; 0x19986dc; 0x1bba6c8; 0x1fff6dc;
   0x398668; 0x79c160; 0x79c3e0; 0xd9e770; 0x1d9b638; 0x399be1c; 0x319980e; 0x198004;
   0x0; 0x0; 0x0; 0x0; 0x202000; 0x0; 0x0; 0x0;
   0x7000; 0xe000; 0x3fffffc; 0x3fffffc; 0x386061c; 0x3ffffec; 0x17ffff4; 0x60600;
   0x7fffe0; 0x7fffe0; 0x60600; 0x3fffffc; 0x3fffffc; 0x1c0380; 0x7d55e0; 0x3fffff8;
   0x3fd55fc; 0x3860c8; 0x3871c0; 0x3830c0; 0x3fb9c0; 0x3f9e00; 0x1fc0fc0; 0x3e003fc;
   0x1000078; 0x0; 0x0; 0x0; 0x0; 0x202000; 0x0; 0x0;
   0x0; 0x1c0000; 0xc1ff8; 0x1fffffc; 0x1ffeba8; 0x1c031c; 0x1ffc308; 0x1ffc31c;
   0xc0fe8; 0x7fffffc; 0x3ffec68; 0x1555c7c; 0xaa8c68; 0x1ffcc7c; 0x180cc68; 0x1d4cffc;
   0x18ccfe8; 0x1dcc75c; 0x18cc308; 0x1dcc31c; 0x18cc308; 0x11c575c; 0xf61ff8; 0x1e7dffc;
   0x381e000; 0x3006000; 0x0; 0x0; 0x0; 0x0; 0x202000; 0x0;
   0x0; 0x0; 0x0; 0x2aaaaa8; 0x3fffff8; 0x2aaaeb8; 0x1cc638; 0x1ffe738;
   0x15d7738; 0xfffbb8; 0x1fffff8; 0xaae3f8; 0x1ffe778; 0x86338; 0x3ffe738; 0x6338;
   0xffff38; 0xffff38; 0xc10718; 0xc18318; 0xc18718; 0xc1c318; 0xc6e71c; 0x1ef00c;
   0xfc7f0c; 0x3e00fee; 0x18001c4; 0x0; 0x0; 0x0; 0x0; 0x202000;
   0x0; 0x0; 0x0; 0x1b03b0; 0x1b83b0; 0x1ff9ff0; 0x1ff9ff8; 0x18c398;
   0x3fffffc; 0x3fffffc; 0x360660; 0x7373670; 0x3b3bf30; 0x3f1c71c; 0xc; 0x7fffc0;
   0x3fffc0; 0x7000c0; 0x3060c0; 0x7060c0; 0x3060c0; 0x7070c0; 0x30f0c0; 0x57fcc0;
   0x3f9e00; 0xfc0ff0; 0x1e003f8; 0xc00070; 0x0; 0x0; 0x0; 0x0;
   0x202000; 0x0; 0x0; 0x0; 0x300060; 0x1f7e0c0; 0x3b7effc; 0x300ffc;
   0x3fff754; 0x2bba318; 0x7763f8; 0x6f21e0; 0x6763c0; 0x26327f0; 0x7fffe7c; 0x3cbf81c;
   0x1800004; 0x7fffe0; 0x7fffe0; 0x6000e0; 0x7060e0; 0x6060e0; 0x7070e0; 0x60b8e0;
   0xfdc40; 0x3f0e00; 0x1fc07f0; 0x3e001fc; 0x100001c; 0x0; 0x0; 0x0;
   0x0; 0x202000; 0x0; 0x0; 0x0; 0x40c000; 0xe1c7f8; 0x7187f8;
   0xbba608; 0x1fff658; 0x1aeb6c8; 0x1ecf6d8; 0x1ecb6c8; 0x1fdb6d8; 0x1bdb6c8; 0x19d36d8;
   0x1fff6c8; 0x1fff6d8; 0x6c8; 0xffe6d8; 0xffe6c8; 0xc066d8; 0xc066e8; 0xffe160;
   0xffe3e0; 0xc06770; 0xc06630; 0xffec1c; 0xffe40e; 0xc06004; 0x0; 0x0].
Definition hanzi_data_425 : list N :=
  [0x0; 0x0; 0x202000; 0x0; 0x0; 0x0; 0x30000; 0x38000;
   0x7f8ffc; 0x7acff8; 0x30cc1c; 0x3ffecc8; 0x7fffcdc; 0x6e7cc8; 0x1c77cdc; 0x39becc8;
   0x1196cdc; 0x3ffecc8; 0x3ffecdc; 0x6cc8; 0x1ff6cdc; 0xaa6cc8; 0x1ff6cdc; 0x1ff6ce8;
   0x7060; 0x1ff23e0; 0x1d73770; 0x1833638; 0x1ff341c; 0x1ff180e; 0x1831004; 0x0;
   0x0; 0x0; 0x0; 0x202000; 0x0; 0x0; 0x0; 0x7000;
   0xe000; 0x7fffffe; 0x2aaaae8; 0x1555570; 0xffffe0; 0x0; 0x7fffe0; 0x7fffe0;
   0x600060; 0x7fffe0; 0x2aaaa0; 0xfdfdf8; 0xfdfdf8; 0xc58d98; 0xcdadb8; 0xddbdf8;
   0xdfad98; 0xf5bd98; 0xe7bdf8; 0xe77dd8; 0x2c6f998; 0x6c7dd9c; 0x3c38fec; 0x3c105e4;
   0x0; 0x0; 0x0; 0x0; 0x202000; 0x0; 0x0; 0x0;
   0x600c0; 0x301c0; 0x1ff3ffc; 0xc3bffc; 0xe7cc10; 0x7ece30; 0x7c0630; 0x3ffbffc;
   0x3c3fffc; 0x2ffc000; 0xff1ff8; 0x181818; 0x7fff818; 0x3fffff8; 0x1d58; 0x1ff9818;
   0x1ffdff8; 0x1989ff8; 0x199c180; 0x188abaa; 0x18dfffe; 0x1be8180; 0x1f70180; 0x383e180;
   0x300e180; 0x0; 0x0; 0x0; 0x0; 0x202000; 0x0; 0x0;
   0x0; 0x6000; 0x6000; 0x6000; 0x7fffe0; 0x7fffe0; 0x2aeaa0; 0x6000;
   0x6000; 0x6000; 0x3fffffc; 0x3fffffc; 0x70c00; 0x71c00; 0x370ce0; 0x771ce0;
   0xe70c60; 0x1c70c70; 0x1870e38; 0x3870e1c; 0x387060e; 0x1070708; 0x70380; 0x751c0;
   0x3e0e0; 0x3e040; 0x0; 0x0; 0x0; 0x0; 0x202000; 0x0;
   0x0; 0x0; 0xe0380; 0xe0380; 0x60380; 0x63ff8; 0x73ff8; 0x2ab2ba8;
   0x3ff0380; 0x3ab0380; 0x1c3fffc; 0xc3bffc; 0xc7d7d4; 0xc6c6e0; 0xe6d6c0; 0x6eb6f8;
   0x7c367c; 0x7c266c; 0x3c666c; 0x38666e; 0x3c2666; 0x7e0660; 0xff0670; 0xe78638;
   0x3c3c61c; 0x380e79c; 0x1004788; 0x0; 0x0; 0x0; 0x0; 0x202000;
   0x0; 0x0; 0x0; 0x180; 0x3ff8180; 0x1ff8180; 0x381aba8; 0x181bffc;
   0x181aba8; 0x1818180; 0x1f98180; 0xf9fffc; 0x1bffc; 0x155d774; 0x3ff86e0; 0x3ff9e78;
   0x18d9e78; 0x18db67c; 0x18db66c; 0x1d9b66c; 0xf9a66c; 0xf1a666; 0x718620; 0xf18630;
   0xf98638; 0x3dd875c; 0x38f879c; 0x105838c; 0x0; 0x0; 0x0; 0x0;
   0x202000; 0x0; 0x0; 0x0; 0xc0180; 0xc0180; 0x3fc0180; 0x3fc0ba8;
   0x3fc1ff8; 0xc0ba8; 0x1ffc180; 0x1ffc180; 0x1fffffc; 0x180fffc; 0x19cd7d4; 0x198c6c0;
   0x19cded8; 0x198def8; 0x19cde78; 0x198f668; 0x19cf66c; 0x188c66c; 0x19cc664; 0xc8660;
   0x770670; 0x1e38630; 0x7c1f618; 0x300f7dc; 0x3c8; 0x0; 0x0; 0x0;
   0x0; 0x202000; 0x0; 0x0; 0x0; 0x1801c0; 0x180180; 0x1801c0;
   0xba8ba8; 0x1ffdff8; 0xba8ba8; 0x1801c0; 0x180180; 0x3ffdffc; 0x3ffdffc; 0x1775774;
   0x660260; 0x1f78f78; 0x1e79a78; 0x1f7df7c; 0x366da68; 0x376f76c; 0x366e26c; 0x7776776;
   0x630230; 0x730730; 0x638238; 0x71c71c; 0x7ce3cc; 0x3c43cc; 0x0; 0x0;
   0x0; 0x0; 0x202000; 0x0; 0x0; 0x0; 0xe0180; 0x30e0180;
   0x38e0180; 0x1bfcff8; 0x1ffdff8; 0xce0180; 0xee0180; 0x6e0180; 0x7fffffc; 0x3fffffc;
   0x1c1774; 0xe0260; 0x70f78; 0x1ffca78; 0x1ffff7c; 0x181fa68; 0x1819f6c; 0x1ffb26c;
   0x1ff9776; 0x1818230; 0x1818730; 0x1818238; 0x1ff871c; 0x1ff83dc; 0x18183cc; 0x0;
   0x0; 0x0; 0x0; 0x202000; 0x0; 0x0; 0x0; 0x6000;
   0x6000; 0x6000; 0xffffe0; 0xfffff0; 0xaaeaa0; 0x6000; 0x6000; 0x6000;
   0x3fffffc; 0x3fffffc; 0x6000; 0x61c0; 0x60c0; 0x61c0; 0xffe0c0; 0xffe0c0;
   0x60e0; 0x61e0; 0x63e0; 0x6770; 0x7e38; 0x7fffc1c; 0x3fff01e; 0x3ff000c;
   0x0; 0x0; 0x0; 0x0; 0x202000; 0x0; 0x0; 0x0;
   0xc00180; 0xc00180; 0xc30180; 0xc33ff8; 0xc33ffc; 0xc32ba8; 0xc30180; 0xc30180;
   0xc355d4; 0xc33ffc; 0xc37ffc; 0xc30380; 0xc30398; 0xc303b8; 0xfb3f98; 0xffbf98;
   0xdf8398; 0xc083b8; 0xc003b8; 0xc003f8; 0xc003fc; 0x8003cc; 0x7ffff8c; 0x3fffe0e;
   0x4; 0x0; 0x0; 0x0; 0x0; 0x202000; 0x0; 0x0;
   0x0; 0xe0300; 0xe0300; 0xe0300; 0xe7ff8; 0xe7ff8; 0xe2ba8; 0xe0300;
   0x1e0300; 0x7e5754; 0xeefffc; 0x1cefffc; 0x38e0300; 0x30e0338; 0xe0338; 0xe7f38;
   0xe7f38; 0xe0338; 0xe0338; 0xe0378; 0xe0378; 0xe03fc; 0x3cc; 0x7ffff8c;
   0x3fffe0e; 0x4; 0x0; 0x0; 0x0; 0x0; 0x202000; 0x0;
   0x0; 0x0; 0x180; 0x180; 0x1c00180; 0xc09ff8; 0xc1dffc; 0xe38ba8;
   0x670180; 0x670180; 0x7e15d4; 0x3c3ffc; 0x3c3ffc; 0x380380; 0x7c0398; 0x6e0398;
   0xee3f98; 0xe73f98; 0x1c78398; 0x18383b8; 0x181e3b8; 0xc3f8; 0x3fc; 0x3cc;
   0x7ffff8c; 0x3fffe0e; 0x4; 0x0; 0x0; 0x0; 0x0; 0x202000;
   0x0; 0x0; 0x0; 0x180; 0x180; 0x3ffc180; 0x3ffbff8; 0x183ffc;
   0x180180; 0x180180; 0x180180; 0x183ffc; 0x2babffc; 0x3ffd5d4; 0x3ffc180; 0x180198;
   0x180198; 0x183f98; 0x183f98; 0x180198; 0x1801b8; 0x1801b8; 0x1801f8; 0x1801fc;
   0x3cc; 0x7ffff8c; 0x3fffe0e; 0x4; 0x0; 0x0; 0x0; 0x0;
   0x202000; 0x0; 0x0; 0x0; 0x180; 0x1ff8180; 0x1ff8180; 0x1aabff8;
   0x1c03ffc; 0x1800180; 0x1c00180; 0x1800180; 0x1d53ffc; 0x1ffbffc; 0x1ff97d4; 0x818380;
   0x18398; 0x18398; 0x1bf98; 0x301bf98; 0x7018398; 0x30183b8; 0x3ff83b8; 0x3ff83f8;
   0x1ff03fc; 0x3cc; 0x7ffff8c; 0x3fffe0e; 0x4; 0x0; 0x0; 0x0;
   0x0; 0x202000; 0x0; 0x0; 0x0; 0xc01c0; 0xe0180; 0x1f01c0;
   0x3b8ffc; 0x71dffc; 0x1e0eba8; 0x7d871c0; 0x31c3180; 0xf15d4; 0x239ffc; 0x71dffc].
Definition hanzi_data_426 : list N :=
  [0x380180; 0x1c0198; 0x8f0198; 0x1c7df98; 0xe09f98; 0x700198; 0x3c01b8; 0x1f81b8;
   0x3e1f8; 0x1c1fc; 0x3cc; 0x7ffff8c; 0x3fffe06; 0x4; 0x0; 0x0;
   0x0; 0x0; 0x202000; 0x0; 0x0; 0x0; 0x180; 0xaa8180;
   0x1ff8180; 0xeb9ff8; 0x1c19ffc; 0xc18180; 0x1c18180; 0xff8180; 0x1ffbffc; 0xc1bffc;
   0x1c197d4; 0xc18380; 0x1d58398; 0xff8398; 0x1ff9f98; 0xc19f98; 0x1c18398; 0xc183b8;
   0x3ffe3b8; 0x3ffe3f8; 0x15543fc; 0x3cc; 0x7ffff8c; 0x3fffe0e; 0x1554004; 0x0;
   0x0; 0x0; 0x0; 0x202000; 0x0; 0x0; 0x0; 0x1c0;
   0x3ffe180; 0x3ffe1c0; 0x38e1ffc; 0x1861ffc; 0x3860ba8; 0x18701c0; 0x1830180; 0x1fbfffc;
   0xf1fffc; 0x50f5d4; 0xaa8180; 0x1ffc198; 0x1ab8198; 0x181df98; 0x1819f98; 0x181c198;
   0x18181b8; 0x1ffc1b8; 0x1ff81f8; 0x1fc; 0x3cc; 0x7ffffcc; 0x3fffe0e; 0x4;
   0x0; 0x0; 0x0; 0x0; 0x202000; 0x0; 0x0; 0x0;
   0x580180; 0xd80180; 0x1d80180; 0x3981ff8; 0x15d5ffc; 0x3ffcba8; 0x7ffc180; 0x18c180;
   0x118d5d4; 0x338fffc; 0x1b8fffc; 0x1b8c180; 0x1f0c198; 0xf0c198; 0xf6df98; 0x27fdf98;
   0x673e198; 0x278e1b8; 0x3fc61f8; 0x3ce01f8; 0x1c701fc; 0x3cc; 0x7ffff8c; 0x3fffe0e;
   0x4; 0x0; 0x0; 0x0; 0x0; 0x202000; 0x0; 0x0;
   0x0; 0x10180; 0x30180; 0x570180; 0xff8180; 0xffdff8; 0x61dff8; 0x70e180;
   0x306180; 0x1fff5d4; 0x1ffdffc; 0x1c01ffc; 0x1800380; 0x1d503b8; 0x1ff83b8; 0x1ffdf98;
   0x1801fb8; 0x1c00398; 0x1aa83b8; 0x1ffc3f8; 0xaa83f8; 0x3dc; 0xf8c; 0x7ffff0c;
   0x3fffc0e; 0x4; 0x0; 0x0; 0x0; 0x0; 0x202000; 0x0;
   0x0; 0x0; 0xc00c0; 0xe00c0; 0x610c0; 0x637f8; 0x3ff77fc; 0x3ff62e8;
   0x383e0c0; 0x19bc0c0; 0x1d98ffc; 0xd98ffc; 0x980ffc; 0x18c180; 0x1cc1d8; 0x3ce198;
   0x7c7fd8; 0x6e3f98; 0xe639d8; 0xc711b8; 0x1c381f8; 0x381c1f8; 0x100c1fc; 0xfcc;
   0x3ffff0c; 0x3fff80e; 0x4; 0x0; 0x0; 0x0; 0x0; 0x202000;
   0x0; 0x0; 0x0; 0x10000c0; 0x30aa8c0; 0x31ff8c0; 0x330c7fc; 0x330c7fc;
   0x330e0c0; 0x337e0c0; 0x337e0c0; 0x33677fc; 0x33637fc; 0x33735d4; 0x33358c0; 0x333f1d8;
   0x333c0d8; 0x33187d8; 0x33187d8; 0x300c1d8; 0x300e0d8; 0x30071fc; 0x3e030f8; 0x1e011fc;
   0x3ec; 0x7ffffcc; 0x3fffe0e; 0x4; 0x0; 0x0; 0x0; 0x0;
   0x202000; 0x0; 0x0; 0x0; 0xc01c0; 0x18c60c0; 0x18cc1c0; 0x18ccae8;
   0xcdcffc; 0xcd8ae8; 0x4c01c0; 0x1ffe0c0; 0x1fff5d4; 0x1807ffc; 0x1957ffc; 0x1be6180;
   0x1b361d8; 0x1b26198; 0x1b37fd8; 0x1ba6f98; 0x1bf61d8; 0x18261b8; 0x18061f8; 0x1e061f8;
   0x1e061fc; 0x3cc; 0x7ffff8c; 0x3fffe0e; 0x1554004; 0x0; 0x0; 0x0;
   0x0; 0x202000; 0x0; 0x0; 0x0; 0xc0; 0xff8c0; 0xff8c0;
   0x3fe27f8; 0x3fe77fc; 0x38620c0; 0x187f0c0; 0x19fe0c0; 0x19e7ffc; 0x1b62ffc; 0x1f671c0;
   0xe7e180; 0xe7f1d8; 0xc62b98; 0x1c67fd8; 0x1ee2b98; 0x1fff1d8; 0x3b7f9b8; 0x33679f8;
   0x33e09f8; 0x1601fc; 0x203cc; 0x7ffff8c; 0x3fffe0e; 0x4; 0x0; 0x0;
   0x0; 0x0; 0x202000; 0x0; 0x0; 0x0; 0x1c0; 0x3fff0c0;
   0x3fff1c0; 0x3367ae8; 0x376fffc; 0x3060ae8; 0x3f7c1c0; 0x37ef0c0; 0x31e15d4; 0x1d8ffc;
   0x15dcffc; 0x3ffe180; 0x15de1d8; 0x18f198; 0x1ffffd8; 0x18cf98; 0x1ffc1d8; 0x1ffc198;
   0x18c1f8; 0x3ffc1b8; 0x3ffc1fc; 0xc3cc; 0x7ffff8c; 0x3fffe0e; 0x1554004; 0x0;
   0x0; 0x0; 0x0; 0x202000; 0x0; 0x0; 0x0; 0xd180c0;
   0xd1a0c0; 0x3fff0c0; 0xc9bff8; 0x7fdd7fc; 0x3fff2e8; 0x1b360c0; 0x2b760c0; 0x7bffffc;
   0x3993ffc; 0x1fff1c0; 0x1ffe180; 0x18061d8; 0x18c6b98; 0x18c6fd8; 0x18c6f98; 0x18e61d8;
   0x19661b8; 0x7f01f8; 0x1e3e1f8; 0x3c1f1fc; 0x10033cc; 0x7ffff8c; 0x3fffe06; 0x1554004;
   0x0; 0x0; 0x0; 0x0; 0x202000; 0x0; 0x0; 0x0;
   0x0; 0xffffe0; 0xffffe0; 0xffffe0; 0xe00060; 0xe00060; 0xe00060; 0xe00060;
   0xf55560; 0xffffe0; 0xffffe0; 0x6000; 0x6140; 0x61c0; 0x5561c0; 0xffe0c0;
   0x1ffe1c0; 0x61e0; 0x61e0; 0x63e0; 0x6770; 0x7e38; 0x7fffc3c; 0x3ffe01c;
   0x3ff000c; 0x0; 0x0; 0x0; 0x0; 0x202000; 0x0; 0x0;
   0x0; 0x0; 0x2007f8; 0x3187f8; 0x318618; 0x318618; 0x318618; 0x718618;
   0x318618; 0x71c7f8; 0x7187f8; 0x71c1c0; 0x60c0c0; 0x61c1d8; 0x60cfd8; 0x60cfd8;
   0xe0c0d8; 0xc0e1d8; 0xc0e0d8; 0x1c061d8; 0x1c06ed8; 0x1c07ff8; 0x38033fe; 0x380387c;
   0x3001804; 0x1001000; 0x0; 0x0; 0x0; 0x0; 0x202000; 0x0;
   0x0; 0x0; 0x38000; 0x38ff8; 0x18ff8; 0x18e18; 0x1ce18; 0x3ffce18;
   0x3ffee18; 0x3806e18; 0x3807ff8; 0x3803ff8; 0x380b9c0; 0x381c180; 0x38381d8; 0x3870f98;
   0x18f0fd8; 0x18c0198; 0x19c01d8; 0x1800198; 0x18001d8; 0x1800f98; 0x1c01ff8; 0x18003fe;
   0x1d4007c; 0xfe0000; 0x7c0000; 0x0; 0x0; 0x0; 0x0; 0x202000;
   0x0; 0x0; 0x0; 0x0; 0x2aaaaa8; 0x3fffffc; 0x2aaaea8; 0x600;
   0xfffe00; 0x7fff00; 0x600380; 0x6001c0; 0x7f80f0; 0x7f807c; 0x7ffff8; 0x7fffe0;
   0x600060; 0x600060; 0x7fffe0; 0x7fffe0; 0x6180; 0x1ffe1c0; 0xffe0c0; 0x61e0;
   0x67e0; 0x7ffff78; 0x3fff81e; 0xc; 0x0; 0x0; 0x0; 0x0;
   0x202000; 0x0; 0x0; 0x0; 0xe0000; 0xe07f8; 0xe07fc; 0xe0618;
   0xe061c; 0x1ffe618; 0x1fff61c; 0xe0618; 0xe07fc; 0xe07f8; 0xe01c0; 0xe00c0;
   0x3fff1dc; 0x3ffffd8; 0x1e0fdc; 0x1e00d8; 0x1f01dc; 0x3b00d8; 0x3381dc; 0x738ed8;
   0xf1dffc; 0xe0e3fe; 0x3c0787c; 0x3803c00; 0x1001800; 0x0; 0x0; 0x0].
Definition hanzi_data_427 : list N :=
  [0x0; 0x202000; 0x0; 0x0; 0x0; 0x0; 0x2aaa7f8; 0x3fff7fc;
   0x3fff618; 0x61861c; 0x618618; 0x61861c; 0x618618; 0x6187fc; 0x6187f8; 0x6181c0;
   0x3fff8c0; 0x7fff9d8; 0x6187d8; 0x61c7d8; 0x6180d8; 0x61c1d8; 0x60c0d8; 0x60c1d8;
   0x60eed8; 0x60eff8; 0x6063fe; 0x60707c; 0x603800; 0x601000; 0x0; 0x0;
   0x0; 0x0; 0x202000; 0x0; 0x0; 0x0; 0x1c0000; 0x180ff8;
   0x1c0ff8; 0x180c18; 0x1c0c18; 0x180c18; 0x1ccc18; 0x18cc18; 0x1ccff8; 0x18cff8;
   0x3fcc1c0; 0x3f8c180; 0x1cc1d8; 0x18cf98; 0x1ccfd8; 0x18c198; 0x1cc1d8; 0x18c198;
   0x1cc1d8; 0x18cf98; 0x1cdff8; 0x18c3fe; 0x7fffc7c; 0x3fff800; 0x0; 0x0;
   0x0; 0x0; 0x0; 0x202000; 0x0; 0x0; 0x0; 0x0;
   0x7f8; 0xfff7f8; 0x7ff618; 0x61c618; 0x60c618; 0x71c618; 0x30c618; 0x31c7f8;
   0x3f8c7f8; 0x3f9c0c0; 0x381c0c0; 0x183c0d8; 0x183c7d8; 0x1c7e7d8; 0xc6e0d8; 0xee60d8;
   0x6c60d8; 0x7c70d8; 0x3836d8; 0x7c37d8; 0xee3bfe; 0x3c79c7c; 0x383dc04; 0x101c800;
   0x0; 0x0; 0x0; 0x0; 0x202000; 0x0; 0x0; 0x0;
   0xc0000; 0xc0ff8; 0xc0ff8; 0xc0e18; 0x7fffe18; 0x3fffe18; 0xc0e18; 0xc0e18;
   0xc0ff8; 0xc0ff8; 0x1fff1c0; 0x3fff0c0; 0x1d5f1d8; 0x1c0cfd8; 0xc1cfd8; 0xe180d8;
   0x7381d8; 0x3f00d8; 0x3f01d8; 0x1e0ed8; 0x3f1ff8; 0xfbc3fe; 0x3f1f87c; 0x3c07800;
   0x3001800; 0x0; 0x0; 0x0; 0x0; 0x202000; 0x0; 0x0;
   0x0; 0x800000; 0x1f807f8; 0x1ffc7f8; 0xfe618; 0xc6618; 0xc0618; 0xc0618;
   0xc0618; 0xc07f8; 0xc07f8; 0x3fff0c0; 0x3fff0c0; 0x1c00d8; 0x1e07d8; 0x1e07d8;
   0x1e00d8; 0x3e00d8; 0x3700d8; 0x7700d8; 0x638ed8; 0xe1cfd8; 0x1c0e3fe; 0x3c0f07c;
   0x3803804; 0x3001000; 0x0; 0x0; 0x0; 0x0; 0x202000; 0x0;
   0x0; 0x0; 0xe0000; 0xe07f8; 0xf07f8; 0x1b0618; 0x3b8618; 0x318618;
   0x71c618; 0xe0e618; 0x1c077f8; 0x7aabff8; 0x37fd8c0; 0x7fc0c0; 0x60c0d8; 0x60c7d8;
   0x60c7d8; 0x60c0d8; 0x74c0d8; 0x3ec0d8; 0x11cc0d8; 0x300ced8; 0x300cfd8; 0x380c3fe;
   0x1ffc07c; 0x1ffc004; 0x550000; 0x0; 0x0; 0x0; 0x0; 0x202000;
   0x0; 0x0; 0x0; 0x60000; 0x607f8; 0x707fc; 0x38608; 0x73861c;
   0x618608; 0xe1c61c; 0xc0e608; 0x1c077fc; 0x3fffff8; 0x3fff8c0; 0x70038c0; 0xdc;
   0x7c8; 0x1fff7dc; 0x1ffe0c8; 0x1c070dc; 0x18060c8; 0x1c078dc; 0x1806ec8; 0x1c07ffc;
   0x18060fe; 0x1fff03c; 0x1ffe000; 0x1c07000; 0x0; 0x0; 0x0; 0x0;
   0x202000; 0x0; 0x0; 0x0; 0x238000; 0x338ff8; 0xf38ffc; 0xe38e18;
   0x1c38e1c; 0x838e18; 0x3fffe1c; 0x3fffe18; 0x18ffc; 0x18ff8; 0x15581c0; 0x3ff80c0;
   0x1ff81d8; 0x1838fd8; 0x1c7cfd8; 0xc6c0d8; 0xe6c1d8; 0x6ec0d8; 0x7ce1d8; 0x386ed8;
   0x7c7ff8; 0xfe33fe; 0x1ef387c; 0x3c39c00; 0x1010800; 0x0; 0x0; 0x0;
   0x0; 0x202000; 0x0; 0x0; 0x0; 0xc0000; 0xcc7f8; 0xcc7f8;
   0xce618; 0xc6618; 0x3ffe618; 0x3fff618; 0xc3618; 0xc37f8; 0xc3ff8; 0xc11c0;
   0xc00c0; 0x3fff9d8; 0x3ffffd8; 0xe07d8; 0xe00d8; 0x1f01d8; 0x1f00d8; 0x3b01d8;
   0x338ed8; 0x71cff8; 0xe0e3fe; 0x3c0707c; 0x3803800; 0x1001000; 0x0; 0x0;
   0x0; 0x0; 0x202000; 0x0; 0x0; 0x0; 0xc0000; 0xc0ff8;
   0x1c0ff8; 0x180c18; 0x3fffc18; 0x3ffec18; 0x3007c18; 0x3006c18; 0x301fff8; 0x201aff8;
   0x1c1c0; 0xc18080; 0x1f1c1d8; 0x3d8a98; 0x1fcfd8; 0x38a98; 0x1c1d8; 0x18098;
   0x101c1d8; 0x3018e98; 0x701cff8; 0x30183fe; 0x3ffc03c; 0x3ff8000; 0x540000; 0x0;
   0x0; 0x0; 0x0; 0x202000; 0x0; 0x0; 0x0; 0x7000;
   0x23f8; 0x15073fc; 0x3f82308; 0x3f8731c; 0x3182308; 0x31bff1c; 0x31bfb08; 0x31b73fc;
   0x31b23f8; 0x31b70e0; 0x31b20e0; 0x31b70fc; 0x31b33e8; 0x31b33fc; 0x31b30e8; 0x31b30fc;
   0x31b30e8; 0x31b18fc; 0x31b1be8; 0x3fb9ffc; 0x3fb8cfe; 0x319fe1c; 0x319e600; 0x104600;
   0x0; 0x0; 0x0; 0x0; 0x202000; 0x0; 0x0; 0x0;
   0x118000; 0x3983f8; 0x3983fc; 0x398308; 0x39831c; 0x398308; 0x739b31c; 0x3b9b3a8;
   0x1fdb3fc; 0xffb2e8; 0x7fb0c0; 0x39b0c0; 0x39b0cc; 0x39b3cc; 0x39b3cc; 0x39b0cc;
   0x39b0cc; 0x39b0cc; 0x739b0cc; 0x339b2cc; 0x33fb3cc; 0x33ff3fe; 0x3f9fc7c; 0x3f01c00;
   0x0; 0x0; 0x0; 0x0; 0x0; 0x202000; 0x0; 0x0;
   0x0; 0x1c000; 0x1c7f8; 0x1c7f8; 0x1ffc618; 0x1ffe618; 0x1806618; 0x1c07618;
   0x1803e18; 0x1dffff8; 0x18fe7f8; 0x1dc61c0; 0x18860c0; 0x1dc61d8; 0x18867d8; 0x1dfe7d8;
   0x1cfe0d8; 0x1f861d8; 0xf860d8; 0x5061d8; 0x6ed8; 0x7006fd8; 0x30063fe; 0x355e07c;
   0x3ffe004; 0x1ffc000; 0x0; 0x0; 0x0; 0x0; 0x202000; 0x0;
   0x0; 0x0; 0x0; 0xff8; 0x7fffff8; 0x3ffec18; 0x70c18; 0x70c18;
   0x70c18; 0x30c18; 0x30ff8; 0x38ff8; 0x18180; 0x3ffc180; 0x3ffc198; 0x3abef98;
   0x381ef98; 0x381f198; 0x381f998; 0x381b998; 0x381d198; 0x3818f98; 0x381dff8; 0x3ab83fe;
   0x3ffc07c; 0x3ff8000; 0x381c000; 0x0; 0x0; 0x0; 0x0; 0x202000;
   0x0; 0x0; 0x0; 0xc18000; 0xc187f8; 0xc1c7fc; 0xc0c618; 0xc0c61c;
   0xc0e618; 0x7ff761c; 0x3ff7618; 0xc07ffc; 0xc07ff8; 0xc47cc0; 0xc668c0; 0xc660dc;
   0xce67d8; 0xcc67dc; 0xcc60d8; 0xdc60dc; 0xc060d8; 0xc060dc; 0xc06ed8; 0xc06ffc;
   0xc063fe; 0xc4607c; 0xf86000; 0x786000; 0x0; 0x0; 0x0; 0x0;
   0x202000; 0x0; 0x0; 0x0; 0x0; 0x1f9f3f8; 0x1f9f7fc; 0x189b308;
   0x1d9b71c; 0x189b308; 0x1d9b71c; 0x189b308; 0x1d9b7fc; 0x189b3f8; 0x1d9b0c0; 0x3fffcc0].
Definition hanzi_data_428 : list N :=
  [0x7fffcdc; 0x189b7c8; 0x1d9b7dc; 0x189b2c8; 0x1ddb0dc; 0x18998c8; 0x1cd98dc; 0x18d9ec8;
   0x1cd9ffc; 0x18d8bfc; 0x1c78c3c; 0x1e7ee00; 0xc5c400; 0x0; 0x0; 0x0;
   0x0; 0x202000; 0x0; 0x0; 0x0; 0xc0000; 0xc07f8; 0xc07f8;
   0xc0618; 0x3fff618; 0x3ffe618; 0x30c7618; 0x18c2618; 0x18c77f8; 0x18c27f8; 0x1fff1c0;
   0x1ffe0c0; 0x1fff1d8; 0xc0ffd8; 0xc1ffd8; 0xe3b0d8; 0x7331d8; 0x3730d8; 0x3e31d8;
   0x1c3ed8; 0x3e1ff8; 0x7719fe; 0x1f3dc3c; 0x3c0ec00; 0x1004c00; 0x0; 0x0;
   0x0; 0x0; 0x202000; 0x0; 0x0; 0x0; 0x0; 0x2aaaff8;
   0x3ffeff8; 0x3ffec18; 0xec18; 0xec18; 0xec18; 0xaaec18; 0x1ffeff8; 0xffeff8;
   0x1c0e1c0; 0xc0e180; 0x1c0e1d8; 0xc0ef98; 0x1c0efd8; 0xffe198; 0x1ffe1d8; 0xe198;
   0xe1d8; 0xef98; 0xffd8; 0xe3fe; 0x7ffe07c; 0x3ffe004; 0x0; 0x0;
   0x0; 0x0; 0x0; 0x202000; 0x0; 0x0; 0x0; 0x800000;
   0x1fa07f8; 0x1ffe7f8; 0xbe618; 0x7618; 0xc6618; 0xc7618; 0xc3618; 0xc77f8;
   0xc37f8; 0x3fff8c0; 0x3fff0c0; 0xc10d8; 0xc07d8; 0xc07d8; 0xecc0d8; 0x1cce0d8;
   0x1cc60d8; 0x18c70d8; 0x38c3ed8; 0x30c3fd8; 0x30c3bfe; 0x30c107c; 0xf8004; 0x78000;
   0x0; 0x0; 0x0; 0x0; 0x202000; 0x0; 0x0; 0x0;
   0x0; 0x1ffeff8; 0x1ffeff8; 0x1806c18; 0x1c06c18; 0x1806c18; 0x1ffec18; 0x1ffec18;
   0x1c06ff8; 0x1806ff8; 0x1c061c0; 0x1ffe180; 0x1ffe1d8; 0x66f98; 0x10c6fd8; 0x38c6198;
   0x1fc61d8; 0xf86198; 0x3861d8; 0x306f98; 0x706fd8; 0xee63fe; 0x3cff07c; 0x383f004;
   0x1007000; 0x0; 0x0; 0x0; 0x0; 0x202000; 0x0; 0x0;
   0x0; 0xc0000; 0xcc7f8; 0xdc7fc; 0xcc608; 0x15dc61c; 0x1ffe608; 0x1ffe61c;
   0xc6608; 0xc77fc; 0xc3ff8; 0xc00c0; 0x3fff0c0; 0x7fff0dc; 0x2bba7c8; 0x3187dc;
   0x3180c8; 0x3180dc; 0x3180c8; 0x31c0dc; 0x30cfc8; 0x630cffc; 0x630e1fe; 0x730703c;
   0x3f03800; 0x1f01000; 0x0; 0x0; 0x0; 0x0; 0x202000; 0x0;
   0x0; 0x0; 0x60000; 0xe0000; 0x1c0ff8; 0xc0ff8; 0x3fffe18; 0x3fffe18;
   0x410e18; 0xe38e18; 0xc1cff8; 0x1c0cff8; 0x380e1c0; 0x3206180; 0x761f1d8; 0x63ab98;
   0x738fd8; 0x330b98; 0x3f01d8; 0x1e0198; 0x1c01d8; 0x1e0998; 0x7f1fd8; 0xf38ffe;
   0x1e1e07c; 0x380f000; 0x1003000; 0x0; 0x0; 0x0; 0x0; 0x202000;
   0x0; 0x0; 0x0; 0x40000; 0xc07f8; 0xe07fc; 0x2aea618; 0x3fff61c;
   0x2bba618; 0x71c61c; 0xe1c618; 0x1c0f7fc; 0x3fffff8; 0x7bfb9c0; 0x20000c0; 0x15551d8;
   0x3fff7d8; 0x3fff7d8; 0x180d8; 0x1c1d8; 0xffc0d8; 0x1ffc1d8; 0xc00ed8; 0xc00ff8;
   0xc003fe; 0xe0007c; 0xff0000; 0x7f0000; 0x0; 0x0; 0x0; 0x0;
   0x202000; 0x0; 0x0; 0x0; 0x18000; 0x187f8; 0x7fc7fc; 0x7fc618;
   0x70e71c; 0x306618; 0x38771c; 0x3fffe18; 0x7fffffc; 0x3ff8; 0x7cc0; 0x1ff30c0;
   0x1ff70dc; 0x18337c8; 0x18377dc; 0x18330c8; 0x18370dc; 0x1f330c8; 0xf330dc; 0x20336c8;
   0x7033ffc; 0x30318fe; 0x3ff1c1c; 0x3fe0c00; 0x1540800; 0x0; 0x0; 0x0;
   0x0; 0x202000; 0x0; 0x0; 0x0; 0x0; 0x3fcaa8; 0x7fdffc;
   0x20cae8; 0x72c0c0; 0x127e0c0; 0x37ee0c0; 0x32c6fc0; 0x3f07ffc; 0x3e038fc; 0x1401000;
   0x7fffe0; 0x7fffe0; 0x600060; 0x600060; 0x7fffe0; 0x7fffe0; 0x6180; 0x1ffe1c0;
   0xffe0c0; 0x61e0; 0x67e0; 0x7ffff78; 0x3fff83c; 0x155401c; 0x0; 0x0;
   0x0; 0x0; 0x202000; 0x0; 0x0; 0x0; 0xc0000; 0xc07f8;
   0xc07fc; 0xc0618; 0x1ffe61c; 0x1ffe618; 0xc061c; 0xc0618; 0xc07fc; 0x2aea7f8;
   0x3fff1c0; 0x3fff0c0; 0xc01d8; 0xc0fd8; 0xc0fd8; 0x2aea0d8; 0x3fff1d8; 0x3ffe0d8;
   0xc01d8; 0xc0ed8; 0xc0ff8; 0xc03fe; 0x7fff87c; 0x3fff804; 0x0; 0x0;
   0x0; 0x0; 0x0; 0x202000; 0x0; 0x0; 0x0; 0x70000;
   0x30ff8; 0x30ff8; 0xff8c18; 0xffcc18; 0xe1cc18; 0x61ec18; 0x737c18; 0x777ff8;
   0x3e2ff8; 0x1c01c0; 0x3e0180; 0x7781d8; 0x1e3cf98; 0x7c1ffd8; 0x3fff998; 0x1ffd1d8;
   0x180c198; 0x1c0c1d8; 0x180c998; 0x1c0dfd8; 0x180c3fe; 0x1ffc07c; 0x1ffc000; 0x1c0c000;
   0x0; 0x0; 0x0; 0x0; 0x202000; 0x0; 0x0; 0x0;
   0xc0000; 0xc07f8; 0xc07fc; 0x1ffe618; 0x1ffe61c; 0xc0618; 0xc061c; 0xc0618;
   0x7fff7fc; 0x3fff7f8; 0x57550c0; 0x6000c0; 0x6000dc; 0x3ffffd8; 0x7ffffdc; 0x6000d8;
   0x60c0dc; 0x61c0d8; 0x61c0dc; 0x638ed8; 0x671ffc; 0x6003fe; 0x60007c; 0x7e0000;
   0x3c0000; 0x0; 0x0; 0x0; 0x0; 0x202000; 0x0; 0x0;
   0x0; 0x198000; 0x1982a8; 0x1987f8; 0x1986b8; 0x3199e18; 0x399be18; 0x199b618;
   0x1d9e618; 0xd9e7f8; 0xf9e7f8; 0x5980c0; 0x1980c0; 0x7980d8; 0xf987d8; 0x1f9e7d8;
   0x399f8d8; 0x719fcd8; 0x21988d8; 0x19c0d8; 0x18ced8; 0x718eff8; 0x61860fe; 0x7f8781c;
   0x3f83c00; 0x1f01800; 0x0; 0x0; 0x0; 0x0; 0x202000; 0x0;
   0x0; 0x0; 0x70000; 0x3b07f8; 0xf707fc; 0xe30618; 0x107061c; 0x1fb0618;
   0x1fff61c; 0xfe618; 0x767fc; 0x607f8; 0x3f700c0; 0x3ff80c0; 0x7ff0d8; 0x106f7d8;
   0x38617d8; 0x18e00d8; 0x1cc00d8; 0xec00d8; 0x7c08d8; 0x3c0fd8; 0x61f0ff8; 0x23fc0fe;
   0x771f83c; 0x3e07000; 0x1c01000; 0x0; 0x0; 0x0; 0x0; 0x202000;
   0x0; 0x0; 0x0; 0x380000; 0x3803f8; 0x381ffc; 0x381b08; 0x383b1c;
   0x383308; 0x3ffb31c; 0x3ff83a8; 0x3ff83fc; 0x383ee8; 0x387cc0; 0x7830c0; 0x7c70dc;
   0xec33c8; 0xcc73dc; 0x1ce30c8; 0x1c770dc; 0x38330c8; 0x383f0dc; 0x101b2c8; 0x77dc;
   0xfbfc; 0x7ffdc7c; 0x3ff0c00; 0x1fc0400; 0x0; 0x0; 0x0; 0x0].
Definition hanzi_data_429 : list N :=
  [0x202000; 0x0; 0x0; 0x0; 0x1c000; 0x183f8; 0x187fc; 0x1ff8208;
   0x1fff71c; 0x83f208; 0x1c3071c; 0xe70208; 0x7e07fc; 0x31e03f8; 0x31fc0c0; 0x3fbf0c0;
   0x1f070dc; 0x8007c8; 0x3ffffdc; 0x3fff8c8; 0x17dd0dc; 0x3980c8; 0x39c0dc; 0x39c6c8;
   0x739c7fc; 0x238e1fe; 0x778703c; 0x3f03c00; 0x1f01800; 0x0; 0x0; 0x0;
   0x0; 0x202000; 0x0; 0x0; 0x0; 0x1c3800; 0x183bfc; 0x11c3bfc;
   0x3983b0c; 0x1fffb0c; 0xfbfb0c; 0x3c3b0c; 0x183bac; 0x31c3bfc; 0x31a3ae8; 0x35ff860;
   0x3f9f860; 0x1f0386c; 0xe0bec; 0xe07ec; 0xe006c; 0x3fff86c; 0x3fff86c; 0xe006c;
   0xe026c; 0xe07ec; 0xe03fc; 0xe007c; 0xe0004; 0xe0000; 0x0; 0x0;
   0x0; 0x0; 0x202000; 0x0; 0x0; 0x0; 0x0; 0x18003f8;
   0x3fc1ffc; 0x3f9b08; 0x373b1c; 0x303308; 0x30331c; 0x3013a8; 0x3003fc; 0x3ff82e8;
   0x7fffcc0; 0x2babcc0; 0x3070dc; 0x3033c8; 0x3073dc; 0x3030c8; 0x3070dc; 0x3030c8;
   0x3070dc; 0x3032c8; 0x3077fc; 0xf8fc; 0x7d7dc3c; 0x3ff8e00; 0x3fc0400; 0x0;
   0x0; 0x0; 0x0; 0x202000; 0x0; 0x0; 0x0; 0x0;
   0x7fc7f8; 0x7fc7fc; 0x60c618; 0x71c61c; 0x60c618; 0x70c61c; 0x60e618; 0x17067fc;
   0x3e077f8; 0x3ce30c0; 0xe00c0; 0x3fff0d8; 0x3fff7d8; 0x3fff7d8; 0x1f00d8; 0x3f80d8;
   0x3f80d8; 0x6fc4d8; 0xeeefd8; 0x1ce77f8; 0x38e38fe; 0x30e183c; 0xe0000; 0xe0000;
   0x0; 0x0; 0x0; 0x0; 0x202000; 0x0; 0x0; 0x0;
   0x60000; 0xe07f8; 0x1c07f8; 0x3fff618; 0x7fff618; 0xc0c618; 0xe1c618; 0x638618;
   0x7707f8; 0x3e07f8; 0x1e01c0; 0xff80c0; 0x7f3f1d8; 0x380f7d8; 0xe187d8; 0xe180d8;
   0xe181d8; 0xe180d8; 0xe1c1d8; 0xe1ced8; 0xe0cff8; 0xe0e3fe; 0xe0707c; 0xe03800;
   0xe01000; 0x0; 0x0; 0x0; 0x0; 0x202000; 0x0; 0x0;
   0x0; 0x0; 0xffe7f8; 0x1fff7f8; 0xc00618; 0x1c00618; 0xc00618; 0x1fff618;
   0xffe618; 0x77f8; 0x30067f8; 0x30070c0; 0x380e0c0; 0x1ffe0d8; 0xff87d8; 0x407d8;
   0xe00d8; 0xddd0d8; 0x199a0d8; 0x1b9f0d8; 0x301bed8; 0x3c1dfd8; 0x2c19bfe; 0x7d5dc7c;
   0xff8004; 0x7f0000; 0x0; 0x0; 0x0; 0x0; 0x202000; 0x0;
   0x0; 0x0; 0xc001c0; 0x1fe0180; 0x7fdffc; 0x2dffc; 0xc1c0; 0x3ffc180;
   0x3ffdff0; 0x30cffc; 0x70e1dc; 0x306180; 0x7079f8; 0x3038f0; 0x555540; 0xffffe0;
   0xe00060; 0xe00060; 0xffffe0; 0xffffe0; 0x61c0; 0x1ffe0c0; 0x1ffe1c0; 0x63e0;
   0x555ff78; 0x3fff83e; 0x155401c; 0x0; 0x0; 0x0; 0x0; 0x202000;
   0x0; 0x0; 0x0; 0x70000; 0x607f8; 0xe07fc; 0xffe608; 0x1fff61c;
   0xc06608; 0x1c0761c; 0xc06608; 0x1fff7fc; 0xffe7f8; 0x1c070c0; 0xc060c0; 0x1fff0dc;
   0xffe7c8; 0x1fff7dc; 0x18c60c8; 0x3dc70dc; 0xf860c8; 0x7870dc; 0x306ec8; 0x747ffc;
   0xe7f1fe; 0x7c7f03c; 0x380f800; 0x3000; 0x0; 0x0; 0x0; 0x0;
   0x202000; 0x0; 0x0; 0x0; 0x0; 0xffe7f8; 0x1fff7f8; 0xe00618;
   0x71c618; 0x3bc618; 0x1f0618; 0x3c0618; 0x3fff7f8; 0x3fff7f8; 0x38c71c0; 0x38c3080;
   0x3dd71d8; 0x3ffff98; 0x3ffffd8; 0x38c3098; 0x38c71d8; 0x3aeb098; 0x3fff1d8; 0x3aebe98;
   0x38c7ff8; 0x38c33fe; 0x38c707c; 0x3fc3000; 0x1fc7000; 0x0; 0x0; 0x0;
   0x0; 0x202000; 0x0; 0x0; 0x0; 0x60000; 0x607f8; 0x707fc;
   0x3fffe08; 0x3ffff1c; 0x30608; 0x157571c; 0x1fff608; 0x15757fc; 0x387f8; 0x7fffcc0;
   0x3fff8c0; 0x555d0dc; 0xe0c7c8; 0x1f5c7dc; 0x3ffe0c8; 0x3ffe0dc; 0xe060c8; 0xe3f4dc;
   0xe73fc8; 0xe61ffc; 0xe60efc; 0xe00c1c; 0xfc0000; 0x7c0000; 0x0; 0x0;
   0x0; 0x0; 0x202000; 0x0; 0x0; 0x0; 0xc0000; 0xc07f8;
   0x10c07fc; 0x38cae08; 0x1ddfe1c; 0xfdfe08; 0x7dc61c; 0x6cc608; 0xece7fc; 0x1cc67f8;
   0x7cc70c0; 0x30fb8c0; 0x20f90dc; 0xaaa7c8; 0x1ffe7dc; 0x1aae0c8; 0x18060dc; 0x18060c8;
   0x1ffe8dc; 0x1aaefc8; 0x1806ffc; 0x18060fe; 0x1ffe03c; 0x1ffe000; 0x1806000; 0x0;
   0x0; 0x0; 0x0; 0x202000; 0x0; 0x0; 0x0; 0x400000;
   0xfe07f8; 0x7ff7f8; 0xfe618; 0xc0718; 0x3fff618; 0x3fff718; 0x3e06b8; 0x7f87f8;
   0xedc2e8; 0x1ccf1c0; 0x38c78c0; 0x10611d8; 0x607d8; 0x707d8; 0x3fff0d8; 0x3fff1d8;
   0x6180d8; 0x71c1d8; 0x33e0d8; 0x3f87d8; 0x3e03f8; 0x1ffc07c; 0x1e3f000; 0x1807000;
   0x0; 0x0; 0x0; 0x0; 0x202000; 0x0; 0x0; 0x0;
   0xc0000; 0xc07f8; 0x3fc07fc; 0x3fc0618; 0x15c061c; 0xc0618; 0x1fff61c; 0x1ffe618;
   0x1d577fc; 0x18067f8; 0x1fff0c0; 0x1ffe0c0; 0x18070dc; 0x1806fc8; 0x1ffffdc; 0x1ffe0c8;
   0xc00dc; 0xc00c8; 0x7fff8dc; 0x3fffec8; 0x55d5ffc; 0xc03fe; 0xc007c; 0xc0004;
   0xc0000; 0x0; 0x0; 0x0; 0x0; 0x202000; 0x0; 0x0;
   0x0; 0x0; 0x1fff3f8; 0x1fff7fc; 0x18e3208; 0x18e371c; 0x1aeb208; 0x1fff71c;
   0x1aeb2a8; 0x18e37fc; 0x18e32e8; 0x1fff0c0; 0x1fff0c0; 0xe00cc; 0xe03c8; 0x3ffffcc;
   0x3fff8c8; 0x1f00cc; 0x3f80c8; 0x7fc4cc; 0xeee7c8; 0x1ce77fc; 0x38e38fe; 0x70e1c3c;
   0x20e0800; 0xe0000; 0x0; 0x0; 0x0; 0x0; 0x202000; 0x0;
   0x0; 0x0; 0x0; 0x3fff7f8; 0x3fff7fc; 0x3803608; 0x380771c; 0x3803608;
   0x3fff71c; 0x3fff608; 0x1877fc; 0x1837f8; 0x1870c0; 0x3fff0c0; 0x7fff0dc; 0x1837c8;
   0x1877dc; 0x1830c8; 0x3fff0dc; 0x3ffb0c8; 0x381f0dc; 0x381bfc8; 0x381dffc; 0x38199fe;
   0x3ffdc3c; 0x3ff8c00; 0x381cc00; 0x0; 0x0; 0x0; 0x0; 0x202000;
   0x0; 0x0; 0x0; 0x3000; 0x33f8; 0x33fc; 0x3f83b08; 0x3fbfb1c;
   0x39bfb08; 0x398ff1c; 0x398ef08; 0x398effc; 0x398eff8; 0x398e0c0; 0x39bfcc0; 0x39ffcdc].
Definition hanzi_data_430 : list N :=
  [0x398e3c8; 0x39863dc; 0x39860c8; 0x398e0dc; 0x399e0c8; 0x39bf0dc; 0x39b32c8; 0x3ff3ffc;
   0x3fa18fe; 0x3981c1c; 0x3980e00; 0x400; 0x0; 0x0; 0x0; 0x0;
   0x202000; 0x0; 0x0; 0x0; 0x0; 0x1ffe7f8; 0x1fff7fc; 0x1806618;
   0x1c0761c; 0x1ffe618; 0x1fff61c; 0x18066b8; 0x1c077fc; 0x1ffe7f8; 0x1fff0c0; 0xc0c0;
   0xc0dc; 0x3ffe7c8; 0x3fff7dc; 0x33338c8; 0x3339cdc; 0x3b98cc8; 0x399c0dc; 0x38ceec8;
   0x18c7ffc; 0x18e3bfe; 0x1c7183c; 0xfb8000; 0xf10000; 0x0; 0x0; 0x0;
   0x0; 0x202000; 0x0; 0x0; 0x0; 0xe0000; 0xc07f8; 0xc07fc;
   0x3fff608; 0x3fff61c; 0xc08608; 0xc0c61c; 0xe0c608; 0x61c7fc; 0x6187f8; 0x7fff0c0;
   0x3fff8c0; 0x7fff0dc; 0x7c8; 0x15547dc; 0x1ffe0c8; 0x1ffe0dc; 0x18060c8; 0x1c060dc;
   0x1806ec8; 0x1c06ffc; 0x1aae3fe; 0x1ffe07c; 0x1ffe000; 0x1c06000; 0x0; 0x0;
   0x0; 0x0; 0x202000; 0x0; 0x0; 0x0; 0xc0000; 0xc07f8;
   0x3fff7fc; 0x3fff618; 0x6061c; 0x1e0618; 0x7f061c; 0x1e3e618; 0x3c1f7fc; 0x10037f8;
   0x7fff8c0; 0x3fff8c0; 0x1c000dc; 0xc007c8; 0x1cff7dc; 0xcea0c8; 0x1cc70dc; 0xcc20c8;
   0x1cff0dc; 0xcfeec8; 0x1c57ffc; 0xc023fe; 0x1d0007c; 0xf80000; 0x780000; 0x0;
   0x0; 0x0; 0x0; 0x202000; 0x0; 0x0; 0x0; 0x1000000;
   0x1e003fc; 0x3fff3fc; 0x3ffb0c; 0x184530c; 0x186230c; 0x1c6330c; 0xce33ac; 0xcc63fc;
   0x6462e8; 0x4e40c0; 0xe00c0; 0x15f50cc; 0x3fff3cc; 0x3fff7cc; 0x1f00cc; 0x3f00cc;
   0x3f80cc; 0x6fc0cc; 0xeee6cc; 0x1ce77cc; 0x38e3bfc; 0x10e107e; 0xe000c; 0xe0000;
   0x0; 0x0; 0x0; 0x0; 0x202000; 0x0; 0x0; 0x0;
   0x70000; 0xe07f8; 0xe07fc; 0x2aea618; 0x3fff71c; 0x3aab618; 0x300371c; 0x3003618;
   0xffc7fc; 0xffc7f8; 0xc0; 0xc0; 0xdc; 0x3fff7d8; 0x7fff7dc; 0xc00d8;
   0xc40dc; 0xecc0d8; 0x1cce0dc; 0x18c66d8; 0x38c77fc; 0x30c3bfe; 0x70c1c3c; 0xf8000;
   0x78000; 0x0; 0x0; 0x0; 0x0; 0x202000; 0x0; 0x0;
   0x0; 0xc00000; 0x1fe07f8; 0x1fff7fc; 0x1bf618; 0x1c371c; 0x183618; 0x3fff71c;
   0x3fff618; 0x1c37fc; 0xc37f8; 0x1ffb0c0; 0x1ffb0c0; 0x181b0dc; 0x199b7d8; 0x199b7dc;
   0x199b8d8; 0x199b8dc; 0x199b8d8; 0x19d98dc; 0x18d9ad8; 0x7c1ff8; 0xee1bfe; 0x1c71c7c;
   0x383ec00; 0x301cc00; 0x0; 0x0; 0x0; 0x0; 0x202000; 0x0;
   0x0; 0x0; 0xe0000; 0xc07f8; 0x1c07fc; 0x3fff618; 0x7fff61c; 0x3618;
   0x1c761c; 0x183618; 0x1c77fc; 0x3f837f8; 0x3fc70c0; 0x1830c0; 0x1c70d8; 0x1837d8;
   0x15d77d8; 0x1ffb0d8; 0x1fff0d8; 0x181b0d8; 0x181b0d8; 0x181b6d8; 0x181bff8; 0x1abbbfe;
   0x1ff987c; 0x1ab9800; 0x1819800; 0x0; 0x0; 0x0; 0x0; 0x202000;
   0x0; 0x0; 0x0; 0x10000; 0x3fb0bf8; 0x7f99bfc; 0x319bb08; 0x319f31c;
   0x19bff08; 0x19bff1c; 0x1986308; 0x1d863fc; 0xd863f8; 0xd860c0; 0x19860c0; 0x19ffcdc;
   0x31fffc8; 0x31863dc; 0x31860c8; 0x318f0dc; 0x319f0c8; 0x359b0dc; 0x3dbbac8; 0x1df1ffc;
   0x1e0cfe; 0x1a0e1c; 0x180600; 0x180400; 0x0; 0x0; 0x0; 0x0;
   0x202000; 0x0; 0x0; 0x0; 0xe0000; 0xc07f8; 0x7fff7fc; 0x3fff608;
   0x555771c; 0xc33608; 0xc3371c; 0x3fff608; 0x3fff7fc; 0xc337f8; 0xc330c0; 0xff30c0;
   0xff30dc; 0x37c8; 0x1fff7dc; 0x1fff8c8; 0x1d5f8dc; 0xc338c8; 0xe718dc; 0x7e1bc8;
   0x3c1ffc; 0x7e0cfe; 0x1ffcc1c; 0x3c3ee00; 0x3004400; 0x0; 0x0; 0x0;
   0x0; 0x202000; 0x0; 0x0; 0x0; 0xc00000; 0x1ffa7f8; 0x7ff7fc;
   0xe2608; 0xe071c; 0x3fffe08; 0x3ffff1c; 0xe0608; 0x1fff7fc; 0x1fff7f8; 0x18e30c0;
   0x18e30c0; 0x1fff0d8; 0x18e37d8; 0x18e37dc; 0x1fff0d8; 0x1fff0dc; 0xe00d8; 0x1fff0dc;
   0x1fffed8; 0xe0ffc; 0xe03fe; 0x3fffc7c; 0x3fff800; 0x0; 0x0; 0x0;
   0x0; 0x0; 0x202000; 0x0; 0x0; 0x0; 0x0; 0x1ffe7f8;
   0x1ffe7f8; 0x1806618; 0x1d56618; 0x1ffe618; 0x1d56618; 0x1806618; 0x1ffe7f8; 0x1ffe7f8;
   0xc0; 0x2aaa8c0; 0x7fff8dc; 0x3ffffd8; 0xc0fdc; 0xce0d8; 0x1fc60dc; 0x1fc60d8;
   0x1fc60dc; 0xceed8; 0xdfffc; 0xfb9fe; 0x7ff981c; 0x3fe1c00; 0x1500c00; 0x0;
   0x0; 0x0; 0x0; 0x202000; 0x0; 0x0; 0x0; 0xe0000;
   0x28e27f8; 0x38e37fc; 0x38e3608; 0x38e371c; 0x38e3608; 0x3fff71c; 0x3fff608; 0x7fc;
   0x2aaaff8; 0x7fff8c0; 0x3fff8c0; 0x600dc; 0x607d8; 0x3ffffdc; 0x3fff8d8; 0x33338dc;
   0x33338d8; 0x33338dc; 0x3333ed8; 0x3333ffc; 0x3333bfe; 0x333387c; 0x3f33800; 0x1d33800;
   0x0; 0x0; 0x0; 0x0; 0x202000; 0x0; 0x0; 0x0;
   0x180000; 0x186bf8; 0x1fffffc; 0x1ff7f08; 0x198631c; 0x1982308; 0x7ffb31c; 0x3ffb308;
   0x1981bfc; 0x1bafbf8; 0x1fffc60; 0x18ec60; 0x18606c; 0x1ff6bec; 0x1ff6fec; 0x186eec;
   0x187c6c; 0x3ffb86c; 0x3ffb86c; 0x183a6c; 0x187bec; 0x19fcfc; 0x7ffce7e; 0x3ff070c;
   0x3f40600; 0x0; 0x0; 0x0; 0x0; 0x202000; 0x0; 0x0;
   0x0; 0xc00000; 0x1ffa7f8; 0x7ff7fc; 0xca608; 0xc061c; 0x1ffe608; 0x1fff61c;
   0x18c2608; 0x18c77fc; 0x18c27f8; 0x1fff0c0; 0x1ffe0c0; 0xc00dc; 0xc07c8; 0x3fff7dc;
   0x3fff0c8; 0x33c30dc; 0x32c30c8; 0x37c30dc; 0x37ff6c8; 0x357f7fc; 0x34030fe; 0x300303c;
   0x3e03000; 0x1e03000; 0x0; 0x0; 0x0; 0x0; 0x202000; 0x0;
   0x0; 0x0; 0xc64000; 0xc667f8; 0xc667f8; 0x2eeee18; 0x3fffe18; 0x2eee618;
   0xc66618; 0xc66618; 0xfe67f8; 0xfe67f8; 0x61c0; 0x1ffe080; 0x1ffe1d8; 0xc0798;
   0xc07d8; 0x3fff098; 0x3fff1d8; 0x1f0098; 0x3f01d8; 0x6d8e98; 0xedcff8; 0x1cce3fe;
   0x78c787c; 0x30c3000; 0xc0000; 0x0; 0x0; 0x0; 0x0; 0x202000].
Definition hanzi_data_431 : list N :=
  [0x0; 0x0; 0x0; 0x60000; 0xe07f8; 0xc07f8; 0x1fff618; 0x1fff718;
   0x1803618; 0x1803718; 0x1fff618; 0x1fff7f8; 0x37f8; 0x30c0; 0x2aab0c0; 0x3fff0d8;
   0x3aef7d8; 0x336f7d8; 0x326f0d8; 0x336f0d8; 0x3fff8d8; 0x3ffd8d8; 0x326ded8; 0x336dff8;
   0x326dbfe; 0x336dc7c; 0x3e6cc04; 0x1c0c000; 0x0; 0x0; 0x0; 0x0;
   0x202000; 0x0; 0x0; 0x0; 0x0; 0xffe7f8; 0xffe7fc; 0x718618;
   0x1f861c; 0xe0618; 0x7fffe1c; 0x3fffe18; 0x39f07fc; 0x189c7f8; 0x1dcf1c0; 0xff880;
   0xf11d8; 0xe0798; 0xe07d8; 0x2aea898; 0x3fff9d8; 0x2bfa898; 0x3f81d8; 0x7fc698;
   0xeee7f8; 0x3ce71fe; 0x78e3c3c; 0x20e1800; 0xe0000; 0x0; 0x0; 0x0;
   0x0; 0x202000; 0x0; 0x0; 0x0; 0x60000; 0xe07f8; 0x3fff7f8;
   0x3fff618; 0x175d718; 0x60c618; 0x718718; 0x318618; 0x3fffff8; 0x3fffff8; 0x30439c0;
   0x30c38c0; 0x30c39dc; 0x1ffe7d8; 0x1ffe7dc; 0x18c60d8; 0x18c61dc; 0x18c60d8; 0x18c61dc;
   0x18c66d8; 0x1fc6ffc; 0xec63fe; 0xc007c; 0xc0000; 0xc0000; 0x0; 0x0;
   0x0; 0x0; 0x202000; 0x0; 0x0; 0x0; 0xc0000; 0xc03f8;
   0xc03fc; 0x3fff318; 0x3fff31c; 0x2bfa318; 0x7f831c; 0xedc3b8; 0x1ccf3fc; 0x78c3ae8;
   0x30418c0; 0xffe0c0; 0xffe0dc; 0xc067c8; 0xc067dc; 0xffe0c8; 0xd560dc; 0xc060c8;
   0xffe0dc; 0xffe4c8; 0x7dc; 0x3fc; 0x3fff87c; 0x3fff800; 0x0; 0x0;
   0x0; 0x0; 0x0; 0x202000; 0x0; 0x0; 0x0; 0x7000;
   0xe000; 0x3fffffc; 0x3fffffc; 0x386071c; 0x3ffffec; 0x7fffe0; 0x60600; 0x7fffe0;
   0x2eaea0; 0x3fffffc; 0x3fffffc; 0x1c0700; 0x3fff80; 0x7fffe0; 0x3f801f8; 0x3dd55bc;
   0x1fff88; 0x157580; 0x2ae180; 0x7fe1c0; 0x63e0; 0x1557f70; 0x3fffe3c; 0x1ffd018;
   0x0; 0x0; 0x0; 0x0; 0x202000; 0x0; 0x0; 0x0;
   0x1000000; 0x1f807f8; 0x1fffffc; 0xff608; 0x384071c; 0x3862608; 0x1ce771c; 0xcc6608;
   0xcce7fc; 0xe0c7f8; 0x380c0; 0x1fbe0c0; 0x1f8f0dc; 0x18037c8; 0x18077dc; 0x18030c8;
   0x1fbf0dc; 0x1fbf0c8; 0x18070dc; 0x18037c8; 0x18077fc; 0x18031fe; 0x1fff03c; 0x1fff000;
   0x1807000; 0x0; 0x0; 0x0; 0x0; 0x202000; 0x0; 0x0;
   0x0; 0xc04000; 0xe0e3fc; 0x71c3fc; 0x31830c; 0x3fffb1c; 0x3fffb0c; 0x6031c;
   0x603ac; 0x1fff3fc; 0x1fff2e8; 0x700e0; 0x300e0; 0x3fffcec; 0x3fffbec; 0x183ec;
   0x180ec; 0x1ffc0ec; 0x1ffe0ec; 0x1870ec; 0x1873ec; 0x183ffc; 0x181cfc; 0x3fffe1c;
   0x3ffe000; 0x0; 0x0; 0x0; 0x0; 0x0; 0x202000; 0x0;
   0x0; 0x0; 0x1c00000; 0x3fe83f8; 0x1fffbfc; 0x186f308; 0x1c6331c; 0xce6308;
   0xcc631c; 0x4763a8; 0x3383fc; 0x79c2e8; 0x3cf0c0; 0x6ff0c0; 0xe7f0dc; 0x1c1c3c8;
   0x3ffffdc; 0x32ff0c8; 0x10610dc; 0x2aea8c8; 0x7fff8dc; 0x2aeaec8; 0x1f07fc; 0x3b81fe;
   0x1f1f03c; 0x3c0fc00; 0x3001800; 0x0; 0x0; 0x0; 0x0; 0x202000;
   0x0; 0x0; 0x0; 0x0; 0x1ffe7f8; 0x1fff7fc; 0x1c06608; 0x1c0761c;
   0x1ffe608; 0x1fff61c; 0x1c06608; 0x1fff7fc; 0x1ffe7f8; 0xc0; 0x2aaa8c0; 0x3fbf8dc;
   0x3abafc8; 0x31f1fdc; 0x33b30c8; 0x33370dc; 0x3a360c8; 0x3e3c0dc; 0x373efc8; 0x33f7ffc;
   0x30b18fe; 0x303003c; 0x3e3c000; 0x1e1c000; 0x0; 0x0; 0x0; 0x0;
   0x202000; 0x0; 0x0; 0x0; 0xc0000; 0x18e27f8; 0x1eff7f8; 0x7ec618;
   0x60618; 0x6f8618; 0x1fff618; 0x39b3618; 0x17397f8; 0xe1c7f8; 0x3e1f1c0; 0x3fff8c0;
   0x3fff9dc; 0xc06fd8; 0x1c06fdc; 0xffead8; 0x1ffe1dc; 0xc060d8; 0x1ffe1dc; 0xffeed8;
   0x1c06fdc; 0xc063fe; 0x1c0607c; 0xf86000; 0xf06000; 0x0; 0x0; 0x0;
   0x0; 0x202000; 0x0; 0x0; 0x0; 0x0; 0x3fffff8; 0x3fffffc;
   0xc03308; 0xd5731c; 0xfff308; 0xc0331c; 0xc033a8; 0xfff3fc; 0xc032e8; 0x7d030e0;
   0x3fffce0; 0xdffcec; 0x8003ec; 0x3ffffec; 0x3fffcec; 0x30d80ec; 0x1898cec; 0x1d9fcec;
   0xf8f2ec; 0x71f3ec; 0xfbb3fe; 0x3dd1c7c; 0x38e0e00; 0x3060400; 0x0; 0x0;
   0x0; 0x0; 0x202000; 0x0; 0x0; 0x0; 0x71c000; 0x3083fc;
   0x3fffffc; 0x3ffff0c; 0x71c30c; 0x30830c; 0x155530c; 0x3fffbac; 0x3fffffc; 0x1b02e8;
   0x1b0060; 0x1fff860; 0x1fff86c; 0x1999bec; 0x1999bec; 0x199986c; 0x1bb986c; 0x1ff986c;
   0x1ffd86c; 0x1ccda6c; 0x18c5fec; 0x1841bfc; 0x180187c; 0x1f01804; 0x1f01800; 0x0;
   0x0; 0x0; 0x0; 0x202000; 0x0; 0x0; 0x0; 0x10000;
   0x3e7f8; 0x3fdf7fc; 0x3fc3608; 0x330361c; 0x331b608; 0x331b61c; 0x39b36a8; 0x19bf7fc;
   0x19bf2e8; 0x1fe78c0; 0x1ee10c0; 0x400d8; 0x1fff7d8; 0x1fff7d8; 0x18c30d8; 0x18c30d8;
   0x1aeb0d8; 0x1fff0d8; 0x18c36d8; 0x18c37d8; 0x18c33fe; 0x1fff07c; 0x1fff000; 0x1803000;
   0x0; 0x0; 0x0; 0x0; 0x202000; 0x0; 0x0; 0x0;
   0x370000; 0xf30000; 0x3fffff0; 0x3fffff0; 0x460e30; 0xc6fe30; 0xe60e30; 0x6efff8;
   0x17dfff8; 0x3382db8; 0x33c6dd8; 0x3ffccf8; 0x1f70f5c; 0xaaaaac; 0x7fffe0; 0x600060;
   0x7fffe0; 0x7fffe0; 0x6000; 0xaae180; 0x1ffe1c0; 0x63e0; 0x5557f70; 0x3fffc3e;
   0x3ffc01c; 0x0; 0x0; 0x0; 0x0; 0x202000; 0x0; 0x0;
   0x0; 0xe0000; 0x18e33f8; 0x1ce77fc; 0xeee208; 0x17fd71c; 0x3fffa08; 0x3ffff1c;
   0x3001aa8; 0x3555ffc; 0x2ffeae8; 0xd560c0; 0xc060c0; 0xc060dc; 0xeae7c8; 0xffe7dc;
   0xc00c8; 0xc00dc; 0xaea0c8; 0x1fff0dc; 0xaea0c8; 0xc07dc; 0xc03fe; 0x7fffc7c;
   0x3fff800; 0x1555400; 0x0; 0x0; 0x0; 0x0; 0x202000; 0x0;
   0x0; 0x0; 0x70000; 0x603f8; 0x15f53fc; 0x3fffb08; 0x3fffb1c; 0x3001b08;
   0x3005b1c; 0x3ffeba8; 0x3ff63fc; 0x3862e8; 0x3870c0; 0x1830c0; 0x3ff78cc; 0x3ff3bcc].
Definition hanzi_data_432 : list N :=
  [0x3837fcc; 0x3833ccc; 0x3d770cc; 0x3ff30cc; 0x3ff70cc; 0x38332cc; 0x38377cc; 0x38333fe;
   0x3ff707c; 0x3ff3000; 0x3837000; 0x0; 0x0; 0x0; 0x0; 0x202000;
   0x0; 0x0; 0x0; 0x60000; 0xe07f8; 0x3fffff8; 0x3fffe18; 0x60c618;
   0x60c618; 0x718618; 0x3fff618; 0x3fff7f8; 0x38c37f8; 0x38c31c0; 0x3fff0c0; 0x3fff1d8;
   0x38c37d8; 0x38c37d8; 0x3bfb0d8; 0x3bfb1d8; 0x3b1b0d8; 0x3b1b1d8; 0x3bbb6d8; 0x3bfb7f8;
   0x381b3fe; 0x381307c; 0x3e03000; 0x1e03000; 0x0; 0x0; 0x0; 0x0;
   0x202000; 0x0; 0x0; 0x0; 0x60000; 0x2860bf8; 0x3861bfc; 0x3861b08;
   0x3861b1c; 0x3fffb08; 0x3fffb1c; 0x3a8; 0x3fbfbfc; 0x3fbfae8; 0x31b98c0; 0x31b98c0;
   0x3fbf8cc; 0x3fbfbcc; 0x31b9bcc; 0x31b98cc; 0x31b98cc; 0x3fbf8cc; 0x3fbfccc; 0x30b8acc;
   0x31f8fcc; 0x30f8ffe; 0x30fcc7c; 0x3cfe600; 0x1c5c400; 0x0; 0x0; 0x0;
   0x0; 0x202000; 0x0; 0x0; 0x0; 0xc1390; 0x61bb0; 0x3ff1ff0;
   0x3ff0ba0; 0x1d73ff8; 0xe3bbb8; 0x67f558; 0x7ebd78; 0x3c3d78; 0x7c3978; 0x1ff3138;
   0x3c3f118; 0x355d550; 0x7fffe0; 0x755560; 0x600060; 0x7fffe0; 0x7fffe0; 0x61c0;
   0xffe1c0; 0x1ffe1c0; 0x63e0; 0x1557f70; 0x3fff83c; 0x155401c; 0x0; 0x0;
   0x0; 0x0; 0x202000; 0x0; 0x0; 0x0; 0x100000; 0xdbf7f8;
   0xfbf7fc; 0x7b8618; 0x331961c; 0x3b1fe18; 0x1f1f61c; 0xe0e618; 0x1fff7fc; 0x3bfbff8;
   0x7001cc0; 0x2ffe8c0; 0xffe0d8; 0xc067d8; 0xc067d8; 0xc060d8; 0xffe0d8; 0xffe0d8;
   0x60c0d8; 0x60cfd8; 0x71cff8; 0x3180fe; 0x7fffc1c; 0x3fff800; 0x0; 0x0;
   0x0; 0x0; 0x0; 0x202000; 0x0; 0x0; 0x0; 0x60c000;
   0x60c3fc; 0x71c7fc; 0xbaa20c; 0x1fff70c; 0x1aeb20c; 0x1e4f70c; 0x1a4b2ac; 0x1b5b7fc;
   0x1b5b2e8; 0x19530c0; 0x1fff0c0; 0x1fff0cc; 0x7cc; 0xffe7cc; 0xffe0cc; 0xc060cc;
   0xc060cc; 0xffe0cc; 0xffe6cc; 0xc067cc; 0xc063fc; 0xffe07e; 0xffe00c; 0xc06000;
   0x0; 0x0; 0x0; 0x0; 0x202000; 0x0; 0x0; 0x0;
   0xd00000; 0x1ff83f8; 0x7ff7fc; 0x18c6208; 0x1cc671c; 0xecc208; 0x6cc71c; 0x3fffa08;
   0x7fffffc; 0x3f83f8; 0x7dc0c0; 0xece0c0; 0x3cc70dc; 0x38c3fc8; 0x1fff7dc; 0x1fff0c8;
   0x18c70dc; 0x18c30c8; 0x1fff0dc; 0x1fff6c8; 0x18c77fc; 0x18c31fe; 0x1fff01c; 0x1fff000;
   0x1807000; 0x0; 0x0; 0x0; 0x0; 0x202000; 0x0; 0x0;
   0x0; 0x0; 0x3fffff8; 0x3fffffc; 0x2aaaf08; 0x1801f1c; 0x18fef08; 0x18fff1c;
   0x1800f08; 0x1801ffc; 0x3afeff8; 0x7fffc60; 0x3ae6c60; 0x1867c6c; 0x1b66fe8; 0x1b7efec;
   0x1b7ec68; 0x1f64c6c; 0x1a66c68; 0x1e64c6c; 0x182cf68; 0x18fc7fc; 0x18fe6fe; 0x187f63c;
   0x1e03300; 0x1e00000; 0x0; 0x0; 0x0; 0x0; 0x202000; 0x0;
   0x0; 0x0; 0x60c000; 0x60c7f8; 0x71c7fc; 0x2bbae08; 0x3ffff1c; 0x1b0608;
   0x15f571c; 0x1fff608; 0x1df77fc; 0x19b37f8; 0x1f9f0c0; 0x180b0c0; 0x1fff0d8; 0x1aab7d8;
   0x1d577d8; 0x1fff0d8; 0x17550d8; 0x3000d8; 0x7fff8d8; 0x2baeed8; 0x30e7f8; 0x31c3fe;
   0x31807c; 0x3e0000; 0x3e0000; 0x0; 0x0; 0x0; 0x0; 0x202000;
   0x0; 0x0; 0x0; 0x307000; 0xb063f8; 0x1f0e3fc; 0x1b3ff88; 0x1b7ff9c;
   0x332ab88; 0x30039c; 0x3fffb88; 0x3fffffc; 0x330bf8; 0x331c60; 0x730860; 0x735c7c;
   0x73fbe8; 0x7177fc; 0x706068; 0x71f87c; 0x7b7868; 0x7b7c7c; 0x27a6e68; 0x67e6ffc;
   0x26c67fe; 0x76e647c; 0x3e77804; 0x1c27800; 0x0; 0x0; 0x0; 0x0;
   0x202000; 0x0; 0x0; 0x0; 0x0; 0x3fffdfc; 0x3fffdfc; 0xd8c;
   0x6c6d8c; 0x666d8c; 0x66cd8c; 0x22cdac; 0x3fffdfc; 0x3ffece8; 0x3318c60; 0x3fdac60;
   0x3ddec6c; 0x3ddafec; 0x1ddefec; 0xcdac6c; 0xcdec6c; 0xefec6c; 0xe5cc6c; 0xe18e6c;
   0x1f1c7fc; 0x1b0c6fe; 0x338e61c; 0x3186600; 0x2082200; 0x0; 0x0; 0x0;
   0x0; 0x202000; 0x0; 0x0; 0x0; 0x199000; 0x3999bf8; 0x199bbfc;
   0x1d9b308; 0xd9f31c; 0x3fffb08; 0x3ffff18; 0xe063a8; 0x60c3fc; 0x60c2e8; 0x3fffcc0;
   0x3fff8c0; 0x600cc; 0x603cc; 0x1fffbcc; 0x1fff8cc; 0x600cc; 0x3fffccc; 0x7fffccc;
   0xf02cc; 0x1f87cc; 0x39c3fe; 0x1f0f07c; 0x3e03e00; 0x3001c00; 0x0; 0x0;
   0x0; 0x0; 0x202000; 0x0; 0x0; 0x0; 0x60000; 0x607f8;
   0x707fc; 0x3fffe08; 0x3ffff1c; 0x13b9608; 0x3b1ff1c; 0x1f1e608; 0xe0e7fc; 0x1fff7f8;
   0x7fffcc0; 0x3c078c0; 0xffe0dc; 0xffe7c8; 0xc067dc; 0xc060c8; 0xffe0dc; 0xaea0c8;
   0x4e40dc; 0xeee7c8; 0x1ce77fc; 0x18e38fe; 0x38e1c1c; 0x10f8800; 0x78000; 0x0;
   0x0; 0x0; 0x0; 0x202000; 0x0; 0x0; 0x0; 0x706000;
   0x3063f8; 0x30e3fc; 0x37ff08; 0x37ff1c; 0x2b00308; 0x7fbff1c; 0x3fbfba8; 0x31b1ffc;
   0x19b0ae8; 0x1bffc60; 0x1bff860; 0x1bc006c; 0x1b3ffec; 0x1f3ffec; 0xe1c06c; 0xe0e06c;
   0xe6e06c; 0xe7fe6c; 0xe0fe6c; 0x1f063ec; 0x1b863fe; 0x39c607c; 0x70e7800; 0x2047800;
   0x0; 0x0; 0x0; 0x0; 0x202000; 0x0; 0x0; 0x0;
   0x70000; 0xe03fc; 0x3fffbfc; 0x3fffb0c; 0x3103b0c; 0x333bb0c; 0x1f1fb0c; 0x3cefbac;
   0x30e33fc; 0x1ffe2e8; 0x1fff0c0; 0x18e60c0; 0x1df70cc; 0x1ffe3cc; 0x15f57cc; 0xe00cc;
   0x3fff0cc; 0x3fff0cc; 0x38e30cc; 0x38e36cc; 0x3fff7cc; 0x3fff3fc; 0x38e307e; 0xe000c;
   0xe0000; 0x0; 0x0; 0x0; 0x0; 0x202000; 0x0; 0x0;
   0x0; 0x0; 0x7fe3fc; 0x7fe7fc; 0x60e20c; 0x70e70c; 0x7fe20c; 0x7fe70c;
   0x2aaaaac; 0x3fffffc; 0x30b1ae8; 0x31f18c0; 0x30b18c0; 0x3fff8cc; 0x3fffbcc; 0x607cc;
   0x2aea8cc; 0x3fffccc; 0x2bfa8cc; 0x3f80cc; 0x37c6cc; 0xf6e7cc; 0x3c679fc; 0x7863c7e;
   0x6080c; 0x60000; 0x0; 0x0; 0x0; 0x0; 0x202000; 0x0].
Definition hanzi_data_433 : list N :=
  [0x0; 0x0; 0x0; 0x1fff7f8; 0x1fff7fc; 0x1993608; 0x199371c; 0x1993608;
   0x1fff71c; 0xaae608; 0xe7fc; 0x3fff7f8; 0x3fff8c0; 0x3831cc0; 0x3830cdc; 0x3bff7c8;
   0x3bff7dc; 0x3b330c8; 0x1b330dc; 0x3bff0c8; 0x19754dc; 0x19b07c8; 0x1bfd7fc; 0x1bff8fe;
   0x1e0581c; 0x1f80000; 0xf00000; 0x0; 0x0; 0x0; 0x0; 0x202000;
   0x0; 0x0; 0x0; 0x71c000; 0x2183f8; 0x3fffffc; 0x3fffa08; 0x71c71c;
   0x238208; 0x387071c; 0x1bff208; 0x1fff7fc; 0xe303f8; 0x7700c0; 0x3fff8c0; 0x7fffcd8;
   0xe03d8; 0x787d8; 0xabe0d8; 0x1fff0d8; 0x1aafcd8; 0x1c0dcd8; 0x1ffc6d8; 0x1ffc7f8;
   0x180c3fe; 0x1ffc07c; 0x1ffc000; 0x1c0c000; 0x0; 0x0; 0x0; 0x0;
   0x202000; 0x0; 0x0; 0x0; 0x71c000; 0x30c1fc; 0x3fffdfc; 0x3fffd8c;
   0x71c18c; 0x30c18c; 0x3ff998c; 0x3ffb9ac; 0x35571fc; 0x30c20e8; 0x30d9860; 0x3099860;
   0x37fd86c; 0x30cdbec; 0x33ffbec; 0x33ff86c; 0x30cd86c; 0x33f986c; 0x33fd86c; 0x30c9a6c;
   0x37fdbfc; 0x37f98fe; 0x300d81c; 0x3e01800; 0x1c01800; 0x0; 0x0; 0x0;
   0x0; 0x202000; 0x0; 0x0; 0x0; 0x1cc6000; 0xc633fc; 0x773bfc;
   0x739b0c; 0xe7730c; 0x18e630c; 0x1fffb0c; 0x1fffbac; 0x1b0dbfc; 0x19f9ae8; 0x19f1860;
   0x1bbf860; 0x1fff86c; 0x1fffbec; 0xc41bec; 0xce186c; 0xfff86c; 0xe6986c; 0xce586c;
   0xfefa6c; 0x1f79fec; 0x2861bfc; 0x7bff87c; 0x3bff804; 0x3071800; 0x0; 0x0;
   0x0; 0x0; 0x202000; 0x0; 0x0; 0x0; 0x60000; 0xe03fc;
   0x3fffbfc; 0x3fffb0c; 0x1b0c; 0x1ffdb0c; 0x19cdb0c; 0x1ffdbac; 0x1dddbfc; 0x1aadae8;
   0x1ffd860; 0x81860; 0x1ffd86c; 0x81bec; 0x7fffbec; 0x3fff86c; 0xc3186c; 0x3c3d86c;
   0x71cfc6c; 0x2082f6c; 0x1ffcffc; 0x80cfe; 0x15d561c; 0x3fff600; 0x1555400; 0x0;
   0x0; 0x0; 0x0; 0x202000; 0x0; 0x0; 0x0; 0x787800;
   0x6869f8; 0x3fdfdfc; 0x3ffff88; 0x64659c; 0x3fdfd88; 0x3fdfd9c; 0xf0d988; 0xdbd9fc;
   0x6dbd9f8; 0x7dddc60; 0x38c0c60; 0x1fff87c; 0x1fffbe8; 0x1d55bfc; 0x1861868; 0x1c6187c;
   0x1861868; 0x1c6187c; 0x1861a68; 0x703fc; 0x3b81fe; 0x1f1f03c; 0x3c07e00; 0x1001c00;
   0x0; 0x0; 0x0; 0x0; 0x202000; 0x0; 0x0; 0x0;
   0xc31800; 0x8219f8; 0xc619fc; 0x2af9988; 0x6fffd9c; 0x3aabd88; 0x1ffbf9c; 0x1b03f88;
   0xef9ffc; 0xca99f8; 0x1cfb860; 0x1cfa860; 0x36dec6c; 0x26fadec; 0x23f87ec; 0x20006c;
   0x1fffc6c; 0xfffc6c; 0x70706c; 0x38e26c; 0x1fc3ec; 0xf81fc; 0x1fff07c; 0x3f0fe04;
   0x1001e00; 0x0; 0x0; 0x0; 0x0; 0x202000; 0x0; 0x0;
   0x0; 0x7000; 0x7000; 0x157540; 0x3fffc0; 0x3fffc0; 0x3800c0; 0x3801c0;
   0x3fffc0; 0x3fffc0; 0x3800c0; 0x3b801c0; 0x1ffffc0; 0x1ffffc0; 0xf800c0; 0x7801c0;
   0x3ffff8; 0x3ffffc; 0x3f8000; 0x3bc000; 0x38f000; 0x387c00; 0x380f80; 0x1d47f0;
   0x1fc0fc; 0x1fc01c; 0x0; 0x0; 0x0; 0x0; 0x202000; 0x0;
   0x0; 0x0; 0x380; 0xaa8380; 0x1ffc180; 0x1ffcff0; 0x1c01ff0; 0x1800830;
   0x1c01d70; 0x1aa8ff0; 0x1ff9d70; 0x1ff8830; 0x1dff0; 0x18ff0; 0x1dc30; 0xaac830;
   0x1ffdffc; 0x1ffcffc; 0x1801f00; 0x1800b80; 0x1c01dc0; 0x18008e0; 0x1c01c78; 0xc0083e;
   0xf51d1c; 0xfe0f00; 0x7e0700; 0x0; 0x0; 0x0; 0x0; 0x202000;
   0x0; 0x0; 0x0; 0x1c0; 0xc0; 0x3ffc0c0; 0x3ffcff8; 0xcff8;
   0x380cc18; 0x187cd58; 0x186cff8; 0x1cecd58; 0xcccc18; 0xfccff8; 0x78cff8; 0x70cc18;
   0x70cc18; 0xf8cffc; 0xf8cffc; 0x1dccf00; 0x18ecf80; 0x387cde0; 0x83ccf0; 0x2cc7c;
   0xcc1e; 0x7ffcd04; 0x3ffcf80; 0x780; 0x0; 0x0; 0x0; 0x0;
   0x202000; 0x0; 0x0; 0x0; 0x1c0; 0x7f80c0; 0x7f80c0; 0x618ff8;
   0x618ff8; 0x618e18; 0x61cf58; 0x60cff8; 0x160ef58; 0x3e07e18; 0x3cc7ff8; 0xc2ff8;
   0x3fffe18; 0x3fffe18; 0x15f5ffc; 0x1e0ffc; 0x3f0f80; 0x3f8fc0; 0x6dcee0; 0xecce70;
   0x1ccee3c; 0x38c7e1e; 0x10c7e0c; 0xc0780; 0xc0780; 0x0; 0x0; 0x0;
   0x0; 0x202000; 0x0; 0x0; 0x0; 0xc01c0; 0x30c20c0; 0x38c70c0;
   0x18ce7f8; 0x1ccc7f8; 0xccc618; 0xedc758; 0xc07f8; 0x3ffe7f8; 0x3ffe618; 0x38067f8;
   0x38067f8; 0x3bf6618; 0x3bf6618; 0x3b367fc; 0x3b367fc; 0x3b36780; 0x3b367c0; 0x3bf66c0;
   0x3ab6660; 0x3836670; 0x3806638; 0x380661e; 0x3e0678c; 0x1e06780; 0x0; 0x0;
   0x0; 0x0; 0x202000; 0x0; 0x0; 0x0; 0x6000; 0x6000;
   0x1fffff8; 0x1fffff8; 0x6000; 0xffffe0; 0xf57570; 0xe06060; 0xfffff0; 0xe06060;
   0xe06070; 0xffffe0; 0x557550; 0x6000; 0x3fffffc; 0x2aaeaa8; 0x6000; 0x7fffe0;
   0x7fffe0; 0x600060; 0x600060; 0x600060; 0x7fffe0; 0x7fffe0; 0x600060; 0x0;
   0x0; 0x0; 0x0; 0x202000; 0x0; 0x0; 0x0; 0x1c00;
   0x1c00; 0x1c00; 0xe00; 0x3fffffc; 0x3fffff8; 0x700; 0x8380; 0x1c180;
   0xc1c0; 0x1c1c0; 0xc0e0; 0xfffff0; 0xffffe0; 0x1c000; 0xc000; 0x1c000;
   0xc000; 0x3fffffc; 0x3fffffc; 0x1c000; 0xc000; 0x1c000; 0xc000; 0x1c000;
   0x0; 0x0; 0x0; 0x0; 0x202000; 0x0; 0x0; 0x0;
   0x701c0; 0x600c0; 0x701c0; 0x67ffc; 0x77ffc; 0x62ae8; 0x70060; 0x60260;
   0x70770; 0x60730; 0x70738; 0x62fb8; 0x77ffc; 0x62fb8; 0x70700; 0x60700;
   0x1077700; 0x3067fe0; 0x3077ffc; 0x30607fc; 0x3070704; 0x3860700; 0x3ff0700; 0x1fe0700;
   0x700; 0x0; 0x0; 0x0; 0x0; 0x202000; 0x0; 0x0;
   0x0; 0x701c0; 0x300c0; 0x700c0; 0x31ffc; 0x71ffc; 0x30ae8; 0x7fe070;
   0x7fe330; 0x670330; 0x630338; 0x630318; 0x630bb8; 0x631ffc; 0x631ff8; 0x630300].
Definition hanzi_data_434 : list N :=
  [0x638300; 0x619f00; 0x619fe0; 0x161dffc; 0x260c33c; 0x760c304; 0x260e300; 0x3e07300;
   0x3e03300; 0x1403300; 0x0; 0x0; 0x0; 0x0; 0x202000; 0x0;
   0x0; 0x0; 0xc0; 0xe0; 0x3ffc0e0; 0x3ffdffc; 0x1c1ffc; 0x180ae8;
   0x1c0070; 0x180330; 0x1c0330; 0x180338; 0x1c0318; 0x3ffebb8; 0x7fffffc; 0x180ba8;
   0x1c0300; 0x180300; 0x1c1f00; 0x183fe0; 0x1c1ffc; 0x18033c; 0x1c0300; 0x180300;
   0x1c0300; 0x180300; 0x1c0300; 0x0; 0x0; 0x0; 0x0; 0x202000;
   0x0; 0x0; 0x0; 0xc01c0; 0xc00c0; 0xc00c0; 0xc1ffc; 0xc1ffc;
   0xc0ae8; 0xc0070; 0x2aea270; 0x3fff370; 0x3ffe330; 0x1c0338; 0xe0bb8; 0x1e1ffc;
   0x1e0ba8; 0x1e0300; 0x1e0300; 0x3f3300; 0x333fe0; 0x739ffc; 0x6383fc; 0xe1c304;
   0xe0e300; 0x3c07300; 0x3803b00; 0x1001300; 0x0; 0x0; 0x0; 0x0;
   0x202000; 0x0; 0x0; 0x0; 0xc0; 0xe0; 0x3ffe060; 0x3fffffc;
   0x39c1ffc; 0x38c0ae8; 0x39dc070; 0x38cc2b0; 0x19cc3b0; 0x38cc3b8; 0x18cc398; 0x18ccbb8;
   0x18cfffc; 0x18e6ba8; 0x18e6380; 0x1860380; 0x1871f80; 0x1871fe0; 0x18707fe; 0x18383bc;
   0x1c1c380; 0x1c1c380; 0x1d4f380; 0xf87b80; 0x783380; 0x0; 0x0; 0x0;
   0x0; 0x202000; 0x0; 0x0; 0x0; 0x1c00c0; 0xc00c0; 0xc00c0;
   0x3ffeffc; 0x3ffeffc; 0xe0060; 0x60070; 0x601b0; 0x7fff1b0; 0x3fff1b8; 0x1575198;
   0x38bb8; 0x18ffc; 0xff8ba8; 0x1ffc180; 0xea8180; 0xe01d80; 0x701fe0; 0x399ffc;
   0x3f81bc; 0x1f0180; 0x3c0180; 0x780180; 0xe00180; 0x400180; 0x0; 0x0;
   0x0; 0x0; 0x202000; 0x0; 0x0; 0x0; 0xc0; 0x2aaa0e0;
   0x7ffe060; 0x3ffeffc; 0x6ffc; 0x6ae8; 0x1fe6070; 0x1fe61b0; 0x18661b0; 0x18661b8;
   0x1866198; 0x1866bb8; 0x1866ffc; 0x1866ba8; 0x1866180; 0x1f66180; 0x1f66d80; 0x66fe0;
   0x1067ffc; 0x30631bc; 0x3063184; 0x3063180; 0x3fe3980; 0x3fe1980; 0x1180; 0x0;
   0x0; 0x0; 0x0; 0x202000; 0x0; 0x0; 0x0; 0xc00c0;
   0xe00e0; 0xf0060; 0x1f0ffc; 0x3b8ffc; 0x3b82e8; 0x71c070; 0xe0e1b0; 0x1c071f0;
   0x3803998; 0x301d9d8; 0x40c3b8; 0xf1c7fc; 0xf8c3a8; 0x3fc1c0; 0xfc180; 0x7cdc0;
   0xcfe0; 0x81c7fc; 0x380c1bc; 0x181c1c0; 0x180c180; 0x1ffc1c0; 0xff8180; 0x1c0;
   0x0; 0x0; 0x0; 0x0; 0x202000; 0x0; 0x0; 0x0;
   0x70180; 0x30180; 0x301c0; 0x33ffc; 0x7ffbffc; 0x3ff8ae8; 0x3018060; 0x3818260;
   0x39dc370; 0x18ce330; 0x19ce338; 0x18c4bb8; 0x1c1ffc; 0xc0ba8; 0x1c0300; 0x1c0300;
   0x3e3300; 0x3e3fe0; 0x771ffc; 0x6303fc; 0xe38304; 0xe1c300; 0x3c1e300; 0x380f300;
   0x1006300; 0x0; 0x0; 0x0; 0x0; 0x202000; 0x0; 0x0;
   0x0; 0x1c00; 0x1c00; 0x3fffffc; 0x3fffffc; 0xc380; 0xc1c0; 0xffffe0;
   0xffffe0; 0xc060; 0xc000; 0x3fffffc; 0x3fffffc; 0xc000; 0xc000; 0x1ffdffc;
   0x1ffdff8; 0x1c19c00; 0xe38e38; 0x770ef0; 0x7607e0; 0x3c07c0; 0x3e0fe0; 0x1f7dcf8;
   0x3e3f83e; 0x300600c; 0x0; 0x0; 0x0; 0x0; 0x202000; 0x0;
   0x0; 0x0; 0x1c00c0; 0xc00e0; 0x1c00e0; 0xc1ffc; 0x1c1ffc; 0xc0ae8;
   0x7fff070; 0x3ffe3b0; 0x1c03b0; 0xc03b8; 0x1c0398; 0xc0bb8; 0x1c1ffc; 0x2ae8ba8;
   0x3ffc380; 0x3aac380; 0x380df80; 0x380dfe0; 0x380c7fc; 0x380c3bc; 0x380c380; 0x3ffc380;
   0x3ffc380; 0x3aac380; 0x380c380; 0x0; 0x0; 0x0; 0x0; 0x202000;
   0x0; 0x0; 0x0; 0xc0; 0xe0; 0x7fff0e0; 0x3fffffc; 0x1c00ffc;
   0xc00ae8; 0x1c00070; 0xcfe0b0; 0x1dfe1b0; 0xcc61b8; 0x1dc6198; 0xcc6ffc; 0x1dc6ffc;
   0xcc6ba8; 0x1dc6180; 0xcc6180; 0x1dfed80; 0xcaefe0; 0x1c067fc; 0xc021bc; 0x1c00180;
   0xc00180; 0x1d40180; 0xfc0180; 0x7c0180; 0x0; 0x0; 0x0; 0x0;
   0x202000; 0x0; 0x0; 0x0; 0xc00c0; 0xc00e0; 0x3fc00e0; 0x3fc0ffc;
   0x15c1ffc; 0xc0ae8; 0xc0070; 0x1ffe1b0; 0x1ffe1b0; 0x180e1b8; 0x180e198; 0x180ebb8;
   0x180effc; 0x1ffeba8; 0x1ffe180; 0x1aae180; 0x180fd80; 0xefe0; 0x67fc; 0x61bc;
   0x6180; 0x6180; 0x7180; 0x3180; 0x3180; 0x0; 0x0; 0x0;
   0x0; 0x202000; 0x0; 0x0; 0x0; 0x1c00c0; 0xc00e0; 0x1c00e0;
   0xc0ffc; 0x1c0ffc; 0xc0060; 0x3ffe070; 0x3ffe1b0; 0x39c61b0; 0x38c61b8; 0x39c6198;
   0x38c6bb8; 0x39c6ffc; 0x3ffeba8; 0x3ffe180; 0x3aee180; 0x39c6d80; 0x38c6fe0; 0x39c67fc;
   0x38c61bc; 0x39c6180; 0x3ffe180; 0x3ffe180; 0x3aae180; 0x3806180; 0x0; 0x0;
   0x0; 0x0; 0x202000; 0x0; 0x0; 0x0; 0xc0; 0xc0;
   0x1ffe0c0; 0x1ffeffc; 0x1c06ffc; 0x1806ae8; 0x1c06070; 0x18061b0; 0x1c061b0; 0x18061b8;
   0x1c06198; 0x1806bb8; 0x1ffeffc; 0x1ffeba8; 0x180; 0x180; 0x418d80; 0x618fe0;
   0xe1c7fc; 0xc0c1bc; 0x1c0e180; 0x180e180; 0x3807180; 0x3003980; 0x1003180; 0x0;
   0x0; 0x0; 0x0; 0x202000; 0x0; 0x0; 0x0; 0x1c00c0;
   0xd80e0; 0x1dc0e0; 0xcdffc; 0x1cdffc; 0x3ffcae8; 0x3ffe070; 0xce1b0; 0x1c71b0;
   0xc71b8; 0x1c2198; 0xc0bb8; 0x3fffffc; 0x3ffeba8; 0x1c0180; 0x1c0180; 0x1e1d80;
   0x3e1fe0; 0x3707fc; 0x7301bc; 0x738180; 0xe1c180; 0x3c0f180; 0x3807980; 0x1001180;
   0x0; 0x0; 0x0; 0x0; 0x202000; 0x0; 0x0; 0x0;
   0x10000c0; 0x1e800e0; 0x3fff0e0; 0x3feffc; 0x1c0ffc; 0x3184ae8; 0x39ce070; 0x198c1b0;
   0x19dc1b0; 0x9981b8; 0xdd8198; 0xd98bb8; 0x1c0ffc; 0x3fffba8; 0x7fff180; 0x180180;
   0x1c0d80; 0x180fe0; 0x1c0ffc; 0x1801bc; 0x1c0180; 0x180180; 0x1d0180; 0x1f8180;
   0xf8180; 0x0; 0x0; 0x0; 0x0; 0x202000; 0x0; 0x0].
Definition hanzi_data_435 : list N :=
  [0x0; 0x1c01c0; 0xe00c0; 0x1e00c0; 0x1f0ffc; 0x738ffc; 0x738ae8; 0x1e1c070;
   0x3c8f0b0; 0x79c79b0; 0x20e11b8; 0x70198; 0x3ebb8; 0x71effc; 0x380ba8; 0x1c0180;
   0x8e0180; 0x387dd80; 0x1c1efe0; 0xe047fc; 0x7001bc; 0x3c0180; 0xf0180; 0x7e180;
   0x1f980; 0x7180; 0x0; 0x0; 0x0; 0x0; 0x202000; 0x0;
   0x0; 0x0; 0x8000c0; 0x1fa00e0; 0x1ffe060; 0xbeffc; 0x6ffc; 0xc62e8;
   0xc6070; 0xc61b0; 0xc71f0; 0xc3198; 0x3fff1d8; 0x3fff3b8; 0xc17fc; 0xc03a8;
   0xc41c0; 0xecc180; 0xcccdc0; 0x1ccefe0; 0x18c67fc; 0x38c71bc; 0x30c71c0; 0x30c3980;
   0x30c11c0; 0xf8180; 0x781c0; 0x0; 0x0; 0x0; 0x0; 0x202000;
   0x0; 0x0; 0x0; 0xc0; 0x2aaa0e0; 0x3ffe0e0; 0x3aeaffc; 0x1870ffc;
   0x3860ae8; 0x1870070; 0x18301b0; 0x18381b0; 0x18181b8; 0x1f9e198; 0xf8fbb8; 0x6ffc;
   0xba8; 0x1ffc180; 0x1ffc180; 0x180cd80; 0x180cfe0; 0x180c7fc; 0x180c1bc; 0x180c180;
   0x180c180; 0x1ffc180; 0x1ffc180; 0x180c180; 0x0; 0x0; 0x0; 0x0;
   0x202000; 0x0; 0x0; 0x0; 0xc0; 0xaaa0e0; 0x1ffe0e0; 0xffeffc;
   0xe00ffc; 0x700ae8; 0x380070; 0x1c01b0; 0x3f01b0; 0xff81b8; 0x1e3e198; 0x380fbb8;
   0x1007ffc; 0xff8; 0x1ffe180; 0x1ffe180; 0xc0d80; 0xc0fe0; 0xc07fc; 0xc01bc;
   0xc0180; 0xc0180; 0x3fff180; 0x3fff180; 0x180; 0x0; 0x0; 0x0;
   0x0; 0x202000; 0x0; 0x0; 0x0; 0x3800c0; 0xf800e0; 0x1f800e0;
   0x3b80ffc; 0x1380ffc; 0x3fffae8; 0x3fff070; 0x3801b0; 0x3001b0; 0x3801b8; 0x37f198;
   0x37fbb8; 0x35dffc; 0x318ba8; 0x31c180; 0x318180; 0x31cd80; 0x318fe0; 0x71c7fc;
   0x27181bc; 0x77fc180; 0x3eff980; 0x3e1f180; 0x3c00180; 0x1c00180; 0x0; 0x0;
   0x0; 0x0; 0x202000; 0x0; 0x0; 0x0; 0x60700; 0x760300;
   0xe67ff8; 0x1c67ff8; 0x1860700; 0x860300; 0x3fffffc; 0x3fffffc; 0x60180; 0x860180;
   0x1c7fffc; 0xcefffc; 0xce55f4; 0xee0e60; 0x6c0e70; 0x6cfff8; 0x7cfff8; 0x3c0e00;
   0x11c0e00; 0x21cfe00; 0x73ffffc; 0x33f0ffc; 0x3f78e00; 0x3e1ce00; 0x1c18e00; 0x0;
   0x0; 0x0; 0x0; 0x202000; 0x0; 0x0; 0x0; 0x1c0;
   0xc0; 0x3fff0c0; 0x3ffeffc; 0x70ffc; 0x630ae8; 0xe38070; 0xc180b0; 0x1c1c1f0;
   0x1ffe1b8; 0x3fff1d8; 0x3002bb8; 0x11c0ffc; 0xc0ba8; 0x1c01c0; 0x2aea180; 0x3ffedc0;
   0x3ffefe0; 0x1c07fc; 0xc01bc; 0x1c01c0; 0xc0180; 0x7fff1c0; 0x3fff180; 0x1c0;
   0x0; 0x0; 0x0; 0x0; 0x202000; 0x0; 0x0; 0x0;
   0xc0; 0xf800e0; 0x1ffe0e0; 0xfeffc; 0xc0ffc; 0xe0ae8; 0x60070; 0x3fff1b0;
   0x7fff1b0; 0x7381b8; 0x638198; 0xe1cbb8; 0x1c0effc; 0x780fba8; 0x361b180; 0x618180;
   0x618d80; 0x618fe0; 0x6187fc; 0x6181bc; 0x61c180; 0x60e180; 0x60f180; 0x607980;
   0x603180; 0x0; 0x0; 0x0; 0x0; 0x202000; 0x0; 0x0;
   0x0; 0x1c00c0; 0xc00e0; 0xc0060; 0xae8ffc; 0x1ffcffc; 0xffcae8; 0x1c6c070;
   0xcec1b0; 0x1ccc1b0; 0xd8c1b8; 0x1c8c198; 0x2eae3b8; 0x7fff7fc; 0x2eae3a8; 0x1c4c180;
   0xcee180; 0x1cced80; 0xdcefe0; 0x1d867fc; 0xd861bc; 0x1c07180; 0xc03180; 0x1c03980;
   0xf81980; 0xf01980; 0x0; 0x0; 0x0; 0x0; 0x202000; 0x0;
   0x0; 0x0; 0xc00c0; 0xe00e0; 0x1e00e0; 0x1f0ffc; 0x3b8ffc; 0x718ae8;
   0x1e1c070; 0x3c0e1b0; 0x78079b0; 0x2fff9b8; 0xffd198; 0xc0bb8; 0xc0ffc; 0xc0ba8;
   0xc0180; 0x1ffe180; 0x1ffed80; 0xc0fe0; 0xc07fc; 0xc01bc; 0xc0180; 0xc0180;
   0x7fff980; 0x3fff980; 0x180; 0x0; 0x0; 0x0; 0x0; 0x202000;
   0x0; 0x0; 0x0; 0x700c0; 0x300e0; 0x380e0; 0x3ff8ffc; 0x1ffcffc;
   0x1c1eae8; 0xc1f070; 0xe3b9b0; 0x7731b0; 0x3e01b8; 0x1e0198; 0x7f8bb8; 0x1f3effc;
   0x3c0fba8; 0x3557180; 0x1ffc180; 0x1ffcd80; 0x180cfe0; 0x1c0c7fc; 0x180c1bc; 0x1c0c180;
   0x1ffc180; 0x1ffc180; 0x180c180; 0x1c0c180; 0x0; 0x0; 0x0; 0x0;
   0x202000; 0x0; 0x0; 0x0; 0x600c0; 0xe00e0; 0x1c00e0; 0xc07fc;
   0x3fff7fc; 0x3fff2e8; 0x410070; 0xe381b0; 0xc1c1b0; 0x1c0c1b8; 0x380e198; 0x3206bb8;
   0x761fffc; 0x63aba8; 0x730180; 0x330180; 0x3f0580; 0x1e0fe0; 0x1c0ffc; 0x1e01bc;
   0x7f0180; 0xf38180; 0x1e1e180; 0x380f180; 0x1003180; 0x0; 0x0; 0x0;
   0x0; 0x202000; 0x0; 0x0; 0x0; 0x60; 0x3fffc60; 0x3fffc70;
   0x633fc; 0x7737fc; 0x2632b8; 0x773030; 0x27f0b8; 0x77f1d8; 0x263098; 0x7731dc;
   0x2632ac; 0x7737fc; 0x27f7fc; 0x77f1c0; 0x263080; 0x7737c0; 0x2637f0; 0x27f31fc;
   0x22ff09c; 0x677fdc0; 0x2260880; 0x7f701c0; 0x3e60080; 0x701c0; 0x0; 0x0;
   0x0; 0x0; 0x202000; 0x0; 0x0; 0x0; 0x5c00c0; 0xec00e0;
   0x3dc0060; 0x10c0ffc; 0x7fffffc; 0x3fffae8; 0x1c0070; 0xc01b0; 0x1ffe1b0; 0x1ffe1b8;
   0x18c6198; 0x18c6bb8; 0x1ffeffc; 0x1ffebac; 0x1dd6180; 0x18c6180; 0x18c6d80; 0x1ffefe0;
   0x1ffe7fe; 0x18c61bc; 0x18c6180; 0x18c6180; 0x18c6180; 0x1ec6180; 0x1cc6180; 0x0;
   0x0; 0x0; 0x0; 0x202000; 0x0; 0x0; 0x0; 0x70;
   0x60; 0x3fff870; 0x3fffbfc; 0x1907fc; 0x190030; 0x190030; 0x2bba8b8; 0x3fff9d8;
   0x3fff8d8; 0x399b9dc; 0x399baec; 0x399bffc; 0x3bbbbfc; 0x3fbb9c0; 0x3ffb8c0; 0x3ffffc0;
   0x3c8ffe0; 0x3ccf9fc; 0x38e78dc; 0x38479c0; 0x38038c0; 0x38039c0; 0x1e038c0; 0x1e039c0;
   0x0; 0x0; 0x0; 0x0; 0x202000; 0x0; 0x0; 0x0;
   0x1c0180; 0x180180; 0x1ffdff8; 0x1ff9ff8; 0x1c0180; 0x3ffdffc; 0x3ffdffc; 0x3e07e0;
   0x771f70; 0x3e3dc3c; 0x3c1981c; 0x1c00; 0x1fffff8; 0xfffff8; 0xc780; 0xc1c0].
Definition hanzi_data_436 : list N :=
  [0xffffe0; 0xffffc0; 0xc000; 0xc000; 0x3fffffc; 0x2aaeaa8; 0xc000; 0xc000;
   0xc000; 0x0; 0x0; 0x0; 0x0; 0x202000; 0x0; 0x0;
   0x0; 0x39c00; 0x39800; 0x1ff9ff8; 0xab9800; 0x39d50; 0xff9ff8; 0x1579d50;
   0x39800; 0x3ff9ffc; 0x2ab9aa8; 0x39e00; 0xe00; 0x3fffffc; 0x3fffffc; 0xe1c0;
   0xe0c0; 0xfffff0; 0xffffe0; 0xe000; 0xe000; 0x3fffffc; 0x3fffffc; 0xe000;
   0xe000; 0xe000; 0x0; 0x0; 0x0; 0x0; 0x202000; 0x0;
   0x0; 0x0; 0xc0; 0x2aaa0c0; 0x3fffccc; 0x3fffecc; 0x30636cc; 0x30636c8;
   0x30737d8; 0x1ffe3d8; 0x1ffe3d8; 0x38ae8; 0x1dcffc; 0x18cffc; 0x1cc1b0; 0x3ffe1b0;
   0x3ffe1b0; 0x1821b0; 0x1c01b0; 0x1809b8; 0x7ffff98; 0x3fff798; 0x1c0398; 0x18019c;
   0x1c008c; 0x18000c; 0x1c0004; 0x0; 0x0; 0x0; 0x0; 0x202000;
   0x0; 0x0; 0x0; 0xc0; 0x1ffe0e0; 0x1ffe0e0; 0x1806ffc; 0x1c06ffc;
   0x1ffeae8; 0x1ffe070; 0x18060b0; 0x1c061b0; 0x1ffe1b8; 0x1ffe198; 0xffc; 0x386ffc;
   0x386ba8; 0x3386180; 0x3bfe180; 0x1ffed80; 0x786fe0; 0x3867fc; 0x3861bc; 0x7386180;
   0x23e6180; 0x737f180; 0x3f3f180; 0x1f07180; 0x0; 0x0; 0x0; 0x0;
   0x202000; 0x0; 0x0; 0x0; 0xe0; 0x3fff0e0; 0x3fff060; 0x3aab7fc;
   0x371b7fc; 0x33332e8; 0x3333070; 0x33230b0; 0x37ff1b0; 0x37fb198; 0x3043198; 0x30c3bbc;
   0x30c3ffc; 0x37fbbac; 0x37ff180; 0x3033180; 0x3033d80; 0x3033fe0; 0x37f37fe; 0x37f31bc;
   0x3003180; 0x3003180; 0x3003180; 0x3e03180; 0x1e03180; 0x0; 0x0; 0x0;
   0x0; 0x202000; 0x0; 0x0; 0x0; 0x700c0; 0xe00e0; 0xe00e0;
   0x3fffffc; 0x3fffffc; 0xae8; 0x70; 0x1ffe1b0; 0x1ffe1b0; 0x1aae1b8; 0x1c06198;
   0x1806bb8; 0x1d56ffc; 0x1ffeba8; 0x1ffe180; 0xc0180; 0xeccd80; 0xccefe0; 0x1cc67fc;
   0x18c71bc; 0x38c3180; 0x30c3980; 0x10fd180; 0xfc180; 0x14180; 0x0; 0x0;
   0x0; 0x0; 0x202000; 0x0; 0x0; 0x0; 0x60; 0xa8a860;
   0x3fffc70; 0x3ababfc; 0x18187fc; 0x1999830; 0x1f9f030; 0xe0e0b8; 0x1e1e0d8; 0x3b3f0d8;
   0x33d38dc; 0xc1aec; 0x407fc; 0x3fffbfc; 0x3fffcc0; 0x30f80c0; 0x19d87c0; 0x1999fe0;
   0x1f9f9fc; 0xf0e0dc; 0x71f0c0; 0xfbb0c0; 0x1dd3cc0; 0x78e0ec0; 0x30604c0; 0x0;
   0x0; 0x0; 0x0; 0x202000; 0x0; 0x0; 0x0; 0x10840c0;
   0x39cc0e0; 0x1dc6060; 0xce6ffc; 0xe77ffc; 0x633ae8; 0x673070; 0xce71b0; 0x1cc61b0;
   0x39ce198; 0x319c198; 0x1088ffc; 0x3fffffc; 0x3fffba8; 0x30c7180; 0x30c3180; 0x30c7d80;
   0x3ffffe0; 0x3fff7fc; 0x30c31bc; 0x30c7180; 0x30c3180; 0x3fff180; 0x3fff180; 0x3007180;
   0x0; 0x0; 0x0; 0x0; 0x202000; 0x0; 0x0; 0x0;
   0xc00c0; 0xc00e0; 0x15d5060; 0x3fffffc; 0x3fffffc; 0xe02e8; 0x1ffe070; 0x1ffe1b0;
   0x701b0; 0x301b8; 0x7fff198; 0x3fff3b8; 0xe1c7fc; 0xffe3a8; 0x3fff180; 0x78c7980;
   0x30c3180; 0x1ffefe0; 0x1ffeffc; 0x601bc; 0x7f0180; 0xf38180; 0x3c1f180; 0x780f980;
   0x3001180; 0x0; 0x0; 0x0; 0x0; 0x202000; 0x0; 0x0;
   0x0; 0xe0; 0x2aaa8e0; 0x7fff860; 0x2aaaffc; 0x7fc; 0xffe020; 0x1ffe070;
   0x8060b0; 0x1c061f0; 0xaae198; 0x1ffe1d8; 0x3b8; 0x7fc; 0x3fff3ac; 0x3fff1c0;
   0x38c3180; 0x38c35c0; 0x3aeb7e0; 0x3fff7fe; 0x38c31bc; 0x38c31c0; 0x38c3180; 0x3fff1c0;
   0x3fff180; 0x38031c0; 0x0; 0x0; 0x0; 0x0; 0x202000; 0x0;
   0x0; 0x0; 0xc0; 0xffe0e0; 0x1ffe0e0; 0xc0effc; 0x1c0effc; 0xffeae8;
   0x1ffe070; 0x1b0; 0x3fff1b0; 0x3fff1b8; 0x1c0c198; 0xc0cbb8; 0x1ffcffc; 0xffcba8;
   0x1c0c180; 0xc0c180; 0x1ffcd80; 0xffcfe0; 0x1c0c7fc; 0x2c0c1bc; 0x7fff980; 0x2fff980;
   0x1c05980; 0xc00180; 0x1c00180; 0x0; 0x0; 0x0; 0x0; 0x202000;
   0x0; 0x0; 0x0; 0xc0; 0x1ffe0e0; 0x1ffe0e0; 0x180effc; 0x1c0effc;
   0x1aaeae8; 0x1ffe070; 0x1aae1b0; 0x1c0e1b0; 0x180e1b8; 0x1ffe198; 0x1ffebb8; 0xffc;
   0xba8; 0x1fff180; 0x1ffe180; 0x1b37d80; 0x1b32fe0; 0x1b377fc; 0x1b321bc; 0x1b37180;
   0x1b32180; 0x7fff980; 0x7fff980; 0x180; 0x0; 0x0; 0x0; 0x0;
   0x202000; 0x0; 0x0; 0x0; 0x40060; 0xe0060; 0x1f0070; 0x3f83fc;
   0x79c7fc; 0xe0e2b8; 0x7d57c30; 0x3fffcb8; 0x7fe9d8; 0x8000d8; 0x197f9dc; 0x1b7faec;
   0x1b63ffc; 0x1b63bfc; 0x1b7f9c0; 0x1b7f8c0; 0x1b63fc0; 0x1b6bbe0; 0x1b7f9fc; 0x1b638dc;
   0x19639c0; 0x18638c0; 0x18639c0; 0x1e7b8c0; 0x1e3b9c0; 0x0; 0x0; 0x0;
   0x0; 0x202000; 0x0; 0x0; 0x0; 0xc03040; 0xc03060; 0x63fe70;
   0x63fe30; 0x3301930; 0x3387b98; 0x1fc7dfc; 0xf86cfc; 0xe3fc64; 0x62ec30; 0x3786158;
   0x3faebfc; 0x17bfffc; 0x2ea00; 0x3fc61fc; 0x3fc60fc; 0x4004; 0x7fffe0; 0x7fffe0;
   0x6000e0; 0x7000e0; 0x6000e0; 0x7fffe0; 0x7fffe0; 0x7000e0; 0x0; 0x0;
   0x0; 0x0; 0x202000; 0x0; 0x0; 0x0; 0xc00c0; 0xc00e0;
   0x1ffe0e0; 0x1ffeffc; 0xc0ffc; 0xc02e8; 0x7fff070; 0x3fff1b0; 0x1f0; 0x1ffe1b8;
   0x1ffe1d8; 0x1806bb8; 0x1806ffc; 0x1aaeba8; 0x1ffe1c0; 0xaea180; 0x31fcdc0; 0x399efe0;
   0x1f1fffc; 0x70f9bc; 0x71c1c0; 0xe8c180; 0x7cfc1c0; 0x383e180; 0x20041c0; 0x0;
   0x0; 0x0; 0x0; 0x202000; 0x0; 0x0; 0x0; 0xe00c0;
   0xe00e0; 0x1c00e0; 0x3fffffc; 0x3fffffc; 0x30c3ae8; 0x30c7070; 0x1ffc0b0; 0x1ffc1b0;
   0xc01b8; 0x1ffc198; 0xffcbb8; 0xc0ffc; 0x2aeaba8; 0x3fff180; 0xc0180; 0xc0d80;
   0x1ffcfe0; 0x1ffc7fc; 0x180c1bc; 0x1c0c180; 0x180c180; 0x1ffc180; 0x1ffc180; 0x1c0c180;
   0x0; 0x0; 0x0; 0x0; 0x202000; 0x0; 0x0; 0x0].
Definition hanzi_data_437 : list N :=
  [0xc0; 0x1fff0e0; 0x1fff0e0; 0x1803ffc; 0x1807ffc; 0x1aab2e8; 0x1fff070; 0xaab1b0;
   0x6771f0; 0x6231b8; 0x1fff1d8; 0x1fff3b8; 0x6777fc; 0x6233a8; 0x6731c0; 0x3fff180;
   0x7fffdc0; 0x319bfe0; 0x3f1bffc; 0xf199bc; 0x7199c0; 0xf99980; 0x1df9dc0; 0x38fcf80;
   0x301c5c0; 0x0; 0x0; 0x0; 0x0; 0x202000; 0x0; 0x0;
   0x0; 0xe0070; 0xc0060; 0x15d5070; 0x3fff7fc; 0x7fff7fc; 0x3332b8; 0x333030;
   0x3fff0b8; 0x3fff1d8; 0x3333098; 0x33331dc; 0x33332ac; 0x3fff7fc; 0x3fffffc; 0x30f1c0;
   0x30f880; 0x3b7ffc0; 0x1f7ffe0; 0x75d9fc; 0x30d8bc; 0x230d9c0; 0x230d880; 0x737ddc0;
   0x3f3cc80; 0x1404dc0; 0x0; 0x0; 0x0; 0x0; 0x202000; 0x0;
   0x0; 0x0; 0x707060; 0x306060; 0x306070; 0x37fffc; 0x577fffc; 0x3f83030;
   0x7f9b030; 0x19b98b8; 0x19ffdd8; 0x19ff898; 0x19d01dc; 0x19ff88c; 0x1dffffc; 0xf31bfc;
   0xf3f9c0; 0xf3f880; 0xf31fc0; 0x631be0; 0x63f9fc; 0xe3f88c; 0x1f319c0; 0x1bb1880;
   0x39f59c0; 0x30fd880; 0x205d9c0; 0x0; 0x0; 0x0; 0x0; 0x202000;
   0x0; 0x0; 0x0; 0x8c4070; 0x18c6060; 0xcce070; 0x6cc7fc; 0x7cc7fc;
   0x3fffab8; 0x3fff830; 0x3f00b8; 0x7dc1d8; 0x1ece098; 0x7cc79dc; 0x30c32ac; 0xcc67fc;
   0x2e867fc; 0x3fff1c0; 0xc3b080; 0xdf1fc0; 0xcbbfe0; 0xddf9fc; 0x3fce0bc; 0x7fcc1c0;
   0xc06080; 0xc071c0; 0xc03c80; 0xc019c0; 0x0; 0x0; 0x0; 0x0;
   0x202000; 0x0; 0x0; 0x0; 0x3000; 0x7000; 0x6000; 0xaaeaa0;
   0x1fffff0; 0xfffff0; 0x1c0380; 0xc0300; 0xc0700; 0xe0600; 0x3fffffc; 0x3fffffc;
   0x1557554; 0x6000; 0x6000; 0x6000; 0x1fffff8; 0x1fffff8; 0x1fffff8; 0x6000;
   0x6000; 0x6000; 0x6000; 0x6000; 0x6000; 0x0; 0x0; 0x0;
   0x0; 0x202000; 0x0; 0x0; 0x0; 0x6000; 0x6000; 0x3fffffc;
   0x3fffffc; 0x6000; 0xffffe0; 0xffffe0; 0xe00060; 0xf55560; 0xffffe0; 0x7000;
   0xe000; 0x1fffff0; 0xfffff0; 0x1c0300; 0xe0700; 0x3fffffc; 0x3fffffc; 0x6000;
   0x6000; 0x1fffff8; 0x1fffff8; 0x6000; 0x6000; 0x6000; 0x0; 0x0;
   0x0; 0x0; 0x202000; 0x0; 0x0; 0x0; 0x40400; 0xc0f80;
   0x1c07fc; 0x3ffe0fc; 0x3ffe1c4; 0x2aaa0c0; 0xc1c1c0; 0xe180c0; 0xe39ffe; 0x630ffe;
   0x17551c0; 0x3fff0c0; 0x7fff1c0; 0xc00c0; 0x1c0ffc; 0xc0ff8; 0x3ffec1c; 0x3ffec08;
   0x15d4c1c; 0xc0c08; 0x1c0d5c; 0xc0ff8; 0x1c0ffc; 0xc0c08; 0x1c001c; 0x0;
   0x0; 0x0; 0x0; 0x202000; 0x0; 0x0; 0x0; 0xc0000;
   0xc0aa8; 0x1c1ff8; 0x3ffeeb8; 0x3fffc38; 0x2eaac38; 0x1c1dc38; 0xc18c38; 0xe39ff8;
   0x630ff8; 0x1754038; 0x3ffe038; 0x7ffe018; 0xc0ff8; 0x1c1ff8; 0xc0838; 0x3fffc78;
   0x3ffe838; 0x15d5c7c; 0xc082c; 0x1c1d7c; 0xc0fee; 0x1c1ff4; 0xc0020; 0x1c0070;
   0x0; 0x0; 0x0; 0x0; 0x202000; 0x0; 0x0; 0x0;
   0xc00c0; 0xc00c0; 0xc01c0; 0x3ffeaa8; 0x3fffffc; 0xc0aa8; 0xc0e18; 0x2aea638;
   0x3ffe730; 0x3aee330; 0x38c6330; 0x38c6ffc; 0x38c7ffc; 0x3ffe0c0; 0x3ffe1c0; 0x3e0ae8;
   0x3f0ffc; 0x7f8ae8; 0x6dc0c0; 0xcdc0c0; 0x1ccf0e0; 0x38c7860; 0x70c3c70; 0x20c0838;
   0xc0010; 0x0; 0x0; 0x0; 0x0; 0x202000; 0x0; 0x0;
   0x0; 0x31c030; 0x308060; 0x71c060; 0x2ea80e0; 0x3ffc7fc; 0x3fe8bfc; 0x18ddb18;
   0x18c9b98; 0x19dd998; 0x9899b0; 0x1ddddd4; 0x3fe9ffc; 0x7ffdffc; 0x60c860; 0x70d060;
   0x60c2e8; 0x3fec7fc; 0x3fec2e8; 0x706060; 0x606060; 0x707070; 0x603830; 0x701c38;
   0x600c1c; 0x700408; 0x0; 0x0; 0x0; 0x0; 0x202000; 0x0;
   0x0; 0x0; 0x300030; 0x303860; 0x707060; 0x6060e0; 0x3fee7fc; 0x3fee7fc;
   0x18c4318; 0x18c0318; 0x1dc7d98; 0xd879b0; 0x1dc7dd4; 0x3fe67fc; 0x7ff67fc; 0x606060;
   0x706060; 0x6062e8; 0x3fe67fc; 0x3fe62e8; 0x716060; 0x63e060; 0x71e070; 0x60f030;
   0x707038; 0x60201c; 0x700008; 0x0; 0x0; 0x0; 0x0; 0x202000;
   0x0; 0x0; 0x0; 0x300030; 0x30c030; 0x70e070; 0x2e86060; 0x3fc73fc;
   0x2a933fc; 0x39f319c; 0x19b9998; 0x199fd98; 0x198fc98; 0x1dcc5dc; 0x3fe63fc; 0x7fe73fc;
   0x603060; 0x61f860; 0x61fc60; 0x3fc7ffc; 0x3fc03fc; 0x600060; 0x638060; 0x63fc70;
   0x603c30; 0x600438; 0x60001c; 0x600008; 0x0; 0x0; 0x0; 0x0;
   0x202000; 0x0; 0x0; 0x0; 0x0; 0xaaaaa0; 0x1fffff0; 0x1fffff0;
   0x70; 0x30; 0xffff70; 0xffff30; 0x555570; 0x30; 0x70; 0x3fffff0;
   0x3fffff0; 0xc630; 0x1c1c670; 0x1e38630; 0x730630; 0x3f0630; 0x1e0638; 0x1e0638;
   0x3d8618; 0xf9f618; 0x7e1ff1c; 0x3801f0e; 0x100060c; 0x0; 0x0; 0x0;
   0x0; 0x202000; 0x0; 0x0; 0x0; 0x0; 0x1fffff0; 0x1fffff0;
   0x30; 0x7fff70; 0x7fff30; 0x70; 0x2aaaab0; 0x3fffff0; 0xc630; 0x1f1c730;
   0x3f8638; 0x1fc718; 0xf9ff1c; 0x3fc7f1c; 0xc0008; 0x15d5554; 0x3fffffc; 0x3fffffc;
   0xc03c0; 0x1c0780; 0xc0e00; 0x1c0c00; 0xfc000; 0xfc000; 0x0; 0x0;
   0x0; 0x0; 0x202000; 0x0; 0x0; 0x0; 0x0; 0x20;
   0x70; 0xe0; 0xc0; 0x1c0; 0x40; 0x0; 0x0; 0xfc;
   0xfc; 0xc0; 0xc0; 0xc0; 0xc0; 0xc0; 0xc0; 0xc0;
   0xc0; 0xe0; 0x3f0; 0x2800fb8; 0x3fffe1c; 0x3fff808; 0x0; 0x0;
   0x0; 0x0; 0x0; 0x202000; 0x0; 0x0; 0x0; 0x38010;
   0x38038; 0x38078; 0x380e0; 0x381e0; 0x1fffcc0; 0x1fffc00; 0x1818000; 0x1818000;
   0x181807c; 0x181c07c; 0x181c068; 0x1c1c060; 0x180e060; 0x1c0e060; 0x1c06060; 0x1c07060].
Definition hanzi_data_438 : list N :=
  [0xc03860; 0xfe1e60; 0xfe0e60; 0x5c05f8; 0x3bc; 0x7ffff1e; 0x3fffe0e; 0x1fff004;
   0x0; 0x0; 0x0; 0x0; 0x202000; 0x0; 0x0; 0x0;
   0x0; 0x18; 0x1fffe38; 0x1fffe70; 0xe000e0; 0x7000c0; 0x3c0040; 0xe0000;
   0x70000; 0x6007c; 0x7007c; 0x60060; 0x70060; 0x60060; 0x70060; 0x60060;
   0x70060; 0x60060; 0x71060; 0x7e060; 0x3e1f0; 0x3b8; 0x7ffff1c; 0x3fffe0c;
   0x1fff004; 0x0; 0x0; 0x0; 0x0; 0x202000; 0x0; 0x0;
   0x0; 0x70010; 0x30018; 0x70038; 0x30070; 0x30070; 0x3fffee0; 0x3fffe40;
   0x2abaa00; 0x30000; 0x38000; 0x780fc; 0xf80fc; 0x1dc0e0; 0x38c0e0; 0x70e0e0;
   0xe0e0e0; 0x1e070e0; 0x1c03ce0; 0x3801ee0; 0xce0; 0x1f8; 0xfbc; 0x3fffe1e;
   0x3fff80c; 0x0; 0x0; 0x0; 0x0; 0x0; 0x202000; 0x0;
   0x0; 0x0; 0x50000; 0x70008; 0x7001c; 0x70038; 0x1c71c70; 0x1870ce0;
   0x1c71c40; 0x1870c00; 0x1c71c00; 0x1870c00; 0x1c71c7c; 0x1870c7c; 0x1c71c60; 0x1870c60;
   0x1c71c60; 0x1870c60; 0x1c71c60; 0x1fffc60; 0x1fffc60; 0x60; 0x1f0; 0x7b8;
   0x3ffff1c; 0x3fff80c; 0x0; 0x0; 0x0; 0x0; 0x0; 0x202000;
   0x0; 0x0; 0x0; 0x400000; 0xf80008; 0x7ff43c; 0xffc70; 0x71cf0;
   0x300e0; 0x70040; 0x30000; 0x70000; 0x3fffe00; 0x3fffefc; 0x2abaafc; 0x700fc;
   0x300e0; 0x700e0; 0x300e0; 0x700e0; 0x300e0; 0x700e0; 0x300e0; 0x701f0;
   0x7b8; 0x7ffff1c; 0x3fff80c; 0x0; 0x0; 0x0; 0x0; 0x0;
   0x202000; 0x0; 0x0; 0x0; 0x0; 0x0; 0x1fffc1c; 0x1fffc78;
   0x700f0; 0x700c0; 0x70000; 0x70000; 0x70000; 0x3fffea8; 0x3fffefc; 0x700e8;
   0x700e0; 0x700e0; 0x700e0; 0x700e0; 0x700e0; 0x700e0; 0x700e0; 0x3e0e0;
   0x3e1f0; 0x3b8; 0x7ffff1c; 0x3fffc0c; 0x17fd004; 0x0; 0x0; 0x0;
   0x0; 0x202000; 0x0; 0x0; 0x0; 0x6000; 0x6018; 0x7038;
   0x2aab070; 0x3fff8e0; 0x2aabcc0; 0x1c40; 0xe00; 0x7fff00; 0x7ffa00; 0x1e00fc;
   0xf00fc; 0x7c0e0; 0x1e0e0; 0x10070e0; 0x30038e0; 0x30018e0; 0x38038e0; 0x1fff8e0;
   0xfff0e0; 0x1f0; 0xfb8; 0x3fffe1e; 0x3fff80c; 0x0; 0x0; 0x0;
   0x0; 0x0; 0x202000; 0x0; 0x0; 0x0; 0x0; 0x2aaa08;
   0x7ffe3c; 0x7ffe38; 0x60e070; 0x60e0e0; 0x60e040; 0x60e000; 0x60e000; 0x60e000;
   0x6ffefc; 0x6ffefc; 0x60e0d4; 0x60e0c0; 0x60e0c0; 0x2e0e0c0; 0x6e0e0c0; 0x2c0e0c0;
   0x7c0e0c0; 0x3c0e0c0; 0x380e1e0; 0x3f8; 0x7ffff3c; 0x3fffc0c; 0x17ff00c; 0x0;
   0x0; 0x0; 0x0; 0x202000; 0x0; 0x0; 0x0; 0x300000;
   0x300018; 0x300038; 0x300070; 0x3000e0; 0x3fffec0; 0x3fffe40; 0x300000; 0x300000;
   0x301800; 0x3038fc; 0x3030fc; 0x3070e0; 0x30e0e0; 0x31c0e0; 0x3000e0; 0x3000e0;
   0x3000e0; 0x3f80e0; 0x3f80e0; 0x503f8; 0x3800f3c; 0x3fffe1e; 0x3fff80c; 0x0;
   0x0; 0x0; 0x0; 0x0; 0x202000; 0x0; 0x0; 0x0;
   0x0; 0x8; 0x3fffe1c; 0x3fffe38; 0xc070; 0xe0e0; 0xe040; 0xe000;
   0x1ffe000; 0x1ffe000; 0x1c060fc; 0x1c060fc; 0x1c070e0; 0xc070e0; 0x1c070e0; 0xc038e0;
   0xc018e0; 0xc01ce0; 0xfe0ee0; 0x7c06e0; 0x1401f0; 0x3f8; 0x3ffff1c; 0x3fffc0c;
   0x554008; 0x0; 0x0; 0x0; 0x0; 0x202000; 0x0; 0x0;
   0x0; 0xc000; 0x1e000; 0x1fefc1c; 0x1fe3c38; 0x1860cf0; 0x1860ce0; 0x1860c40;
   0x1860c00; 0x1860c00; 0x1860ca8; 0x1860cfc; 0x1860ce8; 0x1860ce0; 0x1860ce0; 0x187cce0;
   0x187fce0; 0x1f67ee0; 0x1e60ee0; 0x604e0; 0x600e0; 0x601f0; 0x203b8; 0x7ffff1c;
   0x3fffc0c; 0x17fd004; 0x0; 0x0; 0x0; 0x0; 0x202000; 0x0;
   0x0; 0x0; 0x0; 0x0; 0x1fffc1c; 0xfff878; 0xf0; 0xe0;
   0x0; 0x0; 0x3fffe00; 0x3fffea8; 0x1c0fc; 0x18e0e8; 0x38e0e0; 0x3060e0;
   0x7070e0; 0xe038e0; 0xfd18e0; 0x1fffce0; 0x1dffce0; 0x38008e0; 0x1f0; 0x3f8;
   0x7ffff1c; 0x3fffe0c; 0x3fff00c; 0x0; 0x0; 0x0; 0x0; 0x202000;
   0x0; 0x0; 0x0; 0x1c00010; 0x3ffa018; 0x7ff078; 0xb070; 0x30e0;
   0x30c0; 0x3040; 0x3000; 0x3fff000; 0x3fff800; 0x1830fc; 0x1838fc; 0x1838e0;
   0x1838e0; 0x1818e0; 0x1818e0; 0x181ce0; 0x180ce0; 0x180ce0; 0x180ee0; 0x1805f8;
   0x2000fb8; 0x3ffff1e; 0x3fff80c; 0x0; 0x0; 0x0; 0x0; 0x0;
   0x202000; 0x0; 0x0; 0x0; 0x0; 0x3fffc00; 0x3fffc1c; 0x2baa878;
   0x7018f0; 0x3018c0; 0x7018c0; 0x301800; 0x701c00; 0x3fffca8; 0x3fffcfc; 0x3c00e8;
   0x7e00e0; 0x3700e0; 0x73c0e0; 0x31e0e0; 0x7078e0; 0x303ee0; 0x701ee0; 0x3e00e0;
   0x3e01f0; 0x3b8; 0x7ffff1c; 0x3fffc0c; 0x17fd004; 0x0; 0x0; 0x0;
   0x0; 0x202000; 0x0; 0x0; 0x0; 0x0; 0x1fa0018; 0x1fff83c;
   0xbf838; 0x1870; 0x18e0; 0x1840; 0x1fff800; 0x1fff800; 0xc01800; 0xe05c7c;
   0x60f87c; 0x73dc60; 0x3f9c60; 0x1f1c60; 0x1e0c60; 0x7f0e60; 0xf38660; 0x1e1f760;
   0xc0f260; 0x8021f0; 0x3fc; 0x3ffff1e; 0x3fffc0c; 0x4; 0x0; 0x0;
   0x0; 0x0; 0x202000; 0x0; 0x0; 0x0; 0x7000; 0x3008;
   0x303c; 0xaab878; 0x1fff8f0; 0xaebce0; 0x71c40; 0x60e00; 0x70700; 0x60000;
   0x700fc; 0x3fffefc; 0x3fffee0; 0x600e0; 0x700e0; 0x600e0; 0x700e0; 0x600e0;
   0x700e0; 0x600e0; 0x701f0; 0x603f8; 0x3ffff1c; 0x3fffe0c; 0x554000; 0x0;
   0x0; 0x0; 0x0; 0x202000; 0x0; 0x0; 0x0; 0x10].
Definition hanzi_data_439 : list N :=
  [0x38; 0x3fffe78; 0x3fffee0; 0xe01e0; 0x600c0; 0x70000; 0x38000; 0x13c000;
   0x3be07c; 0x7bf07c; 0xf37868; 0x1e33c60; 0x1c31e60; 0x3830f60; 0x1030260; 0x30060;
   0x30060; 0x30060; 0x30060; 0x301f0; 0x3b8; 0x7ffff1e; 0x3fffe0e; 0x1fff004;
   0x0; 0x0; 0x0; 0x0; 0x202000; 0x0; 0x0; 0x0;
   0x1c000; 0x38008; 0x3801c; 0x30038; 0x3ffff70; 0x3ffffe0; 0x1755540; 0x300000;
   0x380c00; 0x383c00; 0x1c78fc; 0xce0fc; 0xfc0e0; 0x780e0; 0x1f80e0; 0x3dc0e0;
   0x79f0e0; 0xf078e0; 0x1e01fe0; 0x800ee0; 0x1f0; 0x3f8; 0x3ffff1e; 0x3fffe0c;
   0x154000; 0x0; 0x0; 0x0; 0x0; 0x202000; 0x0; 0x0;
   0x0; 0x104000; 0x30e018; 0x30e078; 0x30e070; 0x30e0e0; 0x3fffec0; 0x3fffe00;
   0x30e000; 0x30e000; 0x30e000; 0x30e0fc; 0x30e0fc; 0x3fffee0; 0x3fffee0; 0x3060e0;
   0x3060e0; 0x3070e0; 0x3038e0; 0x303ce0; 0x301ce0; 0x3009f0; 0xfb8; 0x3ffff1c;
   0x3fff80c; 0x0; 0x0; 0x0; 0x0; 0x0; 0x202000; 0x0;
   0x0; 0x0; 0x0; 0x8; 0x1fffc1c; 0xfff838; 0xf0; 0xe0;
   0x40; 0x0; 0x3fffe00; 0x3fffea8; 0x1ce0fc; 0x18e0e8; 0x1c60e0; 0x1860e0;
   0x1c70e0; 0x31870e0; 0x31c70e0; 0x31838e0; 0x3fc1fe0; 0x1f80ee0; 0x7f0; 0x3b8;
   0x7ffff1c; 0x3fffc0c; 0x17fd004; 0x0; 0x0; 0x0; 0x0; 0x202000;
   0x0; 0x0; 0x0; 0x30000; 0x30008; 0x3003c; 0x3fffe38; 0x3fffef0;
   0x300e0; 0x30040; 0xaba800; 0x1fffc00; 0x1fffc00; 0x300fc; 0x300fc; 0x3ffffe0;
   0x3fffee0; 0x35755e0; 0x38300e0; 0x38300e0; 0x18300e0; 0x1f300e0; 0xf300e0; 0x301f0;
   0x203f8; 0x3ffff1c; 0x3fffe0c; 0x554000; 0x0; 0x0; 0x0; 0x0;
   0x202000; 0x0; 0x0; 0x0; 0x1c010; 0x1c038; 0xc070; 0x1fffe70;
   0x1fffee0; 0x60c0; 0x67040; 0x63800; 0x63800; 0x1fffc7c; 0x1fffc7c; 0xaea860;
   0x60060; 0x60060; 0x60060; 0x3fffe60; 0x3fffe60; 0x60060; 0x60060; 0x60060;
   0x601f0; 0x603b8; 0x7ffff1c; 0x3fffe0c; 0x1fff004; 0x0; 0x0; 0x0;
   0x0; 0x202000; 0x0; 0x0; 0x0; 0x10; 0xaaa838; 0x1fff878;
   0xfff870; 0x1c038e0; 0xc038c0; 0x1c03840; 0xc03800; 0x1fff800; 0xfff800; 0x15578fc;
   0x638fc; 0xe38e0; 0x1c38e0; 0x3c18e0; 0x7018e0; 0xf01ce0; 0xe00ee0; 0x1c00ee0;
   0x8004e0; 0x1f8; 0x2000fbc; 0x3ffff1c; 0x3fff80c; 0x0; 0x0; 0x0;
   0x0; 0x0; 0x202000; 0x0; 0x0; 0x0; 0x0; 0x1fffc08;
   0x1fffc3c; 0x1818038; 0x181c070; 0x181c0e0; 0x1c1c040; 0xc0e000; 0x1d47000; 0xf83e00;
   0x741efc; 0xfffafc; 0xfff8f4; 0xc018e0; 0xc018e0; 0xc018e0; 0xc018e0; 0xc018e0;
   0xfff8e0; 0xfff8e0; 0x1f0; 0x3f8; 0x7ffff1c; 0x3fffe0c; 0x555000; 0x0;
   0x0; 0x0; 0x0; 0x202000; 0x0; 0x0; 0x0; 0x7000;
   0x3018; 0x383c; 0x3fff878; 0x3fffcf0; 0xee0; 0x70f40; 0x60700; 0x1f73a00;
   0xfe38a8; 0xdff8fc; 0xc7fefc; 0xc73fe0; 0xc638e0; 0xf738e0; 0xf638e0; 0x30738e0;
   0x38038e0; 0x1fff0e0; 0x1fff0e0; 0x5541f0; 0x7b8; 0x7ffff1c; 0x3fff80c; 0x0;
   0x0; 0x0; 0x0; 0x0; 0x202000; 0x0; 0x0; 0x0;
   0x0; 0x1fffc08; 0x1fffc1c; 0x1800c38; 0x1800c70; 0x1800ce0; 0x19fcc40; 0x19fcc00;
   0x198cc00; 0x198cca8; 0x198ccfc; 0x198ccfc; 0x198cce0; 0x19acce0; 0x19fcce0; 0x1800ce0;
   0x1800ce0; 0x1800ce0; 0x1f80ce0; 0x1f80ce0; 0x700df0; 0x7b8; 0x7ffff1c; 0x3fff80c;
   0x0; 0x0; 0x0; 0x0; 0x0; 0x202000; 0x0; 0x0;
   0x0; 0x1800; 0x1808; 0x1fc1c1c; 0x1fcba38; 0x18dff70; 0x18dba70; 0x18d9c60;
   0x18d8800; 0x18ddc00; 0x18d8c00; 0x18ddc7c; 0x18d8c7c; 0x18dcc7c; 0x18d8c60; 0x18dcc60;
   0x18cce60; 0x18dc660; 0x18cc660; 0x1fcff60; 0x1fcf3e0; 0x1f8; 0x7bc; 0x3ffff1e;
   0x3fffc0c; 0x4; 0x0; 0x0; 0x0; 0x0; 0x202000; 0x0;
   0x0; 0x0; 0x18000; 0x1c018; 0x19c03c; 0x38e078; 0x7070f0; 0x6038e0;
   0xf41c40; 0x1fffe00; 0x1fffe00; 0x38000a8; 0xfc; 0xaaa8fc; 0xfffce0; 0xeab8e0;
   0xe01ce0; 0xe018e0; 0xe01ce0; 0xe018e0; 0xfffce0; 0xfff8e0; 0x1f0; 0xfb8;
   0x7ffff1c; 0x3fff80c; 0x0; 0x0; 0x0; 0x0; 0x0; 0x202000;
   0x0; 0x0; 0x0; 0x7000; 0x7018; 0x703c; 0xaab870; 0x3fff8f0;
   0x3fff8e0; 0x1871c40; 0xc60e00; 0xc70700; 0x263200; 0x7770fc; 0x6630fc; 0xe730fc;
   0xc638e0; 0x1c718e0; 0x1c61ce0; 0x1c71ce0; 0x1860ee0; 0x700e0; 0x7e0e0; 0x3e1f0;
   0x2800fbc; 0x3ffff1c; 0x3fff808; 0x0; 0x0; 0x0; 0x0; 0x0;
   0x202000; 0x0; 0x0; 0x0; 0x70000; 0x30000; 0x7001c; 0x30078;
   0x15754f0; 0x1fffce0; 0x1fffcc0; 0x1830c00; 0x1c71c00; 0x1830ca8; 0x1c71cfc; 0x1fffce8;
   0x1fffce0; 0x1830ce0; 0x1c71ce0; 0x1830ce0; 0x1c71ce0; 0x1fffce0; 0x1fffce0; 0xe0;
   0x1f0; 0x3b8; 0x7ffff1c; 0x3fffc0c; 0x17fd004; 0x0; 0x0; 0x0;
   0x0; 0x202000; 0x0; 0x0; 0x0; 0x70010; 0x30038; 0x30078;
   0x380e0; 0x1fffde0; 0xfff8c0; 0x1c01c00; 0xc01800; 0x1c01c00; 0xc0187c; 0x1fffc7c;
   0xfff868; 0x1d55c60; 0xc01860; 0x1c01c60; 0xc01860; 0x1c01c60; 0xfff860; 0x1fffc60;
   0xaaa860; 0x1f8; 0x3bc; 0x7ffff1e; 0x3fffe0e; 0x1fff004; 0x0; 0x0;
   0x0; 0x0; 0x202000; 0x0; 0x0; 0x0; 0x70000; 0x33018;
   0x7383c; 0x33878; 0x1fff8f0; 0x1fffce0; 0x1575c40; 0x30e00; 0x70700; 0x30000;
   0x3ffff7c; 0x3fffe7c; 0x1575560; 0xf8060; 0x1f8060; 0x39c060; 0x71e060; 0xe0f060].
Definition hanzi_data_440 : list N :=
  [0x1c07c60; 0x1803e60; 0x800df0; 0x7b8; 0x3ffff1c; 0x3fff80c; 0x0; 0x0;
   0x0; 0x0; 0x0; 0x202000; 0x0; 0x0; 0x0; 0x6000;
   0x6018; 0x703c; 0x3070; 0x3fff0f0; 0x3fff8e0; 0x39c40; 0x38c00; 0x38e00;
   0x1ff8e00; 0x1ff87fc; 0x380fc; 0x380e0; 0x380e0; 0x1ff80e0; 0x1ff80e0; 0x380e0;
   0x380e0; 0x380e0; 0x380e0; 0x381f0; 0x283f8; 0x7ffff1c; 0x3fffe0c; 0x555000;
   0x0; 0x0; 0x0; 0x0; 0x202000; 0x0; 0x0; 0x0;
   0x70000; 0x3b0008; 0x77001c; 0xe30038; 0xc70070; 0x3fffee0; 0x3fffec0; 0x2afaa00;
   0xf8000; 0x1fc000; 0x3fc0fc; 0x33e0fc; 0x7770c0; 0xe330c0; 0x1c738c0; 0x38318c0;
   0x3871ec0; 0x1030ec0; 0x704c0; 0x300c0; 0x701f0; 0xfb8; 0x3ffff1c; 0x3fff80c;
   0x0; 0x0; 0x0; 0x0; 0x0; 0x202000; 0x0; 0x0;
   0x0; 0x0; 0x7ffc08; 0xfffc1c; 0x700038; 0x3c0070; 0x1e0060; 0x1f8060;
   0xffe000; 0x3f1ff00; 0x3803e00; 0x10004fc; 0xfff8fc; 0xfff8f4; 0x300e0; 0x700e0;
   0x300e0; 0x700e0; 0x3fffee0; 0x3fffee0; 0x2aaaae0; 0x1f0; 0x2000fb8; 0x3ffff1c;
   0x3fff808; 0x0; 0x0; 0x0; 0x0; 0x0; 0x202000; 0x0;
   0x0; 0x0; 0x30010; 0x83081c; 0x1c30c38; 0xc31c70; 0xe318e0; 0x6338c0;
   0x733040; 0x231000; 0x1575400; 0x3fffe7c; 0x3fffe7c; 0xfc060; 0x1fc060; 0x3be060;
   0x737060; 0xe33860; 0x1c31c60; 0x3830e60; 0x1030760; 0x30260; 0x301f8; 0x3bc;
   0x7ffff1e; 0x3fffe0e; 0x1fff004; 0x0; 0x0; 0x0; 0x0; 0x202000;
   0x0; 0x0; 0x0; 0x603010; 0x703038; 0x707078; 0x3860e0; 0x15d75e0;
   0x3fffec0; 0x3fffe00; 0x386000; 0x386000; 0x38607c; 0x38607c; 0x3ffff68; 0x3ffff60;
   0x386060; 0x387060; 0x387060; 0x387060; 0x383860; 0x383860; 0x381c60; 0x381df0;
   0x3b8; 0x7ffff1e; 0x3fffe0e; 0x1fff004; 0x0; 0x0; 0x0; 0x0;
   0x202000; 0x0; 0x0; 0x0; 0x18000; 0x38000; 0x7001c; 0x60078;
   0x3fffef0; 0x3fffec0; 0x19c0c0; 0x18c000; 0xd9d800; 0xd8d8a8; 0x1d9dcfc; 0x198cce8;
   0x399cee0; 0x318c6e0; 0x718c7e0; 0x318e2e0; 0x1870e0; 0x1870e0; 0x1838e0; 0x1f1ce0;
   0x1f1df0; 0x3b8; 0x7ffff1c; 0x3fffc0c; 0x17fd004; 0x0; 0x0; 0x0;
   0x0; 0x202000; 0x0; 0x0; 0x0; 0x0; 0x3fffe08; 0x3fffe3c;
   0x2aaa878; 0x1dc0f0; 0x880e0; 0x1fffc40; 0x1fffc00; 0x1dddc00; 0x1888c00; 0x19ddcfc;
   0x1888cfc; 0x1fcdcf4; 0x1f8ece0; 0x1807ce0; 0x1802ce0; 0x1801ce0; 0x1800ce0; 0x1fffce0;
   0x1fffce0; 0x1f0; 0x3f8; 0x7ffff3c; 0x3fffc0c; 0x554000; 0x0; 0x0;
   0x0; 0x0; 0x202000; 0x0; 0x0; 0x0; 0x70000; 0x30018;
   0x3003c; 0xfff870; 0xfff8e0; 0xe018c0; 0xe01840; 0xe01800; 0xfff800; 0xfff8a8;
   0x18fc; 0x18fc; 0x1fff8e0; 0x1fff8e0; 0x1d558e0; 0x1c018e0; 0x1c018e0; 0x1c018e0;
   0x1fff8e0; 0x1fff8e0; 0x15551f0; 0x3f8; 0x7ffff1c; 0x3fffe0c; 0x555000; 0x0;
   0x0; 0x0; 0x0; 0x202000; 0x0; 0x0; 0x0; 0x0;
   0xfff810; 0xfff83c; 0xe01870; 0xe018f0; 0xeab8e0; 0xfff840; 0xe01800; 0xe01800;
   0xe018a8; 0xfff8fc; 0xfff8fc; 0x3c118e0; 0xe798e0; 0x7e18e0; 0x3c18e0; 0x7b18e0;
   0xe3f8e0; 0x1e1fce0; 0x1803ce0; 0x1f0; 0x7b8; 0x7ffff1c; 0x3fff80c; 0x0;
   0x0; 0x0; 0x0; 0x0; 0x202000; 0x0; 0x0; 0x0;
   0x603010; 0xe03038; 0x707078; 0x30e070; 0x38e0e0; 0x1fffcc0; 0x1fffc40; 0x30000;
   0x70000; 0x3007c; 0x7007c; 0x3fffe60; 0x3fffe60; 0x70060; 0xf8060; 0x1d8060;
   0x39c060; 0x70e060; 0xe07860; 0x1c03e60; 0x801df8; 0x3bc; 0x7ffff1e; 0x3fffe0e;
   0x1fff004; 0x0; 0x0; 0x0; 0x0; 0x202000; 0x0; 0x0;
   0x0; 0xc00000; 0xfe0008; 0xfffc1c; 0x7fc38; 0x70070; 0x600e0; 0x1575440;
   0x3fffe00; 0x3ffff00; 0x60000; 0x7007e; 0x6007e; 0x1fff860; 0xfff860; 0x1c01860;
   0xc01860; 0x1c01860; 0xc01860; 0x1fff860; 0xfff860; 0x1f0; 0x7b8; 0x3ffff1c;
   0x3fff80c; 0x0; 0x0; 0x0; 0x0; 0x0; 0x202000; 0x0;
   0x0; 0x0; 0xce000; 0xce008; 0x8ce41c; 0x18ce638; 0x1ccee70; 0xecece0;
   0x6cfc40; 0x3cf800; 0x3ce800; 0xce000; 0x1ce0fc; 0x3cf8fc; 0xfcfce0; 0x1ccefe0;
   0x18c67e0; 0xc60e0; 0x10c70e0; 0x30c38e0; 0x3fc1ce0; 0x3fc0ee0; 0x15005f0; 0x3f8;
   0x7ffff1c; 0x3fffe0c; 0x555000; 0x0; 0x0; 0x0; 0x0; 0x202000;
   0x0; 0x0; 0x0; 0x18000; 0x1c008; 0x7fe01c; 0xfff038; 0x707870;
   0x38fce0; 0x1fcf40; 0xf8200; 0x7ff000; 0x7f8fe00; 0x3c71ffc; 0xaea8fc; 0xfffcfc;
   0xaea8e0; 0x718e0; 0x618e0; 0x1575ce0; 0x1fffce0; 0x1fffce0; 0x600e0; 0x701f0;
   0x2000fb8; 0x3ffff1c; 0x3fff80c; 0x0; 0x0; 0x0; 0x0; 0x0;
   0x202000; 0x0; 0x0; 0x0; 0xf00010; 0x1ff8018; 0x7ffc38; 0xfc70;
   0x1ce0; 0xcc0; 0x7fffc40; 0x3fffc00; 0x1555c00; 0xc7c; 0x1c7c; 0x1ffec60;
   0x1ffec60; 0x1806c60; 0x1806c60; 0x1806e60; 0x1806660; 0x1806660; 0x1ffe760; 0x1ffe260;
   0x1f0; 0x3b8; 0x7ffff1c; 0x3fffe0e; 0x15fd004; 0x0; 0x0; 0x0;
   0x0; 0x202000; 0x0; 0x0; 0x0; 0x601000; 0x603808; 0x70701c;
   0x38e038; 0x15d7470; 0x3fffee0; 0x3ffff40; 0x30000; 0x1c70c00; 0x1830ca8; 0x1c70cfc;
   0x1830cfc; 0x1c70ce0; 0x1abace0; 0x1fffce0; 0xaba8e0; 0x380e0; 0x380e0; 0x1c0e0;
   0xe0e0; 0x7df0; 0x3bf8; 0x7ffff1c; 0x3fffc0c; 0x15fd004; 0x0; 0x0;
   0x0; 0x0; 0x202000; 0x0; 0x0; 0x0; 0x70000; 0x67008].
Definition hanzi_data_441 : list N :=
  [0x7303c; 0x63878; 0x1fff870; 0x1fff8e0; 0x71c40; 0x60e00; 0x70000; 0x2aeaa00;
   0x3fffefc; 0x2baeafc; 0x1cc0f4; 0x18e0e0; 0x1ce0e0; 0x31860e0; 0x71c70e0; 0x31838e0;
   0x3fc1fe0; 0x3f80ee0; 0x15001f0; 0x3f8; 0x7ffff3c; 0x3fffc0c; 0x17ff00c; 0x0;
   0x0; 0x0; 0x0; 0x202000; 0x0; 0x0; 0x0; 0x300000;
   0x30ff08; 0x31ff1c; 0x30e038; 0x307070; 0xf638e0; 0x1f61840; 0x1b61800; 0x1b71800;
   0x1b3f828; 0x1b3fc7c; 0x3333f7c; 0x3331f60; 0x3319860; 0x3319860; 0x3319860; 0x319860;
   0x301860; 0x301860; 0x3f1e60; 0x1e1ff0; 0x3f8; 0x7ffff1c; 0x3fffc0c; 0x554004;
   0x0; 0x0; 0x0; 0x0; 0x202000; 0x0; 0x0; 0x0;
   0x370000; 0xf30008; 0xc7003c; 0x3fffe38; 0x3fffef0; 0x300e0; 0x1575440; 0x1fffc00;
   0x1fffc00; 0x1830c00; 0x1d75cfc; 0x1fffcfc; 0x1d75ce0; 0x1830ce0; 0x1c70ce0; 0x1fffce0;
   0x1fffce0; 0x1830ce0; 0x1c70ce0; 0x1f30ce0; 0xf70df0; 0xfb8; 0x3ffff1c; 0x3fff80c;
   0x0; 0x0; 0x0; 0x0; 0x0; 0x202000; 0x0; 0x0;
   0x0; 0x70000; 0x830808; 0xc71c3c; 0xe31878; 0x673870; 0x3330e0; 0x575440;
   0xfffc00; 0xfffc00; 0xc01c00; 0xd55cfc; 0xfffcfc; 0xd55ce0; 0xc01ce0; 0xfffce0;
   0xfffce0; 0xd55ce0; 0xc01ce0; 0xc01ce0; 0xf81ce0; 0xf81df0; 0x3f8; 0x7ffff3c;
   0x3fffc0c; 0x17ff00c; 0x0; 0x0; 0x0; 0x0; 0x202000; 0x0;
   0x0; 0x0; 0xc00000; 0xfe8008; 0x7ffc3c; 0x32c38; 0x70070; 0x3fffee0;
   0x3fffe40; 0xfc000; 0x3fe000; 0xf37800; 0x1e71efc; 0x3820ffc; 0x31ffef4; 0x1ff8e0;
   0x1f8c0e0; 0x1f8e0e0; 0x18060e0; 0x18070e0; 0x1c078e0; 0xf81ee0; 0xf80ff0; 0x3f8;
   0x7ffff3c; 0x3fffc0c; 0x17ff00c; 0x0; 0x0; 0x0; 0x0; 0x202000;
   0x0; 0x0; 0x0; 0x0; 0x2aaaa08; 0x3ffff1c; 0x2abaa38; 0x1c070;
   0x80e0e0; 0x1c3f840; 0xe33e00; 0x770f00; 0x3fc200; 0x1ef07c; 0x3c787c; 0x7f1e60;
   0xef8e60; 0x1ddc060; 0x398e060; 0x31c7c60; 0xc1f60; 0xc0660; 0xfc060; 0x7c1f0;
   0x7b8; 0x7ffff1c; 0x3fff80c; 0x0; 0x0; 0x0; 0x0; 0x0;
   0x202000; 0x0; 0x0; 0x0; 0x370000; 0x730008; 0x1e7001c; 0x830038;
   0x3fffe70; 0x3fffee0; 0x1575440; 0x830000; 0x3c71e00; 0xc31800; 0xf738fc; 0x3f70fc;
   0x1fa0e0; 0x3bc0e0; 0x77f0e0; 0xe338e0; 0x1c71ee0; 0x3830ee0; 0x10706e0; 0x3e0e0;
   0x3c1f0; 0x7b8; 0x7ffff1c; 0x3fff80c; 0x0; 0x0; 0x0; 0x0;
   0x0; 0x202000; 0x0; 0x0; 0x0; 0x707000; 0x306010; 0x38e038;
   0xbaea38; 0x1fffe70; 0x1abaae0; 0x1c70040; 0x1830000; 0x1fffc00; 0x1fffc00; 0x70cfc;
   0x30cfc; 0x3fffce0; 0x3fffce0; 0x387c0e0; 0x383e0e0; 0x1d770e0; 0x1f33ce0; 0xf71fe0;
   0x300e0; 0x701f8; 0x2800fb8; 0x3ffff1c; 0x3fff808; 0x0; 0x0; 0x0;
   0x0; 0x0; 0x202000; 0x0; 0x0; 0x0; 0x70000; 0x38018;
   0x7c07c; 0xee0f0; 0x3c71e0; 0xf03880; 0x7e01e00; 0x3bfff00; 0x17ff700; 0x300a8;
   0x700fc; 0x3fffee8; 0x3fffee0; 0x300e0; 0x7730e0; 0x6338e0; 0xe71ce0; 0x1c30ee0;
   0x18707e0; 0x183a2e0; 0x3e1f0; 0x83b8; 0x7ffff1c; 0x3fffc0c; 0x17fd004; 0x0;
   0x0; 0x0; 0x0; 0x202000; 0x0; 0x0; 0x0; 0x386200;
   0x38e618; 0x187e38; 0x383c70; 0x1191cf0; 0x31b3ce0; 0x39b3e00; 0x19b3780; 0x1993300;
   0xd9b000; 0xd9f87c; 0x38b87c; 0x7c7c60; 0x6c3e60; 0xec3760; 0xce3360; 0x1c63060;
   0x1873060; 0x183bd60; 0x383de60; 0x1019ff8; 0x3b8; 0x7ffff1e; 0x3fffc0c; 0x4;
   0x0; 0x0; 0x0; 0x0; 0x202000; 0x0; 0x0; 0x0;
   0x0; 0x3fffe18; 0x3fffe38; 0x2aaaa70; 0x70; 0xfff8e0; 0xfff8c0; 0xe01800;
   0xe01800; 0xe01800; 0xe0187c; 0xfff87c; 0xfff860; 0x703060; 0x307060; 0x386060;
   0x186060; 0x182060; 0x3fffe60; 0x3fffee0; 0x1f8; 0x200079c; 0x3ffff1e; 0x3fff80c;
   0x0; 0x0; 0x0; 0x0; 0x0; 0x202000; 0x0; 0x0;
   0x0; 0x0; 0x1fffc08; 0x1fffc1c; 0xf00038; 0x7df070; 0x1f80e0; 0x1f00c0;
   0x1fffc00; 0x1fffc00; 0x1860c00; 0x1d75cfc; 0x1fffcfc; 0x1d75ce0; 0x1860ce0; 0x1d75ce0;
   0x1fffce0; 0x1d75ce0; 0x1860ce0; 0x1871ce0; 0x1f60ce0; 0x1f71df0; 0x3b8; 0x7ffff1c;
   0x3fffc0c; 0x154004; 0x0; 0x0; 0x0; 0x0; 0x202000; 0x0;
   0x0; 0x0; 0x6600; 0x2aae608; 0x3fffc3c; 0x3ffbc38; 0x381c70; 0x383ee0;
   0x383f40; 0x383380; 0x383100; 0x1ff3000; 0x1ff78fc; 0x383cfc; 0x387ee0; 0x3837e0;
   0x3833e0; 0x3830e0; 0x3830e0; 0x3830e0; 0x3fffee0; 0x3ff9ee0; 0xff0; 0x3f8;
   0x7ffff1c; 0x3fffc0c; 0x554004; 0x0; 0x0; 0x0; 0x0; 0x202000;
   0x0; 0x0; 0x0; 0x1001800; 0x3c01808; 0x3fe181c; 0x3e1838; 0x61870;
   0x6ffe0; 0x6ff40; 0x61800; 0x3fe1800; 0x3fe1800; 0xc6f87c; 0xc6fc7c; 0xc63f60;
   0xc61f60; 0xc71860; 0xc31860; 0xc71860; 0xc31860; 0xc39860; 0xc19e60; 0xc19ff0;
   0x3f8; 0x7ffff1c; 0x3fffe0c; 0x555000; 0x0; 0x0; 0x0; 0x0;
   0x202000; 0x0; 0x0; 0x0; 0x10; 0xfff818; 0xfffc38; 0xc01870;
   0xc01ce0; 0xc018c0; 0xfffc40; 0xfff800; 0x0; 0x0; 0x1fffe7c; 0x1fffe7c;
   0x70060; 0x30060; 0x1fffc60; 0xfffc60; 0x70060; 0x30060; 0x3fffe60; 0x3fffee0;
   0x1f8; 0x79c; 0x3ffff1e; 0x3fff80c; 0x0; 0x0; 0x0; 0x0;
   0x0; 0x202000; 0x0; 0x0; 0x0; 0x70000; 0x30008; 0x7001c;
   0x3fffe38; 0x3fffe70; 0x300e0; 0x700c0; 0x1fffc00; 0x1fffc00; 0x1830c00; 0x1c70cfc;
   0x1830cfc; 0x1fffcc0; 0x1fffcc0; 0x1fc0c0; 0x3be0c0; 0x7770c0; 0xe338c0; 0x1c71cc0].
Definition hanzi_data_442 : list N :=
  [0x1830ec0; 0x705f0; 0x203f8; 0x3ffff1c; 0x3fffc0c; 0x554004; 0x0; 0x0;
   0x0; 0x0; 0x202000; 0x0; 0x0; 0x0; 0x71000; 0x73008;
   0x7383c; 0xafb838; 0x1fffc70; 0xaface0; 0x70e40; 0x70600; 0x1575400; 0x3fffe00;
   0x3fffffc; 0xfc; 0x5550f4; 0xfff8e0; 0xd558e0; 0xc018e0; 0xc018e0; 0xc018e0;
   0xfff8e0; 0xfff8e0; 0x5551f0; 0x3f8; 0x7ffff1c; 0x3fffe0c; 0x555000; 0x0;
   0x0; 0x0; 0x0; 0x202000; 0x0; 0x0; 0x0; 0x18000;
   0x1c008; 0x3ce01c; 0x707038; 0x1fffc70; 0x3fffce0; 0x1817c40; 0x386000; 0x707800;
   0x1e01c00; 0x381cffc; 0x100e2fc; 0x7ff0e0; 0x7ab8e0; 0x385ce0; 0x19eee0; 0x1fc0e0;
   0x1f80e0; 0x7ff0e0; 0x1e0fee0; 0x1c01df0; 0x7b8; 0x7ffff1c; 0x3fff80c; 0x0;
   0x0; 0x0; 0x0; 0x0; 0x202000; 0x0; 0x0; 0x0;
   0x1c000; 0xc008; 0x7ff01c; 0x7ff838; 0x707c70; 0x38eee0; 0x1fc640; 0xf8000;
   0x7ff000; 0x3f8fe00; 0x3c71ffc; 0x2baafc; 0x7ff8fc; 0x300e0; 0x5754e0; 0xfffce0;
   0x5754e0; 0x300e0; 0x1fffee0; 0x1fffee0; 0x701f0; 0x303f8; 0x3ffff1c; 0x3fffc0c;
   0x154000; 0x0; 0x0; 0x0; 0x0; 0x202000; 0x0; 0x0;
   0x0; 0x10; 0x2aaaa18; 0x3ffff38; 0x2aaaa30; 0x70; 0xa8aae0; 0x1fdfe40;
   0x1acae00; 0x18dc600; 0x18c867c; 0x1bdde7c; 0x1bcb660; 0x1edf660; 0x1eca660; 0x1ede660;
   0x18ca660; 0x18dc660; 0x18c8660; 0x18dc660; 0x1ecf660; 0x1ece7f8; 0x3bc; 0x7ffff1c;
   0x3fffe0e; 0x17ff004; 0x0; 0x0; 0x0; 0x0; 0x202000; 0x0;
   0x0; 0x0; 0x30000; 0x30018; 0x3fffe38; 0x3fffe70; 0x38006e0; 0x38006e0;
   0x3fffe40; 0x7ff800; 0x603800; 0x60387c; 0x75787c; 0x7ff860; 0x557860; 0x3860;
   0x1fff860; 0x1fff860; 0x1c03860; 0x1c03860; 0x1c03860; 0x1fff860; 0x1fff9f0; 0x3b8;
   0x7ffff1c; 0x3fffe0e; 0x17ff004; 0x0; 0x0; 0x0; 0x0; 0x202000;
   0x0; 0x0; 0x0; 0x38000; 0x38018; 0xfffc38; 0xfffc70; 0xc38070;
   0xc38060; 0x3ffff00; 0x2ebaa00; 0xc38000; 0xfffe7c; 0xfffe7c; 0x838060; 0x1c38e60;
   0xe39c60; 0x7fb860; 0x1fd060; 0x7bf060; 0xe3be60; 0x3c39f60; 0x1838260; 0x3e1f8;
   0x1e3f8; 0x7ffff1c; 0x3fffe0e; 0x17ff004; 0x0; 0x0; 0x0; 0x0;
   0x202000; 0x0; 0x0; 0x0; 0x10; 0xfffc38; 0xfffc70; 0xe000e0;
   0xe001e0; 0xfff8c0; 0x7ff800; 0x600000; 0x1755400; 0x3fffe7c; 0x3ffff7c; 0x830c60;
   0x1c71c60; 0xe33860; 0x7f7060; 0x3fc060; 0x7ff060; 0xe33c60; 0x1c71e60; 0x1830660;
   0x3e1f8; 0x83bc; 0x7ffff1e; 0x3fffe0e; 0x17ff004; 0x0; 0x0; 0x0;
   0x0; 0x202000; 0x0; 0x0; 0x0; 0x30000; 0x30008; 0x3ff003c;
   0x3ff0078; 0x300f0; 0x300e0; 0x1fffc40; 0xfffc00; 0x1c00c00; 0xeaac00; 0x1fffcfc;
   0xc00cfc; 0x1c00cf4; 0xfffce0; 0x1fffce0; 0x300e0; 0x15755e0; 0x3ffffe0; 0x3ffffe0;
   0x300e0; 0x301f0; 0x303f8; 0x7ffff3c; 0x3fffc0c; 0x554000; 0x0; 0x0;
   0x0; 0x0; 0x202000; 0x0; 0x0; 0x0; 0x30000; 0x3001c;
   0xfffc38; 0xfffc70; 0x300e0; 0x300c0; 0x3ffff40; 0x3fffe00; 0x184000; 0x38f07c;
   0x1f07c7c; 0x3c20e60; 0x1030460; 0x30060; 0x1fffc60; 0xfffc60; 0x30060; 0x30060;
   0x3ffff60; 0x3fffe60; 0x1f8; 0x3b8; 0x7ffff1c; 0x3fffe0e; 0x15fd004; 0x0;
   0x0; 0x0; 0x0; 0x202000; 0x0; 0x0; 0x0; 0xf00000;
   0x1fffc08; 0x1ffc1c; 0x30038; 0x3fffe70; 0x3fffee0; 0x15fd440; 0x3be000; 0x777000;
   0x3e33e00; 0x3c78ffc; 0x182fc; 0x3ffffe0; 0x3fffee0; 0x7070e0; 0x3838e0; 0x1dfce0;
   0xfe0e0; 0x3fc0e0; 0xfbfae0; 0x1e07ff0; 0x8003f8; 0x7ffff1c; 0x3fffc0c; 0x154000;
   0x0; 0x0; 0x0; 0x0; 0x202000; 0x0; 0x0; 0x0;
   0x6000; 0x6008; 0x1ff01c; 0x3ff838; 0x1c3870; 0xc1ce0; 0x1fffe40; 0xffff00;
   0x1c71e00; 0xc30ca8; 0x1c71cfc; 0xebacfc; 0x1fffce0; 0xafa8e0; 0x7780e0; 0x67c0e0;
   0x1c6e0e0; 0x306f0e0; 0x3067ce0; 0x3fe1ee0; 0x1fc05f0; 0x7b8; 0x7ffff1c; 0x3fff80c;
   0x0; 0x0; 0x0; 0x0; 0x0; 0x202000; 0x0; 0x0;
   0x0; 0x0; 0x3fffc18; 0x3fffc38; 0x3988c70; 0x398cce0; 0x3988cc0; 0x3fffc40;
   0x3fffc00; 0x155d400; 0x1c0fc; 0xffe0fc; 0xffe0e0; 0xe078e0; 0x607ce0; 0x71fee0;
   0x3b80e0; 0x1f00e0; 0xf00e0; 0x7c0e0; 0x1f8e0; 0x7df0; 0xbb8; 0x7ffff1c;
   0x3fffe0e; 0x17fd004; 0x0; 0x0; 0x0; 0x0; 0x202000; 0x0;
   0x0; 0x0; 0x0; 0x3fffe08; 0x3fffe1c; 0x38; 0xfff870; 0xfff8e0;
   0xe01840; 0xe01800; 0xfff800; 0xfff800; 0xfc; 0x1fffcfc; 0x1fffce0; 0x1830ce0;
   0x1c30ce0; 0x1fffce0; 0x1fffce0; 0x1830ce0; 0x1c30ce0; 0x1fffce0; 0x15555f0; 0x3b8;
   0x3ffff1c; 0x3fffc0c; 0x0; 0x0; 0x0; 0x0; 0x0; 0x202000;
   0x0; 0x0; 0x0; 0x70000; 0x30008; 0x7c03c; 0xce0f0; 0x3c71e0;
   0xf038c0; 0x3ffff00; 0x39fe780; 0x3000100; 0x181fea8; 0x199fefc; 0x19986e8; 0x199d6e0;
   0x199fee0; 0x19986e0; 0x19986e0; 0x199fee0; 0x199aee0; 0x18186e0; 0x181a6e0; 0x1f1e7f0;
   0x2003b8; 0x7f57f1c; 0x3fffc0c; 0x17fd004; 0x0; 0x0; 0x0; 0x0;
   0x202000; 0x0; 0x0; 0x0; 0x1f00000; 0x3fff818; 0x1ffc3c; 0xc0c38;
   0xc0c70; 0x3fffce0; 0x3fffc40; 0xe0c00; 0x60c00; 0xffec00; 0x1ffec7c; 0x806c7c;
   0x1ffec60; 0xffec60; 0x1c06e60; 0xaaee60; 0x1ffe660; 0x806660; 0x1d56760; 0xffe2e0;
   0x15541f8; 0x7b8; 0x7ffff1e; 0x3fffc0c; 0x54000; 0x0; 0x0; 0x0;
   0x0; 0x202000; 0x0; 0x0; 0x0; 0x703000; 0x303008; 0x38701c].
Definition hanzi_data_443 : list N :=
  [0x186038; 0x3ffff70; 0x3fffee0; 0x157d540; 0xc0e000; 0xe1f800; 0x733e00; 0x3f8f7c;
   0xee27c; 0x3e7074; 0x7e3e60; 0xef0c60; 0x1cfc060; 0x38cf060; 0x30c7860; 0xe1f60;
   0xfe660; 0x7c1f0; 0x3f8; 0x7ffff1c; 0x3fffc0c; 0x554004; 0x0; 0x0;
   0x0; 0x0; 0x202000; 0x0; 0x0; 0x0; 0x70000; 0x1830c08;
   0x1c71c3c; 0x1830c38; 0x1c71c70; 0x1fffce0; 0x1fffc40; 0x0; 0x3fffe00; 0x3fffe00;
   0x300fc; 0x380fc; 0x1fffcf4; 0x1fffce0; 0x19ccce0; 0x188cce0; 0x19ccce0; 0x188cce0;
   0x19ccce0; 0x1e8cce0; 0x1f44df0; 0x3f8; 0x7ffff1c; 0x3fffe0c; 0x555000; 0x0;
   0x0; 0x0; 0x0; 0x202000; 0x0; 0x0; 0x0; 0x18000;
   0x30008; 0x1fffe3c; 0x1fffe38; 0x1757470; 0x3070e0; 0x386040; 0x182000; 0x3fffe00;
   0x3aaae00; 0x3830654; 0x38306fc; 0xfffcfc; 0xfff8e0; 0xe31ce0; 0xe318e0; 0xe31ce0;
   0xe318e0; 0xfb1ce0; 0x2308e0; 0x301f8; 0x2000f9c; 0x3ffff1e; 0x3fff80c; 0x0;
   0x0; 0x0; 0x0; 0x0; 0x202000; 0x0; 0x0; 0x0;
   0x0; 0xfffc00; 0xfffc1c; 0xc30c78; 0xfffcf0; 0xfffcc0; 0xc31c00; 0xc30c00;
   0xfffc00; 0xfffca8; 0x300fc; 0xabaae8; 0x1fffee0; 0x18306e0; 0x19b06e0; 0x1b306e0;
   0x1bff6e0; 0x1bff6e0; 0x1e016e0; 0x18006e0; 0x1f007f0; 0xa003f8; 0x7ffff1c; 0x3fffe0c;
   0x17ff004; 0x0; 0x0; 0x0; 0x0; 0x202000; 0x0; 0x0;
   0x0; 0x38000; 0x30018; 0x1575438; 0x1fffc70; 0x1d55c70; 0x1800ce0; 0x1c00c40;
   0x1fffc00; 0x1fffc00; 0xe7c; 0x1fffc7c; 0x1fffe60; 0x1993660; 0x1993660; 0x1fff660;
   0x1fff660; 0x1dd7760; 0x1993360; 0x1993360; 0x1993260; 0x1d131f8; 0x3bc; 0x7ffff1e;
   0x3fffe0e; 0x17ff004; 0x0; 0x0; 0x0; 0x0; 0x202000; 0x0;
   0x0; 0x0; 0x10; 0xfffc38; 0x1fffc78; 0xc00c70; 0x1fffce0; 0xfffcc0;
   0x1c01c40; 0xfffc00; 0x1fffc00; 0x607c; 0x1fff07c; 0x1fff860; 0x1d75c60; 0x1860e60;
   0x1871f60; 0x18f9b60; 0x1b9dc60; 0x1909860; 0x1bffc60; 0x1bff860; 0x1f001f0; 0xf003b8;
   0x7ffff1c; 0x3fffe0e; 0x15fd004; 0x0; 0x0; 0x0; 0x0; 0x202000;
   0x0; 0x0; 0x0; 0x0; 0x1fdfe08; 0x1fdfe1c; 0x1818638; 0x181c670;
   0x18186e0; 0x1fdfe40; 0x1fdfe00; 0x1555600; 0x600; 0x3ff567c; 0x1fffe7c; 0x181fe7c;
   0x1800660; 0x1ce0660; 0xfdfe60; 0x79fe60; 0xf80660; 0x1dc0660; 0x38f0660; 0x10707f0;
   0x3b8; 0x7ffff1c; 0x3fffe0c; 0x555004; 0x0; 0x0; 0x0; 0x0;
   0x202000; 0x0; 0x0; 0x0; 0x70000; 0x30018; 0xfffc78; 0xfff870;
   0xc01ce0; 0xfff8c0; 0xfffc40; 0xc01800; 0xfffc00; 0xfff87c; 0x7c; 0xaaaa60;
   0x1fffe60; 0x30060; 0x70060; 0xfffc60; 0x1fffc60; 0x30060; 0x1575460; 0x3fffe60;
   0x15555f0; 0x3b8; 0x7ffff1c; 0x3fffe0e; 0x15fd004; 0x0; 0x0; 0x0;
   0x0; 0x202000; 0x0; 0x0; 0x0; 0x703000; 0x303008; 0x38701c;
   0xbaaa38; 0x1fffe70; 0xcc0e0; 0xcc040; 0xfffc00; 0x1fffc00; 0xcccc00; 0x1ccccfc;
   0xccccfc; 0x1fc6ce0; 0xe03ce0; 0x1c00ce0; 0xfffce0; 0x1d55ce0; 0xc00ce0; 0x1fffce0;
   0xfffce0; 0x1f0; 0x2000fb8; 0x3ffff1c; 0x3fff80c; 0x0; 0x0; 0x0;
   0x0; 0x0; 0x202000; 0x0; 0x0; 0x0; 0x703000; 0x303008;
   0x30701c; 0x186038; 0x3fffe70; 0x2abaae0; 0x30040; 0xaba800; 0xfff800; 0xe01800;
   0xe018fc; 0xfff8fc; 0xfff8e0; 0xe018e0; 0xe018e0; 0xfff8e0; 0xfff8e0; 0xe018e0;
   0xf558e0; 0xfff8e0; 0x5551f0; 0x3b8; 0x3ffff1c; 0x3fffc0c; 0x154000; 0x0;
   0x0; 0x0; 0x0; 0x202000; 0x0; 0x0; 0x0; 0x30000;
   0x30018; 0x1fffc38; 0xebac70; 0x1c30ce0; 0xfffcc0; 0x1fffc40; 0x30000; 0x3ffff00;
   0x3ffff7c; 0x55547c; 0xfffc60; 0xf55c60; 0xe30c60; 0xe31c60; 0xe30c60; 0xe31c60;
   0x8b8c60; 0x7de060; 0x1f0f860; 0x1c03df0; 0x3b8; 0x7ffff1e; 0x3fffe0e; 0x15fd004;
   0x0; 0x0; 0x0; 0x0; 0x202000; 0x0; 0x0; 0x0;
   0x186000; 0x186018; 0x3fffe38; 0x3fffe70; 0x15d74e0; 0x1fffcc0; 0x15d7440; 0x2baea00;
   0x3ffff00; 0x3007c; 0xfffc7c; 0xfffc60; 0xc31c60; 0xfffc60; 0xfffc60; 0xc30c60;
   0x3ffff60; 0x3ffff60; 0xc01c60; 0xc00c60; 0xf81df8; 0x280bbc; 0x7ffff1e; 0x3fffe0e;
   0x17ff004; 0x0; 0x0; 0x0; 0x0; 0x202000; 0x0; 0x0;
   0x0; 0xe000; 0x3fefe1c; 0x3ff1e38; 0x3986670; 0x39cc6e0; 0x388c6c0; 0x18df640;
   0x18fbe00; 0x1f78f00; 0xe3027c; 0x155547c; 0x1fffc60; 0x1d75c60; 0x1830c60; 0x1d75c60;
   0x1fffc60; 0x1d75c60; 0x1830c60; 0x1d75c60; 0x1fffc60; 0x15555f8; 0x3bc; 0x7ffff1e;
   0x3fffe0e; 0x17ff004; 0x0; 0x0; 0x0; 0x0; 0x202000; 0x0;
   0x0; 0x0; 0x0; 0xfffc08; 0xd55c1c; 0xc00c38; 0xfffc70; 0xeaace0;
   0xc01c40; 0xfffc00; 0xfffc00; 0xaaaaa8; 0x1fffffc; 0x1aaaafc; 0x18dcee0; 0x1988ce0;
   0x1b9d8e0; 0x1c0e0e0; 0x1f1f8e0; 0x1bcbee0; 0x19fcee0; 0x18082e0; 0x1e1f1f0; 0x2023f8;
   0x7ffff1c; 0x3fffc0c; 0x154004; 0x0; 0x0; 0x0; 0x0; 0x202000;
   0x0; 0x0; 0x0; 0x30000; 0x30008; 0xfffc1c; 0xc30c38; 0xfffc70;
   0xfffce0; 0x30040; 0x3ffff00; 0x3ffff00; 0x0; 0x7ffcfc; 0x6ab8fc; 0x601ce0;
   0x7ff8e0; 0x555ce0; 0xaab8e0; 0xfffce0; 0xc018e0; 0xd55ce0; 0xfff8e0; 0x5555f0;
   0x7b8; 0x3ffff1c; 0x3fff80c; 0x0; 0x0; 0x0; 0x0; 0x0;
   0x202000; 0x0; 0x0; 0x0; 0xd00000; 0x1ffe000; 0x1ffe1c; 0xc10a38;
   0xe31cf0; 0x6318e0; 0x7738c0; 0x3a3000; 0x1557000; 0xfff8a8; 0x1575cfc; 0x30ee8;
   0x15754e0; 0x3fffee0; 0x3fffee0; 0xc30ce0; 0x1c71ce0; 0xc30ce0; 0x1d75ce0; 0xfffce0].
Definition hanzi_data_444 : list N :=
  [0x15555f0; 0x3b8; 0x7ffff1c; 0x3fffc0c; 0x17fd004; 0x0; 0x0; 0x0;
   0x0; 0x202000; 0x0; 0x0; 0x0; 0x183800; 0x183808; 0x197d1c;
   0x19ff38; 0x3fd7d70; 0x3fc3860; 0x1dfff60; 0x18fff00; 0x1c73800; 0xca387c; 0xdfff7c;
   0xdbff60; 0xf81c60; 0x70ac60; 0x71fc60; 0x718c60; 0xf1cc60; 0xd88e60; 0x1ddc660;
   0x38ef760; 0x107f3f8; 0x203fc; 0x7ffff1e; 0x3fffe0c; 0x1555004; 0x0; 0x0;
   0x0; 0x0; 0x202000; 0x0; 0x0; 0x0; 0xcc000; 0xcc008;
   0x3ffff1c; 0x3ffff38; 0xcc070; 0x1fffee0; 0x1ddd660; 0x18cc600; 0x1fffe00; 0x18cc600;
   0x1ddd67c; 0x1fffe7c; 0x60; 0x7ff860; 0x7ffc60; 0x601860; 0x7ffc60; 0x7ff860;
   0x601c60; 0x7ff8e0; 0x7ffdf8; 0x79c; 0x3ffff1e; 0x3fff80c; 0x0; 0x0;
   0x0; 0x0; 0x0; 0x202000; 0x0; 0x0; 0x0; 0x70000;
   0x60008; 0x15f541c; 0x3fffc38; 0x3fffc70; 0x618ce0; 0x618c40; 0x2ebac00; 0x3fffc00;
   0x2ebacfc; 0x618cfc; 0x618ee8; 0x758ee0; 0x7f8ee0; 0x5506e0; 0x8026e0; 0x1db67e0;
   0x19b33e0; 0x31333e0; 0x3333be0; 0x13319f0; 0x3b8; 0x3ffff1c; 0x3fff80c; 0x4;
   0x0; 0x0; 0x0; 0x0; 0x202000; 0x0; 0x0; 0x0;
   0x431010; 0xe31818; 0x733038; 0x3b3070; 0x3ffff70; 0x3fffee0; 0x1fe040; 0x7b7000;
   0x3f33c00; 0x3830e7c; 0x1611e7c; 0x2eab860; 0x3fffc60; 0x2ea8c60; 0x66c660; 0x66cb60;
   0x1767f60; 0x3fe7060; 0x3ff7060; 0x603860; 0x601ff8; 0x6007fc; 0x7ffff1e; 0x3fffe0e;
   0x17ff004; 0x0; 0x0; 0x0; 0x0; 0x202000; 0x0; 0x0;
   0x0; 0x703000; 0x387008; 0x15d751c; 0x3fffe38; 0xcc070; 0xaeeae0; 0x1fffe40;
   0x18cce00; 0x1fcee00; 0x1f87e00; 0x1d55efc; 0x1fffefc; 0x1800ee0; 0x1fffee0; 0x1fffce0;
   0x3000e0; 0x3ffffe0; 0x2babae0; 0x3070e0; 0x30e0e0; 0x3fc1f0; 0x1e03f8; 0x7ffff1c;
   0x3fffe0c; 0x555000; 0x0; 0x0; 0x0; 0x0; 0x202000; 0x0;
   0x0; 0x0; 0x555000; 0xfff808; 0x7d501c; 0x1fe038; 0x1fffe70; 0x1fffee0;
   0x1c7c040; 0x667000; 0x27ff00; 0x38e28; 0x1fffc7c; 0x1fffc7c; 0x1cd8c60; 0x1b8ec60;
   0x1f07c60; 0x1bffc60; 0x1dfcc60; 0x198cc60; 0x1dfcc60; 0x1bfcc60; 0x1e0cdf0; 0xbb8;
   0x3ffff1c; 0x3fff80c; 0x4; 0x0; 0x0; 0x0; 0x0; 0x202000;
   0x0; 0x0; 0x0; 0x30000; 0xab0008; 0x1ff001c; 0x30038; 0x7fffe70;
   0x3fffee0; 0x1d78640; 0xbff600; 0x1839600; 0x1ff0600; 0x54067c; 0x3fff67c; 0x3fff660;
   0x187c660; 0x1ec7660; 0x3f8660; 0x3df760; 0xfe3360; 0x1dbc360; 0x398fb60; 0x10f11f8;
   0x70398; 0x3ffff1c; 0x3fff80c; 0x0; 0x0; 0x0; 0x0; 0x0;
   0x202000; 0x0; 0x0; 0x0; 0x180000; 0x30fe08; 0x70fe1c; 0x3fec638;
   0x3fec670; 0x88c6e0; 0x18cc660; 0x88fe00; 0xdcfe00; 0xc80600; 0x7ff067c; 0x2ba067c;
   0x71ff74; 0x30fe60; 0x3ffcf60; 0x3fe8f60; 0x71cfe0; 0x308de0; 0x71cd60; 0x30fc60;
   0x71fdf0; 0x3b8; 0x7ffff1e; 0x3fffc0c; 0x4; 0x0; 0x0; 0x0;
   0x0; 0x202000; 0x0; 0x0; 0x0; 0x187000; 0x183008; 0x19fe1c;
   0x19fe38; 0x3fd8670; 0x3fdfee0; 0x1ddfe40; 0x18f8600; 0x1c7fe00; 0x87fe00; 0x1df387c;
   0xdaba7c; 0xfbff60; 0xf00c60; 0x71fc60; 0xe1fc60; 0x1f18c60; 0x1b88e60; 0x19dc660;
   0x38ef7e0; 0x10673f8; 0x39c; 0x3ffff1e; 0x3fff80c; 0x0; 0x0; 0x0;
   0x0; 0x0; 0x202000; 0x0; 0x0; 0x0; 0x1c00; 0x3fe0c08;
   0x3fe7c1c; 0x318fe38; 0x3186770; 0x3986360; 0x1edffa0; 0x1efbb80; 0x47d380; 0x6c9200;
   0x6dff7c; 0x3fcba7c; 0x3ffd360; 0x669360; 0x67ff60; 0x3feff60; 0x3ffd360; 0x609360;
   0x61d160; 0x60f1f0; 0x60e1f8; 0x39c; 0x7ffff0e; 0x3fffc0c; 0x4; 0x0;
   0x0; 0x0; 0x0; 0x202000; 0x0; 0x0; 0x0; 0x18000;
   0x38008; 0x3ffff1c; 0x3fffe38; 0x31cc770; 0x3f876e0; 0x1f03e40; 0xb86e00; 0x1ce000;
   0x3fffea8; 0x3fffffc; 0xc1e0fc; 0xf37ce0; 0x3f8ee0; 0x1ef0e0; 0x3e38e0; 0x7f9ee0;
   0x1ede0e0; 0x3cc7ce0; 0x10e1ee0; 0x7c5f0; 0x387b8; 0x7ffff1c; 0x3fff80c; 0x0;
   0x0; 0x0; 0x0; 0x0; 0x202000; 0x0; 0x0; 0x0;
   0x386000; 0x387818; 0x181f18; 0x1ff17b8; 0x1ff5870; 0x183f360; 0x1fff660; 0x1ff3c00;
   0x1833c00; 0x1833f7c; 0x1ff737c; 0x1ff7860; 0x6c7c60; 0x6ce760; 0x6cf160; 0x6cf860;
   0x366de60; 0x266e7e0; 0x3676360; 0x3e3fc60; 0x1e1fdf8; 0x3fc; 0x7ffff1c; 0x3fffe0e;
   0x17ff004; 0x0; 0x0; 0x0; 0x0; 0x202000; 0x0; 0x0;
   0x0; 0x1c71810; 0xe31c18; 0x718e38; 0xe38c70; 0x1c718e0; 0xaaaae0; 0x1fffe40;
   0x19ce600; 0x187c600; 0x1bcf67c; 0x1fffe7c; 0x1fffe60; 0xc71c60; 0xdf7c60; 0xdb4c60;
   0xc72c60; 0xdf7c60; 0xdb6c60; 0x6f34c60; 0x2bffe60; 0x38f9ff0; 0x10003b8; 0x7ffff1c;
   0x3fffe0e; 0x17ff004; 0x0; 0x0; 0x0; 0x0; 0x202000; 0x0;
   0x0; 0x0; 0x0; 0x3fffe0; 0x7fffe0; 0x3000e0; 0x7000e0; 0x3000e0;
   0x7fffe0; 0x3fffe0; 0x0; 0xfffff0; 0xfffff0; 0xeaeab0; 0xc07030; 0xc06030;
   0xc07030; 0xeaeab0; 0xfffff0; 0xfffff0; 0x30; 0x1800030; 0x3800030; 0x3800030;
   0x1fffff0; 0x1ffffe0; 0x555500; 0x0; 0x0; 0x0; 0x0; 0x202000;
   0x0; 0x0; 0x0; 0x0; 0xaa8000; 0x3ff9ffc; 0x3ff9ffc; 0x1c39d54;
   0xc39800; 0xc39c00; 0xe38c00; 0x638c1c; 0x338e38; 0x338670; 0x6386e0; 0xe387c0;
   0x1c383c0; 0x1838380; 0x3838380; 0x38387c0; 0x3838ee0; 0x1c39cf0; 0x1fb9870; 0x1fb9838;
   0x3801c; 0x3801c; 0x38000; 0x38000; 0x0; 0x0; 0x0; 0x0;
   0x202000; 0x0; 0x0; 0x0; 0x60c1c0; 0x70e0e0; 0x3c7870; 0x1e3c38].
Definition hanzi_data_445 : list N :=
  [0x7870f0; 0xe1e1c0; 0x5555c0; 0x3fffe0; 0x7000e0; 0x3000e0; 0x7fffe0; 0x3fffe0;
   0x0; 0xfffff0; 0xfffff0; 0xc06030; 0xc06030; 0xfffff0; 0xfffff0; 0x30;
   0x3000030; 0x3800030; 0x3fffff0; 0x1ffffe0; 0x0; 0x0; 0x0; 0x0;
   0x0; 0x202000; 0x0; 0x0; 0x0; 0x0; 0x1aa2aa8; 0x3ff7ffc;
   0x3ff7ffc; 0x1830380; 0x1830380; 0x1c30380; 0xc30380; 0xe30380; 0x630380; 0x737ffc;
   0xe37ffe; 0x1c37ffe; 0x1830380; 0x1830380; 0x3830380; 0x3030380; 0x3830380; 0x3830380;
   0x3f30380; 0x1f30380; 0x30380; 0x30380; 0x30380; 0x30380; 0x0; 0x0;
   0x0; 0x0; 0x202000; 0x0; 0x0; 0x0; 0x0; 0x0;
   0x3fffffc; 0x3fffffc; 0x1838380; 0x1c38380; 0x1c38380; 0xe38380; 0x638380; 0x638380;
   0x73d7d4; 0x63fffe; 0xe3fffe; 0x1c38380; 0x1838380; 0x3838380; 0x3838380; 0x3838380;
   0x3838380; 0x3fb8380; 0x1f38380; 0x238380; 0x383d0; 0x381f8; 0x381f0; 0x0;
   0x0; 0x0; 0x0; 0x202000; 0x0; 0x0; 0x0; 0x100;
   0x180; 0x7ff0380; 0x3ff0300; 0x3830700; 0x1830300; 0x1c37ffc; 0xc37ffc; 0xe30030;
   0x630030; 0x730030; 0x730030; 0xe30030; 0x1830030; 0x3830030; 0x3030030; 0x3030030;
   0x3030030; 0x3030030; 0x3fb2ab0; 0x1f37ff0; 0x233ff0; 0x30000; 0x30000; 0x30000;
   0x0; 0x0; 0x0; 0x0; 0x202000; 0x0; 0x0; 0x0;
   0x0; 0x0; 0x3ff8000; 0x3ffbffc; 0x383bffc; 0x1838180; 0x1c38180; 0xe38180;
   0x638180; 0x638180; 0x738180; 0x738180; 0xe38180; 0x1c38180; 0x1838180; 0x383b980;
   0x303bfc0; 0x3038ff8; 0x38381fc; 0x3fb800c; 0x1fb8000; 0x238000; 0x38000; 0x38000;
   0x38000; 0x0; 0x0; 0x0; 0x0; 0x202000; 0x0; 0x0;
   0x0; 0x300; 0xaa0700; 0x3ff0700; 0x3ff0e00; 0x1877ff0; 0x1c37ff0; 0x1c70030;
   0xe30030; 0x670030; 0x630030; 0x770030; 0xe30030; 0x1c70030; 0x1830038; 0x1870030;
   0x3830038; 0x3070038; 0x3830038; 0x3870038; 0x1fb0018; 0x1f70018; 0x3001c; 0x7001c;
   0x3000e; 0x7000c; 0x0; 0x0; 0x0; 0x0; 0x202000; 0x0;
   0x0; 0x0; 0x40; 0xaa0cc0; 0x7fe1cc0; 0x3ae38e0; 0x38e3060; 0x18e7070;
   0x1ce7030; 0xcee038; 0xcec01c; 0x6eeaae; 0x7e7ff4; 0xee3ff0; 0x1ce7180; 0x18e3180;
   0x38e71c0; 0x30e3180; 0x30e71c0; 0x30e30c0; 0x30e30c0; 0x3fe30e0; 0x1fe3070; 0x2e3070;
   0xe3f3c; 0xe1e1c; 0xe0008; 0x0; 0x0; 0x0; 0x0; 0x202000;
   0x0; 0x0; 0x0; 0x180; 0xaa0380; 0x3ff0300; 0x3ff0300; 0x1c77ffc;
   0x1c37ffc; 0xc755f4; 0xe300e0; 0x6700e0; 0x3300e0; 0x773fe0; 0x633fe0; 0xc73060;
   0x1c33060; 0x1873060; 0x3833860; 0x3873870; 0x3833870; 0x3873870; 0x1fb3830; 0x1ff1838;
   0x31818; 0x71d1c; 0x30f8e; 0x70704; 0x0; 0x0; 0x0; 0x0;
   0x202000; 0x0; 0x0; 0x0; 0x0; 0x0; 0x3fefffc; 0x3fefffc;
   0x3861860; 0x1861860; 0x1c61860; 0xc61860; 0xe61860; 0x661860; 0x765d74; 0x66fffc;
   0xc6fffc; 0x1861860; 0x1861860; 0x3861860; 0x3061870; 0x3061870; 0x3061870; 0x3fe1830;
   0x1f61838; 0x261838; 0x6181c; 0x6180e; 0x6180c; 0x0; 0x0; 0x0;
   0x0; 0x202000; 0x0; 0x0; 0x0; 0x0; 0xaa2aa8; 0x3ff3ffc;
   0x3ff3ae8; 0x1c731c0; 0x1c330c0; 0xc731c0; 0xe330c0; 0x673ffc; 0x633ffc; 0x7730c0;
   0xe330c0; 0xc730c0; 0x18330e0; 0x1873ffc; 0x3833ffc; 0x3073060; 0x3833060; 0x3873070;
   0x1fb3830; 0x1ff3830; 0x33838; 0x73f9c; 0x31f0c; 0x70f08; 0x0; 0x0;
   0x0; 0x0; 0x202000; 0x0; 0x0; 0x0; 0x300; 0x300;
   0x3ff0300; 0x3ff0300; 0x1837ffc; 0x1c37ffc; 0x1c30300; 0xe30300; 0x630300; 0x733ff8;
   0x333ffc; 0x730300; 0xe30300; 0x1c30380; 0x18357d4; 0x3837ffc; 0x3037ffc; 0x3030180;
   0x38301c0; 0x3fb00c0; 0x1f300e0; 0x230070; 0x30078; 0x3003c; 0x30018; 0x0;
   0x0; 0x0; 0x0; 0x202000; 0x0; 0x0; 0x0; 0x300;
   0xaa0300; 0x7fe0300; 0x3fefffc; 0x386fffc; 0x1860300; 0x1c60300; 0xc62308; 0xe66318;
   0x666318; 0x766318; 0xe66318; 0x1c66318; 0x1866318; 0x3867ff8; 0x3067ff8; 0x3060300;
   0x3060300; 0x3060300; 0x3f6e300; 0x1f6ff00; 0x263f00; 0x60f80; 0x60100; 0x60000;
   0x0; 0x0; 0x0; 0x0; 0x202000; 0x0; 0x0; 0x0;
   0x0; 0xaa2aa8; 0x7ff7ffc; 0x3ff7ff8; 0x1871c00; 0x1830c30; 0x1c71c30; 0xe30c30;
   0xe71c30; 0x630c38; 0x777ff8; 0xe37ff8; 0x1c75f50; 0x1830f00; 0x1871f00; 0x3830f80;
   0x3071dc0; 0x3030ce0; 0x3871c70; 0x3fb0c38; 0x1f71c1c; 0x230c0c; 0x71d44; 0x30f80;
   0x70780; 0x0; 0x0; 0x0; 0x0; 0x202000; 0x0; 0x0;
   0x0; 0x300; 0xaa0380; 0x7fe55d0; 0x3fe3ff8; 0x3867ff8; 0x1863038; 0x1c63038;
   0xc63038; 0xe63038; 0x663f38; 0x761f38; 0xe60038; 0x1c65578; 0x1867ff8; 0x3867ff8;
   0x3066000; 0x3066c00; 0x3066fe0; 0x3067ffc; 0x3f6603c; 0x1f67000; 0x263000; 0x63f00;
   0x63e00; 0x60000; 0x0; 0x0; 0x0; 0x0; 0x202000; 0x0;
   0x0; 0x0; 0x300; 0xaa0300; 0x3fe0300; 0x3fe0300; 0x1867ff8; 0x1867ff8;
   0x1c66318; 0xc66318; 0xe66318; 0x666318; 0x766318; 0xe66bb8; 0x1c67ff8; 0x1867ff8;
   0x1866318; 0x3866318; 0x3066318; 0x3866318; 0x3866318; 0x1f66bb8; 0x1f67ff8; 0x66ab8;
   0x66018; 0x60000; 0x60000; 0x0; 0x0; 0x0; 0x0; 0x202000;
   0x0; 0x0; 0x0; 0x3030; 0xaa3030; 0x7fe3030; 0x3fe3030; 0x1867574;
   0x186fffe; 0x1c6fffe; 0xe63030; 0x663030; 0x663030; 0x763030; 0xe63030; 0x1c63ff0;
   0x1863ff0; 0x3863030; 0x3063030; 0x3063030; 0x3063030; 0x3863030; 0x3fe3030; 0x1fe3ff0].
Definition hanzi_data_446 : list N :=
  [0x63ff0; 0x63030; 0x63030; 0x60010; 0x0; 0x0; 0x0; 0x0;
   0x202000; 0x0; 0x0; 0x0; 0x380; 0xaa0180; 0x3fe01c0; 0x3fe08c0;
   0x1861ce0; 0x1c61860; 0x1c63870; 0xe67038; 0x667ffc; 0x66fffc; 0x36c17c; 0x660000;
   0xc60000; 0x1c63ff8; 0x1867ff8; 0x3863018; 0x3067018; 0x3863018; 0x3867018; 0x3fe3018;
   0x1f67018; 0x263ff8; 0x67ff8; 0x63018; 0x60010; 0x0; 0x0; 0x0;
   0x0; 0x202000; 0x0; 0x0; 0x0; 0x1000; 0xaa3e00; 0x7ff7ff0;
   0x3fe03f0; 0x1870030; 0x1860030; 0x1c70030; 0xe60030; 0x677ff0; 0x667ff0; 0x775d70;
   0xe61830; 0x1c71c30; 0x1861830; 0x3871c30; 0x3061830; 0x3071c30; 0x3061830; 0x3875c30;
   0x3fefe30; 0x1fffff4; 0x60ffe; 0x7007c; 0x60000; 0x70000; 0x0; 0x0;
   0x0; 0x0; 0x202000; 0x0; 0x0; 0x0; 0xc0; 0xaa01c0;
   0x7fec780; 0x3fee700; 0x38e6e00; 0x18e6400; 0x1ce71c0; 0xce30c0; 0xce31c0; 0xee78c8;
   0x6efdd8; 0xeeccd8; 0x1cfcfd8; 0x18eced8; 0x38fc7dc; 0x30f83cc; 0x30f81cc; 0x30e81ce;
   0x30e01e0; 0x3fe60f0; 0x1fe61fc; 0x2e60de; 0xe7fcc; 0xe7f80; 0xe1f00; 0x0;
   0x0; 0x0; 0x0; 0x202000; 0x0; 0x0; 0x0; 0x0;
   0xaa0000; 0x7fffffc; 0x3fefffc; 0x3870600; 0x1860700; 0x1c70700; 0xc60380; 0xe70fc0;
   0x661fc0; 0x773be0; 0xe63360; 0x1c77378; 0x186e338; 0x387c31e; 0x306030c; 0x3070300;
   0x3060300; 0x3870300; 0x3fe8300; 0x1f7ff40; 0x63ffc; 0x701fc; 0x60000; 0x70000;
   0x0; 0x0; 0x0; 0x0; 0x202000; 0x0; 0x0; 0x0;
   0x0; 0x1fefffc; 0x7fefffc; 0x3aeaba8; 0x38e0300; 0x18e0300; 0x1ce5754; 0xce7ffc;
   0xce7ffc; 0xee630c; 0x6e631c; 0xee638c; 0x1ce679c; 0x18e678c; 0x38e67dc; 0x30e6ccc;
   0x30e7cfc; 0x30e787c; 0x30e683c; 0x3fe600c; 0x1fe601c; 0xe600c; 0xe601c; 0xe7c0c;
   0xe7c1c; 0x0; 0x0; 0x0; 0x0; 0x202000; 0x0; 0x0;
   0x0; 0x0; 0xaa2aa8; 0x7ff7ffc; 0x3ff7ffc; 0x18771c0; 0x18770c0; 0x1c770c0;
   0xe730e0; 0x677070; 0x673030; 0x773f3c; 0xe71f1e; 0x1c7040c; 0x1870000; 0x3877ff8;
   0x3873ff8; 0x3077018; 0x3073018; 0x3877018; 0x3ff3018; 0x1f77018; 0x273ff8; 0x77ff8;
   0x73ab8; 0x77018; 0x0; 0x0; 0x0; 0x0; 0x202000; 0x0;
   0x0; 0x0; 0x19c0; 0x3fc18c0; 0x3fc19c0; 0x3ac18c0; 0x18c19c0; 0x18c18c0;
   0x1cc19c0; 0xcdf8fc; 0xcdf9fc; 0xec18c0; 0x6c19c0; 0xcc18c0; 0x1cc19c0; 0x18c18c0;
   0x30c19c0; 0x30c18c0; 0x30c19c0; 0x30c18e0; 0x30c19f0; 0x3ff18fc; 0x1ffd9dc; 0xdf8c4;
   0xc7dc0; 0xc08c0; 0xc01c0; 0x0; 0x0; 0x0; 0x0; 0x202000;
   0x0; 0x0; 0x0; 0x1000; 0xaa3c00; 0x3fe7ff0; 0x3fe07f8; 0x1860618;
   0x1860618; 0x1c60618; 0xc60618; 0xe60618; 0x660618; 0x76fff8; 0xe6fff8; 0x1c60c18;
   0x1860c18; 0x1860c18; 0x3860c18; 0x3060c18; 0x3860c18; 0x386dd18; 0x3f69998; 0x1f6db18;
   0x26fbf8; 0x677fc; 0x66208; 0x60000; 0x0; 0x0; 0x0; 0x0;
   0x202000; 0x0; 0x0; 0x0; 0x1c0; 0xaa00c0; 0x7ff15e0; 0x3fe3fe0;
   0x1873ff0; 0x1861830; 0x1c71c38; 0xc60c18; 0xe70e1c; 0x662eac; 0x777ffc; 0xe67ff8;
   0x1c77000; 0x1866000; 0x3877000; 0x3867ff0; 0x3077ff0; 0x3066000; 0x3877000; 0x3f66000;
   0x1f77000; 0x67ff8; 0x77ff8; 0x66000; 0x77000; 0x0; 0x0; 0x0;
   0x0; 0x202000; 0x0; 0x0; 0x0; 0x19c0; 0xa81980; 0x7fc19c0;
   0x3fc1980; 0x38c19c0; 0x38c1980; 0x18f19cc; 0x18d998c; 0x1cd99dc; 0xcd9998; 0xedd9d8;
   0xcc9998; 0x1ccd9d8; 0x38cd9b8; 0x30cd9f0; 0x30cf9b0; 0x30c19d0; 0x30c1980; 0x30c19c0;
   0x3edf980; 0x1edffc0; 0xc3ff8; 0xc01fc; 0xc000c; 0xc0000; 0x0; 0x0;
   0x0; 0x0; 0x202000; 0x0; 0x0; 0x0; 0x700; 0xaa0700;
   0x3fe0700; 0x3fe0f80; 0x1861dc0; 0x18638e0; 0x1c67070; 0xc6e338; 0xe6c73c; 0x66860c;
   0x760604; 0xe60000; 0x1c67ff0; 0x1867ff0; 0x1867000; 0x3863800; 0x3061c00; 0x3860c00;
   0x3860e70; 0x1f606e0; 0x1f607c0; 0x60780; 0x60700; 0x60e00; 0x60400; 0x0;
   0x0; 0x0; 0x0; 0x202000; 0x0; 0x0; 0x0; 0x180;
   0x180; 0x7ff0180; 0x3ff2ba8; 0x1833ffc; 0x1c33ff8; 0x1c30180; 0xe30180; 0x630180;
   0x637ffc; 0x337ffc; 0x630080; 0xe30180; 0x1c30180; 0x18315d4; 0x3833ffc; 0x3037ffc;
   0x3030180; 0x3830180; 0x3fb0180; 0x1f37f80; 0x237ffe; 0x307fc; 0x3000c; 0x30000;
   0x0; 0x0; 0x0; 0x0; 0x202000; 0x0; 0x0; 0x0;
   0x700; 0xaa0660; 0x7fe0770; 0x3fe0630; 0x3860730; 0x186fff8; 0x1c6fff8; 0xc60618;
   0xc6071c; 0xe6060e; 0x760700; 0xe6fffc; 0x1c6fffc; 0x1860780; 0x3860f80; 0x3061ec0;
   0x3063fe0; 0x3067660; 0x306e770; 0x3f6c638; 0x1f6071c; 0x26060c; 0x60704; 0x60600;
   0x60700; 0x0; 0x0; 0x0; 0x0; 0x202000; 0x0; 0x0;
   0x0; 0x700; 0xaa0300; 0x3fe0700; 0x3fe7ff8; 0x18e7ff8; 0x18e0300; 0x1ce0700;
   0xce0300; 0xeefffc; 0x6efffc; 0x7e5554; 0xee1800; 0x1ce1800; 0x18ebaa8; 0x18efffc;
   0x38efff8; 0x30e1820; 0x38e1870; 0x38e18e0; 0x1fe18c0; 0x1fe19c0; 0xe1880; 0xe1800;
   0xe1f00; 0xe0f00; 0x0; 0x0; 0x0; 0x0; 0x202000; 0x0;
   0x0; 0x0; 0x180; 0x180; 0x3fe01c0; 0x3fefffc; 0x186fffc; 0x18600e0;
   0x1c600e0; 0xc60060; 0xe67ff0; 0x667ff8; 0x76707c; 0x66607c; 0xc67ffe; 0x1867fe4;
   0x1867070; 0x3866060; 0x3067570; 0x3067fe0; 0x3867ff0; 0x3f66060; 0x1f67070; 0x266060;
   0x67e70; 0x63e60; 0x61470; 0x0; 0x0; 0x0; 0x0; 0x202000;
   0x0; 0x0; 0x0; 0x300; 0xaa0300; 0x7fe0780; 0x3fe0f80; 0x3861dc0].
Definition hanzi_data_447 : list N :=
  [0x18638e0; 0x1c67070; 0xc6e038; 0xc6c01c; 0x663fee; 0x763ff4; 0xe60000; 0x1c60000;
   0x1867ff8; 0x3867ff8; 0x3066038; 0x3066038; 0x3066038; 0x3066038; 0x3f66038; 0x1f66038;
   0x267ff8; 0x67ff8; 0x66038; 0x66038; 0x0; 0x0; 0x0; 0x0;
   0x202000; 0x0; 0x0; 0x0; 0x7000; 0xaa7030; 0x3fe38f8; 0x3ae1fe0;
   0x1860f80; 0x1861f80; 0x1c67df0; 0xc6f0f8; 0xc641bc; 0xe60188; 0x6601c0; 0xe6fffc;
   0x1c7fffc; 0x18602e0; 0x3860e60; 0x3060660; 0x3061770; 0x3063b30; 0x38633b8; 0x3f66198;
   0x1f661dc; 0x6fece; 0x6ffe4; 0x6c0e0; 0x6c000; 0x0; 0x0; 0x0;
   0x0; 0x202000; 0x0; 0x0; 0x0; 0x0; 0xaaaaa8; 0x7fffffc;
   0x3fefffc; 0x18700c0; 0x1860ce0; 0x1c71c70; 0xe63830; 0x677ff8; 0x667ff8; 0x77e178;
   0xe64300; 0x1c70300; 0x1860300; 0x3875750; 0x3867ff8; 0x3077ffc; 0x3060300; 0x3870300;
   0x3fe0300; 0x1f7ff00; 0x26fffc; 0x717fc; 0x6000c; 0x70000; 0x0; 0x0;
   0x0; 0x0; 0x202000; 0x0; 0x0; 0x0; 0xe0; 0xe0;
   0x7fe0070; 0x3fefff0; 0x386fff0; 0x386eab8; 0x1c6c01c; 0x1c6e00c; 0xc6c7fe; 0xe6e7fc;
   0x66e618; 0xe6e618; 0x1c6e7f8; 0x186e7f8; 0x386e618; 0x306e618; 0x306e7f8; 0x306e7f8;
   0x3066018; 0x3f66018; 0x1f66000; 0xa66000; 0x67f00; 0x63e00; 0x61400; 0x0;
   0x0; 0x0; 0x0; 0x202000; 0x0; 0x0; 0x0; 0x0;
   0x7800; 0x7fe7ff0; 0x3fe0ff8; 0x3860078; 0x1860038; 0x1c60038; 0xc6fff8; 0xc6fff8;
   0xe60038; 0x760038; 0xe60038; 0x1c6fff8; 0x186fff8; 0x386f5f8; 0x386e0f8; 0x306e0d8;
   0x306e0d8; 0x306e0d8; 0x3f6e0d8; 0x1f6ffdc; 0xa6ffcc; 0x6e0cc; 0x6e0c8; 0x60000;
   0x0; 0x0; 0x0; 0x0; 0x202000; 0x0; 0x0; 0x0;
   0x100; 0xaa0380; 0x3fe0700; 0x3ae0700; 0x1c6fffc; 0x1c6fffc; 0xc60860; 0xe61860;
   0x663870; 0x663038; 0x767018; 0xe6e81c; 0xc65c6c; 0x1860ce0; 0x1860fe0; 0x3860780;
   0x3860780; 0x3860700; 0x3860f80; 0x1fe1dc0; 0x1f638e0; 0x61870; 0x6103c; 0x6001c;
   0x60000; 0x0; 0x0; 0x0; 0x0; 0x202000; 0x0; 0x0;
   0x0; 0x180; 0x380; 0x1ff0380; 0x1ff2ba8; 0x1c33ff8; 0xc33ab8; 0xe33038;
   0x633038; 0x733ff8; 0x333ff8; 0x333038; 0x633038; 0xe33ff8; 0xc33ff8; 0x1c31578;
   0x1830438; 0x1830e38; 0x3830c38; 0x1831c38; 0x1fb1fb8; 0x1fb3ff8; 0x2b30f8; 0x3707c;
   0x30008; 0x30000; 0x0; 0x0; 0x0; 0x0; 0x202000; 0x0;
   0x0; 0x0; 0x700; 0xaa0300; 0x7fe0700; 0x3fe0300; 0x38efffc; 0x18efff8;
   0x1ce0700; 0xce6338; 0xce6730; 0x6e3330; 0x7e3770; 0xee3b20; 0x1cffffc; 0x18efffc;
   0x30ffffc; 0x30e0380; 0x30e0780; 0x30e0f80; 0x30e1dc0; 0x3fe38c0; 0x1fe70e0; 0xee070;
   0xec07c; 0xe001e; 0xe000c; 0x0; 0x0; 0x0; 0x0; 0x202000;
   0x0; 0x0; 0x0; 0x600; 0xaa0700; 0x3fe0700; 0x3fe1f80; 0x1863dc0;
   0x18670e0; 0x1c6e070; 0xc7c038; 0xe6bffc; 0x663fec; 0x763fe0; 0xe60000; 0x1c60000;
   0x186fffc; 0x187fffc; 0x3860180; 0x30611c0; 0x38618c0; 0x38638e0; 0x1f63060; 0x1f67070;
   0x6fff8; 0x6dffc; 0x6c038; 0x64000; 0x0; 0x0; 0x0; 0x0;
   0x202000; 0x0; 0x0; 0x0; 0x3020; 0x2aa3060; 0x7fe30e0; 0x3fe38c0;
   0x3861dc0; 0x186fff8; 0x1c6fff8; 0xc60300; 0xc60700; 0xe60300; 0x760700; 0xe60300;
   0x1c7fffc; 0x186fffc; 0x3860300; 0x3060380; 0x3060780; 0x3060f80; 0x3061dc0; 0x3f638e0;
   0x1f67070; 0x6e070; 0x6403c; 0x6001c; 0x6000c; 0x0; 0x0; 0x0;
   0x0; 0x202000; 0x0; 0x0; 0x0; 0x0; 0x3fefffc; 0x7fefffc;
   0x386c00c; 0x186c39c; 0x186c18c; 0x1c601c0; 0xc67ff8; 0xc67ffc; 0x6600e0; 0x660670;
   0xc60630; 0x1c60630; 0x386fff8; 0x306fff8; 0x3060608; 0x3060600; 0x306a600; 0x386fff4;
   0x3f63ffc; 0x1f6067c; 0x60600; 0x60600; 0x60600; 0x60600; 0x0; 0x0;
   0x0; 0x0; 0x202000; 0x0; 0x0; 0x0; 0x7010; 0xaa3870;
   0x7fe1df0; 0x3ae0f80; 0x3861fc0; 0x18678f8; 0x1c6717c; 0xc600c8; 0xc600c0; 0xe6fffc;
   0x67fffc; 0xe60260; 0x1c60670; 0x186aeb0; 0x386fff8; 0x306eebc; 0x306c63e; 0x306c634;
   0x306c630; 0x3f6c630; 0x1f6d630; 0x6f630; 0x67630; 0x60600; 0x60600; 0x0;
   0x0; 0x0; 0x0; 0x202000; 0x0; 0x0; 0x0; 0x0;
   0x3fefffc; 0x3fefffc; 0x3ae00c0; 0x18600c0; 0x18600c0; 0x1c63ff8; 0xc63ff8; 0xe630e0;
   0x663060; 0x763060; 0xe7fffc; 0x1c7fffc; 0x3860000; 0x3060000; 0x3067ff8; 0x7067ff8;
   0x3066018; 0x3866018; 0x3f66018; 0x1f66018; 0x66ab8; 0x67ff8; 0x67ff8; 0x66018;
   0x0; 0x0; 0x0; 0x0; 0x202000; 0x0; 0x0; 0x0;
   0x7000; 0xaaffe8; 0x3ff7ffc; 0x3fee028; 0x1876198; 0x18673b8; 0x1c73330; 0xe63b30;
   0x671f70; 0x663ff8; 0x777ff8; 0xe63aa8; 0x1c71c00; 0x1860e00; 0x1870700; 0x386e300;
   0x307fffc; 0x306bffc; 0x387035c; 0x3fe0300; 0x1f70300; 0x60300; 0x70300; 0x603f0;
   0x701f0; 0x0; 0x0; 0x0; 0x0; 0x202000; 0x0; 0x0;
   0x0; 0x700; 0xaa0630; 0x7fe0730; 0x3fe0630; 0x386fff8; 0x186fff8; 0x1c6071c;
   0xc6060c; 0xe6070c; 0x660608; 0x76fffc; 0xe6fffc; 0x1c60000; 0x1860000; 0x3867ff8;
   0x3067ff8; 0x3067578; 0x3066038; 0x3066038; 0x3fe6038; 0x1f66038; 0x67ff8; 0x67ff8;
   0x66038; 0x66038; 0x0; 0x0; 0x0; 0x0; 0x202000; 0x0;
   0x0; 0x0; 0x700; 0x3fe0300; 0x7fe0700; 0x3ae7ff8; 0x3867ff8; 0x1862ba8;
   0x1c60700; 0xc60300; 0xc65754; 0x66fffc; 0x67fffc; 0xe60cc0; 0x1c67cd0; 0x1866cd8;
   0x3067cd8; 0x306ccd8; 0x306dcdc; 0x306cccc; 0x307dce4; 0x3f60c60; 0x1f61c60; 0x60c70].
Definition hanzi_data_448 : list N :=
  [0x61c38; 0x60f38; 0x60f18; 0x0; 0x0; 0x0; 0x0; 0x202000;
   0x0; 0x0; 0x0; 0x0; 0xaa2aa8; 0x7ff3ff8; 0x3ae30c0; 0x18731c0;
   0x18630c0; 0x1c7fffc; 0xe6fffc; 0x6731c0; 0x6630c0; 0x773ff8; 0xe63ff8; 0x1c70060;
   0x1860060; 0x3877ff0; 0x3063ff8; 0x3077578; 0x306307c; 0x387707e; 0x3f63066; 0x1f77074;
   0x63fe0; 0x77ff0; 0x60060; 0x70070; 0x0; 0x0; 0x0; 0x0;
   0x202000; 0x0; 0x0; 0x0; 0x0; 0x3fe7ff8; 0x3fe7ff8; 0x3866018;
   0x1867018; 0x1c66018; 0x1c67558; 0xc67ff8; 0xe65550; 0x660000; 0x765554; 0xe6fffc;
   0x1c6fffc; 0x1860300; 0x3860300; 0x3862ba8; 0x3067ff8; 0x3867ff8; 0x3d60300; 0x1f60300;
   0xf6ff00; 0x6ffe8; 0x61ffc; 0x6003c; 0x60000; 0x0; 0x0; 0x0;
   0x0; 0x202000; 0x0; 0x0; 0x0; 0x0; 0xaa18c0; 0x3fe18c0;
   0x3fe38e0; 0x1867070; 0x186e038; 0x1c7c71c; 0xc64788; 0xe60f80; 0x661dc0; 0x6638e0;
   0xc67070; 0x1c6e078; 0x186c03c; 0x386fffe; 0x3863fe4; 0x3867070; 0x3863020; 0x3867070;
   0x3f63020; 0x1f67070; 0x263fe0; 0x67ff0; 0x63020; 0x67070; 0x0; 0x0;
   0x0; 0x0; 0x202000; 0x0; 0x0; 0x0; 0x0; 0x3faaaa8;
   0x7fffffc; 0x3abfffc; 0x39c0000; 0x1880000; 0x1ddfdfc; 0x1c9fdfc; 0xdd8d8c; 0xc98d8c;
   0xfd8d8c; 0xc98d8c; 0x1dd9dbc; 0x389bdbc; 0x31dfdec; 0x309edec; 0x31dedec; 0x3098dac;
   0x31d8d8c; 0x3e98d8c; 0x1fd8d8c; 0x98d8c; 0x1d8d8c; 0x9edec; 0x1ceccc; 0x0;
   0x0; 0x0; 0x0; 0x202000; 0x0; 0x0; 0x0; 0x0;
   0xaa7ff0; 0x3fe7ff0; 0x3fe6030; 0x1867030; 0x1866ab0; 0x1c67ff0; 0xc60000; 0xe60000;
   0x66fff8; 0x76fff8; 0xe6e018; 0x1c6e318; 0x186e318; 0x186e318; 0x386e318; 0x306e318;
   0x306e318; 0x386e318; 0x1f6eb98; 0x1f61dc0; 0x638e0; 0x670f8; 0x6603e; 0x6001c;
   0x0; 0x0; 0x0; 0x0; 0x202000; 0x0; 0x0; 0x0;
   0x180; 0xaa0380; 0x3fe0300; 0x3fefff8; 0x186fffc; 0x1863020; 0x1c63070; 0xc63860;
   0xe618e0; 0x6618c0; 0x76fffc; 0xe6fffc; 0x1c6fffc; 0x1860000; 0x1865550; 0x3867ff8;
   0x3067ff8; 0x3866038; 0x3867038; 0x1f66038; 0x1f67038; 0x66ab8; 0x67ff8; 0x66ab8;
   0x67038; 0x0; 0x0; 0x0; 0x0; 0x202000; 0x0; 0x0;
   0x0; 0x300; 0xa80300; 0x7fdfffc; 0x3fdfffc; 0x38c0300; 0x18c2ba8; 0x1cc7ff8;
   0xcc6300; 0xcc6300; 0xedfffc; 0x6dfffc; 0xec6300; 0x1cc7ff8; 0x18c7ff8; 0x38c0180;
   0x30c2ba8; 0x30cfffc; 0x30c6ae8; 0x30c7070; 0x3fc38f0; 0x1fc1fc0; 0x2c3f00; 0xcfff0;
   0xce0fc; 0xc4018; 0x0; 0x0; 0x0; 0x0; 0x202000; 0x0;
   0x0; 0x0; 0x700; 0xaa0300; 0x7fe0300; 0x3fefff8; 0x38efff8; 0x18ec318;
   0x1cec718; 0xcefff8; 0xcefff8; 0xeec318; 0x6ec718; 0xeeebb8; 0x1cefff8; 0x18eaba8;
   0x38e19c0; 0x30e18f0; 0x30e1878; 0x30ffffc; 0x30ffffc; 0x3febaa8; 0x1fe1800; 0xe1800;
   0xe1800; 0xe1800; 0xe1800; 0x0; 0x0; 0x0; 0x0; 0x202000;
   0x0; 0x0; 0x0; 0x180; 0xaa0380; 0x7ff5754; 0x3fefffc; 0x387fffc;
   0x1860000; 0x1c77ff8; 0xc63ff8; 0xe77038; 0x663038; 0x777ff8; 0xe63ff8; 0x1c70000;
   0x1863ff8; 0x3877ff8; 0x3861e00; 0x3070f00; 0x306a300; 0x307fffc; 0x3f62ffc; 0x1f70300;
   0x260300; 0x70300; 0x603e0; 0x701e0; 0x0; 0x0; 0x0; 0x0;
   0x202000; 0x0; 0x0; 0x0; 0x700; 0x3fe0600; 0x3fee770; 0x386e330;
   0x1867330; 0x1863338; 0x1c61398; 0xc60f80; 0xe61fc0; 0x6638e0; 0x76f07c; 0xe66638;
   0x1c60700; 0x186c330; 0x386e730; 0x3866330; 0x3067338; 0x3063b18; 0x386079c; 0x1f60f80;
   0x1f63dc0; 0x678e0; 0x6f078; 0x6c03c; 0x6000c; 0x0; 0x0; 0x0;
   0x0; 0x202000; 0x0; 0x0; 0x0; 0x60e0; 0x3fc60e0; 0x3fc60e0;
   0x3ac60e0; 0x39c60e0; 0x18c60e0; 0x1dffffc; 0xcffffc; 0xdc70e0; 0xecf0e0; 0x7df1f0;
   0xcdfbf0; 0x1df7ff0; 0x18f7af8; 0x31c7cf8; 0x30c6cf8; 0x31c6efc; 0x30c66ec; 0x31c67ec;
   0x3ec62e0; 0x1fc60e0; 0xc60e0; 0x1c60e0; 0xc60e0; 0x1c60e0; 0x0; 0x0;
   0x0; 0x0; 0x202000; 0x0; 0x0; 0x0; 0x3020; 0xaa3030;
   0x3fe3060; 0x3fe38e0; 0x18e1cc0; 0x18e0c00; 0x1cefff8; 0xcefff8; 0xeee318; 0x6ee318;
   0x7efff8; 0xeefff8; 0x1cee318; 0x18ee318; 0x18efff8; 0x38efff8; 0x30e0300; 0x38e0300;
   0x38ffffe; 0x1fefffe; 0x1fe0300; 0xe0300; 0xe0300; 0xe0300; 0xe0300; 0x0;
   0x0; 0x0; 0x0; 0x202000; 0x0; 0x0; 0x0; 0x180;
   0xaac180; 0x7ffe180; 0x3fe6ff8; 0x3877ff8; 0x1863180; 0x1c73980; 0xc61d80; 0xe7fffc;
   0x66fffc; 0x770700; 0xe60380; 0x1c755e0; 0x1863ff8; 0x387757c; 0x306303e; 0x3077074;
   0x3063fe0; 0x3077ff0; 0x3f63020; 0x1f77070; 0x263fe0; 0x77ff0; 0x63020; 0x75070;
   0x0; 0x0; 0x0; 0x0; 0x202000; 0x0; 0x0; 0x0;
   0x0; 0x3fdfffc; 0x3fdfffc; 0x3ac000c; 0x18c7fdc; 0x18c7fcc; 0x1cc60dc; 0xcc7fcc;
   0xcc7fdc; 0xec60cc; 0x6c7fdc; 0xec2a8c; 0x1cc071c; 0x18dffec; 0x38dfffc; 0x30c318c;
   0x30c31dc; 0x30c1f8c; 0x38c1f1c; 0x3fc3f0c; 0x1fcf3fc; 0xc00cc; 0xdfffc; 0xdfffc;
   0xc0000; 0x0; 0x0; 0x0; 0x0; 0x202000; 0x0; 0x0;
   0x0; 0x0; 0x3fefff8; 0x3fefff8; 0x3aec218; 0x18ec718; 0x18ec218; 0x1cefff8;
   0xcefff8; 0xce5558; 0x6e0018; 0x6effd8; 0xeeffd8; 0x1cec0d8; 0x18ec0d8; 0x38effd8;
   0x30effd8; 0x30ec0d8; 0x30ec0d8; 0x38effdc; 0x3feffcc; 0x1fec0cc; 0xec0cc; 0xeffce;
   0xeffc6; 0xec0c0; 0x0; 0x0; 0x0; 0x0; 0x202000; 0x0;
   0x0; 0x0; 0x1860; 0x1860; 0x7fe1860; 0x3fefffc; 0x387fffc; 0x1861860].
Definition hanzi_data_449 : list N :=
  [0x1c619e0; 0xc61ba0; 0xe60180; 0x660180; 0x77fffe; 0xe6fffe; 0x1c600c0; 0x18600e0;
   0x3865570; 0x3067ff0; 0x3067ff8; 0x3066078; 0x306607c; 0x3f6606c; 0x1f66064; 0x267fe0;
   0x67fe0; 0x66060; 0x64060; 0x0; 0x0; 0x0; 0x0; 0x202000;
   0x0; 0x0; 0x0; 0x0; 0x1fefdf8; 0x3fefdfc; 0x3aecd88; 0x18ecd8c;
   0x18ecd88; 0x1cefdfc; 0xcefdf8; 0xee0000; 0x6efff8; 0x7efff8; 0xee0000; 0x1cf5554;
   0x18ffffc; 0x38ffffc; 0x30e0060; 0x30e7ff0; 0x30e7ff0; 0x38e7ff0; 0x1fe7000; 0x1fe7000;
   0xe3000; 0xe3f80; 0xe3f80; 0xe1700; 0x0; 0x0; 0x0; 0x0;
   0x202000; 0x0; 0x0; 0x0; 0x600; 0xa80700; 0x3fc0f80; 0x3fc1d80;
   0x18c79e0; 0x18ce0f0; 0x1cdd57c; 0xccbffe; 0xcc3fe4; 0x6c0000; 0x6cc1fc; 0xecc9f8;
   0x1ccd99c; 0x18cc998; 0x38cd9fc; 0x30cc9f8; 0x30cd99c; 0x30cc998; 0x38cd9fc; 0x3fcc9b8;
   0x1fcd99c; 0xcc198; 0xcc19c; 0xcf1d8; 0xc71dc; 0x0; 0x0; 0x0;
   0x0; 0x202000; 0x0; 0x0; 0x0; 0x0; 0x3feaaa8; 0x7fffffc;
   0x3ae0cc0; 0x38e0cc0; 0x18e0cc0; 0x1cefffc; 0xcefff8; 0xceccdc; 0xeecc88; 0x6eccdc;
   0xcecc88; 0x1cefffc; 0x18eaaa8; 0x30e0300; 0x30e0300; 0x30efffc; 0x30efff8; 0x30e0300;
   0x3fe0300; 0x1ffc300; 0xeffe0; 0xe7ffc; 0xe003c; 0xe0000; 0x0; 0x0;
   0x0; 0x0; 0x202000; 0x0; 0x0; 0x0; 0x7000; 0xa8ffe8;
   0x7fc1ffc; 0x3ac0308; 0x38c0300; 0x18cfff8; 0x1ccfff8; 0xcce318; 0xcce318; 0xece318;
   0x6cfff8; 0xecfff8; 0x1cc0300; 0x18caba8; 0x38cfffc; 0x30cebac; 0x30cdb1c; 0x30cdb0c;
   0x30cff1c; 0x3fcffec; 0x1fcf1fc; 0xcc00c; 0xcc01c; 0xcf80c; 0xcf01c; 0x0;
   0x0; 0x0; 0x0; 0x202000; 0x0; 0x0; 0x0; 0x700;
   0xa80600; 0x7fd5f50; 0x3fcfff8; 0x38dfff8; 0x18c0618; 0x1ccffd8; 0xccffd8; 0xccc618;
   0xecc618; 0x6dfff8; 0xedeeb8; 0x1ccc618; 0x18cffd8; 0x38cffd8; 0x30c0618; 0x30c5758;
   0x30cfff8; 0x30cd5f8; 0x3fcc0f8; 0x1fcc0fc; 0xcc0ec; 0xcffec; 0xcffee; 0xcc0e4;
   0x0; 0x0; 0x0; 0x0; 0x202000; 0x0; 0x0; 0x0;
   0x0; 0x1aafffc; 0x3fefffc; 0x3fe0cc0; 0x18ecccc; 0x18eccc8; 0x1ce6cd8; 0xce6cd8;
   0xce7cf0; 0x6e2cc0; 0x7ffffe; 0xeefffe; 0x1ce0000; 0x18e0000; 0x18e7ff8; 0x38e6ab8;
   0x30e6018; 0x38e6018; 0x38e7ff8; 0x1fe6ab8; 0x1fe6018; 0xe6018; 0xe7ff8; 0xe6ab8;
   0xe6018; 0x0; 0x0; 0x0; 0x0; 0x202000; 0x0; 0x0;
   0x0; 0x180; 0xaa0380; 0x7fe5754; 0x3aefffc; 0x386fffc; 0x1860000; 0x1c63ff8;
   0xc63ff8; 0xc63038; 0xe63038; 0x663ff8; 0xe63ff8; 0x1c60000; 0x1867ffc; 0x3067ffc;
   0x306600c; 0x3066fec; 0x3066fec; 0x3066c6c; 0x3f66c6c; 0x1f66fec; 0x66fec; 0x6606c;
   0x6780c; 0x6780c; 0x0; 0x0; 0x0; 0x0; 0x202000; 0x0;
   0x0; 0x0; 0x700; 0xa80e00; 0x7fffff8; 0x3fbfff8; 0x31c0c18; 0x389ffd8;
   0x19dffd8; 0x1898c18; 0x1dffff8; 0xcbfff8; 0xdd8c18; 0xc9ffd8; 0x19d5d58; 0x388aeb8;
   0x31dfffc; 0x3098c78; 0x31dfffc; 0x309ffe8; 0x31d8c7c; 0x3e9ffec; 0x1fdffec; 0x98c6c;
   0x1d8c6e; 0x9ec66; 0x1dcc64; 0x0; 0x0; 0x0; 0x0; 0x202000;
   0x0; 0x0; 0x0; 0x0; 0xaa7ff8; 0x3fe7ff8; 0x3ae6018; 0x1867018;
   0x1866ab8; 0x1c67ff8; 0xc60300; 0xe60300; 0x66fffe; 0x77fffe; 0xe60300; 0x1c6fffc;
   0x186fff8; 0x186e01c; 0x386efd8; 0x306efdc; 0x306ecd8; 0x386ecdc; 0x3f6efd8; 0x1f6e55c;
   0x6e018; 0x6fffc; 0x6eab8; 0x6401c; 0x0; 0x0; 0x0; 0x0;
   0x202000; 0x0; 0x0; 0x0; 0x1860; 0x1fe1860; 0x3fefffc; 0x3aefffc;
   0x18e5d74; 0x18e1860; 0x1ce5550; 0xce7ff8; 0xee7558; 0x6e6018; 0x7e7ff8; 0xee7ff8;
   0x1ce6018; 0x18e7ff8; 0x18e7ff8; 0x38e0300; 0x30e0300; 0x38efffc; 0x38ffffc; 0x1fe0d80;
   0x1fe1fc0; 0xe38e0; 0xe7070; 0xe603c; 0xe001c; 0x0; 0x0; 0x0;
   0x0; 0x202000; 0x0; 0x0; 0x0; 0x700; 0xa80600; 0x7fd5f50;
   0x3fdfff8; 0x38dfff8; 0x18c1998; 0x1cc1998; 0x1cdfff8; 0xcdfff8; 0xcd9998; 0xed9998;
   0xcd9998; 0x1cdfff8; 0x18caab8; 0x38c30d8; 0x30c30d8; 0x30df7d8; 0x30df7d8; 0x38d75d8;
   0x3ec30d8; 0x1ed30dc; 0xdfecc; 0xdffcc; 0xc1bce; 0xc0044; 0x0; 0x0;
   0x0; 0x0; 0x202000; 0x0; 0x0; 0x0; 0x3030; 0x3fe3030;
   0x3fefffc; 0x386fffc; 0x1863030; 0x1863ab0; 0x1c63ff0; 0xc60300; 0xc6fffc; 0x66fff8;
   0x76c31c; 0xe6c308; 0x1c6fffc; 0x186fff8; 0x3860300; 0x386fffc; 0x306fffc; 0x3060300;
   0x3867ff8; 0x3f67ff8; 0x1f60300; 0x6a300; 0x6fffc; 0x60ffc; 0x60014; 0x0;
   0x0; 0x0; 0x0; 0x202000; 0x0; 0x0; 0x0; 0x0;
   0xa9fff8; 0x7fdfffc; 0x3ac0600; 0x38dfffc; 0x18dfffc; 0x1cd870c; 0xcdfefc; 0xcc5750;
   0xccaea8; 0x6cfff8; 0xcc0600; 0x1ccfff8; 0x18cfff8; 0x38c0000; 0x30ffffe; 0x30ffffe;
   0x30c0060; 0x30cfff0; 0x3ecfff0; 0x1ec6000; 0xc6000; 0xc7500; 0xc3e00; 0xc1e00;
   0x0; 0x0; 0x0; 0x0; 0x202000; 0x0; 0x0; 0x0;
   0x0; 0xa9fffc; 0x3fdfffc; 0x3fc0200; 0x18c0730; 0x18cfe30; 0x1ccff30; 0xcc0230;
   0xcdfffc; 0x6dfffc; 0x6d5574; 0xec0030; 0x1cdfff0; 0x18cfff0; 0x38c0030; 0x38c0030;
   0x30dfff8; 0x30dfff8; 0x38dd800; 0x3fcf2d8; 0x1fcf6dc; 0xcc6cc; 0xcc6cc; 0xcfcce;
   0xc7c00; 0x0; 0x0; 0x0; 0x0; 0x202000; 0x0; 0x0;
   0x0; 0x300; 0x300; 0x7fefffc; 0x3fefff8; 0x3863060; 0x18638c0; 0x1c7fffc;
   0xc7fffc; 0xe60000; 0x662aa8; 0x767ff8; 0xe66038; 0x1c67578; 0x1867ff8; 0x3866038;
   0x3066038; 0x3067ff8; 0x3060600; 0x3060700; 0x3f6fffc; 0x1f7fffc; 0x260600; 0x60700].
Definition hanzi_data_450 : list N :=
  [0x60600; 0x60700; 0x0; 0x0; 0x0; 0x0; 0x202000; 0x0;
   0x0; 0x0; 0x7040; 0x3fe30c0; 0x3fe39c0; 0x38e1880; 0x18efff8; 0x18eeab8;
   0xcef758; 0xeed2d8; 0x6edfd8; 0x6eca98; 0x7ec718; 0xeefff8; 0x1ce5550; 0x18e0000;
   0x38e7ff0; 0x30e6ab0; 0x30e6030; 0x30e6ab0; 0x38e7ff0; 0x1fe6030; 0x1fe6030; 0xe6030;
   0xe7ff0; 0xe6ab0; 0xe6030; 0x0; 0x0; 0x0; 0x0; 0x202000;
   0x0; 0x0; 0x0; 0x7070; 0x3fc3060; 0x7fc38e0; 0x3adfffc; 0x38dfffc;
   0x18c0300; 0x1ccfff8; 0xccfff8; 0xcc0700; 0xecaba8; 0x6dfffc; 0xcc2330; 0x1cc7730;
   0x38c3360; 0x30dfffe; 0x30dfffe; 0x30c0000; 0x30c7ff8; 0x30c7ff8; 0x3fc6038; 0x1fc6038;
   0xc6038; 0xc7ff8; 0xc7ff8; 0xc6038; 0x0; 0x0; 0x0; 0x0;
   0x202000; 0x0; 0x0; 0x0; 0x7000; 0xaaffa0; 0x7fe1ffc; 0x3ae6328;
   0x3866730; 0x1863320; 0x1c63760; 0xc6fffc; 0xc7fffc; 0xe60f80; 0x663fc0; 0xe6f3e0;
   0x1c7e778; 0x186833c; 0x3867ffc; 0x3067ff0; 0x3066730; 0x3066230; 0x3067ff0; 0x3f66ab0;
   0x1f66730; 0x66ab0; 0x67ff0; 0x66ab0; 0x66030; 0x0; 0x0; 0x0;
   0x0; 0x202000; 0x0; 0x0; 0x0; 0x0; 0xa807fc; 0x7fdfffc;
   0x3fdfb18; 0x38dd3f8; 0x18d8bf8; 0x1cddf18; 0xccf3f8; 0xccf3f8; 0xecf318; 0x6dbffc;
   0xed1ffe; 0x1cc7304; 0x18cff80; 0x38c1ff8; 0x30c8628; 0x30dc7c0; 0x30ceef8; 0x38c7e3e;
   0x3fc7e0c; 0x1fcf7e0; 0xdc678; 0xd863e; 0xc060c; 0xc0600; 0x0; 0x0;
   0x0; 0x0; 0x202000; 0x0; 0x0; 0x0; 0x7460; 0xa82c68;
   0x7fdfdfc; 0x3adfdfc; 0x38c7664; 0x18eaa60; 0x1cffffc; 0xccd8d8; 0xccd8d8; 0xefcbd8;
   0x6dedfc; 0xcc464c; 0x1ccfff8; 0x18cfff8; 0x30cc438; 0x30cc638; 0x30cc638; 0x30cc638;
   0x30cc738; 0x3fcc338; 0x1fc1f10; 0xc3f80; 0xdf1f0; 0xdc0fc; 0xc801c; 0x0;
   0x0; 0x0; 0x0; 0x202000; 0x0; 0x0; 0x0; 0x0;
   0x3f9fff8; 0x7fdfffc; 0x3a80600; 0x39ffffc; 0x18bfffc; 0x19f070c; 0x18baeac; 0xddfff4;
   0xc80600; 0xfdff50; 0xc8fef8; 0x1dc0700; 0x3880000; 0x31feffc; 0x30babec; 0x31f6dec;
   0x30b29ec; 0x31f6dec; 0x3eb29ec; 0x1ff6dec; 0xbefec; 0x1feffc; 0xb29ec; 0x1c004c;
   0x0; 0x0; 0x0; 0x0; 0x202000; 0x0; 0x0; 0x0;
   0x700; 0x3fcc218; 0x7fdc718; 0x30cfff8; 0x38dfff8; 0x18c0260; 0x1cd5770; 0xccfff8;
   0xcc063c; 0xecfffe; 0x6c577c; 0xccfff8; 0x1ccfff8; 0x38caeb8; 0x30dfff8; 0x30c0038;
   0x30dfffc; 0x30dafa8; 0x30d9ddc; 0x3ede068; 0x1ed9ffc; 0xd98c8; 0xd9fdc; 0xdeac8;
   0xce05c; 0x0; 0x0; 0x0; 0x0; 0x202000; 0x0; 0x0;
   0x0; 0x1740; 0x3fc9248; 0x7fdfffc; 0x3ac9248; 0x38dfffc; 0x18c9248; 0x1cdfffc;
   0xcc9248; 0xcdd75c; 0xecfff8; 0x6c5550; 0xccaaa8; 0x1cdfffc; 0x38c0000; 0x30cfff8;
   0x30cfff8; 0x30cc038; 0x30cc038; 0x30cfff8; 0x3ec3860; 0x1ec18c0; 0xc98c0; 0xdfffc;
   0xcbffc; 0xc0014; 0x0; 0x0; 0x0; 0x0; 0x202000; 0x0;
   0x0; 0x0; 0x0; 0x0; 0x3fffffc; 0x3fffffc; 0x30c00; 0x30c00;
   0x30c00; 0xfffff8; 0x1fffff8; 0xc30c38; 0x1c30c38; 0xc30e38; 0x1c30e38; 0xff07b8;
   0x1ff03f8; 0xc000f8; 0x1c00078; 0xfffff8; 0x1fffff8; 0xc00038; 0x1c00038; 0xeaaab8;
   0x1fffff8; 0xeaaab8; 0x1c00038; 0x0; 0x0; 0x0; 0x0; 0x202000;
   0x0; 0x0; 0x0; 0x0; 0x3ffc; 0x7fffffc; 0x3ff8240; 0x700740;
   0x600240; 0x703ffc; 0x603ff8; 0x703b5c; 0x603a48; 0x703b5c; 0x603a48; 0x703b5c;
   0x603e68; 0x703e3c; 0x603808; 0x70381c; 0x603ff8; 0x703ffc; 0x603808; 0x70381c;
   0x603ff8; 0x7f3ffc; 0x3f3808; 0x1f101c; 0x0; 0x0; 0x0; 0x0;
   0x202000; 0x0; 0x0; 0x0; 0x180380; 0x1c0380; 0xe0700; 0x60600;
   0x3fffffc; 0x3fffffc; 0x39c00; 0x38c00; 0xfffff0; 0xfffff0; 0xe39c70; 0xe38c70;
   0xe38c70; 0xe38e70; 0xff0770; 0xfe03f0; 0xe00170; 0xeaaaf0; 0xfffff0; 0xe00070;
   0xe00070; 0xeaaaf0; 0xfffff0; 0xeaaaf0; 0xe00070; 0x0; 0x0; 0x0;
   0x0; 0x202000; 0x0; 0x0; 0x0; 0x60000; 0x63ffc; 0x73ffc;
   0x30360; 0x3ff0360; 0x3ff8360; 0x3ff9ffc; 0x381dff8; 0x381db5c; 0x380fb48; 0x3815b5c;
   0x3839b68; 0x3871b7c; 0x38e1f28; 0x19c1e3c; 0x1981808; 0x198181c; 0x1801ff8; 0x1801ffc;
   0x1801808; 0x180181c; 0x1801ff8; 0x1d41ffc; 0xfc1808; 0x7c101c; 0x0; 0x0;
   0x0; 0x0; 0x202000; 0x0; 0x0; 0x0; 0x0; 0x3ffbffc;
   0x3ffbffc; 0x3aa86c0; 0x38006c0; 0x38006c0; 0x3803ffc; 0x3803ff8; 0x38032dc; 0x38032c8;
   0x3ffb25c; 0x3ffb2c8; 0x383b25c; 0x383be68; 0x3be7c; 0x3b028; 0x3b01c; 0x3bff8;
   0x303bffc; 0x703b008; 0x703b01c; 0x303bff8; 0x3ffbffc; 0x3ff3008; 0x1ff101c; 0x0;
   0x0; 0x0; 0x0; 0x202000; 0x0; 0x0; 0x0; 0xc00000;
   0xc03ffc; 0xc03ffc; 0xc00360; 0xc00360; 0xc00360; 0x7ffdffc; 0x3ffdffc; 0x5d55b6c;
   0xc01b6c; 0xc11b6c; 0xc39b6c; 0xc31b6c; 0xc71f2c; 0xc61e3c; 0xce180c; 0xcc180c;
   0xc41ffc; 0xc01ffc; 0xc0180c; 0xc0180c; 0xc01ffc; 0xd41ffc; 0xfe180c; 0x7c100c;
   0x0; 0x0; 0x0; 0x0; 0x202000; 0x0; 0x0; 0x0;
   0x180000; 0x181ffc; 0x199ffc; 0x198360; 0x198360; 0x198360; 0x3d99ffc; 0x3f99ffc;
   0x1ff9d7c; 0x39fd96c; 0x199f96c; 0x399f96c; 0x1999d6c; 0x3999f2c; 0x199983c; 0x199980c;
   0x1f9980c; 0x1d99ffc; 0x199ffc; 0x201980c; 0x701980c; 0x3019ffc; 0x3ff9ffc; 0x3ff980c;
   0x154180c; 0x0; 0x0; 0x0; 0x0; 0x202000; 0x0; 0x0;
   0x0; 0x0; 0x1ffc; 0x3ffdffc; 0x3ffc360; 0x180360; 0x180360; 0x181ffc].
Definition hanzi_data_451 : list N :=
  [0x181ffc; 0x181b6c; 0x181b6c; 0x15d5b6c; 0x3fffb6c; 0x7fffb6c; 0x181f2c; 0x181f3c;
   0x18180c; 0x181d5c; 0x181ffc; 0x181ffc; 0x18180c; 0x18180c; 0x181ffc; 0x181ffc;
   0x18180c; 0x18100c; 0x0; 0x0; 0x0; 0x0; 0x202000; 0x0;
   0x0; 0x0; 0x0; 0x2aaaa38; 0x7ffff7c; 0x3ffffe0; 0xcc040; 0xcc000;
   0xcc000; 0x1fffe00; 0x1fffe1c; 0x18cc63e; 0x18cc678; 0x18cc620; 0x1dc6600; 0x1fc7600;
   0x1d03e40; 0x18006c0; 0x18006e0; 0x1fffe60; 0x1fffe70; 0x1800630; 0x1800638; 0x1800638;
   0x1fffe1c; 0x1fffe0c; 0x1800600; 0x0; 0x0; 0x0; 0x0; 0x202000;
   0x0; 0x0; 0x0; 0x400000; 0xe01ffc; 0x601ffc; 0x610360; 0x363c360;
   0x323c360; 0x376dffc; 0x33edffc; 0x33cdd7c; 0x33cd96c; 0x318d96c; 0x318d96c; 0x33cd96c;
   0x33cdb2c; 0x37cdf3c; 0x36ed80c; 0x366d80c; 0x3e7dffc; 0x343dffc; 0x303d80c; 0x300d80c;
   0x3fedffc; 0x3ffdffc; 0x300980c; 0x300100c; 0x0; 0x0; 0x0; 0x0;
   0x202000; 0x0; 0x0; 0x0; 0x300000; 0x361ffc; 0x771ffc; 0x630360;
   0x630360; 0xe30360; 0xc39ffc; 0x1c19ffc; 0x381df7c; 0x380fb6c; 0x755fb6c; 0x2ffdb6c;
   0x1ffdf6c; 0xc61f2c; 0x1c6183c; 0xc6180c; 0xc6180c; 0xc61ffc; 0xc71ffc; 0xc3180c;
   0xc3180c; 0xe39ffc; 0xf5dffc; 0x7cf80c; 0x7c580c; 0x0; 0x0; 0x0;
   0x0; 0x202000; 0x0; 0x0; 0x0; 0x0; 0x1ffc; 0x3ffdffc;
   0x3ffc360; 0x360; 0x360; 0x1ffc; 0x1ffc; 0x1b6c; 0x3fffb6c; 0x7fffb6c;
   0xe1b6c; 0xe1b6c; 0xe1f2c; 0x461f3c; 0x66180c; 0xe7180c; 0xc31ffc; 0x1c39ffc;
   0x181980c; 0x1d1d80c; 0x3ffdffc; 0x3ffdffc; 0x300d80c; 0x100100c; 0x0; 0x0;
   0x0; 0x0; 0x202000; 0x0; 0x0; 0x0; 0x1c0000; 0xc1ffc;
   0x1c1ffc; 0xc0360; 0x1c0360; 0xc0360; 0x1c1ffc; 0x3fffffc; 0x3fff96c; 0x2beb96c;
   0x1c196c; 0x3c196c; 0x3c196c; 0x3e1f2c; 0x7e1f3c; 0x66180c; 0x77180c; 0x671ffc;
   0xe31ffc; 0xc3980c; 0x1c7d80c; 0x18fdffc; 0x39cfffc; 0x338780c; 0x100500c; 0x0;
   0x0; 0x0; 0x0; 0x202000; 0x0; 0x0; 0x0; 0xc0000;
   0xc1ffc; 0x1c1ffc; 0x180360; 0x3ffe360; 0x3ffe360; 0x300fffc; 0x300fffc; 0x301ff7c;
   0x19b6c; 0x19b6c; 0x1819b6c; 0x1e19f6c; 0xf99f2c; 0x3f983c; 0xf980c; 0x3980c;
   0x19ffc; 0x1019ffc; 0x301980c; 0x301980c; 0x3039ffc; 0x3ff9ffc; 0x3ff180c; 0x54180c;
   0x0; 0x0; 0x0; 0x0; 0x202000; 0x0; 0x0; 0x0;
   0x60000; 0x61ffc; 0x71ffc; 0x30360; 0x7ff0360; 0x3ff8360; 0x7ff9ffc; 0x19dffc;
   0x19db6c; 0x18fb6c; 0x3f87b6c; 0x3f81b6c; 0x3f81b6c; 0x181f2c; 0x181f3c; 0x18180c;
   0x3f8180c; 0x3f81ffc; 0x3f81ffc; 0x18180c; 0x18180c; 0x181ffc; 0x181ffc; 0x18180c;
   0x18100c; 0x0; 0x0; 0x0; 0x0; 0x202000; 0x0; 0x0;
   0x0; 0x1c18000; 0xc19ffc; 0x1c19ffc; 0xc18360; 0x1c18360; 0xc18360; 0x7fffffc;
   0x3fffffc; 0x1c19b6c; 0xc19b6c; 0x1c19b6c; 0xc19b6c; 0x1c19b6c; 0xff9f2c; 0x1ff9f3c;
   0xeb980c; 0x1c19d5c; 0xc19ffc; 0x1c19ffc; 0xc1980c; 0x1c1980c; 0xff9ffc; 0x1ff9ffc;
   0xeb980c; 0x1c1900c; 0x0; 0x0; 0x0; 0x0; 0x202000; 0x0;
   0x0; 0x0; 0x1c0000; 0x181ffc; 0x1c1ffc; 0x180360; 0x1c0360; 0x180360;
   0x7ffdffc; 0x3ffdffc; 0x15d5b6c; 0x181b6c; 0x1c1b6c; 0x181b6c; 0x1c1b6c; 0x181f2c;
   0x1ffdf3c; 0x1ff980c; 0x181dd5c; 0x1819ffc; 0x181dffc; 0x181980c; 0x181d80c; 0x1ab9ffc;
   0x1ffdffc; 0x1ff980c; 0x181d00c; 0x0; 0x0; 0x0; 0x0; 0x202000;
   0x0; 0x0; 0x0; 0x0; 0x1e01ffc; 0x1ff1ffc; 0x3fc360; 0x19c360;
   0x180360; 0x181ffc; 0x181ffc; 0x15d596c; 0x3fff96c; 0x3fff96c; 0x3e196c; 0x7e196c;
   0x7e1f2c; 0x7f1f3c; 0xdb180c; 0x1d9980c; 0x1999ffc; 0x399dffc; 0x318f80c; 0x318780c;
   0x181ffc; 0x181ffc; 0x18180c; 0x18100c; 0x0; 0x0; 0x0; 0x0;
   0x202000; 0x0; 0x0; 0x0; 0x1c0000; 0x4c9ffc; 0xcddffc; 0x18cc360;
   0x38cc360; 0xce360; 0x7ffeffc; 0x3ffeff8; 0x157ed7c; 0x60d68; 0x60d7c; 0x1fe0d68;
   0x1ff0d7c; 0x1830f28; 0x1c78c3c; 0xc78c08; 0xefcd5c; 0x6ceff8; 0x7c7ffc; 0x383c08;
   0x7c2c1c; 0xee0ff8; 0x3c78ffc; 0x383cc08; 0x100c41c; 0x0; 0x0; 0x0;
   0x0; 0x202000; 0x0; 0x0; 0x0; 0xc0000; 0xe1ffc; 0x61ffc;
   0x3ff0160; 0x1ff8160; 0x1838160; 0x1c1cffc; 0xe0effc; 0x636d6c; 0x770d6c; 0x3e0d6c;
   0x1c0d6c; 0x1e0d6c; 0xf0f2c; 0x1ffcc3c; 0x1ffec0c; 0x183fd5c; 0x183affc; 0x1838ffc;
   0x1838c0c; 0x1838c0c; 0x1838ffc; 0x1ff8ffc; 0x1ff8c0c; 0x183840c; 0x0; 0x0;
   0x0; 0x0; 0x202000; 0x0; 0x0; 0x0; 0x60000; 0x61ffc;
   0x571ffc; 0x1ff0360; 0x1ff0360; 0xc38360; 0xe3dffc; 0x66fffc; 0x767f7c; 0x3c1b6c;
   0x1c1b6c; 0x3e1b6c; 0xf71f6c; 0x3e39f2c; 0x7c1f83c; 0x3fff80c; 0x1ff9d5c; 0x1819ffc;
   0x1c19ffc; 0x181980c; 0x1c1980c; 0x1819ffc; 0x1ff9ffc; 0x1ff980c; 0x1c1980c; 0x0;
   0x0; 0x0; 0x0; 0x202000; 0x0; 0x0; 0x0; 0x1814000;
   0x3988ffc; 0x399cffc; 0x39881a0; 0x399c1b0; 0x39881a0; 0x399cffc; 0x3988ffc; 0x3bbedac;
   0x3faadac; 0x3fffdac; 0x3feadac; 0x3dffdbc; 0x3debfbc; 0x3dddc1c; 0x398cc1c; 0x399cc0c;
   0x398cffc; 0x398cffc; 0x398cc0c; 0x398ec0c; 0x3986ffc; 0x3987ffc; 0x3983c0c; 0x390340c;
   0x0; 0x0; 0x0; 0x0; 0x202000; 0x0; 0x0; 0x0;
   0x0; 0x3ffeffc; 0x3ffeffc; 0x3aae1a0; 0x30061e0; 0x30061a0; 0x37f6ffc; 0x37f6ffc;
   0x3006dec; 0x3006dac; 0x33f6dec; 0x33f6dac; 0x3336dec; 0x3236f2c; 0x3336c3c; 0x3236c1c;
   0x3376d5c; 0x33f6ffc; 0x33f6ffc; 0x3036c0c; 0x3006c0c; 0x3006ffc; 0x3006ffc; 0x3f06c0c].
Definition hanzi_data_452 : list N :=
  [0x1f0640c; 0x0; 0x0; 0x0; 0x0; 0x202000; 0x0; 0x0;
   0x0; 0xc000; 0xdffc; 0x1c0dffc; 0x1f8c360; 0x7fc360; 0x3c360; 0x300dffc;
   0x300dffc; 0x3ffd96c; 0x3ffd96c; 0x55196c; 0x196c; 0x1ffd96c; 0x1ffdf2c; 0x180df3c;
   0x180d80c; 0x1d5d80c; 0x1ffdffc; 0x1ffdffc; 0x180d80c; 0x180d80c; 0x1ffdffc; 0x1ffdffc;
   0x180d80c; 0x180d00c; 0x0; 0x0; 0x0; 0x0; 0x202000; 0x0;
   0x0; 0x0; 0x1c0000; 0x198ffc; 0x1d9ffc; 0x198120; 0x15dc160; 0x1ffc120;
   0x1ffcffc; 0x18effc; 0x1c6d6c; 0x186d2c; 0x1c0d6c; 0x3ffed2c; 0x7ffed3c; 0x2bbaf3c;
   0x730d1c; 0x330c0c; 0x730c0c; 0x330ffc; 0x738ffc; 0x2318c0c; 0x771cc0c; 0x231cffc;
   0x770effc; 0x3e07c0c; 0x1e0240c; 0x0; 0x0; 0x0; 0x0; 0x202000;
   0x0; 0x0; 0x0; 0x70600; 0x30618; 0x3ff8638; 0x3ffc630; 0x181f660;
   0x1c3be20; 0xe717c0; 0x7e07e0; 0x1f067c; 0xffe1c; 0x1f600; 0x0; 0x3fffffc;
   0x2abaea8; 0x1fffff0; 0xfffff0; 0x1c18c30; 0xc18e30; 0x1ff07f0; 0xc000b0; 0x1fffff0;
   0xeaaab0; 0x1fffff0; 0xfffff0; 0x1c00030; 0x0; 0x0; 0x0; 0x0;
   0x202000; 0x0; 0x0; 0x0; 0x0; 0x1ffdffc; 0x1ffdffc; 0x180c360;
   0x180c360; 0x180c360; 0x180cffc; 0x1ffcffc; 0x1ffcd6c; 0xd6c; 0xd6c; 0x3ffed6c;
   0x3ffed6c; 0x180f2c; 0x1c0c3c; 0x180c0c; 0x15d4d5c; 0x1ffcffc; 0x1ffcffc; 0x180c0c;
   0x1c0c0c; 0x180ffc; 0x3ffeffc; 0x3ffec0c; 0x40c; 0x0; 0x0; 0x0;
   0x0; 0x202000; 0x0; 0x0; 0x0; 0x180000; 0xc1ffc; 0x1c1ffc;
   0x3e0360; 0x770360; 0xe38360; 0x1c1dffc; 0x780effc; 0x3fffd6c; 0xffad6c; 0x5d1d6c;
   0x80d6c; 0x1c1d6c; 0x3ffef3c; 0x3ffff1c; 0x80c0c; 0x5d9c0c; 0xc98ffc; 0x1dddffc;
   0x188cc0c; 0x39cfc0c; 0x3086ffc; 0x31c7ffc; 0xf0c0c; 0xf140c; 0x0; 0x0;
   0x0; 0x0; 0x202000; 0x0; 0x0; 0x0; 0x60000; 0x3060ffc;
   0x3861ffc; 0x1ffe120; 0x1ffe160; 0xc60120; 0xe60ffc; 0x660ffc; 0x3fffd6c; 0x3ffed2c;
   0x1c0d6c; 0xe0d2c; 0x1ffcd6c; 0x1ffcf2c; 0xf1ec3c; 0x38fc0c; 0x1c2d5c; 0x2baaffc;
   0x7ffeffc; 0x2baac0c; 0x1c0c0c; 0x180ffc; 0x1c0ffc; 0x1f0c0c; 0xf040c; 0x0;
   0x0; 0x0; 0x0; 0x202000; 0x0; 0x0; 0x0; 0x30000;
   0x38ffc; 0x18ffc; 0x3ff81a0; 0x3ffc1e0; 0xe1a0; 0x7ffc; 0x1ffbffc; 0x1fffdec;
   0x1858dac; 0x19dcdec; 0x1b8cdac; 0x1d1cdac; 0x3ffffbc; 0x7fffc3c; 0x186cc1c; 0x1cecd5c;
   0xdccffc; 0x1d8cffc; 0x2eaec0c; 0x3ffec0c; 0xc00ffc; 0xc00ffc; 0xfe0c0c; 0x7c040c;
   0x0; 0x0; 0x0; 0x0; 0x202000; 0x0; 0x0; 0x0;
   0x180000; 0x1b9ffc; 0x1b9ffc; 0x198360; 0x3ff8360; 0x3ff8360; 0x15ddffc; 0x18dffc;
   0x18fb6c; 0x181b6c; 0x7fffb6c; 0x3fffb6c; 0x5555b6c; 0x1f2c; 0x3ffdf3c; 0x3ffd80c;
   0x3ffdd5c; 0x380dffc; 0x381dffc; 0x380d80c; 0x381d80c; 0x3aadffc; 0x3ffdffc; 0x3ffd80c;
   0x381d80c; 0x0; 0x0; 0x0; 0x0; 0x202000; 0x0; 0x0;
   0x0; 0xc0000; 0x2e1ffc; 0x771ffc; 0xe30360; 0x1c38360; 0x1ffc360; 0x3ffdffc;
   0x300cffc; 0x771d6c; 0xe3096c; 0x1c19d6c; 0x384c92c; 0x70efd6c; 0x64f3c; 0x1ff1f1c;
   0x1ff880c; 0x1c3dc0c; 0xe3effc; 0x767ffc; 0x3e080c; 0x3c1c0c; 0x7e0ffc; 0x1f7dffc;
   0x3c3e80c; 0x300740c; 0x0; 0x0; 0x0; 0x0; 0x202000; 0x0;
   0x0; 0x0; 0x1c00000; 0x3fe1ffc; 0x1fffffc; 0x2e360; 0x30c4360; 0x38ce360;
   0x19ccffc; 0x1998ff8; 0x1d98d7c; 0x8b8968; 0x600d7c; 0x600968; 0x1754d7c; 0x3ffef28;
   0x7ffec3c; 0x600808; 0x61cd5c; 0x638ff8; 0x670ffc; 0x660808; 0x660c1c; 0x600ff8;
   0x700ffc; 0x7e0808; 0x3c041c; 0x0; 0x0; 0x0; 0x0; 0x202000;
   0x0; 0x0; 0x0; 0x5c0000; 0xe81ffc; 0x39c1ffc; 0x1080320; 0x3ffe360;
   0x3ffe320; 0x1c1ffc; 0x80ffc; 0x3fffd7c; 0x3ffe92c; 0x31cfd6c; 0x308e92c; 0x3fffd2c;
   0x3ffef3c; 0x31cfc1c; 0x308e80c; 0x31cfd5c; 0x3ffeffc; 0x3fffffc; 0x308e80c; 0x31cfc0c;
   0x308effc; 0x31cfffc; 0x3e8e80c; 0x1dcf40c; 0x0; 0x0; 0x0; 0x0;
   0x202000; 0x0; 0x0; 0x0; 0x0; 0x2aaaffc; 0x3ffeffc; 0x2aea1a0;
   0x17641e0; 0x3a661a0; 0x1f6cffc; 0x1a6cffc; 0xf7cdec; 0x260dac; 0x3ffedec; 0x3ffedac;
   0x6dec; 0x6fac; 0x6c3c; 0x6c1c; 0x6d5c; 0x6ffc; 0x6ffc; 0x6c0c;
   0x7c0c; 0x3ffc; 0x3ffc; 0x3c0c; 0x340c; 0x0; 0x0; 0x0;
   0x0; 0x202000; 0x0; 0x0; 0x0; 0x0; 0xffc; 0x3fffffc;
   0x3fff1a0; 0x1f0; 0x1a0; 0x3fff7fc; 0x3fbf7fc; 0x31f37ec; 0x31a36ac; 0x31f37ec;
   0x31a36ac; 0x37f77bc; 0x37af7bc; 0x35ff61c; 0x3dab61c; 0x3dfb75c; 0x39ab7fc; 0x31f37fc;
   0x31a360c; 0x31f360c; 0x31a37fc; 0x31f37fc; 0x3dbb60c; 0x1d9b40c; 0x0; 0x0;
   0x0; 0x0; 0x202000; 0x0; 0x0; 0x0; 0x60000; 0xe0ffc;
   0xc1ffc; 0x1ffe1a0; 0x1ffe1e0; 0x180e1a0; 0x1c0effc; 0x180effc; 0x1ffedec; 0x1ffedac;
   0x1c0edec; 0x180edac; 0x1ffedec; 0x1ffef2c; 0x1ffec3c; 0x18cec1c; 0x3dced5c; 0xf8effc;
   0x78effc; 0x30ec0c; 0x78ec0c; 0xeeeffc; 0x7cfeffc; 0x381ec0c; 0x640c; 0x0;
   0x0; 0x0; 0x0; 0x202000; 0x0; 0x0; 0x0; 0xc0000;
   0x1c1ffc; 0x1c1ffc; 0x3ffe360; 0x3ffe360; 0x2eaa360; 0x1c19ffc; 0xc38ffc; 0xe31d6c;
   0x63096c; 0x1755d6c; 0x3ffe96c; 0x7fffd6c; 0xf3c; 0x1f3c; 0x1ffc80c; 0x1ffdc0c;
   0x180cffc; 0x180dffc; 0x180c80c; 0x180dc0c; 0x180cffc; 0x1ffdffc; 0x1ffc80c; 0x180d40c;
   0x0; 0x0; 0x0; 0x0; 0x202000; 0x0; 0x0; 0x0;
   0xc0000; 0xc0ffc; 0x15d5ffc; 0x3fff120; 0x7fff160; 0x120; 0x1ffcffc; 0x1ffcffc].
Definition hanzi_data_453 : list N :=
  [0x1c0cdec; 0x180cdac; 0x1ffcdec; 0x1ffcdac; 0xdec; 0x1ffefac; 0x1ffec3c; 0xe00c0c;
   0x7c0d5c; 0x1c0ffc; 0x7fffffc; 0x3fffc0c; 0x1c0c0c; 0x1c0ffc; 0x1c0ffc; 0x1f8c0c;
   0xf840c; 0x0; 0x0; 0x0; 0x0; 0x202000; 0x0; 0x0;
   0x0; 0xc0000; 0xc0ffc; 0x1c0ffc; 0x3ffe1a0; 0x3ffe1b0; 0x1a0; 0x630ffc;
   0x618ffc; 0x618dac; 0xe38dac; 0x1f7cdac; 0x1becdac; 0x39c6dbc; 0x1086fbc; 0x1c0c1c;
   0xc0c1c; 0x7fffc0c; 0x3ffeffc; 0x15d5ffc; 0xc0c0c; 0x1c0c0c; 0xc0ffc; 0x1c0ffc;
   0xc0c0c; 0x1c040c; 0x0; 0x0; 0x0; 0x0; 0x202000; 0x0;
   0x0; 0x0; 0x638000; 0x638ffc; 0x639ffc; 0x2eba1a0; 0x3ffe1e0; 0x3ffe1a0;
   0x638ffc; 0x638ffc; 0x638dec; 0x3fffdac; 0x7fffdec; 0xdac; 0xdac; 0x1ffcfac;
   0x1ffcc1c; 0x180cc0c; 0x1c0cd5c; 0x1ffcffc; 0x1ffcffc; 0x180cc0c; 0x1c0cc0c; 0x180cffc;
   0x1ffcffc; 0x1ffcc0c; 0x1c0c40c; 0x0; 0x0; 0x0; 0x0; 0x202000;
   0x0; 0x0; 0x0; 0x0; 0x1ffeffc; 0x1fffffc; 0x1806120; 0x1806170;
   0x1ffe120; 0x1ffeffc; 0x1806ffc; 0x1806d6c; 0x1ffed2c; 0x1ffed6c; 0xd2c; 0x30ed3c;
   0x30ef3c; 0x330ef1c; 0x3b7ec0c; 0x1f7ec0c; 0x70effc; 0x30effc; 0x30ec0c; 0x630ec0c;
   0x636effc; 0x737effc; 0x3f3ec0c; 0x1f0640c; 0x0; 0x0; 0x0; 0x0;
   0x202000; 0x0; 0x0; 0x0; 0x0; 0x1ffcffc; 0x1ffdffc; 0x180c120;
   0x180c160; 0x1ffc120; 0x1ffcffc; 0x180cffc; 0x1d5cd6c; 0x1ffcd2c; 0x1554d6c; 0xd2c;
   0x7ffed2c; 0x3ffef3c; 0x1c4f1c; 0x18cc0c; 0x15dcc0c; 0x3f8cffc; 0x3fdcffc; 0x19cc0c;
   0x1dcc0c; 0x1b6ffc; 0x7ff7ffc; 0x3fe3c0c; 0x3f0340c; 0x0; 0x0; 0x0;
   0x0; 0x202000; 0x0; 0x0; 0x0; 0xc000; 0x3f8cffc; 0x3f8cffc;
   0x318c0a0; 0x318c1b0; 0x318c0a0; 0x31ffffc; 0x3bffffc; 0x3f8c7fc; 0x3b8c6ac; 0x318c6bc;
   0x318c6ac; 0x31ff7bc; 0x31bf7bc; 0x3ff361c; 0x3fa360c; 0x31f360c; 0x31a37fc; 0x31f37fc;
   0x31ab60c; 0x31ff60c; 0x30c37fc; 0x30c37fc; 0x3ee060c; 0x1c4040c; 0x0; 0x0;
   0x0; 0x0; 0x202000; 0x0; 0x0; 0x0; 0x0; 0x3ffdffc;
   0x3ffdffc; 0x3988360; 0x19d8360; 0x1f98360; 0x1fddffc; 0x1bdffc; 0x1fdd7c; 0x3fef96c;
   0x3fc796c; 0x396c; 0x1ffd96c; 0x1ff9b2c; 0x181df3c; 0x1ff980c; 0x1ffdd5c; 0x1819ffc;
   0x181dffc; 0x1ff980c; 0x1ffd80c; 0x1819ffc; 0x181dffc; 0x1e1980c; 0x1e1d80c; 0x0;
   0x0; 0x0; 0x0; 0x202000; 0x0; 0x0; 0x0; 0x0;
   0x1ffdffc; 0x1ffdffc; 0x180c360; 0x181c360; 0x1ffc360; 0x1ffdffc; 0x180dffc; 0x181db6c;
   0x1ffdb6c; 0x1ffdb6c; 0x199b6c; 0x199f6c; 0x3ff9f2c; 0x3ffd83c; 0x18f80c; 0x187d5c;
   0x181ffc; 0x1ffdffc; 0xba980c; 0x18180c; 0x181ffc; 0x7fffffc; 0x3fff80c; 0x100c;
   0x0; 0x0; 0x0; 0x0; 0x202000; 0x0; 0x0; 0x0;
   0x300000; 0x3007fc; 0x33317fc; 0x33338a0; 0x1b731b0; 0x1b660a0; 0x1b667fc; 0xb663fc;
   0x3006ac; 0x3ff7aac; 0x3ff7eac; 0x3862ac; 0x7c67bc; 0xfc63bc; 0x1fc661c; 0x1b6620c;
   0x3b7675c; 0x33363fc; 0x33367fc; 0x31620c; 0x30660c; 0x31f3fc; 0x75f9ffc; 0x3fe1a0c;
   0x3fc0c0c; 0x0; 0x0; 0x0; 0x0; 0x202000; 0x0; 0x0;
   0x0; 0x618000; 0x618ffc; 0x7fffffc; 0x3fff1e0; 0x575d1e0; 0x6181e0; 0x7d8ffc;
   0x1e0ff8; 0x3f0dec; 0x738de8; 0x1e1cdec; 0x3c0ede8; 0x7fffdec; 0x2ffaf28; 0xc0c3c;
   0xc0c18; 0x15d4d5c; 0x1ffcff8; 0x1ffcffc; 0xc0c08; 0xc0c0c; 0xc0ff8; 0x7fffffc;
   0x3ffec08; 0x40c; 0x0; 0x0; 0x0; 0x0; 0x202000; 0x0;
   0x0; 0x0; 0x60000; 0x60ffc; 0x70ffc; 0x3fff1a0; 0x3fff1f0; 0x381a0;
   0x18ffc; 0x1ffcffc; 0x1ffedfc; 0x181edac; 0x1c1fdec; 0x1818dac; 0x1ff8dbc; 0xaa8fbc;
   0xc1c; 0x1ffec1c; 0x1ffec0c; 0x1b26ffc; 0x1b66ffc; 0x1b26c0c; 0x1b66c0c; 0x1b26ffc;
   0x7fffffc; 0x3fffc0c; 0x40c; 0x0; 0x0; 0x0; 0x0; 0x202000;
   0x0; 0x0; 0x0; 0xe0000; 0x1c0ffc; 0x1c0ffc; 0x3ffe1a0; 0x7fff1e0;
   0x861a0; 0x15d7ffc; 0x1ffeffc; 0x1fffdec; 0x1886dac; 0x7fffdec; 0x3ffedac; 0x19c7dbc;
   0x1aaefbc; 0x1fffc3c; 0x82c1c; 0x1c7d5c; 0x1ffbffc; 0x1ffbffc; 0x181bc0c; 0x181bc0c;
   0x181bffc; 0x1ff9ffc; 0x1ff9c0c; 0x181940c; 0x0; 0x0; 0x0; 0x0;
   0x202000; 0x0; 0x0; 0x0; 0xc0000; 0xc0ffc; 0x7fffffc; 0x3fff1a0;
   0x15551e0; 0x1a361a0; 0x1bf6ffc; 0x18c6ffc; 0x1bf6dec; 0x1a3edac; 0x1816dec; 0x1ffedac;
   0x1ffedec; 0xc0fac; 0x3ffec3c; 0x3ffec1c; 0x3166d5c; 0x3326ffc; 0x3636ffc; 0x37fec0c;
   0x35fec0c; 0x3406ffc; 0x3006ffc; 0x3e06c0c; 0x1e0640c; 0x0; 0x0; 0x0;
   0x0; 0x202000; 0x0; 0x0; 0x0; 0x0; 0x3fbfffc; 0x3fffffc;
   0x38221a0; 0x3fff1f0; 0x3e2c1a0; 0x3c707fc; 0x3e3c7fc; 0x3fff7ec; 0x38a37ac; 0x38c07ec;
   0xe07ac; 0x3f07bc; 0xf387bc; 0x7ddf61c; 0x38e361c; 0x77975c; 0x39e7fc; 0x19c47fc;
   0x1cf860c; 0xf3c60c; 0x7807fc; 0x1f07fc; 0x7f60c; 0x640c; 0x0; 0x0;
   0x0; 0x0; 0x202000; 0x0; 0x0; 0x0; 0x374000; 0x3b26ffc;
   0x1b7effc; 0x1b2c1a0; 0xf7c1e0; 0x3fff1a0; 0x3fffffc; 0xc18ffc; 0x618dec; 0x630dac;
   0x3ffedec; 0x2aeadac; 0x1c0dec; 0x3ffef2c; 0x3ffec3c; 0xc0c1c; 0x3fffd5c; 0x3ffeffc;
   0x1c0ffc; 0x3e0c0c; 0x770c0c; 0xe38ffc; 0x1e3cffc; 0x380fc0c; 0x100640c; 0x0;
   0x0; 0x0; 0x0; 0x202000; 0x0; 0x0; 0x0; 0x1b0000;
   0x1b8ffc; 0x398ffc; 0x3181a0; 0x3ffc1f0; 0x3ffc1a0; 0x175effc; 0x30effc; 0x3fffdfc;
   0x3fffdac; 0x30ddec; 0x30cdac; 0x3ffcdbc; 0x3ffcfbc; 0x30cc1c; 0x30cc1c; 0x7ffcc0c;
   0x3ffcffc; 0xcffc; 0xdacc0c; 0x1b7cc0c; 0x3b6effc; 0x3366ffc; 0x3267c0c; 0x706340c].
Definition hanzi_data_454 : list N :=
  [0x0; 0x0; 0x0; 0x0; 0x202000; 0x0; 0x0; 0x0;
   0xc0000; 0xc0ffc; 0x3fffffc; 0x3ffe1a0; 0x6701f0; 0xe381a0; 0x1ffe7fc; 0x3bfe7fc;
   0x14045ec; 0x6cc5ac; 0x6cc5ec; 0x26cc5ac; 0x66cc5bc; 0x3ec67bc; 0x3cc743c; 0xaaa41c;
   0x1ffe55c; 0x1bae7fc; 0x19367fc; 0x192640c; 0x193640c; 0x19267fc; 0x3fff7fc; 0x3fff40c;
   0x40c; 0x0; 0x0; 0x0; 0x0; 0x202000; 0x0; 0x0;
   0x0; 0x370000; 0x330ffc; 0x3ffeffc; 0x3ffe1a0; 0x3b761e0; 0x3bae1a0; 0x3ffeffc;
   0x3b26ffc; 0x3b76dec; 0x3ffedac; 0x1ffedec; 0xdac; 0x3fffdec; 0x2aaafac; 0x1ffcc3c;
   0x1ffcc1c; 0x1c0cd5c; 0x180cffc; 0x1ffcffc; 0x1ffcc0c; 0xe18c0c; 0x638ffc; 0x1775ffc;
   0x3fffc0c; 0x555540c; 0x0; 0x0; 0x0; 0x0; 0x202000; 0x0;
   0x0; 0x0; 0xc0000; 0xc0ffc; 0x1fc0ffc; 0xc01a0; 0x3ffe1f0; 0x3ffe1a0;
   0x30c6ffc; 0x37c6ffc; 0x7f6dec; 0x18c6dac; 0x1fc6dec; 0xa06dac; 0x3ffedbc; 0x3ffefbc;
   0x11c6c3c; 0x38fec1c; 0x1d96d5c; 0xfe6ffc; 0xf77ffc; 0xbbac0c; 0x1bc7c0c; 0x3b73ffc;
   0x733fffc; 0x23ebc0c; 0x1e140c; 0x0; 0x0; 0x0; 0x0; 0x202000;
   0x0; 0x0; 0x0; 0x1c00000; 0x3ffeffc; 0x1ffffc; 0xc01a0; 0x3fff1f0;
   0x3fff1a0; 0xc0ffc; 0x3ffeffc; 0x3ffedec; 0x369edac; 0x36f6dec; 0x33b6dac; 0x3ffedbc;
   0x3ffefbc; 0xc0c1c; 0x1ffec1c; 0x1ffed5c; 0xc0ffc; 0x7fffffc; 0x3fffc0c; 0x1d3cc0c;
   0x1b26ffc; 0x3366ffc; 0x3263c0c; 0x226340c; 0x0; 0x0; 0x0; 0x0;
   0x202000; 0x0; 0x0; 0x0; 0xc0000; 0xc0ffc; 0x7fffffc; 0x3fff0b0;
   0xc331b0; 0xc330b0; 0x3fff7fc; 0x2ebb7fc; 0x1efb6bc; 0x3fbb6ac; 0x3dbf6bc; 0xc376ac;
   0x5937bc; 0x189b7bc; 0x1d9b61c; 0xcb360c; 0x3fff60c; 0x3fff7fc; 0x3c17fc; 0x6e1e0c;
   0xfb1e0c; 0x1c99ffc; 0x799fffc; 0x3084e0c; 0x180c0c; 0x0; 0x0; 0x0;
   0x0; 0x202000; 0x0; 0x0; 0x0; 0x400000; 0xffa000; 0x1fffff8;
   0x2fff8; 0x403010; 0xe03020; 0x707070; 0x7060e0; 0x3861c0; 0x3861c0; 0x1c61c0;
   0x86000; 0x1557554; 0x3fffffc; 0x3fffffc; 0x3f800; 0x7fe00; 0xf6e00; 0x1e6780;
   0x3c63c0; 0xf061f0; 0x3e06078; 0x3c0603c; 0x1006008; 0x6000; 0x0; 0x0;
   0x0; 0x0; 0x202000; 0x0; 0x0; 0x0; 0x1c0700; 0xc0fe0;
   0x1c03fc; 0xc00cc; 0x1c0ccc; 0xc0cc8; 0x3ffe6d8; 0x3ffe6d8; 0x39c66d8; 0x38c60c8;
   0x39c7ffc; 0x38c6ffc; 0x39c61e0; 0x3ffe3e0; 0x3ffe7f0; 0x3aee6f0; 0x39c6cf0; 0x38c6cd8;
   0x39c60dc; 0x38c60cc; 0x39c60cc; 0x3ffe0c4; 0x3ffe0c0; 0x3aae0c0; 0x38060c0; 0x0;
   0x0; 0x0; 0x0; 0x202000; 0x0; 0x0; 0x0; 0x400;
   0x1aaafe8; 0x3ffe7fc; 0x1aae0c8; 0x1c1ddcc; 0xe38cc8; 0x770dd8; 0x3e06f8; 0x1e07d0;
   0x7f80c0; 0x7f3fffc; 0x380fffc; 0x31c11e0; 0xc03e0; 0x1ffe7f0; 0x1ffeef0; 0x1c0df8;
   0xc00d8; 0x3fff1dc; 0x3fff0ce; 0x3fff1c4; 0xc00c0; 0x1c01c0; 0xc00c0; 0x1c01c0;
   0x0; 0x0; 0x0; 0x0; 0x202000; 0x0; 0x0; 0x0;
   0x0; 0xffffe0; 0xfffff0; 0xe06060; 0xe06070; 0xe06060; 0xfffff0; 0xffffe0;
   0xe06070; 0xe06060; 0xe06070; 0xeaeae0; 0xfffff0; 0xaaeaa0; 0x6000; 0x6000;
   0x1fffff0; 0x1fffff0; 0x1557550; 0x6000; 0x6000; 0x6000; 0x3fffffc; 0x3fffffc;
   0x0; 0x0; 0x0; 0x0; 0x0; 0x202000; 0x0; 0x0;
   0x0; 0x700000; 0x7ffea0; 0x1ffff0; 0x60a0; 0x6000; 0x3fffffc; 0x3fffffc;
   0x6000; 0xfffff0; 0xffffe0; 0xe06070; 0xeaeae0; 0xfffff0; 0xe06060; 0xe06070;
   0xffffe0; 0xfffff0; 0x6000; 0x1fffff0; 0xfffff0; 0x6000; 0x6000; 0x3fffffc;
   0x3fffffc; 0x0; 0x0; 0x0; 0x0; 0x0; 0x202000; 0x0;
   0x0; 0x0; 0x0; 0x1aaaaa8; 0x3ffbffc; 0x3aab18c; 0x1c0319c; 0xe2318c;
   0x7f3ffc; 0x3c3ffc; 0x78319c; 0xe0318c; 0x7fffffc; 0x3ffbffc; 0x31815d4; 0x3980180;
   0x1980180; 0x1983ffc; 0x1d83ffc; 0x180180; 0x180180; 0x180180; 0x187d80; 0x187ff8;
   0x1d1ffc; 0x1f802c; 0x1f8000; 0x0; 0x0; 0x0; 0x0; 0x202000;
   0x0; 0x0; 0x0; 0x0; 0x7fffe0; 0x755560; 0x6aaae0; 0x7fffe0;
   0x600060; 0x7fffe0; 0x7fffe0; 0x3fffffc; 0x3fffffc; 0x1555554; 0xffffe0; 0xfffff0;
   0xe06060; 0xfffff0; 0xeaeae0; 0xf57570; 0xffffe0; 0x6000; 0xaaeaa0; 0xfffff0;
   0x6000; 0x3fffffc; 0x3fffffc; 0x0; 0x0; 0x0; 0x0; 0x0;
   0x202000; 0x0; 0x0; 0x0; 0x60180; 0x60180; 0x3ff3ff8; 0x3ff8ba8;
   0xe7fffc; 0x6efffc; 0x3c47c0; 0x7e0fe0; 0x7f7fdb8; 0x383d19c; 0x3fffff4; 0x3fffff0;
   0x70; 0xffff30; 0xf5d770; 0xffff30; 0xffff70; 0xe0c330; 0xffff30; 0xc038;
   0xffffb8; 0xffff98; 0x1c01c; 0x3ffffce; 0x1555544; 0x0; 0x0; 0x0;
   0x0; 0x202000; 0x0; 0x0; 0x0; 0x6000; 0xe000; 0xf000;
   0x1f800; 0x79e00; 0xf0f00; 0x3c07c0; 0xf801f0; 0x7fffffc; 0x39fffbc; 0x1006004;
   0x6000; 0x6000; 0xaaeaa8; 0x1fffff8; 0xfffff8; 0x3060c0; 0x3860c0; 0x1861c0;
   0x1c6380; 0xc6300; 0x46100; 0x3fffffc; 0x3fffffc; 0x0; 0x0; 0x0;
   0x0; 0x0; 0x202000; 0x0; 0x0; 0x0; 0x70600; 0xf0f00;
   0x7c03c0; 0xfe07f8; 0x1c70e78; 0x83bc00; 0x1f800; 0x3f800; 0x1fdf80; 0x3fe07f8;
   0x3f001fc; 0x23fffcc; 0x3fffc0; 0x6000; 0x6000; 0x6000; 0x1fffff0; 0xfffff0;
   0x3861c0; 0x186180; 0x1c6380; 0xc6300; 0x3fffffc; 0x3fffffc; 0x1555554; 0x0;
   0x0; 0x0; 0x0; 0x202000; 0x0; 0x0; 0x0; 0x30700;
   0x30638; 0x38738; 0x3ff8638; 0x3ffc738; 0xe638; 0x1e7738; 0x3c2638; 0x786738].
Definition hanzi_data_455 : list N :=
  [0x60fe28; 0x7fc00; 0x1f8f80; 0x1fc07f0; 0x3effffe; 0x30fff1c; 0x6000; 0xfffff0;
   0xfffff0; 0x5d7550; 0x386180; 0x1c6380; 0xc6380; 0x3fffffc; 0x3fffffc; 0x0;
   0x0; 0x0; 0x0; 0x0; 0x202000; 0x0; 0x0; 0x0;
   0x0; 0x7fc000; 0x7fcffc; 0x60cffc; 0x70c0c0; 0x63c0c0; 0x777e0c0; 0x26e6ec0;
   0x77c7fc0; 0x3e073fc; 0x3e0f07c; 0x1f800; 0xf9f00; 0xfe07e0; 0x7fffffe; 0x38ffe3c;
   0x6004; 0x7fffe0; 0x7ffff0; 0x186180; 0x1c6380; 0xc6300; 0x3fffffc; 0x3fffffc;
   0x0; 0x0; 0x0; 0x0; 0x0; 0x202000; 0x0; 0x0;
   0x0; 0x7000; 0x6000; 0x3fffffc; 0x3fffffc; 0x1575d54; 0x30c00; 0x3b0dc0;
   0x730ce0; 0xe30c70; 0x1c34c38; 0x183fc38; 0x1f800; 0xf9f00; 0xfe07e0; 0x7f7fffe;
   0x387fe3c; 0x6000; 0x6000; 0x7fffe0; 0x2aeba0; 0x1c6380; 0xc6300; 0x1fffffc;
   0x1fffff8; 0x0; 0x0; 0x0; 0x0; 0x0; 0x202000; 0x0;
   0x0; 0x0; 0xc0c0; 0xc0c0; 0x1ffe0c0; 0x1ffe0c0; 0x18177fc; 0x183bffc;
   0x18f1cc0; 0x1ac00c0; 0x1bf00c0; 0x18feec0; 0x1c1e7c0; 0xc0e3fc; 0xfcf87c; 0x3bde00;
   0x1f0f80; 0xffffe0; 0x7f7fefe; 0x200601c; 0x7fffe0; 0x7fffe0; 0x1c6300; 0xc6300;
   0x3fffffc; 0x3fffffc; 0x0; 0x0; 0x0; 0x0; 0x0; 0x202000;
   0x0; 0x0; 0x0; 0x400010; 0xffa078; 0x7ffff0; 0x30880; 0x3001c;
   0x3fffe3c; 0x3ffff70; 0x38080; 0x1fe1c0; 0x3cf8e0; 0xf07f70; 0x1e0ee38; 0x181f01c;
   0x7be08; 0x7f0fc0; 0x7fffffc; 0x3c7fe7c; 0x6000; 0x7fffe0; 0x7fffe0; 0x1c6380;
   0xc6300; 0x15f7754; 0x3fffff8; 0x1555554; 0x0; 0x0; 0x0; 0x0;
   0x202000; 0x0; 0x0; 0x0; 0x10001c0; 0x1f800c0; 0x1fffffc; 0x3bffc;
   0x38770; 0x2ab8338; 0x3fffffc; 0x2ebfff8; 0x618700; 0x61bf80; 0x61fffc; 0x61c33c;
   0x60f700; 0x63fc00; 0x1f9f80; 0xfeabf0; 0x7f7fffc; 0x200600c; 0x7ffff0; 0x7fffe0;
   0x1c6380; 0xc6300; 0x15f7754; 0x1fffff8; 0x1555554; 0x0; 0x0; 0x0;
   0x0; 0x202000; 0x0; 0x0; 0x0; 0xc0000; 0xe3ff8; 0x63ff8;
   0x3ff0e20; 0x3ff07f0; 0xc18f80; 0xc7fffc; 0xeebffc; 0x7c33c0; 0x781be0; 0xfe133c;
   0x1cfc30c; 0x383f3c4; 0x3fdc0; 0x1f9fc0; 0x3feabf8; 0x3ffff7c; 0x200600c; 0xfffff0;
   0xffffe0; 0x1c6180; 0xc6300; 0x3fffffc; 0x3fffff8; 0x0; 0x0; 0x0;
   0x0; 0x0; 0x202000; 0x0; 0x0; 0x0; 0x38010; 0x30078;
   0x3fffff0; 0x2baea80; 0x78701c; 0xfffc3c; 0x1fffc70; 0xa20880; 0x6319c0; 0x6318c0;
   0x6631c70; 0x2634f30; 0x3e3f73c; 0x1c3f818; 0x1f9f00; 0x3fe03f0; 0x3fffffc; 0x2006008;
   0x7ffff0; 0x7fffe0; 0x1c6180; 0xc6300; 0x15f7750; 0x1fffff8; 0x0; 0x0;
   0x0; 0x0; 0x0; 0x202000; 0x0; 0x0; 0x0; 0x60180;
   0x62ba8; 0x73ffc; 0x3ff0180; 0x3ff9ff8; 0xc18ba8; 0xc3d5d4; 0xe7bffc; 0x7e00e0;
   0x381fe0; 0x7f1d70; 0x1efa830; 0x3c17fbc; 0x101fa8c; 0xfdf04; 0xfeafe0; 0x3fffffc;
   0x380603c; 0x7fffe0; 0x7fffe0; 0x1c6380; 0xc6300; 0x3fffffc; 0x3fffffc; 0x0;
   0x0; 0x0; 0x0; 0x0; 0x202000; 0x0; 0x0; 0x0;
   0xe000; 0xc000; 0x3fffff0; 0x3fffff0; 0x30c30; 0xfffff0; 0x1d75d70; 0xebaeb0;
   0x1fffff0; 0xc30330; 0x1ff7f30; 0x30f2b38; 0x357ffb0; 0x3ffffb8; 0x7f1b8; 0x3e3e38;
   0x3ffffd8; 0x3cffdd8; 0xc018; 0x7fff98; 0x5dd71c; 0x18c60c; 0x15ddd4c; 0x3ffffee;
   0x1555544; 0x0; 0x0; 0x0; 0x0; 0x202000; 0x0; 0x0;
   0x0; 0x1c0000; 0x180ff8; 0x3ffdff8; 0x3ffc818; 0xc31ff8; 0x630ff8; 0x3ffe018;
   0x2babff8; 0x1c1ff8; 0x3ffd878; 0x3ffdd7c; 0x18ffee; 0x1dfd44; 0x3fe00; 0x7f0fc0;
   0x7fffff8; 0x3c7ff7c; 0x6000; 0x7ffff0; 0x7fffe0; 0x1c6380; 0xc6300; 0x15f7754;
   0x3fffff8; 0x0; 0x0; 0x0; 0x0; 0x0; 0x202000; 0x0;
   0x0; 0x0; 0xe000; 0xf800; 0x7fe00; 0x3f0fc0; 0x1fffffc; 0x187fe38;
   0x157540; 0x3fffe0; 0x1d7740; 0xe6300; 0x1fffff0; 0xfffff0; 0x1c0180; 0x3e07e0;
   0x1f79e70; 0x3fffffe; 0x1ffc7fc; 0x80180; 0x3ffdffc; 0x3ffdff8; 0x1ddcd90; 0xc98db0;
   0x3ffffd0; 0x3ffeffc; 0x1c; 0x0; 0x0; 0x0; 0x0; 0x202000;
   0x0; 0x0; 0x0; 0xc0; 0xe0; 0x60; 0x7ff0; 0x7ff0;
   0x38; 0x1c; 0x8; 0x1ff8; 0x1ff8; 0x180; 0x180; 0x180;
   0x3ffc; 0x7ffc; 0x180; 0x180; 0x180; 0x180; 0x2180; 0x3d80;
   0x3f80; 0x7c0; 0x1c0; 0x40; 0x0; 0x0; 0x0; 0x0;
   0x202000; 0x0; 0x0; 0x0; 0x38060; 0x38060; 0x38070; 0x3bff0;
   0x3bff8; 0x38018; 0x3801e; 0x3800c; 0x39ffc; 0x39ff8; 0x38180; 0x38180;
   0x38180; 0x3bffc; 0x3bffc; 0x38ba8; 0x1038180; 0x3038180; 0x3038180; 0x303a180;
   0x303bd80; 0x303bf80; 0x3ff07c0; 0x1ff01c0; 0x40; 0x0; 0x0; 0x0;
   0x0; 0x202000; 0x0; 0x0; 0x0; 0x60; 0x60; 0xffe070;
   0x1ffeff0; 0x1ffeff8; 0xe00ab8; 0x70001c; 0x30000c; 0x3807fc; 0x1807f8; 0x1c00c0;
   0xe00c0; 0x600c0; 0x70ffc; 0x30ffc; 0x38ae8; 0x101c0c0; 0x301c0c0; 0x300c0c0;
   0x300e8c0; 0x300eec0; 0x380efc0; 0x1ffc3e0; 0x1ff80e0; 0x40; 0x0; 0x0;
   0x0; 0x0; 0x202000; 0x0; 0x0; 0x0; 0x1c0060; 0xc0060;
   0x1c0070; 0xc0ff0; 0x1c0ff8; 0xc0ab8; 0x1c001e; 0xc000c; 0x1c07fc; 0x3fff7f8;
   0x3fff1c0; 0xc00c0; 0x1c01c0; 0xc0ffc; 0x1c0ffc; 0xc0ae8; 0x1c01c0; 0xc00c0;
   0x1c01c0; 0xc08c0; 0x1c1fc0; 0xc0fc0; 0x1c07e0; 0xc00e0; 0x1c0040; 0x0].
Definition hanzi_data_456 : list N :=
  [0x0; 0x0; 0x0; 0x202000; 0x0; 0x0; 0x0; 0x60;
   0x60; 0x7ffe070; 0x3ffeff0; 0x7fffff8; 0x300018; 0x30001c; 0x30000c; 0x300ffc;
   0x300ff8; 0x3001c0; 0x3000c0; 0x3001c0; 0x301ffc; 0x301ffc; 0x300ae8; 0x3001c0;
   0x3000c0; 0x3001c0; 0x3008c0; 0x301dc0; 0x300fc0; 0x3f07c0; 0x3f00e0; 0x1f0040;
   0x0; 0x0; 0x0; 0x0; 0x202000; 0x0; 0x0; 0x0;
   0x1800060; 0x18000e0; 0x1800070; 0x1863ff0; 0x1863ff8; 0x1860038; 0x186001c; 0x186000c;
   0x1863ffc; 0x1863ff8; 0x1860380; 0x1860380; 0x1860380; 0x1862ba8; 0x1867ffc; 0x1863ffc;
   0x1860380; 0x1860380; 0x1860380; 0x1802380; 0x1807b80; 0x1803f80; 0x1d40fc0; 0x1f80380;
   0xf80080; 0x0; 0x0; 0x0; 0x0; 0x202000; 0x0; 0x0;
   0x0; 0x70060; 0x300e0; 0x70070; 0x31ff0; 0x71ff8; 0x30ab8; 0x7001c;
   0x3000c; 0xf1ff4; 0x1f1ff0; 0x3f0180; 0x730180; 0x1e70180; 0x3c33ffc; 0x3873ffc;
   0x1032ba8; 0x70180; 0x30180; 0x72180; 0x33980; 0x73d80; 0x30f80; 0x707c0;
   0x300c0; 0x70040; 0x0; 0x0; 0x0; 0x0; 0x202000; 0x0;
   0x0; 0x0; 0x60; 0x60; 0x3ffe070; 0x3ffeff0; 0x1c01ff8; 0xc00018;
   0xe0001c; 0x70000c; 0x380ffc; 0x180ff8; 0x1c01c0; 0x180180; 0x1c01c0; 0x181ffc;
   0x1c1ffc; 0x180ba8; 0x1c01c0; 0x180180; 0x1c01c0; 0x181980; 0x1c1dc0; 0x180f80;
   0x1d07c0; 0x1f80e0; 0xf0040; 0x0; 0x0; 0x0; 0x0; 0x202000;
   0x0; 0x0; 0x0; 0xc0060; 0xc0060; 0xc0070; 0xc0ff0; 0xc0ff8;
   0xc001c; 0xc001e; 0xc000c; 0x3fff7fc; 0x3fff7f8; 0x3fff0c0; 0xc00c0; 0xc00c0;
   0xc0ffc; 0xc0ffc; 0xc0ae8; 0xc00c0; 0xc00c0; 0xc00c0; 0xc0cc0; 0xc0fc0;
   0x2aeabe0; 0x7fff9e0; 0x3fff8e0; 0x20; 0x0; 0x0; 0x0; 0x0;
   0x202000; 0x0; 0x0; 0x0; 0x800060; 0x1f80060; 0x1fff070; 0xfeff0;
   0xc4ff8; 0xc001c; 0xc001e; 0xc000c; 0xc07fc; 0xc07f8; 0x15d50c0; 0x3fff0c0;
   0x7fff0c0; 0xc0ffc; 0xc0ffc; 0xc0ae8; 0xc00c0; 0xc00c0; 0xc00c0; 0xc08c0;
   0xc0fc0; 0xc0fc0; 0xc03e0; 0xc00e0; 0xc0020; 0x0; 0x0; 0x0;
   0x0; 0x202000; 0x0; 0x0; 0x0; 0x1000060; 0x380e060; 0x39ce070;
   0x38ceff0; 0x39ceff8; 0x38ce018; 0x39ce01c; 0x38ce00c; 0x39ce7fc; 0x38ce7f8; 0x39ce1c0;
   0x38ce0c0; 0x39ce1c0; 0x38ceffc; 0x39ceffc; 0x38ceae8; 0x39c61c0; 0x38c60c0; 0x39c69c0;
   0x38c6cc0; 0x39c7fc0; 0x38c33c0; 0x38039e0; 0x38038e0; 0x3801840; 0x0; 0x0;
   0x0; 0x0; 0x202000; 0x0; 0x0; 0x0; 0x400060; 0xe00060;
   0x700070; 0x381ff0; 0x1e1ff8; 0xf8018; 0x7c01c; 0x80800c; 0x3c00ffc; 0x1e00ff8;
   0xf001c0; 0x7800c0; 0x1e01c0; 0xf9ffc; 0x7dffc; 0x3008ae8; 0x38001c0; 0x3c000c0;
   0x1e001c0; 0xf018c0; 0x7c1fc0; 0x1e0fc0; 0x7c7c0; 0x3e0e0; 0x4040; 0x0;
   0x0; 0x0; 0x0; 0x202000; 0x0; 0x0; 0x0; 0x60;
   0x7fe060; 0x7fe070; 0x60eff0; 0x60eff8; 0x60e01c; 0x60e01c; 0x60e00c; 0x61e7fc;
   0x63e7f8; 0x67e0c0; 0x66e0c0; 0x6ee0c0; 0x6ceffc; 0x7c6ffc; 0x686ae8; 0x6060c0;
   0x6060c0; 0x2607cc0; 0x6607ec0; 0x66077c0; 0x2603bc0; 0x7e01de0; 0x3e01e60; 0xc00;
   0x0; 0x0; 0x0; 0x0; 0x202000; 0x0; 0x0; 0x0;
   0x30060; 0x38060; 0x38070; 0x19ff0; 0x155dff8; 0x3ffc018; 0x3ffc01c; 0x380e00c;
   0x3807ffc; 0x3803ff8; 0x38131c0; 0x38380c0; 0x18781c0; 0x38e1ffc; 0x19e1ffc; 0x19c0ae8;
   0x19801c0; 0x18000c0; 0x18001c0; 0x18018c0; 0x1c01fc0; 0x1800fc0; 0x1d407c0; 0xfc00e0;
   0x7c0040; 0x0; 0x0; 0x0; 0x0; 0x202000; 0x0; 0x0;
   0x0; 0x6070; 0x3fe6070; 0x3fee070; 0x380c7f8; 0x381c7f8; 0x381a01c; 0x380701c;
   0x380300c; 0x38077fc; 0x38033f8; 0x38070c0; 0x38030c0; 0x38070c0; 0x38037fc; 0x38077fc;
   0x38032e8; 0x38070c0; 0x38030c0; 0x38070c0; 0x38034c0; 0x3807fc0; 0x38033c0; 0x3d071e0;
   0x1f83060; 0x1f07020; 0x0; 0x0; 0x0; 0x0; 0x202000; 0x0;
   0x0; 0x0; 0xe0060; 0x60060; 0x60070; 0x60ff0; 0x70ff8; 0x3001c;
   0x7fff01e; 0x3fff00c; 0x5d7d7fc; 0xc187f8; 0xc1c0c0; 0xe1c0c0; 0x61c0c0; 0x60cffc;
   0x70effc; 0x30eae8; 0x33c0c0; 0x3f00c0; 0x1e00c0; 0x3e08c0; 0xff0fc0; 0x1e787c0;
   0x3c3f1e0; 0x380f0e0; 0x1003020; 0x0; 0x0; 0x0; 0x0; 0x202000;
   0x0; 0x0; 0x0; 0x60; 0xffe060; 0x1fff070; 0xfaaff0; 0x780ff8;
   0x1c0ab8; 0xf001c; 0x7800c; 0x555c7fc; 0x3ffe7f8; 0x7ffe0c0; 0x36600c0; 0x37300c0;
   0x33387fc; 0x33187fc; 0x319c2e8; 0x31ce0c0; 0x38c70c0; 0x18e30c0; 0x18608c0; 0x1870fc0;
   0x18387c0; 0x1c1e1e0; 0xf8e0e0; 0x780000; 0x0; 0x0; 0x0; 0x0;
   0x202000; 0x0; 0x0; 0x0; 0x60; 0x60; 0x3fff070; 0x3fffff0;
   0x3d57ff8; 0x3806018; 0x186601e; 0x18ee00c; 0x1dcc7fc; 0xd8c7f8; 0xd9c0c0; 0xe180c0;
   0x6380c0; 0x638ffc; 0x770ffc; 0x3e0ae8; 0x1e00c0; 0x1e00c0; 0x1e00c0; 0x3f00c0;
   0x778fc0; 0xe3c7c0; 0x3c1f3e0; 0x38078e0; 0x1001060; 0x0; 0x0; 0x0;
   0x0; 0x202000; 0x0; 0x0; 0x0; 0x60; 0x2aaa060; 0x3ffe070;
   0x3ffeff0; 0xe18ff8; 0xe18ab8; 0xe1801c; 0xe1800c; 0xe187fc; 0xe187f8; 0xe180c0;
   0x3fff0c0; 0x7fff0c0; 0x2ebaffc; 0xe18ffc; 0xe182e8; 0xe180c0; 0xe180c0; 0xe1c0c0;
   0xe0c0c0; 0xe0e7c0; 0xe0e7c0; 0xe071f0; 0xe038e0; 0xe01020; 0x0; 0x0;
   0x0; 0x0; 0x202000; 0x0; 0x0; 0x0; 0x60; 0x3fff060;
   0x7fff070; 0x2aeaff0; 0x1c0ff8; 0xc0018; 0x1c601c; 0x3fc600c; 0x3fc67fc; 0xc67f8].
Definition hanzi_data_457 : list N :=
  [0x1c60c0; 0xc60c0; 0x1c60c0; 0x3ffeffc; 0x3ffeffc; 0x3000ae8; 0x30000c0; 0x30000c0;
   0x30000c0; 0x38008c0; 0x3800ec0; 0x1800fc0; 0x1d403e0; 0x1fc00e0; 0xfc0040; 0x0;
   0x0; 0x0; 0x0; 0x202000; 0x0; 0x0; 0x0; 0x60;
   0x60; 0x3fff070; 0x3fffff0; 0x1c0ff8; 0xc0ab8; 0xc001c; 0xe000c; 0x3e07fc;
   0x3f07f8; 0x7f00c0; 0xef80c0; 0x1cdc0c0; 0x18dcffc; 0x38ceffc; 0x30c7ae8; 0x10c70c0;
   0xc00c0; 0xc00c0; 0xc08c0; 0xc0fc0; 0xc07c0; 0xc01e0; 0xc00e0; 0xc0040;
   0x0; 0x0; 0x0; 0x0; 0x202000; 0x0; 0x0; 0x0;
   0xe0060; 0xe0060; 0xe0070; 0xe07f0; 0xe07f8; 0xe001c; 0xe001e; 0x3fff80c;
   0x7fffffc; 0x2aeaff8; 0xe00c0; 0xe00c0; 0x1f00c0; 0x1e0ffc; 0x1f0ffc; 0x3b0ae8;
   0x3380c0; 0x3380c0; 0x71c0c0; 0xe3ccc0; 0xc7efc0; 0x1cef7c0; 0x39c79e0; 0x3083ce0;
   0x3001820; 0x0; 0x0; 0x0; 0x0; 0x202000; 0x0; 0x0;
   0x0; 0x60; 0x2aaa060; 0x3ffe070; 0x3ffeff0; 0xeff8; 0xe018; 0xe01c;
   0xaae00c; 0x1ffeffc; 0x1ffeff8; 0x1c0e1c0; 0x180e0c0; 0x1c0e1c0; 0x180effc; 0x1c0fffc;
   0x1ffeae8; 0x1ffe1c0; 0xe0c0; 0xe1c0; 0xe8c0; 0xffc0; 0xefc0; 0x7ffe3e0;
   0x3ffe0e0; 0x40; 0x0; 0x0; 0x0; 0x0; 0x202000; 0x0;
   0x0; 0x0; 0xc0060; 0xc0060; 0xc0070; 0xc0ff0; 0x7fffff8; 0x3fff01c;
   0xc001e; 0xc000c; 0x18c6ffc; 0x18c6ff8; 0x18c60c0; 0x18c60c0; 0x18c60c0; 0x18c6ffc;
   0x18c6ffc; 0x1ffeae8; 0x1ffe0c0; 0x1aea0c0; 0x18c00c0; 0xc08c0; 0x70c0fc0; 0x30c07c0;
   0x75c01e0; 0x3fc00e0; 0x1f80020; 0x0; 0x0; 0x0; 0x0; 0x202000;
   0x0; 0x0; 0x0; 0xe0060; 0xe0060; 0xe0070; 0xe0ff0; 0x4e0ff8;
   0xeec018; 0x1cee01c; 0x18ee00c; 0x18e6ffc; 0x38e6ff8; 0x30e70c0; 0x30e30c0; 0x10e30c0;
   0x8e2ffc; 0x1ce0ffc; 0xce0ae8; 0xee00c0; 0x6000c0; 0x7000c0; 0x3808c0; 0x1e1fc0;
   0xf87c0; 0x7f1e0; 0xf8e0; 0x3060; 0x0; 0x0; 0x0; 0x0;
   0x202000; 0x0; 0x0; 0x0; 0xc0060; 0xc0060; 0xc0070; 0xc0ff0;
   0xc0ff8; 0xc0018; 0x3fff01c; 0x3ffe00c; 0x30c77fc; 0x30c27f8; 0x30c70c0; 0x30c20c0;
   0x30c70c0; 0x30c2ffc; 0x3fffffc; 0x3ffeae8; 0x30c70c0; 0x30c20c0; 0xc00c0; 0xc08c0;
   0xc0ec0; 0xc0fc0; 0xc03e0; 0xc00e0; 0xc0060; 0x0; 0x0; 0x0;
   0x0; 0x202000; 0x0; 0x0; 0x0; 0xc0060; 0xc0060; 0xc0070;
   0xc0ff0; 0xc0ff8; 0xc0018; 0x3fff01c; 0x3fff00c; 0x38c77fc; 0x38c37f8; 0x38e70c0;
   0x38e30c0; 0x39e70c0; 0x39e37fc; 0x3bf77fc; 0x3b332e8; 0x3f3f0c0; 0x3e3b0c0; 0x3e1f0c0;
   0x380b8c0; 0x3807ec0; 0x3803fc0; 0x1f073e0; 0x1f030e0; 0x1f07000; 0x0; 0x0;
   0x0; 0x0; 0x202000; 0x0; 0x0; 0x0; 0x70; 0x1ffe070;
   0x1ffe030; 0x1aaeff8; 0x1806ff8; 0x18c6018; 0x18c601c; 0x18c600e; 0x18c67fc; 0x18c67f8;
   0x18c60c0; 0x18e60c0; 0x18c60c0; 0x18e6ffc; 0x18e6ffc; 0x18e6ae8; 0x18660c0; 0x18660c0;
   0x11740c0; 0x3b0cc0; 0x738fc0; 0xe1c3c0; 0x3c0f1e0; 0x7807ce0; 0x3001820; 0x0;
   0x0; 0x0; 0x0; 0x202000; 0x0; 0x0; 0x0; 0x60;
   0x2aaa060; 0x3fff070; 0x3aab7f0; 0x3f037f8; 0x3b0301c; 0x3b1f01e; 0x3b1b00c; 0x39bb7fc;
   0x39b37f8; 0x39f30c0; 0x38e30c0; 0x38c30c0; 0x38e3ffc; 0x39e3ffc; 0x39e3ae8; 0x3b730c0;
   0x3b330c0; 0x3f3b0c0; 0x3a1b0c0; 0x381f6c0; 0x380bfc0; 0x3d033e0; 0x1f030e0; 0x1f03040;
   0x0; 0x0; 0x0; 0x0; 0x202000; 0x0; 0x0; 0x0;
   0x1c00060; 0x3fe0060; 0x1ffe070; 0x3e7f8; 0x67f8; 0x601c; 0x601e; 0x600c;
   0x3ffe7fc; 0x3ffe3f8; 0x181e0c0; 0x18360c0; 0x1c360c0; 0xc367fc; 0xc777fc; 0xe662e8;
   0x6e70c0; 0x7c70c0; 0x3c74c0; 0x383ec0; 0x7c37c0; 0xee3be0; 0x3e799f0; 0x383dc60;
   0x101d820; 0x0; 0x0; 0x0; 0x0; 0x202000; 0x0; 0x0;
   0x0; 0xc0060; 0xe0060; 0xe0070; 0x1f07f0; 0x3b07f8; 0x33801c; 0x71c01e;
   0xe2e00c; 0x1c777fc; 0x38e3ff8; 0x31c30c0; 0x1800c0; 0x800c0; 0x1fffffc; 0xfffffc;
   0xe002e8; 0x6000c0; 0x6000c0; 0x7000c0; 0x3808c0; 0x380fc0; 0x180fe0; 0x1c03e0;
   0xe00e0; 0xc0060; 0x0; 0x0; 0x0; 0x0; 0x202000; 0x0;
   0x0; 0x0; 0x60; 0x1ffc060; 0x1ffc070; 0x1aacff0; 0x181dff8; 0x180c018;
   0x181c01c; 0x180c00c; 0x1ffcffc; 0x1ffcff8; 0x181c0c0; 0x180c0c0; 0x181c0c0; 0x180cffc;
   0x1ffdffc; 0x1ffcae8; 0x181c0c0; 0x180c0c0; 0x180c0c0; 0x180e8c0; 0x1806fc0; 0x18067e0;
   0x1f871f0; 0x1f038e0; 0x701020; 0x0; 0x0; 0x0; 0x0; 0x202000;
   0x0; 0x0; 0x0; 0x10060; 0x30060; 0x38070; 0x38ff0; 0x1559ff8;
   0x3ff801c; 0x3ffc01e; 0x380c00c; 0x18ceffc; 0x18c6ff8; 0x1cc71c0; 0xcc20c0; 0xc01c0;
   0xe0ffc; 0x1e1ffc; 0x1e0ae8; 0x1e01c0; 0x3f00c0; 0x3701c0; 0x7388c0; 0x61dfc0;
   0xe1cfc0; 0x1c0f3e0; 0x38078e0; 0x1003000; 0x0; 0x0; 0x0; 0x0;
   0x202000; 0x0; 0x0; 0x0; 0x30060; 0x38060; 0x38070; 0x18ff0;
   0x3ffcff8; 0x3ffc018; 0x355e01e; 0x380e00c; 0x30077fc; 0x381a7f8; 0x38780c0; 0x38f00c0;
   0x39e00c0; 0x38c0ffc; 0x3c00ffc; 0x3b00ae8; 0x1fc00c0; 0x18f00c0; 0x187c0c0; 0x181eec0;
   0x18067c0; 0x18003e0; 0x1d401f0; 0xfe0060; 0x7c0020; 0x0; 0x0; 0x0;
   0x0; 0x202000; 0x0; 0x0; 0x0; 0xe0060; 0xe0060; 0x70070;
   0x1ffeff0; 0x1ffeff8; 0xc0e01c; 0x1c0e01e; 0xc0e00c; 0xc0effc; 0xf8eff8; 0x78e0c0;
   0xe0c0; 0xe0c0; 0x3ffeffc; 0x3ffeffc; 0x3800ae8; 0x30000c0; 0x3aaa0c0; 0x3bff0c0;
   0x3aaa8c0; 0x3800fc0; 0x3800fc0; 0x1c403f0; 0x1f800e0; 0xf80020; 0x0; 0x0].
Definition hanzi_data_458 : list N :=
  [0x0; 0x0; 0x202000; 0x0; 0x0; 0x0; 0x38060; 0x38060;
   0x1c070; 0x1cff0; 0x3ffcff8; 0x3ffe018; 0x3d5601c; 0x380700c; 0x3833ffc; 0x3833ff8;
   0x18390c0; 0x38180c0; 0x18dc0c0; 0x198cffc; 0x198cffc; 0x198eae8; 0x1bff0c0; 0x1bff0c0;
   0x1f070c0; 0x18008c0; 0x1c00ec0; 0x1c00fc0; 0x1d403e0; 0xfc00e0; 0x7c0040; 0x0;
   0x0; 0x0; 0x0; 0x202000; 0x0; 0x0; 0x0; 0x30060;
   0x30060; 0x70070; 0xe0ff0; 0x60ff8; 0x3fff81c; 0x3fff81e; 0xc; 0x7fc;
   0x2aa7f8; 0x7fe0c0; 0x3ae0c0; 0x70e0c0; 0x30e7fc; 0x70e7fc; 0x30e2e8; 0x70e0c0;
   0x30e0c0; 0x7060c0; 0x63066c0; 0x67077c0; 0x2303be0; 0x7703de0; 0x3e01c60; 0x1e00c20;
   0x0; 0x0; 0x0; 0x0; 0x202000; 0x0; 0x0; 0x0;
   0x60060; 0xe0060; 0xc0070; 0xc07f8; 0x15557f8; 0x3fff01c; 0x3fff01e; 0x3000c;
   0x307fc; 0x303f8; 0x300c0; 0x1ff80c0; 0x1ff80c0; 0x18387fc; 0x1c187fc; 0x18182e8;
   0x1c180c0; 0x1c180c0; 0x1c1c4c0; 0xc0cec0; 0x1c0e7c0; 0xc063e0; 0xf471f0; 0xfc3860;
   0x7c1020; 0x0; 0x0; 0x0; 0x0; 0x202000; 0x0; 0x0;
   0x0; 0xc0060; 0xc0060; 0xc0070; 0xc0ff0; 0xc0ff8; 0x10c0018; 0x38cc01c;
   0x38cc00c; 0x18ce7fc; 0x1cc67f8; 0xcc60c0; 0xce60c0; 0x6e70c0; 0xe2ffc; 0x1e0ffc;
   0x1e0ae8; 0x1f00c0; 0x3f00c0; 0x3300c0; 0x3388c0; 0x71cfc0; 0xe0e7c0; 0x3c0f1e0;
   0x38038e0; 0x3001020; 0x0; 0x0; 0x0; 0x0; 0x202000; 0x0;
   0x0; 0x0; 0xe00060; 0xe00060; 0xe10070; 0xe38ff0; 0xe71ff8; 0xee0018;
   0xfc001e; 0xe0000c; 0xe00ffc; 0xe0cff8; 0xe1c1c0; 0xe380c0; 0xe701c0; 0xe20ffc;
   0xe01ffc; 0x3e00ae8; 0x7ff01c0; 0xffe0c0; 0xe1e1c0; 0xe000c0; 0xe00dc0; 0xe00fc0;
   0xe007c0; 0xe000e0; 0xe00040; 0x0; 0x0; 0x0; 0x0; 0x202000;
   0x0; 0x0; 0x0; 0x70; 0xaaa070; 0x1fff030; 0x1aeaff8; 0x1870ff8;
   0x187001c; 0x1c7001c; 0x183000e; 0x1c707fc; 0x18307f8; 0x1c300c0; 0xfff0c0; 0x1fff0c0;
   0xc38ffc; 0xc38ffc; 0xc38ae8; 0xc180c0; 0xc180c0; 0xc180c0; 0xe184c0; 0xe1c7c0;
   0xe1c3e0; 0x7fffde0; 0x3fffce0; 0x20; 0x0; 0x0; 0x0; 0x0;
   0x202000; 0x0; 0x0; 0x0; 0x70; 0x70; 0x3fff070; 0x3ffeff8;
   0x38c7ff8; 0x38c601c; 0x38c701c; 0x38c600e; 0x38c77fc; 0x38c67f8; 0x38c70c0; 0x38c60c0;
   0x3fff0c0; 0x3ffeffc; 0x3807ffc; 0x3806ae8; 0x70c0; 0x60c0; 0x10070c0; 0x6006cc0;
   0x7007fc0; 0x30063c0; 0x3ffe1e0; 0x3ffe0e0; 0x20; 0x0; 0x0; 0x0;
   0x0; 0x202000; 0x0; 0x0; 0x0; 0x60; 0x60; 0x3fff070;
   0x3ffeff8; 0x1c0ff8; 0xc001c; 0x1c001e; 0xc000c; 0x1c07fc; 0xc07f8; 0x1c00c0;
   0x3ffe0c0; 0x3ffe0c0; 0xc0ffc; 0x5c0ffc; 0xec0ae8; 0xdc00c0; 0x18c00c0; 0x19c00c0;
   0x38c0cc0; 0x1c0fc0; 0xc07e0; 0x7fff1f0; 0x3fff0e0; 0x20; 0x0; 0x0;
   0x0; 0x0; 0x202000; 0x0; 0x0; 0x0; 0x170060; 0x3b0060;
   0xf70070; 0xc30ff0; 0x70ff8; 0x1fb0018; 0x1fff01c; 0xfe00c; 0x757fc; 0x607f8;
   0x3f600c0; 0x3fe00c0; 0x7ff0c0; 0x106fffc; 0x38e0ffc; 0x18e0ae8; 0x1cc00c0; 0xec00c0;
   0x7c00c0; 0x3c0cc0; 0x31f0fc0; 0x23f87c0; 0x371f1e0; 0x3e070e0; 0x1c00000; 0x0;
   0x0; 0x0; 0x0; 0x202000; 0x0; 0x0; 0x0; 0x60;
   0x60; 0x3fff070; 0x3fffff0; 0x1c0ff8; 0x180018; 0x1c001c; 0x18000c; 0x1c07fc;
   0x18e7f8; 0x1ce0c0; 0x3f8e0c0; 0x3fce0c0; 0x18effc; 0x1ceffc; 0x18eae8; 0x1ce0c0;
   0x18e0c0; 0x1ce0c0; 0x18e8c0; 0x1ceec0; 0x18efc0; 0x7fffbe0; 0x3fff8e0; 0x60;
   0x0; 0x0; 0x0; 0x0; 0x202000; 0x0; 0x0; 0x0;
   0xc0c060; 0xc0c060; 0xc0c070; 0xc0cff0; 0xc0cff8; 0x3fff018; 0x7fff01c; 0xc0c00c;
   0xc0c7fc; 0xc0c7f8; 0xc0c0c0; 0xc0c0c0; 0xc0c0c0; 0xffcffc; 0xffcffc; 0xc0cae8;
   0xc0c0c0; 0xc0c0c0; 0xc0c0c0; 0xc0c8c0; 0xc0cec0; 0xffcfc0; 0xffc3e0; 0xc0c0e0;
   0xc0c040; 0x0; 0x0; 0x0; 0x0; 0x202000; 0x0; 0x0;
   0x0; 0xc0060; 0xc0060; 0xc0070; 0xc0ff0; 0xc0ff8; 0xc0018; 0x7fff01c;
   0x3fff00c; 0xc07fc; 0xc07f8; 0xc00c0; 0xc00c0; 0xc00c0; 0xaeaffc; 0x1ffeffc;
   0x1aaeae8; 0x18060c0; 0x18060c0; 0x18060c0; 0x18068c0; 0x1806ec0; 0x1ffefc0; 0x1ffe3e0;
   0x1aae0e0; 0x1806040; 0x0; 0x0; 0x0; 0x0; 0x202000; 0x0;
   0x0; 0x0; 0xc0070; 0xc0070; 0xc0030; 0xc0ff8; 0xc0ff8; 0x2aea2bc;
   0x3fff01c; 0x3fff00e; 0x3f07fc; 0x3f07f8; 0x3d80c0; 0x6d80c0; 0x6dc0c0; 0xeccffc;
   0xcccffc; 0xcce2e8; 0x1cc70c0; 0x38c30c0; 0x7fff8c0; 0x2ffdcc0; 0x5d57c0; 0xc03e0;
   0xc01e0; 0xc0060; 0xc0020; 0x0; 0x0; 0x0; 0x0; 0x202000;
   0x0; 0x0; 0x0; 0x60; 0x60; 0x7fff070; 0x3fffff0; 0x1c00ff8;
   0xc00018; 0x1c0001e; 0xcfe00c; 0x1cfe7fc; 0xcc67f8; 0x1cc60c0; 0xcc60c0; 0x1cc60c0;
   0xcc6ffc; 0x1cc6ffc; 0xceeae8; 0x1cfe0c0; 0xcae0c0; 0x1c060c0; 0xc004c0; 0x1c007c0;
   0xc003c0; 0x1d401e0; 0xfc00e0; 0x7c0020; 0x0; 0x0; 0x0; 0x0;
   0x202000; 0x0; 0x0; 0x0; 0x60; 0x2aaa060; 0x3ffe070; 0x3ffeff0;
   0x6ff8; 0x6018; 0x601c; 0x1fe600c; 0x1fe67fc; 0x18667f8; 0x1c660c0; 0x18660c0;
   0x1c660c0; 0x1866ffc; 0x1c66ffc; 0x1866ae8; 0x1fe60c0; 0x1fe60c0; 0x60c0; 0x68c0;
   0x6ec0; 0x6fc0; 0x7ffe3e0; 0x3ffe0e0; 0x60; 0x0; 0x0; 0x0;
   0x0; 0x202000; 0x0; 0x0; 0x0; 0x60070; 0x60070; 0x70070;
   0x307f8; 0x7fffff8; 0x3fff818; 0x1801c; 0xd800e; 0x1dc7fc; 0xce7f8; 0x3fff0c0].
Definition hanzi_data_459 : list N :=
  [0x3fff0c0; 0x3ddfcc0; 0x38cfffc; 0x39ceffc; 0x38ce2e8; 0x39ce0c0; 0x38ce0c0; 0x39ce0c0;
   0x3ace4c0; 0x1fce7c0; 0xaca3e0; 0x1c01e0; 0xc0060; 0x1c0020; 0x0; 0x0;
   0x0; 0x0; 0x202000; 0x0; 0x0; 0x0; 0x238060; 0x338060;
   0xf38070; 0xc38ff0; 0x1c38ff8; 0x83801c; 0x3fff01e; 0x3fff00c; 0x187fc; 0x387f8;
   0x15580c0; 0x3ff80c0; 0x1ff80c0; 0x1838ffc; 0x1c7cffc; 0xc6cae8; 0xe6c0c0; 0x6ec0c0;
   0x7ce0c0; 0x3868c0; 0x7c7ec0; 0xfe3fc0; 0x1ef3be0; 0x3839ce0; 0x1010860; 0x0;
   0x0; 0x0; 0x0; 0x202000; 0x0; 0x0; 0x0; 0x5c0060;
   0xec0060; 0x1dc0070; 0x1880ff0; 0x19c0ff8; 0x2baa018; 0x7fff01e; 0x2bae00c; 0x1877fc;
   0x39867f8; 0x19870c0; 0x19860c0; 0x19870c0; 0x1986ffc; 0x1d87ffc; 0xf862e8; 0xf070c0;
   0x7060c0; 0x7370c0; 0x233e0c0; 0x779f7c0; 0x27cffc0; 0x3ee71f0; 0x3c710e0; 0x1830020;
   0x0; 0x0; 0x0; 0x0; 0x202000; 0x0; 0x0; 0x0;
   0xe0060; 0xe0060; 0xe0070; 0xe0ff0; 0xe1ff8; 0x2ae0018; 0x7fe001c; 0x3fe000c;
   0xe0ffc; 0xe0ff8; 0xe00c0; 0xe00c0; 0xe00c0; 0x1ffeffc; 0x1ffeffc; 0x1806ae8;
   0x18060c0; 0x18060c0; 0x18060c0; 0x18068c0; 0x1806ec0; 0x1aaefc0; 0x1ffe3e0; 0x1ffe0e0;
   0x1806060; 0x0; 0x0; 0x0; 0x0; 0x202000; 0x0; 0x0;
   0x0; 0x60; 0x1ffe060; 0x1ffe070; 0x1aaeff0; 0x1806ff8; 0x1806018; 0x180601c;
   0x180600c; 0x1ffe7fc; 0x1ffe7f8; 0x18061c0; 0x18060c0; 0x18061c0; 0x1806ffc; 0x1ffeffc;
   0x1ffeae8; 0x18061c0; 0x18060c0; 0x18061c0; 0x18068c0; 0x1d56fc0; 0x1ffefc0; 0x1ffe3e0;
   0x18060e0; 0x1806040; 0x0; 0x0; 0x0; 0x0; 0x202000; 0x0;
   0x0; 0x0; 0x60; 0xaaa060; 0x1ffe070; 0x1ffeff0; 0x1c0eff8; 0x180e018;
   0x1c0e01c; 0x180e00c; 0x1c0e7fc; 0x1ffe7f8; 0x1ffe1c0; 0x180e0c0; 0x1c0e1c0; 0x180effc;
   0x1c0effc; 0x180eae8; 0x1ffe1c0; 0x1ffe0c0; 0x1c0; 0x8c0; 0xfc0; 0xfc0;
   0x7fff3e0; 0x3fff0e0; 0x40; 0x0; 0x0; 0x0; 0x0; 0x202000;
   0x0; 0x0; 0x0; 0x60; 0x3ffe060; 0x3fff070; 0x38c6ff0; 0x38c7ff8;
   0x38c6018; 0x38c701c; 0x3aee00c; 0x3fff7fc; 0x3ffe7f8; 0x38c70c0; 0x38c60c0; 0x38c70c0;
   0x38c6ffc; 0x3fffffc; 0x3ffeae8; 0x38c70c0; 0x38c60c0; 0xc00c0; 0xc0cc0; 0xc0fc0;
   0xc07c0; 0xc01e0; 0xc00e0; 0xc0000; 0x0; 0x0; 0x0; 0x0;
   0x202000; 0x0; 0x0; 0x0; 0x60; 0x2aaa060; 0x3fff070; 0x3ffeff0;
   0x38c7ff8; 0x38c6018; 0x38c701c; 0x38c600c; 0x38c77fc; 0x38c67f8; 0x38c70c0; 0x3ffe0c0;
   0x3fff0c0; 0x3aeeffc; 0x38c7ffc; 0x38c6ae8; 0x38c70c0; 0x38c60c0; 0x38c70c0; 0x38c68c0;
   0x3dd7fc0; 0x3ffe7c0; 0x3fff1e0; 0x38060e0; 0x1007020; 0x0; 0x0; 0x0;
   0x0; 0x202000; 0x0; 0x0; 0x0; 0xc0060; 0xc0060; 0xc0070;
   0xc0ff0; 0xc0ff8; 0xc0018; 0x3fff01c; 0x3fff00c; 0x38c77fc; 0x38c37f8; 0x38c70c0;
   0x38c30c0; 0x38c70c0; 0x3fffffc; 0x3fffffc; 0x38c32e8; 0x38c70c0; 0x38c30c0; 0x38c70c0;
   0x38c30c0; 0x3dd7fc0; 0x3fff7c0; 0x3fff1e0; 0x38030e0; 0x1007000; 0x0; 0x0;
   0x0; 0x0; 0x202000; 0x0; 0x0; 0x0; 0x1c0060; 0xcc060;
   0x1cc070; 0xccff0; 0x1ccff8; 0x3ffe01c; 0x3ffe01e; 0xc600c; 0x1c7ffc; 0xc3ff8;
   0x1c21c0; 0xc00c0; 0x3fff1c0; 0x3fffffc; 0x1c0ffc; 0x1e0ae8; 0x1e01c0; 0x3e00c0;
   0x3701c0; 0x7388c0; 0xe3cfc0; 0xe1cfc0; 0x3c0f3e0; 0x38078e0; 0x1003040; 0x0;
   0x0; 0x0; 0x0; 0x202000; 0x0; 0x0; 0x0; 0xe0070;
   0xe0070; 0x60070; 0x60ff0; 0x1574ff8; 0x1ffeab8; 0x1ffe01c; 0x180600e; 0x18067fc;
   0x18067f8; 0x18061c0; 0x18060c0; 0x18061c0; 0x1ffeae8; 0x1ffeffc; 0x1806ffc; 0x18061c0;
   0x18060c0; 0x18061c0; 0x1806cc0; 0x1806fc0; 0x1ffe7c0; 0x1ffe1e0; 0x18060e0; 0x1806040;
   0x0; 0x0; 0x0; 0x0; 0x202000; 0x0; 0x0; 0x0;
   0xc0060; 0xc0060; 0x1e0070; 0x1e0ff0; 0x3f0ff8; 0x338018; 0x71c01c; 0xe0e00c;
   0x1c7f7fc; 0x38e7ff8; 0x31c39c0; 0x800c0; 0xd541c0; 0x1ffeffc; 0x1ffeffc; 0xe00ae8;
   0x7001c0; 0x7000c0; 0x3981c0; 0x1b88c0; 0x1f0fc0; 0x1e0fc0; 0x3c03e0; 0x7000e0;
   0x300040; 0x0; 0x0; 0x0; 0x0; 0x202000; 0x0; 0x0;
   0x0; 0x800070; 0x1fa0070; 0x1ffe070; 0xbe7f8; 0x67f8; 0xc6018; 0xc701c;
   0xc200e; 0xc77fc; 0xc37f8; 0x3fff8c0; 0x3fff0c0; 0xc10c0; 0xc07fc; 0xc07fc;
   0xece2e8; 0x1cc60c0; 0x1cc60c0; 0x18c70c0; 0x38c34c0; 0x30c3fc0; 0x30c1be0; 0x10c11e0;
   0xf8060; 0x78020; 0x0; 0x0; 0x0; 0x0; 0x202000; 0x0;
   0x0; 0x0; 0x60; 0x2a8060; 0x7fc070; 0x6acff0; 0x61cff8; 0x60c01c;
   0x61c01e; 0x60c00c; 0x60c7fc; 0x60e7f8; 0x3e070c0; 0x3c038c0; 0x30c0; 0xffeffc;
   0x1ffeffc; 0xc0eae8; 0x1c0e0c0; 0xc0e0c0; 0x1c0e0c0; 0xc0e8c0; 0x1c0eec0; 0xffefc0;
   0x1ffe3e0; 0xeae0e0; 0x1c0e060; 0x0; 0x0; 0x0; 0x0; 0x202000;
   0x0; 0x0; 0x0; 0x10070; 0x38030; 0x151e030; 0x3f87bf8; 0x3f93ff8;
   0x31b381c; 0x31b381c; 0x31b380c; 0x31b3bfc; 0x31b3bf8; 0x31b38e0; 0x31b38e0; 0x31b38e0;
   0x31b3bfc; 0x31b3ffc; 0x31b3ae8; 0x31bf8e0; 0x319f8e0; 0x3f9f8e0; 0x1f98ae0; 0x19c7e0;
   0x18e3e0; 0x1871f0; 0x183870; 0x181800; 0x0; 0x0; 0x0; 0x0;
   0x202000; 0x0; 0x0; 0x0; 0x70060; 0xe0060; 0xe0070; 0xc07f0;
   0x7fff7f8; 0x3fff01c; 0xc001c; 0xc000c; 0xc07fc; 0x3ffe7f8; 0x3fff0c0; 0x38c60c0;
   0x38c70c0; 0x38c67fc; 0x38c77fc; 0x38c62e8; 0x38c70c0; 0x38c60c0; 0x3cc70c0; 0x3ec64c0;
   0x1cc77c0; 0xc07e0; 0xc01f0; 0xc00e0; 0xc0020; 0x0; 0x0; 0x0].
Definition hanzi_data_460 : list N :=
  [0x0; 0x202000; 0x0; 0x0; 0x0; 0x40060; 0xe0060; 0x1c0070;
   0x180ff0; 0x7fffff8; 0x3fff01c; 0x7fff01e; 0x6000c; 0x4707fc; 0xc307f8; 0xe380c0;
   0xe180c0; 0x7dc0c0; 0x3feffc; 0x1feffc; 0x1c0ae8; 0x4e00c0; 0x6600c0; 0xe700c0;
   0xc388c0; 0x1c1cfc0; 0x3ffe7c0; 0x3fff1e0; 0x300e0e0; 0x1000020; 0x0; 0x0;
   0x0; 0x0; 0x202000; 0x0; 0x0; 0x0; 0xc0060; 0xc0060;
   0x1c0070; 0x1807f0; 0x3fff7f8; 0x3fff01c; 0x300301e; 0x300300c; 0x30177fc; 0x300f7f8;
   0x1c0c0; 0xc0c0c0; 0x1f1c0c0; 0xf8cffc; 0x1fcffc; 0x7cae8; 0x1c0c0; 0xc0c0;
   0x101c0c0; 0x700c8c0; 0x701cec0; 0x300cfc0; 0x355c3e0; 0x3ff80e0; 0x1ff8060; 0x0;
   0x0; 0x0; 0x0; 0x202000; 0x0; 0x0; 0x0; 0x10070;
   0x838070; 0x1cf0070; 0x1de0ff8; 0x1dc0ff8; 0xc0001c; 0xe3001c; 0xe3000c; 0x7307fc;
   0xf367f8; 0x1f370c0; 0x1bb20c0; 0x19b70c0; 0x39f3ffc; 0x30f3ffc; 0x30f3ae8; 0x70738c0;
   0x300c0; 0x8380c0; 0x183c6c0; 0x183e7c0; 0x18373c0; 0x1ff79e0; 0xff1860; 0x540020;
   0x0; 0x0; 0x0; 0x0; 0x202000; 0x0; 0x0; 0x0;
   0x60; 0x1fff060; 0x1fff070; 0x18037f0; 0x18077f8; 0x180301c; 0x180701e; 0x1fff00c;
   0x1fff7fc; 0x37f8; 0x770c0; 0x8330c0; 0x1c770c0; 0xe337fc; 0x7f77fc; 0x1f32e8;
   0x730c0; 0x330c0; 0x730c0; 0x20338c0; 0x7073fc0; 0x3031fe0; 0x3ff1df0; 0x3fe1c60;
   0x1541820; 0x0; 0x0; 0x0; 0x0; 0x202000; 0x0; 0x0;
   0x0; 0xc0060; 0xc0060; 0xc0070; 0xc0ff0; 0x3fffff8; 0x3ffe018; 0x30c701c;
   0x18c200c; 0x18c77fc; 0x18c27f8; 0x1fff0c0; 0x1ffe0c0; 0x1fff0c0; 0xc1b7fc; 0xc1f7fc;
   0xe3b2e8; 0x6730c0; 0x7630c0; 0x3e30c0; 0x1c34c0; 0x3e1fc0; 0x7f1be0; 0x1e7ddf0;
   0x3c1ec60; 0x1004c20; 0x0; 0x0; 0x0; 0x0; 0x202000; 0x0;
   0x0; 0x0; 0x60; 0xaaa060; 0x3fff070; 0x1fff7f0; 0x1c1c7f8; 0xe18018;
   0x73801c; 0x3f000c; 0x1f07fc; 0x7f87f8; 0x1f1f0c0; 0x3caf8c0; 0x30e10c0; 0xe07fc;
   0x1fff7fc; 0x1ffe2e8; 0xe00c0; 0xe00c0; 0x3fff8c0; 0x3fff8c0; 0x3ffffc0; 0xe0fc0;
   0xe01f0; 0xe00e0; 0xe0020; 0x0; 0x0; 0x0; 0x0; 0x202000;
   0x0; 0x0; 0x0; 0x1800060; 0x187f820; 0x1b7f830; 0x1b3bbf8; 0x1b333f8;
   0x1b332bc; 0x1b3300c; 0x1b3300c; 0x1b333fc; 0x1b333f8; 0x1bffc60; 0x1bff860; 0x1b33060;
   0x1b333fc; 0x1b337fc; 0x1b332e8; 0x1b33060; 0x1b33060; 0x1833060; 0x1831860; 0x1831f60;
   0x1831be0; 0x1d31df0; 0x1f30e60; 0x730000; 0x0; 0x0; 0x0; 0x0;
   0x202000; 0x0; 0x0; 0x0; 0x30060; 0x1030060; 0x3830070; 0x1bff7f0;
   0x1fff7f8; 0xe302b8; 0x73001c; 0x33000c; 0x7fffffc; 0x3fffbf8; 0xf00e0; 0x780e0;
   0x3ffc0e0; 0x3ffe7fc; 0x1fffc; 0xfee8; 0xdce0; 0xffc0e0; 0xffe0e0; 0xc000e0;
   0xc007e0; 0xe007e0; 0xe001f0; 0x7f00e0; 0x7f0000; 0x0; 0x0; 0x0;
   0x0; 0x202000; 0x0; 0x0; 0x0; 0x70070; 0x3860070; 0x3870070;
   0x1aea7f8; 0x1ffe7f8; 0xffe01c; 0xe7001c; 0x76000c; 0x7707fc; 0x3fff7f8; 0x7fff0c0;
   0xe00c0; 0x700c0; 0x8387fc; 0x1c3c7fc; 0xf3e2e8; 0x7ff8c0; 0xfb0c0; 0x790c0;
   0x10384c0; 0x7038fc0; 0x30383e0; 0x35701e0; 0x3ff0060; 0x1ff0020; 0x0; 0x0;
   0x0; 0x0; 0x202000; 0x0; 0x0; 0x0; 0x60; 0x60;
   0x3fff070; 0x3fffff0; 0xc0cff8; 0xc0c018; 0xc0c01e; 0xffc00c; 0xffc7fc; 0xc0c7f8;
   0xc0c1c0; 0xc0c0c0; 0xc0c1c0; 0xffcffc; 0xffcffc; 0xc0cae8; 0xc0c1c0; 0xc0c0c0;
   0x7f4c1c0; 0x3fffcc0; 0xffffc0; 0xc033c0; 0xc001e0; 0xc000e0; 0xc00040; 0x0;
   0x0; 0x0; 0x0; 0x202000; 0x0; 0x0; 0x0; 0x60060;
   0x60060; 0x70070; 0x30ff0; 0x7fffff8; 0x3fff018; 0x1801c; 0x1800c; 0x155c7fc;
   0x1ffe7f8; 0x1fff0c0; 0x180f8c0; 0x1d5f8c0; 0x1ffdffc; 0x1ffcffc; 0x180c0e8; 0x1c1c0c0;
   0x1ffc0c0; 0x1ffc0c0; 0x180c8c0; 0x1c1cec0; 0x180cfc0; 0x1c1c3e0; 0x1f0c0e0; 0xf1c020;
   0x0; 0x0; 0x0; 0x0; 0x202000; 0x0; 0x0; 0x0;
   0x580060; 0xd80060; 0x1980070; 0x31807f0; 0x15d57f8; 0x3fff2b8; 0x3fff01c; 0x18300e;
   0x11837fc; 0x33833f8; 0x33ff0e0; 0x3bff0e0; 0x1b730e0; 0x1b230e0; 0x1f737fc; 0xf237fc;
   0xf730e0; 0x7338e0; 0x73f8e0; 0x27bfae0; 0x6795fe0; 0x26c1be0; 0x3ce1df0; 0x3c70c60;
   0x1830420; 0x0; 0x0; 0x0; 0x0; 0x202000; 0x0; 0x0;
   0x0; 0xe0060; 0xe0060; 0xe0070; 0xe07f0; 0x1fff7f8; 0x1fff018; 0x4e401c;
   0xce600c; 0xce67fc; 0xeee3f8; 0x6ec0c0; 0x6ec0c0; 0x4e40c0; 0x3fffffc; 0x3fffffc;
   0xe02e8; 0x1f00c0; 0x1b00c0; 0x3b80c0; 0x3386c0; 0x71c7c0; 0xe0e3c0; 0x3c079e0;
   0x3803c60; 0x1001820; 0x0; 0x0; 0x0; 0x0; 0x202000; 0x0;
   0x0; 0x0; 0x70; 0x3faa830; 0x3fffc30; 0x31babf8; 0x3199bf8; 0x199981c;
   0x199980e; 0x199980c; 0x1d99bfc; 0xd98bf8; 0xdffc60; 0x19ffc60; 0x199e060; 0x399e3fc;
   0x319e7fc; 0x319a2e8; 0x319b060; 0x319b060; 0x3199860; 0x3f99860; 0x1d99d60; 0x198fe0;
   0x19d5f0; 0x19e030; 0x18e000; 0x0; 0x0; 0x0; 0x0; 0x202000;
   0x0; 0x0; 0x0; 0x1c070; 0x18030; 0x18030; 0x1ff87f8; 0x1fff7f8;
   0x83f00c; 0x1c3000c; 0xe7000c; 0x7e03fc; 0x31e03f8; 0x31fc0e0; 0x3fbf0e0; 0x1f070e0;
   0x8003fc; 0x3fffffc; 0x3fffae8; 0x17dd0e0; 0x3980e0; 0x39c0e0; 0x39c0e0; 0x739c7e0;
   0x238e3e0; 0x77871f0; 0x3f03c70; 0x1f01800; 0x0; 0x0; 0x0; 0x0;
   0x202000; 0x0; 0x0; 0x0; 0x60; 0x2aaa060; 0x3fff070; 0x3fffff8;
   0x70ff8; 0x630abc; 0xe3801e; 0xc1800e; 0x1f5c7fc; 0x3fff7f8; 0x75ff0c0; 0x30800c0].
Definition hanzi_data_461 : list N :=
  [0xc00c0; 0xc0ae8; 0xc0ffc; 0x3ffeae8; 0x3ffe0c0; 0xaea0c0; 0xc00c0; 0xc0cc0;
   0xc0fc0; 0xc03e0; 0x7fff9f0; 0x3fff860; 0x20; 0x0; 0x0; 0x0;
   0x0; 0x202000; 0x0; 0x0; 0x0; 0xc0060; 0xc0060; 0x18c7070;
   0x18c6ff0; 0x1cc6ff8; 0xcc6018; 0xcce01c; 0xccc00c; 0x6cc7fc; 0xc07f8; 0x1fff0c0;
   0x1fff0c0; 0x18000c0; 0x1800ffc; 0x1800ffc; 0x1aaaae8; 0x1fff0c0; 0x1aaa0c0; 0x18000c0;
   0x18000c0; 0x18007c0; 0x1fff7c0; 0x1fff3e0; 0x18000e0; 0x1800000; 0x0; 0x0;
   0x0; 0x0; 0x202000; 0x0; 0x0; 0x0; 0x60; 0x3fff060;
   0x3fff070; 0x3aabff0; 0x3007ff8; 0x300301c; 0x37ff01e; 0x33fb00c; 0x30077fc; 0x30037f8;
   0x33f70c0; 0x33f30c0; 0x33370c0; 0x33337fc; 0x33377fc; 0x33332e8; 0x33770c0; 0x33f30c0;
   0x33f70c0; 0x30334c0; 0x30077c0; 0x30033e0; 0x35071e0; 0x3e03060; 0x1f07020; 0x0;
   0x0; 0x0; 0x0; 0x202000; 0x0; 0x0; 0x0; 0x60;
   0xffe060; 0x1ffe070; 0xc067f0; 0x1c067f8; 0xc06018; 0x1c0601c; 0xc0600c; 0x1ffe7fc;
   0xffe7f8; 0x1ffe0c0; 0xc0; 0xc0; 0xaaa7fc; 0x1fff7fc; 0x1fff2e8; 0x18030c0;
   0x18030c0; 0x18030c0; 0x18036c0; 0x18037c0; 0x1fff3c0; 0x1fff1e0; 0x1aab0e0; 0x1803020;
   0x0; 0x0; 0x0; 0x0; 0x202000; 0x0; 0x0; 0x0;
   0x60; 0x1ffe060; 0x1ffe070; 0x1eaeff0; 0x1c0eff8; 0x1c0e018; 0x1c0e01c; 0x1eae00c;
   0x1ffe7fc; 0x1ffe7f8; 0xc00c0; 0xc00c0; 0x3fff0c0; 0x3ffeffc; 0x30c7ffc; 0x30c6ae8;
   0x30c70c0; 0x30c60c0; 0x30c70c0; 0x30c68c0; 0x3ec7fc0; 0x3ec6fc0; 0x1cc73e0; 0xc00e0;
   0xc0020; 0x0; 0x0; 0x0; 0x0; 0x202000; 0x0; 0x0;
   0x0; 0x60; 0x3fff060; 0x3fff070; 0x3aab7f8; 0x38c37f8; 0x38c301c; 0x38c301e;
   0x38c300c; 0x3dd77fc; 0x3fff3f8; 0x3d570c0; 0x38630c0; 0x38e30c0; 0x38e37fc; 0x39e37fc;
   0x39a32e8; 0x3b330c0; 0x3b3b0c0; 0x3e1f0c0; 0x3e0f0c0; 0x38037c0; 0x3aab7e0; 0x3fff1f0;
   0x3aab070; 0x3803020; 0x0; 0x0; 0x0; 0x0; 0x202000; 0x0;
   0x0; 0x0; 0xc0060; 0x38c3060; 0x38c3070; 0x38c37f8; 0x38c37f8; 0x38c301c;
   0x3fff00e; 0x3fff00e; 0x7fc; 0x7f8; 0x3fff0c0; 0x3fff0c0; 0x3d550c0; 0x3800ffc;
   0x3800ffc; 0x3aaa2e8; 0x3fff0c0; 0x3fff0c0; 0x70c0; 0x70c0; 0x70077c0; 0x30077e0;
   0x3fff1f0; 0x3ffe0e0; 0x550020; 0x0; 0x0; 0x0; 0x0; 0x202000;
   0x0; 0x0; 0x0; 0x3000070; 0x3000030; 0x337fc30; 0x332aff8; 0x3370ff8;
   0x3326c1c; 0x3376c0c; 0x3326c0c; 0x3376dfc; 0x3326df8; 0x3376c60; 0x3326c60; 0x3376c60;
   0x3326ffc; 0x3376ffc; 0x3326ee8; 0x3376c60; 0x3326c60; 0x3377c60; 0x300b060; 0x301f160;
   0x3039be0; 0x3071cf0; 0x3f60f30; 0x1f00610; 0x0; 0x0; 0x0; 0x0;
   0x202000; 0x0; 0x0; 0x0; 0xc0060; 0xcc060; 0xdc070; 0xccff0;
   0xcdff8; 0x1ffe018; 0x1ffe01c; 0xc600c; 0xc77fc; 0xc37f8; 0xc30c0; 0xc00c0;
   0x3fff0c0; 0x3fffffc; 0x3f0ffc; 0x3f0ae8; 0x7f00c0; 0x6f80c0; 0xcdc0c0; 0x1cce8c0;
   0x38cffc0; 0x38c7fc0; 0x30c33e0; 0xc00e0; 0xc0020; 0x0; 0x0; 0x0;
   0x0; 0x202000; 0x0; 0x0; 0x0; 0x1c0060; 0xd8060; 0x1dc070;
   0xccff0; 0x15dcff8; 0x3ffeab8; 0x3ffe01e; 0xc600c; 0x1c77fc; 0xc37f8; 0x1c00c0;
   0x3fff0c0; 0x7fff0c0; 0x2bbaffc; 0x338ffc; 0x338ae8; 0x3180c0; 0x3180c0; 0x3180c0;
   0x23180c0; 0x631c7c0; 0x630e7c0; 0x73071e0; 0x3f038e0; 0x1e01000; 0x0; 0x0;
   0x0; 0x0; 0x202000; 0x0; 0x0; 0x0; 0x1000070; 0x3e0fc70;
   0x3fffc70; 0x3eebf8; 0x7063f8; 0x306018; 0x70701c; 0x30300e; 0x703bfc; 0x3fefbf8;
   0x3fffc60; 0x30c460; 0x71c060; 0x30cbfc; 0x70dffc; 0x30dae8; 0x70f860; 0x2ba7860;
   0x7ff7060; 0x3ff7360; 0xf7e0; 0x3d9e0; 0x7ff9c70; 0x3fe0e20; 0x600; 0x0;
   0x0; 0x0; 0x0; 0x202000; 0x0; 0x0; 0x0; 0xc00060;
   0x1f80060; 0x1fff070; 0xfeff0; 0xc0ff8; 0xc0018; 0xc001e; 0x1ffe00c; 0x1fff7fc;
   0xc07f8; 0xc00c0; 0xc00c0; 0x15d50c0; 0x3fffffc; 0x3fffffc; 0x70ae8; 0x2300c0;
   0x7380c0; 0x6180c0; 0xe1ccc0; 0x1c0cfc0; 0x1ffe3c0; 0x3fff1e0; 0x300e0e0; 0x1000000;
   0x0; 0x0; 0x0; 0x0; 0x202000; 0x0; 0x0; 0x0;
   0x1dc060; 0x18c060; 0x19cc070; 0x398e7f0; 0x1dc67f8; 0xf87018; 0x7c781c; 0x3c780c;
   0x1f7ffc; 0x31febf8; 0x31d60e0; 0x31860e0; 0x3f860e0; 0xa067fc; 0xe07fc; 0xe02e8;
   0x3fff8e0; 0x3fff8e0; 0x15f50e0; 0xe04e0; 0xe07e0; 0xe03e0; 0xe01e0; 0xe0070;
   0xe0020; 0x0; 0x0; 0x0; 0x0; 0x202000; 0x0; 0x0;
   0x0; 0x1c0060; 0xe0060; 0x1e0070; 0x1f0ff0; 0x3b0ff8; 0x73801c; 0xe1c01e;
   0x1c0e00c; 0x78077fc; 0x3fffff8; 0xffd0c0; 0xc00c0; 0xc00c0; 0xc0ffc; 0xc0ffc;
   0x1ffe2e8; 0x1ffe0c0; 0xc00c0; 0xc00c0; 0xc00c0; 0xc0fc0; 0xc07e0; 0x3fff1e0;
   0x3fff0e0; 0x20; 0x0; 0x0; 0x0; 0x0; 0x202000; 0x0;
   0x0; 0x0; 0x1800060; 0x1c02060; 0xe0f070; 0x73e7f0; 0x7f87f8; 0x3e0018;
   0x7f001c; 0x1e3e00c; 0x1c1fffc; 0xc33f8; 0xc00c0; 0xc00c0; 0x3fff0c0; 0x3fff7fc;
   0xc07fc; 0x4c82e8; 0xcdc0c0; 0xcce0c0; 0x1cc60c0; 0x38c60c0; 0x70c77c0; 0x30c3fe0;
   0xc11e0; 0xf80e0; 0x70020; 0x0; 0x0; 0x0; 0x0; 0x202000;
   0x0; 0x0; 0x0; 0x60060; 0x60060; 0xf0070; 0xf07f8; 0x1f87f8;
   0x39801c; 0x71c01e; 0xe0e00c; 0x1e077fc; 0x3bffff8; 0x17fdcc0; 0x8c0; 0xc0;
   0x7fc; 0xfff7fc; 0xffe2e8; 0xe070c0; 0xe060c0; 0xe070c0; 0xe060c0; 0xe077c0;
   0xeae7e0; 0xfff1e0; 0xffe0e0; 0xe07020; 0x0; 0x0; 0x0; 0x0].
Definition hanzi_data_462 : list N :=
  [0x202000; 0x0; 0x0; 0x0; 0x3b8060; 0x3b8060; 0x3b8070; 0x3b87f0;
   0x13b97f8; 0x3bbb818; 0x1bbb01c; 0x1fbb00c; 0xfbe7fc; 0x7be3f8; 0x7bc0c0; 0x3b80c0;
   0x3980c0; 0x7b87fc; 0xf9e7fc; 0x1f9fae8; 0x3b9b8c0; 0x33988c0; 0x139c0c0; 0x238c0c0;
   0x738e7c0; 0x33867e0; 0x37079e0; 0x3f038e0; 0x1f01820; 0x0; 0x0; 0x0;
   0x0; 0x202000; 0x0; 0x0; 0x0; 0x30060; 0x38060; 0x1558070;
   0x3ffcff0; 0x1ffcff8; 0x1c0e018; 0xe1f01c; 0x63b80c; 0x7f1ffc; 0x3e07f8; 0x1f00c0;
   0x7f80c0; 0x1f3f0c0; 0x7c0fffc; 0x75577fc; 0x1ffe2e8; 0x1ffe0c0; 0x18060c0; 0x1c060c0;
   0x18068c0; 0x1c06ec0; 0x1ffefc0; 0x1ffe3e0; 0x1aae0e0; 0x1c06040; 0x0; 0x0;
   0x0; 0x0; 0x202000; 0x0; 0x0; 0x0; 0x60060; 0x60060;
   0x70070; 0x1ff8ff0; 0x1ffcff8; 0x1c1c018; 0xc0e01c; 0xe0700c; 0x71f7fc; 0x3387f8;
   0x3f01c0; 0x1e00c0; 0xf01c0; 0x78ffc; 0x1ffcffc; 0x1fffae8; 0x181f1c0; 0x18180c0;
   0x181c1c0; 0x18188c0; 0x181cfc0; 0x1ab8fc0; 0x1ffc3e0; 0x1ff80e0; 0x181c040; 0x0;
   0x0; 0x0; 0x0; 0x202000; 0x0; 0x0; 0x0; 0x30060;
   0x38060; 0x3f8070; 0x7fc7f0; 0x75c7f8; 0x38e018; 0x18701c; 0x1fff80c; 0x1fff7fc;
   0x18603f8; 0x1c600c0; 0x3aea0c0; 0x7fff0c0; 0x3fff7fc; 0x1c607fc; 0x18602e8; 0x1fff0c0;
   0x1ffe0c0; 0x1d750c0; 0x8600c0; 0x607c0; 0x607e0; 0x601e0; 0x7c0e0; 0x7c020;
   0x0; 0x0; 0x0; 0x0; 0x202000; 0x0; 0x0; 0x0;
   0x30060; 0x38060; 0x558070; 0xff8ff0; 0x7fcff8; 0x70e018; 0x30701c; 0x2bab80c;
   0x3fffffc; 0x3ffe7f8; 0x39c60c0; 0x38c60c0; 0x39c60c0; 0x38c6ffc; 0x3ffeffc; 0x3ffeae8;
   0x15560c0; 0x60c0; 0x60c0; 0x20068c0; 0x7006fc0; 0x3006fc0; 0x3ffe3e0; 0x3ffe0e0;
   0x1550060; 0x0; 0x0; 0x0; 0x0; 0x202000; 0x0; 0x0;
   0x0; 0x60060; 0xe0060; 0x1c0070; 0xc07f0; 0x3fff7f8; 0x3ffe01c; 0x41001e;
   0xe3800c; 0xc1c7fc; 0x1c1c7f8; 0x380e0c0; 0x32060c0; 0x761f0c0; 0x63a7fc; 0x7307fc;
   0x3302e8; 0x3f00c0; 0x1e00c0; 0x1c00c0; 0x1e04c0; 0x7f0fc0; 0xf383c0; 0x1e1e1e0;
   0x380f0e0; 0x1003020; 0x0; 0x0; 0x0; 0x0; 0x202000; 0x0;
   0x0; 0x0; 0x40060; 0xe0060; 0xc0030; 0xc07f8; 0x15d57f8; 0x3fff01c;
   0x3fff00c; 0xe000c; 0xf07fc; 0xf07f8; 0x10f80c0; 0x389c0c0; 0x1dde0c0; 0xf9f7fc;
   0x79fffc; 0x319ae8; 0x7180c0; 0x6180c0; 0x6180c0; 0xe18cc0; 0x1d18fc0; 0x39f83e0;
   0x79fc1e0; 0x103e060; 0x4020; 0x0; 0x0; 0x0; 0x0; 0x202000;
   0x0; 0x0; 0x0; 0xc0060; 0xe0060; 0x1c0070; 0x3fff7f8; 0x3fff7f8;
   0x801c; 0xc1c01e; 0xe1800c; 0x6387fc; 0x3fff3f8; 0x3fff0e0; 0x30e0; 0x70e0;
   0x37fc; 0x77fc; 0x32e8; 0x30e0; 0x30e0; 0x30e0; 0x3ae0; 0x3fe0;
   0x1be0; 0x1df0; 0xc60; 0xc20; 0x0; 0x0; 0x0; 0x0;
   0x202000; 0x0; 0x0; 0x0; 0x70070; 0xe0070; 0xc0030; 0xc07f8;
   0x3fff7f8; 0x3fff01c; 0x7001c; 0x63800c; 0x6187fc; 0xc1c7f8; 0x1ffe0c0; 0x3fff0c0;
   0x307f0c0; 0x1318ffc; 0x318ffc; 0x3182e8; 0x3180c0; 0x3180c0; 0x31c0c0; 0x231cec0;
   0x730cfc0; 0x230e3c0; 0x7f079e0; 0x3f03860; 0x1401820; 0x0; 0x0; 0x0;
   0x0; 0x202000; 0x0; 0x0; 0x0; 0x60; 0xff8c60; 0x1ffdc70;
   0xe03bf0; 0x7073f8; 0x38001c; 0x1c000c; 0xe000c; 0x70dfc; 0x3ff9df8; 0x3ffb860;
   0x3663060; 0x3760060; 0x3b303fc; 0x3b333fc; 0x3bbbae8; 0x199d860; 0x198d860; 0x18cfc60;
   0x18e4e60; 0x1c70fe0; 0x1c30fe0; 0x1d3cef0; 0xf9c430; 0x788010; 0x0; 0x0;
   0x0; 0x0; 0x202000; 0x0; 0x0; 0x0; 0x70070; 0xe0070;
   0xe0030; 0x2aea7f8; 0x3fff7f8; 0x3aab01c; 0x306300e; 0x30e300c; 0x30637fc; 0x703f8;
   0x700c0; 0x3fff8c0; 0x3fff8c0; 0xe187fc; 0xe1c7fc; 0x60c2e8; 0x71e0c0; 0x33e0c0;
   0x3f80c0; 0x1e04c0; 0x7e07c0; 0xf787e0; 0x3c3f1e0; 0x380f8e0; 0x1003020; 0x0;
   0x0; 0x0; 0x0; 0x202000; 0x0; 0x0; 0x0; 0x60;
   0x1ffe060; 0x1ffe070; 0x1806ff0; 0x1c06ff8; 0x180601c; 0x1ffe01e; 0x1ffe00c; 0x1c067fc;
   0x18067f8; 0x1c060c0; 0x1ffe0c0; 0x1ffe0c0; 0x66ffc; 0x10c6ffc; 0x38c6ae8; 0x1fc60c0;
   0xf860c0; 0x3860c0; 0x3068c0; 0x706ec0; 0xee6fc0; 0x3cff3e0; 0x383f0e0; 0x1007000;
   0x0; 0x0; 0x0; 0x0; 0x202000; 0x0; 0x0; 0x0;
   0x6070; 0x6030; 0x3fc6030; 0x3f863f8; 0x3fc73f8; 0x39aa81c; 0x39ffc0c; 0x39bf80e;
   0x39f33fc; 0x39b33f8; 0x39f3060; 0x39b3860; 0x39f1860; 0x3999bfc; 0x39d9bfc; 0x399bae8;
   0x39df060; 0x398e060; 0x39dc060; 0x39be260; 0x3ff73e0; 0x3fa33e0; 0x3fc3cf0; 0x3981c20;
   0x140800; 0x0; 0x0; 0x0; 0x0; 0x202000; 0x0; 0x0;
   0x0; 0x60060; 0x60060; 0x70070; 0x3fffbf8; 0x3fffff8; 0x3001c; 0x157501e;
   0x1fff00c; 0x1fff3fc; 0x383f8; 0x7fffc60; 0x3fffc60; 0x555d460; 0xc1c2e8; 0x1d5c7fc;
   0x3ffc2e8; 0x3ffe060; 0xc36060; 0xc77060; 0xc63a60; 0xce3fe0; 0xcc1fe0; 0xc00cf0;
   0xf80070; 0x780020; 0x0; 0x0; 0x0; 0x0; 0x202000; 0x0;
   0x0; 0x0; 0x61c070; 0x618030; 0x61c030; 0x3fffbf8; 0x7fffff8; 0x61801c;
   0x61c00c; 0x20800c; 0x3fffbfc; 0x3fffbf8; 0x3555860; 0x3021860; 0x3061860; 0x607fc;
   0x1fff7fc; 0x1fff2e8; 0x1c70060; 0x1830060; 0x1c38460; 0xc18660; 0xc1c7e0; 0xc0e3e0;
   0xe470f0; 0x7c3c30; 0x7c1810; 0x0; 0x0; 0x0; 0x0; 0x202000;
   0x0; 0x0; 0x0; 0x4c0060; 0xec0060; 0x1cc0070; 0x18c07f0; 0x3fff7f8;
   0x3fff018; 0xc001c; 0xc000c; 0x1fff7fc; 0x1ffe7f8; 0x18c70c0; 0x18c20c0; 0x1fff0c0].
Definition hanzi_data_463 : list N :=
  [0x1ffeffc; 0x1dd7ffc; 0x18c22e8; 0x18c70c0; 0x1ffe0c0; 0x1fff0c0; 0x18c24c0; 0x18c7fc0;
   0x18c27c0; 0x18c71e0; 0x1ec20e0; 0x1cc7020; 0x0; 0x0; 0x0; 0x0;
   0x202000; 0x0; 0x0; 0x0; 0x60; 0x3fff860; 0x3fff870; 0x307f0;
   0x307f8; 0x382bc; 0xfff01e; 0xfff00c; 0xe187fc; 0xe187f8; 0xe1c0c0; 0x2ebe8c0;
   0x7fff8c0; 0x2aaaffc; 0x7fc; 0x1fff2e8; 0x1fff0c0; 0x1c030c0; 0x1c070c0; 0x1c038c0;
   0x1c07fc0; 0x1c037e0; 0x1fff1f0; 0x1fff060; 0x1c07020; 0x0; 0x0; 0x0;
   0x0; 0x202000; 0x0; 0x0; 0x0; 0xe0070; 0xe0070; 0xe0030;
   0x3fff7f8; 0x3fff7f8; 0x2aea01c; 0x18e700e; 0x18e600c; 0xce67fc; 0xeec3f8; 0x6fc0e0;
   0xe00e0; 0x7fff8e0; 0x3fffffc; 0x1f07fc; 0x3f02e8; 0x3f80e0; 0x7f80e0; 0xeec0e0;
   0x1cee6e0; 0x3ce7fe0; 0x70e3fe0; 0x30e1df0; 0xe0870; 0xe0000; 0x0; 0x0;
   0x0; 0x0; 0x202000; 0x0; 0x0; 0x0; 0x380070; 0xf80030;
   0x1f80030; 0x3b803f8; 0x13803f8; 0x3fffc1c; 0x3fffc0e; 0x30000c; 0x3063fc; 0x31e3f8;
   0x338060; 0x330060; 0x316060; 0x366bfc; 0x367ffc; 0x3c6ee8; 0x7c6c60; 0x6c6c60;
   0x67e6660; 0x66e6660; 0x7666360; 0x2e663e0; 0x7c7e1f0; 0x3c3c030; 0x1800010; 0x0;
   0x0; 0x0; 0x0; 0x202000; 0x0; 0x0; 0x0; 0x1c0030;
   0xc0830; 0xc1c38; 0x3ffdbf8; 0x3ffdbfc; 0x6380c; 0x3f100e; 0x3b000e; 0x3b81fc;
   0x2bbabf8; 0x3fffe60; 0x2babe60; 0x383060; 0x383060; 0x3833fc; 0x3fff3fc; 0x3fff060;
   0x383060; 0x383060; 0x383160; 0x387be0; 0x20fde0; 0x7ffcf70; 0x3ff8630; 0x1500010;
   0x0; 0x0; 0x0; 0x0; 0x202000; 0x0; 0x0; 0x0;
   0x18060; 0x3ff8060; 0x3ff9870; 0x38d9bf8; 0x18d9bf8; 0x18d981c; 0x1dd981c; 0xd9980c;
   0xf19bfc; 0x719bf8; 0xf99860; 0x1fd9860; 0x7cf9860; 0x30383fc; 0xe03fc; 0xe02e8;
   0x1fff860; 0x1fff860; 0x15f5060; 0xe0260; 0xe0760; 0xe03e0; 0x7fffdf0; 0x3fffc60;
   0x0; 0x0; 0x0; 0x0; 0x0; 0x202000; 0x0; 0x0;
   0x0; 0xc0060; 0x30c2060; 0x38c7070; 0x18ceff0; 0x1cccff8; 0xcccab8; 0x4cc01e;
   0xc000c; 0x3fff7fc; 0x3ffe7f8; 0x38070c0; 0x38060c0; 0x3fff0c0; 0x3ffeffc; 0x3d57ffc;
   0x3806ae8; 0x38070c0; 0x3ffe0c0; 0x3fff0c0; 0x38060c0; 0x38077c0; 0x38067c0; 0x3d071e0;
   0x1f060e0; 0x1f07000; 0x0; 0x0; 0x0; 0x0; 0x202000; 0x0;
   0x0; 0x0; 0xc0060; 0x18c2060; 0x18c7070; 0xcceff0; 0xcccff8; 0x6cc01c;
   0x4c801e; 0x1ffe00c; 0x1ffe7fc; 0x1aae7f8; 0x1c460c0; 0x18c60c0; 0x1cc60c0; 0x18c6ffc;
   0x1cc6ffc; 0x18c6ae8; 0x1cc60c0; 0x18e60c0; 0x1c660c0; 0x18660c0; 0x3f0fc0; 0xfbc7e0;
   0x1e1f1e0; 0x38078f0; 0x3001820; 0x0; 0x0; 0x0; 0x0; 0x202000;
   0x0; 0x0; 0x0; 0x60; 0x1ffe060; 0x1ffe070; 0x18c6ff0; 0x18c6ff8;
   0x18c6018; 0x1ffe01c; 0x1ffe00c; 0x1dd67fc; 0x18c67f8; 0x18c61c0; 0x18c60c0; 0x1ffe1c0;
   0x1ffeffc; 0xc0ffc; 0xc0ae8; 0x1ffe1c0; 0x1ffe0c0; 0x1ffe1c0; 0xc08c0; 0xc0fc0;
   0xc07c0; 0x3fff1e0; 0x3fff0e0; 0x40; 0x0; 0x0; 0x0; 0x0;
   0x202000; 0x0; 0x0; 0x0; 0x70; 0x1ffe070; 0x1ffe030; 0x1806ff8;
   0x1c06ff8; 0x180601c; 0x1c0601c; 0x1ffe00c; 0x1ffe7fc; 0xaaa7f8; 0xc0; 0x2aaa0c0;
   0x3fff0c0; 0x2aeaffc; 0xc0ffc; 0xc02e8; 0x15d50c0; 0x1ffe0c0; 0x1fff0c0; 0xc04c0;
   0xc07c0; 0xc03c0; 0x7fff9e0; 0x3fff860; 0x20; 0x0; 0x0; 0x0;
   0x0; 0x202000; 0x0; 0x0; 0x0; 0x300070; 0x300030; 0x31f830;
   0x31fbf8; 0x319bf8; 0x31981c; 0x3fd980c; 0x3fd980e; 0x375fbfc; 0x331fbf8; 0x3319860;
   0x3319860; 0x3319860; 0x3b9bbfc; 0x319fbfc; 0x3999ae8; 0x3999860; 0x3999860; 0x19f9860;
   0x38f9a60; 0x18ffbe0; 0x18e7fe0; 0x1d71cf0; 0x1f30020; 0x730000; 0x0; 0x0;
   0x0; 0x0; 0x202000; 0x0; 0x0; 0x0; 0x60; 0x1ffe060;
   0x1ffe070; 0x1806ff0; 0x1c06ff8; 0x180601c; 0x1ffe01e; 0x1ffe00c; 0x15d47fc; 0xc07f8;
   0xc00e0; 0x3fff0e0; 0x3fff0e0; 0x30c37fc; 0x30e37fc; 0x31e32e8; 0x33f30e0; 0x33330e0;
   0x373b0e0; 0x3e1f0e0; 0x340f7e0; 0x30037e0; 0x30031e0; 0x3f030e0; 0x1f03020; 0x0;
   0x0; 0x0; 0x0; 0x202000; 0x0; 0x0; 0x0; 0x1c0060;
   0xcc060; 0x1cc070; 0xceff0; 0x3ffeff8; 0x3ffe018; 0x15d701c; 0xc300c; 0x1c3ffc;
   0xc27f8; 0x7fff0e0; 0x3fff0e0; 0x55550e0; 0xffc; 0x1554ffc; 0x1ffeae8; 0x1ffe0e0;
   0x18060e0; 0x18060e0; 0x18068e0; 0x1806fe0; 0x1aaefe0; 0x1ffe3e0; 0x1ffe0e0; 0x1806020;
   0x0; 0x0; 0x0; 0x0; 0x202000; 0x0; 0x0; 0x0;
   0x1b0060; 0x5b8060; 0xdbf870; 0xd8fff0; 0x198c7f8; 0x398c2b8; 0x118c01c; 0x18c00c;
   0x7fffbfc; 0x3fffbf8; 0x18c0e0; 0x198c0e0; 0x198c0e0; 0x1bcc7fc; 0x1f7c7fc; 0xf3fae8;
   0xf0f8e0; 0x70c8e0; 0x70c0e0; 0x230c0e0; 0x678c7e0; 0x27ccfe0; 0x3eec3f0; 0x3c6f8e0;
   0x1827000; 0x0; 0x0; 0x0; 0x0; 0x202000; 0x0; 0x0;
   0x0; 0xc00060; 0x1fe8060; 0x7ff070; 0xc27f0; 0xc07f8; 0x3fff2b8; 0x3fff01e;
   0x3f000c; 0x7f87fc; 0xedc7f8; 0x1ccf0c0; 0x38c78c0; 0x30c30c0; 0x3feffc; 0x7ffffc;
   0x318ae8; 0x17180c0; 0x3f980c0; 0x3f9c0c0; 0x380c0c0; 0x180c7c0; 0x180e7c0; 0x18071e0;
   0x1f838e0; 0xf81000; 0x0; 0x0; 0x0; 0x0; 0x202000; 0x0;
   0x0; 0x0; 0xc0060; 0xc0060; 0xccc070; 0xcceff0; 0xcc6ff8; 0xcc6018;
   0xcc601c; 0xec600c; 0xece7fc; 0x1ece7f8; 0x1fdf0c0; 0x3bfb0c0; 0x73f38c0; 0x21f1ffc;
   0x1c17fc; 0xc02e8; 0x1fff0c0; 0x1fff0c0; 0xc00c0; 0xc04c0; 0xc0fc0; 0xc07c0;
   0x7fff9e0; 0x3fff8e0; 0x20; 0x0; 0x0; 0x0; 0x0; 0x202000].
Definition hanzi_data_464 : list N :=
  [0x0; 0x0; 0x0; 0x1c00060; 0x3fe8060; 0x1fff070; 0x80eff0; 0x1864ff8;
   0x18c6018; 0x1cc601c; 0xccc00c; 0xddc7fc; 0xc187f8; 0x6000c0; 0x6000c0; 0x17550c0;
   0x3fffffc; 0x3fffffc; 0x600ae8; 0x60e0c0; 0x60c0c0; 0x61c0c0; 0x6388c0; 0x630fc0;
   0x6007c0; 0x6001e0; 0x7e00e0; 0x3c0020; 0x0; 0x0; 0x0; 0x0;
   0x202000; 0x0; 0x0; 0x0; 0x30070; 0x30070; 0x558070; 0xffc7f8;
   0xffe7f8; 0x60f01c; 0x71f81c; 0x3b980c; 0x1f03fc; 0x3f83f8; 0xfbc0e0; 0x7eef8e0;
   0x38e3ce0; 0x1fff7fc; 0x1fff7fc; 0xe02e8; 0x1fff0e0; 0xffe0e0; 0xe04e0; 0xe06e0;
   0x3ffffe0; 0x3fffbe0; 0xe00f0; 0xe0060; 0xe0020; 0x0; 0x0; 0x0;
   0x0; 0x202000; 0x0; 0x0; 0x0; 0x40060; 0xe0060; 0x1c0070;
   0x3ffeff0; 0x3ffeff8; 0x2aaaab8; 0xc1c01c; 0xe1800c; 0x6187fc; 0x6387f8; 0x17550c0;
   0x3fff0c0; 0x7fff0c0; 0xc0ffc; 0x1c0ffc; 0xc0ae8; 0x3fff0c0; 0x3ffe0c0; 0x15d50c0;
   0xc00c0; 0x1c07c0; 0xc07c0; 0x1c01e0; 0xc00e0; 0x1c0000; 0x0; 0x0;
   0x0; 0x0; 0x202000; 0x0; 0x0; 0x0; 0x70070; 0xe0070;
   0xe0030; 0x3fff7f8; 0x3fff7f8; 0x3001c; 0x73800e; 0xe1800c; 0x1c1c7fc; 0x1ffe7f8;
   0x3fff0c0; 0x300f0c0; 0x16440c0; 0x6667fc; 0x6667fc; 0x6662e8; 0x6660c0; 0x6660c0;
   0x6664c0; 0x26666c0; 0x66677c0; 0x6663be0; 0x6663de0; 0x3e61e60; 0x3c00420; 0x0;
   0x0; 0x0; 0x0; 0x202000; 0x0; 0x0; 0x0; 0x1060;
   0x3ff3860; 0x3ff7070; 0x300e3f8; 0x30047f8; 0x3001abc; 0x37fd80e; 0x37f980e; 0x3131bfc;
   0x3131bf8; 0x3131860; 0x3131860; 0x3575860; 0x37fdbfc; 0x3575ffc; 0x3131ae8; 0x3131860;
   0x3111860; 0x3119860; 0x3119860; 0x311df60; 0x310dfe0; 0x31099f0; 0x3e01860; 0x1e01820;
   0x0; 0x0; 0x0; 0x0; 0x202000; 0x0; 0x0; 0x0;
   0x60; 0xaa1860; 0x1ff3870; 0x1aa73f8; 0x18063f8; 0x180001c; 0x1801c0e; 0x1bf980c;
   0x1bfddfc; 0x1b099f8; 0x1b1dc60; 0x1b09860; 0x1b5dc60; 0x1bf9bfc; 0x1bfdffc; 0x1b09ae8;
   0x1b1dc60; 0x1b09860; 0x1b5dc60; 0x1bf9a60; 0x1955f60; 0x1801be0; 0x1801df0; 0x1f01830;
   0x1f01c10; 0x0; 0x0; 0x0; 0x0; 0x202000; 0x0; 0x0;
   0x0; 0x40c060; 0xe0c060; 0xe1c070; 0x6187f0; 0x7387f8; 0xbaa01c; 0x1fff01e;
   0x1aaf00c; 0x18077fc; 0x18077f8; 0x18070c0; 0x18070c0; 0x1fff0c0; 0x1fff7fc; 0x3987fc;
   0x3982e8; 0x3980c0; 0x3980c0; 0x39c0c0; 0x238c0c0; 0x738e7c0; 0x238e7c0; 0x7f879e0;
   0x3f03ce0; 0x1f01820; 0x0; 0x0; 0x0; 0x0; 0x202000; 0x0;
   0x0; 0x0; 0xc04060; 0xe0c060; 0x61c070; 0x7187f0; 0x1fffff8; 0x1fff81c;
   0x1d7501e; 0x186000c; 0x18607fc; 0x1aea3f8; 0x1fff0c0; 0xaeb0c0; 0x630c0; 0x637fc;
   0x3fff7fc; 0x3fffae8; 0x30700c0; 0x30780c0; 0x307c0c0; 0x306e4c0; 0x3f677c0; 0x1e63bc0;
   0x1e61de0; 0x608e0; 0x60020; 0x0; 0x0; 0x0; 0x0; 0x202000;
   0x0; 0x0; 0x0; 0x70070; 0xe0070; 0xc0030; 0x1ffeff8; 0x1ffeff8;
   0x180601c; 0x1c0601c; 0x180600e; 0x1ffe7fc; 0x1ffe7f8; 0x1c060c0; 0x18060c0; 0x1ffe0c0;
   0x1ffeffc; 0x1576ffc; 0x30e6ae8; 0x3cc60c0; 0x1fc60c0; 0x7860c0; 0x3864c0; 0x7c6fc0;
   0xef63c0; 0x7c7f1e0; 0x380f060; 0x3020; 0x0; 0x0; 0x0; 0x0;
   0x202000; 0x0; 0x0; 0x0; 0x60; 0xffe060; 0x1ffe070; 0x800ff0;
   0x1ffcff8; 0xffe01c; 0x1d5401e; 0x80000c; 0x1fff7fc; 0xffe7f8; 0xc0; 0x3fff0c0;
   0x7fff0c0; 0x30037fc; 0x75577fc; 0x3fff2e8; 0xd5c0c0; 0xe180c0; 0x7380c0; 0x3f04c0;
   0x1e07c0; 0x3f87e0; 0x1fff1f0; 0x3e0f8e0; 0x3001820; 0x0; 0x0; 0x0;
   0x0; 0x202000; 0x0; 0x0; 0x0; 0x60; 0x1fff060; 0x1fff070;
   0x18037f0; 0x18037f8; 0x1803018; 0x1fff01c; 0x1fff00c; 0x15577fc; 0x33f8; 0x3fff0c0;
   0x3fff0c0; 0x35570c0; 0x30037fc; 0x33fb7fc; 0x33fb2e8; 0x331b0c0; 0x3b1b8c0; 0x3b1b8c0;
   0x3bf9ec0; 0x3bf9fc0; 0x3819fe0; 0x1801de0; 0x1f80e60; 0x1f00420; 0x0; 0x0;
   0x0; 0x0; 0x202000; 0x0; 0x0; 0x0; 0x30; 0x3fffc30;
   0x7fffc30; 0x3aacdf8; 0x1806dfc; 0x1806c0c; 0x1bf6c0e; 0x1be6c06; 0x1b77dfc; 0x1b23dfc;
   0x1b37c70; 0x1b26c20; 0x1b3cc70; 0x1b2cdfc; 0x1b3cdfc; 0x1b2cca8; 0x1bfcc70; 0x1beec20;
   0x1837c70; 0x1822d20; 0x1800df0; 0x1800cf0; 0x1d80c70; 0x1f00c30; 0xf00c10; 0x0;
   0x0; 0x0; 0x0; 0x202000; 0x0; 0x0; 0x0; 0xe0060;
   0xe0060; 0x3fff070; 0x3fff7f0; 0xe07f8; 0xaea01c; 0x1fff01e; 0xe000c; 0x15f57fc;
   0x3fffff8; 0x7fff8c0; 0xc0; 0x1fff0c0; 0x1ffe7fc; 0x1c077fc; 0x1aae2e8; 0x1fff0c0;
   0x18060c0; 0x1c070c0; 0x1ffe0c0; 0x1fff7c0; 0x18067e0; 0x1c071e0; 0x1f060e0; 0xf07020;
   0x0; 0x0; 0x0; 0x0; 0x202000; 0x0; 0x0; 0x0;
   0x70060; 0x60060; 0x3870070; 0x1bff7f0; 0x1fff7f8; 0xeea018; 0xe7001c; 0x76000c;
   0x7fffffc; 0x3fffff8; 0x7fff8c0; 0x700c0; 0x3c0c0; 0x1ffe7fc; 0x1fffffc; 0x180fae8;
   0x1c0d0c0; 0x1ffc0c0; 0x1ffc0c0; 0x180c0c0; 0x1c0c7c0; 0x180c7c0; 0x1ffc1e0; 0x1ffc0e0;
   0x1c0c020; 0x0; 0x0; 0x0; 0x0; 0x202000; 0x0; 0x0;
   0x0; 0x61c060; 0x618060; 0x175d070; 0x3fff7f0; 0x3fff7f8; 0x618018; 0x61c01c;
   0x26800c; 0x707fc; 0x303f8; 0x7fff8c0; 0x3fff8c0; 0x380c0; 0x187fc; 0x1c7fc;
   0x1ffe2e8; 0x1fff0c0; 0x180f0c0; 0x180fcc0; 0x180d0c0; 0x180c7c0; 0x180c7e0; 0x1ffc1e0;
   0x1ffc0e0; 0x180c020; 0x0; 0x0; 0x0; 0x0; 0x202000; 0x0;
   0x0; 0x0; 0x718060; 0x618060; 0x718070; 0x2ebaff0; 0x3fffff8; 0x3fffab8;
   0x71801e; 0x61800c; 0x7187fc; 0x3fff7f8; 0x7fff0c0; 0xc0; 0xc0; 0xffeffc].
Definition hanzi_data_465 : list N :=
  [0x1ffeffc; 0xc06ae8; 0x1c060c0; 0xffe0c0; 0x1ffe0c0; 0xc060c0; 0x1c067c0; 0xc067c0;
   0x1ffe1e0; 0xffe0e0; 0x1c06000; 0x0; 0x0; 0x0; 0x0; 0x202000;
   0x0; 0x0; 0x0; 0x618060; 0x618060; 0x618070; 0x6187f0; 0x3fff7f8;
   0x3fff018; 0x61801c; 0x61800c; 0x6187fc; 0x6183f8; 0x1fff0c0; 0x1ffe0c0; 0x1dd70c0;
   0x18c67fc; 0x18c77fc; 0x18c62e8; 0x1fff0c0; 0x1ffe0c0; 0x18c70c0; 0x18c68c0; 0x18c7fc0;
   0x1aee7c0; 0x1fff1e0; 0x1ffe0e0; 0x1807020; 0x0; 0x0; 0x0; 0x0;
   0x202000; 0x0; 0x0; 0x0; 0xe0060; 0x60060; 0x70070; 0x707f8;
   0x3fffff8; 0x3fff81c; 0x71c00e; 0xece00e; 0x1ccf3fc; 0x38c3bf8; 0x3fff8e0; 0xffe0e0;
   0xc00e0; 0x6cc7fc; 0x6cc7fc; 0x60c2e8; 0x7fff8e0; 0x3fff8e0; 0x60c0e0; 0x60e4e0;
   0x6067e0; 0x6067e0; 0x6071f0; 0x603870; 0x601820; 0x0; 0x0; 0x0;
   0x0; 0x202000; 0x0; 0x0; 0x0; 0xc0060; 0xc0070; 0xc0030;
   0x3fff7f8; 0x3fff7f8; 0xe02bc; 0x3f000e; 0xfb800c; 0x1f1f7fc; 0x380fff8; 0x10010c0;
   0x3fff8c0; 0x7fff8c0; 0xc007fc; 0xc557fc; 0xcfe2e8; 0xcff0c0; 0xcc20c0; 0xcc70c0;
   0xcea4c0; 0xcff7c0; 0xc023e0; 0xc071f0; 0xf80060; 0x780020; 0x0; 0x0;
   0x0; 0x0; 0x202000; 0x0; 0x0; 0x0; 0x60; 0x1ffe060;
   0x1ffe070; 0x1806ff0; 0x1d56ff8; 0x1ffeabc; 0x1c0601e; 0x180600c; 0x1ffe7fc; 0x1ffe7f8;
   0xc0; 0x2aaa0c0; 0x3fff0c0; 0x2eaaffc; 0x600ffc; 0x2eaaae8; 0x7fff0c0; 0x3fff0c0;
   0x61c0c0; 0x61c8c0; 0x638fc0; 0x630fc0; 0x6103e0; 0x7c00e0; 0x7c0040; 0x0;
   0x0; 0x0; 0x0; 0x202000; 0x0; 0x0; 0x0; 0x60;
   0x1fff060; 0x1fff070; 0x18c37f0; 0x18c77f8; 0x1aeb01c; 0x1fff01e; 0x1aeb00c; 0x18c77fc;
   0x18c37f8; 0x1fff0e0; 0x1fff0e0; 0xc00e0; 0xc07fc; 0x3fffffc; 0x3fffae8; 0x1f00e0;
   0x3f80e0; 0x7dc0e0; 0xece4e0; 0x1cc7fe0; 0x38c3fe0; 0x70c1de0; 0x20c0860; 0xc0020;
   0x0; 0x0; 0x0; 0x0; 0x202000; 0x0; 0x0; 0x0;
   0x60; 0xfff060; 0xfff070; 0xc037f0; 0xc077f8; 0xfff2b8; 0xfff01c; 0xc0300c;
   0xc077fc; 0xfff7f8; 0xfff0e0; 0xe0; 0x1870e0; 0x1867fc; 0x19877fc; 0x3dbe2e8;
   0xfff0e0; 0x3860e0; 0x1870e0; 0x1860e0; 0x31876e0; 0x31a6fe0; 0x31ff3e0; 0x3fbf0e0;
   0x1f03060; 0x0; 0x0; 0x0; 0x0; 0x202000; 0x0; 0x0;
   0x0; 0x60; 0x1ffe060; 0x1ffe070; 0x1806ff0; 0x1c06ff8; 0x1ffe018; 0x1ffe01c;
   0x180600c; 0x1c067fc; 0x1ffe7f8; 0x1ffe0c0; 0x180c0; 0x1c0c0; 0x3ffeffc; 0x3fffffc;
   0x3333ae8; 0x33338c0; 0x3bb9cc0; 0x399c8c0; 0x388c0c0; 0x18c7fc0; 0x18e3fc0; 0x1c719e0;
   0x1f380e0; 0xf10000; 0x0; 0x0; 0x0; 0x0; 0x202000; 0x0;
   0x0; 0x0; 0x60; 0x3fff060; 0x3fff070; 0x3aab7f0; 0x38c37f8; 0x38c301c;
   0x38c301e; 0x3ffb00c; 0x3fff7fc; 0x38c37f8; 0x38c30e0; 0x38c30e0; 0x3bfb0e0; 0x3bfb7fc;
   0x3b1b7fc; 0x3a1b2e8; 0x3b1b0e0; 0x3a1b0e0; 0x3bfb0e0; 0x3bfb4e0; 0x38037e0; 0x3fff3e0;
   0x3fff1e0; 0x3aab060; 0x3803020; 0x0; 0x0; 0x0; 0x0; 0x202000;
   0x0; 0x0; 0x0; 0x70; 0x3fff070; 0x3fff030; 0x3333ff8; 0x3333ff8;
   0x333301c; 0x333301c; 0x3fff00c; 0x3fff7fc; 0x707f8; 0x700c0; 0xab80c0; 0x3ffc0c0;
   0x1aacffc; 0x1c0effc; 0xc17ae8; 0xe7bcc0; 0x7f18c0; 0x7e00c0; 0x3804c0; 0x1e0fc0;
   0x783e0; 0x3e1e0; 0xf860; 0x3820; 0x0; 0x0; 0x0; 0x0;
   0x202000; 0x0; 0x0; 0x0; 0xc00060; 0xfe0060; 0x1fff070; 0xef7f8;
   0xe07f8; 0xe001c; 0x3fff81c; 0x3fff80e; 0x1df77fc; 0xce63f8; 0xce60e0; 0x2eee8e0;
   0x7fffce0; 0x3fffffc; 0xce67fc; 0xce62e8; 0xce60e0; 0x3fff8e0; 0x3fff8e0; 0xe06e0;
   0xe07e0; 0xe03e0; 0x1fff1f0; 0x1fff070; 0x0; 0x0; 0x0; 0x0;
   0x0; 0x202000; 0x0; 0x0; 0x0; 0x198060; 0x1d8060; 0x19c070;
   0x38cff0; 0x30cff8; 0x3ffe018; 0x3ffe01c; 0x18700c; 0x1877fc; 0x187ff8; 0x1fff8c0;
   0x1ffe8c0; 0x1860c0; 0x1867fc; 0x1867fc; 0xbae2e8; 0x1ffe0c0; 0xbae0c0; 0x1860c0;
   0x1868c0; 0x186fc0; 0x3ffe7c0; 0x3ffe1e0; 0x60e0; 0x6020; 0x0; 0x0;
   0x0; 0x0; 0x202000; 0x0; 0x0; 0x0; 0xe0070; 0xe0070;
   0x1574030; 0x1ffeff8; 0x1d56ff8; 0x180601c; 0x1ffe01e; 0x1ffe00c; 0x18067fc; 0x18067f8;
   0x1ffe0c0; 0x1ffe0c0; 0xc00c0; 0xc0ffc; 0x3fffffc; 0x3fff2e8; 0x38c70c0; 0x38c30c0;
   0x38c70c0; 0x38c34c0; 0x38c77c0; 0x3ec33c0; 0x1ec71e0; 0xc2060; 0xc0020; 0x0;
   0x0; 0x0; 0x0; 0x202000; 0x0; 0x0; 0x0; 0x1000060;
   0x1f80060; 0x1fff070; 0x3f7f0; 0x1c37f8; 0x1832bc; 0x3fff01c; 0x3fff00c; 0x1c37fc;
   0xc37f8; 0x1ffb0c0; 0x1ffb0c0; 0x181b0c0; 0x199b7fc; 0x199b7fc; 0x199b2e8; 0x199b0c0;
   0x199b0c0; 0x19db0c0; 0x18dbec0; 0x7c1fc0; 0xee1be0; 0x1c71df0; 0x383ec20; 0x100cc00;
   0x0; 0x0; 0x0; 0x0; 0x202000; 0x0; 0x0; 0x0;
   0x100070; 0x39c030; 0x19fc30; 0x183df8; 0x3f80df8; 0x3f80cbc; 0x35c0c0c; 0x30eac0c;
   0x1bffdfc; 0x1becdf8; 0x1b6cc60; 0xb4cc60; 0x30cc60; 0x30cffc; 0x70cffc; 0x70cce8;
   0x70cc60; 0x78cc60; 0xf8cc60; 0xd8cc60; 0x1dcc760; 0x18cc7e0; 0x38ec7f0; 0x306c670;
   0x306c410; 0x0; 0x0; 0x0; 0x0; 0x202000; 0x0; 0x0;
   0x0; 0x60060; 0xc63060; 0xc67070; 0xe6e7f0; 0x7747f8; 0xaea818; 0x1fff81c;
   0xaba00c; 0x303fc; 0x383f8; 0x3fffce0; 0x3fffce0; 0x60e0e0; 0xc0e3fc; 0x1fff7fc;
   0x3bffae8; 0x330fce0; 0x30e8e0; 0x34e4e0; 0x3ce6e0; 0x194e7e0; 0x180e3e0; 0x1d5e1f0;
   0x1ffc070; 0xffc020; 0x0; 0x0; 0x0; 0x0; 0x202000; 0x0].
Definition hanzi_data_466 : list N :=
  [0x0; 0x0; 0xe060; 0xe060; 0x7070; 0x3fff3f0; 0x3fff7f8; 0x3b3b818;
   0x3b99c1c; 0x399cc0c; 0x19ccbfc; 0x18ce3f8; 0x18c7060; 0x1863860; 0x1c71c60; 0x1fb8bfc;
   0xf107fc; 0x2a2e8; 0x1c6f860; 0x18ef860; 0x19cfc60; 0x308e860; 0x760ed60; 0x760efe0;
   0x17fcef0; 0x3fc030; 0x150010; 0x0; 0x0; 0x0; 0x0; 0x202000;
   0x0; 0x0; 0x0; 0x60070; 0xe0070; 0xc0070; 0x3fff7f8; 0x3fff7f8;
   0xc0601c; 0xc0e01e; 0xe0c00c; 0x61c3fc; 0x61c3f8; 0x575d0e0; 0x3fff8e0; 0x7fff8e0;
   0x7fc; 0x7fc; 0x1ffe2e8; 0x1fff0e0; 0x1c060e0; 0x1c070e0; 0x1c060e0; 0x1c077e0;
   0x1c067e0; 0x1fff1f0; 0x1ffe070; 0x1c07020; 0x0; 0x0; 0x0; 0x0;
   0x202000; 0x0; 0x0; 0x0; 0xc0060; 0xe0060; 0x18cc070; 0x18ee7f0;
   0xc677f8; 0xe6301c; 0x7e381e; 0x1f000c; 0x7f07fc; 0xf387f8; 0x1c1f0c0; 0x18e70c0;
   0x10e10c0; 0x8e27fc; 0x18667fc; 0x1ce62e8; 0xce70c0; 0xee30c0; 0x7f38c0; 0x1b00c0;
   0x3b87c0; 0xf1c7c0; 0x1e1f1e0; 0x38078e0; 0x3001020; 0x0; 0x0; 0x0;
   0x0; 0x202000; 0x0; 0x0; 0x0; 0x70060; 0x60060; 0xe0070;
   0x2aeaff0; 0x3fffff8; 0x3aab818; 0x300381c; 0x300380c; 0x7fc; 0x1fff7f8; 0x1fff0c0;
   0xe00c0; 0xe00c0; 0xe67fc; 0xe67fc; 0x1fe62e8; 0x1fe70c0; 0xe60c0; 0xe70c0;
   0xef0c0; 0xff7c0; 0xfbfc0; 0x7ff1de0; 0x3fe0ce0; 0x3f00c20; 0x0; 0x0;
   0x0; 0x0; 0x202000; 0x0; 0x0; 0x0; 0x180070; 0x184030;
   0x1fffc30; 0x1ff7ff8; 0x19863f8; 0x198301c; 0x7ffb00c; 0x3ffb80e; 0x1981bfc; 0x1babbf8;
   0x1ff7c60; 0x186c60; 0x186060; 0x1ff6bfc; 0x1ff6ffc; 0x186ee8; 0x187c60; 0x3ffb860;
   0x3ffb060; 0x183a60; 0x187be0; 0x19fde0; 0x55fcef0; 0x3ff0730; 0x3f00610; 0x0;
   0x0; 0x0; 0x0; 0x202000; 0x0; 0x0; 0x0; 0x60;
   0x3fff060; 0x3fff070; 0x38037f0; 0x38077f8; 0x3803018; 0x3fff01c; 0x3fff00c; 0x1c77fc;
   0x1833f8; 0x1c70c0; 0x3fff0c0; 0x3fff0c0; 0x1837fc; 0x1c77fc; 0x1832e8; 0x1fff0c0;
   0x1fff0c0; 0x181f0c0; 0x180fec0; 0x181dfc0; 0x180dbe0; 0x1ffdde0; 0x1ffcc60; 0x181c820;
   0x0; 0x0; 0x0; 0x0; 0x202000; 0x0; 0x0; 0x0;
   0x70; 0xffe030; 0xffe030; 0x7007f8; 0x3c07f8; 0xc001c; 0x15d500c; 0x3fff80e;
   0x3fffffc; 0xc07f8; 0xc00c0; 0xc00c0; 0xfc0c0; 0x787fc; 0x7fc; 0x1fff2e8;
   0x1fff0c0; 0x19b30c0; 0x19b34c0; 0x19b36c0; 0x19b37c0; 0x19b33e0; 0x7fffdf0; 0x7fffc60;
   0x20; 0x0; 0x0; 0x0; 0x0; 0x202000; 0x0; 0x0;
   0x0; 0x1084060; 0x398c060; 0x1cce070; 0xce6ff0; 0xe77ff8; 0x633818; 0x67301c;
   0xee700c; 0x1cc67fc; 0x39ce7f8; 0x319c0c0; 0x10880c0; 0x3fff0c0; 0x3fff7fc; 0x38c77fc;
   0x38c32e8; 0x38c70c0; 0x3fff0c0; 0x3fff0c0; 0x38c30c0; 0x38c77c0; 0x38c37c0; 0x3fff1e0;
   0x3fff0e0; 0x3807020; 0x0; 0x0; 0x0; 0x0; 0x202000; 0x0;
   0x0; 0x0; 0x6060; 0x3a86060; 0x3fffc70; 0x3bbfbf0; 0x33067f8; 0x330601c;
   0x313f81c; 0x39bf80c; 0x19863fc; 0x19aebf8; 0x19ffce0; 0x1aee8e0; 0x1e760e0; 0x67fc;
   0x607fc; 0x602e8; 0x3fff8e0; 0x3fff8e0; 0x1f00e0; 0x1b04e0; 0x3b87e0; 0x71c3e0;
   0x1f1f1f0; 0x3c07c60; 0x1001800; 0x0; 0x0; 0x0; 0x0; 0x202000;
   0x0; 0x0; 0x0; 0x71c060; 0x308060; 0x175d070; 0x3fffff0; 0x7fffff8;
   0x3082bc; 0x7fc01e; 0xe000c; 0xffe7fc; 0xffe7f8; 0xdf60c0; 0xce60c0; 0xce60c0;
   0xce67fc; 0xce67fc; 0x3fffae8; 0x7fffcc0; 0xe00c0; 0x1f00c0; 0x3b00c0; 0x7387c0;
   0xf1e7e0; 0x3e0f1f0; 0x3803ee0; 0x3001c20; 0x0; 0x0; 0x0; 0x0;
   0x202000; 0x0; 0x0; 0x0; 0x187060; 0x186060; 0x1187070; 0x3986ff0;
   0x1fffff8; 0x7be01c; 0x18701e; 0x18600c; 0x71877fc; 0x21fe7f8; 0x3fff0c0; 0x3f6f0c0;
   0xe10c0; 0x60ffc; 0x1ffeffc; 0x1ffeae8; 0x1c060c0; 0x18060c0; 0x1ffe0c0; 0x1ffe0c0;
   0x1c066c0; 0x1806fc0; 0x1ffe3e0; 0x1ffe0e0; 0x1c06020; 0x0; 0x0; 0x0;
   0x0; 0x202000; 0x0; 0x0; 0x0; 0x186070; 0x186030; 0x3fc6030;
   0x3fe63f8; 0x38763f8; 0x18bec0c; 0x1dd6c0e; 0xf86c06; 0x707ffc; 0x387bf8; 0xdf7860;
   0xcf6060; 0xc16060; 0x3ff63fc; 0x7ff73fc; 0xc07ae8; 0xc77c60; 0xce6e60; 0xcc6460;
   0xdc6260; 0xd867e0; 0xc063e0; 0xc060f0; 0xf86030; 0x786010; 0x0; 0x0;
   0x0; 0x0; 0x202000; 0x0; 0x0; 0x0; 0x60; 0x1fff060;
   0x1fff070; 0x18c3ff8; 0x18c7ff8; 0x18c301c; 0x1fff01e; 0x1fff00c; 0x18c77fc; 0x18c37f8;
   0x18c70c0; 0x1fff0c0; 0x1fff0c0; 0x60ffc; 0xe0ffc; 0x9dbae8; 0x1d9b0c0; 0x1b9b0c0;
   0x391b0c0; 0x301bcc0; 0x7c19fc0; 0x6e19fe0; 0x17f99e0; 0x7f80e0; 0x140020; 0x0;
   0x0; 0x0; 0x0; 0x202000; 0x0; 0x0; 0x0; 0x60;
   0x3fbf060; 0x3fff070; 0x31b37f0; 0x31f37f8; 0x31b32bc; 0x3fff01e; 0x3fbf00c; 0x7fc;
   0xaaa3f8; 0x1ffe0c0; 0xaaa0c0; 0xc0; 0x3fffffc; 0x3fffffc; 0x182e8; 0x1c0c0;
   0xffc0c0; 0x1ffc0c0; 0xc008c0; 0xc00fc0; 0xc007e0; 0xe101e0; 0xfe00e0; 0x7e0000;
   0x0; 0x0; 0x0; 0x0; 0x202000; 0x0; 0x0; 0x0;
   0x1c00070; 0x1fe8070; 0x7ff070; 0xce7f8; 0xc07f8; 0xc001c; 0x7fff01c; 0x3fff00c;
   0x55d57fc; 0xc07f8; 0xd00c0; 0x2afe0c0; 0x3fdf0c0; 0x3ac37fc; 0x38c77fc; 0x38c32e8;
   0x3fdf0c0; 0x3edf0c0; 0x3dd70c0; 0x38c34c0; 0x38c7fc0; 0x3aeb3c0; 0x3fff1e0; 0x3aab060;
   0x3807020; 0x0; 0x0; 0x0; 0x0; 0x202000; 0x0; 0x0;
   0x0; 0x710070; 0x23e030; 0x71fc30; 0x207ff8; 0x7073f8; 0x20601c; 0x77c700c;
   0x32c600c; 0x37dfdfc; 0x33dfdf8; 0x3747060; 0x1f67060; 0x1f6f060; 0x71fbfc; 0x71fbfc].
Definition hanzi_data_467 : list N :=
  [0x7168e8; 0x717c60; 0xd86e60; 0xd87660; 0xd86460; 0x1dc7360; 0x38e63e0; 0x70671f0;
   0x3076030; 0x2027010; 0x0; 0x0; 0x0; 0x0; 0x202000; 0x0;
   0x0; 0x0; 0xc00060; 0x1ffa060; 0x7ff070; 0xe27f0; 0xe07f8; 0x3fff818;
   0x3fff81c; 0xe000c; 0x1fff7fc; 0x1fff7f8; 0x18e70c0; 0x18e30c0; 0x1fff0c0; 0x18e37fc;
   0x18e77fc; 0x1fff2e8; 0x1fff0c0; 0xe00c0; 0x1fff0c0; 0x1fff0c0; 0xe07c0; 0xe07c0;
   0x7fff9e0; 0x3fff8e0; 0x20; 0x0; 0x0; 0x0; 0x0; 0x202000;
   0x0; 0x0; 0x0; 0xc070; 0xfde070; 0xfcf030; 0xcc3bf8; 0xcc1bf8;
   0xcc1abc; 0xcc180e; 0xcdf80c; 0xc7fbfc; 0x3c61bf8; 0x7871860; 0x21860; 0x3fff860;
   0x1fffbfc; 0x18c1bfc; 0x18c1ae8; 0x1dc1860; 0xd99860; 0xf9fc60; 0x78fc60; 0x781f60;
   0xfc1be0; 0x1df19f0; 0x3879860; 0x1031800; 0x0; 0x0; 0x0; 0x0;
   0x202000; 0x0; 0x0; 0x0; 0x60060; 0x68060; 0x1f7f070; 0x1f67bf0;
   0x1861bf8; 0x1861818; 0x1f6f81c; 0x1f6f80c; 0x1861bfc; 0x1861bf8; 0x1fff860; 0x1fff860;
   0x1575060; 0x603fc; 0x607fc; 0x1fffae8; 0x1fffc60; 0xe07060; 0x70e060; 0x39c260;
   0x1f87e0; 0x1f83e0; 0x1fff1f0; 0x3f0fe30; 0x1c01e10; 0x0; 0x0; 0x0;
   0x0; 0x202000; 0x0; 0x0; 0x0; 0xe0060; 0xe0060; 0x60070;
   0x1ffeff0; 0x1ffeff8; 0x1806ab8; 0x1ffe01c; 0x1ffe00c; 0x18067fc; 0x18067f8; 0x1ffe0c0;
   0x1ffe0c0; 0xc0; 0x2aaaffc; 0x3fffffc; 0x2aea2e8; 0xc00c0; 0xc00c0; 0x1ffe0c0;
   0x1ffe0c0; 0xc07c0; 0xc07e0; 0x7fff9f0; 0x3fff8e0; 0x20; 0x0; 0x0;
   0x0; 0x0; 0x202000; 0x0; 0x0; 0x0; 0x1c00060; 0x1ffe860;
   0x7ff870; 0x1862bf0; 0x1c637f8; 0xc6601c; 0x66601e; 0x3fff80c; 0x3fffbfc; 0xc3f8;
   0xc060; 0x3fffc60; 0x3fffc60; 0xc3fc; 0x55e7fc; 0xffe2e8; 0xd5e060; 0xe0e060;
   0x71f060; 0x33bb60; 0x1f3fe0; 0x3e1de0; 0x1ffde70; 0x3e3ff30; 0x3806610; 0x0;
   0x0; 0x0; 0x0; 0x202000; 0x0; 0x0; 0x0; 0x70070;
   0x60030; 0xe0030; 0x3fffff8; 0x3fffff8; 0x1c; 0xe; 0xfff00c; 0x1fff3fc;
   0xc033f8; 0x1c070e0; 0xc030e0; 0x1fff0e0; 0xfff7fc; 0x10f87fc; 0x38dc2e8; 0x1dcf0e0;
   0xf8f8e0; 0x78dce0; 0x70c8e0; 0xf8c7e0; 0x1eec3e0; 0x7c7c1f0; 0x301e060; 0x6000;
   0x0; 0x0; 0x0; 0x0; 0x202000; 0x0; 0x0; 0x0;
   0xc0060; 0xc0060; 0x7fff070; 0x3fff7f0; 0x55577f8; 0xc23018; 0xc7701c; 0x3fff00c;
   0x3fff7fc; 0xc237f8; 0xc770c0; 0xfe30c0; 0xff70c0; 0x37fc; 0x1fff7fc; 0x1fff2e8;
   0x1d770c0; 0xc330c0; 0xe730c0; 0x7e38c0; 0x3c1fc0; 0x7e1fe0; 0x1ffddf0; 0x3c3ece0;
   0x300cc20; 0x0; 0x0; 0x0; 0x0; 0x202000; 0x0; 0x0;
   0x0; 0xc04060; 0xe0c060; 0x61c070; 0x7187f0; 0x3fff7f8; 0x3fff018; 0xe001c;
   0xaea00c; 0x1fff7fc; 0xaea3f8; 0xe00c0; 0x2aea8c0; 0x3fff8c0; 0x2aaaffc; 0xe07fc;
   0x602e8; 0x3fff8c0; 0x3fff8c0; 0x1f00c0; 0x1b04c0; 0x3b87c0; 0x71c7e0; 0x1e0f1e0;
   0x3c03ce0; 0x3001c20; 0x0; 0x0; 0x0; 0x0; 0x202000; 0x0;
   0x0; 0x0; 0xe0060; 0x18e3060; 0x1ce7070; 0xcee3f0; 0x6ec7f8; 0x3fff81c;
   0x3fff80e; 0x1f800c; 0x7fc3fc; 0xeee3f8; 0x3ce78e0; 0x38e38e0; 0x10f08e0; 0x303fc;
   0x15757fc; 0x3fffae8; 0x3fff8e0; 0x60c0e0; 0x70e0e0; 0x3be2e0; 0x1fc7e0; 0x3e03e0;
   0x1f7c1f0; 0x3e3f870; 0x1007000; 0x0; 0x0; 0x0; 0x0; 0x202000;
   0x0; 0x0; 0x0; 0xc04070; 0xe0e030; 0x61c030; 0x6183f8; 0x7183f8;
   0x3fffeac; 0x3fffc0c; 0x20e006; 0x7063fc; 0x3063f8; 0x1337060; 0x3bb3060; 0x19b3060;
   0x199bbfc; 0x1fdfffc; 0xfcfae8; 0xe0c060; 0x606060; 0x1f1f060; 0x1b33260; 0x1bb3be0;
   0x39bfbe0; 0x3fffcf0; 0x33a0830; 0x7010000; 0x0; 0x0; 0x0; 0x0;
   0x202000; 0x0; 0x0; 0x0; 0x3b0070; 0x3b0070; 0x1fff030; 0x1fff7f8;
   0x1bb07f8; 0x1fff01c; 0x1fff01c; 0x3bb00c; 0x3fffbfc; 0x3fffbf8; 0x339c0c0; 0x3b8e0c0;
   0x17878c0; 0x1fff7fc; 0x1fff7fc; 0x18062e8; 0x1ce70c0; 0x18e60c0; 0x1c670c0; 0x18664c0;
   0x1d777c0; 0x7b83e0; 0x1f3c1e0; 0x380f860; 0x3003020; 0x0; 0x0; 0x0;
   0x0; 0x202000; 0x0; 0x0; 0x0; 0x60; 0x3fff060; 0x3fff070;
   0x38c37f0; 0x38c37f8; 0x38c301c; 0x3fff00e; 0x3fff00c; 0x15573fc; 0x33f8; 0x3fff0e0;
   0x3ffb0e0; 0x381f0e0; 0x381b7fc; 0x3fff7fc; 0x3ffb2e8; 0x381f0e0; 0x381b8e0; 0x3ffd8e0;
   0x3ff9ae0; 0x381dfe0; 0x3819be0; 0x3ffddf0; 0x3ff8c70; 0x381cc20; 0x0; 0x0;
   0x0; 0x0; 0x202000; 0x0; 0x0; 0x0; 0x718060; 0x618060;
   0x3fff870; 0x3fffff0; 0x7187f8; 0x618018; 0x1fff01c; 0x1ffe00c; 0x18073fc; 0x18063f8;
   0x1fff0c0; 0x1aae0c0; 0x18070c0; 0x1ffe7fc; 0x1fff7fc; 0xe02e8; 0xe00c0; 0x3fff0c0;
   0x3fff0c0; 0x1f04c0; 0x3f0fc0; 0x7387e0; 0x1f1f1e0; 0x3c0f860; 0x3001820; 0x0;
   0x0; 0x0; 0x0; 0x202000; 0x0; 0x0; 0x0; 0x1c0060;
   0xc0060; 0x15d5070; 0x3fffff0; 0x1575ff8; 0x60018; 0x1ffe01c; 0x1ffe00c; 0x1c067fc;
   0x1ffe7f8; 0x1ffe0c0; 0x18060c0; 0x1ffe0c0; 0x1aaeffc; 0x1c06ffc; 0x1ffe2e8; 0x1d560c0;
   0x18060c0; 0x7fff8c0; 0x3fff8c0; 0x7387c0; 0xf3c7c0; 0x1c1f1e0; 0x38078e0; 0x1003020;
   0x0; 0x0; 0x0; 0x0; 0x202000; 0x0; 0x0; 0x0;
   0x6e0060; 0x1ee0060; 0x1ce0070; 0x3fffff0; 0x3fffff8; 0xe02b8; 0x1fff01c; 0x1fff00c;
   0x18e37fc; 0x1fff3f8; 0x1fff0e0; 0x18e30e0; 0x1fff0e0; 0x1fff7fc; 0x1ce37fc; 0x6022e8;
   0x7fff8e0; 0x3fff8e0; 0x57550e0; 0x60e4e0; 0x71c7e0; 0x6387e0; 0x7101f0; 0x7c0060;
   0x3c0000; 0x0; 0x0; 0x0; 0x0; 0x202000; 0x0; 0x0].
Definition hanzi_data_468 : list N :=
  [0x0; 0x60; 0x3fff860; 0x3fff870; 0x7f0; 0x1fff7f8; 0x1fff01c; 0x1c0701e;
   0x180300c; 0x1fff7fc; 0x1fff3f8; 0xe0; 0x2aaa8e0; 0x3fff8e0; 0x3209ffc; 0x371dffc;
   0x3339ae8; 0x31b18e0; 0x37fd8e0; 0x37fd8e0; 0x30618e0; 0x3061fe0; 0x3061be0; 0x30619f0;
   0x3e61860; 0x1c41820; 0x0; 0x0; 0x0; 0x0; 0x202000; 0x0;
   0x0; 0x0; 0x70; 0x3fff830; 0x3fffc30; 0xc033f8; 0xd573f8; 0xfff00c;
   0xc0300e; 0xc03006; 0xfff3fc; 0xc033f8; 0x7d03060; 0x3fff860; 0xdffc60; 0x8003fc;
   0x3fffffc; 0x3fffee8; 0x30d8060; 0x1898c60; 0x1d9fc60; 0xf8f260; 0x71f360; 0xf3b3e0;
   0x1dd1df0; 0x38e0e30; 0x3060410; 0x0; 0x0; 0x0; 0x0; 0x202000;
   0x0; 0x0; 0x0; 0xc0060; 0x18c6060; 0x1cc6070; 0xccc7f0; 0xedc7f8;
   0xc82b8; 0x3fff01c; 0x3fff00c; 0x30037fc; 0x30037f8; 0x3fff0c0; 0x2ffe0c0; 0xe0c0c0;
   0xe0c7fc; 0xe0c7fc; 0xeac2e8; 0xffc0c0; 0xffc0c0; 0x3300c0; 0x3380c0; 0x73187c0;
   0x231c7e0; 0x330f1f0; 0x3f07860; 0x1f01020; 0x0; 0x0; 0x0; 0x0;
   0x202000; 0x0; 0x0; 0x0; 0xcc060; 0x1cc060; 0x186070; 0x3ffeff0;
   0x3fffff8; 0x187018; 0x1fff81c; 0x1fff80c; 0x186ffc; 0x1ffe7f8; 0x1ffe0c0; 0x1860c0;
   0x3ffe0c0; 0x3ffe7fc; 0x67fc; 0x7ff2e8; 0x7ff0c0; 0x3180c0; 0x3f1c0c0; 0x3a0c0c0;
   0x380c7c0; 0x180e7c0; 0x18071e0; 0x1f838e0; 0xf81820; 0x0; 0x0; 0x0;
   0x0; 0x202000; 0x0; 0x0; 0x0; 0x60060; 0x60060; 0x1fff070;
   0x1fffff0; 0x1c07ff8; 0x1803018; 0x1fff01c; 0x1aab00c; 0x1c077fc; 0x1fff7f8; 0x1d570c0;
   0x18030c0; 0x1fff0c0; 0x1fff7fc; 0x607fc; 0x2aeaae8; 0x3fff8c0; 0x2afa8c0; 0x1f80c0;
   0x3f84c0; 0x76e7c0; 0xe677c0; 0x3c679e0; 0x38618e0; 0x1060020; 0x0; 0x0;
   0x0; 0x0; 0x202000; 0x0; 0x0; 0x0; 0x60060; 0xf0060;
   0x1f8070; 0x39e7f0; 0x1f5f7f8; 0x3fffc18; 0x3155c1c; 0xfff00c; 0xfff3fc; 0xc033f8;
   0xfff0e0; 0xfff0e0; 0xf000e0; 0x1fffffc; 0x17f7fc; 0x602e8; 0x1fff8e0; 0x1fff8e0;
   0x600e0; 0x3fff8e0; 0x7ffffe0; 0x603e0; 0x601f0; 0x7c060; 0x7c020; 0x0;
   0x0; 0x0; 0x0; 0x202000; 0x0; 0x0; 0x0; 0x10060;
   0x3e060; 0x3fdf870; 0x3fc3bf0; 0x3101ff8; 0x331981c; 0x319980e; 0x39b180c; 0x19bdbfc;
   0x18bfbf8; 0x1ec7ce0; 0x1ee18e0; 0x400e0; 0x1fff3fc; 0x1fff7fc; 0x18632e8; 0x18630e0;
   0x1aeb0e0; 0x1fff0e0; 0x18632e0; 0x18637e0; 0x18633e0; 0x1fff1f0; 0x1fff070; 0x1803000;
   0x0; 0x0; 0x0; 0x0; 0x202000; 0x0; 0x0; 0x0;
   0x70060; 0x60060; 0x60070; 0x3fffff0; 0x3fffff8; 0x1c; 0xfff01e; 0xffe00c;
   0xc077fc; 0xc067f8; 0xfff0e0; 0xffe0e0; 0xe0; 0x3fffffc; 0x3fffffc; 0x3803ae8;
   0x3bfb8e0; 0x3bfb8e0; 0x3b1b8e0; 0x3b1bce0; 0x3bfbfe0; 0x3bfbfe0; 0x38039e0; 0x3e038e0;
   0x1e03820; 0x0; 0x0; 0x0; 0x0; 0x202000; 0x0; 0x0;
   0x0; 0x60070; 0xe0030; 0x15d5030; 0x1fffff8; 0x1fff7f8; 0xe0c01c; 0x61c01c;
   0x61800c; 0x3fffbfc; 0x3aabbf8; 0x30618e0; 0x30e18e0; 0xc00e0; 0x3fffffc; 0x3fffffc;
   0x382e8; 0x180e0; 0xff80e0; 0x1ff80e0; 0xc1c2e0; 0xc0c7e0; 0xc0e3e0; 0xc071f0;
   0xfc3c70; 0x7c1800; 0x0; 0x0; 0x0; 0x0; 0x202000; 0x0;
   0x0; 0x0; 0x404060; 0xc06060; 0xe0c070; 0x61c7f0; 0x71c7f8; 0x20801c;
   0x3fff81c; 0x3fff80e; 0x1083fc; 0x7183f8; 0xf1c0e0; 0x1c0e0e0; 0x38078e0; 0x3003bfc;
   0x1fff7fc; 0x1fff2e8; 0x1df70e0; 0x19b30e0; 0x19b30e0; 0x19b30e0; 0x19b37e0; 0x19b37e0;
   0x7fffdf0; 0x7fffce0; 0x20; 0x0; 0x0; 0x0; 0x0; 0x202000;
   0x0; 0x0; 0x0; 0x70030; 0x60030; 0xe0030; 0x3fffbf8; 0x3fffffc;
   0x300180c; 0x300180e; 0x3fff804; 0xfff3fc; 0x303f8; 0x183c060; 0x1c3e060; 0xf67c60;
   0x3f1bfc; 0x7dc7fc; 0x6ce2e8; 0xdc7860; 0xce3c60; 0x1df0860; 0x399c260; 0x71cf7e0;
   0x2083be0; 0xc1cf0; 0xf8030; 0x78000; 0x0; 0x0; 0x0; 0x0;
   0x202000; 0x0; 0x0; 0x0; 0x70070; 0xe0030; 0xe0030; 0x3fffbf8;
   0x3fffff8; 0x300381c; 0x3f0380e; 0x3fff80c; 0x7fc3fc; 0xc3f8; 0xc060; 0x1ffc060;
   0x1ffc060; 0x38c7fc; 0x38c7fc; 0x38c2e8; 0x38c060; 0x3fff860; 0x3fff860; 0x260;
   0x71c7e0; 0xe1e3e0; 0x1c0f0f0; 0x3803c30; 0x1001810; 0x0; 0x0; 0x0;
   0x0; 0x202000; 0x0; 0x0; 0x0; 0x70060; 0x60060; 0xe0070;
   0x3fff7f0; 0x3fff7f8; 0x30032b8; 0x330b01c; 0x371f00c; 0xe0c7fc; 0x1ce67f8; 0x18e78c0;
   0x10f30c0; 0x1f80c0; 0x3187fc; 0xf1c7fc; 0x1c0e2e8; 0x7fff8c0; 0x3fffcc0; 0xe0ecc0;
   0xe0e0c0; 0xe0e7c0; 0xe0e7c0; 0xffe1f0; 0xffe0e0; 0xe0e020; 0x0; 0x0;
   0x0; 0x0; 0x202000; 0x0; 0x0; 0x0; 0x60; 0x3fff860;
   0x3fff870; 0x1987f0; 0x1987f8; 0x3fff018; 0x3fff01c; 0x399b00c; 0x399b7fc; 0x399b7f8;
   0x3fff0c0; 0x2aaa0c0; 0xc0; 0x1fff7fc; 0x1fff7fc; 0x2e8; 0x7fff8c0; 0x3fff8c0;
   0x4c00c0; 0x6ce0c0; 0x1cc67c0; 0x18c77c0; 0x38c3de0; 0x10f98e0; 0x78020; 0x0;
   0x0; 0x0; 0x0; 0x202000; 0x0; 0x0; 0x0; 0xc0060;
   0x18c7060; 0x1cc6070; 0xccc7f0; 0xedc7f8; 0x2aea81c; 0x3fff81e; 0x3aab80c; 0x3003ffc;
   0x3fffff8; 0x1fff0e0; 0xc060e0; 0xc060e0; 0xc067fc; 0xffe7fc; 0xaea2e8; 0xc00e0;
   0xaea0e0; 0x1fff0e0; 0xaea4e0; 0xc07e0; 0xc03e0; 0x7fff9e0; 0x3fff870; 0x20;
   0x0; 0x0; 0x0; 0x0; 0x202000; 0x0; 0x0; 0x0;
   0x60; 0x1ffe060; 0x1d56070; 0x18067f0; 0x1ffe7f8; 0x1806018; 0x1d5601c; 0x1ffe00c;
   0x7fc; 0x3fff7f8; 0x3fff0c0; 0x33330c0; 0x33330c0; 0x3fff7fc; 0x3fff7fc; 0x2e8].
Definition hanzi_data_469 : list N :=
  [0x1fff0c0; 0x1eae0c0; 0xe1c0c0; 0x7380c0; 0x3f0fc0; 0x1f07e0; 0x1fff1e0; 0x3e0fce0;
   0x3801c20; 0x0; 0x0; 0x0; 0x0; 0x202000; 0x0; 0x0;
   0x0; 0x60; 0x1fff060; 0x1fff070; 0x18637f0; 0x18637f8; 0x1fff01c; 0x1fff01e;
   0x186300c; 0x1fff7fc; 0x1fff3f8; 0x380c0; 0x71c0c0; 0x3ff0c0; 0xff7fc; 0xe757fc;
   0xc3c2e8; 0x1fff0c0; 0x3fff8c0; 0x70d70c0; 0x6cc6c0; 0xec67c0; 0x1cc73e0; 0x38c39e0;
   0x30f9870; 0x78020; 0x0; 0x0; 0x0; 0x0; 0x202000; 0x0;
   0x0; 0x0; 0x60060; 0x1861820; 0x1861c30; 0x1861bf0; 0x1fffff8; 0x1fffab8;
   0x1fffc1c; 0xe; 0x3fdfdfc; 0x3f9f9f8; 0x31d9c60; 0x3098860; 0x3fdfc60; 0x3f9fbfc;
   0x31d9ffc; 0x3098ae8; 0x3fdfc60; 0x3fdfc60; 0x35ddc60; 0x30d8c60; 0x30d8d60; 0x30d8fe0;
   0x30f87f0; 0x3e7e770; 0x1c5e210; 0x0; 0x0; 0x0; 0x0; 0x202000;
   0x0; 0x0; 0x0; 0xe0060; 0xc0060; 0x15d5070; 0x3fff7f0; 0x3fff7f8;
   0x1832bc; 0x1ffb01e; 0x1bab00c; 0x3fff7fc; 0x3fff7f8; 0x19c30c0; 0x1ffb0c0; 0x1ffb0c0;
   0x1837fc; 0x1fff7fc; 0x1fff2e8; 0x19cf0c0; 0x1fff8c0; 0x1ffd8c0; 0x198d8c0; 0x1ffdfc0;
   0x198dfc0; 0x19cdde0; 0x1f8cce0; 0x1d4cc00; 0x0; 0x0; 0x0; 0x0;
   0x202000; 0x0; 0x0; 0x0; 0xe0060; 0xc0060; 0x3fff070; 0x3fff7f0;
   0xe1c7f8; 0x618018; 0x71801c; 0x3fff00c; 0x3fff7fc; 0x3f8; 0x1ffe0c0; 0x1ffe0c0;
   0x18060c0; 0x1ffe7fc; 0x1ffe7fc; 0x18062e8; 0x1ffe0c0; 0x1ffe0c0; 0x3380c0; 0x3386c0;
   0x73187c0; 0x231c3e0; 0x730f1f0; 0x3f07c60; 0x1f01c20; 0x0; 0x0; 0x0;
   0x0; 0x202000; 0x0; 0x0; 0x0; 0x60060; 0xe0060; 0x3fff870;
   0x3fffff0; 0x60c7f8; 0x60c018; 0x71c01c; 0x2baa00c; 0x3fff7fc; 0x38c33f8; 0x38c30c0;
   0x3aeb0c0; 0x3fff0c0; 0x38c37fc; 0x38c37fc; 0x3bfb2e8; 0x3bfb0c0; 0x3a1b0c0; 0x3b1b0c0;
   0x3abb4c0; 0x3bfb7c0; 0x381b3e0; 0x38031f0; 0x3e03060; 0x1e03020; 0x0; 0x0;
   0x0; 0x0; 0x202000; 0x0; 0x0; 0x0; 0x1c1060; 0xc3860;
   0xc3030; 0xc21f8; 0x7fffff8; 0x3fffe1c; 0x1f1c0c; 0x1b080c; 0x1b1dfc; 0x3f809f8;
   0x3fdfc60; 0x6cf860; 0x67dc60; 0x66cffc; 0x174dffc; 0x3fecee8; 0x7fecc60; 0xe0cc60;
   0xf0cc60; 0xf0cc60; 0x1f8c7e0; 0x198c7e0; 0x39cc6f0; 0x70efb30; 0x2067210; 0x0;
   0x0; 0x0; 0x0; 0x202000; 0x0; 0x0; 0x0; 0xc1030;
   0xc1830; 0xc3818; 0xe31f8; 0x7fe75fc; 0x3fefe0c; 0x7ff0e; 0x30c04; 0x1ff1dfc;
   0x3fe0cf8; 0x374fc70; 0x330fc20; 0x1f4cc70; 0x36cdfc; 0x76cdfc; 0x3f6cca8; 0x3f6cc70;
   0x36cc20; 0x76c670; 0x3ee620; 0x7f67f0; 0x3b67e0; 0x7fb6770; 0x3e3fb30; 0x1413910;
   0x0; 0x0; 0x0; 0x0; 0x202000; 0x0; 0x0; 0x0;
   0x60; 0x1fbf860; 0x1fff870; 0x18313f0; 0x19b3ff8; 0x1b362b8; 0x1e3801c; 0x1f3e00c;
   0x1bf7bfc; 0x18b1bf8; 0x18e0060; 0xf0060; 0x3b8060; 0xf1e3fc; 0x7cc7bfc; 0x3863ae8;
   0x233c860; 0x38e060; 0x1de4060; 0xc78060; 0x71e760; 0x3c03e0; 0x1fc1f0; 0x3f030;
   0x7010; 0x0; 0x0; 0x0; 0x0; 0x202000; 0x0; 0x0;
   0x0; 0x60; 0x3fff860; 0x7fff870; 0x3387f0; 0x3fff7f8; 0x3fff01c; 0x393301e;
   0x393300c; 0x3fff7fc; 0x3fff7f8; 0xc0; 0x1fff0c0; 0x1fff0c0; 0x18037fc; 0x1fff7fc;
   0x1aab2e8; 0x18070c0; 0x1fff0c0; 0x15f50c0; 0xe00c0; 0x7ffffc0; 0x3ffffe0; 0xe01e0;
   0xe00e0; 0xe0020; 0x0; 0x0; 0x0; 0x0; 0x202000; 0x0;
   0x0; 0x0; 0x70; 0x3fff830; 0x3fffc30; 0xbf8; 0x6c7ff8; 0x66681c;
   0x66dc0c; 0x26c80c; 0x3fffdfc; 0x3ffe9f8; 0x3311c60; 0x3fd6860; 0x3dd7c60; 0x3dd6bfc;
   0x1dd7ffc; 0xcd6ee8; 0xcd6c60; 0xefec60; 0xe5cc60; 0xe18c60; 0x1f1cfe0; 0x1b0cfe0;
   0x338e6f0; 0x3186630; 0x2084410; 0x0; 0x0; 0x0; 0x0; 0x202000;
   0x0; 0x0; 0x0; 0xe0060; 0x60060; 0x60070; 0x3fffbf8; 0x3fffff8;
   0x9b901c; 0x1f9b80e; 0xf1f00c; 0x70e3fc; 0xffe3f8; 0x1fff8e0; 0x3e07ce0; 0x17ff8e0;
   0x7fe3fc; 0x6067fc; 0x6062e8; 0x7fe0e0; 0x2ea0e0; 0x4640e0; 0x66e2e0; 0xc677e0;
   0x1c63be0; 0x3863df0; 0x1078870; 0x78000; 0x0; 0x0; 0x0; 0x0;
   0x202000; 0x0; 0x0; 0x0; 0x1b0060; 0x39b3060; 0x1db7070; 0xdb67f0;
   0xdb67f8; 0x3fff81c; 0x3fff81e; 0x60c00c; 0x71c7fc; 0x3183f8; 0x3fff0c0; 0x2aea0c0;
   0xe00c0; 0x1fff7fc; 0x1fff7fc; 0xe02e8; 0x3fff8c0; 0x3fff8c0; 0x1f00c0; 0x1f00c0;
   0x3b87c0; 0xf1c7e0; 0x1e0f1f0; 0x3c03ce0; 0x3001c20; 0x0; 0x0; 0x0;
   0x0; 0x202000; 0x0; 0x0; 0x0; 0x38060; 0x18060; 0x3fc070;
   0x3ae3f0; 0x15d77f8; 0x1fff81c; 0x18c7c0e; 0x18c380c; 0x1fff3fc; 0x18c33f8; 0x18c70e0;
   0x1fff0e0; 0x15550e0; 0x3fffffc; 0x3fffffc; 0x2e8; 0x1ffe0e0; 0xffe0e0; 0x1c060e0;
   0xffe2e0; 0x1ffe7e0; 0xc063e0; 0x1ffe1f0; 0xffe070; 0x1c06000; 0x0; 0x0;
   0x0; 0x0; 0x202000; 0x0; 0x0; 0x0; 0x303070; 0x303030;
   0x387030; 0x3bfff8; 0x1bfff8; 0x3f8000c; 0x7f9fc0e; 0x189ac06; 0x19d8dfc; 0x19d8df8;
   0x1dffc60; 0x9e0060; 0xddfc60; 0xdbfffc; 0xf1d7fc; 0xf0e2e8; 0x707060; 0x63e060;
   0x73fe60; 0xf87e60; 0xd87160; 0x1dc63e0; 0x38e71f0; 0x3877c30; 0x3031c00; 0x0;
   0x0; 0x0; 0x0; 0x202000; 0x0; 0x0; 0x0; 0x830;
   0x2aa9c30; 0x3ffb830; 0x3aab3f8; 0x30473fc; 0x306000c; 0x3575c0c; 0x37fec04; 0x3575dfc;
   0x3060df8; 0x37ffc60; 0x36eec60; 0x377fc60; 0x37f6ffc; 0x36f7ffc; 0x37feee8; 0x37ffc60;
   0x30f0c60; 0x31f9c60; 0x336ce60; 0x366ffe0; 0x3262de0; 0x3061cf0; 0x3f00c30; 0x1f01c10;
   0x0; 0x0; 0x0; 0x0; 0x202000; 0x0; 0x0; 0x0].
Definition hanzi_data_470 : list N :=
  [0x60c060; 0x60c060; 0x718070; 0x2bbaff0; 0x3fffff8; 0x2bba018; 0x3bbb81c; 0x1bbb00c;
   0xfbe7fc; 0xfbe3f8; 0x57fd0c0; 0x3fff8c0; 0x7fff8c0; 0x7fc; 0x1fff7fc; 0xffe2e8;
   0x1c070c0; 0xc060c0; 0x1fff0c0; 0xffe0c0; 0x1c077c0; 0xc067e0; 0x1fff1f0; 0xeae0e0;
   0x1c07020; 0x0; 0x0; 0x0; 0x0; 0x202000; 0x0; 0x0;
   0x0; 0x70070; 0x60070; 0x3fff830; 0x3fffbf8; 0x3001ff8; 0x33b981c; 0x1f1f80e;
   0x3ce780c; 0x10e3bfc; 0x1ffe3f8; 0x1fff0e0; 0x18e20e0; 0x1ce70e0; 0x1ffe7fc; 0x1fff7fc;
   0xe02e8; 0x3fff0e0; 0x3fff0e0; 0x38e30e0; 0x38e36e0; 0x3fff7e0; 0x3fff3e0; 0x38e31f0;
   0xe0070; 0xe0000; 0x0; 0x0; 0x0; 0x0; 0x202000; 0x0;
   0x0; 0x0; 0x60; 0x1fefc20; 0x1fefc30; 0x186c3f8; 0x186c3f8; 0x186c01c;
   0x1fec00c; 0x1fef80c; 0x30fdfc; 0x3009f8; 0x1ff1c60; 0x1fe0c60; 0x1b30c60; 0x1b2fffc;
   0x1b3fffc; 0x1b2e2e8; 0x1ffc060; 0x1fee060; 0x1306060; 0x1b06060; 0x1b06760; 0x3b063e0;
   0x3fff5f0; 0x33ffc70; 0x3001c10; 0x0; 0x0; 0x0; 0x0; 0x202000;
   0x0; 0x0; 0x0; 0x100060; 0x9bf060; 0x1fbf070; 0x7b87f0; 0x33197f8;
   0x3b1f81c; 0x1f1f01e; 0xe0e00c; 0x1fff7fc; 0x3bfbbf8; 0x7001cc0; 0x2ffe8c0; 0xffe0c0;
   0xc067fc; 0xc067fc; 0xc062e8; 0xffe0c0; 0xffe0c0; 0x60c0c0; 0x60c4c0; 0x31c7c0;
   0x3183e0; 0x7fff9f0; 0x3fff860; 0x20; 0x0; 0x0; 0x0; 0x0;
   0x202000; 0x0; 0x0; 0x0; 0x718060; 0x618060; 0x3fff870; 0x3fffff0;
   0x75c7f8; 0xce018; 0x15d601c; 0x3ffe00c; 0x1877fc; 0x1fffbf8; 0x1fff8c0; 0x1868c0;
   0x1ffe0c0; 0x1867fc; 0x3ffe7fc; 0x3ffe2e8; 0x60c0; 0x1fff0c0; 0x1fff0c0; 0xe1c0c0;
   0x7787c0; 0x3e07e0; 0xffc1e0; 0x3f3f8e0; 0x1c07820; 0x0; 0x0; 0x0;
   0x0; 0x202000; 0x0; 0x0; 0x0; 0x60; 0xaaa060; 0x1fff070;
   0xc07f0; 0xc07f8; 0x3fff81c; 0x3fff81e; 0x30c180c; 0x3fdfbfc; 0xfde3f8; 0xc00c0;
   0x1fde0c0; 0x1fdf0c0; 0xc07fc; 0x1fff7fc; 0x1fff2e8; 0x18c70c0; 0x18c30c0; 0x1fff0c0;
   0x1fff6c0; 0x18c77c0; 0x18c33e0; 0x1fff1e0; 0x1fff070; 0x1807020; 0x0; 0x0;
   0x0; 0x0; 0x202000; 0x0; 0x0; 0x0; 0x60; 0x1fff060;
   0x1fff070; 0x19933f0; 0x19937f8; 0x1fff018; 0x1fff01c; 0xc; 0x7fffffc; 0x3fffbf8;
   0x60; 0x1fff060; 0x1fff060; 0x18037fc; 0x1c037fc; 0x1fff2e8; 0x1fff060; 0x30f8060;
   0x3dde060; 0xf8f860; 0x70ff60; 0xe8cbe0; 0x3dfc1f0; 0x383e070; 0x3006000; 0x0;
   0x0; 0x0; 0x0; 0x202000; 0x0; 0x0; 0x0; 0x60;
   0x3fff060; 0x3fff070; 0x39337f8; 0x39337f8; 0x3bbb01c; 0x3fff01e; 0x2aae00c; 0xc7fc;
   0x3ffe3f8; 0x3fff0e0; 0x38338e0; 0x3831ce0; 0x3bffffc; 0x3bff7fc; 0x3b332e8; 0x1b330e0;
   0x1bff0e0; 0x1bff4e0; 0x19b06e0; 0x19707e0; 0x1bffbe0; 0x1f5f9f0; 0x1f00060; 0xf00020;
   0x0; 0x0; 0x0; 0x0; 0x202000; 0x0; 0x0; 0x0;
   0x60060; 0xe0060; 0x15d5070; 0x3fffbf0; 0x1555ff8; 0xc3981c; 0x63180e; 0x3ffd80c;
   0x3ffdbfc; 0x321bf8; 0x1ffd860; 0x1ffd860; 0x1b61860; 0x3fffbfc; 0x3fffffc; 0x1b21ae8;
   0x1f75860; 0x1ffd860; 0x771860; 0xf39a60; 0x1f79f60; 0x3b2dbe0; 0x7367df0; 0x2322c70;
   0x360c00; 0x0; 0x0; 0x0; 0x0; 0x202000; 0x0; 0x0;
   0x0; 0x60060; 0xc0060; 0x3fff070; 0x3fff7f0; 0xe1c7f8; 0x61801c; 0x175d01e;
   0x3fff80c; 0x7fffbfc; 0x3f8; 0x1ffe060; 0x1806060; 0x1d56060; 0x1ffe7fc; 0x1c067fc;
   0x1aae2e8; 0x1ffe060; 0x60060; 0x1cf1060; 0x19db460; 0x199b760; 0x3e19be0; 0x7619de0;
   0x27f8870; 0x7f0020; 0x0; 0x0; 0x0; 0x0; 0x202000; 0x0;
   0x0; 0x0; 0x70070; 0x60030; 0x3fff830; 0x3fffbf8; 0x3555ff8; 0x308d81c;
   0x1fff00e; 0x3ffe00c; 0x19f33fc; 0xf3fbf8; 0xf1dce0; 0x61b0e0; 0xfff0e0; 0x1bf63fc;
   0x7807ffc; 0x2001ee8; 0x1fffce0; 0x1fff0e0; 0x4e40e0; 0xeee6e0; 0x1ce77e0; 0x18e33e0;
   0x38e3df0; 0x10f8870; 0x78000; 0x0; 0x0; 0x0; 0x0; 0x202000;
   0x0; 0x0; 0x0; 0x60030; 0xe0030; 0x15d5030; 0x3fffbf8; 0x175dbfc;
   0x31980c; 0x3fff80c; 0x3fff804; 0x33199fc; 0x3bbb9f8; 0x3fff860; 0x30d860; 0x1b0dc60;
   0x3f7dbfc; 0x75dffc; 0x230cae8; 0x33fdc60; 0x3f3ec60; 0x4c60; 0x9acf60; 0x1976fe0;
   0x1b26ee0; 0x3367670; 0x3263630; 0x1100610; 0x0; 0x0; 0x0; 0x0;
   0x202000; 0x0; 0x0; 0x0; 0x1c46060; 0xee7060; 0x773870; 0x339bf0;
   0xe773f8; 0x1ce62bc; 0x1fff80e; 0x1fff80c; 0x1b1dbfc; 0x19f9bf8; 0x19f1860; 0x1b9f860;
   0x1fff860; 0x1fffbfc; 0xc61ffc; 0xce5ae8; 0xfff860; 0xe69860; 0xde5860; 0xfef860;
   0x1f79b60; 0x6a61be0; 0x7bef9f0; 0x3bff870; 0x3071800; 0x0; 0x0; 0x0;
   0x0; 0x202000; 0x0; 0x0; 0x0; 0xc070; 0x1fe030; 0x3ff030;
   0x1c3bf8; 0x1fffff8; 0x1803abc; 0x1fff81c; 0x1fff80c; 0x19833fc; 0x3fbf3f8; 0x77d70e0;
   0x3bbf8e0; 0x3f9f0e0; 0x1fe3fc; 0x3ff7fc; 0x183ae8; 0x1fffce0; 0x18638e0; 0x18738e0;
   0x1fffae0; 0x17f57e0; 0x2ef83e0; 0x6cdf1f0; 0x3fc7e70; 0x3f81c00; 0x0; 0x0;
   0x0; 0x0; 0x202000; 0x0; 0x0; 0x0; 0x70070; 0xe0030;
   0x3fffc30; 0x3fffbf8; 0x15153f8; 0x1fbf2bc; 0x19b300c; 0x19b300c; 0x1fbf3fc; 0xbae3f8;
   0x175d060; 0x3fff860; 0x175d060; 0xbaebfc; 0x1fffffc; 0x30c2e8; 0x7fffc60; 0x3fffc60;
   0x11fc060; 0x398e260; 0x1f0ff60; 0x78cfe0; 0x1efc0f0; 0x38fe020; 0x3004000; 0x0;
   0x0; 0x0; 0x0; 0x202000; 0x0; 0x0; 0x0; 0x380;
   0x700380; 0x780380; 0x3c0380; 0x1f0380; 0x78380; 0x3e380; 0xfb80; 0x7380;
   0x380; 0x15557d4; 0x3fffffc; 0x3fffffc; 0xc380; 0x1c380; 0x18380; 0x38380].
Definition hanzi_data_471 : list N :=
  [0x70380; 0xf0380; 0x1e0380; 0x7cc380; 0x1f0ff80; 0x7e07fc0; 0x38007c0; 0x80;
   0x0; 0x0; 0x0; 0x0; 0x202000; 0x0; 0x0; 0x0;
   0x30; 0x1fffc70; 0x1fffce0; 0x18000c0; 0x18001c0; 0x1800188; 0x1800018; 0x1800018;
   0x1800018; 0x1800018; 0x1800018; 0x1800018; 0x1800018; 0x1800018; 0x1800018; 0x1800018;
   0x1800018; 0x1800018; 0x1800018; 0x1800018; 0x1800018; 0x1800018; 0x1c00018; 0x1fc0018;
   0xfc0018; 0x0; 0x0; 0x0; 0x0; 0x202000; 0x0; 0x0;
   0x0; 0x30; 0x1fffc70; 0x1fffce0; 0x18001c0; 0x18001c0; 0x1800098; 0x1800018;
   0x1800018; 0x1800018; 0x1800018; 0x1800018; 0x1800018; 0x19fff98; 0x19fff98; 0x1955518;
   0x1800018; 0x1800018; 0x1800018; 0x1800018; 0x1800018; 0x1800018; 0x1800018; 0x1d40018;
   0x1f80018; 0xf80018; 0x0; 0x0; 0x0; 0x0; 0x202000; 0x0;
   0x0; 0x0; 0x20; 0x1fffc70; 0x1fffcf0; 0x1aaa8e0; 0x18001c0; 0x1800380;
   0x180e01c; 0x180e018; 0x180601c; 0x1806018; 0x180701c; 0x180f018; 0x181f81c; 0x183f818;
   0x1879c1c; 0x1870e18; 0x18e0f1c; 0x19c0798; 0x19c03dc; 0x1880098; 0x180001c; 0x1800018;
   0x1d4001c; 0x1f80018; 0x1f8001c; 0x0; 0x0; 0x0; 0x0; 0x202000;
   0x0; 0x0; 0x0; 0x30; 0xaaa830; 0x1fffc70; 0x1fffce0; 0x18001c0;
   0x1800080; 0x1800018; 0x18aaa18; 0x19fff18; 0x18fff18; 0x1800018; 0x1800018; 0x1855418;
   0x18ffe18; 0x18fff18; 0x1800018; 0x1800018; 0x1800018; 0x19fff98; 0x19fff98; 0x1800018;
   0x1800018; 0x1fc0018; 0x1f80018; 0x780018; 0x0; 0x0; 0x0; 0x0;
   0x202000; 0x0; 0x0; 0x0; 0x10; 0xaaa838; 0x1fffc70; 0x1fffce0;
   0x18001c0; 0x1838000; 0x1838018; 0x1838018; 0x1838018; 0x1bfff98; 0x1bfff98; 0x183c018;
   0x183e018; 0x183f018; 0x183f818; 0x183bc18; 0x1839f18; 0x1838798; 0x18383d8; 0x1838098;
   0x183f818; 0x183f018; 0x1d1f018; 0x1f00018; 0xf00018; 0x0; 0x0; 0x0;
   0x0; 0x202000; 0x0; 0x0; 0x0; 0x10; 0xaaa838; 0x1fffc70;
   0x1fffce0; 0x18001c0; 0x1800080; 0x1800018; 0x1800018; 0x187fe18; 0x187fe18; 0x1870618;
   0x1860618; 0x1870618; 0x1860618; 0x1870618; 0x1860618; 0x187fe18; 0x187fe18; 0x1855618;
   0x1800618; 0x1800018; 0x1800018; 0x1fc0018; 0x1f80018; 0x780018; 0x0; 0x0;
   0x0; 0x0; 0x202000; 0x0; 0x0; 0x0; 0x20; 0x1fffc70;
   0x1fffce0; 0x18001c0; 0x18001c0; 0x1800098; 0x187ff18; 0x187ff18; 0x1870618; 0x1860e18;
   0x1870618; 0x1830618; 0x19fff18; 0x19ffe18; 0x19d5518; 0x1880018; 0x19c0018; 0x18dff98;
   0x18dffd8; 0x18c0018; 0x18e0018; 0x18fe018; 0x187c018; 0x1f80018; 0xf00018; 0x0;
   0x0; 0x0; 0x0; 0x202000; 0x0; 0x0; 0x0; 0x30;
   0x1fffc70; 0x1fffce0; 0x1aaa8c0; 0x18001c0; 0x1800180; 0x180001c; 0x19fff98; 0x19fff9c;
   0x1806018; 0x180601c; 0x1806018; 0x180601c; 0x18fff18; 0x18fff1c; 0x1806018; 0x180601c;
   0x1806018; 0x180601c; 0x19fff98; 0x19fffdc; 0x1800018; 0x1d4001c; 0x1f80018; 0xf8001c;
   0x0; 0x0; 0x0; 0x0; 0x202000; 0x0; 0x0; 0x0;
   0x30; 0x1fffc70; 0x1fffcf0; 0x1aaa8e0; 0x18001c0; 0x1806080; 0x1806000; 0x1bfff98;
   0x1bfffdc; 0x1806018; 0x180601c; 0x19fff18; 0x19fff1c; 0x1806018; 0x180601c; 0x1bfffd8;
   0x1bfffdc; 0x1b86018; 0x198601c; 0x1986018; 0x19f601c; 0x18e6018; 0x1fc601c; 0x1f80018;
   0xf8001c; 0x0; 0x0; 0x0; 0x0; 0x202000; 0x0; 0x0;
   0x0; 0x20; 0x1fffc30; 0x1fffc70; 0x1aaa8e0; 0x18001c0; 0x1800180; 0x180601c;
   0x1806018; 0x180601c; 0x1aaea98; 0x1bfff9c; 0x1aafa98; 0x181f81c; 0x183f818; 0x1877c1c;
   0x18e6e18; 0x19c671c; 0x1986398; 0x19861dc; 0x1806098; 0x180601c; 0x1806018; 0x1fc601c;
   0x1f80018; 0xf8001c; 0x0; 0x0; 0x0; 0x0; 0x202000; 0x0;
   0x0; 0x0; 0x20; 0x1fffc70; 0x1fffce0; 0x18001c0; 0x18001c0; 0x1803998;
   0x1803818; 0x1803818; 0x19fffd8; 0x19fff98; 0x1801c18; 0x1808c18; 0x181cc18; 0x180ce18;
   0x180e718; 0x1826318; 0x1867398; 0x18e3198; 0x18d39d8; 0x18ff898; 0x19ffc18; 0x1880818;
   0x1800018; 0x1f80018; 0xf80018; 0x0; 0x0; 0x0; 0x0; 0x202000;
   0x0; 0x0; 0x0; 0x10; 0xaaa838; 0x1fffc70; 0x1fffce0; 0x18001c0;
   0x1800000; 0x1800018; 0x1800018; 0x187fe18; 0x187fe18; 0x1860618; 0x1860618; 0x1860618;
   0x187fe18; 0x187fe18; 0x1860618; 0x1860618; 0x1860618; 0x187fe18; 0x187fe18; 0x1800018;
   0x1800018; 0x1d00018; 0x1f00018; 0x1f00018; 0x0; 0x0; 0x0; 0x0;
   0x202000; 0x0; 0x0; 0x0; 0x70; 0x1fffc70; 0x1fffce0; 0x18001c0;
   0x18001c0; 0x1803098; 0x1807018; 0x180e018; 0x19fff98; 0x19fff98; 0x1870018; 0x1830218;
   0x1838718; 0x1838e18; 0x181fc18; 0x180f818; 0x181f018; 0x183f818; 0x187bc18; 0x18f1e18;
   0x18e07d8; 0x1840398; 0x1d40018; 0x1f80018; 0xf80018; 0x0; 0x0; 0x0;
   0x0; 0x202000; 0x0; 0x0; 0x0; 0x10; 0xaaa838; 0x1fffc70;
   0x1fffce0; 0x18021c0; 0x1803000; 0x1807018; 0x180e018; 0x19fffd8; 0x19fff98; 0x1800018;
   0x1800018; 0x183fc18; 0x183fc18; 0x1830c18; 0x1830c18; 0x1830c18; 0x1930e18; 0x1b30618;
   0x1b30718; 0x1bf0398; 0x19e0198; 0x1800098; 0x1f00018; 0x1f00018; 0x0; 0x0;
   0x0; 0x0; 0x202000; 0x0; 0x0; 0x0; 0x30; 0x1fffc70;
   0x1fffce0; 0x18000c0; 0x18001c0; 0x1803098; 0x1807018; 0x1806018; 0x180dc18; 0x18ccc18;
   0x19ddd98; 0x1998d98; 0x1981d98; 0x1b80d98; 0x1b21dd8; 0x1b60cd8; 0x1b61cd8; 0x1b60cf8;
   0x1871c18; 0x183f818; 0x183f818; 0x1800018; 0x1c40018; 0x1f80018; 0xf80018; 0x0;
   0x0; 0x0; 0x0; 0x202000; 0x0; 0x0; 0x0; 0x10].
Definition hanzi_data_472 : list N :=
  [0xaaa838; 0x1fffc70; 0x1fffce0; 0x18001c0; 0x1800000; 0x1955518; 0x18fff98; 0x19fff98;
   0x1886398; 0x19c6398; 0x18fff98; 0x19fff98; 0x1886398; 0x19c6398; 0x18fff98; 0x19fff98;
   0x18aeb98; 0x19c6118; 0x1806018; 0x1806018; 0x1806018; 0x1d06018; 0x1f06018; 0xf00018;
   0x0; 0x0; 0x0; 0x0; 0x202000; 0x0; 0x0; 0x0;
   0x20; 0xaaa870; 0x1fffcf0; 0x1fffce0; 0x18021c0; 0x1803080; 0x1807018; 0x180e018;
   0x1bfffd8; 0x1bfff98; 0x1806018; 0x1806018; 0x18fff18; 0x18fff18; 0x18c6318; 0x18c6318;
   0x18c6318; 0x18c6318; 0x18c6318; 0x18f6318; 0x18f6318; 0x1806018; 0x1d06018; 0x1f82018;
   0xf80018; 0x0; 0x0; 0x0; 0x0; 0x202000; 0x0; 0x0;
   0x0; 0x20; 0x1fffc70; 0x1fffce0; 0x18000c0; 0x18041c0; 0x1806098; 0x1857518;
   0x18fff18; 0x18fff18; 0x1806018; 0x1806018; 0x19fff98; 0x19fff98; 0x1800018; 0x1806018;
   0x18aea18; 0x18fff18; 0x18aea18; 0x1806018; 0x1806018; 0x19fffd8; 0x19fff98; 0x1d40018;
   0x1f80018; 0x780018; 0x0; 0x0; 0x0; 0x0; 0x202000; 0x0;
   0x0; 0x0; 0x10; 0xaaa838; 0x1fffc70; 0x1aaa8e0; 0x18000c0; 0x1800000;
   0x19fff98; 0x19fff98; 0x1860618; 0x1860618; 0x187fe18; 0x187fe18; 0x1860618; 0x1860618;
   0x187fe18; 0x187fe18; 0x1860618; 0x1ae0618; 0x1bfffd8; 0x18fffd8; 0x1860058; 0x1860018;
   0x1d60018; 0x1f00018; 0xf00018; 0x0; 0x0; 0x0; 0x0; 0x202000;
   0x0; 0x0; 0x0; 0x10; 0xaaa838; 0x1fffc70; 0x1fffce0; 0x18000c0;
   0x1808000; 0x18181d8; 0x1818398; 0x1818718; 0x19ffa18; 0x19ff818; 0x1818018; 0x181c7d8;
   0x183c3d8; 0x187c718; 0x18e6218; 0x19c7718; 0x1983a18; 0x1901718; 0x1800f98; 0x1bffdd8;
   0x1bfe098; 0x1d00018; 0x1f00018; 0xf00018; 0x0; 0x0; 0x0; 0x0;
   0x202000; 0x0; 0x0; 0x0; 0x10; 0xaaa838; 0x1fffc70; 0x1fffce0;
   0x18001c0; 0x1806080; 0x1806018; 0x1806018; 0x19fff98; 0x18fff98; 0x19c6398; 0x18c6398;
   0x19c6398; 0x18c6398; 0x19fff98; 0x18fff98; 0x1846018; 0x18e6018; 0x19f6018; 0x19fff98;
   0x1bfffd8; 0x1900398; 0x1d00018; 0x1f00018; 0xf00018; 0x0; 0x0; 0x0;
   0x0; 0x202000; 0x0; 0x0; 0x0; 0x20; 0x1fffc70; 0x1fffce0;
   0x18001c0; 0x18001c0; 0x1800098; 0x187fe18; 0x187fe18; 0x1860618; 0x1860618; 0x187fe18;
   0x187fe18; 0x1800018; 0x1800018; 0x19fff18; 0x18eab18; 0x19c0318; 0x18c0318; 0x19c0318;
   0x18fff18; 0x19fff18; 0x1800318; 0x1d40018; 0x1f80018; 0x780018; 0x0; 0x0;
   0x0; 0x0; 0x202000; 0x0; 0x0; 0x0; 0x10; 0xaaa838;
   0x1fffc70; 0x1fffce0; 0x18060c0; 0x1806000; 0x19c6198; 0x1886198; 0x19fff98; 0x18fff98;
   0x1800018; 0x1800018; 0x18fff98; 0x18fff98; 0x18c0018; 0x18eaa18; 0x18fff18; 0x1baab18;
   0x1b00318; 0x1b80318; 0x19fff18; 0x18ffe18; 0x1d00018; 0x1f80018; 0xf00018; 0x0;
   0x0; 0x0; 0x0; 0x202000; 0x0; 0x0; 0x0; 0x10;
   0x1fffc38; 0x1fffc70; 0x1aaa8e0; 0x18000c0; 0x1820000; 0x187c618; 0x18ec618; 0x19cc718;
   0x1a8c318; 0x1bff398; 0x18ffb98; 0x181dbd8; 0x198c3f8; 0x19dc358; 0x18f8318; 0x1878318;
   0x1838318; 0x193c318; 0x1a7e318; 0x1be7b18; 0x1bc3b18; 0x1d00318; 0x1f00018; 0xf00018;
   0x0; 0x0; 0x0; 0x0; 0x202000; 0x0; 0x0; 0x0;
   0x30; 0x1fffc70; 0x1fffce0; 0x18001c0; 0x18011c0; 0x1801898; 0x18ffc18; 0x18ffe18;
   0x1870f18; 0x1839bd8; 0x181f1d8; 0x180f018; 0x187fc18; 0x1bf0f98; 0x1bc07d8; 0x187fe18;
   0x187ff18; 0x1860618; 0x1860718; 0x1860618; 0x187ff18; 0x187fe18; 0x1860718; 0x1f80018;
   0xf80018; 0x0; 0x0; 0x0; 0x0; 0x202000; 0x0; 0x0;
   0x0; 0x30; 0x1fffc70; 0x1fffce0; 0x18000c0; 0x18071c0; 0x1806198; 0x180e018;
   0x19fff98; 0x19fff98; 0x1803818; 0x1821c18; 0x1838e18; 0x183ff18; 0x198eb18; 0x19c7018;
   0x18e3e18; 0x1870f98; 0x1838398; 0x183f018; 0x18f7818; 0x19c1f18; 0x1980798; 0x1d40198;
   0x1f80018; 0x780018; 0x0; 0x0; 0x0; 0x0; 0x202000; 0x0;
   0x0; 0x0; 0x10; 0xaaa838; 0x1fffc70; 0x1fffce0; 0x1c000c0; 0x1800000;
   0x1dfff98; 0x18fff98; 0x1dc6198; 0x1886198; 0x1dffd98; 0x18bfd98; 0x1dc7198; 0x188f198;
   0x1ddf998; 0x18b6d98; 0x1df6f98; 0x18a6598; 0x1dc6198; 0x18aab98; 0x1dfff98; 0x18aaa98;
   0x1c00018; 0x1f80018; 0xf80018; 0x0; 0x0; 0x0; 0x0; 0x202000;
   0x0; 0x0; 0x0; 0x20; 0x1fffc70; 0x1fffce0; 0x18001c0; 0x18019c0;
   0x1821998; 0x187fc18; 0x183ae18; 0x1818718; 0x18aeb98; 0x19fffd8; 0x18c6398; 0x19c6398;
   0x18fff98; 0x19fff98; 0x18c6398; 0x19c6398; 0x18fff98; 0x19fff18; 0x1b06018; 0x1bfe018;
   0x19fe018; 0x1854018; 0x1f80018; 0xf80018; 0x0; 0x0; 0x0; 0x0;
   0x202000; 0x0; 0x0; 0x0; 0x10; 0xaaa838; 0x1fffc70; 0x1fffce0;
   0x18004c0; 0x1860600; 0x1870c18; 0x1839c18; 0x1819818; 0x18fff18; 0x18fff18; 0x18c0318;
   0x18c0318; 0x18c0318; 0x18fff18; 0x18fff18; 0x181dc18; 0x1819818; 0x191dc18; 0x1b18e18;
   0x1b5c718; 0x19f83d8; 0x1d50198; 0x1f00018; 0xf00018; 0x0; 0x0; 0x0;
   0x0; 0x202000; 0x0; 0x0; 0x0; 0x20; 0x1fffc70; 0x1fffce0;
   0x18001c0; 0x18071c0; 0x1806098; 0x1857518; 0x18ffe18; 0x18f5718; 0x18e0218; 0x18fff18;
   0x18ffe18; 0x18e0718; 0x18eaa18; 0x18fff18; 0x1882218; 0x19c7718; 0x187e218; 0x1838718;
   0x18f6218; 0x19c7f18; 0x1880f18; 0x1800118; 0x1f80018; 0xf80018; 0x0; 0x0;
   0x0; 0x0; 0x202000; 0x0; 0x0; 0x0; 0x20; 0x1fffc30;
   0x1fffc70; 0x1aaa8e0; 0x18031c0; 0x1883080; 0x19bff9c; 0x18fff98; 0x18e301c; 0x1873018;
   0x1bfffdc; 0x1bfffd8; 0x180781c; 0x1803e18; 0x19fff1c; 0x18ffff8; 0x19c07dc; 0x18eae18].
Definition hanzi_data_473 : list N :=
  [0x19ffe1c; 0x18c0618; 0x19c061c; 0x18ffe18; 0x19ffe1c; 0x1fc0618; 0x1f8001c; 0x0;
   0x0; 0x0; 0x0; 0x202000; 0x0; 0x0; 0x0; 0x20;
   0x1fffc70; 0x1fffce0; 0x18001c0; 0x185c1c0; 0x18e8198; 0x19dc018; 0x1aaaa98; 0x1bfffd8;
   0x1abaa98; 0x1998018; 0x199bf98; 0x19db598; 0x18db198; 0x18db198; 0x187bf98; 0x1873f98;
   0x1a30018; 0x1b7bf18; 0x1b7bfd8; 0x1bee1d8; 0x19c7018; 0x1d42018; 0x1f80018; 0x780018;
   0x0; 0x0; 0x0; 0x0; 0x202000; 0x0; 0x0; 0x0;
   0x30; 0x1fffc30; 0x1fffc70; 0x1aaa8e0; 0x18071c0; 0x1803080; 0x1957d5c; 0x1bfffd8;
   0x1bfffdc; 0x1862e18; 0x18e671c; 0x19fff98; 0x1fffffc; 0x1ac6378; 0x18fff1c; 0x18fff18;
   0x18c631c; 0x18eeb18; 0x19fff1c; 0x1b06318; 0x1b0601c; 0x1bfe018; 0x185401c; 0x1f80018;
   0x1f8001c; 0x0; 0x0; 0x0; 0x0; 0x202000; 0x0; 0x0;
   0x0; 0x10; 0xaaa838; 0x1fffc70; 0x1fffce0; 0x18000c0; 0x1800000; 0x187ff18;
   0x187fe18; 0x1860718; 0x187fe18; 0x1875718; 0x1860218; 0x187ff18; 0x1800018; 0x19fff98;
   0x18fff98; 0x19c0398; 0x18fff98; 0x19fff98; 0x18c0398; 0x19fff98; 0x18fff98; 0x1d00018;
   0x1f80018; 0xf80018; 0x0; 0x0; 0x0; 0x0; 0x202000; 0x0;
   0x0; 0x0; 0x10; 0xaaa838; 0x1fffc70; 0x1fffce0; 0x18001c0; 0x1800000;
   0x19ffc18; 0x18fdf98; 0x19c0398; 0x18c0398; 0x19fdf98; 0x18fdf98; 0x19c0398; 0x18c0398;
   0x19fff98; 0x18fff98; 0x1819c18; 0x1818c18; 0x1b18c18; 0x1b18e18; 0x1bf87d8; 0x19f81d8;
   0x1800058; 0x1f00018; 0x1f00018; 0x0; 0x0; 0x0; 0x0; 0x202000;
   0x0; 0x0; 0x0; 0x20; 0xaaa830; 0x1fffc70; 0x1fffce0; 0x18001c0;
   0x18e0080; 0x19fffd8; 0x180ff98; 0x18c7318; 0x1866618; 0x1876618; 0x19fff98; 0x19fffd8;
   0x1980198; 0x19fffd8; 0x187ff18; 0x1870618; 0x1839e18; 0x181fc18; 0x181f018; 0x187be18;
   0x18e0f98; 0x1d40118; 0x1f80018; 0xf80018; 0x0; 0x0; 0x0; 0x0;
   0x202000; 0x0; 0x0; 0x0; 0x30; 0x1fffc70; 0x1fffce0; 0x18000c0;
   0x18401c0; 0x18fe098; 0x181ff18; 0x180c318; 0x195d718; 0x18fff18; 0x181c318; 0x1b3a318;
   0x19f7f98; 0x19e0f98; 0x187ff18; 0x187ff18; 0x1860718; 0x186ab18; 0x187ff18; 0x1860318;
   0x187ff18; 0x187ff18; 0x1d60718; 0x1f80018; 0x780018; 0x0; 0x0; 0x0;
   0x0; 0x202000; 0x0; 0x0; 0x0; 0x30; 0x1fffc30; 0x1fffc70;
   0x1aaa8e0; 0x18001c0; 0x1803880; 0x185581c; 0x18ffc18; 0x1875e1c; 0x1870718; 0x183839c;
   0x1818918; 0x1857f1c; 0x18fcf18; 0x18c031c; 0x18c0318; 0x18fdf1c; 0x18e8b18; 0x18c031c;
   0x18fff18; 0x18fff1c; 0x18c0318; 0x1d4001c; 0x1f80018; 0xf8001c; 0x0; 0x0;
   0x0; 0x0; 0x202000; 0x0; 0x0; 0x0; 0x20; 0x1fffc30;
   0x1fffc70; 0x1aaa8e0; 0x18001c0; 0x1820280; 0x186061c; 0x1860e18; 0x18f3fdc; 0x19bbfd8;
   0x199975c; 0x1b0c318; 0x1f0e31c; 0x1a31f18; 0x1871f18; 0x18c1998; 0x188119c; 0x1809998;
   0x183d99c; 0x18f1898; 0x19c1cdc; 0x1881ef8; 0x180045c; 0x1f80018; 0x1f8001c; 0x0;
   0x0; 0x0; 0x0; 0x202000; 0x0; 0x0; 0x0; 0x10;
   0xaaa838; 0x1fffc70; 0x1fffce0; 0x18005c0; 0x1860600; 0x1870c18; 0x1839c18; 0x19fff98;
   0x19fff98; 0x19c6198; 0x1986198; 0x19fff98; 0x1986198; 0x19c6198; 0x19fff98; 0x19fff98;
   0x1806018; 0x1bfffd8; 0x1bfffd8; 0x1806018; 0x1806018; 0x1806018; 0x1f06018; 0x1f00018;
   0x0; 0x0; 0x0; 0x0; 0x202000; 0x0; 0x0; 0x0;
   0x20; 0x1fffc70; 0x1fffce0; 0x18001c0; 0x18041c0; 0x1806098; 0x1957518; 0x19fff98;
   0x19fff98; 0x1806018; 0x19fff18; 0x18fff18; 0x19f6f18; 0x18b6b18; 0x19d7b18; 0x18aeb18;
   0x19fff18; 0x181f818; 0x187fc18; 0x18e6e18; 0x19c6718; 0x18863d8; 0x1846198; 0x1f86018;
   0xf80018; 0x0; 0x0; 0x0; 0x0; 0x202000; 0x0; 0x0;
   0x0; 0x10; 0xaaa838; 0x1fffc70; 0x1fffce0; 0x18000c0; 0x18aaa00; 0x18fff18;
   0x18c0318; 0x18fff18; 0x18c0318; 0x18fff18; 0x18fff18; 0x18d5718; 0x18fff18; 0x1836018;
   0x1866018; 0x1bfffd8; 0x1bfffd8; 0x180f018; 0x183f818; 0x1871e18; 0x19e0f98; 0x1dc07d8;
   0x1f00098; 0xf00018; 0x0; 0x0; 0x0; 0x0; 0x202000; 0x0;
   0x0; 0x0; 0x30; 0xaaa870; 0x1fffcf0; 0x1fffce0; 0x18001c0; 0x1800000;
   0x19fc1dc; 0x18ffb98; 0x181f71c; 0x1818218; 0x195d01c; 0x1bff8d8; 0x1bffddc; 0x1818398;
   0x181811c; 0x19ff018; 0x19ff21c; 0x1983618; 0x198331c; 0x1983398; 0x19ff1dc; 0x18ab0d8;
   0x1d0105c; 0x1f80018; 0xf8001c; 0x0; 0x0; 0x0; 0x0; 0x202000;
   0x0; 0x0; 0x0; 0x30; 0x1fffc70; 0x1fffce0; 0x18001c0; 0x18001c0;
   0x184ff98; 0x187ff18; 0x1939818; 0x1999d98; 0x18f0f98; 0x1870718; 0x18eab18; 0x1ffffd8;
   0x1b060d8; 0x1806018; 0x19fff98; 0x19fff98; 0x1807018; 0x181f818; 0x1839c18; 0x18f0f18;
   0x19c07d8; 0x1d80198; 0x1f80018; 0x780018; 0x0; 0x0; 0x0; 0x0;
   0x202000; 0x0; 0x0; 0x0; 0x20; 0x1fffc70; 0x1fffce0; 0x18001c0;
   0x18061c0; 0x1806098; 0x18fff18; 0x18fff18; 0x1806018; 0x19fff98; 0x19fffd8; 0x1863818;
   0x18f4e18; 0x18fff98; 0x1981718; 0x18fff18; 0x18fff18; 0x18c9b18; 0x18d9b18; 0x18c9b18;
   0x1bfffd8; 0x1bfffd8; 0x1800018; 0x1f80018; 0xf80018; 0x0; 0x0; 0x0;
   0x0; 0x202000; 0x0; 0x0; 0x0; 0x30; 0x1fffc70; 0x1fffcf0;
   0x1aaa8e0; 0x180e1c0; 0x1806000; 0x1bfffdc; 0x1806018; 0x19fff1c; 0x18fff18; 0x19c031c;
   0x18fff18; 0x19d571c; 0x18eab18; 0x19fff1c; 0x18c0318; 0x19fff1c; 0x18eab18; 0x1ffffdc;
   0x1bfffd8; 0x1871c1c; 0x18f8f18; 0x1bc07dc; 0x1f80098; 0x1f0001c; 0x0; 0x0;
   0x0; 0x0; 0x202000; 0x0; 0x0; 0x0; 0x20; 0xaaa830].
Definition hanzi_data_474 : list N :=
  [0x1fffcf0; 0x1fffce0; 0x18001c0; 0x18fff80; 0x18fff18; 0x18c0318; 0x18fff18; 0x18fff18;
   0x18c0318; 0x18fff18; 0x1855518; 0x18a8a98; 0x19fdfd8; 0x1981898; 0x199d9d8; 0x19b9b98;
   0x19d1c18; 0x19f1e18; 0x19fffd8; 0x198d8d8; 0x19e1e18; 0x1fe1e18; 0xf00018; 0x0;
   0x0; 0x0; 0x0; 0x202000; 0x0; 0x0; 0x0; 0x10;
   0xaaa838; 0x1fffc70; 0x1fffce0; 0x18000c0; 0x1833100; 0x1833198; 0x1831b98; 0x1ff1918;
   0x1bfbfd8; 0x1b1ffd8; 0x1b78618; 0x197f6d8; 0x19ea698; 0x19676d8; 0x1862698; 0x1877fd8;
   0x18f3f98; 0x19f0618; 0x19b8318; 0x1b1c318; 0x1b0c398; 0x1c4f1d8; 0x1f80018; 0xf80018;
   0x0; 0x0; 0x0; 0x0; 0x202000; 0x0; 0x0; 0x0;
   0x30; 0x1fffc70; 0x1fffce0; 0x18000c0; 0x18101c0; 0x1833f98; 0x1833f98; 0x1831818;
   0x1ff5d58; 0x1ffffd8; 0x199b198; 0x198f198; 0x199ff98; 0x19bbb98; 0x19f3198; 0x18e3f98;
   0x18e3f98; 0x18e3198; 0x19f7198; 0x1b33f98; 0x1b1b7d8; 0x180f018; 0x1c43018; 0x1f80018;
   0xf80018; 0x0; 0x0; 0x0; 0x0; 0x202000; 0x0; 0x0;
   0x0; 0x7000; 0x3000; 0x157d40; 0x3fffe0; 0x3fffe0; 0x3000e0; 0x3555e0;
   0x3fffe0; 0x3fffe0; 0xe0; 0x7fffe0; 0x7fffe0; 0x7000e0; 0x6000e0; 0x7fffe0;
   0x7fffe0; 0x557540; 0x6000; 0x3fffffc; 0x3fffffc; 0x1557554; 0x6000; 0x6000;
   0x6000; 0x6000; 0x0; 0x0; 0x0; 0x0; 0x202000; 0x0;
   0x0; 0x0; 0x0; 0x1ff0; 0x3ff0; 0x3830; 0x1c30; 0xc30;
   0xc30; 0xe30; 0x730; 0x330; 0x730; 0xe30; 0x1c30; 0x1830;
   0x3830; 0x3830; 0x3830; 0x3830; 0x1fb0; 0xfb0; 0x30; 0x30;
   0x30; 0x30; 0x30; 0x0; 0x0; 0x0; 0x0; 0x202000;
   0x0; 0x0; 0x0; 0x60000; 0x60ff8; 0x60ff8; 0x60e18; 0x60618;
   0x60618; 0x60718; 0x60318; 0x60398; 0x60398; 0xf0718; 0xe0618; 0xf0e18;
   0xf0e18; 0x1f0c18; 0x1b0e18; 0x1b8fd8; 0x398798; 0x71c398; 0x70c018; 0xe0e018;
   0x1e07018; 0x3c07c18; 0x3801c18; 0x3000c18; 0x0; 0x0; 0x0; 0x0;
   0x202000; 0x0; 0x0; 0x0; 0x0; 0xf803f8; 0x1fff7fc; 0xff718;
   0xe531c; 0xe0398; 0xe019c; 0xe0198; 0xe01dc; 0xe0198; 0x15f539c; 0x3fffb18;
   0x7ffff1c; 0xe0618; 0xe061c; 0xe0618; 0xe075c; 0xe03d8; 0xe01dc; 0xe0018;
   0xe001c; 0xe0018; 0xe001c; 0xe0018; 0xe001c; 0x0; 0x0; 0x0;
   0x0; 0x202000; 0x0; 0x0; 0x0; 0x0; 0x3f8; 0x7fc;
   0x3ffff18; 0x7fffb1c; 0x30c398; 0x31c19c; 0x30c198; 0x31c1dc; 0x30c1d8; 0x31c39c;
   0x30c318; 0x31c71c; 0x30c618; 0x30c71c; 0x30c618; 0x30e75c; 0x30e3d8; 0x33061dc;
   0x6307018; 0x730701c; 0x3303818; 0x7f01c1c; 0x3f00e18; 0x1e00c1c; 0x0; 0x0;
   0x0; 0x0; 0x202000; 0x0; 0x0; 0x0; 0x1c00000; 0x1fe83f8;
   0x1fff7fc; 0x3f318; 0x731c; 0x3398; 0x719c; 0x3198; 0x1fff0dc; 0x1fff0d8;
   0x1c1f1dc; 0x1c1b398; 0x1c3731c; 0xc33318; 0xe7771c; 0x663618; 0x76775c; 0x3e33f8;
   0x3c31fc; 0x3c3818; 0x7e381c; 0xff1818; 0x1e7dc1c; 0x381ec18; 0x3004c1c; 0x0;
   0x0; 0x0; 0x0; 0x202000; 0x0; 0x0; 0x0; 0x0;
   0x3f8; 0x1fff7fc; 0x1fff318; 0x31c; 0x398; 0x19c; 0x198; 0x1dc;
   0x3fff9d8; 0x7fffd9c; 0x2bbeb98; 0x39c31c; 0x38c318; 0x39c71c; 0x38c318; 0x38c7fc;
   0x38c3d8; 0x38e1dc; 0x238e018; 0x738701c; 0x3383818; 0x3783c1c; 0x3f81e18; 0x1f0041c;
   0x0; 0x0; 0x0; 0x0; 0x202000; 0x0; 0x0; 0x0;
   0x60c000; 0x60c3f8; 0x60c7fc; 0x60c318; 0x60c31c; 0x3fffb98; 0x3fff99c; 0x2eae998;
   0x60c0dc; 0x60c0d8; 0x60c1dc; 0x60c198; 0x60c31c; 0x3fffb18; 0x7ffff1c; 0x60c318;
   0x60c71c; 0x60e3b8; 0x6063fc; 0x606098; 0x60701c; 0x603818; 0x603c1c; 0x601e18;
   0x600c1c; 0x0; 0x0; 0x0; 0x0; 0x202000; 0x0; 0x0;
   0x0; 0x70000; 0x603f8; 0x607fc; 0xe0718; 0x155571c; 0x3ffff18; 0x3ffff9c;
   0x18198; 0x1c1dc; 0x180d8; 0x1ffc19c; 0x1ffc318; 0x1ffc71c; 0x1c0c618; 0x1c0c61c;
   0xc0c618; 0x1c0e71c; 0xc0e3d8; 0x1c073dc; 0xc07018; 0xc0381c; 0xe03c18; 0xe41e1c;
   0xfe0f18; 0x7e061c; 0x0; 0x0; 0x0; 0x0; 0x202000; 0x0;
   0x0; 0x0; 0x0; 0x7f8; 0x1ffeff8; 0x1ffe618; 0x1806718; 0x1806318;
   0x1806398; 0x1806198; 0x18061d8; 0x18061d8; 0x1806398; 0x1ffe318; 0x1ffe618; 0x1806618;
   0x1806618; 0x1806618; 0x1806778; 0x18067d8; 0x18061d8; 0x1806018; 0x1ffe018; 0x1ffe018;
   0x1ffe018; 0x1806018; 0x1806018; 0x0; 0x0; 0x0; 0x0; 0x202000;
   0x0; 0x0; 0x0; 0x0; 0x1ffe7f8; 0x1ffeff8; 0x1aae618; 0x180e718;
   0x180e318; 0x180e318; 0x180e398; 0x1ffe198; 0x1ffe398; 0x180e318; 0x180e718; 0x180e618;
   0x180e618; 0x1ffe618; 0x1ffe618; 0x1806758; 0x1806798; 0x1806198; 0x1806018; 0x1807018;
   0x1803818; 0x1d83818; 0x1f01c18; 0xf00c18; 0x0; 0x0; 0x0; 0x0;
   0x202000; 0x0; 0x0; 0x0; 0x70000; 0x303f8; 0x307f8; 0x3fffb18;
   0x3fffb18; 0x2abab98; 0x1c198; 0x8c198; 0x1cc1d8; 0xce1d8; 0x1c6198; 0x2aef318;
   0x3fff718; 0x3fff318; 0x1c0718; 0xc0718; 0x1c0758; 0xc03d8; 0x7fff9d8; 0x3fff818;
   0x1c0018; 0xc0018; 0x1c0018; 0xc0018; 0x1c0018; 0x0; 0x0; 0x0;
   0x0; 0x202000; 0x0; 0x0; 0x0; 0x60000; 0x603f8; 0xf07fc;
   0xf0718; 0x1f831c; 0x398398; 0x71c19c; 0xe0e198; 0x1c070dc; 0x3803cd8; 0x370dd9c;
   0x30c318; 0x70c71c; 0x30c618; 0x70c61c; 0x30c618; 0x70c7fc; 0x30c3f8; 0x70e1dc].
Definition hanzi_data_475 : list N :=
  [0x30e018; 0x70701c; 0x307018; 0x70781c; 0x303c18; 0x70181c; 0x0; 0x0;
   0x0; 0x0; 0x202000; 0x0; 0x0; 0x0; 0x0; 0xaaa3f8;
   0xfff7f8; 0xffe618; 0xc07318; 0xc06318; 0xc07198; 0xc06198; 0xfff1d8; 0xffe198;
   0xc07398; 0xc06318; 0xc07718; 0xc06618; 0xc07618; 0xffe618; 0xfff758; 0xc063d8;
   0xc071d8; 0xc06018; 0xc07018; 0xc06018; 0x7fffe18; 0x3fffe18; 0x18; 0x0;
   0x0; 0x0; 0x0; 0x202000; 0x0; 0x0; 0x0; 0x18000;
   0x183f8; 0x1c7fc; 0xc618; 0x7ffe71c; 0x3ffe318; 0x7fff39c; 0x63198; 0x739dc;
   0x61dd8; 0x3ff1b9c; 0x3fe0318; 0x7071c; 0x60618; 0x7061c; 0x60618; 0x3ff075c;
   0x3fe03d8; 0x701dc; 0x60018; 0x7001c; 0x60018; 0x7001c; 0x60018; 0x7001c;
   0x0; 0x0; 0x0; 0x0; 0x202000; 0x0; 0x0; 0x0;
   0x60000; 0x607f8; 0x607fc; 0x60618; 0x6071c; 0x2ae0318; 0x7fe019c; 0x3fe0198;
   0x601dc; 0x601d8; 0x6039c; 0x60318; 0x157571c; 0x1fff618; 0x1fff61c; 0x1803618;
   0x1c0375c; 0x18033d8; 0x1c031dc; 0x1803018; 0x1c0301c; 0x1fff018; 0x1fff01c; 0x1aab018;
   0x1c0301c; 0x0; 0x0; 0x0; 0x0; 0x202000; 0x0; 0x0;
   0x0; 0x0; 0x3f8; 0x7fffffc; 0x3fffb18; 0xc0039c; 0xc00198; 0xc0019c;
   0xc2a898; 0xc7f8dc; 0xc7f8d8; 0xc6399c; 0xc63b98; 0xc63b1c; 0xc63b18; 0xc63f1c;
   0xc6bb18; 0xc7fb5c; 0xc2bbf8; 0xc039dc; 0xc03818; 0xc0001c; 0xc00018; 0xc0001c;
   0xfe0018; 0x7e001c; 0x0; 0x0; 0x0; 0x0; 0x202000; 0x0;
   0x0; 0x0; 0x70000; 0x603f8; 0xe07fc; 0xe0718; 0x3fffb1c; 0x3fffb98;
   0x300199c; 0x3001998; 0x300d9dc; 0xc1d8; 0x40c19c; 0xe0c318; 0x1f8c71c; 0x3ec618;
   0x1fc61c; 0x3c618; 0xc77c; 0xc3d8; 0x100c1dc; 0x300c018; 0x300c01c; 0x300c018;
   0x3ffc01c; 0x1ffc018; 0xff001c; 0x0; 0x0; 0x0; 0x0; 0x202000;
   0x0; 0x0; 0x0; 0x60000; 0x603f8; 0x603fc; 0x60308; 0x3fffb9c;
   0x3fff988; 0x38619dc; 0x18618c8; 0x18618dc; 0x18618c8; 0xd759dc; 0x1fffb88; 0x1fffb1c;
   0xc0db08; 0xe1db1c; 0x619b08; 0x719bdc; 0x3b9be8; 0x3f1ddc; 0x1e0c08; 0x1f0c1c;
   0x7f8e08; 0x1f3e71c; 0x3c0f308; 0x100721c; 0x0; 0x0; 0x0; 0x0;
   0x202000; 0x0; 0x0; 0x0; 0xc1c000; 0xc0c3f8; 0xc0e3fc; 0xc0e318;
   0xc0739c; 0xc03198; 0x7ffb19c; 0x3ffb898; 0x5d53cdc; 0xc03ed8; 0xc03fdc; 0xc33598;
   0xc7339c; 0xc63318; 0xce331c; 0xcc3318; 0xdc331c; 0xc833f8; 0xc031dc; 0xc03018;
   0xc0301c; 0xc03018; 0xd4301c; 0xf83018; 0x78301c; 0x0; 0x0; 0x0;
   0x0; 0x202000; 0x0; 0x0; 0x0; 0x0; 0x3f8; 0x1ffe7f8;
   0x1ffe618; 0x718; 0x318; 0x398; 0x198; 0x3fff1d8; 0x3fff198; 0x3fff398;
   0xe0318; 0xe0718; 0xe2618; 0xeee618; 0xce6618; 0x1ce7758; 0x18e33d8; 0x18e31d8;
   0x38e3818; 0x30e1c18; 0x30e0818; 0x10f4018; 0xfc018; 0x7c018; 0x0; 0x0;
   0x0; 0x0; 0x202000; 0x0; 0x0; 0x0; 0xe0000; 0xe03f8;
   0xe07fc; 0xe0318; 0x1fff39c; 0x1fff198; 0xe01dc; 0xe00d8; 0xe00dc; 0xe00d8;
   0x7fff9dc; 0x3fffb98; 0x7fffb1c; 0xe0318; 0xe071c; 0x18e3318; 0x18e33dc; 0x18e33f8;
   0x18e31fc; 0x18e3018; 0x18e301c; 0x1fff018; 0x1fff01c; 0x1aaa018; 0x180001c; 0x0;
   0x0; 0x0; 0x0; 0x202000; 0x0; 0x0; 0x0; 0x1c000;
   0x18c3f8; 0x79c7fc; 0xe0c618; 0x1c1c31c; 0xc318; 0x3fffd9c; 0x3fffd98; 0x3fffddc;
   0xcc198; 0x11cc39c; 0x38cc318; 0x1dcc71c; 0xcce618; 0xfc661c; 0x6c6618; 0x7c775c;
   0x3c33d8; 0x1c31dc; 0xe3818; 0x71f1c1c; 0x30f9c18; 0x3fdef1c; 0x3f8c718; 0x150021c;
   0x0; 0x0; 0x0; 0x0; 0x202000; 0x0; 0x0; 0x0;
   0x38000; 0x183f8; 0x1c7fc; 0x1c318; 0x3ffff9c; 0x3fffd98; 0xc19c; 0xe198;
   0x661dc; 0x660d8; 0x671dc; 0x63b98; 0x1fffb1c; 0x1fffb18; 0x6031c; 0x60318;
   0x6673dc; 0xe633d8; 0x1c631dc; 0x1863818; 0x3861c1c; 0x3060c18; 0x7074e1c; 0x7c018;
   0x7c01c; 0x0; 0x0; 0x0; 0x0; 0x202000; 0x0; 0x0;
   0x0; 0x0; 0x2aa3f8; 0x1fff7fc; 0xfff318; 0x70031c; 0x380398; 0x3c019c;
   0x1e00d8; 0x3f00dc; 0xfbc0d8; 0x3f1f19c; 0x3807f18; 0x3001f1c; 0x618; 0x1fff71c;
   0x1fff618; 0xe075c; 0xe03f8; 0xe01dc; 0xe0018; 0xe001c; 0xe0018; 0x7fffc1c;
   0x3fffc18; 0x1c; 0x0; 0x0; 0x0; 0x0; 0x202000; 0x0;
   0x0; 0x0; 0x0; 0x3ffe3f8; 0x3fff3fc; 0x2aea398; 0x1c019c; 0xc0998;
   0x1ffdddc; 0x1aaccd8; 0x18cdcdc; 0x188ccd8; 0x18cdddc; 0x19ccd98; 0x1bcdd9c; 0x1b6cf18;
   0x1e7df1c; 0x180cf18; 0x180dfdc; 0x180cdf8; 0x1f0dddc; 0x1f0cc18; 0x5c1c; 0xc18;
   0x7fffc1c; 0x3fffc18; 0x1c; 0x0; 0x0; 0x0; 0x0; 0x202000;
   0x0; 0x0; 0x0; 0x0; 0x3fffbf8; 0x3fffffc; 0x2aea7b8; 0x6031c;
   0x60398; 0x7019c; 0x1fff198; 0x1fff1dc; 0x1aab0d8; 0x1c0719c; 0x1803398; 0x1c0771c;
   0x1803618; 0x1fff71c; 0x1fff618; 0x1c0771c; 0x18033f8; 0x1c073fc; 0x1803018; 0x1c0701c;
   0x1fff018; 0x1fff01c; 0x1803018; 0x1c0701c; 0x0; 0x0; 0x0; 0x0;
   0x202000; 0x0; 0x0; 0x0; 0x70000; 0x383f8; 0xffc7fc; 0xffe318;
   0xe0f39c; 0x70f998; 0x3bbddc; 0x1f08d8; 0x1f00dc; 0x3fc0d8; 0x7f1fddc; 0x3cc3f98;
   0x10c0f1c; 0x1fffb18; 0x1ffff1c; 0xaeab18; 0xc33dc; 0xc33f8; 0xc39fc; 0x3fff818;
   0x3fffc1c; 0xc0018; 0xc001c; 0xc0018; 0xc001c; 0x0; 0x0; 0x0;
   0x0; 0x202000; 0x0; 0x0; 0x0; 0xc0000; 0xc23f8; 0xc67fc].
Definition hanzi_data_476 : list N :=
  [0xc6318; 0xc639c; 0x1ffe198; 0x1fff19c; 0xc3098; 0xc30dc; 0xc38d8; 0xc199c;
   0xc0398; 0x3fffb1c; 0x3fffb18; 0x1f071c; 0x3f0318; 0x3d835c; 0x6dc3f8; 0xecc1dc;
   0xcce018; 0x1cc701c; 0x38c3818; 0x30c1c1c; 0xc0818; 0xc001c; 0x0; 0x0;
   0x0; 0x0; 0x202000; 0x0; 0x0; 0x0; 0x0; 0xfff3f8;
   0x1fff7f8; 0xc03618; 0x1c07718; 0xc03318; 0x1fff398; 0xfff198; 0x1c071d8; 0xc03198;
   0x1c07398; 0xfff318; 0x1fff718; 0x63618; 0x1067618; 0x3ce3618; 0x1ec7758; 0x7c33d8;
   0x3c71d8; 0x383018; 0x707018; 0xe7b018; 0x3c7f018; 0x380f818; 0x1001018; 0x0;
   0x0; 0x0; 0x0; 0x202000; 0x0; 0x0; 0x0; 0x0;
   0x3f8; 0x3fffffc; 0x3fffb98; 0x7019c; 0x70198; 0x701dc; 0x3fff8d8; 0x3fff8dc;
   0x3bbb8d8; 0x39999dc; 0x3999998; 0x399999c; 0x3999b18; 0x3999b1c; 0x3999b18; 0x3999bdc;
   0x39999f8; 0x39998fc; 0x3999818; 0x399981c; 0x3999818; 0x399981c; 0x1f99818; 0x1d1181c;
   0x0; 0x0; 0x0; 0x0; 0x202000; 0x0; 0x0; 0x0;
   0x70000; 0xe03f8; 0xe07fc; 0xc0318; 0x7fffb1c; 0x3fffb98; 0x7019c; 0x38198;
   0xe180dc; 0x61c0d8; 0x7fe19c; 0x3ff398; 0x1df31c; 0x38e0318; 0x1c7071c; 0xc38318;
   0xe1f77c; 0x707bf8; 0x3c31dc; 0x3e0018; 0xff001c; 0x1e3c018; 0x3c1f01c; 0x3807818;
   0x100181c; 0x0; 0x0; 0x0; 0x0; 0x202000; 0x0; 0x0;
   0x0; 0x60000; 0x603fc; 0x607fc; 0x603ac; 0x1fff99c; 0x1fff98c; 0x601dc;
   0xc630cc; 0xc670dc; 0xc660ec; 0x6661dc; 0x66e18c; 0x76431c; 0x3fffb0c; 0x3ffff1c;
   0x2aeab0c; 0x1f03dc; 0x1b03ec; 0x3b81fc; 0x39c00c; 0x71e01c; 0xe0f00c; 0x3c07c1c;
   0x3803e0c; 0x1000c1c; 0x0; 0x0; 0x0; 0x0; 0x202000; 0x0;
   0x0; 0x0; 0x1c3800; 0x83bf8; 0x11c3ffc; 0x3883b18; 0x1fffb9c; 0xfbf998;
   0x1c39dc; 0x838d8; 0x31c38dc; 0x20a38d8; 0x35ff9dc; 0x3f9fb98; 0x1f53b1c; 0x60318;
   0x7031c; 0x60318; 0x1ffffdc; 0x1fffbf8; 0x15751dc; 0x60018; 0x7001c; 0x60018;
   0x7fffe1c; 0x3fffe18; 0x1c; 0x0; 0x0; 0x0; 0x0; 0x202000;
   0x0; 0x0; 0x0; 0x730000; 0x37c3f8; 0x71fffc; 0x30fb18; 0x70c31c;
   0x30c198; 0x3fffd9c; 0x3fffc98; 0x175d4dc; 0x30c0d8; 0x70e1dc; 0x30e398; 0x70731c;
   0x363b18; 0x6171c; 0x60318; 0x1fffbdc; 0x1fffbf8; 0x1fff9dc; 0x60018; 0x6001c;
   0x60018; 0x7fffe1c; 0x3fffe18; 0x1c; 0x0; 0x0; 0x0; 0x0;
   0x202000; 0x0; 0x0; 0x0; 0xe0000; 0xe03f8; 0xe53fc; 0x1fe2398;
   0x1fe719c; 0xe2198; 0xe71dc; 0xe20d8; 0x3fffcdc; 0x3fffcd8; 0x15755dc; 0x62198;
   0x186639c; 0x1866318; 0x1c6731c; 0xc63318; 0xe63bdc; 0x661bf8; 0x7011fc; 0x380018;
   0x1e001c; 0xf8018; 0x3f01c; 0xfc18; 0x1c1c; 0x0; 0x0; 0x0;
   0x0; 0x202000; 0x0; 0x0; 0x0; 0x60000; 0x603f8; 0x607fc;
   0xaeab08; 0x1fffb1c; 0x1fffb88; 0x6019c; 0x60188; 0x601dc; 0x3fffcc8; 0x7fffddc;
   0x60388; 0x6731c; 0x66308; 0x6771c; 0x1fe3308; 0x1fe771c; 0x633e8; 0x671dc;
   0x6f808; 0x7d81c; 0x7dc08; 0x7ff9c1c; 0x3fe0e08; 0x150041c; 0x0; 0x0;
   0x0; 0x0; 0x202000; 0x0; 0x0; 0x0; 0x70000; 0x603f8;
   0xe07fc; 0x2aeab18; 0x3fffb9c; 0x3aab998; 0x300199c; 0x3001898; 0x1fff0dc; 0xffe0d8;
   0x19c; 0x398; 0x31c; 0x3fffb18; 0x7ffff1c; 0x398318; 0x39c3dc; 0x38c3f8;
   0x38c1dc; 0x38e018; 0x738601c; 0x2387018; 0x7783c1c; 0x3f81e18; 0x1f0041c; 0x0;
   0x0; 0x0; 0x0; 0x202000; 0x0; 0x0; 0x0; 0xc0000;
   0xe03f8; 0x1f03fc; 0x1b8398; 0x79c19c; 0xf0e198; 0x1e071dc; 0x78038d8; 0x3fffcdc;
   0xffe8d8; 0x5f41dc; 0xe0398; 0xe031c; 0x3ffff18; 0x3ffff1c; 0x2aeab18; 0x4e03dc;
   0xee63f8; 0x1ce70fc; 0x18e3818; 0x38e181c; 0x30e1c18; 0x30e0c1c; 0xfc018; 0x7c01c;
   0x0; 0x0; 0x0; 0x0; 0x202000; 0x0; 0x0; 0x0;
   0x0; 0x1fff3f8; 0x1fff7f8; 0x1803318; 0x1803318; 0x1803398; 0x1fff198; 0x1fff198;
   0x18031d8; 0x1803198; 0x1fff398; 0x1fff318; 0x40718; 0x60618; 0x60718; 0x60618;
   0x1ffff58; 0x1fffbd8; 0x601d8; 0x60018; 0x60018; 0x60018; 0x7fffe18; 0x3fffe18;
   0x18; 0x0; 0x0; 0x0; 0x0; 0x202000; 0x0; 0x0;
   0x0; 0x0; 0xfff3f8; 0xfff7fc; 0xc03318; 0xc0731c; 0xc03398; 0xfff19c;
   0xaaa198; 0x1d8; 0x1fff8d8; 0x1fff99c; 0x1803b98; 0x1c63b1c; 0x1863b18; 0x1c63f1c;
   0x1863b18; 0x1c63f5c; 0x1863bd8; 0x1c739dc; 0x19b3818; 0x7f801c; 0xf1e018; 0x1e0f81c;
   0x7803c18; 0x3001c1c; 0x0; 0x0; 0x0; 0x0; 0x202000; 0x0;
   0x0; 0x0; 0xe0000; 0x603f8; 0xf07f8; 0x1f8318; 0x39c398; 0x70c198;
   0xf0f198; 0x1c07098; 0x7fffcd8; 0x37ffcd8; 0x2554d98; 0x398; 0x1860318; 0x1863318;
   0x1c63718; 0xce2318; 0xcc63f8; 0xec63f8; 0x6c61d8; 0x202018; 0x300018; 0x380018;
   0x7fffc18; 0x3fffc18; 0x18; 0x0; 0x0; 0x0; 0x0; 0x202000;
   0x0; 0x0; 0x0; 0x70000; 0x603f8; 0xe07fc; 0x3fffb18; 0x3fffb18;
   0xc06398; 0xc0619c; 0xe0e198; 0x60c0dc; 0x70c0d8; 0x7fffd9c; 0x3ffff98; 0x7ffff1c;
   0x318; 0x155571c; 0xfff318; 0x1fff35c; 0xc033d8; 0x1c031dc; 0xc03018; 0x1c0301c;
   0xeab018; 0x1fff01c; 0xfff018; 0x1c0301c; 0x0; 0x0; 0x0; 0x0;
   0x202000; 0x0; 0x0; 0x0; 0x0; 0x2abf8; 0x7fffc; 0x3ffab88;
   0x3ff1ddc; 0x31b08c8; 0x31b1cdc; 0x31bf8c8; 0x31bfc7c; 0x3bb08e8; 0x1b31ddc; 0x1b30988;
   0x1b35d9c; 0x1b3f988; 0x1f3fd9c; 0xe30988; 0xe31ddc; 0xe309e8; 0xe7dc7c; 0xe7fe08].
Definition hanzi_data_477 : list N :=
  [0x1f37e1c; 0x1b30008; 0x39b001c; 0x31f0008; 0x10f001c; 0x0; 0x0; 0x0;
   0x0; 0x202000; 0x0; 0x0; 0x0; 0x400000; 0xff83f8; 0xfff7fc;
   0xef318; 0xe039c; 0xe0198; 0x3fff99c; 0x3fff898; 0x1ff70dc; 0xee60d8; 0xee61dc;
   0x2eee998; 0x3ffff9c; 0x3ffff18; 0xee631c; 0xee6318; 0x1ff731c; 0x3fffb98; 0x3fffffc;
   0xe01f8; 0xe001c; 0xe0018; 0x1fff81c; 0x1fff818; 0x1c; 0x0; 0x0;
   0x0; 0x0; 0x202000; 0x0; 0x0; 0x0; 0xe0000; 0x603f8;
   0x703fc; 0x1fffb98; 0x1fff99c; 0x1861998; 0x18619dc; 0x1fff8d8; 0x1fff8dc; 0x18618f8;
   0x18619dc; 0x1aeb998; 0x1fff99c; 0xabab18; 0x19c31c; 0x18e318; 0x18731c; 0x3ffffb8;
   0x7fffdfc; 0x2baa898; 0x18001c; 0x180018; 0x18001c; 0x180018; 0x18001c; 0x0;
   0x0; 0x0; 0x0; 0x202000; 0x0; 0x0; 0x0; 0x60000;
   0x603f8; 0x603fc; 0x1fffb98; 0x1fff99c; 0x60198; 0x601dc; 0x2aea8d8; 0x3fffcdc;
   0x2aaa8d8; 0x71c1dc; 0x1e0f398; 0x7c37f1c; 0x3039f18; 0xffc31c; 0xffe318; 0x60f3dc;
   0x70fbf8; 0x39dddc; 0x1f8018; 0xf001c; 0x3f8018; 0x1fdf81c; 0x3e07e18; 0x3001c1c;
   0x0; 0x0; 0x0; 0x0; 0x202000; 0x0; 0x0; 0x0;
   0x6000; 0x63fc; 0x73fc; 0x338c; 0x3fff99c; 0x3fff98c; 0x380dddc; 0x380eecc;
   0x3bfe7dc; 0x3bfe6cc; 0x38331dc; 0x3831b8c; 0x383131c; 0x3bffb0c; 0x3fffb1c; 0x3b3330c;
   0x1b333dc; 0x1b333ec; 0x1b331fc; 0x1bff00c; 0x1bff01c; 0x180000c; 0x1c0001c; 0xf8000c;
   0xf8001c; 0x0; 0x0; 0x0; 0x0; 0x202000; 0x0; 0x0;
   0x0; 0x18000; 0x383f8; 0x1c7fc; 0xffc318; 0x1ffc39c; 0xe0e198; 0x60719c;
   0x703898; 0x303cdc; 0x381ed8; 0x13cd9c; 0xabe398; 0x1fc7b1c; 0x1a81b18; 0x1801b1c;
   0x1801b18; 0x1fffbfc; 0x1fbfbf8; 0x18019dc; 0x1801818; 0x180181c; 0x1aab818; 0x1fff81c;
   0x1aab818; 0x180181c; 0x0; 0x0; 0x0; 0x0; 0x202000; 0x0;
   0x0; 0x0; 0x60000; 0x603f8; 0x1f83fc; 0x3bc398; 0x71f19c; 0x1e07998;
   0x7d57fdc; 0x37ffcd8; 0x7ff0dc; 0xf8; 0x193fddc; 0x19bf998; 0x19b1d9c; 0x19b0b98;
   0x19bff1c; 0x19bfb98; 0x19b1fdc; 0x19b09f8; 0x19bfcfc; 0x19bf818; 0x1931c1c; 0x1830818;
   0x1835c1c; 0x1f3c818; 0x1e1dc1c; 0x0; 0x0; 0x0; 0x0; 0x202000;
   0x0; 0x0; 0x0; 0x0; 0xfffbf8; 0x1fffbfc; 0x863b08; 0x1c63b9c;
   0xfff988; 0x1fff99c; 0x8638c8; 0x1c638dc; 0xfff8c8; 0x1fff99c; 0x60388; 0x6031c;
   0x3fffb08; 0x3ffff1c; 0x3860b08; 0x3b61fdc; 0x3a60be8; 0x3ff1ddc; 0x3ffe808; 0x3c7fc1c;
   0x3800808; 0x3801c1c; 0x3e00808; 0x1e01c1c; 0x0; 0x0; 0x0; 0x0;
   0x202000; 0x0; 0x0; 0x0; 0x30000; 0x383f8; 0xffc7fc; 0xffe318;
   0xe0f31c; 0x71f998; 0x3b9d9c; 0x1f0998; 0x1f00dc; 0xfbe0d8; 0x7f1fddc; 0x3ffff98;
   0x7fe71c; 0x66318; 0x6771c; 0x1fff318; 0x1fffb1c; 0x61bf8; 0x1575ddc; 0xfff018;
   0x157501c; 0x60018; 0x7fffc1c; 0x3fffc18; 0x1c; 0x0; 0x0; 0x0;
   0x0; 0x202000; 0x0; 0x0; 0x0; 0x0; 0x1fff3f8; 0x1fff7fc;
   0x18c3308; 0x18c331c; 0x1fff188; 0x1fff19c; 0x18c3088; 0x18c30dc; 0x1aeb0c8; 0x1fff19c;
   0xaaa388; 0x31c; 0x3fffb08; 0x7ffff1c; 0xc6308; 0x11c635c; 0x39863c8; 0x1f861dc;
   0xf86008; 0x70601c; 0xee6008; 0x1cff01c; 0x783f008; 0x300701c; 0x0; 0x0;
   0x0; 0x0; 0x202000; 0x0; 0x0; 0x0; 0x18000; 0x183f8;
   0x3fffffc; 0x3fffb18; 0xc39c; 0xe198; 0x1fff19c; 0x1ffb098; 0x1c38dc; 0x2aebcd8;
   0x3ffeddc; 0x398; 0x155531c; 0x1fff318; 0x1c0731c; 0x1803318; 0x1fff35c; 0x1aab3f8;
   0x1c071dc; 0x1fff018; 0x1fff01c; 0x1803018; 0x1c0701c; 0x1f03018; 0xf0701c; 0x0;
   0x0; 0x0; 0x0; 0x202000; 0x0; 0x0; 0x0; 0xe0000;
   0x603f8; 0x15757fc; 0x1fff318; 0x1fff31c; 0x1803398; 0x1fff19c; 0x1fff198; 0x1c031dc;
   0x18030d8; 0x1fff19c; 0x1fff398; 0x31c; 0x318; 0x3ffff1c; 0x3fffb18; 0xe075c;
   0xe03d8; 0x1fff1dc; 0x1fff018; 0xe001c; 0xe0018; 0x7fffc1c; 0x3fffc18; 0x555541c;
   0x0; 0x0; 0x0; 0x0; 0x202000; 0x0; 0x0; 0x0;
   0x1c0000; 0xc01f8; 0xc07fc; 0x3ffcf98; 0x7ffdd9c; 0x61998; 0x739dc; 0x1ff80d8;
   0x1ff80dc; 0x183c0f8; 0x187ffdc; 0x1ff7f98; 0x1ff3d9c; 0x1833998; 0x1d7399c; 0x1ff3998;
   0x1d7399c; 0x18339f8; 0x18739fc; 0x1e33818; 0x1e77c1c; 0xee18; 0x7ffc71c; 0x3ff8218;
   0x50021c; 0x0; 0x0; 0x0; 0x0; 0x202000; 0x0; 0x0;
   0x0; 0x18000; 0x1c3f8; 0x3fc7fc; 0x7fe318; 0x30731c; 0x183998; 0x15d5d9c;
   0x1fff998; 0x1d550dc; 0x18000d8; 0x1fff1dc; 0x1fff398; 0x1c0031c; 0x1800318; 0x1ffff1c;
   0x1fffb18; 0x1835c; 0x783d8; 0xcf79dc; 0x1dc6c18; 0x1886c1c; 0x3e06e18; 0x375661c;
   0x33fe618; 0x1fc01c; 0x0; 0x0; 0x0; 0x0; 0x202000; 0x0;
   0x0; 0x0; 0x0; 0x3fffbf8; 0x3fffbfc; 0x388; 0x1fff19c; 0x1fff188;
   0x1c071dc; 0x18030c8; 0x1fff0dc; 0x1fff0c8; 0x1dc; 0x2aaa988; 0x3fffb1c; 0x3209b08;
   0x371db1c; 0x3319b08; 0x31b1bdc; 0x37fdbe8; 0x37fd9dc; 0x3061808; 0x306181c; 0x3061808;
   0x306181c; 0x3e61808; 0x1c4181c; 0x0; 0x0; 0x0; 0x0; 0x202000;
   0x0; 0x0; 0x0; 0xe0000; 0x603f8; 0x707fc; 0x1fffb18; 0x1fffb9c;
   0x1861998; 0x1c619dc; 0x1aeb8d8; 0x1fff8dc; 0x18618d8; 0x1c719dc; 0x1861b98; 0x1fffb1c;
   0x1fffb18; 0x67031c; 0x678318; 0xe783dc; 0x1a783f8; 0x1f7c1dc; 0x3fee018; 0x176701c;
   0x2063818; 0x7563c1c; 0x3fe0e18; 0x154041c; 0x0; 0x0; 0x0; 0x0;
   0x202000; 0x0; 0x0; 0x0; 0x403000; 0xe073f8; 0x7063fc; 0x30e398].
Definition hanzi_data_478 : list N :=
  [0x38c19c; 0x4198; 0x3fffddc; 0x3fffcd8; 0x1080dc; 0x39c0d8; 0x70e1dc; 0xe07198;
   0x3c03f1c; 0x3000b18; 0x1fffb1c; 0x1fffb18; 0x1d99bdc; 0x1899bf8; 0x1d999dc; 0x1899818;
   0x1d9981c; 0x1899818; 0x7fffe1c; 0x3fffe18; 0x1c; 0x0; 0x0; 0x0;
   0x0; 0x202000; 0x0; 0x0; 0x0; 0x60000; 0x623f8; 0x7667fc;
   0xe66318; 0x1c6731c; 0x3863b98; 0x3061d9c; 0x1fff998; 0x1fff9dc; 0x18038d8; 0x1c0399c;
   0x1fffb98; 0x1fffb1c; 0x1803b18; 0x1ffff1c; 0x1fffb18; 0x6035c; 0x4623d8; 0xe671dc;
   0xc63018; 0x1c6381c; 0x3861c18; 0x7060e1c; 0x7c018; 0x7c01c; 0x0; 0x0;
   0x0; 0x0; 0x202000; 0x0; 0x0; 0x0; 0x70000; 0x603fc;
   0x1fffffc; 0x1fffb0c; 0x70e39c; 0x30c18c; 0x3fffddc; 0x3fffccc; 0x15554dc; 0xaaa0cc;
   0xfff1dc; 0xc0338c; 0xd5731c; 0xfff30c; 0xc0371c; 0xc0330c; 0xfff3dc; 0xaea3ec;
   0x601dc; 0x3fffc0c; 0x7fffc1c; 0x6000c; 0x6001c; 0x6000c; 0x6001c; 0x0;
   0x0; 0x0; 0x0; 0x202000; 0x0; 0x0; 0x0; 0x1810000;
   0x1c301f8; 0xc70ffc; 0xe60d88; 0x7ffdd9c; 0x3ffd988; 0x55d59dc; 0xe00c8; 0x38f00dc;
   0x1dbdee8; 0xf9dfdc; 0x7c1988; 0x77199c; 0xf39b88; 0x1f9db1c; 0x1fc1b88; 0x36e19dc;
   0x36799e8; 0x71f8fc; 0x30d808; 0x3e3c1c; 0x1c7e08; 0x7ffe71c; 0x3ff8308; 0x1fc021c;
   0x0; 0x0; 0x0; 0x0; 0x202000; 0x0; 0x0; 0x0;
   0x70000; 0x383f8; 0x1fffffc; 0x1ffff88; 0x1841d9c; 0x1a66d88; 0x1b6dddc; 0x19eccc8;
   0x1d75cdc; 0x1ffecc8; 0x1dfdddc; 0x19f8d88; 0x1b6dd9c; 0x1a66f08; 0x1a67f1c; 0x1820f08;
   0x703dc; 0x3fffde8; 0x7fffcfc; 0xf8008; 0x1dc01c; 0x38e008; 0x1f07c1c; 0x3e03f08;
   0x300071c; 0x0; 0x0; 0x0; 0x0; 0x202000; 0x0; 0x0;
   0x0; 0x0; 0x1fffbf8; 0x1fffbfc; 0x1801b88; 0x1fff99c; 0x1fff988; 0x1c019dc;
   0x1aab8c8; 0x1fff8dc; 0x3020c8; 0x3871dc; 0x99b188; 0xfdfb9c; 0x7cff08; 0x1f57f1c;
   0x1b1b308; 0x1fdfbdc; 0x3fffde8; 0x31f1c5c; 0xc88808; 0x1ccdc1c; 0x188cc08; 0x319ce1c;
   0x3198608; 0x301841c; 0x0; 0x0; 0x0; 0x0; 0x202000; 0x0;
   0x0; 0x0; 0x1c000; 0x2aaebf8; 0x3fffff8; 0xe318; 0xfff198; 0xc3998;
   0x1ffdcd8; 0x998; 0x1fff318; 0xc06318; 0x1fff718; 0xc06318; 0x1fff3d8; 0xc06098;
   0x1f0f018; 0xf1f818; 0x1fdf00; 0xfe37f8; 0x3f031fc; 0x3b9b38c; 0x7331c0; 0x6330c0;
   0xe730f0; 0xc63e60; 0x3c00; 0x0; 0x0; 0x0; 0x0; 0x202000;
   0x0; 0x0; 0x0; 0x6000; 0x6000; 0x7ffff0; 0x7fffe0; 0x757540;
   0x606000; 0x1757554; 0x3fffffc; 0x3fffffc; 0x606000; 0x606000; 0x7fffe0; 0x7ffff0;
   0xe000; 0x1c0e070; 0xe1e0e0; 0x7be3c0; 0x1f6380; 0xf7d00; 0x1e7f80; 0x7c67f0;
   0x1f060fc; 0x3e0603c; 0x1807e08; 0x3e00; 0x0; 0x0; 0x0; 0x0;
   0x202000; 0x0; 0x0; 0x0; 0xc700; 0x1c300; 0x3c380; 0x38380;
   0x701c0; 0x3ffffc0; 0x3ffffe0; 0x180e0; 0x180f0; 0x180f8; 0x1ffffdc; 0xffffce;
   0x155d5cc; 0x180c0; 0x180c0; 0x180c0; 0x1ffffc0; 0xffffc0; 0x180c0; 0x180c0;
   0x180c0; 0x3ffffc0; 0x3ffffc0; 0xc0; 0xc0; 0x0; 0x0; 0x0;
   0x0; 0x202000; 0x0; 0x0; 0x0; 0x3000; 0x3800; 0x3800;
   0x1fffff8; 0x1fffff8; 0x1800e18; 0x180e718; 0x181c718; 0x55d780; 0xffffc0; 0xfffff0;
   0x180f8; 0x1c0fe; 0x7fffcc; 0x7fffc0; 0x180c0; 0x1c0c0; 0x7fffc0; 0x7fffc0;
   0x180c0; 0x1c0c0; 0x180c0; 0x1ffffc0; 0xffffc0; 0xc0; 0x0; 0x0;
   0x0; 0x0; 0x202000; 0x0; 0x0; 0x0; 0x6180; 0xe180;
   0x1c1c0; 0x1ffffe0; 0x1fffff0; 0xc078; 0x55d57c; 0xfffffe; 0x55d56c; 0xc060;
   0xffffe0; 0xffffe0; 0xc060; 0x1ffffe0; 0x1ffffe0; 0x2060; 0x6040; 0x6000;
   0x7fffffc; 0x3fffffc; 0x6000; 0x6000; 0x6000; 0x6000; 0x6000; 0x0;
   0x0; 0x0; 0x0; 0x202000; 0x0; 0x0; 0x0; 0xe380;
   0xc380; 0x1c1c0; 0xffffc0; 0xffffe0; 0xc0f0; 0x7ffff8; 0x7ffffc; 0xc0dc;
   0x7fffc0; 0x7fffc0; 0xc0c0; 0x1ffffc0; 0x1ffffc0; 0xc0; 0xffff8; 0x7fff8;
   0x6aea0; 0x1fe0600; 0x1fe0600; 0x1c00700; 0x1800380; 0x1c001f0; 0xfc0078; 0x7c0018;
   0x0; 0x0; 0x0; 0x0; 0x202000; 0x0; 0x0; 0x0;
   0x198000; 0x1d8000; 0x19c000; 0x38c7fc; 0x10c7fc; 0x3ffe600; 0x3ffe700; 0x18760c;
   0x18771c; 0x187b38; 0x1ffff70; 0x1ffebf0; 0x1861e0; 0x1861c0; 0x1861c0; 0x2bae3c0;
   0x3ffe7e0; 0x2bae760; 0x186670; 0x186638; 0x18601c; 0x3ffe00e; 0x7ffe004; 0x6000;
   0x6000; 0x0; 0x0; 0x0; 0x0; 0x202000; 0x0; 0x0;
   0x0; 0x6000; 0x86000; 0x3c6300; 0x786380; 0xfc61c0; 0x1ce60e0; 0x3c76070;
   0x183e038; 0x1f000; 0x1be00; 0x39fc0; 0x1fffffe; 0x1fffffc; 0x30180; 0x301c0;
   0xffff80; 0xffffc0; 0x30180; 0xffffc0; 0xffff80; 0x301c0; 0x30180; 0x3ffffc0;
   0x3ffff80; 0x1c0; 0x0; 0x0; 0x0; 0x0; 0x202000; 0x0;
   0x0; 0x0; 0x0; 0x3fffff0; 0x3fffff0; 0x2aaaab0; 0x1d8c30; 0x198e30;
   0x39ce30; 0x2bac630; 0x3ffe730; 0x3ffe3b0; 0x18f7b0; 0x18fbf0; 0x1fffff0; 0x1ffebf0;
   0x18e770; 0x18e338; 0x18e738; 0x1ffe338; 0x1ffe718; 0x18e318; 0x18e71c; 0x18e30c;
   0x7ffe70c; 0x3ffe30e; 0xe704; 0x0; 0x0; 0x0; 0x0; 0x202000;
   0x0; 0x0; 0x0; 0x1301c0; 0x1b00c0; 0x3b80c0; 0x3180c0; 0x71d5d4;
   0x3ffdffc; 0x3ffdffc; 0x30e060; 0x31f060; 0x30f060; 0x175f770; 0x3ffc330; 0x3ffc330;
   0x30c3b8; 0x31c1b8; 0x30cd98; 0x3ffcddc; 0x3ffcccc; 0x31dcce; 0x30d860; 0x31df70].
Definition hanzi_data_479 : list N :=
  [0x2badff0; 0x3fff1f0; 0x2aaf000; 0x1c000; 0x0; 0x0; 0x0; 0x0;
   0x202000; 0x0; 0x0; 0x0; 0x170000; 0x3b0aa8; 0x331ffc; 0x339ff8;
   0x718630; 0x3ffc638; 0x3ffc618; 0x31e618; 0x31f618; 0x31b618; 0x3fffffc; 0x3ff9ff8;
   0x175dffc; 0x318780; 0x31c7c0; 0x3186c0; 0x3ffc6e0; 0x3ff8670; 0x31c670; 0x318638;
   0x31c61c; 0x3ff860e; 0x7ffc7e4; 0x2ab87e0; 0x1c1c0; 0x0; 0x0; 0x0;
   0x0; 0x202000; 0x0; 0x0; 0x0; 0x6380; 0xe180; 0x1c1c0;
   0xffffe0; 0x1fffff0; 0xe070; 0x7ffffc; 0x7ffffe; 0xe06c; 0xaaeae0; 0xffffe0;
   0xe060; 0xe060; 0x1ffffe0; 0x1ffffe0; 0x6020; 0x3fffffc; 0x3fffffc; 0x155fd54;
   0x7fe00; 0x1f6780; 0x7c63e0; 0x7f060fc; 0x380603c; 0x1006004; 0x0; 0x0;
   0x0; 0x0; 0x202000; 0x0; 0x0; 0x0; 0x7000; 0x6000;
   0x1fffff0; 0xfffff0; 0x1fffff0; 0xc00070; 0x1c00070; 0xfffff0; 0x1fffff0; 0x30c70;
   0x30c70; 0xabae70; 0x1ffff70; 0x603b0; 0x707f0; 0xfffff0; 0x1ffff70; 0x60330;
   0x1ffff38; 0xffff38; 0x70718; 0x60318; 0x3ffff1c; 0x2aaab0e; 0x704; 0x0;
   0x0; 0x0; 0x0; 0x202000; 0x0; 0x0; 0x0; 0x198030;
   0x1d8030; 0x19c030; 0x38c038; 0x30cff8; 0x3ffeff8; 0x3ffe1dc; 0x1870cc; 0x1871cc;
   0x1878c8; 0x1fffdd4; 0x1ffeffc; 0x186ffc; 0x1860c0; 0x1860c0; 0xbae1c0; 0x1ffe1e0;
   0xbae3e0; 0x186770; 0x186e70; 0x186430; 0x3ffe438; 0x3ffe01c; 0x600c; 0x6000;
   0x0; 0x0; 0x0; 0x0; 0x202000; 0x0; 0x0; 0x0;
   0x160060; 0x360060; 0x770070; 0x630030; 0x633ff0; 0x3ffbff8; 0x3ffb818; 0x33f81c;
   0x73d95c; 0x33fbfe; 0x177fbfc; 0x3ff9b18; 0x3ff9b18; 0x339b18; 0x739b18; 0x339b18;
   0x3ff9bf8; 0x3ff9bf8; 0x739818; 0x339818; 0x739c00; 0x2bb9800; 0x7ff9dc0; 0x2ab8f80;
   0x387c0; 0x0; 0x0; 0x0; 0x0; 0x202000; 0x0; 0x0;
   0x0; 0x60440; 0x360cc0; 0x370cc0; 0x220cc0; 0x630cc0; 0x3ff0cc0; 0x3ff0cd8;
   0x238cc8; 0x739dd8; 0x23ffc8; 0x1ffffd8; 0x1ffecc8; 0x1774cd8; 0x230cc8; 0x730cd8;
   0x230cc8; 0x1ff0cd8; 0x1ff0cc8; 0x730cd8; 0x236fc8; 0x737ff8; 0x233cf8; 0x3ff1e3c;
   0x3ff0404; 0x30000; 0x0; 0x0; 0x0; 0x0; 0x202000; 0x0;
   0x0; 0x0; 0x7000; 0x6000; 0xe000; 0x3fffffc; 0x3fffffc; 0xb80c0;
   0x1dc0e0; 0x39c060; 0x175c670; 0x3ffe738; 0x15df3dc; 0x18fbfc; 0x18fddc; 0x1ffe8e0;
   0x1ffec70; 0x18ee38; 0x18effc; 0x1ffe6f8; 0x1ffe700; 0x18e380; 0x18e1c0; 0x2bae0e0;
   0x3ffe078; 0x2aae03c; 0xe008; 0x0; 0x0; 0x0; 0x0; 0x202000;
   0x0; 0x0; 0x0; 0x198000; 0x1d87f8; 0x19c7f8; 0x38c6b8; 0x30c618;
   0x3ffe618; 0x3ffe618; 0x1877f8; 0x1877f8; 0x187e18; 0x1fffe18; 0x1ffee18; 0x186618;
   0x1867f8; 0x1867f8; 0xbae618; 0x1ffe618; 0xbae618; 0x187f18; 0x187ff8; 0x1861fe;
   0x3ffe03c; 0x3ffe000; 0x6000; 0x6000; 0x0; 0x0; 0x0; 0x0;
   0x202000; 0x0; 0x0; 0x0; 0x1701c0; 0x3b00c0; 0x3305e0; 0x739fe0;
   0x719ff0; 0x3ffcc30; 0x3ffcc38; 0x31e618; 0x71f71c; 0x31fffc; 0x3fffff8; 0x3ff8c00;
   0x71dc00; 0x318c00; 0x71dc00; 0x2bb8ff8; 0x3ffdff8; 0x2bb8c00; 0x71dc00; 0x318c00;
   0x71dc00; 0x3ff8ff8; 0x7ffdff8; 0x18c00; 0x1dc00; 0x0; 0x0; 0x0;
   0x0; 0x202000; 0x0; 0x0; 0x0; 0x1700c0; 0x3b00e0; 0x331fe0;
   0x739fe0; 0x619d70; 0x3ffcc30; 0x3ffcc38; 0x31ee7c; 0x71f7ec; 0x31b3c0; 0x175f7c0;
   0x3ff86e0; 0x3ffde70; 0x319838; 0x71d81c; 0x318ffc; 0x3ffdff8; 0x3ff8838; 0x71dc38;
   0x318838; 0x71dc38; 0x2bb8838; 0x7ffdff8; 0x2ab8ff8; 0x1dc38; 0x0; 0x0;
   0x0; 0x0; 0x202000; 0x0; 0x0; 0x0; 0x2c0000; 0x363ff8;
   0x763ff8; 0x663018; 0x673198; 0x3ff3198; 0x3ffb7f8; 0x63b7f8; 0x73f198; 0x63f198;
   0x3fffff8; 0x3ff7ab8; 0x1773018; 0x6337f8; 0x7337f8; 0x633478; 0x3ff3478; 0x3ff3478;
   0x7337fc; 0x6337e8; 0x73306c; 0x2eb300c; 0x7ff3e0c; 0x2ab3e0e; 0x31c04; 0x0;
   0x0; 0x0; 0x0; 0x202000; 0x0; 0x0; 0x0; 0x1c0070;
   0x6c39a0; 0xec71b0; 0xcc6330; 0xc6e330; 0x3fecff8; 0x3ff0ff8; 0x6701b8; 0x6779bc;
   0x67f9be; 0x3ffe7fe; 0x3fe67fc; 0x6661b8; 0x6661b8; 0x6661b8; 0x2ee6bb8; 0x3fe6ff8;
   0x2ee6ff8; 0x67e1b8; 0x67e1b8; 0x66f1b8; 0x3fe3ff8; 0x7fe0ff8; 0x60038; 0x60038;
   0x0; 0x0; 0x0; 0x0; 0x202000; 0x0; 0x0; 0x0;
   0x0; 0x0; 0x3fffffc; 0x3fffffc; 0x6000; 0x6000; 0x6000; 0x1fffff8;
   0x1fffff8; 0x1aaeab8; 0x1c06018; 0x1836198; 0x1df67d8; 0x1bc6f18; 0x1d06c18; 0x1806018;
   0x1c360d8; 0x18f63d8; 0x1de6718; 0x1b86e18; 0x1d06418; 0x1806018; 0x1d46018; 0x1f86018;
   0xf86018; 0x0; 0x0; 0x0; 0x0; 0x202000; 0x0; 0x0;
   0x0; 0x0; 0xfffff0; 0xfffff0; 0x6000; 0x3fffffc; 0x3fffff8; 0x380601c;
   0x3bf6fd8; 0x395655c; 0x6000; 0x7f6fe0; 0x6000; 0xfffff0; 0xffffe0; 0x0;
   0x3fffffc; 0x3fffffc; 0x300; 0x555780; 0x7fff80; 0x755540; 0x300000; 0x300000;
   0x3ff000; 0x1ff000; 0x0; 0x0; 0x0; 0x0; 0x202000; 0x0;
   0x0; 0x0; 0x0; 0xfffff0; 0xfffff0; 0x6000; 0x1557554; 0x3fffff8;
   0x3d5755c; 0x3806018; 0x3ff6fdc; 0x3bf6fd8; 0x380601c; 0x7f6fe0; 0x7f6fe0; 0x2000;
   0x7fffe0; 0x7fffe0; 0x700000; 0x600000; 0x7fffe0; 0x7fffe0; 0x700000; 0x600000;
   0x7ffff0; 0x7ffff0; 0x700000; 0x0; 0x0; 0x0; 0x0; 0x202000;
   0x0; 0x0; 0x0; 0x0; 0xfffff0; 0xfffff0; 0x6000; 0x3fffffc].
Definition hanzi_data_480 : list N :=
  [0x3fffffc; 0x380601c; 0x3aa6a8c; 0x3ff6fdc; 0x380600c; 0x7f6fe0; 0x7f6fe0; 0x7000;
   0x6000; 0x3fffffc; 0x3fffffc; 0x1c01c0; 0xe0380; 0xf0f00; 0x3be00; 0x1f800;
   0x3fe00; 0x17fdff0; 0x3fe03fc; 0x3c0007c; 0x0; 0x0; 0x0; 0x0;
   0x202000; 0x0; 0x0; 0x0; 0x0; 0xfffff0; 0xfffff0; 0x6000;
   0x3fffffc; 0x3fffffc; 0x380601c; 0x3aa6a8c; 0x3bf6fdc; 0x380600c; 0x7f6fe0; 0x7f6fe0;
   0x7000; 0x6000; 0x3fffffc; 0x3fffffc; 0xc00; 0x2aae00; 0x7ffe00; 0x700700;
   0x700700; 0x3003c0; 0x3141f0; 0x3f80fc; 0x1f801c; 0x0; 0x0; 0x0;
   0x0; 0x202000; 0x0; 0x0; 0x0; 0x0; 0xfffff0; 0xfffff0;
   0x6000; 0x1fffffc; 0x1806008; 0x1ff6ffc; 0x1bf6fe8; 0x1156554; 0x3f6fe0; 0x6000;
   0x1fffff0; 0x1fffff0; 0xc030; 0xc030; 0xe030; 0x1ffffb0; 0xffffb8; 0xc06038;
   0xc07038; 0xc07018; 0xe03818; 0x611f1c; 0x7e0fce; 0x3f018c; 0x0; 0x0;
   0x0; 0x0; 0x202000; 0x0; 0x0; 0x0; 0x0; 0xfffff0;
   0xfffff0; 0x6000; 0x3fffffc; 0x3fffff8; 0x380601c; 0x3bf6fd8; 0x3ff6fdc; 0x6000;
   0x7f4fe0; 0xe000; 0x1fc00; 0xf9f00; 0x1ff77f0; 0x3f8e0fe; 0x3c0c01c; 0x7fffe0;
   0x7fffe0; 0x1c0000; 0xf1f00; 0x3fe00; 0x3f000; 0xf8000; 0x60000; 0x0;
   0x0; 0x0; 0x0; 0x202000; 0x0; 0x0; 0x0; 0x0;
   0xfffff0; 0xfffff0; 0x6000; 0x1557554; 0x3fffff8; 0x3d5755c; 0x3806018; 0x3ff6fdc;
   0x3bf6fd8; 0x380601c; 0x7f6fe0; 0x7f6fe0; 0x2000; 0x7fffe0; 0x7fffe0; 0x606060;
   0x606060; 0x7fffe0; 0x7fffe0; 0x606060; 0x606060; 0x7fffe0; 0x7fffe0; 0x600060;
   0x0; 0x0; 0x0; 0x0; 0x202000; 0x0; 0x0; 0x0;
   0x0; 0xfffff0; 0xfffff0; 0x6000; 0x3fffffc; 0x3fffff8; 0x380601c; 0x3bf6fd8;
   0x395655c; 0x2a6aa0; 0x7f6fe0; 0x6380; 0xffffc0; 0xffffe0; 0xe00070; 0xe2aab8;
   0xe3ffdc; 0xe380c8; 0x7f80c0; 0x7bffc0; 0x31d55c0; 0x30000c0; 0x3d555c0; 0x1ffff80;
   0x7fff00; 0x0; 0x0; 0x0; 0x0; 0x202000; 0x0; 0x0;
   0x0; 0x0; 0xfffff0; 0xfffff0; 0xaaeaa8; 0x1fffffc; 0x1806008; 0x1ff6ffc;
   0x1806008; 0x1ff6ffc; 0x3f6fe0; 0x6700; 0x7fff80; 0x7fffe0; 0x3c03f8; 0xfdf38;
   0xffe00; 0x7fffffe; 0x3e030fc; 0x7000; 0x7ffff0; 0x7ffff0; 0x601e00; 0x700fc0;
   0x3f03f8; 0x1f0078; 0x0; 0x0; 0x0; 0x0; 0x202000; 0x0;
   0x0; 0x0; 0x0; 0xfffff0; 0xfffff0; 0x6000; 0x3fffffc; 0x3fffff8;
   0x380601c; 0x3bf6fd8; 0x3ff6fdc; 0x3806018; 0x7f6fe0; 0x7f6fe0; 0x4000; 0x3fffffc;
   0x3fffffc; 0x7000; 0x1fffff0; 0xfffff0; 0x1d75d70; 0xc30c30; 0x1c30c70; 0xc30c30;
   0x1c30c70; 0xf30c30; 0xf30c70; 0x0; 0x0; 0x0; 0x0; 0x202000;
   0x0; 0x0; 0x0; 0x0; 0xfffff0; 0x557550; 0xaaeaa8; 0x1fffffc;
   0x1806008; 0x1ff6ffc; 0x1bf6fe8; 0x11567d4; 0x3f7fe0; 0x7000; 0x2aaeaa8; 0x3fffffc;
   0xe0380; 0x71f00; 0x3fc00; 0x1fff40; 0x3ff8ffc; 0x3fc037c; 0xc0300; 0x1c0300;
   0xc0380; 0x1c01c0; 0xc00f0; 0x1c0060; 0x0; 0x0; 0x0; 0x0;
   0x202000; 0x0; 0x0; 0x0; 0x0; 0xfffff0; 0x557550; 0x6000;
   0x1fffff8; 0x1806008; 0x1ff6ffc; 0x1bf6fe8; 0x195655c; 0x3f6fe0; 0x306040; 0x3861c0;
   0x1e6780; 0xe6200; 0x7fffe0; 0x7fffe0; 0x755560; 0x7fffe0; 0x755560; 0x6aaae0;
   0x7fffe0; 0x600060; 0x700060; 0x7e0060; 0x7c0060; 0x0; 0x0; 0x0;
   0x0; 0x202000; 0x0; 0x0; 0x0; 0x0; 0xfffff0; 0xfffff0;
   0x6000; 0x3fffffc; 0x3aaeab8; 0x3ff6fdc; 0x3bf6fd8; 0x7f6fe0; 0x7f6fe0; 0x7000;
   0xe000; 0x3fffffc; 0x3fffffc; 0x155540; 0x3fffc0; 0x0; 0x3fffc0; 0x3fffc0;
   0x0; 0x7fffe0; 0x3000e0; 0x7fffe0; 0x3fffe0; 0x7000e0; 0x0; 0x0;
   0x0; 0x0; 0x202000; 0x0; 0x0; 0x0; 0x0; 0xfffff0;
   0xfffff0; 0x6000; 0x3fffffc; 0x3aaeaac; 0x395655c; 0x3bf6fcc; 0x380601c; 0x7f6fe0;
   0x7f6fe0; 0xe00200; 0xfffffc; 0xff3a8; 0x601c0; 0xaea060; 0x1fff7fc; 0x607a8;
   0x60310; 0x3fffbb0; 0x3fff9f0; 0x3e0; 0x7fffff8; 0x3fffe3c; 0x155400c; 0x0;
   0x0; 0x0; 0x0; 0x202000; 0x0; 0x0; 0x0; 0x0;
   0xfffff0; 0xfffff0; 0x6000; 0x3fffffc; 0x3fffff8; 0x380601c; 0x3bf6fd8; 0x380601c;
   0x7f6fe0; 0x7f6fe0; 0x2000; 0x1fffff0; 0xaaaab0; 0xffffb0; 0xffffb0; 0x30;
   0x3fffff0; 0x3fffff0; 0xe18330; 0x7f0738; 0x1e0318; 0x5fdff1c; 0x3e0ff8e; 0x100050c;
   0x0; 0x0; 0x0; 0x0; 0x202000; 0x0; 0x0; 0x0;
   0x0; 0xfffff0; 0xfffff0; 0x6000; 0x3fffffc; 0x3fffff8; 0x380601c; 0x3bf6fd8;
   0x3d5655c; 0x2a6aa0; 0x7f6fe0; 0x66000; 0x70070; 0x3ffffe0; 0x3ffffc0; 0x6000c;
   0x1fffc7c; 0x1fff860; 0x1c71d00; 0x1861980; 0x1c71dc0; 0x18618e0; 0x1f71c70; 0xf61838;
   0x70010; 0x0; 0x0; 0x0; 0x0; 0x202000; 0x0; 0x0;
   0x0; 0x0; 0xfffff0; 0xfffff0; 0x6000; 0x3fffffc; 0x3806018; 0x3ff6fdc;
   0x3bf6fd8; 0x17f6ff4; 0x7f6fe0; 0x1c0; 0x1ffffc0; 0x1ffffe0; 0x78; 0x7ffffc;
   0x6078c8; 0x71f1c0; 0x3fffffc; 0x3f57df4; 0x30f8e0; 0x1ffffe0; 0x1ffffe0; 0x380000;
   0x1f8000; 0x1f0000; 0x0; 0x0; 0x0; 0x0; 0x202000; 0x0;
   0x0; 0x0; 0x0; 0xfffff0; 0xfffff0; 0x6000; 0x1fffffc; 0x1aaeaa8;
   0x1ff6fdc; 0x1bf6fe8; 0x180601c; 0x3f6fe0; 0x7f6fc0; 0xe380; 0xc1c0; 0x1ffffc0;
   0x1ffffe0; 0xc0f0; 0x7ffff8; 0x7ffffc; 0xc0dc; 0x7fffc0; 0x7fffc0; 0xc0c0].
Definition hanzi_data_481 : list N :=
  [0x3ffffc0; 0x3ffffc0; 0xc0; 0x0; 0x0; 0x0; 0x0; 0x202000;
   0x0; 0x0; 0x0; 0x0; 0xfffff0; 0xfffff0; 0x6000; 0x3fffffc;
   0x3aaeaa8; 0x3ff6fdc; 0x3bf6fc8; 0x1556554; 0x7f6fe0; 0x6000; 0xfffff8; 0xfffff8;
   0xe0300; 0x3fffffc; 0x3fffffc; 0x1c00; 0x2aaaea8; 0x3fffffc; 0xc0380; 0xf07c0;
   0x7ff80; 0x1ff000; 0xfefff8; 0x1f007f8; 0x0; 0x0; 0x0; 0x0;
   0x202000; 0x0; 0x0; 0x0; 0x0; 0xfffff0; 0xfffff0; 0x6000;
   0x3fffffc; 0x3fffffc; 0x380601c; 0x3bf6fcc; 0x3d5655c; 0x2806008; 0x7f6fe0; 0x2000;
   0x31c00; 0x1ff0ea8; 0x1ff1ff8; 0x30c00; 0x1571d50; 0x1ff0ff8; 0x1571d50; 0x30c00;
   0x3ff1ffc; 0x3ff0ffc; 0x31c00; 0x30c00; 0x31c00; 0x0; 0x0; 0x0;
   0x0; 0x202000; 0x0; 0x0; 0x0; 0x0; 0xfffff0; 0x557550;
   0x6000; 0x1fffffc; 0x1806008; 0x1ff6ffc; 0x1bf6fe8; 0x195655c; 0x3f6fe0; 0x6000;
   0x2a8f80; 0x7f9ff0; 0x600060; 0x751570; 0x7f8fe0; 0x600070; 0x600060; 0x7ffff0;
   0x2baea0; 0x1030600; 0x3030700; 0x35703c0; 0x3ff00fc; 0x1fc001c; 0x0; 0x0;
   0x0; 0x0; 0x202000; 0x0; 0x0; 0x0; 0x0; 0xfffff0;
   0xfffff0; 0x6000; 0x3fffffc; 0x3fffff8; 0x380601c; 0x3bf6fd8; 0x3d5655c; 0x2a6aa0;
   0x7f6fe0; 0x86080; 0x1c01c0; 0xc0180; 0x3fffffc; 0x3fffffc; 0x3e01c0; 0x3f03e0;
   0x7f87f0; 0xed8fb0; 0x1ddddd8; 0x38cf99c; 0x31c71cc; 0xc0180; 0x1c01c0; 0x0;
   0x0; 0x0; 0x0; 0x202000; 0x0; 0x0; 0x0; 0x0;
   0xfffff0; 0xfffff0; 0x6000; 0x3fffffc; 0x3fffffc; 0x380601c; 0x3bf6fcc; 0x395655c;
   0x22a6aa8; 0x7f6fe0; 0x2080; 0x1ffc180; 0x1ffc180; 0x180dffc; 0x180dffc; 0x1ffc1c0;
   0x180c3e0; 0x180cff0; 0x1ffddb0; 0x1d5ddb8; 0x180d19c; 0x1ffc18c; 0x1ffc180; 0x180c180;
   0x0; 0x0; 0x0; 0x0; 0x202000; 0x0; 0x0; 0x0;
   0x0; 0xfffff0; 0xfffff0; 0x6000; 0x1fffffc; 0x1fffff8; 0x1bf6fdc; 0x1bf6fd8;
   0x180601c; 0x3f6fe0; 0x556540; 0xaa8aa8; 0x1ffdff8; 0xc01838; 0x1d55d78; 0xff9ff8;
   0x38; 0xffc038; 0x1ffdff8; 0xe38ab8; 0x770038; 0x3e1ff8; 0xff1ff8; 0x3e3e038;
   0x100e038; 0x0; 0x0; 0x0; 0x0; 0x202000; 0x0; 0x0;
   0x0; 0x0; 0xfffff0; 0xfffff0; 0x6000; 0x3fffffc; 0x3806008; 0x3ff6fdc;
   0x3aa6a88; 0x17f6ff4; 0x2a6aa0; 0xe07ff8; 0xe07ff8; 0x1f56018; 0x3fffff8; 0x7fffff8;
   0xe20018; 0xe73fd8; 0xe60018; 0xee7ff8; 0xec7ff8; 0xe036dc; 0xe036cc; 0xe0666c;
   0xfc67bc; 0x7c0780; 0x0; 0x0; 0x0; 0x0; 0x202000; 0x0;
   0x0; 0x0; 0x0; 0xfffff0; 0xfffff0; 0x6000; 0x3fffffc; 0x3aaeab8;
   0x3ff6fdc; 0x3bf6fd8; 0x380601c; 0x7f6fe0; 0x406000; 0xffa030; 0x5ffdf0; 0x6319c0;
   0x773000; 0xfa303c; 0x1fffc78; 0x6b820; 0x70180; 0x3fffec0; 0x3fffee0; 0x60070;
   0x1575438; 0x1fffc1c; 0x1555418; 0x0; 0x0; 0x0; 0x0; 0x202000;
   0x0; 0x0; 0x0; 0x0; 0xfffff0; 0x557550; 0x2aaeaa8; 0x3fffffc;
   0x3806008; 0x3ff6fdc; 0x3806008; 0x7f6fe0; 0x6000; 0x1fff060; 0xeab0f0; 0x1fff1c0;
   0xfff380; 0x1d57100; 0xfff0fc; 0xe0fc; 0x3fff0c0; 0x3d578c0; 0x38e3ec0; 0x19f36c0;
   0x1b1b3c0; 0x19ff3e0; 0x1fff0e0; 0x1f00020; 0x0; 0x0; 0x0; 0x0;
   0x202000; 0x0; 0x0; 0x0; 0x0; 0xfffff0; 0xfffff0; 0x6000;
   0x3fffffc; 0x3806008; 0x3ff6ffc; 0x3bf6fe8; 0x7f6fe0; 0x7f6fe0; 0x66c60; 0x60c60;
   0x73ffc; 0x3ff0c60; 0x3fffffc; 0xe3fffc; 0x67c000; 0x66dff8; 0x7e1838; 0x3c1ff8;
   0x3c1838; 0x7e1ff8; 0x1e79d78; 0x3c3fe38; 0x301de38; 0x0; 0x0; 0x0;
   0x0; 0x202000; 0x0; 0x0; 0x0; 0x0; 0xfffff0; 0xfffff0;
   0x6000; 0x1fffffc; 0x1fffff8; 0x1bf6fdc; 0x1bf6fd8; 0x180601c; 0x3f6fe0; 0x66000;
   0xab0ff0; 0x1ff9ff0; 0xe1cc30; 0x77fc30; 0x3e2ff0; 0x3e1ff0; 0x1ff8198; 0x7d5ff98;
   0x2ffaf90; 0xd58198; 0xc18198; 0xd59fd8; 0xff9ffc; 0xc1805c; 0x0; 0x0;
   0x0; 0x0; 0x202000; 0x0; 0x0; 0x0; 0x0; 0xfffff0;
   0xfffff0; 0x6000; 0x3fffffc; 0x3aaeab8; 0x3ff6fdc; 0x3bf6fd8; 0x1d5655c; 0x7f6fe0;
   0x7c70; 0x1ff2ea8; 0x1ff7ffc; 0x1830c20; 0x1831ff0; 0x1ff0ba0; 0x1ff3ff8; 0x1833ff8;
   0x1ff3198; 0x1ffbff8; 0x1818180; 0x181bffc; 0x181fffc; 0x1f0c180; 0xf0c180; 0x0;
   0x0; 0x0; 0x0; 0x202000; 0x0; 0x0; 0x0; 0x0;
   0xfffff0; 0xfffff0; 0x6000; 0x3fffffc; 0x3aaeab8; 0x3ff6fdc; 0x3bf6fd8; 0x380601c;
   0x7f6fe0; 0x6000; 0xc0aa8; 0x3ffdff8; 0x3ffd838; 0xe31838; 0x631ff8; 0x3fffff8;
   0x3ffe018; 0x1c1ff8; 0x2babff8; 0x3fff87c; 0x18186c; 0x1c1ffe; 0x181fe4; 0x1c0070;
   0x0; 0x0; 0x0; 0x0; 0x202000; 0x0; 0x0; 0x0;
   0x0; 0xfffff0; 0xfffff0; 0x6000; 0x3fffffc; 0x3806008; 0x3ff6ffc; 0x3bf6fe8;
   0x7f6fe0; 0x7f6fe0; 0x6700; 0x1ffe7f8; 0x1ffe9fc; 0x18c7f98; 0x1ffe7b0; 0x1aee3f0;
   0x18c677c; 0x1ffe78c; 0x15d4df0; 0xaeae3c; 0x1ffefcc; 0xc0ce0; 0x15d5c7c; 0x3ffffcc;
   0x15557c0; 0x0; 0x0; 0x0; 0x0; 0x202000; 0x0; 0x0;
   0x0; 0x6000; 0x6000; 0x1fffff0; 0xfffff0; 0x6000; 0x7fffe0; 0x7ffff0;
   0x6000; 0x1557554; 0x3fffffc; 0x3fffffc; 0x0; 0x7fffc0; 0x3fffc0; 0x7000c0;
   0x3aaac0; 0x7fffc0; 0x3000c0; 0x7000c0; 0x3fffc0; 0x7fffc0; 0x3000c0; 0x7000c0;
   0x3f00c0; 0x1f00c0; 0x0; 0x0; 0x0; 0x0; 0x202000; 0x0;
   0x0; 0x0; 0x180; 0x1ff8180; 0x1ffbffc; 0x1abbffc; 0x1818180; 0x1898ba8].
Definition hanzi_data_482 : list N :=
  [0x1999ffc; 0x1998180; 0x19995d4; 0x199bffc; 0x199bffc; 0x1998000; 0x1999ff8; 0x1999ff8;
   0x19d9818; 0x1b99ff8; 0x3c1ff8; 0x3c1818; 0x13e1d58; 0x2361ff8; 0x7371d58; 0x2339818;
   0x371d818; 0x3f0ff18; 0x1405f18; 0x0; 0x0; 0x0; 0x0; 0x202000;
   0x0; 0x0; 0x0; 0xc0040; 0xc0060; 0x3fff060; 0x3fff0e0; 0xc00c0;
   0xaea7fc; 0x1fff7fc; 0xc0000; 0x15d531c; 0x3fffb18; 0x7fffb18; 0x398; 0x1ffe198;
   0x1ffe1b8; 0x1c061b0; 0x1aae1b0; 0x1ffe1b0; 0x18060b0; 0x1c06fd0; 0x1ffeff8; 0x1ffe1fc;
   0x180603c; 0x1c06000; 0x1f06000; 0xf06000; 0x0; 0x0; 0x0; 0x0;
   0x202000; 0x0; 0x0; 0x0; 0x601c0; 0x60180; 0x571ffc; 0xff9ffc;
   0x75c1c0; 0x30cba8; 0x38fffc; 0x1ffe180; 0x1ffd5d4; 0x18c3ffe; 0x18c3ffc; 0x18c0000;
   0x7fffff8; 0x7ffeff8; 0x18c1c18; 0x18c0ff8; 0x1ffdff8; 0x1ffcc18; 0x1dd5d58; 0x8c0ff8;
   0xc1d58; 0xc0c18; 0xc1c18; 0xf8f98; 0x78f18; 0x0; 0x0; 0x0;
   0x0; 0x202000; 0x0; 0x0; 0x0; 0x1c01c0; 0x1c00c0; 0x181ffc;
   0x3ffdffc; 0x3ffc1c0; 0x300cae8; 0x300cffc; 0x300c0c0; 0x15d4; 0x3ffdffc; 0x3ffdffc;
   0x180000; 0x180ff8; 0x198ff8; 0x198c18; 0x3f98ff8; 0x3f98ff8; 0x198c18; 0x19cd58;
   0x1bcff8; 0x1fcd58; 0x1eec18; 0x7fe6c18; 0x3f87f98; 0x3f02718; 0x0; 0x0;
   0x0; 0x0; 0x202000; 0x0; 0x0; 0x0; 0x70c00; 0x30c00;
   0x70c00; 0x30c00; 0x3ff0ffc; 0x3ff0ff8; 0x1570d54; 0x30c00; 0x70c00; 0x30c00;
   0x1ff0ff8; 0x1ff0ff8; 0x1570d50; 0x30c00; 0x70c00; 0x30c00; 0x7ff0ffc; 0x3ff0ffc;
   0x7ff0d54; 0x30c00; 0x70c00; 0x30c00; 0x70c00; 0x30c00; 0x70c00; 0x0;
   0x0; 0x0; 0x0; 0x202000; 0x0; 0x0; 0x0; 0x61c0;
   0x60c0; 0xffffe0; 0xaaeae0; 0x6070; 0x3fffffc; 0x3fffffc; 0x0; 0x7fffe0;
   0x600060; 0x600060; 0x7fffe0; 0x7fffe0; 0x30c00; 0x3ff1ffc; 0x3ff0ffc; 0x31c00;
   0xab0ea8; 0x1ff1ff8; 0x30c00; 0x1571d54; 0x3ff0ffc; 0x5571d54; 0x30c00; 0x31c00;
   0x0; 0x0; 0x0; 0x0; 0x202000; 0x0; 0x0; 0x0;
   0xe000; 0xe000; 0x3fffff8; 0x3fffff8; 0x180c38; 0x180c38; 0x3ff7ff8; 0x2ba2eb8;
   0x7c3f38; 0xde7f38; 0x1df6db8; 0x39b8cf8; 0x1198c78; 0x63038; 0x3fe7ff8; 0x3fe3ff8;
   0x67018; 0x1fe3f98; 0x1fe7f98; 0x63018; 0x3fe7ffc; 0x3fe3fec; 0x6700c; 0x6300e;
   0x67004; 0x0; 0x0; 0x0; 0x0; 0x202000; 0x0; 0x0;
   0x0; 0x0; 0x0; 0x3fffffc; 0x3fffffc; 0x7000; 0x3000; 0x3000;
   0x1fffff8; 0x1fffff8; 0x1c60638; 0x1c70638; 0x1c60638; 0x1c7fe38; 0x1c7fe38; 0x1c70638;
   0x1c60638; 0x1c75638; 0x1c7fe38; 0x1c7fe38; 0x1c60638; 0x1c70638; 0x1fffff8; 0x1fffff8;
   0x1eaaab8; 0x1c00038; 0x0; 0x0; 0x0; 0x0; 0x202000; 0x0;
   0x0; 0x0; 0x0; 0x3fffff8; 0x3fffff8; 0x98038; 0x7dc038; 0x60c038;
   0x3fffff8; 0x3ffffb8; 0x77038; 0x3e3838; 0x3f81ff8; 0x3e003f8; 0x1fffff8; 0xaaeab8;
   0xe038; 0x1ffffb8; 0x1ffff98; 0x18c1998; 0x1cff998; 0x18c1998; 0x1cff99c; 0x18c198c;
   0x1ffff8c; 0x1ffff8e; 0x1c00184; 0x0; 0x0; 0x0; 0x0; 0x202000;
   0x0; 0x0; 0x0; 0xc0300; 0xc0300; 0x3fffffc; 0x3fffffc; 0x15d5754;
   0xc0300; 0xfff00; 0xfff00; 0x6000; 0x6000; 0x7fffe0; 0x7fffe0; 0x606060;
   0x606060; 0x757560; 0x7fffe0; 0x7fffe0; 0x6000; 0x1557554; 0x3fffffc; 0x3fffffc;
   0x6000; 0x6000; 0x6000; 0x6000; 0x0; 0x0; 0x0; 0x0;
   0x202000; 0x0; 0x0; 0x0; 0xc30; 0xc30; 0x3fffffc; 0x3ffbffc;
   0x181d74; 0x180c30; 0x180ff0; 0x180ff0; 0x180180; 0x180180; 0x7fffffc; 0x3fffba8;
   0x55d799c; 0x183988; 0x183ffc; 0x183ff8; 0x1815d4; 0x180180; 0x183ffe; 0x183ffe;
   0x180180; 0x180180; 0x180180; 0x180180; 0x180180; 0x0; 0x0; 0x0;
   0x0; 0x202000; 0x0; 0x0; 0x0; 0xe30; 0xe30; 0x3fffffc;
   0x3fffffc; 0x1775f74; 0x630e30; 0x670ff0; 0x630ff0; 0x6701c0; 0x630180; 0x671ffc;
   0x631ba8; 0x67199c; 0x631988; 0x671ffc; 0x631ff8; 0x6315d4; 0x630180; 0x663bffe;
   0x663bffe; 0x661c1c0; 0x261c180; 0x7e0e1c0; 0x3e0e180; 0x1c041c0; 0x0; 0x0;
   0x0; 0x0; 0x202000; 0x0; 0x0; 0x0; 0xc00e30; 0x1f00e30;
   0x1ff3ffc; 0x3fbffc; 0x1df74; 0x18e30; 0x1cff0; 0x18ff0; 0x155c1c0; 0x3ff8180;
   0x3ffdffc; 0x619aa8; 0x71dd9c; 0x619888; 0x71dffc; 0x61dff8; 0x71d5d4; 0x60c180;
   0x70dffe; 0x60dffe; 0x70e1c0; 0x60e180; 0x7071c0; 0x603180; 0x7021c0; 0x0;
   0x0; 0x0; 0x0; 0x202000; 0x0; 0x0; 0x0; 0x198318;
   0x1b8318; 0x198ffc; 0x198ffc; 0x19c75c; 0x318c318; 0x398e3f8; 0x198e3f8; 0x1d8f0c0;
   0xf8f8c0; 0x78fffc; 0x38d6ec; 0x1cc6cc; 0x1ec6cc; 0x1fc7fc; 0x1ac7fc; 0x18c5d4;
   0x18c0c0; 0x118cffe; 0x218cffe; 0x718c0c0; 0x218c0c0; 0x3f8c0c0; 0x3f8c0c0; 0x1f0c0c0;
   0x0; 0x0; 0x0; 0x0; 0x202000; 0x0; 0x0; 0x0;
   0x630; 0xaa8630; 0x1ffd774; 0x1badffc; 0x19cdffc; 0x198c630; 0x19cc7f0; 0x198c7f0;
   0x19cc1c0; 0x198c0c0; 0x19cdffc; 0x1ffdaa8; 0x1ffdddc; 0x180d888; 0x180dddc; 0xdff8;
   0xd5d4; 0xc0c0; 0x100dffe; 0x300dffe; 0x700c1c0; 0x300c0c0; 0x3ffc1c0; 0x3ff80c0;
   0x1ff01c0; 0x0; 0x0; 0x0; 0x0; 0x202000; 0x0; 0x0;
   0x0; 0x630; 0x630; 0x7ffffc; 0x7feffc; 0x719774; 0x318630; 0x31c7f0;
   0x3187f0; 0x31c1c0; 0x3f9c0c0; 0x3f9cffc; 0x181cea8; 0x183ccdc; 0x183cc88; 0x1c7cffc;
   0xc6eff8; 0xeee5d4; 0x6c60c0; 0x7c6ffc; 0x386ffc; 0x7c71c0; 0xee30c0; 0x1c7b9c0].
Definition hanzi_data_483 : list N :=
  [0x383d8c0; 0x30191c0; 0x0; 0x0; 0x0; 0x0; 0x202000; 0x0;
   0x0; 0x0; 0x1c0630; 0x180630; 0x1c1774; 0x183ffc; 0x15d5ffc; 0x3ffe630;
   0x7ffe7f0; 0x1807f0; 0x1c01c0; 0x180180; 0x3fffffc; 0x3fffff8; 0x3fff9dc; 0x3e1888;
   0x7e1ddc; 0x7e1ff8; 0x7f1ffc; 0xdb8180; 0x1dddffc; 0x398fffe; 0x71cfffc; 0x2183180;
   0x1c21c0; 0x180180; 0x1c01c0; 0x0; 0x0; 0x0; 0x0; 0x202000;
   0x0; 0x0; 0x0; 0xe30; 0xaa8e30; 0x1ffdffc; 0x1abbffc; 0x1c1df74;
   0x1818e30; 0x1c1cff0; 0x1818ff0; 0x1c1c1c0; 0x1ff8180; 0x1ffdffc; 0x1819ba8; 0x1c1d99c;
   0x1819988; 0x1c1dffc; 0x1819ff8; 0x1ffd5d4; 0x1ff8180; 0x1557ffe; 0x3ffe; 0x1c0;
   0x180; 0x7ffe1c0; 0x3ffe180; 0x1c0; 0x0; 0x0; 0x0; 0x0;
   0x202000; 0x0; 0x0; 0x0; 0x1c0630; 0x180630; 0x31cdffc; 0x398dffc;
   0x19dd774; 0x1998630; 0xdf87f0; 0xfb07f0; 0x5d01c0; 0x3ffc0c0; 0x3ffdffc; 0x180aa8;
   0x1c1ddc; 0x180888; 0x1c1ffc; 0x3ffeff8; 0x7fff5d4; 0x180080; 0x1c1ffe; 0x181ffe;
   0x1c01c0; 0x180080; 0x1c01c0; 0x180080; 0x1c01c0; 0x0; 0x0; 0x0;
   0x0; 0x202000; 0x0; 0x0; 0x0; 0x304318; 0x30c318; 0x30c75c;
   0x30c7fc; 0x30675c; 0x306318; 0x3fe73f8; 0x3ff33f8; 0x3333060; 0x333bae8; 0x331fffc;
   0x331feec; 0x331c64c; 0x338c64c; 0x319675c; 0x319e7fc; 0x31b75f4; 0x39b30e0; 0x19ffffe;
   0x18ffffc; 0x18e18e0; 0x18e00e0; 0x18600e0; 0x1f700e0; 0xf300e0; 0x0; 0x0;
   0x0; 0x0; 0x202000; 0x0; 0x0; 0x0; 0x180630; 0x180630;
   0x181774; 0x183ffc; 0x7ffdffc; 0x3ffc630; 0x318c7f0; 0x318c7f0; 0x318c1c0; 0x198c180;
   0x1ffdffc; 0x3ffdaa8; 0x1d7d9dc; 0x183d888; 0x1c7d9dc; 0xc6dff8; 0xcedffc; 0xece180;
   0x7c7ffc; 0x387ffc; 0x7c7ffc; 0xfe6180; 0x1cf71c0; 0x383b980; 0x30111c0; 0x0;
   0x0; 0x0; 0x0; 0x202000; 0x0; 0x0; 0x0; 0x1c0630;
   0xc0630; 0x1c1774; 0xc1ffc; 0x1ffdffc; 0x1ffc630; 0x1ddc7f0; 0x18cc7f0; 0x19cc5d0;
   0x18cc0c0; 0x19ccffc; 0x18ccff8; 0x19cccdc; 0x3ffec88; 0x7fffffc; 0x1c0ff8; 0x1c01c0;
   0x3e00c0; 0x361ffc; 0x671ffc; 0x6301c0; 0xc380c0; 0x3c1e1c0; 0x380f0c0; 0x30021c0;
   0x0; 0x0; 0x0; 0x0; 0x202000; 0x0; 0x0; 0x0;
   0x180c30; 0x180c30; 0x183ffc; 0x183ffc; 0x3ffdd74; 0x3ff8c30; 0x180ff0; 0x180ff0;
   0x180180; 0x2ba8180; 0x3ffdffc; 0x2aa9ba8; 0x18199c; 0x181988; 0x181ffc; 0x2ba9ff8;
   0x3ffd5d4; 0x3ffc180; 0x183ffe; 0x183ffe; 0x180180; 0x180180; 0x7ffe180; 0x3ffe180;
   0x180; 0x0; 0x0; 0x0; 0x0; 0x202000; 0x0; 0x0;
   0x0; 0x60630; 0xe0630; 0x1c1774; 0x2bebffc; 0x3fffffc; 0x3aae630; 0x30467f0;
   0x30c67f0; 0x10e41c0; 0x600c0; 0x70ffc; 0x3ffeeec; 0x3fffccc; 0xc38ccc; 0xc18ddc;
   0xe18ffc; 0x61c5d4; 0x63c0c0; 0x7f1ffe; 0x3e1ffe; 0x7c01c0; 0xee00c0; 0x3c7c1c0;
   0x381f0c0; 0x30071c0; 0x0; 0x0; 0x0; 0x0; 0x202000; 0x0;
   0x0; 0x0; 0x300118; 0x300118; 0x3017fc; 0x3037fc; 0x30755c; 0x306118;
   0x3ffe1f8; 0x3ff81f8; 0x3ff8060; 0x387860; 0x387ffc; 0x386aec; 0x78666c; 0xf8626c;
   0xdc677c; 0xcc63fc; 0x1ce6574; 0x1866060; 0x38767fe; 0x303e7fe; 0x1017060; 0x1f860;
   0x7ffdc60; 0x3ff0c60; 0x3fc0860; 0x0; 0x0; 0x0; 0x0; 0x202000;
   0x0; 0x0; 0x0; 0x800738; 0xf80238; 0x1fffffc; 0xfeffe; 0xc177c;
   0xe0238; 0x607f8; 0x3fff3f8; 0x7fff0c0; 0x6300c0; 0xe38ffc; 0xc1ceec; 0x1c1eccc;
   0x782fccc; 0x363fffc; 0x638ffc; 0x6385d4; 0x6380c0; 0x619ffc; 0x618ffc; 0x61c0c0;
   0x60c0c0; 0x60f0c0; 0x6078c0; 0x6030c0; 0x0; 0x0; 0x0; 0x0;
   0x202000; 0x0; 0x0; 0x0; 0x30330; 0x30330; 0x3f9ffc; 0x7f8ffc;
   0x75d774; 0x30c330; 0x38e3f0; 0x3fff3f0; 0x3fff8c0; 0x30c60c0; 0x31c6ffc; 0x30c6eec;
   0x30c6ccc; 0x30c6ccc; 0x3ffeffc; 0x3ffeffc; 0x3e05d4; 0x3e00c0; 0x3f0ffe; 0x23b0ffe;
   0x73b80c0; 0x239c0c0; 0x778f0c0; 0x3f878c0; 0x14010c0; 0x0; 0x0; 0x0;
   0x0; 0x202000; 0x0; 0x0; 0x0; 0x1c0630; 0x318c630; 0x31cd774;
   0x398fffc; 0x19ddffc; 0xd98630; 0xdd87f0; 0x1807f0; 0x1ffc1c0; 0x1ffc180; 0x180dffc;
   0x180daa8; 0x1ffd9dc; 0x1ffd888; 0x1d5dffc; 0x180dff8; 0x180d5d4; 0x1ffc180; 0x1fffffc;
   0x180fffe; 0x180c1c0; 0x180c180; 0x180c1c0; 0x1f0c180; 0x1f0c1c0; 0x0; 0x0;
   0x0; 0x0; 0x202000; 0x0; 0x0; 0x0; 0x18738; 0x18638;
   0x1d77c; 0xdffc; 0x3ffdffc; 0x3ffe638; 0x30077f8; 0x38637f8; 0x33678c0; 0x3b67ae8;
   0x336cffc; 0x39eceec; 0x31ecccc; 0x3ffeccc; 0x3ffeddc; 0x3870ffc; 0x38f05d4; 0x39f80c0;
   0x3b7dffe; 0x3a6fffe; 0x18670c0; 0x18630c0; 0x1c610c0; 0x1f600c0; 0xf000c0; 0x0;
   0x0; 0x0; 0x0; 0x202000; 0x0; 0x0; 0x0; 0x186198;
   0x306198; 0x3067fc; 0x6067fc; 0x6065dc; 0x3fe6198; 0x3fffdf8; 0xf9f8; 0x1046060;
   0x3866060; 0x18663fc; 0x18c63ec; 0x18d636c; 0x18de36c; 0x1cdfffc; 0xcc7bfc; 0xdc6174;
   0xd86060; 0xd867fe; 0xf863fe; 0x786060; 0x606060; 0x7fff460; 0x3fffc60; 0x3c60;
   0x0; 0x0; 0x0; 0x0; 0x202000; 0x0; 0x0; 0x0;
   0x630; 0x1ffc630; 0x1ffdffc; 0xe31ffc; 0x3f1774; 0x3c0630; 0x7ffe7f0; 0x3ffe7f0;
   0x19f01c0; 0x19b80c0; 0x1d9cffc; 0x18fea8; 0x1f6cdc; 0xa0c88; 0xc0ffc; 0x3ffeff8;
   0x3fff5d4; 0x3e00c0; 0x7f1ffc; 0x6f9ffc; 0x1edc1c0; 0x38ce0c0; 0x78c79c0; 0x20c30c0;
   0xc01c0; 0x0; 0x0; 0x0; 0x0; 0x202000; 0x0; 0x0;
   0x0; 0x1806318; 0x180e318; 0x1c1cffc; 0xe1cffc; 0x7fff75c; 0x3fff318; 0x7fff3f8].
Definition hanzi_data_484 : list N :=
  [0x3203f8; 0x3700c0; 0x3ffe0c0; 0x3ffe7fc; 0x31266ec; 0x31666cc; 0x31266cc; 0x3f367fc;
   0x3f1e7fc; 0x301e5d4; 0x30060c0; 0x3ffeffe; 0x3ffeffe; 0x30060c0; 0x30060c0; 0x3ffe0c0;
   0x3ffe0c0; 0x30060c0; 0x0; 0x0; 0x0; 0x0; 0x202000; 0x0;
   0x0; 0x0; 0x630; 0x1ffe630; 0x1fffffc; 0x180fffc; 0x1c0f774; 0x1ffe630;
   0x1ffe7f0; 0x180e7f0; 0x1ffe1c0; 0x1ffe0c0; 0x155cffc; 0x18eec; 0x3ffcccc; 0x3ffeccc;
   0x31c7ffc; 0x30c3ffc; 0x31c65d4; 0x33e60c0; 0x3777ffe; 0x3a36ffe; 0x3ffe1c0; 0x3ffe0c0;
   0x18001c0; 0x1f000c0; 0x1f001c0; 0x0; 0x0; 0x0; 0x0; 0x202000;
   0x0; 0x0; 0x0; 0x18718; 0x18218; 0x1dffc; 0x3ffcffc; 0x3fff75c;
   0x3026218; 0x30777f8; 0x30633f8; 0x37ff0c0; 0x32aa0c0; 0x3000ffc; 0x3bfeeec; 0x3154ccc;
   0x3800ccc; 0x33feffc; 0x3aaaffc; 0x39545d4; 0x3bfe0c0; 0x1b57ffc; 0x3b06ffc; 0x1bfe0c0;
   0x1bfe0c0; 0x18060c0; 0x1f800c0; 0xf000c0; 0x0; 0x0; 0x0; 0x0;
   0x202000; 0x0; 0x0; 0x0; 0x180318; 0x18eb18; 0x1fffffc; 0x1ffeffc;
   0x198675c; 0x1986318; 0x7ff73f8; 0x7ff33f8; 0x1983060; 0x198f860; 0x1fffffc; 0xbaceec;
   0x18c66c; 0x3ffc66c; 0x3ffdffc; 0x187ffc; 0x187d74; 0x3ff7060; 0x3ff77fe; 0x1877fe;
   0x18f060; 0x1bd860; 0x55f9c60; 0x3fe0e60; 0x3f00460; 0x0; 0x0; 0x0;
   0x0; 0x202000; 0x0; 0x0; 0x0; 0x4318; 0x2aae318; 0x3ffeffc;
   0x2ba6ffc; 0x30675c; 0x306318; 0x3ff73f8; 0x3bb33f8; 0x33378c0; 0x33338c0; 0x3ff7ffc;
   0x3bb2eec; 0x33376cc; 0x33326cc; 0x3ff77fc; 0x3ff27fc; 0x3175f4; 0x3b20e0; 0x1f77fe;
   0x1e27fe; 0x1c70e0; 0x3e20e0; 0x1f770e0; 0x3c3a0e0; 0x301f0e0; 0x0; 0x0;
   0x0; 0x0; 0x202000; 0x0; 0x0; 0x0; 0x730; 0x1ffc630;
   0x1ffd774; 0x180dffc; 0x1d5dffc; 0x1ffc630; 0x1d5c7f0; 0x180c7f0; 0x1ffc1c0; 0x1ffc0c0;
   0xffc; 0xee8; 0x3fffcdc; 0x3ffecc8; 0x1c4ddc; 0xccff8; 0x15dc5d4; 0x1fcc0c0;
   0x1fcdffe; 0xdfffe; 0x1de0c0; 0xf60c0; 0x7ff70c0; 0x3fc38c0; 0x15010c0; 0x0;
   0x0; 0x0; 0x0; 0x202000; 0x0; 0x0; 0x0; 0xe38718;
   0xe38218; 0x3fffffc; 0x3ffeffc; 0xe3875c; 0xe38218; 0x607f8; 0x2aea3f8; 0x3fff0c0;
   0x3ffe0c0; 0x30ffc; 0x3fd8eec; 0x3fdcccc; 0x180cccc; 0x1c1effc; 0xe0fffc; 0x175f5d4;
   0x3fef0c0; 0x7ffcffc; 0x60cffc; 0x61c0c0; 0x60c0c0; 0x61c0c0; 0x7cc0c0; 0x7dc0c0;
   0x0; 0x0; 0x0; 0x0; 0x202000; 0x0; 0x0; 0x0;
   0x638618; 0x638618; 0x3fffffc; 0x3ffeffc; 0x63875c; 0x3ffe618; 0x3ffe7f8; 0x6387f8;
   0x177d0c0; 0x3fff0c0; 0x15d5ffc; 0xc0eec; 0x1ffeccc; 0x1aeeccc; 0x18c6ffc; 0x1ffeffc;
   0x1ffe5d4; 0x18c60c0; 0x18c6ffe; 0x3fffffe; 0x7fff0c0; 0x18060c0; 0x18060c0; 0x1e060c0;
   0x1e060c0; 0x0; 0x0; 0x0; 0x0; 0x202000; 0x0; 0x0;
   0x0; 0x638730; 0x638230; 0x177dffc; 0x3ffeffc; 0x3fff774; 0x638230; 0x7f87f0;
   0x1c03f0; 0x3f00c0; 0x7380c0; 0x1e3cffc; 0x3c0eeec; 0x77f7cdc; 0x27f2ccc; 0xffc;
   0xffc; 0x1ffc5d4; 0x1ffc0c0; 0x1c0dffc; 0x180cffc; 0x1c0c0c0; 0x180c0c0; 0x1ffc0c0;
   0x1ffc0c0; 0x1c0c0c0; 0x0; 0x0; 0x0; 0x0; 0x202000; 0x0;
   0x0; 0x0; 0x738318; 0x638318; 0x3fff75c; 0x3fffffc; 0x738ffc; 0x638318;
   0x7383f8; 0x3fffbf8; 0x7fff8c0; 0x182e8; 0x155c7fc; 0x3ffe6ec; 0x3ddfecc; 0x388fecc;
   0x3ffefdc; 0x3ffe7fc; 0x39ce5d4; 0x388e0c0; 0x3ffeffc; 0x3ffeffc; 0x39ce0c0; 0x388e0c0;
   0x39ce0c0; 0x3c8e0c0; 0x1dce0c0; 0x0; 0x0; 0x0; 0x0; 0x202000;
   0x0; 0x0; 0x0; 0x18318; 0xb8318; 0x7fc7fc; 0x38e7fc; 0x55d775c;
   0x3fffb18; 0x5757bf8; 0xee33f8; 0x1c73060; 0x189b060; 0x11837fc; 0x3fff6ec; 0x3fff66c;
   0x366c; 0x1ffb7fc; 0x37fc; 0x1ffb574; 0x1ffb060; 0x37fe; 0x1ffbffe; 0x1d59860;
   0x1819860; 0x1ff9860; 0x1ff8c60; 0x1818860; 0x0; 0x0; 0x0; 0x0;
   0x202000; 0x0; 0x0; 0x0; 0x7000; 0x6000; 0x7000; 0x1fffff8;
   0x1fffff8; 0xaaeaa8; 0x7000; 0x6000; 0x557550; 0xfffff0; 0xfffff0; 0x6000;
   0x7000; 0x6000; 0x3fffffc; 0x3fffff8; 0x1807000; 0x1806000; 0x1807000; 0x1806000;
   0x1c47000; 0xfc6000; 0x7c7000; 0x6000; 0x7000; 0x0; 0x0; 0x0;
   0x0; 0x202000; 0x0; 0x0; 0x0; 0x1c0; 0xc0; 0x3ffc1c0;
   0x3ffc0c0; 0x3181ffc; 0x3981ffc; 0x31981c0; 0x39980c0; 0x31d9ffc; 0x3998ffc; 0x39dd5d4;
   0x39cc0c0; 0x39cc1c0; 0x38ccae8; 0x38c7ffc; 0x38e1ae8; 0x18e19c0; 0x38618c0; 0x1871dc0;
   0x1831ec0; 0x1839fc0; 0x181c2c0; 0x1d5e1c0; 0xf8f0c0; 0x7861c0; 0x0; 0x0;
   0x0; 0x0; 0x202000; 0x0; 0x0; 0x0; 0x2300c0; 0x7300c0;
   0xe300c0; 0xc300c0; 0x1c30ffc; 0x830ffc; 0x3fff0c0; 0x3ffe0c0; 0x305d4; 0x38ffc;
   0x1558ffc; 0x1ff80c0; 0x1ff80c0; 0x1838ae8; 0x1c79ffc; 0xc78ae8; 0xefdcc0; 0x6cc8c0;
   0x7cdcc0; 0x38eec0; 0x7c6fc0; 0xee72c0; 0x3c7b8c0; 0x383b8c0; 0x30190c0; 0x0;
   0x0; 0x0; 0x0; 0x202000; 0x0; 0x0; 0x0; 0xc01c0;
   0xc00c0; 0xc01c0; 0xc0ffc; 0x3fffffc; 0x3ffe0c0; 0xc01c0; 0xc0ff8; 0x15d4ffc;
   0x1ffec08; 0x1ffeffc; 0xc0ff8; 0xc0c1c; 0x2aeac08; 0x7ffeffc; 0x3ffeff8; 0x30c01c0;
   0x30c00c0; 0x30c1ffe; 0x30c1ffe; 0x3dc01c0; 0x1ec00c0; 0x1ec01c0; 0xc00c0; 0xc01c0;
   0x0; 0x0; 0x0; 0x0; 0x202000; 0x0; 0x0; 0x0;
   0xc0000; 0xc0ff8; 0xc0ff8; 0x3ffec18; 0x3ffed58; 0xc0ff8; 0xc0c18; 0xc0c18;
   0x1ffcff8; 0x1ffcff8; 0xc0000; 0xc0aa8; 0x15d5ffc; 0x3ffeba8; 0x3ffe190; 0x30c01b8;
   0x30c1f98; 0x38c1f98; 0x1fc01b8; 0xec01b8; 0xc01f8; 0xc03c8; 0x7ffff8c; 0x3fffe0e].
Definition hanzi_data_485 : list N :=
  [0x1554004; 0x0; 0x0; 0x0; 0x0; 0x202000; 0x0; 0x0;
   0x0; 0xc0; 0x1ffe0c0; 0x1ffe0c0; 0x180e0c0; 0x1c0effc; 0x1aaeffc; 0x1ffe0c0;
   0x1aae0c0; 0x1c0effc; 0x180effc; 0x1ffe5d4; 0x1ffe0c0; 0xc0; 0xae8; 0x1ffeffc;
   0x1ffeee8; 0x1376cc0; 0x1326cc0; 0x1376cc0; 0x1326ec0; 0x1376fc0; 0x13262c0; 0x7fff8c0;
   0x3fff8c0; 0xc0; 0x0; 0x0; 0x0; 0x0; 0x202000; 0x0;
   0x0; 0x0; 0x10000c0; 0x1f800c0; 0x1fff0c0; 0xfe0c0; 0x3840ffc; 0x38e6ffc;
   0x1cc60c0; 0xccc0c0; 0xddc5d4; 0xe08ffc; 0x70ffc; 0x3fbc0c0; 0x3f9e0c0; 0x3806ae8;
   0x3807ffc; 0x3806ee8; 0x3f7ecc0; 0x3f7ecc0; 0x3806cc0; 0x3806ec0; 0x3806fc0; 0x38062c0;
   0x3ffe0c0; 0x3ffe0c0; 0x38060c0; 0x0; 0x0; 0x0; 0x0; 0x202000;
   0x0; 0x0; 0x0; 0x70c00; 0x30c00; 0x70c00; 0x30c00; 0x1570d50;
   0x1ff0ff8; 0x1ff0ff8; 0x30c00; 0x70c00; 0x30c00; 0x1ff0ff8; 0x1ff0ff8; 0x1570d50;
   0x30c00; 0x70c00; 0x30c00; 0x3ff0ffc; 0x3ff0ff8; 0x70c00; 0x30c00; 0x70c00;
   0x30c00; 0x3fffffc; 0x3fffffc; 0x0; 0x0; 0x0; 0x0; 0x0;
   0x202000; 0x0; 0x0; 0x0; 0x7000; 0x6000; 0x1fffff8; 0x1fffff8;
   0x1fffff8; 0x1c0380; 0x1c0700; 0xe0700; 0xe0700; 0x3fffffc; 0x3fffffc; 0x0;
   0x0; 0x3fffc0; 0x7fffc0; 0x3000c0; 0x7000c0; 0x3aaac0; 0x7fffc0; 0x3000c0;
   0x7000c0; 0x3000c0; 0x7fffc0; 0x3fffc0; 0x7000c0; 0x0; 0x0; 0x0;
   0x0; 0x202000; 0x0; 0x0; 0x0; 0x600c0; 0x600c0; 0x701c0;
   0x31ffc; 0x3ff9ffc; 0x3ff8c38; 0x3d5ce30; 0x380e630; 0x380e670; 0x381bffe; 0x187bffe;
   0x38e0000; 0x19c0000; 0x1881ff8; 0x1c01ff8; 0x1f01818; 0x1fc1c18; 0x18f9ff8; 0x187fff8;
   0x180d818; 0x1c05c18; 0x1c01818; 0x1c01ff8; 0xfe1ff8; 0x7c0018; 0x0; 0x0;
   0x0; 0x0; 0x202000; 0x0; 0x0; 0x0; 0xc0; 0x2aaa0c0;
   0x3ffe1c0; 0x3fffffc; 0x3861ffc; 0x3860638; 0x1870630; 0x3870230; 0x1830370; 0x1839ffe;
   0x1f9dffc; 0xf8e000; 0x4000; 0xff8; 0x1ffcff8; 0x1ffcc18; 0x181cc18; 0x180cff8;
   0x181cff8; 0x180cc18; 0x181cc18; 0x180cc18; 0x1ffcff8; 0x1ffcff8; 0x181c018; 0x0;
   0x0; 0x0; 0x0; 0x202000; 0x0; 0x0; 0x0; 0x0;
   0x2aaaaa8; 0x3fffffc; 0x3fffff8; 0x7000; 0x3000; 0x557d40; 0x7fffe0; 0x7fffe0;
   0x600060; 0x606060; 0x606060; 0x606060; 0x606060; 0x606060; 0x606060; 0x606060;
   0x606060; 0x617060; 0x7b820; 0x1f1c00; 0x780f80; 0x1f007f0; 0x3c000fc; 0x1000018;
   0x0; 0x0; 0x0; 0x0; 0x202000; 0x0; 0x0; 0x0;
   0x0; 0x3fff000; 0x7fffffc; 0xc0ffc; 0xe00c0; 0xe00c0; 0x1ffe0c0; 0x1ffe0c0;
   0x18060c0; 0x18c60c0; 0x19c60c0; 0x18c60c0; 0x19c60c0; 0x18c60c0; 0x19c60c0; 0x18c60c0;
   0x19c60c0; 0x18c60c0; 0x18e60c0; 0x3e00c0; 0x7700c0; 0xe380c0; 0x3c1f0fc; 0x380f8f8;
   0x3003000; 0x0; 0x0; 0x0; 0x0; 0x202000; 0x0; 0x0;
   0x0; 0x0; 0x2aaa830; 0x7fff830; 0x2aea830; 0xe0030; 0x60030; 0x1fff030;
   0x1fff7f0; 0x1d577f0; 0x1803030; 0x18e7030; 0x18e3030; 0x18e7030; 0x18e3030; 0x18e7030;
   0x18e3030; 0x18e7430; 0x18e3fb0; 0x18673f8; 0x1700f8; 0x7b8018; 0xe1c008; 0x1c0f000;
   0x3803c00; 0x3001c00; 0x0; 0x0; 0x0; 0x0; 0x202000; 0x0;
   0x0; 0x0; 0x0; 0x3ffeaa8; 0x3ffeffc; 0x2baaffc; 0x1c00c0; 0xc00c0;
   0x1ffc0c0; 0x1ffc0c0; 0x180c0c0; 0x188c0c0; 0x19cd5d4; 0x198dffe; 0x19cdffe; 0x198c0c0;
   0x19cc0c0; 0x198c0c0; 0x19cc0c0; 0x18cc0c0; 0x19cc0c0; 0x3e00c0; 0xf700c0; 0x1e380c0;
   0x3c1c0c0; 0x380f0c0; 0x10020c0; 0x0; 0x0; 0x0; 0x0; 0x202000;
   0x0; 0x0; 0x0; 0x0; 0x3fff800; 0x7fffc00; 0x603fc; 0x707fc;
   0x302e8; 0x1fff060; 0xfff060; 0x1c03060; 0xc63060; 0x1c63060; 0xc63060; 0x1c63060;
   0xc63060; 0x1c63060; 0xc63660; 0x1c637f0; 0xc633fe; 0x1c7307e; 0x1b800c; 0x7bc000;
   0xe1e000; 0x3c0fc00; 0x3803e00; 0x1000c00; 0x0; 0x0; 0x0; 0x0;
   0x202000; 0x0; 0x0; 0x0; 0x0; 0x3ffec18; 0x3fffc18; 0x180c98;
   0x1c1dd8; 0xc0c98; 0x1ffddd8; 0x1ffcc98; 0x180ddd8; 0x188cc98; 0x19cddd8; 0x198cc98;
   0x19cddd8; 0x198cc98; 0x19cddd8; 0x198cc98; 0x19cddd8; 0x19ccc98; 0x19cdddc; 0x3e0c88;
   0x7e1ddc; 0xe70c0c; 0x1c3dc0c; 0x381ec0e; 0x1006004; 0x0; 0x0; 0x0;
   0x0; 0x202000; 0x0; 0x0; 0x0; 0x0; 0x3fffb80; 0x3fffdc0;
   0x2aea8e0; 0x70070; 0x30038; 0x1fff01c; 0xfff008; 0x1c03700; 0xc23380; 0x1c631c0;
   0xc630e0; 0x1c63078; 0xc6303c; 0x1c63018; 0xc63200; 0x1c63700; 0xc63380; 0x1c733c0;
   0x3b01e0; 0x7b80f0; 0xe1c078; 0x3c0f03c; 0x3803c08; 0x3001c00; 0x0; 0x0;
   0x0; 0x0; 0x202000; 0x0; 0x0; 0x0; 0x0; 0x2aaa800;
   0x3fffffc; 0x2aeabfc; 0x60060; 0x60060; 0x1fff060; 0x1ffe060; 0x1c07060; 0x18c2060;
   0x1cc73fc; 0x18c23fc; 0x1cc7060; 0x18c2060; 0x1cc7060; 0x18e2060; 0x1ce7060; 0x18e2260;
   0x1c677e0; 0x3f03f8; 0x7f807c; 0xe3c00c; 0x1c1f000; 0x3807800; 0x1001800; 0x0;
   0x0; 0x0; 0x0; 0x202000; 0x0; 0x0; 0x0; 0x0;
   0x0; 0x3ffeff8; 0x3ffeff8; 0x1c0000; 0xc0000; 0x1ffc000; 0x1ffc000; 0x180dffc;
   0x198dffc; 0x19cc770; 0x198c630; 0x19cc770; 0x188c630; 0x19cc730; 0x18cc630; 0x18cc730;
   0x18cc630; 0x18cd730; 0x2e3e38; 0x771f18; 0xe3831c; 0x1c1c10c; 0x380f00c; 0x3007000;
   0x0; 0x0; 0x0; 0x0; 0x202000; 0x0; 0x0; 0x0;
   0x0; 0x3fffff8; 0x3fffff8; 0x180018; 0x1c0018; 0xc0018; 0x1ff9fd8; 0x1ab9f98].
Definition hanzi_data_486 : list N :=
  [0x18199d8; 0x1999898; 0x19999d8; 0x1999898; 0x19999d8; 0x1999898; 0x19999d8; 0x1999e98;
   0x1999dd8; 0x1998098; 0x19d81d8; 0x2c1898; 0x7e1fdc; 0xe70fcc; 0x3c783cc; 0x301e0ce;
   0xc004; 0x0; 0x0; 0x0; 0x0; 0x202000; 0x0; 0x0;
   0x0; 0x1c0; 0x2aaa180; 0x3ffe1c0; 0x2babffc; 0x1c1ffc; 0xc0ba8; 0x1ffc1c0;
   0x1ff9988; 0x181d9dc; 0x1989988; 0x199d9dc; 0x1989988; 0x199d9dc; 0x1989988; 0x19ddffc;
   0x1989ff8; 0x19dc1c0; 0x18c8180; 0x18dc1c0; 0x2e1980; 0x771fc0; 0xe38fc0; 0x3c3c3e0;
   0x380f0c0; 0x3006000; 0x0; 0x0; 0x0; 0x0; 0x202000; 0x0;
   0x0; 0x0; 0x0; 0x3ffee00; 0x3ffffc0; 0x2baa3f8; 0x1c0078; 0xc0038;
   0x1ffc038; 0x1ffc038; 0x181dff8; 0x188dff8; 0x19dd778; 0x198c638; 0x19dc738; 0x198c638;
   0x19dc738; 0x198c638; 0x19dc718; 0x188c618; 0x18dc718; 0x2c0618; 0x76071c; 0x1e7060c;
   0x3c3c70c; 0x301e60e; 0x1004500; 0x0; 0x0; 0x0; 0x0; 0x202000;
   0x0; 0x0; 0x0; 0x0; 0x3ffc760; 0x7ffc670; 0x2ba8e70; 0x1c0c30;
   0xc0c38; 0x3ffdc18; 0x3ff981c; 0x381f81c; 0x399bffc; 0x399cffc; 0x3998ee8; 0x399cc60;
   0x3998c60; 0x399cc60; 0x3998c60; 0x399cc60; 0x3998c60; 0x39dcc70; 0x2c0e30; 0xfe0e30;
   0xe70e38; 0x3c3c7dc; 0x380e7ce; 0x1006104; 0x0; 0x0; 0x0; 0x0;
   0x202000; 0x0; 0x0; 0x0; 0x0; 0x3ffe360; 0x7ffe770; 0x180630;
   0x1c0630; 0xc0e38; 0x1ffcc18; 0x1ffcc18; 0x180dc1c; 0x198d8cc; 0x19cd8cc; 0x198c0c0;
   0x19cc0e0; 0x198c060; 0x19cc760; 0x198c670; 0x19cc630; 0x18cce38; 0x19ccc18; 0x2e0f98;
   0x761ffc; 0xe718fc; 0x3c3d804; 0x301e000; 0x3006000; 0x0; 0x0; 0x0;
   0x0; 0x202000; 0x0; 0x0; 0x0; 0xc0; 0x2aa80c0; 0x3ffc1c0;
   0x3ffc180; 0x1c0180; 0xc3ffc; 0x1fffffc; 0x1ff8000; 0x181c000; 0x19887f0; 0x199c7f0;
   0x1988630; 0x199c630; 0x1988630; 0x199c630; 0x1988630; 0x19dc630; 0x18c8630; 0x18de630;
   0x2e3e38; 0x763e18; 0x1e70f18; 0x3c3c61c; 0x701f00e; 0x2006004; 0x0; 0x0;
   0x0; 0x0; 0x202000; 0x0; 0x0; 0x0; 0x0; 0x3ffeffc;
   0x7fffffc; 0x180ea8; 0x1c0700; 0xc0398; 0x1ffc1f8; 0x1ffc0f0; 0x180c1c0; 0x18cc380;
   0x19cdffe; 0x18cdffe; 0x19cdcc0; 0x18cccc0; 0x19cccc0; 0x18cc6c0; 0x19cc4c0; 0x18cc0c0;
   0x18cc0c0; 0x2e00c0; 0x7700c0; 0xe380c0; 0x3c1e0d4; 0x380f8f8; 0x1003078; 0x0;
   0x0; 0x0; 0x0; 0x202000; 0x0; 0x0; 0x0; 0x180;
   0x180; 0x3ffd580; 0x3ffbf80; 0x1c3f80; 0xc0180; 0x1ff8180; 0x1ff9ff8; 0x1819ff8;
   0x1899ab8; 0x1999838; 0x1999838; 0x1999838; 0x1999ab8; 0x1999ff8; 0x1999ff8; 0x1999818;
   0x1998018; 0x19d8018; 0x2c0018; 0x7e001c; 0xe7000c; 0x3c3c01c; 0x300f00e; 0x2006004;
   0x0; 0x0; 0x0; 0x0; 0x202000; 0x0; 0x0; 0x0;
   0x380; 0x2aa8180; 0x3ffc1c0; 0x3ffc3c0; 0x1807e0; 0xc0e60; 0x1ffdc70; 0x1ffb8b8;
   0x181f1dc; 0x199838e; 0x199c300; 0x1998000; 0x199dff8; 0x1999ff8; 0x199dc00; 0x1998e00;
   0x19dc600; 0x1898700; 0x19dc370; 0x2c03f0; 0x7e01e0; 0xe70180; 0x3c7c380; 0x301f700;
   0x3006200; 0x0; 0x0; 0x0; 0x0; 0x202000; 0x0; 0x0;
   0x0; 0x380; 0x380; 0x3ffc380; 0x3ffbff8; 0x187ff8; 0x183398; 0x1ffb398;
   0x1ff9b98; 0x1819398; 0x1998398; 0x199bff8; 0x1999ff8; 0x1999818; 0x1999878; 0x1999cf8;
   0x1998dd8; 0x19d8f98; 0x1998718; 0x19d8f1c; 0x2c0f88; 0xfe1ddc; 0x1e718ec; 0x3c3c0fc;
   0x301f02e; 0x3006004; 0x0; 0x0; 0x0; 0x0; 0x202000; 0x0;
   0x0; 0x0; 0x0; 0x3ffeaa8; 0x7fffffc; 0x2baaea8; 0x1c0700; 0xc0700;
   0x1ffc380; 0x1ffc3c0; 0x180cff0; 0x198de78; 0x19cdc1e; 0x198c00c; 0x19cc000; 0x198dff8;
   0x19cdffc; 0x198c180; 0x19cc1c0; 0x18cc180; 0x19cc1c0; 0x2e0180; 0xf71fc0; 0x1e70ff8;
   0x3c3c1fc; 0x300f00c; 0x3006000; 0x0; 0x0; 0x0; 0x0; 0x202000;
   0x0; 0x0; 0x0; 0x1c0; 0x2aaa180; 0x3ffe1c0; 0x3ffe180; 0x1c1ffc;
   0xc1ffc; 0x1ffc1c0; 0x1ff8180; 0x181c1c0; 0x1988ba8; 0x199dffc; 0x1988aa8; 0x199c000;
   0x1988000; 0x199dff8; 0x1988ff8; 0x19ddc18; 0x18c8c18; 0x18ddc18; 0x2c0c18; 0x761ff8;
   0xe70ff8; 0x3c3c018; 0x381e018; 0x3006000; 0x0; 0x0; 0x0; 0x0;
   0x202000; 0x0; 0x0; 0x0; 0x1c0; 0x2aaa180; 0x3ffe1c0; 0x3ffe180;
   0x1c1ffc; 0xc1ffc; 0x1ffc1c0; 0x1ff9988; 0x181ddd8; 0x1998d98; 0x199cdd8; 0x1998fb8;
   0x199d5d4; 0x199bffc; 0x199fffc; 0x19980c0; 0x19dc1c0; 0x18983e0; 0x18dc7e0; 0x3c0e60;
   0x7e1c70; 0xe71838; 0x3c3c01c; 0x301f00c; 0x1006004; 0x0; 0x0; 0x0;
   0x0; 0x202000; 0x0; 0x0; 0x0; 0x0; 0x2aae0a8; 0x3fffdfc;
   0x3fe3efc; 0x3038e0; 0x303860; 0x3fe3870; 0x3fe3830; 0x3063838; 0x336fef8; 0x336fffc;
   0x33638c0; 0x33638c0; 0x33638cc; 0x33638dc; 0x33638d8; 0x3363878; 0x337ff78; 0x377ff70;
   0x780070; 0xf800f0; 0x19c0bf8; 0x38fff9c; 0x707f80e; 0x30004; 0x0; 0x0;
   0x0; 0x0; 0x202000; 0x0; 0x0; 0x0; 0x180; 0x3ffe180;
   0x7ffe3c0; 0x2baa7e0; 0x1c0f60; 0xc0e70; 0x3ffdc38; 0x3ffc83c; 0x380c55c; 0x398cffc;
   0x39ccff0; 0x398c000; 0x39cc000; 0x398cff8; 0x39ccff8; 0x398cc18; 0x39ccc18; 0x38ccc18;
   0x39ccc18; 0x2e0c18; 0x770d58; 0xe78ff8; 0x3c3cff8; 0x380f018; 0x1006000; 0x0;
   0x0; 0x0; 0x0; 0x202000; 0x0; 0x0; 0x0; 0x18;
   0x2aaa018; 0x3ffef18; 0x2aea7f8; 0xc01f8; 0xe0818; 0x1ffd818; 0x1ffd818; 0x180dff8;
   0x188cff8; 0x19cc180; 0x188c180; 0x19cd180; 0x188f9bc; 0x19cdffc; 0x188cfa0; 0x19cc7b0;
   0x18ccdb0; 0x18cdd98; 0x3e1998; 0x77399c; 0xe3818e; 0x1c3c184; 0x380f1f0; 0x30070f0].
Definition hanzi_data_487 : list N :=
  [0x0; 0x0; 0x0; 0x0; 0x202000; 0x0; 0x0; 0x0;
   0x18; 0x18; 0x3ffef18; 0x3ffe7f8; 0x1c01f8; 0xc0818; 0x1ffd818; 0x1ff9818;
   0x181dff8; 0x1888ff8; 0x19dc100; 0x1888180; 0x19dd180; 0x188b998; 0x19dddd8; 0x1888d98;
   0x19dcfdc; 0x18c80cc; 0x18dc3c0; 0x2e07c0; 0xf71ee0; 0x1e39c70; 0x3c1d87c; 0x300f01e;
   0x200700c; 0x0; 0x0; 0x0; 0x0; 0x202000; 0x0; 0x0;
   0x0; 0xc0; 0x3ffc1c0; 0x3ffc1c0; 0x180ba8; 0x1c1ffc; 0xc0ae8; 0x1ffc0e0;
   0x1ff8c60; 0x181cc70; 0x1898e38; 0x199c7fc; 0x19983f8; 0x199c380; 0x199b9c0; 0x199dce0;
   0x1998c70; 0x19dce3c; 0x189871c; 0x19dcf88; 0x2c1f80; 0x7e3de0; 0xe718f0; 0x3c3d03c;
   0x381e01c; 0x1004004; 0x0; 0x0; 0x0; 0x0; 0x202000; 0x0;
   0x0; 0x0; 0x0; 0x3fffff8; 0x3fffffc; 0x380308; 0x18071c; 0xae8308;
   0x1ff871c; 0x1ab9fc8; 0x1819fdc; 0x19998c8; 0x19998dc; 0x19998c8; 0x19998dc; 0x19998c8;
   0x1999fdc; 0x1999fc8; 0x199871c; 0x1998208; 0x19d871c; 0x2c0208; 0x7e175c; 0x1e63ff8;
   0x3c7bffc; 0x301e000; 0xc000; 0x0; 0x0; 0x0; 0x0; 0x202000;
   0x0; 0x0; 0x0; 0x300; 0x300; 0x3ffc338; 0x3ffeb38; 0x183f38;
   0x182b38; 0x1ff8338; 0x1ff8338; 0x181bffe; 0x199bffe; 0x19995d4; 0x1998180; 0x19991b0;
   0x199b9b8; 0x1999998; 0x1999998; 0x1999d9c; 0x1998d8e; 0x19d8f80; 0x2c0700; 0x7e0380;
   0xe601e0; 0x3c7c0f0; 0x781f03c; 0x300601c; 0x0; 0x0; 0x0; 0x0;
   0x202000; 0x0; 0x0; 0x0; 0x1000; 0x3ffdf80; 0x3ffdffc; 0x2ba81b8;
   0x180180; 0x183ffc; 0x1ffbffc; 0x1ff83c0; 0x1818fe0; 0x1999df0; 0x199b9bc; 0x199919e;
   0x199818c; 0x1998000; 0x1998ff0; 0x1998ff0; 0x19d8c70; 0x18d8c30; 0x18d8c70; 0x2c2c30;
   0x767c30; 0xe71e38; 0x3c3c61c; 0x301e00c; 0x300600c; 0x0; 0x0; 0x0;
   0x0; 0x202000; 0x0; 0x0; 0x0; 0x180; 0x2aa8180; 0x3ffc7c0;
   0x2ba8ee0; 0x1c1c70; 0xc38b8; 0x1ffb1de; 0x1ff838c; 0x1818300; 0x1998ff8; 0x1999ff8;
   0x1998e00; 0x1998600; 0x1998300; 0x1998380; 0x1999ff8; 0x19d9ff8; 0x1899818; 0x19d9c18;
   0x2c1818; 0x7e1c18; 0xe61ff8; 0x3c7dff8; 0x781f818; 0x3004010; 0x0; 0x0;
   0x0; 0x0; 0x202000; 0x0; 0x0; 0x0; 0x18; 0x2aaa018;
   0x3ffef18; 0x2aea7f8; 0xc01f8; 0xe1818; 0x1ffd818; 0x1ffdff8; 0x180dff8; 0x188c800;
   0x19cdfc0; 0x188cffc; 0x19cc1fc; 0x188c180; 0x19cdffc; 0x188fffc; 0x19cd5d4; 0x18cc3e0;
   0x18cc7f0; 0x3e0db8; 0x771ddc; 0xe3898e; 0x1c3c1c4; 0x380f180; 0x30071c0; 0x0;
   0x0; 0x0; 0x0; 0x202000; 0x0; 0x0; 0x0; 0x0;
   0x3ffbff8; 0x3fffff8; 0x183998; 0x1c3998; 0xc3bb8; 0x1ffbff8; 0x1ffb998; 0x181b998;
   0x189b998; 0x199bff8; 0x199aba8; 0x1998180; 0x199aba8; 0x199bffc; 0x199abe8; 0x19987c0;
   0x1998fe0; 0x19d9df0; 0x2c39b8; 0x7e119c; 0xe7018c; 0x3c78184; 0x301e180; 0x2004180;
   0x0; 0x0; 0x0; 0x0; 0x202000; 0x0; 0x0; 0x0;
   0x0; 0x3ffdff8; 0x7ffdff8; 0x181838; 0x1c1d78; 0xae9ff8; 0x1ff9d78; 0x1819838;
   0x1999ff8; 0x1999ff8; 0x1998000; 0x199aaa8; 0x199bffc; 0x199aba8; 0x19d8190; 0x18d81b0;
   0x18dbfb0; 0x7e3fb8; 0xe701b8; 0x1c381b8; 0x381f1f8; 0x200e3d8; 0x7ffff9c; 0x3fffe0e;
   0x1554004; 0x0; 0x0; 0x0; 0x0; 0x202000; 0x0; 0x0;
   0x0; 0x0; 0x2aabff8; 0x3fffff8; 0x2bab198; 0x183198; 0x183bb8; 0x1ffbff8;
   0x1ffb198; 0x181b198; 0x199bbb8; 0x199bff8; 0x199aba8; 0x1998180; 0x199bff8; 0x199bffc;
   0x199b188; 0x199b59c; 0x199bd88; 0x19dbfdc; 0x3c3fe8; 0x7c387c; 0xee3008; 0x1c7301c;
   0x383fe08; 0x300dc18; 0x0; 0x0; 0x0; 0x0; 0x202000; 0x0;
   0x0; 0x0; 0x0; 0x3ffbffc; 0x3fffffc; 0x2bab3cc; 0x1833cc; 0xc33cc;
   0x1ffbffc; 0x1ffbffc; 0x1818000; 0x1899ff8; 0x1999ff8; 0x1998000; 0x1999554; 0x199bffc;
   0x199fffc; 0x1998030; 0x1999570; 0x1999ff0; 0x19d9d50; 0x2c1800; 0x7c1800; 0xe61800;
   0x3c79c40; 0x701efc0; 0x200c7c0; 0x0; 0x0; 0x0; 0x0; 0x202000;
   0x0; 0x0; 0x0; 0x180; 0x2aab188; 0x7fff19c; 0x2bab188; 0x18319c;
   0x183188; 0x3ffbffc; 0x3ffbff8; 0x3818000; 0x3b9aaa8; 0x399fffc; 0x3b9bffc; 0x3998180;
   0x399aaa8; 0x399bffc; 0x399bff8; 0x399b6dc; 0x399b2c8; 0x39db6dc; 0x2c32c8; 0x7c36dc;
   0x1ee32c8; 0x3c7bedc; 0x303fac8; 0x200c014; 0x0; 0x0; 0x0; 0x0;
   0x202000; 0x0; 0x0; 0x0; 0x1c0; 0x180; 0x3ffd7d4; 0x3fffffc;
   0x183ffc; 0x81830; 0x1ff8c70; 0x1ff8c60; 0x181bff8; 0x199bff8; 0x1999818; 0x1999e18;
   0x1998798; 0x19983f8; 0x19998d8; 0x1999e18; 0x1998718; 0x18983d8; 0x19db9fc; 0x2c1c38;
   0x7e0f18; 0xe6078c; 0x3c7c1fc; 0x301f0ee; 0x3006004; 0x0; 0x0; 0x0;
   0x0; 0x202000; 0x0; 0x0; 0x0; 0x1c0; 0x180; 0x3ffd7d4;
   0x3fffffc; 0x183ffc; 0x830cc; 0x1fff0cc; 0x1ff8fe0; 0x181dff0; 0x1998e38; 0x199c77c;
   0x19987ec; 0x199c7c0; 0x1998fe0; 0x199fc7c; 0x199b83c; 0x19ddffc; 0x18d8ff0; 0x18ddc30;
   0x2c0c30; 0x7e1c30; 0x1e70c30; 0x3c3dff0; 0x701eff0; 0x2007c30; 0x0; 0x0;
   0x0; 0x0; 0x202000; 0x0; 0x0; 0x0; 0x0; 0x2aafffc;
   0x3fffffc; 0x2ba9830; 0x181ff0; 0x181ff0; 0x1ff1830; 0x1ff1ff0; 0x1831ff0; 0x1bb1830;
   0x1bb7ffc; 0x1bb1ffc; 0x1bb1800; 0x1bb7ffc; 0x1bb7ffc; 0x1bb6080; 0x19b76cc; 0x1bb3ed8;
   0x19b3c70; 0x183860; 0x7c7cf0; 0xee6ff8; 0x3c7079c; 0x703c30e; 0x2018104; 0x0;
   0x0; 0x0; 0x0; 0x202000; 0x0; 0x0; 0x0; 0x1c60;
   0x2aa0c60; 0x3ff7ffc; 0x2ba7ffc; 0x301c60; 0x180c60; 0x1ff7ffc; 0x1fe7ffc; 0x1877ffc].
Definition hanzi_data_488 : list N :=
  [0x1a204c0; 0x1b704c0; 0x1b23ff8; 0x1b77ffc; 0x1b226c8; 0x1b774dc; 0x1b22ec8; 0x1b77fdc;
   0x1b22fe8; 0x1b77f7c; 0x382b38; 0x58733c; 0xec2008; 0x1cf701c; 0x303be08; 0x1011c1c;
   0x0; 0x0; 0x0; 0x0; 0x202000; 0x0; 0x0; 0x0;
   0x380; 0x2aa8380; 0x3fffffc; 0x2babffc; 0x180180; 0x180180; 0x1ff9ff8; 0x1ff9ab8;
   0x1819818; 0x1999ff8; 0x1999d58; 0x1999818; 0x1999ff8; 0x1999ab8; 0x1999818; 0x1999ff8;
   0x1999818; 0x1999818; 0x19dfffc; 0x2c3ffe; 0x7e0e70; 0xe71c70; 0x3c7f83c; 0x301e01e;
   0x100c004; 0x0; 0x0; 0x0; 0x0; 0x202000; 0x0; 0x0;
   0x0; 0x0; 0x1ff0; 0x3ff1ff0; 0x3ff0e60; 0x3807f0; 0x180f80; 0x3ff1ff0;
   0x3ff0830; 0x3137ffc; 0x3337efc; 0x33376c8; 0x3333e7c; 0x3333cf0; 0x3337ef8; 0x333471c;
   0x3330300; 0x3337ffc; 0x33b7ffc; 0x31b07c0; 0x580fe0; 0xfc7f70; 0x1ce7338; 0x387231e;
   0x303830c; 0x2018300; 0x0; 0x0; 0x0; 0x0; 0x202000; 0x0;
   0x0; 0x0; 0x0; 0x2aa9ff8; 0x7ffdff8; 0x2ba9818; 0x181ff8; 0x181ab8;
   0x1ff9818; 0x1ff9ff8; 0x1919ff8; 0x1998180; 0x199bffc; 0x199bffc; 0x1998000; 0x1999ff8;
   0x1999ff8; 0x1999818; 0x1999d58; 0x1999ff8; 0x19d95d0; 0x2c0db0; 0x7c1d98; 0xc61998;
   0x387918c; 0x301e1e8; 0xc1e0; 0x0; 0x0; 0x0; 0x0; 0x202000;
   0x0; 0x0; 0x0; 0x1c0; 0x3ff8180; 0x3fffffc; 0x383ffc; 0x180000;
   0xaebff8; 0x1ffbffc; 0x1abb2a8; 0x181b7fc; 0x199b668; 0x199b7fc; 0x199baa8; 0x199bffc;
   0x1998000; 0x1999ff8; 0x1999ab8; 0x1999d58; 0x1999ff8; 0x19d9818; 0x2c1ff8; 0x7e1ff8;
   0x1e63800; 0x3c7fffc; 0x301e3fc; 0xc000; 0x0; 0x0; 0x0; 0x0;
   0x202000; 0x0; 0x0; 0x0; 0x0; 0x2aaaaa8; 0x3fffffc; 0x2ba8300;
   0x185754; 0x187ffc; 0x3ff775c; 0x3ff6b2c; 0x3837f7c; 0x3b30300; 0x3b33f78; 0x3b33f78;
   0x3b30100; 0x3b37ffc; 0x3b37ffc; 0x3bb0180; 0x39b7ff8; 0x39b3ff8; 0x39b76d8; 0x3826d8;
   0x7c76d8; 0xce26d8; 0x3c776d8; 0x303fed8; 0x3019458; 0x0; 0x0; 0x0;
   0x0; 0x202000; 0x0; 0x0; 0x0; 0x300; 0x3ffc330; 0x15d7f30;
   0xae8330; 0x1ffd774; 0x181bffc; 0x199d5d4; 0x199b9b0; 0x19d9d98; 0x1ad8f98; 0x1f707d8;
   0x3c3f8fc; 0x3555d7c; 0x7fffe0; 0x606060; 0x7fffe0; 0x7fffe0; 0x603860; 0x7fffe0;
   0x18f80; 0x3fffffc; 0x3fffffc; 0x155d554; 0x18000; 0x18000; 0x0; 0x0;
   0x0; 0x0; 0x202000; 0x0; 0x0; 0x0; 0xc60; 0x3ff8c60;
   0x3fffffc; 0x383ffc; 0x180c60; 0x182aa8; 0x1ffbef8; 0x1ffa2c8; 0x181b6cc; 0x199bef8;
   0x1999674; 0x1998320; 0x199fff0; 0x199bff8; 0x199863c; 0x199aebc; 0x199bffe; 0x199863c;
   0x199bff8; 0x183ff8; 0xec0638; 0x1ce0638; 0x3873ff8; 0x303fff8; 0xc038; 0x0;
   0x0; 0x0; 0x0; 0x202000; 0x0; 0x0; 0x0; 0x0;
   0x7fffe0; 0x7ffff0; 0x6aaae0; 0x600070; 0x620060; 0x670270; 0x630760; 0x630e70;
   0x639c60; 0x61dc70; 0x60f860; 0x60f070; 0x60e060; 0x61f070; 0x61b870; 0x63bc70;
   0x671c30; 0x670e30; 0x2ee0738; 0x6fc07b8; 0x6c00118; 0x7c0001c; 0x380000e; 0x100000c;
   0x0; 0x0; 0x0; 0x0; 0x202000; 0x0; 0x0; 0x0;
   0x0; 0xffbff8; 0x1fffffc; 0xe03018; 0x78301c; 0x1c3e18; 0xe365c; 0x2afb678;
   0x3ffb6fc; 0x36eb6d8; 0x37637dc; 0x3363398; 0x333339c; 0x3bbb398; 0x199f79c; 0x198b798;
   0x18c77dc; 0x1866ccc; 0x1ff6cdc; 0xf8ec6c; 0xcc7c; 0x601c02c; 0x707800c; 0x3ff0006;
   0x1fc0004; 0x0; 0x0; 0x0; 0x0; 0x202000; 0x0; 0x0;
   0x0; 0x380000; 0x383ff8; 0x383ff8; 0x383018; 0x3f83018; 0x3f83418; 0x1783c78;
   0x383e78; 0x3836f8; 0x3836d8; 0x3ff37d8; 0x3ff3398; 0x3837318; 0x3832398; 0x3837798;
   0x3836f98; 0x3836dd8; 0x3ab7cf8; 0x3fffc7c; 0x2aac878; 0x1c02c; 0x203800c; 0x71f000c;
   0x3fe000e; 0x1f00004; 0x0; 0x0; 0x0; 0x0; 0x202000; 0x0;
   0x0; 0x0; 0x60000; 0x63ff8; 0x1573ff8; 0x1ff3018; 0x1ffb018; 0x181b618;
   0x1bff658; 0x1bff6d8; 0x1b336d8; 0x1b33298; 0x1b33398; 0x1bf3398; 0x1bf3318; 0x1e33398;
   0x1e33798; 0x3033798; 0x30377d8; 0x3ff6cd8; 0x1ff6cfc; 0x6868; 0x600e06c; 0x201c00c;
   0x717800c; 0x3ff000e; 0x1fc0004; 0x0; 0x0; 0x0; 0x0; 0x202000;
   0x0; 0x0; 0x0; 0x40; 0xaaa060; 0xfff0e0; 0xfff0c0; 0xc030c0;
   0xd837fc; 0xd8f7fc; 0xd8b000; 0xddb31c; 0xcfb318; 0xcf3318; 0xcf3318; 0xce3318;
   0xc633b8; 0xce31b0; 0xce31b0; 0xdf31b0; 0xdbb1b0; 0xd9bfd0; 0xf19ff8; 0x6f1d9fc;
   0x280d80c; 0x3801c00; 0x3800e00; 0x1000400; 0x0; 0x0; 0x0; 0x0;
   0x202000; 0x0; 0x0; 0x0; 0x0; 0xff1ff8; 0x1ff1ff8; 0x831818;
   0x1d71818; 0xff1e38; 0x1d71e78; 0x831e78; 0x1ff1fd8; 0xab1ad8; 0x1c31b98; 0xff3b98;
   0x1ff3318; 0x833b98; 0x3fff398; 0x3fff398; 0x4437d8; 0xe636d8; 0xc774dc; 0x183ece8;
   0x381ec6c; 0x201c82c; 0x317c00c; 0x3ff000e; 0x1fc0004; 0x0; 0x0; 0x0;
   0x0; 0x202000; 0x0; 0x0; 0x0; 0x0; 0x1ffbff8; 0x1ffbff8;
   0x199b818; 0x199b018; 0x1ffbe18; 0x1ffb678; 0x199be78; 0x199b7f8; 0x1ffb2d8; 0x1ffb3d8;
   0x1c3398; 0x383318; 0x1b7b398; 0x1a7b798; 0x306b798; 0x346f7dc; 0x2c6ecc8; 0xfe6cfc;
   0x7eec6c; 0x300c07c; 0x201c00c; 0x307800c; 0x3fe000e; 0x1fc0004; 0x0; 0x0;
   0x0; 0x0; 0x202000; 0x0; 0x0; 0x0; 0x180000; 0x2be1ff8;
   0x3ffdff8; 0x3189818; 0x319d818; 0x3ff9e18; 0x35ddf78; 0x3189a78; 0x3ffdb78; 0x3ff9bd8;
   0x181bd8; 0xbabb98; 0x1ffb398; 0x1aab398; 0x1c3b798; 0xef3698; 0x7c36d8; 0x783cd8;
   0x1fe7c7c; 0x38fec68; 0x103e03c; 0x201c00c; 0x707c00c; 0x3ff000e; 0x1fc0004; 0x0].
Definition hanzi_data_489 : list N :=
  [0x0; 0x0; 0x0; 0x202000; 0x0; 0x0; 0x0; 0x40000;
   0x3ff9ff8; 0x3f3dff8; 0x360d818; 0x366d818; 0x366da18; 0x37cdb18; 0x33fdb38; 0x3fddb78;
   0x1d85bf8; 0x1ff9bd8; 0x1ff99d8; 0x1dd9998; 0x1889998; 0x1ff9b9c; 0x1ff9bc8; 0x1999fdc;
   0x188b6e8; 0x1ffb66c; 0x1ffb03c; 0x381f02c; 0x600e00c; 0x707c00c; 0x3ff8006; 0x1fc0004;
   0x0; 0x0; 0x0; 0x0; 0x202000; 0x0; 0x0; 0x0;
   0x0; 0x3ffc; 0xfffffc; 0xffc260; 0xc0c360; 0xe0dffc; 0xf2df7c; 0xf3da6c;
   0xf7db6c; 0xf6daec; 0xdedffc; 0xdcc000; 0xdcdff8; 0xc8cff8; 0xdcc000; 0x9cc000;
   0x1fcfffc; 0xb6eba8; 0x1f6c5b0; 0xa3ed98; 0x7e37d98; 0x7a3f98c; 0x781798c; 0x38031e0;
   0x30031e0; 0x0; 0x0; 0x0; 0x0; 0x202000; 0x0; 0x0;
   0x0; 0x580; 0xffcf80; 0xffdd80; 0xc0caa8; 0xd0dffc; 0xf0c1c0; 0xd1c7e0;
   0xd9ce60; 0xdbdc78; 0xdbc81c; 0xded670; 0xcedef0; 0xccf6f0; 0xccdffc; 0xccdffc;
   0xdcc630; 0xdec630; 0xdeee78; 0xf77f78; 0x2b37bd8; 0x7f1f358; 0x281e38c; 0x78071cc;
   0x3803084; 0x3002000; 0x0; 0x0; 0x0; 0x0; 0x202000; 0x0;
   0x0; 0x0; 0x380000; 0x383ff8; 0x31f3ff8; 0x19b3018; 0x1d9b018; 0xb9b618;
   0x7c3618; 0xee3638; 0x3c7f678; 0x383b2d8; 0x1c633d8; 0x2cab398; 0x3ffb398; 0x3fab398;
   0x1d7f398; 0xe33398; 0x1ef77dc; 0x3edbec8; 0x731fc7c; 0x218e46c; 0x700e03c; 0x303c00c;
   0x3ffc00c; 0x3fe000e; 0x4; 0x0; 0x0; 0x0; 0x0; 0x202000;
   0x0; 0x0; 0x0; 0x0; 0x0; 0x7fffc; 0x3fffc; 0x1870000;
   0x1c30000; 0xe70000; 0x730000; 0x3f0000; 0x1f0000; 0x1f0000; 0x3e0000; 0xf70000;
   0x1e60000; 0x3860000; 0x1060000; 0xe0000; 0xe0000; 0x70c0000; 0x20c0000; 0x31c0000;
   0x3380000; 0x3f00000; 0x1e00000; 0x0; 0x0; 0x0; 0x0; 0x0;
   0x202000; 0x0; 0x0; 0x0; 0x6000; 0xe000; 0x1f000; 0x3b800;
   0x71e00; 0x1e3f80; 0x7c73c0; 0x3fffff8; 0x7fffffc; 0x23800cc; 0x3801c0; 0x3fffc0;
   0x3fffc0; 0x3800c0; 0x3801c0; 0x3fffc0; 0x7fffc0; 0xf020c0; 0x7df1c0; 0x1fc0c0;
   0xf01c0; 0x3e78c0; 0x787fc0; 0xe00fe0; 0x400040; 0x0; 0x0; 0x0;
   0x0; 0x202000; 0x0; 0x0; 0x0; 0x60070; 0x60030; 0xf0030;
   0x1f8030; 0x39c7f0; 0xf2e7f8; 0x1e77f58; 0x7863f18; 0x3ffff18; 0x2fff318; 0xe0733c;
   0xe0336c; 0xfff3fc; 0xe033ce; 0xe07384; 0xfff180; 0x1fff1c0; 0x38231c0; 0x1cf70c0;
   0xfc30e0; 0x787070; 0xee3070; 0x3cff03c; 0x381f81e; 0x100300c; 0x0; 0x0;
   0x0; 0x0; 0x202000; 0x0; 0x0; 0x0; 0x60040; 0x600c0;
   0xf00e0; 0x1f8060; 0x39c070; 0xf2e330; 0x1e77f38; 0x7863f98; 0x3fffdfc; 0x2fff0fc;
   0xe070c4; 0xe03660; 0xfff670; 0xe03638; 0xe077fc; 0xfff3fc; 0x1fff304; 0x3823380;
   0x1cf71c0; 0xfc30c0; 0x7870e0; 0xee3070; 0x3cff03c; 0x381f81c; 0x1003004; 0x0;
   0x0; 0x0; 0x0; 0x202000; 0x0; 0x0; 0x0; 0x0;
   0x3fffff8; 0x3fffff8; 0x88018; 0x3dc018; 0x70c018; 0x3ffffd8; 0x3ffffd8; 0x3f3818;
   0xfb9e18; 0x3c3c7d8; 0x10ee0d8; 0x3dfc18; 0xf99e18; 0x7ffffd8; 0x37fffd8; 0x755658;
   0x7ffe18; 0x700618; 0xfffe18; 0x1d5d61c; 0xef860c; 0x7df70c; 0x1e1ff0e; 0x1800704;
   0x0; 0x0; 0x0; 0x0; 0x202000; 0x0; 0x0; 0x0;
   0x380; 0xffbf80; 0x1ffbf80; 0xc003e0; 0x679ff0; 0x7f1ab8; 0x3c1c1c; 0x7f6eec;
   0x1e777c0; 0x180f9e0; 0x7dc7c; 0xf2f18; 0x7c67c0; 0x3fffff8; 0x3dffffc; 0x180188;
   0x1fffc0; 0x180180; 0x5fffc0; 0xffff80; 0x73e1c0; 0x3f8180; 0x7c7fc0; 0xe03fc0;
   0xc001c0; 0x0; 0x0; 0x0; 0x0; 0x202000; 0x0; 0x0;
   0x0; 0x1c0000; 0x1e3ff8; 0x773ffc; 0x1ebe0c0; 0x7dcfff0; 0x2279ab8; 0x398c5c;
   0x9e06e8; 0xe773c0; 0x78f9e0; 0x1fdc7c; 0xf2f88; 0x1fc73f0; 0x3fffffe; 0x31fffdc;
   0x180180; 0x1fffc0; 0x180180; 0x5fffc0; 0xffff80; 0x71c1c0; 0x1fe180; 0x7c7fc0;
   0x1e00fe0; 0x1c00040; 0x0; 0x0; 0x0; 0x0; 0x202000; 0x0;
   0x0; 0x0; 0x7000; 0x2aaeaa8; 0x3fffffc; 0xcc180; 0x1ffc4e0; 0x1ffe670;
   0x5df7f8; 0xfff9e8; 0x18fcf0; 0xffeff8; 0x18e7f8; 0x1ffe380; 0x155f9fc; 0x3be38;
   0x3f77c0; 0x3faebf8; 0x3fffffc; 0x380180; 0x3fff80; 0x380180; 0xffff80; 0x39e180;
   0x1ff5c0; 0xfe7fc0; 0xf005c0; 0x0; 0x0; 0x0; 0x0; 0x202000;
   0x0; 0x0; 0x0; 0xc0550; 0x1fc0ff8; 0x15c0c18; 0x3ffeff8; 0x35d6ff8;
   0x1ffeaa8; 0x19ffffc; 0x1fc6030; 0x5467f8; 0x3e36a8; 0x1777600; 0x3a3f7c0; 0x3e3fdc0;
   0xfaf00; 0x7c77e0; 0x3fffffe; 0x3dd55bc; 0x1fff80; 0x1fff80; 0x5aab80; 0xffff80;
   0x7fc180; 0x7f7f80; 0x1e03fe0; 0x10001c0; 0x0; 0x0; 0x0; 0x0;
   0x202000; 0x0; 0x0; 0x0; 0x1c0; 0x1c0; 0x1c0; 0xc0;
   0x7fc0; 0xffe0; 0x7560; 0x6070; 0x7070; 0x3338; 0x231c; 0x318;
   0x300; 0x300; 0x300; 0x300; 0x300; 0x300; 0x3300; 0x3b00;
   0x3f00; 0xf00; 0x7c0; 0x180; 0x0; 0x0; 0x0; 0x0;
   0x0; 0x202000; 0x0; 0x0; 0x0; 0x60; 0x60; 0x7ffe070;
   0x3ffe030; 0x7fffff0; 0x301ff8; 0x301d78; 0x300c18; 0x300e1c; 0x3006cc; 0x3004ce;
   0x3000cc; 0x3000c0; 0x3000c0; 0x3000c0; 0x3000c0; 0x3000c0; 0x3000c0; 0x3008c0;
   0x300ec0; 0x300fc0; 0x3003e0; 0x3f81f0; 0x1f0060; 0x50020; 0x0; 0x0;
   0x0; 0x0; 0x202000; 0x0; 0x0; 0x0; 0x60; 0x2a8060;
   0x7fc070; 0x7fc030; 0x70dff0; 0x60cff0; 0x70cc38; 0x60ce18; 0x70c61c; 0x60c7ec].
Definition hanzi_data_490 : list N :=
  [0x70c0ee; 0x60e0e8; 0x70c0e0; 0x60e0e0; 0x70e0e0; 0x60e0e0; 0x7060e0; 0x6060e0;
   0x67074e0; 0x2607fe0; 0x77077e0; 0x26039e0; 0x7f01cf0; 0x3e01c60; 0x1c00820; 0x0;
   0x0; 0x0; 0x0; 0x202000; 0x0; 0x0; 0x0; 0x70;
   0xfff870; 0x1fff870; 0xfaa830; 0x7c07f0; 0x1e07f8; 0xf0758; 0x3c618; 0x155f31c;
   0x3fffb0c; 0x3fff06e; 0x3b9806c; 0x399c060; 0x398c060; 0x39ce060; 0x38c6060; 0x18e7060;
   0x1863860; 0x1871860; 0x1838260; 0x1c1c7e0; 0x1c0e1e0; 0x1d4f0f0; 0xf83830; 0x781010;
   0x0; 0x0; 0x0; 0x0; 0x202000; 0x0; 0x0; 0x0;
   0xe0070; 0xe0070; 0xe0070; 0xe0030; 0x3fffff0; 0x3fffff8; 0xe0758; 0xe0618;
   0x18e771c; 0x18e330c; 0x18e716e; 0x18e3064; 0x18e7060; 0x18e3060; 0x18e7060; 0x1fff060;
   0x1fff060; 0x1aea060; 0x18e0460; 0xe0660; 0x70e07e0; 0x30e01e0; 0x75c00f0; 0x3fc0030;
   0x1fc0010; 0x0; 0x0; 0x0; 0x0; 0x202000; 0x0; 0x0;
   0x0; 0x1c070; 0x1c030; 0x1c070; 0x1ffc030; 0x1ffe7f0; 0x67f8; 0x7758;
   0x7fbb18; 0x7ffb1c; 0x38c; 0x6e; 0x3ff064; 0x3ff060; 0x300060; 0x700060;
   0x300060; 0x700060; 0x300060; 0x700460; 0x2600660; 0x66007e0; 0x2e003e0; 0x3e000f0;
   0x3c00030; 0x1800010; 0x0; 0x0; 0x0; 0x0; 0x202000; 0x0;
   0x0; 0x0; 0x60; 0x1e00060; 0x3ff4070; 0x3ff030; 0xffff0; 0xe0ff8;
   0xe0d78; 0xe0e18; 0xe061c; 0xe06cc; 0xe04ce; 0x3fff8c4; 0x7fff8c0; 0x2aea8c0;
   0xe00c0; 0xe00c0; 0xe00c0; 0xe00c0; 0xe0cc0; 0xe0ec0; 0xe07c0; 0xe03e0;
   0x3fff1f0; 0x3fff060; 0x20; 0x0; 0x0; 0x0; 0x0; 0x202000;
   0x0; 0x0; 0x0; 0x800070; 0x1f80070; 0x1ffc070; 0xfe030; 0xc7ff0;
   0xc0ff8; 0xc0d58; 0xc0e18; 0xc061c; 0xc07ac; 0x3fff0ee; 0x3fff0ec; 0x1c00e0;
   0xe00e0; 0x1e00e0; 0x1e00e0; 0x1e00e0; 0x3700e0; 0x770ce0; 0x638ee0; 0xe1c7e0;
   0xe0e3e0; 0x3c0f1f0; 0x3803870; 0x3001020; 0x0; 0x0; 0x0; 0x0;
   0x202000; 0x0; 0x0; 0x0; 0x18070; 0x18070; 0x1c070; 0xc030;
   0x3ffe7f0; 0x3ffe7f8; 0x7758; 0x63618; 0x73b1c; 0x6130c; 0x7006e; 0x1fff064;
   0x1fff060; 0x1830060; 0x1830060; 0x1830060; 0x1838060; 0x1838060; 0x1c18460; 0x181c660;
   0x1c1c7e0; 0xc0e1e0; 0x1d470f0; 0xfc3830; 0x7c1010; 0x0; 0x0; 0x0;
   0x0; 0x202000; 0x0; 0x0; 0x0; 0x70; 0x1e00030; 0x1fff070;
   0x3ff030; 0x177f0; 0x37f8; 0x7758; 0x3618; 0x1fff71c; 0x1fff32c; 0x1c1f06e;
   0xc3b064; 0xc37060; 0xe33060; 0x673060; 0x663060; 0x763060; 0x3e3860; 0x1c3a60;
   0x3e1b60; 0x7f1fe0; 0xf79ce0; 0x1e3cc70; 0x380ee30; 0x1006410; 0x0; 0x0;
   0x0; 0x0; 0x202000; 0x0; 0x0; 0x0; 0x38070; 0x38070;
   0x18070; 0x18030; 0x3ffdff0; 0x3ffcff8; 0x380cd58; 0x380ee18; 0x18c661c; 0x18c76ec;
   0x1cc74ee; 0xe00e4; 0xe00e0; 0xe00e0; 0x1e00e0; 0x1e00e0; 0x1f00e0; 0x3b00e0;
   0x3384e0; 0x738ee0; 0x71c7e0; 0xe0e3e0; 0x3c070f0; 0x7803c30; 0x3001800; 0x0;
   0x0; 0x0; 0x0; 0x202000; 0x0; 0x0; 0x0; 0x130060;
   0x3b0060; 0xf30070; 0xe30070; 0x1030ff0; 0x1fb0ff0; 0x1fffe38; 0xff638; 0x7571c;
   0x3031c; 0x3f700ee; 0x3ff80e8; 0x7ff0e0; 0x106f0e0; 0x38600e0; 0x18600e0; 0x1c600e0;
   0xee00e0; 0x7c04e0; 0x13c06e0; 0x71f07e0; 0x33bc3e0; 0x379f9f0; 0x3f07070; 0x1c01020;
   0x0; 0x0; 0x0; 0x0; 0x202000; 0x0; 0x0; 0x0;
   0x1c070; 0xc030; 0xc070; 0x2aae030; 0x3ffe7f0; 0x3ffeff8; 0xe7618; 0xe3e18;
   0xe1f1c; 0xe030c; 0x3fff06e; 0x3fff064; 0x38e3060; 0x38e3060; 0x38e3060; 0x38e3060;
   0x38e3060; 0x38e3060; 0x38e3460; 0x3ee3760; 0x1ee37e0; 0xe01e0; 0xe00f0; 0xe0030;
   0xe0000; 0x0; 0x0; 0x0; 0x0; 0x202000; 0x0; 0x0;
   0x0; 0x1c070; 0xc030; 0xc070; 0x1ffe030; 0x1ffe7f0; 0x18067f8; 0x1c07618;
   0x1803b18; 0x1dfff1c; 0x19febac; 0x1dc606e; 0x1986064; 0x1dc6060; 0x1986060; 0x1dfe060;
   0x1dfe060; 0x1f86060; 0xf86060; 0x506660; 0x3006760; 0x70063e0; 0x30061e0; 0x3ffe0f0;
   0x3ffe030; 0x550000; 0x0; 0x0; 0x0; 0x0; 0x202000; 0x0;
   0x0; 0x0; 0x70; 0x2aaa870; 0x3fff870; 0x3aaa830; 0x38007f0; 0x38007f8;
   0x3bff758; 0x3bff618; 0x380031c; 0x380030c; 0x39ff06e; 0x39ff064; 0x39d7060; 0x3983060;
   0x39c7060; 0x3983060; 0x39c7060; 0x39ff060; 0x39ff460; 0x3803660; 0x38077e0; 0x38001e0;
   0x1d000f0; 0x1f80030; 0x1f00010; 0x0; 0x0; 0x0; 0x0; 0x202000;
   0x0; 0x0; 0x0; 0xe0070; 0xe0030; 0x10e1070; 0x18e3030; 0x18e37f0;
   0x18e37f8; 0x18e3758; 0x18e3218; 0x18e331c; 0x1fff38c; 0x1fff06e; 0xe0064; 0xe0060;
   0x28e2060; 0x38e3060; 0x38e3060; 0x38e3060; 0x38e3060; 0x38e3060; 0x38e3260; 0x38e37e0;
   0x3fff1e0; 0x3fff0f0; 0x3800030; 0x3000010; 0x0; 0x0; 0x0; 0x0;
   0x202000; 0x0; 0x0; 0x0; 0x70070; 0x30030; 0x38070; 0x38030;
   0x31cff0; 0x70c7f8; 0xe0e618; 0xe06618; 0x1c0731c; 0x3fffb8c; 0x3fffc6e; 0x3003864;
   0x1000060; 0x60; 0x1fff060; 0xfff060; 0x1c07060; 0xc03060; 0x1c07460; 0xc03660;
   0x1c077e0; 0xc033e0; 0x1fff0f0; 0xfff030; 0x1c07010; 0x0; 0x0; 0x0;
   0x0; 0x202000; 0x0; 0x0; 0x0; 0x70; 0x60; 0x3fff070;
   0x3fff030; 0x1c0eff0; 0xc0eff8; 0x1c0ed58; 0xffee18; 0x1ffe61c; 0xeae6ec; 0x1c0e4ee;
   0xc0e0e4; 0x1c0e0e0; 0xffe0e0; 0x1ffe0e0; 0xc0e0e0; 0x1c0e0e0; 0xc0e0e0; 0x3f4e4e0;
   0x3fffee0; 0x1dff7e0; 0xc033e0; 0x1c001f0; 0xc00060; 0x1c00020; 0x0; 0x0].
Definition hanzi_data_491 : list N :=
  [0x0; 0x0; 0x202000; 0x0; 0x0; 0x0; 0x1c070; 0x18030;
   0x1c030; 0x1ff8030; 0x1fff7f0; 0x83f7f8; 0x1c30758; 0xe30318; 0x7f031c; 0x31e03ac;
   0x31fc16e; 0x3fbf868; 0x1f07060; 0x800060; 0x3fff860; 0x3fff860; 0x15dd060; 0x19c060;
   0x19c260; 0x18c360; 0x718e3e0; 0x318e0e0; 0x3587c70; 0x3f83e30; 0x1f00c10; 0x0;
   0x0; 0x0; 0x0; 0x202000; 0x0; 0x0; 0x0; 0xe0070;
   0xe0030; 0x60030; 0x60030; 0x15757f0; 0x3fff7f8; 0x3fff758; 0x3803318; 0x380331c;
   0x3bf338c; 0x3bf316e; 0x3b13064; 0x3b13060; 0x3b13060; 0x3b13060; 0x3b13060; 0x3b53060;
   0x3bf3060; 0x3953060; 0x3813360; 0x38037e0; 0x38031e0; 0x3803070; 0x3f03030; 0x1f03010;
   0x0; 0x0; 0x0; 0x0; 0x202000; 0x0; 0x0; 0x0;
   0xc0070; 0xe0030; 0x1e0070; 0x1f0030; 0x3b07f0; 0x3387f8; 0x71c758; 0xe0e618;
   0x3c0731c; 0x7fffb0c; 0x37fdc6e; 0x864; 0x60; 0x60; 0x1ffe060; 0xffe060;
   0x1c06060; 0xc06060; 0x1c06060; 0xc06260; 0x1c067e0; 0xeae1e0; 0x1ffe0f0; 0xffe030;
   0x1c06010; 0x0; 0x0; 0x0; 0x0; 0x202000; 0x0; 0x0;
   0x0; 0x70070; 0x30070; 0x30070; 0x1ff8030; 0x1ffc7f0; 0xc0eff8; 0xe1f758;
   0x73fe18; 0x37371c; 0x3e030c; 0x1c006e; 0x3f0064; 0x778060; 0x1e1e060; 0x3c0f860;
   0x1fff060; 0x1ffe060; 0x806060; 0x1c06460; 0x806660; 0x1c067e0; 0x8061e0; 0x1ffe0f0;
   0xffe030; 0x1c06010; 0x0; 0x0; 0x0; 0x0; 0x202000; 0x0;
   0x0; 0x0; 0x70070; 0x60060; 0xe0070; 0xc0030; 0x3fff7f0; 0x3fffff8;
   0x208778; 0x718618; 0xe1c71c; 0x1c0e3ec; 0x38070ee; 0x320b8ec; 0x760d8e0; 0x60c0e0;
   0x71c0e0; 0x3380e0; 0x3b80e0; 0x1f00e0; 0x1e04e0; 0x1e06e0; 0x3f87e0; 0xfbc1e0;
   0x1f1f0f0; 0x3c03c30; 0x3001800; 0x0; 0x0; 0x0; 0x0; 0x202000;
   0x0; 0x0; 0x0; 0x60070; 0x60030; 0xe0030; 0xc0030; 0xc07f8;
   0x3fffff8; 0x3ffff58; 0x60318; 0x7031c; 0xf818c; 0x30d816e; 0x38dc064; 0x1dce060;
   0xf8f060; 0x78f860; 0x30fc60; 0x70d860; 0x60c060; 0xe0c060; 0xc0c360; 0x1ccc3e0;
   0x38fc0e0; 0x707c070; 0x201e030; 0x4010; 0x0; 0x0; 0x0; 0x0;
   0x202000; 0x0; 0x0; 0x0; 0xc04070; 0xc0e030; 0xe1c070; 0x61c030;
   0x7187f0; 0x308ff8; 0x3fffe18; 0x3fffe18; 0x71871c; 0x31830c; 0x71806e; 0x318064;
   0x718060; 0x3fff860; 0x3fff860; 0x318060; 0x71c060; 0x31c060; 0x71c460; 0x30e760;
   0x70e7e0; 0x3071e0; 0x7078f0; 0x303c30; 0x701800; 0x0; 0x0; 0x0;
   0x0; 0x202000; 0x0; 0x0; 0x0; 0xe0070; 0xe0030; 0x15f5070;
   0x3fff830; 0x3fffff0; 0xe07f8; 0xe0718; 0x3fffb18; 0x3fffb1c; 0x3003bac; 0x300396e;
   0x37ff864; 0xffe060; 0x700060; 0x3c0060; 0xe0060; 0x15f5060; 0x3fff860; 0x3fffa60;
   0xe0360; 0xe03e0; 0xe01e0; 0xe00f0; 0xfc030; 0x7c000; 0x0; 0x0;
   0x0; 0x0; 0x202000; 0x0; 0x0; 0x0; 0x70; 0x2aaa030;
   0x3fff070; 0x2aaa030; 0x7f0; 0x7f8; 0x1ffe758; 0x1ffe618; 0x1c0631c; 0x180638c;
   0x1c0606e; 0x1806064; 0x1ffe060; 0x1ffe060; 0x1554060; 0xc0c060; 0xe1c060; 0xe18060;
   0x618060; 0x638260; 0x7387e0; 0x3081e0; 0x7fff8f0; 0x3fff830; 0x10; 0x0;
   0x0; 0x0; 0x0; 0x202000; 0x0; 0x0; 0x0; 0x1d0070;
   0xfb8030; 0xdff070; 0x198fc30; 0x39cfff0; 0x318e7f8; 0x11ce758; 0x18e318; 0x3ffff1c;
   0x3fffd8c; 0x18e10e; 0x398e064; 0x198e060; 0x198e060; 0x1dbe060; 0xdbfc60; 0x78fc60;
   0x78e460; 0x70e060; 0x238e060; 0x77ce760; 0x26ee3e0; 0x367e1f0; 0x3e37c70; 0x1c17c00;
   0x0; 0x0; 0x0; 0x0; 0x202000; 0x0; 0x0; 0x0;
   0xc0070; 0xe0030; 0x1f0070; 0x3b8030; 0x73c7f0; 0xe1eff8; 0x3c0f758; 0x3803e18;
   0x1fff71c; 0xffe36c; 0xe036e; 0xe0064; 0xe0060; 0x3fff860; 0x3fff860; 0xe0060;
   0x6e6060; 0xee6060; 0x1ce7460; 0x18e3660; 0x18e37e0; 0x38e3be0; 0x10e19f0; 0xf8070;
   0x78020; 0x0; 0x0; 0x0; 0x0; 0x202000; 0x0; 0x0;
   0x0; 0x70; 0x1f80030; 0x1fffc30; 0xbf830; 0x1c307f0; 0x1c61ff8; 0xc63758;
   0xe63318; 0x6e731c; 0x62618c; 0x7016e; 0x30064; 0x7fffc60; 0x3fff860; 0x7fffc60;
   0x60c060; 0x70e060; 0x306060; 0x39f060; 0x1f8260; 0x1f07e0; 0x7f81e0; 0x1f3f0f0;
   0x3c0fe30; 0x1801c10; 0x0; 0x0; 0x0; 0x0; 0x202000; 0x0;
   0x0; 0x0; 0x70; 0x1fff030; 0x1fff070; 0x18c3030; 0x18c77f0; 0x1aeb7f8;
   0x1fff758; 0x1aeb318; 0x18c731c; 0x18c338c; 0x1fff16e; 0x1fff064; 0xe0060; 0xe0060;
   0x3fff860; 0x3fff860; 0x1f0060; 0x3f8060; 0x7fc060; 0xeec260; 0x1cef7e0; 0x38e79e0;
   0x30e3cf0; 0xe0830; 0xe0010; 0x0; 0x0; 0x0; 0x0; 0x202000;
   0x0; 0x0; 0x0; 0x70; 0x1fff030; 0x1fff070; 0x1803030; 0x1c037f0;
   0x1fff7f8; 0x1fff758; 0x1803318; 0x1c0331c; 0x1aab38c; 0x1fff10e; 0x64; 0x183060;
   0x183060; 0x1183060; 0x3dbf060; 0x1fbf060; 0x3ab060; 0x183060; 0x183660; 0x7183760;
   0x21bb3e0; 0x75bf1f0; 0x3f8f860; 0x1f01020; 0x0; 0x0; 0x0; 0x0;
   0x202000; 0x0; 0x0; 0x0; 0x70070; 0x30070; 0x38070; 0xff8030;
   0x1ffc7f0; 0xe0c7f8; 0xe0e758; 0x606618; 0x70731c; 0x383b8c; 0x13986e; 0xabe06c;
   0x1fcf060; 0x1a83060; 0x1803060; 0x1803060; 0x1fbf060; 0x1fbf060; 0x1803060; 0x1803660;
   0x18037e0; 0x1aab1e0; 0x1fff0f0; 0x1aab030; 0x1803010; 0x0; 0x0; 0x0;
   0x0; 0x202000; 0x0; 0x0; 0x0; 0x60070; 0xe0030; 0x1c0070;
   0x3fff830; 0x3fffff0; 0x3003ff8; 0x3003f58; 0x3fffb18; 0xffe31c; 0xe0638c; 0xe0606e].
Definition hanzi_data_492 : list N :=
  [0xe0606c; 0xffe060; 0xffe060; 0x6060; 0x6060; 0x1ffe060; 0x1ffe060; 0x1806460;
   0x1806760; 0x18067e0; 0x18061e0; 0x1ffe0f0; 0x1ffe030; 0x1806010; 0x0; 0x0;
   0x0; 0x0; 0x202000; 0x0; 0x0; 0x0; 0xc0070; 0xc0030;
   0xc0070; 0x3fff030; 0x3fff7f0; 0x2bfa7f8; 0x7f8758; 0x6dc318; 0x1ede31c; 0x3cc738c;
   0x38c796e; 0xaab064; 0x1ffe060; 0xeae060; 0x1c06060; 0xffe060; 0x1ffe060; 0xc06060;
   0x1d56660; 0xffe760; 0x5543e0; 0x1e0; 0x3fff870; 0x3fff830; 0x0; 0x0;
   0x0; 0x0; 0x0; 0x202000; 0x0; 0x0; 0x0; 0x60070;
   0x60030; 0x1fff070; 0x1aeb030; 0x1c637f0; 0x1aeb7f8; 0x1fff718; 0x60318; 0x157571c;
   0x3fffd8c; 0x7fffd6e; 0x64; 0x1fff060; 0xfff060; 0x1c03060; 0xc63060; 0x1c63060;
   0xc63060; 0x1c63260; 0xc63360; 0x15f13e0; 0x3f80e0; 0x1f1f070; 0x3c07c38; 0x1001c10;
   0x0; 0x0; 0x0; 0x0; 0x202000; 0x0; 0x0; 0x0;
   0x70; 0xffe030; 0xfff070; 0xc06030; 0xcff7f0; 0xcfe7f8; 0xcc7758; 0xcc6618;
   0x3ffff1c; 0x3fffb0c; 0x3001c6e; 0x3aab864; 0x3fffc60; 0xc06060; 0xc06060; 0xffe060;
   0xffe060; 0xc06060; 0xffe060; 0xffe260; 0xd567e0; 0xc061e0; 0xc060f0; 0xf86030;
   0x786010; 0x0; 0x0; 0x0; 0x0; 0x202000; 0x0; 0x0;
   0x0; 0x60070; 0x68030; 0x1f7f070; 0x1f67830; 0x1861ff0; 0x1861ff8; 0x1f6ff58;
   0x1f6fb18; 0x1861b1c; 0x186198c; 0x1fff97e; 0x1fff864; 0x1575070; 0x60060; 0x60070;
   0x1fff860; 0x1fffc70; 0xe07060; 0x70e070; 0x39c260; 0x1f87f0; 0x1f81e0; 0x1fff0f0;
   0x3f0fe38; 0x1801e10; 0x0; 0x0; 0x0; 0x0; 0x202000; 0x0;
   0x0; 0x0; 0x18070; 0x18030; 0x7fc030; 0x3fe030; 0x3877f0; 0xbabff8;
   0x1ffff18; 0x18e3b18; 0x186331c; 0x186318c; 0x1fff16e; 0xbba064; 0x1b8060; 0x619c060;
   0x7f8f060; 0x3f83c60; 0x1571c60; 0xf8060; 0x7c0060; 0x302360; 0x3f7e0; 0xf81e0;
   0x7e0070; 0xf00030; 0x400010; 0x0; 0x0; 0x0; 0x0; 0x202000;
   0x0; 0x0; 0x0; 0x60070; 0x60030; 0x1575030; 0x1fff030; 0x1fff7f8;
   0x607f8; 0x1575758; 0x3fffb18; 0x3fffb1c; 0x21838c; 0x71c16e; 0xe0e064; 0x1fff860;
   0x3fff860; 0x1001060; 0xaaa060; 0x1fff060; 0x1bbb060; 0x19b3060; 0x19b3360; 0x19b33e0;
   0x19b31e0; 0x7fffc70; 0x3fffc30; 0x10; 0x0; 0x0; 0x0; 0x0;
   0x202000; 0x0; 0x0; 0x0; 0x718070; 0x618030; 0x3fff870; 0x3fff830;
   0x7187f0; 0x6187f8; 0x1fff718; 0x1ffe318; 0x180731c; 0x180638c; 0x1fff16e; 0x1aae064;
   0x1807060; 0x1ffe060; 0x1fff060; 0xe0060; 0x60060; 0x3fff060; 0x3fff260; 0x1f0760;
   0x3f03e0; 0x7381e0; 0x1f1f0f0; 0x3c07830; 0x1001800; 0x0; 0x0; 0x0;
   0x0; 0x202000; 0x0; 0x0; 0x0; 0x10070; 0x3e030; 0x3fdf830;
   0x3fc3830; 0x3101ff0; 0x3b19ff8; 0x3199f18; 0x39b9b18; 0x19bdb1c; 0x18bfb8c; 0x1ed7d7e;
   0x1ee1864; 0x40070; 0x1fff060; 0x1fff070; 0x1863060; 0x1c63070; 0x1aeb060; 0x1fff270;
   0x1863360; 0x1c633f0; 0x18631e0; 0x1fff070; 0x1fff030; 0x1c03010; 0x0; 0x0;
   0x0; 0x0; 0x202000; 0x0; 0x0; 0x0; 0x604070; 0x60e030;
   0x71c030; 0x2bae830; 0x3fffff0; 0x2aeaff8; 0x70758; 0x1fff318; 0x1fff31c; 0x3838c;
   0x155d56e; 0x3fff864; 0x3fffc60; 0xc060; 0xffe060; 0xfff060; 0xc73860; 0xc21860;
   0xfffc60; 0xffeb60; 0xc307e0; 0xe301e0; 0x7fff870; 0x3fff830; 0x10; 0x0;
   0x0; 0x0; 0x0; 0x202000; 0x0; 0x0; 0x0; 0x60c070;
   0x60c060; 0x3fff870; 0x3fff830; 0x60c7f0; 0x60cff8; 0x7fc758; 0x2e8618; 0x1fff71c;
   0x1fff36c; 0x18e326e; 0x18e3064; 0x1fff060; 0x1fff060; 0xe0060; 0x3fff060; 0x3fff060;
   0xe0060; 0x15f5460; 0x1ffff60; 0x1fff7e0; 0xe01e0; 0x7fffcf0; 0x3fffc30; 0x0;
   0x0; 0x0; 0x0; 0x0; 0x202000; 0x0; 0x0; 0x0;
   0x70; 0xffe030; 0x1d56070; 0xc06030; 0x1ffe7f0; 0xc06ff8; 0x1d56618; 0xffe618;
   0x71c; 0x3fffb0c; 0x3fff86e; 0x3113864; 0x3113860; 0x3fff860; 0x3fff060; 0x60;
   0x1fff060; 0x1eae060; 0xe1c460; 0x738760; 0x3f07e0; 0x1f01e0; 0x1fff0f0; 0x3e0fc30;
   0x3801c00; 0x0; 0x0; 0x0; 0x0; 0x202000; 0x0; 0x0;
   0x0; 0x319830; 0x319830; 0x319830; 0x33fc38; 0x37fff8; 0x3f99bf8; 0x7f99b58;
   0x1999998; 0x19ffd9c; 0x19ffd8c; 0x19c007e; 0x1bff834; 0x1b7fc70; 0xb30830; 0xf3fc70;
   0xe3f830; 0xe31c70; 0xe30830; 0x63fc70; 0xe3f930; 0x1f31ff0; 0x1bb08f0; 0x39f1c70;
   0x30fc838; 0x205dc10; 0x0; 0x0; 0x0; 0x0; 0x202000; 0x0;
   0x0; 0x0; 0x70; 0x1fbf830; 0x1fbf870; 0x11b1830; 0x1fbfff0; 0x1fbfff8;
   0x1181f58; 0x21a1e18; 0x3fff31c; 0x3fbf38c; 0x11406e; 0x308064; 0x71c060; 0x3fff860;
   0x3fff860; 0x308060; 0x71c060; 0x2baa860; 0x7fffc60; 0x3fffe60; 0x71c7e0; 0xe0e1e0;
   0x1c070f0; 0x3803c30; 0x1001c10; 0x0; 0x0; 0x0; 0x0; 0x202000;
   0x0; 0x0; 0x0; 0x70030; 0x3fffc30; 0x3fffc30; 0xfff838; 0xd75bf8;
   0xfffbf8; 0x575358; 0x3ffff88; 0x355558c; 0x3f9fd8e; 0x3cd9c76; 0xf9f824; 0x31d070;
   0x3fffc20; 0x1fffc70; 0x1fff820; 0x1fffc70; 0x2baea20; 0x3fffe70; 0xcde1a0; 0xfc7df0;
   0x387ef0; 0x1f7f270; 0x3c3f038; 0x1007010; 0x0; 0x0; 0x0; 0x0;
   0x202000; 0x0; 0x0; 0x0; 0x180180; 0x180380; 0x1c0700; 0xe0600;
   0x3fffffc; 0x3fffffc; 0x7000; 0x7000; 0x7fffe0; 0x7fffe0; 0x700060; 0x600060;
   0x755560; 0x7fffe0; 0x755560; 0x600060; 0x700060; 0x7fffe0; 0x7fffe0; 0x600060;
   0x700060; 0x7fffe0; 0x7fffe0; 0x6aaae0; 0x700060; 0x0; 0x0; 0x0].
Definition hanzi_data_493 : list N :=
  [0x0; 0x202000; 0x0; 0x0; 0x0; 0xe0c060; 0x60c060; 0x71c060;
   0x2baa860; 0x3fff860; 0x2aeaaea; 0x607fe; 0xaea7fe; 0xffe660; 0xc0e660; 0xc0e660;
   0xffe660; 0xffe660; 0xc0e660; 0xd5e670; 0xffe660; 0xd5e670; 0xc0e630; 0xffe630;
   0x2ffe638; 0x7000638; 0x3000618; 0x3fffe1c; 0x1fffc0e; 0x4; 0x0; 0x0;
   0x0; 0x0; 0x202000; 0x0; 0x0; 0x0; 0xf80610; 0xf80618;
   0x1b80730; 0x3380330; 0x7fff3f0; 0x3fffffc; 0x7fffffc; 0x3800e0; 0x380060; 0x3be7f8;
   0x337f7fc; 0x3b22618; 0x1b6761c; 0x1b227f8; 0x1f7f7fc; 0xf3e618; 0x70075c; 0x7007f8;
   0x77f75c; 0x27bf618; 0x67c775c; 0x2ee07f8; 0x3e707fc; 0x3c38618; 0x1810000; 0x0;
   0x0; 0x0; 0x0; 0x202000; 0x0; 0x0; 0x0; 0x300000;
   0x7fa000; 0x1ffff0; 0xffe0; 0x6000; 0x6000; 0x3fffffc; 0x3fffffc; 0x157fd54;
   0x76e00; 0x1e6700; 0x3c6380; 0xf861f0; 0x3e060f8; 0x3fffffc; 0x3fffc8; 0x7000c0;
   0x3000c0; 0x7fffc0; 0x3fffc0; 0x7000c0; 0x3000c0; 0x7fffc0; 0x3fffc0; 0x7000c0;
   0x0; 0x0; 0x0; 0x0; 0x202000; 0x0; 0x0; 0x0;
   0x30c00; 0x71fe0; 0x18e07fc; 0x19c01ac; 0x1f801c0; 0xd02ba8; 0xc73ffc; 0xc60be8;
   0xe707e0; 0x1e6cfb0; 0x1f7ddf8; 0x3b6d99c; 0x337d1ce; 0x33e6084; 0x31f7ff8; 0x31e6ff8;
   0x70f7c18; 0x20e2c18; 0x871ff8; 0x1878eb8; 0x187dc18; 0x186eeb8; 0x1fffff8; 0xfe6eb8;
   0x541418; 0x0; 0x0; 0x0; 0x0; 0x202000; 0x0; 0x0;
   0x0; 0x1c0400; 0xc0fe8; 0x15d47fc; 0x3ffe0c8; 0x3ffe1c0; 0xc0ffc; 0x1c1ffc;
   0x3ffe1e0; 0x3ffe7f0; 0x3006ef8; 0x3007ddc; 0x3ffe8ce; 0xff81cc; 0x700aa8; 0x3c0ff8;
   0xc0eb8; 0x7fffc18; 0x3ffeeb8; 0x1c0ff8; 0xc0c18; 0x1c0c18; 0xc0eb8; 0x1f8ff8;
   0xf8eb8; 0x10410; 0x0; 0x0; 0x0; 0x0; 0x202000; 0x0;
   0x0; 0x0; 0x70c00; 0x31fe8; 0x15707fc; 0x3ff8188; 0x155c1c0; 0xdffc;
   0x1fffffc; 0x1ffe3e0; 0x181e7f0; 0x1ff8db0; 0x1ffdddc; 0x181998e; 0x1ffc1cc; 0x1ff8aa8;
   0x61ff8; 0xff0eb8; 0x1ff9c18; 0x1c3ceb8; 0xe7fff8; 0x6e4c18; 0x7c1c18; 0x3e0eb8;
   0x1ff9ff8; 0x3e3eeb8; 0x3007410; 0x0; 0x0; 0x0; 0x0; 0x202000;
   0x0; 0x0; 0x0; 0x400; 0x1ffcfe0; 0x1ffc7fc; 0x180c188; 0x1c0c1c0;
   0x1aadffc; 0x1ffdffc; 0x1aac3e0; 0x1c0c7f0; 0x180cfb0; 0x1ffdddc; 0x1ffc98e; 0x1cc;
   0xaa8; 0x1ffeff8; 0x1ffeeb8; 0x1b76e18; 0x1b26eb8; 0x1b76ff8; 0x1b26e18; 0x1b76e18;
   0x1b26eb8; 0x7fffff8; 0x3fffeb8; 0x410; 0x0; 0x0; 0x0; 0x0;
   0x202000; 0x0; 0x0; 0x0; 0x550380; 0x7f3ff8; 0x637ffc; 0x2e38380;
   0x3e1fff8; 0xffaaa8; 0x1ffbff8; 0xe3bff8; 0x7f3138; 0x7e3ff8; 0x1fffff8; 0x398c018;
   0x17fffdc; 0xefcc; 0x1557554; 0x1fffff8; 0x157fd54; 0xe6780; 0x1fffff0; 0x3fffffe;
   0x33555dc; 0x3fffc0; 0x3001c0; 0x3fffc0; 0x3001c0; 0x0; 0x0; 0x0;
   0x0; 0x202000; 0x0; 0x0; 0x0; 0x0; 0x0; 0x3ffff0;
   0x3ffff0; 0x180000; 0x180000; 0x1801c0; 0x1801c0; 0x1801c0; 0x1800c0; 0x1c01c0;
   0x1c00c0; 0x1ffffc0; 0x1ffffc0; 0x1800000; 0x1800000; 0x1c00000; 0x18ffffc; 0x1cffffc;
   0xc00000; 0x1c00000; 0xc00000; 0xe10000; 0x7f0000; 0x7f0000; 0x0; 0x0;
   0x0; 0x0; 0x202000; 0x0; 0x0; 0x0; 0x0; 0xaa8;
   0x3ffe7fc; 0x3ffe7f8; 0x181c600; 0x181c638; 0x1c1c638; 0x1818638; 0x1c18618; 0xc38618;
   0xc30718; 0xe30618; 0x671758; 0x760ff8; 0x761ff8; 0x3e0c00; 0x1c0c00; 0x1c0dc0;
   0x3e0dfc; 0x3e0c3e; 0x778c04; 0xe3ce00; 0x3c1f600; 0x380f7e0; 0x10063e0; 0x0;
   0x0; 0x0; 0x0; 0x202000; 0x0; 0x0; 0x0; 0xc0000;
   0xc0ff8; 0xc07fc; 0xc0600; 0xc0600; 0xc0630; 0xc0630; 0x2aea638; 0x3ffe638;
   0x3ffe638; 0x1c0718; 0x1e0618; 0x1e1758; 0x1e0ff8; 0x1e1ff8; 0x3e0c00; 0x371c00;
   0x330de0; 0x738dfc; 0x638c3e; 0xe1cc04; 0x1c0ee00; 0x3c0fe00; 0x38077e0; 0x10027c0;
   0x0; 0x0; 0x0; 0x0; 0x202000; 0x0; 0x0; 0x0;
   0x1000000; 0x380c7fc; 0x39cc7fc; 0x388c6a8; 0x39cc700; 0x388c618; 0x39cc718; 0x388c218;
   0x39cc718; 0x388c318; 0x39cc318; 0x388c318; 0x39cc75c; 0x388eff8; 0x39ccffc; 0x388ee00;
   0x39ce600; 0x388e680; 0x39c67fc; 0x388663e; 0x39c7604; 0x3887600; 0x3807700; 0x3803bf0;
   0x38011f0; 0x0; 0x0; 0x0; 0x0; 0x202000; 0x0; 0x0;
   0x0; 0x1c0000; 0x807fc; 0x1cc7fc; 0x8c6a8; 0x1cc700; 0x388c318; 0x3fcc718;
   0x3f8c318; 0x3ffc318; 0x38fe318; 0x39dfb18; 0x388fb18; 0x39cc75c; 0x388cff8; 0x19cc7fc;
   0x188c600; 0x1fcc600; 0xe8c680; 0x114c7fc; 0x300c63e; 0x700c704; 0x300c700; 0x3ffc700;
   0x3ff83f0; 0x5501f0; 0x0; 0x0; 0x0; 0x0; 0x202000; 0x0;
   0x0; 0x0; 0x0; 0x7fc; 0x3fff7fc; 0x3ffe200; 0x7700; 0x1806318;
   0x1c37718; 0xc36318; 0xc77318; 0xee6318; 0x7c7318; 0x786318; 0x30775c; 0x786ff8;
   0x7c7d54; 0xec6e00; 0x1ce7e00; 0x1866fe0; 0x38777fc; 0x103e63e; 0x17604; 0x6600;
   0x7fff710; 0x3ffe3e0; 0x1e0; 0x0; 0x0; 0x0; 0x0; 0x202000;
   0x0; 0x0; 0x0; 0x0; 0xaaa2a8; 0x1ffe7fc; 0x1ffe7f8; 0x180e700;
   0x180e618; 0x180e718; 0x180e618; 0x180e718; 0x180e318; 0x180e318; 0x1ffe318; 0x1ffe758;
   0x180eff8; 0x180effc; 0x180ec00; 0x180ec00; 0x180ed80; 0x180edfc; 0x180ee3e; 0x1ffee04;
   0x1ffe600; 0x1ffe600; 0x180e7e0; 0x100c3e0; 0x0; 0x0; 0x0; 0x0;
   0x202000; 0x0; 0x0; 0x0; 0x0; 0x1c002a8; 0xe1c7fc; 0xe3c7fc;
   0x7f0600; 0x3e0638; 0x7e0638; 0xe78638; 0x3c3e618; 0x180e618; 0x1006618; 0xc0c618].
Definition hanzi_data_494 : list N :=
  [0xc1c758; 0xe18ff8; 0x739ff8; 0x730c00; 0x370c00; 0x3e0d80; 0x1c0dfc; 0x3e0c3e;
   0x778c04; 0xe3ce00; 0x7c1f600; 0x38077e0; 0x10013c0; 0x0; 0x0; 0x0;
   0x0; 0x202000; 0x0; 0x0; 0x0; 0x40000; 0xc07fc; 0x1c07fc;
   0x380600; 0x3ffc700; 0x3ffc618; 0x3d5c718; 0x380c318; 0x380c718; 0x380c318; 0x380c318;
   0x3ffc318; 0x3ffc75c; 0x3aacff8; 0x380cffc; 0xec00; 0xcc00; 0xef80; 0xeffc;
   0xee3e; 0x6604; 0x6600; 0x7710; 0x37e0; 0x33e0; 0x0; 0x0;
   0x0; 0x0; 0x202000; 0x0; 0x0; 0x0; 0x0; 0xaa82a8;
   0x1ffc7fc; 0xeac6a8; 0x1c1c700; 0xc0c638; 0x1c1c718; 0xc0c218; 0x1ffc718; 0xffc318;
   0x1d5c318; 0xc0c318; 0x1c1cff8; 0xc0cff8; 0x1c1cd50; 0xffcc00; 0x1ffcd00; 0xc0cde0;
   0x1c1cdfe; 0xc0ce3e; 0x1c1c604; 0xc0c600; 0x7fff750; 0x3fff3e0; 0x55551e0; 0x0;
   0x0; 0x0; 0x0; 0x202000; 0x0; 0x0; 0x0; 0xc0000;
   0xc02a8; 0xc07fc; 0xc07f8; 0x3ffe700; 0x3ffe638; 0x3dd6718; 0x38c6618; 0x38c6718;
   0x38c6318; 0x38c6718; 0x3aee318; 0x3ffeff8; 0x2aeaff8; 0xc4d54; 0xcec00; 0xecc00;
   0x7cf80; 0x78ffc; 0x70e7c; 0x1f8604; 0x3dc600; 0x1f1f700; 0x3e07be0; 0x30033e0;
   0x0; 0x0; 0x0; 0x0; 0x202000; 0x0; 0x0; 0x0;
   0x0; 0x3ffe7fc; 0x3fff7fc; 0x3322200; 0x3337700; 0x3322318; 0x3337318; 0x3322318;
   0x3337318; 0x3322318; 0x3337318; 0x3332318; 0x333775c; 0x3332ff8; 0x3317d54; 0x331ae00;
   0x3f1ff00; 0x300efe0; 0x30077fe; 0x300263c; 0x3557604; 0x3ffe600; 0x3fff700; 0x30023e0;
   0x30071e0; 0x0; 0x0; 0x0; 0x0; 0x202000; 0x0; 0x0;
   0x0; 0xc18000; 0xc187fc; 0xc1c7fc; 0xc0c300; 0xc0c700; 0xc0e318; 0x7ffe318;
   0x3ffe318; 0xc0f318; 0xc0fb18; 0xc4ff18; 0xc6fb98; 0xc6e7dc; 0xcee7f8; 0xcce7fc;
   0xcce600; 0xdce600; 0xc0e6c0; 0xc0e7fc; 0xc0e63e; 0xc0e704; 0xc0e600; 0xc4e700;
   0xf8e3e0; 0x78e1e0; 0x0; 0x0; 0x0; 0x0; 0x202000; 0x0;
   0x0; 0x0; 0x38000; 0x387fc; 0x187fc; 0x186a8; 0x3ffc700; 0x3ffc618;
   0x3ffe718; 0x3806318; 0x3807718; 0x3803b18; 0x39fd318; 0x39fc318; 0x398c75c; 0x398cff8;
   0x198cffc; 0x198ce00; 0x19fc600; 0x19fc680; 0x195c7fc; 0x180c63e; 0x1800604; 0x1800600;
   0x1c40700; 0xf803f0; 0x7801f0; 0x0; 0x0; 0x0; 0x0; 0x202000;
   0x0; 0x0; 0x0; 0x70000; 0x307fc; 0x387fc; 0x1ff86a8; 0x1ffc700;
   0xe0e338; 0x607718; 0x607b18; 0x703b18; 0x3fff318; 0x3fff318; 0x3aaa318; 0x380075c;
   0x3800ff8; 0x38007fc; 0x3ffe600; 0x3ffe600; 0x3aaa6c0; 0x38007fc; 0x380067e; 0x3800704;
   0x3fff700; 0x3fff700; 0x3aaa3f0; 0x38001f0; 0x0; 0x0; 0x0; 0x0;
   0x202000; 0x0; 0x0; 0x0; 0x70000; 0x607fc; 0xe07fc; 0xc0600;
   0x1c0700; 0x3fff218; 0x3fff718; 0xc0318; 0xc0718; 0xc0318; 0xc0318; 0xc0318;
   0xc075c; 0x1ffeff8; 0x1fffffc; 0xc0c00; 0xc0c00; 0xc0f80; 0xc07fc; 0xc063e;
   0xc0604; 0xc0600; 0x7ffff00; 0x3fffbe0; 0x3e0; 0x0; 0x0; 0x0;
   0x0; 0x202000; 0x0; 0x0; 0x0; 0x70000; 0xe0000; 0xe07fc;
   0xc07fc; 0x3ffff00; 0x3fffe18; 0x3003f18; 0x3003b18; 0x300ff18; 0x200eb18; 0xc318;
   0xe0c318; 0x1f0c75c; 0x3ccff8; 0x1fcd54; 0x3cc00; 0x1cd00; 0xcfe0; 0x100cffe;
   0x300ce3e; 0x300c604; 0x300c600; 0x3ffc710; 0x1ffc3e0; 0xff01e0; 0x0; 0x0;
   0x0; 0x0; 0x202000; 0x0; 0x0; 0x0; 0x180; 0x1ff8180;
   0x1fffffc; 0x183bffc; 0x1c71870; 0xee1c70; 0x7c0ff0; 0x3c0f80; 0xffbff0; 0x3e3d8fe;
   0x390801c; 0x3fffe0; 0x3fffe0; 0x380380; 0x180180; 0x180180; 0x1ffffc0; 0x1ffffc0;
   0x1800000; 0x1800000; 0x1dffffc; 0x1caaaa8; 0x1c00000; 0xfc0000; 0x7c0000; 0x0;
   0x0; 0x0; 0x0; 0x202000; 0x0; 0x0; 0x0; 0x180;
   0xaa8180; 0x1ffbffc; 0x1abbffc; 0x1c3b0c0; 0x183b0e0; 0x1c3b870; 0x1ffbf78; 0x1ff9f3c;
   0xc; 0x3fffe0; 0x3fffe0; 0x380100; 0x180380; 0x180180; 0x180180; 0x1ffffc0;
   0x1ffffc0; 0x1800000; 0x18aaaa8; 0x1cffffc; 0x1c00000; 0x1c00000; 0xfc0000; 0x7c0000;
   0x0; 0x0; 0x0; 0x0; 0x202000; 0x0; 0x0; 0x0;
   0x0; 0xaaa7fc; 0x1fff7fc; 0x1fff200; 0x1c0c700; 0xe18318; 0x738318; 0x3f0318;
   0x1f0318; 0x7f8318; 0x3f1f318; 0x3c87b18; 0x30c175c; 0xc0ff8; 0x1fffffc; 0x1ffee00;
   0xc0e00; 0xc0f80; 0x3fff7fc; 0x3fff63e; 0x3fff604; 0xc0600; 0xc0700; 0xc03e0;
   0xc03f0; 0x0; 0x0; 0x0; 0x0; 0x202000; 0x0; 0x0;
   0x0; 0xc0000; 0xe07fc; 0x707fc; 0x70600; 0x730700; 0x638618; 0xe1c718;
   0xc0c318; 0x1c0e718; 0x3fff318; 0x3fff318; 0x700b318; 0xffc; 0xff8; 0x1ffed54;
   0x1ffec00; 0x180ed00; 0x180efe0; 0x180effe; 0x180ee3e; 0x180e604; 0x180e600; 0x1ffe700;
   0x1ffe7e0; 0x180e3e0; 0x0; 0x0; 0x0; 0x0; 0x202000; 0x0;
   0x0; 0x0; 0x1c000; 0x187fc; 0x187fc; 0x3ff86a8; 0x3fff700; 0x83f318;
   0x1c30718; 0xe70318; 0x7e0318; 0x33e0318; 0x31fc318; 0x3fbf318; 0x1f0675c; 0x8007f8;
   0x3fff7fc; 0x3fff600; 0x17dd600; 0x398680; 0x3987fc; 0x39863e; 0x739c704; 0x238e300;
   0x7787300; 0x3f03ff0; 0x1f019f0; 0x0; 0x0; 0x0; 0x0; 0x202000;
   0x0; 0x0; 0x0; 0x0; 0xff9ff8; 0x1ff9ff8; 0xc19838; 0x1c19c38;
   0xeb9ab8; 0x1ff9ff8; 0x0; 0x155550; 0x3fffe0; 0x3ffff0; 0x380280; 0x180180;
   0x180180; 0x1ffffc0; 0x1ffffc0; 0x1ffffc0; 0x1800000; 0x18ffffc; 0x18ffff8; 0x1cffffc;
   0x1c00000; 0x1d60000; 0xfc0000; 0x7c0000; 0x0; 0x0; 0x0; 0x0].
Definition hanzi_data_495 : list N :=
  [0x202000; 0x0; 0x0; 0x0; 0x0; 0x3ffe7fc; 0x3fff7fc; 0x3aae600;
   0x38c7700; 0x38c6318; 0x38c7718; 0x38c6318; 0x3dd7318; 0x3ffe318; 0x3dd7318; 0x38c6318;
   0x38c775c; 0x39e6ff8; 0x39e7ffc; 0x3be6c00; 0x3b77c00; 0x3e36fc0; 0x3e3f7fc; 0x3e1e63e;
   0x3807604; 0x3ffe600; 0x3fff700; 0x3aae3e0; 0x38073e0; 0x0; 0x0; 0x0;
   0x0; 0x202000; 0x0; 0x0; 0x0; 0x0; 0xf803fc; 0x1ffe7fc;
   0xfe300; 0xe0300; 0xe0318; 0x60318; 0x3fff318; 0x7fff318; 0x638318; 0xe3831c;
   0xc1c388; 0x3c0e5dc; 0x780f7fc; 0x361f754; 0x618600; 0x618600; 0x6186e0; 0x6187fc;
   0x61863e; 0x61c704; 0x60e300; 0x60f300; 0x607bf0; 0x6031f0; 0x0; 0x0;
   0x0; 0x0; 0x202000; 0x0; 0x0; 0x0; 0x1d8000; 0x1983fc;
   0x19dc3fc; 0x398c3a8; 0x1dce300; 0xf86318; 0x7c7318; 0x3c7b18; 0x1f7f18; 0x31beb98;
   0x31d6198; 0x3186198; 0x3f865dc; 0xa067f8; 0xe07fc; 0xe0600; 0x3ffff00; 0x3fffee0;
   0x15f57fc; 0xe033c; 0xe0704; 0xe0300; 0xe0300; 0xe03f0; 0xe01f0; 0x0;
   0x0; 0x0; 0x0; 0x202000; 0x0; 0x0; 0x0; 0x30000;
   0x387fc; 0x15587fc; 0x3ffc600; 0x1ffc700; 0x1c0e218; 0xc1f718; 0xe3bb18; 0x771b18;
   0x3e0318; 0x1e0318; 0x7f8318; 0x1f3f75c; 0x7c0fff8; 0x7557ffc; 0x1ffec00; 0x1ffec00;
   0x180efc0; 0x1c0e7fc; 0x180e63e; 0x1c0e604; 0x1ffe600; 0x1ffe700; 0x1aae3f0; 0x1c0e1f0;
   0x0; 0x0; 0x0; 0x0; 0x202000; 0x0; 0x0; 0x0;
   0x60000; 0xe07fc; 0x1c07fc; 0x1c0600; 0x7ffff00; 0x3fffa18; 0x70718; 0x38318;
   0xe18718; 0x61c318; 0x7de318; 0x3ff318; 0x1df75c; 0x38e0ff8; 0x1c70d54; 0x1c38c00;
   0xe1ec00; 0x70ffc0; 0x3c37fc; 0x3e063e; 0xff0604; 0x1e3c600; 0x3c1f710; 0x3807be0;
   0x1001be0; 0x0; 0x0; 0x0; 0x0; 0x202000; 0x0; 0x0;
   0x0; 0x1c0c000; 0x1c0c7fc; 0xc1c7fc; 0xe38600; 0x630700; 0x330218; 0x3ffe718;
   0x3ffe318; 0x730318; 0x630318; 0x730318; 0x630318; 0x730758; 0x3fffff8; 0x3fff7fc;
   0x638600; 0x738600; 0x6386e0; 0x7187fe; 0x61860c; 0x71c600; 0x60e600; 0x707700;
   0x607be0; 0x7031e0; 0x0; 0x0; 0x0; 0x0; 0x202000; 0x0;
   0x0; 0x0; 0x0; 0x1fffe0; 0x1fffe0; 0x180380; 0x1c0180; 0xffff80;
   0xffffc0; 0xc00000; 0xc7fff8; 0xc7fff8; 0x7e0000; 0x3c0000; 0xffcff8; 0xff8ff8;
   0xc30e30; 0xe38638; 0x1759758; 0x3ffbff8; 0x3553550; 0x32aba00; 0x37fdffc; 0x38018fc;
   0x1801800; 0x1f81f80; 0x1f80f80; 0x0; 0x0; 0x0; 0x0; 0x202000;
   0x0; 0x0; 0x0; 0x0; 0x3fc; 0x3fffbfc; 0x3fffb00; 0x300;
   0x398; 0x3fbf198; 0x3fbf198; 0x31b3198; 0x31a3198; 0x31b3198; 0x31a3198; 0x37b75dc;
   0x37a77f8; 0x35bf7fc; 0x3dab600; 0x3dbb700; 0x39ab3e0; 0x31b37fe; 0x31a330e; 0x31b3300;
   0x31a3300; 0x31b3380; 0x3dbb3f0; 0x1d9b1f0; 0x0; 0x0; 0x0; 0x0;
   0x202000; 0x0; 0x0; 0x0; 0xc0000; 0xc07fc; 0x3ffe7fc; 0x3ffe600;
   0x38c6700; 0x38c6618; 0x3ffe718; 0x3ffe318; 0x38c6718; 0x38c6318; 0x3ffe318; 0x2aaa318;
   0x75c; 0x3fffff8; 0x7fffffc; 0x18c00; 0x18c00; 0x1ff8fc0; 0x1ffcffc; 0x1800e3e;
   0x1c00604; 0xc00600; 0x1c00710; 0xfc03e0; 0x7c03e0; 0x0; 0x0; 0x0;
   0x0; 0x202000; 0x0; 0x0; 0x0; 0x1c0000; 0xe07fc; 0x1e07fc;
   0x1f0200; 0x3b0700; 0x738318; 0xe1c718; 0x1c0e318; 0x7fffb18; 0x37fbb18; 0x2551b18;
   0x318; 0x10c475c; 0x38c6ff8; 0x18ced54; 0x18cce00; 0x1dcce00; 0xc8cfe0; 0xf9c7fc;
   0x60863e; 0x700604; 0x300600; 0x3fff710; 0x3fff3e0; 0x1e0; 0x0; 0x0;
   0x0; 0x0; 0x202000; 0x0; 0x0; 0x0; 0x40000; 0xe02a8;
   0x1c07fc; 0x3ffe7fc; 0x3ffe700; 0x2aaa318; 0xc1c718; 0xe18318; 0xe18318; 0x638318;
   0x1755318; 0x3fff318; 0x7fff75c; 0xc0ff8; 0x1c0ffc; 0xc0c00; 0x3fffc00; 0x3ffefc0;
   0x15d57fc; 0xc063e; 0x1c0604; 0xc0600; 0x1c0700; 0xc03e0; 0x1c03e0; 0x0;
   0x0; 0x0; 0x0; 0x202000; 0x0; 0x0; 0x0; 0x0;
   0x1ffe2a8; 0x1fff7fc; 0x18003fc; 0x1d54300; 0x1ffe318; 0x1d54318; 0x1800318; 0x1fff318;
   0x1ffe318; 0x318; 0x3fff388; 0x7fff5dc; 0x30037f8; 0x75577fc; 0x3fff600; 0xffc600;
   0xe186e0; 0x7387fc; 0x3f063e; 0x1e0704; 0x3f0600; 0x1fff700; 0x3e1fbf0; 0x38071f0;
   0x0; 0x0; 0x0; 0x0; 0x202000; 0x0; 0x0; 0x0;
   0x60000; 0x2707fc; 0x7707fc; 0x6386a8; 0xe1c700; 0x1ffe318; 0x3ffe718; 0x320a318;
   0x770318; 0xe38318; 0x1c1c318; 0x382e318; 0x307775c; 0x32ff8; 0x1ff87fc; 0xffc600;
   0xe1e600; 0x73f680; 0x7f37fc; 0x3e063e; 0x1e0704; 0x3f8700; 0x1f3f700; 0x3e0fbf0;
   0x10031f0; 0x0; 0x0; 0x0; 0x0; 0x202000; 0x0; 0x0;
   0x0; 0xc1c000; 0xc182a8; 0xc1c7fc; 0xc186a8; 0x3fff700; 0x3ffe618; 0xc1c718;
   0xc18318; 0xffc718; 0xff8318; 0xc1c318; 0xc18318; 0xffc75c; 0xff8ff8; 0xc1cd54;
   0xc18c00; 0x7fffc00; 0x3ffffe0; 0x5555ffc; 0x630e3c; 0xe38604; 0xc18600; 0x1c1e710;
   0x380e7e0; 0x10063e0; 0x0; 0x0; 0x0; 0x0; 0x202000; 0x0;
   0x0; 0x0; 0x1c0000; 0xc02a8; 0x15d47fc; 0x3ffe7fc; 0x3ffe700; 0xe0618;
   0x3e0718; 0x7f0318; 0x1e3c718; 0x381e318; 0x1557318; 0x3fff318; 0x7fff75c; 0x1800ff8;
   0x1dfcffc; 0x19fcc00; 0x1d8cc00; 0x198cfc0; 0x1d8cffc; 0x19fce3e; 0x1dfc604; 0x180c600;
   0x1c04700; 0x1f803e0; 0xf003e0; 0x0; 0x0; 0x0; 0x0; 0x202000;
   0x0; 0x0; 0x0; 0x0; 0x1ffe7fc; 0x1fff7fc; 0x18c2600; 0x18c7700;
   0x18c2218; 0x1fff718; 0x1aea318; 0x18c7318; 0x18c2318; 0x1fff318; 0x1ffe318; 0xc075c].
Definition hanzi_data_496 : list N :=
  [0xc0ff8; 0x3fffffc; 0x3fffc00; 0x1f0c00; 0x3f0fc0; 0x7d87fc; 0xedc63e; 0x1ccf604;
   0x38c7e00; 0x30c3f00; 0xc03f0; 0xc01f0; 0x0; 0x0; 0x0; 0x0;
   0x202000; 0x0; 0x0; 0x0; 0x198000; 0x1d87fc; 0x19c7fc; 0x38c600;
   0x30c700; 0x3ffe218; 0x3ffe718; 0x187318; 0x187718; 0x187b18; 0x1fffb18; 0x1ffeb18;
   0x18675c; 0x186ff8; 0x186ffc; 0xbaec00; 0x1ffec00; 0xbaef80; 0x1867fc; 0x18663e;
   0x186604; 0x3ffe600; 0x3ffe700; 0x63e0; 0x63e0; 0x0; 0x0; 0x0;
   0x0; 0x202000; 0x0; 0x0; 0x0; 0x60000; 0x603fc; 0x1fff3fc;
   0xfff380; 0x1c60100; 0xc60198; 0x3fff998; 0x3fff998; 0x1c60198; 0xc60198; 0x1fff198;
   0xfff198; 0x605dc; 0x18633f8; 0x19fb7fc; 0x19fb300; 0x1b7b300; 0x1b6b3e0; 0x1b6f3fc;
   0x1a6fb3e; 0x1e6db04; 0x1e65b00; 0x1865f80; 0x1860df0; 0x1860df0; 0x0; 0x0;
   0x0; 0x0; 0x202000; 0x0; 0x0; 0x0; 0x60000; 0x703fc;
   0x3783fc; 0x71c300; 0xfdf300; 0x1fff318; 0x18ff318; 0x60318; 0x3fffb18; 0x3fffb98;
   0x73c398; 0xe1e398; 0x3ccf5dc; 0x38e3ff8; 0x3279ffc; 0x73e600; 0x3ce600; 0x18e26e0;
   0x1c7c7fe; 0xe3e60e; 0x784700; 0x3e0300; 0xfc300; 0x3f3e0; 0x61e0; 0x0;
   0x0; 0x0; 0x0; 0x202000; 0x0; 0x0; 0x0; 0x60000;
   0xe03fc; 0xc03fc; 0x1fff300; 0x1fff300; 0x1803318; 0x1803318; 0x1aab318; 0x1fff318;
   0xaab398; 0x3198; 0x2aab198; 0x3fff5dc; 0x3aef7f8; 0x336f7fc; 0x326f600; 0x336f700;
   0x3fffae0; 0x3ffdffe; 0x326db0e; 0x336db00; 0x326db00; 0x336df00; 0x3e6cff0; 0x1c0c1f0;
   0x0; 0x0; 0x0; 0x0; 0x202000; 0x0; 0x0; 0x0;
   0xe0000; 0xe63f8; 0x1fe63f8; 0xae6198; 0x15f75d8; 0x3fffcd8; 0x15755d8; 0x86e318;
   0x1e67718; 0x7e3bf8; 0x1fc1d8; 0x3fc18; 0x7c18; 0x2aaaa0; 0x1fffe0; 0x180000;
   0x1c0180; 0xc0180; 0x1ffffc0; 0x1aaaa80; 0x1d55554; 0x19ffffc; 0x1c00000; 0xfe0000;
   0x7e0000; 0x0; 0x0; 0x0; 0x0; 0x202000; 0x0; 0x0;
   0x0; 0x100000; 0x9fe3fc; 0x1dfe7fc; 0xf20300; 0x772300; 0x3337318; 0x3f3e318;
   0xe1c318; 0xc1c318; 0x1c0e318; 0x7fff318; 0x3ffb388; 0xc15dc; 0xc0ff8; 0xc07fc;
   0x3fff600; 0x3fff600; 0x1e06c0; 0x3e07fc; 0x77063e; 0xe38604; 0x1c18600; 0x3c1e700;
   0x38073f0; 0x10031f0; 0x0; 0x0; 0x0; 0x0; 0x202000; 0x0;
   0x0; 0x0; 0x0; 0x1fffbfc; 0x1fffbfc; 0xc33300; 0xe67300; 0x7ce318;
   0x39c31c; 0x1f8398; 0x1f039c; 0xffe38c; 0x7f7fd9c; 0x386398c; 0x1fff7fc; 0x1fff7fc;
   0x1c63754; 0x1863600; 0x1c63700; 0x1fff6e0; 0x1fff7fe; 0x66030e; 0xc60300; 0x1860300;
   0x3ffff00; 0x3fffbf0; 0x70001f0; 0x0; 0x0; 0x0; 0x0; 0x202000;
   0x0; 0x0; 0x0; 0x61550; 0x63ff8; 0x3ff1c40; 0x3ff8fe0; 0xc7fffc;
   0xe6fffc; 0x7cf3c0; 0x383be0; 0x7e1b78; 0x3ef831c; 0x3c1c3c4; 0x3aaaa0; 0x3fffe0;
   0x3aaa80; 0x380180; 0x180180; 0x1ffffc0; 0x1ffffc0; 0x1800000; 0x1800000; 0x1cffffc;
   0x1caaaa8; 0x1c00000; 0xfc0000; 0x7c0000; 0x0; 0x0; 0x0; 0x0;
   0x202000; 0x0; 0x0; 0x0; 0x60180; 0x62ba8; 0x1573ffc; 0x3ff0180;
   0x3ffdff8; 0xe3eba8; 0x67fffc; 0x763ffc; 0x3c00e0; 0x1c1fe0; 0x7f1870; 0x1e7d838;
   0x7c1df1c; 0x30aaaac; 0x1fffe0; 0x180280; 0x1c0180; 0xaeab80; 0x1ffffc0; 0x1800000;
   0x1c55554; 0xcffffc; 0xc00000; 0xef0000; 0x7f0000; 0x0; 0x0; 0x0;
   0x0; 0x202000; 0x0; 0x0; 0x0; 0x10000; 0x3e2a8; 0x3fdf3fc;
   0x3b833a8; 0x3313300; 0x331b318; 0x331b318; 0x31b3318; 0x31ff318; 0x39efb98; 0x1fc7998;
   0x1ee1998; 0x5dc; 0x1fff7f8; 0x1fff7fc; 0x18c3600; 0x18c3600; 0x1fff6e0; 0x1fff7fe;
   0x18c320e; 0x18c3700; 0x18c3300; 0x1fff300; 0x1fff3e0; 0x18031e0; 0x0; 0x0;
   0x0; 0x0; 0x202000; 0x0; 0x0; 0x0; 0x7000; 0xe000;
   0x3fffffc; 0x3fffffc; 0x386061c; 0x3ffffec; 0x17ffff4; 0x60600; 0x7fffe0; 0x2eaea0;
   0x60600; 0x3fffffc; 0x3fffffc; 0x380380; 0x1fffff0; 0x3eeaafc; 0x38c031c; 0xaeab80;
   0x1ffff80; 0xc00000; 0xc55550; 0xc7fff8; 0xe55550; 0x7e0000; 0x7e0000; 0x0;
   0x0; 0x0; 0x0; 0x202000; 0x0; 0x0; 0x0; 0x70000;
   0xe03fc; 0xc03fc; 0x1fff300; 0x1fff300; 0x1803318; 0x180331c; 0x1fff398; 0x1fff19c;
   0x318c; 0x319c; 0x3fff18c; 0x3fff7fc; 0x32cb7fc; 0x37df754; 0x3edbe00; 0x3cf3f00;
   0x30c1be0; 0x3cf1ffe; 0x3ffdb0e; 0x37cfb00; 0x30c1b00; 0x30c1f00; 0x3ef8ff8; 0x1c70df0;
   0x0; 0x0; 0x0; 0x0; 0x202000; 0x0; 0x0; 0x0;
   0x0; 0x3fff7fc; 0x3fff7fc; 0x330200; 0x330700; 0x1ffe318; 0x1fff318; 0x1b32318;
   0x1b37318; 0x1b32318; 0x1fff318; 0xaaa318; 0x155475c; 0x1ffeff8; 0x1ffeffc; 0xe00;
   0x3fffe00; 0x3ffffc0; 0x4c47fc; 0xecc63e; 0x1cce604; 0x18c7600; 0x30c7f10; 0x30fb3e0;
   0x781f0; 0x0; 0x0; 0x0; 0x0; 0x202000; 0x0; 0x0;
   0x0; 0x0; 0x1fff7fc; 0x1fff7fc; 0x18632a8; 0x1863700; 0x1fff318; 0x1fff718;
   0x1863318; 0x1fff318; 0x1fff318; 0x38318; 0x71c318; 0x3ff75c; 0xff7f8; 0xe757fc;
   0xc3c600; 0x1fff600; 0x3fffe80; 0x70d77fc; 0x6cc63e; 0xec6704; 0x1cc7300; 0x38c3b00;
   0x30f9bf0; 0x781f0; 0x0; 0x0; 0x0; 0x0; 0x202000; 0x0;
   0x0; 0x0; 0xe0000; 0x603fc; 0x3fff7fc; 0x3fff3a8; 0x3867300; 0x3ae3318;
   0x3ff7318; 0x3a3b318; 0x3b7f318; 0x39e3318; 0x39c7398; 0x3b73398; 0x3a1f5dc; 0x3fff7f8;
   0x3fff7fc; 0x40600; 0x8c0600; 0xdda6c0; 0x199b7fc; 0x3b1b23e; 0x3c1b704; 0x3c1bb00;
   0x2ff9b00; 0xff83f0; 0x5501f0; 0x0; 0x0; 0x0; 0x0; 0x202000].
Definition hanzi_data_497 : list N :=
  [0x0; 0x0; 0x0; 0x0; 0x1fff3fc; 0x1fff3fc; 0x1803300; 0x1803300;
   0x1fff318; 0x1fff318; 0xff3318; 0x1ff3318; 0x383398; 0x3ffb198; 0x3ffb198; 0x1835dc;
   0x1e37f8; 0x1e37fc; 0x3fff600; 0x3fff700; 0x1c33ae0; 0xcf1ffe; 0x3ff9b0e; 0x7f3fb00;
   0xc31b00; 0xc31f00; 0xf38de0; 0xf1cde0; 0x0; 0x0; 0x0; 0x0;
   0x202000; 0x0; 0x0; 0x0; 0x0; 0xaffbfc; 0x3fffffc; 0x1833300;
   0x19bf300; 0x1bbb398; 0xf37198; 0xe3f198; 0x1f33198; 0x1b7f198; 0x31ffd98; 0x10b0998;
   0x7d05dc; 0xfffff8; 0x7f7fc; 0x1868200; 0x1e7c700; 0x7e73e0; 0x1f3ffe; 0x3f830e;
   0x77c300; 0x3e67300; 0x1c63f80; 0x609f0; 0x601f0; 0x0; 0x0; 0x0;
   0x0; 0x202000; 0x0; 0x0; 0x0; 0x198000; 0x19983fc; 0x3f9fbfc;
   0xf9ab00; 0x3198300; 0x319fb18; 0x3f9fb18; 0xa18318; 0x1fff318; 0x1aeb398; 0x1d77198;
   0x1fff198; 0x18635dc; 0x1aeb7fc; 0x1fff7fc; 0x318600; 0x1fff600; 0x1fff6c0; 0x3187fc;
   0x3fffa3e; 0x3ffff04; 0x318300; 0x1f1f300; 0x3c07be0; 0x10011e0; 0x0; 0x0;
   0x0; 0x0; 0x202000; 0x0; 0x0; 0x0; 0x0; 0x1fffbfc;
   0x1fff9fc; 0x60180; 0x3fffd80; 0x3fffd98; 0x3060d98; 0x3f6fd98; 0x1f7f598; 0x60198;
   0x1f7f998; 0x60188; 0x1fc61dc; 0x1fc63f8; 0x18dfffc; 0x18dff00; 0x1fc7300; 0x18cf360;
   0x18dfb7c; 0x1fdfbbe; 0x1fd6d84; 0x18c6f80; 0x1fc6580; 0x1fc61f0; 0x18c60f0; 0x0;
   0x0; 0x0; 0x0; 0x202000; 0x0; 0x0; 0x0; 0x60000;
   0xe03fc; 0x3fffbfc; 0x3fffb00; 0x300; 0x1fbf318; 0x1db7318; 0x19a3318; 0x1fbf318;
   0xaba398; 0x175d198; 0x3fff198; 0x175d5dc; 0xaba7f8; 0x1fff7fc; 0x218600; 0x7fffe00;
   0x3fffee0; 0x31f87fc; 0x3b9e23e; 0x1f1ff04; 0xe0bb00; 0x1ffc300; 0x38fe3f0; 0x301c1f0;
   0x0; 0x0; 0x0; 0x0; 0x202000; 0x0; 0x0; 0x0;
   0x0; 0x3fffc0; 0x3fffc0; 0x3800c0; 0x38ffc0; 0x38ffc0; 0x38c1c0; 0x38c0c0;
   0x1fffffc; 0x1fffff8; 0x180001c; 0x1aaaa98; 0x1bfffdc; 0xbaaac8; 0x3000c0; 0x3fffc0;
   0x3fffc0; 0x3000c0; 0x3000c0; 0x3fffc0; 0x3fffc0; 0x3000c0; 0x3000c0; 0x3f00c0;
   0x1f00c0; 0x0; 0x0; 0x0; 0x0; 0x202000; 0x0; 0x0;
   0x0; 0x0; 0x7f8ff8; 0x7f8ff8; 0x638c18; 0x638df8; 0x638cf8; 0x618d98;
   0x618c98; 0x3e1dffc; 0x3c0dffc; 0xf80c; 0x1aac; 0x1ffcff8; 0x1ffcc38; 0x1c1cc38;
   0xe18ff8; 0xe38ff8; 0x730c38; 0x7f0ff8; 0x3e0ff8; 0x1e0c38; 0x7f0c38; 0x1f7cc38;
   0x3c1efb8; 0x1006738; 0x0; 0x0; 0x0; 0x0; 0x202000; 0x0;
   0x0; 0x0; 0x1c0000; 0x1c0ff8; 0x1c0ff8; 0x3e0c18; 0x770df8; 0x670cf8;
   0xe38d98; 0x1c38c98; 0x3c1dffc; 0x780fffc; 0x363780c; 0x631aac; 0x631ffc; 0x630e18;
   0x630e18; 0x638ff8; 0x630ff8; 0x638e18; 0x638ff8; 0x638ff8; 0x61ce18; 0x61ce18;
   0x61ce18; 0x60ef98; 0x604798; 0x0; 0x0; 0x0; 0x0; 0x202000;
   0x0; 0x0; 0x0; 0xc00000; 0x1f00ff8; 0x1ffcff8; 0x1fcc18; 0x19cdf8;
   0x18ccf8; 0x18cd98; 0x18cc98; 0x18dffc; 0x18dffc; 0x3ffd80c; 0x3ffdaac; 0x30cff8;
   0x30ce18; 0x30ce18; 0x30cff8; 0x30cff8; 0x30ce18; 0x70cff8; 0x666cff8; 0x66cce18;
   0x2e8ce18; 0x7dfce18; 0x3dbef98; 0x1906718; 0x0; 0x0; 0x0; 0x0;
   0x202000; 0x0; 0x0; 0x0; 0x1c0000; 0x180ff8; 0x1c0ff8; 0x180c18;
   0x1c0df8; 0x180df8; 0x7ffcd98; 0x3ffcd98; 0x15d7ffc; 0x183ffc; 0x1c300c; 0x183aac;
   0x1c1ff8; 0x180c18; 0x1ffdc18; 0x1ff8ff8; 0x181dff8; 0x1818c18; 0x181dff8; 0x1818ff8;
   0x181dc18; 0x1ab8c18; 0x1ffdc18; 0x1ff8f18; 0x181c718; 0x0; 0x0; 0x0;
   0x0; 0x202000; 0x0; 0x0; 0x0; 0xc0000; 0xc0ff8; 0x1c0ff8;
   0x180c18; 0x7ffedf8; 0x3ffecf8; 0xe0d98; 0x860c98; 0x1c71ffc; 0xc31ffc; 0xffd80c;
   0x7fdaac; 0x17fdffc; 0x3380e18; 0x39e0e18; 0x18f0ff8; 0x1c7cff8; 0xe1ee18; 0x706ff8;
   0x780ff8; 0xfe0e18; 0x1cf8e18; 0x387ce18; 0x701ef98; 0x1006798; 0x0; 0x0;
   0x0; 0x0; 0x202000; 0x0; 0x0; 0x0; 0x1800000; 0x3fe0ff8;
   0x1ffcff8; 0x3ce18; 0x1cff8; 0xcef8; 0x1cf98; 0x3ffce98; 0x3ffdffc; 0xdffc;
   0x1d80c; 0xdaac; 0x1dffc; 0x3fece18; 0x3ffce18; 0x386cff8; 0x386cff8; 0x386ce18;
   0x386cff8; 0x386eff8; 0x3d6ee18; 0x3fe6e18; 0x3fe7e18; 0x3867f98; 0x1863798; 0x0;
   0x0; 0x0; 0x0; 0x202000; 0x0; 0x0; 0x0; 0x70000;
   0x30ff8; 0x1030ff8; 0x3ff8c18; 0x1ffcdf8; 0x181cdf8; 0x1c3fd98; 0xe36d98; 0x771ffc;
   0x3e1ffc; 0x1c180c; 0x7f1aac; 0x1f7cff8; 0x7c3ec18; 0x755ec18; 0x1ffeff8; 0x1ffcff8;
   0x180cc18; 0x180cff8; 0x180cff8; 0x180cc18; 0x1ffcc18; 0x1ffcc18; 0x1aacf18; 0x180c718;
   0x0; 0x0; 0x0; 0x0; 0x202000; 0x0; 0x0; 0x0;
   0xe0000; 0xe0ff8; 0x1574ff8; 0x1ffcc18; 0x1ffcdf8; 0x198ccf8; 0x19ccd98; 0x1ffcc98;
   0x1ffdffc; 0x18cdffc; 0x18cd80c; 0x1aedaac; 0x1ffc7f8; 0x3e0618; 0x3f0618; 0x3bc7f8;
   0x39e7f8; 0x2bae618; 0x3fff7f8; 0x2baa7f8; 0x380618; 0x380618; 0x380618; 0x380798;
   0x380798; 0x0; 0x0; 0x0; 0x0; 0x202000; 0x0; 0x0;
   0x0; 0x0; 0x1ffcff8; 0x1ffcff8; 0x18ccc18; 0x18ccdf8; 0x1aecdf8; 0x1ffcd98;
   0x1aecd98; 0x18cdffc; 0x18cdffc; 0x1ffd80c; 0x1ffdaac; 0x1c0ff8; 0xc0c18; 0x3fffc18;
   0x3ffeff8; 0x3e0ff8; 0x3e0c18; 0x7f0ff8; 0xed8ff8; 0x1ddcc18; 0x38cec18; 0x71c7c18;
   0x20c2f18; 0x1c0718; 0x0; 0x0; 0x0; 0x0; 0x202000; 0x0;
   0x0; 0x0; 0xe0000; 0xc0ff8; 0x15d4ff8; 0x3ffec18; 0x3556df8; 0x3026cf8;
   0x3076d98; 0xff8c98; 0xff9ffc; 0xe1dffc; 0x73f80c; 0x3e3aac; 0x1e0ff8; 0x3e0c18].
Definition hanzi_data_498 : list N :=
  [0x1f7cc18; 0x3e1fff8; 0x3fffff8; 0xffcc18; 0xd5cff8; 0xc0cff8; 0xc1cc18; 0xc0cc18;
   0xffcc18; 0xffcf98; 0xc1c718; 0x0; 0x0; 0x0; 0x0; 0x202000;
   0x0; 0x0; 0x0; 0x0; 0x1ff8ff0; 0x1ffcff0; 0x1988c30; 0x19dcdf0;
   0x1ff8cf0; 0x1ffcdb0; 0x1988cb0; 0x19ddffc; 0x1ff9ffc; 0x1ffd80c; 0x18180c; 0x1c1ffc;
   0x3ffeeb0; 0x3ffec30; 0x308eff0; 0x37ceff0; 0x368ec30; 0x37ceff0; 0x3ffeff0; 0x3c7ec30;
   0x300ec30; 0x300ec30; 0x3c0efb0; 0x1c0e730; 0x0; 0x0; 0x0; 0x0;
   0x202000; 0x0; 0x0; 0x0; 0x1c0000; 0x18ce7f8; 0x1ddc7f8; 0xed8618;
   0x7d86f8; 0x3fff6f8; 0x3fff6d8; 0x3e0698; 0x7f0ffc; 0xef8ffc; 0x3ddec0c; 0x38c6eac;
   0x1e27f8; 0x60618; 0x1575618; 0x3fff7f8; 0x3fff7f8; 0xe18618; 0x61c7f8; 0x73e7f8;
   0x3f0618; 0x7e0618; 0x1ffc618; 0x383f798; 0x3007398; 0x0; 0x0; 0x0;
   0x0; 0x202000; 0x0; 0x0; 0x0; 0xc0000; 0xc0ff8; 0x3fffff8;
   0x3ffec18; 0x3007df8; 0x3232df8; 0x3737d98; 0x3ffcd98; 0x1ffdffc; 0x231ffc; 0x55580c;
   0xffdaac; 0x1ffcff8; 0x80cc18; 0x1cccc18; 0x8ccff8; 0x1cccff8; 0x8ccc18; 0x1dccff8;
   0x9ecff8; 0x61f0c18; 0x21b8c18; 0x71bcc18; 0x3f8ff18; 0x3f07718; 0x0; 0x0;
   0x0; 0x0; 0x202000; 0x0; 0x0; 0x0; 0xc0000; 0xc07f8;
   0x1c07f8; 0x3ffe618; 0x3fff6f8; 0x30066f8; 0x3707698; 0x3ffe698; 0x7fdffc; 0x18ffc;
   0x1dc0c; 0x2ab8aac; 0x3ffc7f8; 0xbb8618; 0x71c618; 0x3187f8; 0x71c7f8; 0x3fff618;
   0x3fff7f8; 0x107f8; 0x738618; 0xe3c618; 0x1c1e618; 0x3807798; 0x1003798; 0x0;
   0x0; 0x0; 0x0; 0x202000; 0x0; 0x0; 0x0; 0x0;
   0x3fbf7f8; 0x3fff7f8; 0x3022618; 0x33f76f8; 0x372e6f8; 0x3e746d8; 0x3e3c6d8; 0x37ffffc;
   0x31a2ffc; 0x30c1c0c; 0x1e0eac; 0x7f87f8; 0x1e1e618; 0x7dcfe18; 0x30e3ff8; 0x77d7f8;
   0x38c618; 0x19c07f8; 0x1cf87f8; 0xf1c618; 0x380618; 0x1f0618; 0x7e798; 0x1e398;
   0x0; 0x0; 0x0; 0x0; 0x202000; 0x0; 0x0; 0x0;
   0x0; 0x3fff7f8; 0x3fff7f8; 0x3333618; 0x33376f8; 0x3bbb6f8; 0x3fff6d8; 0x186d8;
   0x1dffc; 0x3ffeffc; 0x3fffc0c; 0x3823ffc; 0x3073ff8; 0x3bff618; 0x3bfe618; 0x3b267f8;
   0x3b767f8; 0x3bfe618; 0x1bfe7f8; 0x19a07f8; 0x1b70618; 0x1bff618; 0x1f7f618; 0x1f00798;
   0x1f00798; 0x0; 0x0; 0x0; 0x0; 0x202000; 0x0; 0x0;
   0x0; 0x1c0000; 0xc07f8; 0x3ff17f8; 0x3ff3618; 0xe76f8; 0x3fe66f8; 0x3ffe6d8;
   0x6306d8; 0x3fd9ffc; 0x3fd8ffc; 0x1c0c; 0x1fefffc; 0x1fef7f8; 0x186e618; 0x1fee618;
   0x186e7f8; 0x1fee7f8; 0x1fee618; 0x186e7f8; 0x186e7f8; 0x1e6e618; 0x83f618; 0x75f3e18;
   0x3fe1f98; 0x7f81798; 0x0; 0x0; 0x0; 0x0; 0x202000; 0x0;
   0x0; 0x0; 0x7000; 0x6000; 0x6000; 0x3fffffc; 0x3fffffc; 0x0;
   0x3fffc0; 0x3fffc0; 0x3001c0; 0x3000c0; 0x3fffc0; 0x3fffc0; 0x0; 0x1fffff8;
   0x1fffff8; 0x1800018; 0x1cfff18; 0x18fff18; 0x1ce0318; 0x18e0318; 0x1cfff18; 0x18fff18;
   0x1c00318; 0x1f00218; 0xf00018; 0x0; 0x0; 0x0; 0x0; 0x202000;
   0x0; 0x0; 0x0; 0x0; 0xc02aa0; 0x1e07ff0; 0xf02af0; 0x7c0070;
   0x1e2af0; 0xfbff0; 0x32af0; 0x3800070; 0x1c02af0; 0x1f03ff0; 0x780070; 0x3c0070;
   0xf7ffe; 0x1077ffe; 0x70200c0; 0x38000c0; 0x1c008e0; 0x1e01860; 0xf83870; 0x7c7d30;
   0x1f7ff8; 0x777f8; 0x26008; 0x0; 0x0; 0x0; 0x0; 0x0;
   0x202000; 0x0; 0x0; 0x0; 0x400000; 0xe07ff0; 0x7c7ff0; 0x1f2ab0;
   0x1873ff0; 0x1e00030; 0x783ff0; 0x3e2ab0; 0x107fffc; 0x380fffc; 0x1f01c60; 0x7c3830;
   0x1ffffc; 0x362f8; 0x1555554; 0x3fffffc; 0x3fffffc; 0x30600; 0x30700; 0x1030700;
   0x3030380; 0x30303c0; 0x3ff01f0; 0x3ff007c; 0x1fc001c; 0x0; 0x0; 0x0;
   0x0; 0x202000; 0x0; 0x0; 0x0; 0x400000; 0xe03ff0; 0x7c7ff0;
   0xf2ab0; 0x1c73ff0; 0xe00030; 0x7c3ff0; 0x1f0030; 0x306fffc; 0x3c0fffc; 0xf01c70;
   0x3e3ff8; 0xf7ff8; 0x6008; 0x7060c0; 0x7fe0c0; 0x7fffc0; 0x607ffc; 0x7060fc;
   0x3e60c0; 0x33c60c0; 0x38000c0; 0x3d555c0; 0x1ffff80; 0x7fff00; 0x0; 0x0;
   0x0; 0x0; 0x202000; 0x0; 0x0; 0x0; 0x400000; 0xf07ff0;
   0x7c5570; 0xfbff0; 0x1c33ff0; 0xe02ab0; 0x7c3ff0; 0xf0030; 0x380fffc; 0x1e0aae8;
   0x7c1870; 0x1fbff8; 0x1177f8; 0x3f8008; 0x1fffe0; 0x3fe0; 0xfff000; 0xbffff8;
   0x77f8; 0x1ffb000; 0x1fffff8; 0x30033fc; 0x3007000; 0x3fff000; 0x1ffc000; 0x0;
   0x0; 0x0; 0x0; 0x202000; 0x0; 0x0; 0x0; 0x400000;
   0xf07ff0; 0x7e5570; 0x8fbff0; 0x1c13ff0; 0xf02ab0; 0x7f3ff0; 0x10f0030; 0x3c0fffc;
   0xe03ae8; 0x7c3d70; 0x1fbff8; 0x32058; 0xfffff8; 0xfffffc; 0xe00e00; 0x7f07c0;
   0x3f03fc; 0x7ffffc; 0x7fffe0; 0x6000e0; 0x6000e0; 0x7fffe0; 0x7fffe0; 0x6000e0;
   0x0; 0x0; 0x0; 0x0; 0x202000; 0x0; 0x0; 0x0;
   0xc00000; 0xf07ff0; 0x7c5570; 0xfbff0; 0x1c73ff0; 0xe02ab0; 0x7c3ff0; 0xf0030;
   0x386fffc; 0x1e0aae8; 0xfc1c70; 0x3fbfb8; 0x77ffc; 0x1a308; 0x18300; 0xc18328;
   0x1f1bf38; 0x3fbf38; 0xf8338; 0x1018338; 0x7018338; 0x301ab38; 0x3fffffc; 0x3ff0ffc;
   0x1c; 0x0; 0x0; 0x0; 0x0; 0x202000; 0x0; 0x0;
   0x0; 0x400000; 0xf07ff0; 0x7c5570; 0xfbff0; 0x1c33ff0; 0xf00030; 0x7f3ff0;
   0x10f0030; 0x3c0fffc; 0xe0bae8; 0x7f3d70; 0xffff8; 0x16178; 0x2aeaa0; 0x7fffe0;
   0x606060; 0x7fffe0; 0x7fffe0; 0x706060; 0x2eaeae8; 0x3fffffc; 0x600060; 0x700060;
   0x7e0060; 0x3e0060; 0x0; 0x0; 0x0; 0x0; 0x202000; 0x0].
Definition hanzi_data_499 : list N :=
  [0x0; 0x0; 0x400000; 0xe07ff0; 0x7c7ff0; 0xfbff0; 0x3c33ff0; 0xf00030;
   0x7f3ff0; 0x10f0030; 0x3c0fffc; 0x1e0fffc; 0x7f3870; 0xf3ff8; 0x37ff8; 0x301c0;
   0x300e0; 0x3fffee0; 0x3fffe70; 0xfc078; 0x1fe07e; 0x3b706c; 0xf33c64; 0x3c31e60;
   0x3830760; 0x30260; 0x30060; 0x0; 0x0; 0x0; 0x0; 0x202000;
   0x0; 0x0; 0x0; 0x400000; 0xe07ff0; 0x7c7ff0; 0xfbff0; 0x1c73ff0;
   0xe00030; 0x7c3ff0; 0x11f0030; 0x3c6fffc; 0x1e0aae8; 0x7c3870; 0x1fbff8; 0x765f8;
   0x6000; 0x3fffffc; 0x3fffffc; 0x6000; 0x1fffff0; 0x1555550; 0x2aaaa0; 0x7fffe0;
   0x600060; 0x755560; 0x7fffe0; 0x700060; 0x0; 0x0; 0x0; 0x0;
   0x202000; 0x0; 0x0; 0x0; 0x400000; 0xf07ff0; 0x7c5570; 0xfbff0;
   0x1c13ff0; 0xf02ab0; 0x7f3ff0; 0x10e0030; 0x3c0fffc; 0xf0bae8; 0x7f7f70; 0xf7ff8;
   0x116158; 0x386180; 0x1c61c0; 0x3c63e0; 0xf76770; 0x1c3ee38; 0x1d57558; 0x7fffe0;
   0x557540; 0x6000; 0x3fffffc; 0x3fffffc; 0x0; 0x0; 0x0; 0x0;
   0x0; 0x202000; 0x0; 0x0; 0x0; 0xc00000; 0xf03ff0; 0x7f5570;
   0x8fbff0; 0x1e11570; 0x783ff0; 0x11fbff0; 0x383aab8; 0x1f0fffc; 0x7e3870; 0x1f7ffc;
   0x333f8; 0x1557550; 0x1fffff8; 0x1d5555c; 0x19fff98; 0x19fffdc; 0x0; 0x1fffffc;
   0x1fffff8; 0x1c6380; 0x3861e0; 0xf060f0; 0x1c07e38; 0x7c10; 0x0; 0x0;
   0x0; 0x0; 0x202000; 0x0; 0x0; 0x0; 0xc05550; 0xf07ff0;
   0x3f0070; 0x8fbff0; 0x1f10070; 0x3e3ff0; 0x31f5574; 0x1c2fffc; 0xfc1c70; 0x3fbfb8;
   0x77ffc; 0x386188; 0x1c7380; 0xfffff0; 0x1557d50; 0x2aabea8; 0x3fffffc; 0x1c0780;
   0x7fffe0; 0x3effff8; 0x3ce01bc; 0x67f180; 0x714180; 0x3fff80; 0x1fff00; 0x0;
   0x0; 0x0; 0x0; 0x202000; 0x0; 0x0; 0x0; 0x400000;
   0xf87ff0; 0x3f0070; 0x87bff0; 0x1f00070; 0x7e3ff0; 0x11f0070; 0x3c07ffc; 0x1f81c70;
   0x3fbff8; 0x7fff8; 0xc0e80; 0xc1ff8; 0x38c81b8; 0x18dc180; 0x18cdffc; 0xccdffc;
   0xec63c0; 0x5e47e0; 0x3e0df0; 0x371db8; 0x63819c; 0x1e1e18c; 0x380f180; 0x3003180;
   0x0; 0x0; 0x0; 0x0; 0x202000; 0x0; 0x0; 0x0;
   0xc01550; 0xf83ff0; 0x1f9570; 0x1e33ff0; 0x7c3ff0; 0x30f3ff0; 0x1e17ffc; 0xfe3ae8;
   0x1fbffc; 0x63f8; 0x1fffff8; 0x1fffff8; 0x3fffc0; 0x3fffc0; 0x3fffc0; 0x3fffc0;
   0x3fffc0; 0x3fffc0; 0x3fffc0; 0x3fffc0; 0x7fffffc; 0x3fffffc; 0x7f07c0; 0x1f803f8;
   0x1c00078; 0x0; 0x0; 0x0; 0x0; 0x202000; 0x0; 0x0;
   0x0; 0xc05550; 0xf07ff0; 0x3f0070; 0x87bff0; 0x1f00070; 0x7e3ff0; 0x31f5570;
   0x3c07ffc; 0xf85d74; 0x3f9fb8; 0x77ff8; 0xe000; 0x1fffffc; 0x1fffff8; 0x19f501c;
   0x1bfff98; 0x180; 0xffff80; 0xffff80; 0x60180; 0x3fffffc; 0x2aaaaa0; 0x7f0f80;
   0x3f003f8; 0x3000078; 0x0; 0x0; 0x0; 0x0; 0x202000; 0x0;
   0x0; 0x0; 0x405550; 0xf87ff0; 0x3f1570; 0x1873ff0; 0x1f11570; 0x3e3ff0;
   0x38f7ffc; 0x1e07ffc; 0x7f3d70; 0xf7ff8; 0x7ffff0; 0x3fffe0; 0x7fffe0; 0x3aaae0;
   0x7fffe0; 0x2aaa80; 0x1fffff8; 0xc30c38; 0x1fffff8; 0x0; 0x7ffff8; 0x1e0700;
   0x7fc00; 0x3fffffc; 0x1fc07fc; 0x0; 0x0; 0x0; 0x0; 0x202000;
   0x0; 0x0; 0x0; 0xc01550; 0xf83ff0; 0x1f9570; 0x1e33ff0; 0x7c3ff0;
   0x30fbff0; 0x1c17ffc; 0xf83ae8; 0x1ffff8; 0x22f8; 0x7ffff0; 0x630c60; 0x7ffff0;
   0x7fffe0; 0x3fffffc; 0x3fffffc; 0x7fffe0; 0x7fffe0; 0x7555e0; 0xffffe0; 0x1f1dfc0;
   0x3f83fc; 0x7e7f1c; 0x3f0ffc0; 0x1000580; 0x0; 0x0; 0x0; 0x0;
   0x202000; 0x0; 0x0; 0x0; 0x405550; 0x787ff0; 0x1f1570; 0x1833ff0;
   0xf03ff0; 0x3e3ff0; 0x387fffc; 0x1e0fffc; 0x7f3ffc; 0x2feff8; 0x3d71c0; 0x3838e0;
   0x75f5d0; 0xfffff0; 0x1c7fe38; 0xc3fe38; 0x1fffff8; 0xfffff8; 0x7777b0; 0x6e6e30;
   0x6777b0; 0x26e6630; 0x7ff7f70; 0x3dffff8; 0x3807070; 0x0; 0x0; 0x0;
   0x0; 0x202000; 0x0; 0x0; 0x0; 0x441010; 0xce7830; 0x1c76730;
   0xc38e30; 0x1cdfc30; 0xdcf3f0; 0x1f1f730; 0xc3ba30; 0x1cf3e30; 0xdc67b0; 0x1c9c3b0;
   0xc08030; 0x1fffff0; 0xfffff0; 0x60; 0x200060; 0x7f0060; 0x3ff860; 0x1ffe0;
   0x8003e0; 0x1800060; 0x18000e0; 0x1ffffe0; 0xffffc0; 0x555500; 0x0; 0x0;
   0x0; 0x0; 0x202000; 0x0; 0x0; 0x0; 0x0; 0x3fffffc;
   0x3fffffc; 0x0; 0x155540; 0x3fffc0; 0x3555c0; 0x3000c0; 0x3000c0; 0x3fffc0;
   0x3fffc0; 0x0; 0x1fffff8; 0x1fffff8; 0x1860718; 0x1860e18; 0x1870c18; 0x19fffd8;
   0x19fffd8; 0x1806018; 0x1806018; 0x1806018; 0x1806018; 0x1f06018; 0x1f04018; 0x0;
   0x0; 0x0; 0x0; 0x202000; 0x0; 0x0; 0x0; 0x1c0;
   0xffe080; 0xfffffc; 0xc66ff8; 0xc661c0; 0xc67ffc; 0xce7ffc; 0x10f03e0; 0x30fc770;
   0x1fdfe3e; 0x150741c; 0x3fffffc; 0x3fffffc; 0x3fffc0; 0x3fffc0; 0x3aaac0; 0x3fffc0;
   0xaaaaa8; 0x1fffff8; 0x1860e38; 0x1c31c38; 0x19fffb8; 0x1d57538; 0x1f86038; 0x1f06038;
   0x0; 0x0; 0x0; 0x0; 0x202000; 0x0; 0x0; 0x0;
   0x0; 0x630000; 0x3f7dffc; 0x3bedffc; 0x39cc000; 0x3becff8; 0x3f7cff8; 0x3a2cc18;
   0x3ffcc18; 0x3ffcff8; 0x670ff8; 0xe38000; 0x38ddffc; 0x30efff8; 0x1ff5e6c; 0x1ff9a68;
   0x1d5db4c; 0xc3fb08; 0x675fec; 0x3e1aa8; 0x3c198c; 0x7e1888; 0x1f7998c; 0x383fe88;
   0x3005c0c; 0x0; 0x0; 0x0; 0x0; 0x202000; 0x0; 0x0;
   0x0; 0x6000; 0x1fb6df8; 0x1837d80; 0x1f869f8; 0x15bff58; 0xa8f2b8; 0x1fdf9fc;
   0x1836d80; 0x1f065f0; 0x2000; 0x3fffffc; 0x0; 0x7fffe0; 0x7000e0; 0x7fffe0].
Definition hanzi_data_500 : list N :=
  [0x7fffe0; 0x1555550; 0x1fffff8; 0x1d75778; 0x1830c38; 0x1dffff8; 0x19fffb8; 0x1c06038;
   0x1f86038; 0x1f86038; 0x0; 0x0; 0x0; 0x0; 0x202000; 0x0;
   0x0; 0x0; 0x7000; 0x3000; 0x557d40; 0x7fffe0; 0x7ffff0; 0x606060;
   0x707070; 0x6aeae0; 0x7ffff0; 0x606060; 0x707070; 0x607060; 0x7ffff0; 0x7fffe0;
   0x3800; 0x18f800; 0x6cfc00; 0x6cee00; 0xf6ef00; 0xfee700; 0x786e3c0; 0x300e1e0;
   0x3ffc0f8; 0x3ffc03c; 0x1550018; 0x0; 0x0; 0x0; 0x0; 0x202000;
   0x0; 0x0; 0x0; 0xe00380; 0xe00180; 0xe315d4; 0xef3ffc; 0xfe7ffc;
   0xe8318c; 0xe0719c; 0xe13ffc; 0xe3fffc; 0xef318c; 0xee719c; 0xe0318c; 0x3e07ffc;
   0x3fe3ffc; 0xfff5c0; 0xe3b2c0; 0xe077c0; 0xe0dae0; 0x1e1ff60; 0x6e1fa70; 0x7e10770;
   0x3000238; 0x3ffff1c; 0x1fffe0c; 0x4; 0x0; 0x0; 0x0; 0x0;
   0x202000; 0x0; 0x0; 0x0; 0xe0000; 0xe0000; 0x70554; 0x1fff7f8;
   0x1fff7fc; 0x18c3000; 0x18c7000; 0x1aeb000; 0x1fff554; 0x18e3ffe; 0x1867ffe; 0x1863060;
   0x1fff070; 0x1fff330; 0x470330; 0x6f0638; 0xef0618; 0x1ef8ff8; 0x13f8ffc; 0x3ff8c3c;
   0x37fc400; 0x20ee000; 0x75c7000; 0x3fc3c00; 0x1501800; 0x0; 0x0; 0x0;
   0x0; 0x202000; 0x0; 0x0; 0x0; 0x4e0180; 0xee0180; 0x1ce01c0;
   0x38e1ffc; 0x1575ffc; 0x3ffd98c; 0x3ffd9cc; 0x61aac; 0x71ffc; 0x3fe188c; 0x1ff19cc;
   0x18318cc; 0x1c79ffc; 0xcf9ffc; 0xfddbc0; 0x78fbc0; 0x70fbc0; 0xf86b60; 0x1dc4f60;
   0x38fff60; 0x3075f30; 0x6000338; 0x7ffff1c; 0x3fffe0e; 0x1555404; 0x0; 0x0;
   0x0; 0x0; 0x202000; 0x0; 0x0; 0x0; 0xe00e0; 0x60060;
   0x70060; 0x1fff860; 0x1fffbfc; 0x1861bf8; 0x1c61b1c; 0x1aebb08; 0x1fffb1c; 0x1861b08;
   0x1c71b1c; 0x1831bf8; 0x1fffbfc; 0x1fffb08; 0x67031c; 0x678308; 0xe7831c; 0x1b7c308;
   0x1f6c3fc; 0x3fee3f8; 0x116701c; 0x2063808; 0x3561e14; 0x3fe0f00; 0x1540600; 0x0;
   0x0; 0x0; 0x0; 0x202000; 0x0; 0x0; 0x0; 0x180180;
   0x180180; 0x1801c0; 0x181ffc; 0x1ff9ffc; 0x1ff998c; 0x1819cc; 0x181bac; 0x181ffc;
   0x3ffd98c; 0x3ffd9cc; 0x3c188c; 0x7e1ffc; 0xfe1ffc; 0xdb1bc0; 0x19b9bc0; 0x399ffe0;
   0x318ef60; 0x118ff60; 0x187f30; 0x1186330; 0x3000338; 0x3d5571c; 0x3ffff0e; 0x1555404;
   0x0; 0x0; 0x0; 0x0; 0x202000; 0x0; 0x0; 0x0;
   0x580180; 0xd80180; 0x1d801c0; 0x3981ffc; 0x15d1ffc; 0x3ff988c; 0x3ff99cc; 0x199aac;
   0x3199ffc; 0x399988c; 0x19199cc; 0x1b1988c; 0x1f19ffc; 0xf19ffc; 0x7d9bc0; 0x27f9bc0;
   0x377fbc0; 0x278ebe0; 0x3fc6f60; 0x3cfff70; 0x1875f30; 0x6000338; 0x7ffff1c; 0x3fffe0e;
   0x1555404; 0x0; 0x0; 0x0; 0x0; 0x202000; 0x0; 0x0;
   0x0; 0x0; 0x3fffff8; 0x3fffff8; 0x8018; 0x39c018; 0x70c018; 0x3ffffd8;
   0x3ffffd8; 0xe7818; 0x3c3c18; 0x1f1cf18; 0x3e0e3f8; 0x1ffffd8; 0xffff98; 0xe1c398;
   0xffff98; 0xe0c398; 0xeaeb98; 0xffff98; 0x3b6018; 0x5b701c; 0xff3c0c; 0x3871f8c;
   0x3ff03ee; 0x1ff0044; 0x0; 0x0; 0x0; 0x0; 0x202000; 0x0;
   0x0; 0x0; 0x180180; 0x1988180; 0x199c1c0; 0x1999ffc; 0x1db9ffc; 0xdb188c;
   0x15d19cc; 0x1ff9aac; 0x1d59ffc; 0x181988c; 0x1ff99cc; 0x1ff98cc; 0x1819ffc; 0x1819ffc;
   0x1ff9bc0; 0x1ff9be0; 0x181bb60; 0x181ab60; 0x181ff70; 0x1f1ff30; 0x1f1c338; 0x3000318;
   0x3ffff1c; 0x3ffff0e; 0x1555404; 0x0; 0x0; 0x0; 0x0; 0x202000;
   0x0; 0x0; 0x0; 0x1c0; 0x2aaa0c0; 0x3ffe0c0; 0x260ffc; 0x761ffc;
   0x2608cc; 0x3ffdccc; 0x3aecaec; 0x336dffc; 0x326c8cc; 0x336dccc; 0x336c8cc; 0x377dffc;
   0x37ecffc; 0x3dfcdc0; 0x3dbcdc0; 0x3d9dde0; 0x309d5e0; 0x300d7f0; 0x3c0ffb0; 0x7c0f7b0;
   0x20001b8; 0x7ffff9c; 0x3ffff0e; 0x4; 0x0; 0x0; 0x0; 0x0;
   0x202000; 0x0; 0x0; 0x0; 0x60180; 0x360180; 0x7701c0; 0x631ff8;
   0x3ff1ffc; 0x3ff9988; 0x73d99c; 0x33dba8; 0x177fffc; 0x1fff988; 0x1ffd9dc; 0x339988;
   0x739ffc; 0x1ff9ff8; 0x1ff9bc0; 0x338bc0; 0x73bfc0; 0x33afe0; 0x3ffffe0; 0x3fffff0;
   0x703e7b0; 0x30003b8; 0x3d5571c; 0x3ffff0e; 0x1fffc04; 0x0; 0x0; 0x0;
   0x0; 0x202000; 0x0; 0x0; 0x0; 0x1c0; 0x180; 0x3ffc0c0;
   0x3aacffc; 0x366dffc; 0x326c88c; 0x334ddcc; 0x334caac; 0x37fdffc; 0x308c88c; 0x31cdccc;
   0x37fc8cc; 0x37fdffc; 0x306cffc; 0x306ddc0; 0x32ec9e0; 0x37edde0; 0x300d5e0; 0x300fff0;
   0x3e0ffb0; 0x1e0f1b8; 0x3000198; 0x355579c; 0x3ffff0e; 0x555404; 0x0; 0x0;
   0x0; 0x0; 0x202000; 0x0; 0x0; 0x0; 0x1c0c00; 0xc0fe0;
   0xc07fc; 0x1ffe188; 0x1ffe180; 0x18cfffc; 0x19cfffc; 0x1aee3e0; 0x1ffe7f0; 0x18cfdb8;
   0x18cf99c; 0x18ce18c; 0x1ffe044; 0x1ffe0c0; 0xd61ffc; 0xde1ffc; 0x1df1c70; 0x37b0c30;
   0x37b0678; 0x3fb87f0; 0x19c7c0; 0x218cfc0; 0x718fcf0; 0x3f8783c; 0x1f0201c; 0x0;
   0x0; 0x0; 0x0; 0x202000; 0x0; 0x0; 0x0; 0xc01c0;
   0xc00c0; 0x3ffe0c0; 0x3ffeffc; 0x1e1dffc; 0x1b68ccc; 0x19dddcc; 0x1be8eec; 0x1a7dffc;
   0x1ff8ccc; 0x1ffdccc; 0x80ccc; 0x1ffdffc; 0x1ffcffc; 0x18ccdc0; 0x1b6cde0; 0x1f6dde0;
   0x1fedde0; 0x1e6d7f0; 0x180ffb0; 0x1e0f7b8; 0x200c198; 0x3ffff9c; 0x3ffff0e; 0x555404;
   0x0; 0x0; 0x0; 0x0; 0x202000; 0x0; 0x0; 0x0;
   0xe000; 0xe000; 0x3fffff8; 0x3fffff8; 0x300c38; 0x300c38; 0x3fffff8; 0x783e38;
   0x1fe7f38; 0x3b7cfb8; 0x3334df8; 0xe038; 0xffff38; 0xebab38; 0xd5d738; 0xffff38;
   0xc1c318; 0xeaeb18; 0xffff18; 0x33e018; 0x5bf01c; 0x2ffbc0c; 0x79f9f0c; 0x3ff07ee;
   0x15401c4; 0x0; 0x0; 0x0; 0x0; 0x202000; 0x0; 0x0].
Definition hanzi_data_501 : list N :=
  [0x0; 0xe00; 0xe00; 0x7ff00; 0xfff80; 0x755c0; 0x380e0; 0x1c0f0;
   0xfffff8; 0xfffffc; 0xe06068; 0xe06060; 0xe06060; 0xffffe0; 0xffffe0; 0xe06060;
   0xe06060; 0xe06060; 0xffffe0; 0xffffe0; 0x0; 0x0; 0x2aaaaa8; 0x3fffffc;
   0x3fffffc; 0x0; 0x0; 0x0; 0x0; 0x0; 0x202000; 0x0;
   0x0; 0x0; 0xc0; 0x60; 0x3ffefe0; 0x3ffeff0; 0x3d74c30; 0x3860638;
   0x386071c; 0x3861ffc; 0x3861ffc; 0x3861998; 0x1861998; 0x3861998; 0x1871ff8; 0x1861ff8;
   0x1871998; 0x1831998; 0x1831998; 0x1839ff8; 0x1839ff8; 0x1818000; 0x1c1d400; 0x180dff8;
   0x1c4fffc; 0xfc700c; 0x7c6000; 0x0; 0x0; 0x0; 0x0; 0x202000;
   0x0; 0x0; 0x0; 0xc0; 0xaa80e0; 0x1ffc7e0; 0x1ffcff0; 0x1c00e30;
   0x1800638; 0x1c0071c; 0x1801ffc; 0x1c01ffc; 0x1801998; 0x1ffd998; 0x1ffd998; 0x1d5dff8;
   0x180dff8; 0x1d998; 0xd998; 0x1d998; 0xdff8; 0x101dff8; 0x300c000; 0x701d400;
   0x300dff8; 0x3ffdffc; 0x3ff800c; 0x1ff0000; 0x0; 0x0; 0x0; 0x0;
   0x202000; 0x0; 0x0; 0x0; 0xc00e0; 0x6c0060; 0xec07e0; 0xcc0ff0;
   0x1cc0e30; 0x18c0638; 0xc071c; 0x3fffffc; 0x7fffffc; 0xe1998; 0x3e1998; 0x3e1998;
   0x3e1ff8; 0x3e1ff8; 0x3e1998; 0x3e1998; 0x3f1998; 0x3b1ff8; 0x3b1ff8; 0x23b8000;
   0x739dc00; 0x238dff8; 0x7f0e7fc; 0x3f0700c; 0x1406000; 0x0; 0x0; 0x0;
   0x0; 0x202000; 0x0; 0x0; 0x0; 0xc00e0; 0xc0060; 0xc07e0;
   0xc0ff0; 0x7fff730; 0x3ffe338; 0xc031c; 0xc0ffc; 0x18c6ffc; 0x18c6c98; 0x18c6cd8;
   0x18c6c98; 0x18c6ff8; 0x18c6ff8; 0x18c6cd8; 0x1ffec98; 0x1ffecd8; 0x1aeaff8; 0x18c0ff8;
   0xc0000; 0x70c0f00; 0x30c0ff8; 0x35c01fc; 0x3fc000c; 0x1f80000; 0x0; 0x0;
   0x0; 0x0; 0x202000; 0x0; 0x0; 0x0; 0x700; 0x700;
   0x7ff80; 0x3abc0; 0x55d5f0; 0x7ffff8; 0x75757e; 0x60606c; 0x7fffe0; 0x606060;
   0x7fffe0; 0x7fffe0; 0x0; 0x3fffffc; 0x3fffffc; 0x2aaa80; 0x3fffc0; 0x3000c0;
   0x3000c0; 0x3fffc0; 0x3fffc0; 0x3000c0; 0x3fffc0; 0x3fffc0; 0x3000c0; 0x0;
   0x0; 0x0; 0x0; 0x202000; 0x0; 0x0; 0x0; 0xc00c0;
   0xc00e0; 0x1c07e0; 0x1c0ff0; 0x15d4e70; 0x3ffe638; 0x3fff71c; 0x31ffc; 0x71ffc;
   0x31998; 0x1571998; 0x1ff1998; 0x1ff1ff8; 0x1831ff8; 0x1831998; 0x1839998; 0x1c39998;
   0x1839ff8; 0x1c19ff8; 0x1c18000; 0x1c1dc00; 0xc0fff8; 0xfcf7fc; 0xfc700c; 0x7c2000;
   0x0; 0x0; 0x0; 0x0; 0x202000; 0x0; 0x0; 0x0;
   0x60; 0x60; 0x3ffc7f0; 0x3ffc7f0; 0x318c630; 0x318c318; 0x318c31c; 0x318dffc;
   0x318dffc; 0x318d998; 0x318d998; 0x318dff8; 0x3ffdff8; 0x3ffd998; 0x355d998; 0x300dbb8;
   0xdff8; 0xdff8; 0x100c000; 0x300de00; 0x700dff0; 0x300c3fc; 0x3ffc01c; 0x3ff8000;
   0x550000; 0x0; 0x0; 0x0; 0x0; 0x202000; 0x0; 0x0;
   0x0; 0x1300c0; 0x3300e0; 0x7307e0; 0xe30fe0; 0x1c30670; 0x830638; 0x7fff318;
   0x3ffeffc; 0x39ffc; 0x38c98; 0x1559d98; 0x1ff8c98; 0x1ff9ff8; 0x1838ff8; 0x1c79d98;
   0xc78c98; 0xefdd98; 0x6ccff8; 0x7cdff8; 0x38e000; 0x786f00; 0xfc7ff8; 0x1ef39fc;
   0x387b000; 0x1031000; 0x0; 0x0; 0x0; 0x0; 0x202000; 0x0;
   0x0; 0x0; 0xc0; 0x2aaa060; 0x3ffe7e0; 0x3ffeff0; 0x1c0770; 0x8c6238;
   0x19c631c; 0x18ccffc; 0x1dcdffc; 0xcc8898; 0xdd9d98; 0xed8898; 0x5d9ff8; 0xc0ff8;
   0x7fffd98; 0x3ffe898; 0x15d5dd8; 0xc0ff8; 0x1c1ff8; 0xc0000; 0x1c1f40; 0xc1ffe;
   0x1c01fc; 0xc0000; 0x1c0000; 0x0; 0x0; 0x0; 0x0; 0x202000;
   0x0; 0x0; 0x0; 0x1c00e0; 0xc0060; 0x1c07f0; 0xc0ff0; 0x1c0e30;
   0x3fc0638; 0x3fc071c; 0xc1ffc; 0x1c1ffc; 0xc1998; 0x1c1998; 0xc1998; 0x1ffdff8;
   0x1ffdff8; 0x181d998; 0x180d998; 0x181d998; 0x180dff8; 0x181dff8; 0x180c000; 0x181d400;
   0x1ffdff8; 0x1ffdffc; 0x180c00c; 0x181c000; 0x0; 0x0; 0x0; 0x0;
   0x202000; 0x0; 0x0; 0x0; 0xc00e0; 0xc0060; 0x3fc07f0; 0x3fc0ff0;
   0x15c0630; 0xc0638; 0xc031c; 0x1ffcffe; 0x1ffdffc; 0x180cc88; 0x180dddc; 0x180cc88;
   0x180dffc; 0x1ffcff8; 0x1ffdddc; 0x1aaec88; 0x180dddc; 0xeff8; 0xfffc; 0xe000;
   0x7f00; 0x7ff8; 0x71fc; 0x300c; 0x3000; 0x0; 0x0; 0x0;
   0x0; 0x202000; 0x0; 0x0; 0x0; 0x1c00e0; 0xc0060; 0x1c07e0;
   0xc0ff0; 0x1c0730; 0xc0338; 0x3ffc31c; 0x3ffcffc; 0x39ccffc; 0x388cc98; 0x39cccd8;
   0x388cc98; 0x39ccff8; 0x3ffcff8; 0x3ffccd8; 0x3aacc98; 0x39cccd8; 0x388cff8; 0x39ccff8;
   0x388c000; 0x39ccf00; 0x3ffcff8; 0x3ffc5fc; 0x3aac00c; 0x380c000; 0x0; 0x0;
   0x0; 0x0; 0x202000; 0x0; 0x0; 0x0; 0x700e0; 0x70060;
   0x707e0; 0x30ff0; 0x3ff8e30; 0x3ff8638; 0x3ffc71c; 0x18dffc; 0x1cfffc; 0x18f998;
   0x3fc7998; 0x3f81998; 0x3fc1ff8; 0x181ff8; 0x1c1998; 0x181998; 0x3fc1998; 0x3f81ff8;
   0x3fc1ff8; 0x180000; 0x1c1400; 0x181ff8; 0x1c1ffc; 0x18000c; 0x1c0000; 0x0;
   0x0; 0x0; 0x0; 0x202000; 0x0; 0x0; 0x0; 0x1c300c0;
   0xc30060; 0x1c387e0; 0xc18ff0; 0x1c1c630; 0xc1c238; 0x3ffc31c; 0x3feeffc; 0x1c1effc;
   0xc0fc98; 0x1c5fcd8; 0xc6ec98; 0x1cdcff8; 0xcccff8; 0x1ddccd8; 0xd8cc98; 0x1d9ccd8;
   0xc8cff8; 0x1c1cff8; 0xc0c000; 0x1c1dd00; 0xc0dffc; 0x1d1c7fc; 0xf8c000; 0x79c000;
   0x0; 0x0; 0x0; 0x0; 0x202000; 0x0; 0x0; 0x0;
   0x1c00e0; 0x1c0060; 0x1c07f0; 0xc0ff0; 0x15f4630; 0x3ffc638; 0x3ffc31c; 0x380dffc;
   0x380dffc; 0x380d998; 0x380d998; 0x380d998; 0x380dff8; 0x3ffdff8; 0x3ffd998; 0x380d998].
Definition hanzi_data_502 : list N :=
  [0x380d998; 0x380dff8; 0x380dff8; 0x380c000; 0x380dfc0; 0x3ffdffc; 0x3ffc5fc; 0x3aac000;
   0x380c000; 0x0; 0x0; 0x0; 0x0; 0x202000; 0x0; 0x0;
   0x0; 0x300c0; 0x30060; 0x187e0; 0x1ff8ff0; 0x1ffc630; 0x180c638; 0x180e31c;
   0x1806ffc; 0x1bffffc; 0x1bae898; 0x1b1dd98; 0x1b0c898; 0x1b1dff8; 0x1b0cff8; 0x1bfdd98;
   0x1bfc898; 0x1f9dd98; 0x1f0cff8; 0x51dff8; 0xc000; 0x701d000; 0x300dff8; 0x3ffdffc;
   0x3ff800c; 0x1550000; 0x0; 0x0; 0x0; 0x0; 0x202000; 0x0;
   0x0; 0x0; 0x603040; 0xe03060; 0x7070e0; 0x3860c0; 0x15d75d0; 0x1fffff8;
   0x1fffffc; 0x1800e18; 0x187ff1c; 0x187ff98; 0x781c0; 0x1c0e0; 0x7ffffc; 0x6aeaf8;
   0x6060c0; 0x6aeac0; 0x7fffc0; 0x6060c0; 0x6060c0; 0x7fffc0; 0x7fffc0; 0x0;
   0x3fffffc; 0x3fffffc; 0x0; 0x0; 0x0; 0x0; 0x0; 0x202000;
   0x0; 0x0; 0x0; 0x1800e0; 0x180060; 0x1807e0; 0x180ff0; 0x7ffce30;
   0x3ffc638; 0x35dc71c; 0x398dffc; 0x198dffc; 0x198d998; 0x18d998; 0x3ffd998; 0x1ffdff8;
   0x183dff8; 0x1c7d998; 0xc6d998; 0xced998; 0xecfff8; 0x7c7ff8; 0x386000; 0x7c7f00;
   0xee6ff8; 0x1cf71fc; 0x383b800; 0x3019000; 0x0; 0x0; 0x0; 0x0;
   0x202000; 0x0; 0x0; 0x0; 0xc00e0; 0xe0060; 0x607e0; 0x70ff0;
   0x770630; 0x638238; 0xe1c31c; 0xc1cffc; 0x1c0effc; 0x3ffec98; 0x3fffdd8; 0x700fc98;
   0xff8; 0xff8; 0x1ffcdd8; 0x1ffcc98; 0x180cdd8; 0x180cff8; 0x180cff8; 0x180c000;
   0x180d400; 0x180cff8; 0x1ffdffc; 0x1ffc00c; 0x180c000; 0x0; 0x0; 0x0;
   0x0; 0x202000; 0x0; 0x0; 0x0; 0x1c00e0; 0x180060; 0x1c07e0;
   0x180ff0; 0x1ffce30; 0x1ffc638; 0x1c071c; 0x180ffc; 0x1c1ffc; 0x2baa898; 0x3fffd98;
   0x2aaa898; 0x1c1ff8; 0x180ff8; 0x1c1d98; 0x2ba8898; 0x3ffdd98; 0x3ffcff8; 0x1c1ff8;
   0x180000; 0x1c1f00; 0x180ff8; 0x7fff1fc; 0x3ffe00c; 0x0; 0x0; 0x0;
   0x0; 0x0; 0x202000; 0x0; 0x0; 0x0; 0x1c00e0; 0xc0060;
   0x1c07f0; 0xc0ff0; 0x3ffe630; 0x3ffe638; 0x1c031c; 0xc0ffe; 0x1c1ffc; 0xc0888;
   0x3fffddc; 0x3ffe888; 0x1555ffc; 0xff8; 0x1555ddc; 0x1ffc888; 0x1ffdddc; 0x180cff8;
   0x1c1dffc; 0x180c000; 0x1c1df00; 0x180dff8; 0x1ffc1fc; 0x1ffc00c; 0x1c1c000; 0x0;
   0x0; 0x0; 0x0; 0x202000; 0x0; 0x0; 0x0; 0x600e0;
   0x60060; 0x707f0; 0x307f0; 0x3fff730; 0x3fff338; 0x1831c; 0x18ffc; 0x155cffc;
   0x1ffec98; 0x1ffecd8; 0x181fc98; 0x181fff8; 0x1ffbff8; 0x1ffdcd8; 0x1818c98; 0x181ccd8;
   0x1ff8ff8; 0x1ffcff8; 0x1818000; 0x181cf00; 0x1818ff8; 0x181c5fc; 0x1f1800c; 0x1f1c000;
   0x0; 0x0; 0x0; 0x0; 0x202000; 0x0; 0x0; 0x0;
   0xe0; 0x2aaa060; 0x3fff7f0; 0x3fff7f0; 0xe0730; 0x60338; 0x7031c; 0x3ffe7fc;
   0x3fff7fc; 0x33226c8; 0x33376d8; 0x33226c8; 0x33377f8; 0x33227f8; 0x33376d8; 0x33226c8;
   0x33376d8; 0x33227f8; 0x33377f8; 0x3322000; 0x3337f00; 0x3322ff8; 0x33371fc; 0x3e0200c;
   0x1c07000; 0x0; 0x0; 0x0; 0x0; 0x202000; 0x0; 0x0;
   0x0; 0x60; 0x3ffe060; 0x3ffe7f0; 0x3aaeff0; 0x3006630; 0x3006218; 0x37f631c;
   0x37f6ffc; 0x3006ffc; 0x3006c88; 0x33f6cd8; 0x33f6c88; 0x3336ff8; 0x3236ff8; 0x3336cd8;
   0x3236c88; 0x3376cd8; 0x33f6ff8; 0x33f6ff8; 0x3036000; 0x3007c00; 0x3006ff8; 0x30067fc;
   0x3f0600c; 0x1f06000; 0x0; 0x0; 0x0; 0x0; 0x202000; 0x0;
   0x0; 0x0; 0x1000060; 0x3000060; 0x377fbf0; 0x326bbf0; 0x3761b30; 0x326db98;
   0x376d99c; 0x326dffc; 0x376dffc; 0x326dec8; 0x376ded8; 0x326dec8; 0x376dff8; 0x326dff8;
   0x376ded8; 0x326dec8; 0x376ded8; 0x326dff8; 0x376dff8; 0x301c000; 0x3036700; 0x30667f8;
   0x1fc39fc; 0x1e81800; 0x0; 0x0; 0x0; 0x0; 0x0; 0x202000;
   0x0; 0x0; 0x0; 0x1000060; 0x3fe0060; 0x1ffe7f0; 0x3e7f0; 0xe730;
   0xe318; 0xe31c; 0x3ffeffc; 0x7ffeffc; 0xec98; 0xecd8; 0xec98; 0xeff8;
   0x1ffeff8; 0x1ff6cd8; 0x183ec98; 0x1836cd8; 0x1836ff8; 0x1836ff8; 0x1836000; 0x1d77c00;
   0x1ff3ff8; 0x1ff37fc; 0x183380c; 0x1831000; 0x0; 0x0; 0x0; 0x0;
   0x202000; 0x0; 0x0; 0x0; 0x1c0060; 0xc0060; 0x1c07f0; 0x3e07f0;
   0x370730; 0x738338; 0xe1c39c; 0x1c1cffc; 0x380fffc; 0x7fffcd8; 0x3ffbcd8; 0xcd8;
   0xff8; 0x2aaaff8; 0x3ffecd8; 0x3ffecd8; 0x70cd8; 0x30ff8; 0xe38ff8; 0xc18000;
   0x1c1cf00; 0x3f8eff8; 0x3fff1fc; 0x303e00c; 0x3000000; 0x0; 0x0; 0x0;
   0x0; 0x202000; 0x0; 0x0; 0x0; 0x600e0; 0xe0060; 0xc07f0;
   0x3fffff0; 0x7fff730; 0xc0c338; 0xe1c31c; 0x638ffc; 0x770ffc; 0x3e0c98; 0x1e0cd8;
   0xff8c98; 0x7f3fff8; 0x380eff8; 0xe18cd8; 0xe18c98; 0xe18cd8; 0xe18ff8; 0xe18ff8;
   0xe18000; 0xe1cf00; 0xe0cff8; 0xe0f5fc; 0xe0780c; 0xe03000; 0x0; 0x0;
   0x0; 0x0; 0x202000; 0x0; 0x0; 0x0; 0x600e0; 0xe0060;
   0x1c07f0; 0xc0ff0; 0x3fff730; 0x3fff338; 0x41031c; 0xe38ffc; 0xc1cffc; 0x1c0cc98;
   0x380ecd8; 0x3206c98; 0x761fff8; 0x63aff8; 0x730cd8; 0x330c98; 0x3f0cd8; 0x1e0ff8;
   0x1c0ff8; 0x1e0000; 0x7f0400; 0xf38ff8; 0x1e1effc; 0x380f00c; 0x1003000; 0x0;
   0x0; 0x0; 0x0; 0x202000; 0x0; 0x0; 0x0; 0x100c0;
   0x1818060; 0x1c38fe0; 0xe30ff0; 0x670c30; 0x3ffc638; 0x3ffc71c; 0x2ba9ffc; 0x181ffc;
   0x181998; 0x181998; 0x3ffd998; 0x3ffdff8; 0x181ff8; 0x181998; 0x181998; 0x15d5998;
   0x3fffff8; 0x7fffff8; 0x180000; 0x181400; 0x181ff8; 0x181ffc; 0x18000c; 0x180000;
   0x0; 0x0; 0x0; 0x0; 0x202000; 0x0; 0x0; 0x0].
Definition hanzi_data_503 : list N :=
  [0x1c0300; 0xc0300; 0x1fffff8; 0xfffff8; 0x7000; 0x7fffe0; 0x7ffff0; 0x1c00;
   0x3fffffc; 0x3fffffc; 0x39c0; 0x7fcf0; 0x7ff7e; 0x38388; 0x7ffff0; 0x6aeaf0;
   0x7575d0; 0x7fffc0; 0x7060c0; 0x6060c0; 0x7fffc0; 0x0; 0x3fffffc; 0x3fffff8;
   0x0; 0x0; 0x0; 0x0; 0x0; 0x202000; 0x0; 0x0;
   0x0; 0x6180; 0x386180; 0x1c7380; 0xaebba0; 0xfffff0; 0xaabaa0; 0x1c00;
   0x3fffffc; 0x3fffffc; 0x1e0b80; 0x7d5df0; 0x3f7fe78; 0x3c7571c; 0x20383c4; 0x7ffff0;
   0x3060f0; 0x7060c0; 0x3fffc0; 0x7060c0; 0x3060c0; 0x7fffc0; 0x0; 0x3fffffc;
   0x3fffffc; 0x0; 0x0; 0x0; 0x0; 0x0; 0x202000; 0x0;
   0x0; 0x0; 0x60; 0xaaa060; 0x1ffe7f0; 0x1aaa7f0; 0x1800738; 0x1aa8318;
   0x1ffc31c; 0x1aa8ffe; 0x1800ffc; 0x1800c88; 0x1ffecdc; 0x1ffec88; 0x600ffc; 0x600ff8;
   0x7fffcdc; 0x3ffec88; 0x5755cdc; 0x608ff8; 0x61cffc; 0x638000; 0x671c00; 0x621ff8;
   0x7c07fc; 0x78000c; 0x100000; 0x0; 0x0; 0x0; 0x0; 0x202000;
   0x0; 0x0; 0x0; 0xe0; 0x60; 0x3fff7f0; 0x3fffff0; 0x1c0630;
   0xc0238; 0x3ffe31c; 0x3aeeffc; 0x39c6ffc; 0x38c6c98; 0x3ffecd8; 0x3ffec98; 0x39c6ff8;
   0x38c6ff8; 0x3ffecd8; 0x3ffec98; 0xcccd8; 0xccff8; 0xfcff8; 0x78000; 0x70f00;
   0x1f8ff8; 0x1fdc1fc; 0x3f0f80c; 0x3c07000; 0x0; 0x0; 0x0; 0x0;
   0x202000; 0x0; 0x0; 0x0; 0x60; 0x60; 0x3fff3f0; 0x3fff7f0;
   0x730; 0x318; 0x3fff19c; 0x3fbf7fc; 0x31f37fc; 0x31a36c8; 0x31f36d8; 0x31a36c8;
   0x37f77f8; 0x37af7f8; 0x35ff6d8; 0x3dab6c8; 0x3dfb6d8; 0x39ab7f8; 0x31f37f8; 0x31a3000;
   0x31f3700; 0x31a3ff8; 0x31f35fc; 0x3dbb008; 0x1d9b000; 0x0; 0x0; 0x0;
   0x0; 0x202000; 0x0; 0x0; 0x0; 0x180070; 0x181830; 0x1819f0;
   0x3ffbbf8; 0x3fff198; 0xc6098; 0x3e20dc; 0x3603fe; 0x3703fc; 0x333a48; 0x3ff7f4c;
   0x3ff2a48; 0x3073fc; 0x3023f8; 0x30734c; 0x3ffa248; 0x3fff34c; 0x3023f8; 0x3073fc;
   0x302000; 0x307700; 0x21fffe; 0x7ffddfc; 0x3fe0c00; 0x1500400; 0x0; 0x0;
   0x0; 0x0; 0x202000; 0x0; 0x0; 0x0; 0x18060; 0x3fd8060;
   0x3fdb3f0; 0x18db3f0; 0x18db330; 0x189b398; 0x1d9b1dc; 0xf9b7fc; 0xf1b7fc; 0x71b6c8;
   0xf9b6d8; 0x1fdb6c8; 0x79fb7f8; 0x30587f8; 0xd06d8; 0xc06c8; 0x1fff6d8; 0x1fff7f8;
   0x15d57f8; 0xc0000; 0xc0400; 0xc07f8; 0x7fffffc; 0x3fff80c; 0x0; 0x0;
   0x0; 0x0; 0x0; 0x202000; 0x0; 0x0; 0x0; 0xe0;
   0x2aa8060; 0x3ffc7f0; 0x3aacff0; 0x39cc630; 0x388c638; 0x3ffc31c; 0x3ffcffe; 0x3dddffc;
   0x388cc88; 0x39cdddc; 0x3aacc88; 0x3ffdffc; 0x2ba8ff8; 0x1c1ddc; 0x180c88; 0x3ffdddc;
   0x3ffcff8; 0x3ffdffc; 0x180000; 0x1c1f00; 0x181ff8; 0x7fff1fc; 0x3fff00c; 0x5555000;
   0x0; 0x0; 0x0; 0x0; 0x202000; 0x0; 0x0; 0x0;
   0x1c00060; 0xc00060; 0x1c3f3f0; 0xc3f7f0; 0x1c3f330; 0xc33398; 0x7ff319c; 0x3ff37fc;
   0x7ff37fc; 0xc336c8; 0x1c3f6dc; 0xcff6c8; 0x1df37fc; 0xdb37f8; 0x1db36dc; 0xf336c8;
   0x1f336dc; 0xf337f8; 0x1c3f7fc; 0xc3f000; 0x1c03700; 0xc037fc; 0x1c011fc; 0xf80000;
   0x780000; 0x0; 0x0; 0x0; 0x0; 0x202000; 0x0; 0x0;
   0x0; 0x600e0; 0x60060; 0xff07f0; 0x1ff87f0; 0x1d5c730; 0xe3e338; 0x77f31c;
   0x3e6ffc; 0x1e0ffc; 0x3e0c98; 0x1f7ccd8; 0x7e1fc98; 0x31c7ff8; 0xc0ff8; 0x3fffcd8;
   0x3ffec98; 0x3fffcd8; 0x8c8ff8; 0x1ddcff8; 0x18cc000; 0x39cef00; 0x30c6ff8; 0x71c71fc;
   0xf200c; 0xf0000; 0x0; 0x0; 0x0; 0x0; 0x202000; 0x0;
   0x0; 0x0; 0xe0; 0x1f80060; 0x1fff7f0; 0xfeff0; 0x470630; 0xe30638;
   0x73831c; 0x318ffe; 0x3feffc; 0x1fcc98; 0xce0d98; 0xc70c98; 0x1c38ff8; 0x3ffcff8;
   0x37fcd98; 0x3180c98; 0xdd8d98; 0xd98ff8; 0x1ddcff8; 0x198c000; 0x39cdc00; 0x318fff8;
   0x31d67fc; 0x1f400c; 0xf0000; 0x0; 0x0; 0x0; 0x0; 0x202000;
   0x0; 0x0; 0x0; 0x30070; 0x2330f0; 0x7331c0; 0xe33808; 0x1c31c7c;
   0x3e30c70; 0x3730e80; 0x3a00c0; 0x1f00f0; 0x3fe38; 0x7f1c; 0xe08; 0x7ff00;
   0x7ff80; 0x381f0; 0x7ffff8; 0x606078; 0x6aeae0; 0x7fffe0; 0x606060; 0x7fffe0;
   0x2aaaa0; 0x3fffffc; 0x3fffffc; 0x0; 0x0; 0x0; 0x0; 0x0;
   0x202000; 0x0; 0x0; 0x0; 0xe00e0; 0xe0060; 0x1c07f0; 0x2baa7f0;
   0x3fff730; 0x3ffe338; 0x300731c; 0x30027fc; 0x1ffc7fc; 0xffc4d8; 0x4d8; 0x4d8;
   0x15557f8; 0x3fff7f8; 0x7fff4d8; 0x3304d8; 0x7304d8; 0x3387f8; 0x7187f8; 0x2318000;
   0x771cf00; 0x230eff8; 0x3f0f1fc; 0x3e0380c; 0x1401000; 0x0; 0x0; 0x0;
   0x0; 0x202000; 0x0; 0x0; 0x0; 0xe0; 0xffe060; 0x1ffe7e0;
   0xce0ff0; 0x1c60730; 0xc60338; 0x7fff31c; 0x3ffeffc; 0x1c60ffc; 0xc60c98; 0x1ffecd8;
   0xffec98; 0x1574ff8; 0x38ff8; 0x18cd8; 0x1ffcc98; 0x1ffccd8; 0x181eff8; 0x181fff8;
   0x181b000; 0x1818f00; 0x1818ff8; 0x1ff85fc; 0x1ff800c; 0x1818000; 0x0; 0x0;
   0x0; 0x0; 0x202000; 0x0; 0x0; 0x0; 0x60; 0x2aaa060;
   0x3fff3f0; 0x3bab3f0; 0x31f3338; 0x31a3398; 0x31ff19c; 0x31bf7fc; 0x31f77fc; 0x31a36c8;
   0x31f36d8; 0x31a36c8; 0x31ff7f8; 0x31bf7f8; 0x31836d8; 0x318b6c8; 0x319b6d8; 0x31bb7f8;
   0x3db37f8; 0x1dbf000; 0x5ffd00; 0x1e3ff8; 0x1e19fc; 0x18000c; 0x180000; 0x0;
   0x0; 0x0; 0x0; 0x202000; 0x0; 0x0; 0x0; 0xe0;
   0xffe060; 0x1ffe7f0; 0xe00ff0; 0x730730; 0x3f8338; 0x1e031c; 0x780ffc; 0x1ffeffc;
   0x1ffecc8; 0x18c6cd8; 0x18c6cc8; 0x1ffeff8; 0x1ffeff8; 0x18c6cd8; 0x18c6cc8; 0x18c6cd8].
Definition hanzi_data_504 : list N :=
  [0x1ffeff8; 0x1ffeff8; 0x18c6000; 0x18c6f00; 0x18c6ff8; 0x18c61fc; 0x1ec600c; 0x1e46000;
   0x0; 0x0; 0x0; 0x0; 0x202000; 0x0; 0x0; 0x0;
   0xc00e0; 0xc0060; 0x3fff7f0; 0x3ffeff0; 0xc0730; 0xaea338; 0x1ffe31c; 0xc0ffc;
   0x15d5ffc; 0x3fffcd8; 0x7fffcd8; 0xcd8; 0x1ffeff8; 0x1ffeff8; 0x1c0ecd8; 0x1aaecd8;
   0x1ffecd8; 0x180eff8; 0x1c0eff8; 0x1ffe000; 0x1ffff00; 0x180eff8; 0x1c0e5fc; 0x1f0e008;
   0xf0e000; 0x0; 0x0; 0x0; 0x0; 0x202000; 0x0; 0x0;
   0x0; 0xc0070; 0xc0030; 0xc03f0; 0xffc3f8; 0x1ffc318; 0xc0398; 0xc019c;
   0x2aea7fe; 0x3fff7fc; 0x2aaa6c8; 0x7386dc; 0x1e1c6c8; 0x787f7fc; 0x20337f8; 0xff86dc;
   0xffc6c8; 0x61e6dc; 0x71f7f8; 0x3337fc; 0x3f0000; 0x1e0700; 0x3f8ff8; 0x1f3e1fc;
   0x3e0f80c; 0x1007000; 0x0; 0x0; 0x0; 0x0; 0x202000; 0x0;
   0x0; 0x0; 0xc180e0; 0xc18060; 0xc187e0; 0xc18ff0; 0x3ffe730; 0x3ffe338;
   0xc1831c; 0xc18ffc; 0xff8ffc; 0xff8c98; 0xc18cd8; 0xc18c98; 0xff8ff8; 0xff8ff8;
   0xc18cd8; 0xc18c98; 0x7ffecd8; 0x7ffeff8; 0x5554ff8; 0x630000; 0xe38f00; 0x1c18ff8;
   0x381c5fc; 0x300e00c; 0x1006000; 0x0; 0x0; 0x0; 0x0; 0x202000;
   0x0; 0x0; 0x0; 0x60; 0xaa860; 0xffbf0; 0x3febff0; 0x7fe3330;
   0x3363318; 0x736319c; 0x337f7fc; 0x337f7fc; 0x33636c8; 0x37636dc; 0x32636c8; 0x37777fc;
   0x3e7f7f8; 0x1e7f6dc; 0x1e636c8; 0x1e636dc; 0x1e637f8; 0xcf37fc; 0xeff000; 0x1e7fc00;
   0x1e63ff8; 0x3f607fc; 0x73e000c; 0x3160000; 0x0; 0x0; 0x0; 0x0;
   0x202000; 0x0; 0x0; 0x0; 0x7700e0; 0x330060; 0x7707e0; 0x330ff0;
   0x3f7f630; 0x3f3e338; 0x177531c; 0x330ffc; 0x770ffc; 0x330c98; 0x3f7ecd8; 0x3f3ec98;
   0x770ff8; 0x330ff8; 0x770cd8; 0x330c98; 0x7f7fcd8; 0x3f3fff8; 0x770ff8; 0x330000;
   0x771f00; 0x330ff8; 0x7701fc; 0x33000c; 0x770000; 0x0; 0x0; 0x0;
   0x0; 0x202000; 0x0; 0x0; 0x0; 0xe0; 0x1ffe060; 0x1ffe7f0;
   0x1806ff0; 0x1806630; 0x1ffe638; 0x1ffe31c; 0x1806ffc; 0x1806ffc; 0x1ffec98; 0x1ffedd8;
   0xc98; 0x30eff8; 0x30eff8; 0x330edd8; 0x3b7ec98; 0x1f7edd8; 0x70eff8; 0x30eff8;
   0x30e000; 0x630ef00; 0x636eff8; 0x737e1fc; 0x3f3e00c; 0x1f06000; 0x0; 0x0;
   0x0; 0x0; 0x202000; 0x0; 0x0; 0x0; 0xe0; 0x1ffc060;
   0x1ffc7f0; 0x180cff0; 0x1c1c730; 0x1ffc338; 0x1ffc31c; 0x180cffe; 0x1c1cffc; 0x1aacc98;
   0x1ffcdd8; 0xc98; 0xff8; 0x3ffeff8; 0x3ffedd8; 0x380ec98; 0x380edd8; 0x3ffeff8;
   0x3ffeff8; 0x380e000; 0x380fd00; 0x380fff8; 0x3ffe7fc; 0x3ffe00c; 0x380e000; 0x0;
   0x0; 0x0; 0x0; 0x202000; 0x0; 0x0; 0x0; 0xe0;
   0x2aaa060; 0x3fff7f0; 0x3aabff0; 0x38c3730; 0x38c3338; 0x38c331c; 0x3ffb7fc; 0x3fff7fc;
   0x38c36c8; 0x38c36d8; 0x38c36c8; 0x3bfb7f8; 0x3bfb7f8; 0x3b1b6d8; 0x3b1b6c8; 0x3b1b6d8;
   0x3b1b7f8; 0x3bfb7f8; 0x3aab000; 0x3803f00; 0x3fffff8; 0x3fff1fc; 0x380300c; 0x3803000;
   0x0; 0x0; 0x0; 0x0; 0x202000; 0x0; 0x0; 0x0;
   0x200c0; 0x700e0; 0x1f7c7e0; 0x1f0cff0; 0x180c630; 0x180c338; 0x180c31c; 0x1f7cffc;
   0x1f7cffc; 0x180cc98; 0x180cdd8; 0x180cc98; 0x1ffcff8; 0x1ffcff8; 0x1774dd8; 0x330c98;
   0x330dd8; 0x330ff8; 0x330ff8; 0x338000; 0x7319f00; 0x231dff8; 0x770e5fc; 0x3f0f00c;
   0x1e06000; 0x0; 0x0; 0x0; 0x0; 0x202000; 0x0; 0x0;
   0x0; 0xc00e0; 0xc0060; 0x1e07f0; 0x3f07f0; 0x730730; 0xf38338; 0x1e5c19c;
   0x3cee7fc; 0x71c7ffc; 0x20834c8; 0x1ffe4d8; 0xffe4c8; 0xc007f8; 0x6007f8; 0x7604d8;
   0x3e04c8; 0xcd84d8; 0xd9a7f8; 0x199b7f8; 0x389b000; 0x361bf40; 0x361bffc; 0x77599fc;
   0x7f8000; 0x150000; 0x0; 0x0; 0x0; 0x0; 0x202000; 0x0;
   0x0; 0x0; 0x60; 0x3ffe060; 0x3fff7f0; 0x38827f0; 0x38c7738; 0x38c2318;
   0x3fff19c; 0x3bfa7fe; 0x38c77fc; 0x38c24c8; 0x3fff4dc; 0x3ffa4c8; 0x38077fc; 0x3bf27f8;
   0x3ff74dc; 0x3a124c8; 0x3f174dc; 0x3a137f8; 0x3f137fc; 0x3bf3000; 0x3d53700; 0x3813ffc;
   0x3801dfc; 0x1f01800; 0x1f01800; 0x0; 0x0; 0x0; 0x0; 0x202000;
   0x0; 0x0; 0x0; 0xe00e0; 0xe0060; 0x1c07f0; 0x3ffeff0; 0x3fff630;
   0x338; 0x31c; 0x1ffcffc; 0x1ffcffc; 0x1c0cc98; 0x1c0ccd8; 0x1c0cc98; 0x1d5cff8;
   0x1ffcff8; 0x1ffccd8; 0xc0c98; 0xddccd8; 0xcccff8; 0x1dccff8; 0x18ce000; 0x39c6f00;
   0x30c7ff8; 0x31c31fc; 0xf800c; 0xf0000; 0x0; 0x0; 0x0; 0x0;
   0x202000; 0x0; 0x0; 0x0; 0x70060; 0x30060; 0x7387f0; 0xe1c7f0;
   0x1fff630; 0x1fff318; 0x10df31c; 0x607fc; 0x3fffffc; 0x3fffec8; 0x3b86d8; 0xe1c6c8;
   0x1ecf7f8; 0x38e7ff8; 0x30716d8; 0x63e6c8; 0x38f6d8; 0x11e27f8; 0x1c7c7f8; 0xe3e000;
   0x786c00; 0x3e0ff8; 0xfc7fc; 0x3f008; 0x7000; 0x0; 0x0; 0x0;
   0x0; 0x202000; 0x0; 0x0; 0x0; 0x60; 0xaaa060; 0xfff7f0;
   0xeaa7f0; 0xdc0730; 0xdfe318; 0xc7f39c; 0xc32ffe; 0xc30ffc; 0xc30c98; 0xdfecd8;
   0xdbac98; 0xdb6ff8; 0xdb2ff8; 0xdb6cd8; 0xdb2c98; 0xdfecd8; 0xcbaff8; 0xdb0ff8;
   0x2db0000; 0x7d30d00; 0x6bfeff8; 0x7bff7fc; 0x3b0300c; 0x3000000; 0x0; 0x0;
   0x0; 0x0; 0x202000; 0x0; 0x0; 0x0; 0x11840e0; 0x398c060;
   0x1dcc7f0; 0xce6ff0; 0xc67730; 0x633338; 0x67731c; 0xce6ffc; 0x1cceffc; 0x398cc98;
   0x319ccd8; 0x1088c98; 0x3ffeff8; 0x3ffeff8; 0x38c6cd8; 0x38c6c98; 0x38c6cd8; 0x3ffeff8;
   0x3ffeff8; 0x38c6000; 0x38c6f00; 0x38c6ff8; 0x3ffe5fc; 0x3ffe00c; 0x3806000; 0x0;
   0x0; 0x0; 0x0; 0x202000; 0x0; 0x0; 0x0; 0xc0070].
Definition hanzi_data_505 : list N :=
  [0xc0030; 0x3fff3f0; 0x3ffe7f8; 0x15d5318; 0xed8318; 0xe5c19c; 0x3fff7fe; 0x7fff7fc;
   0xe186c8; 0xe1c6dc; 0x1ffe6c8; 0x1ffe7fc; 0x18067f8; 0x1cc66dc; 0x18c66c8; 0x1cc66dc;
   0x18c67f8; 0x1cc67fc; 0x18e6000; 0x360f00; 0xf70ff8; 0x1c3c1fc; 0x780f80c; 0x3003000;
   0x0; 0x0; 0x0; 0x0; 0x202000; 0x0; 0x0; 0x0;
   0xcc40e0; 0xccc060; 0xccc7f0; 0x2eee7f0; 0x3fff730; 0x2eee338; 0xccc19c; 0xcccffc;
   0xfccffc; 0xfccc98; 0xccd8; 0x1ffcc98; 0x1ffcff8; 0xc0ff8; 0xc0cd8; 0x3fffc98;
   0x7fffcd8; 0x3e0ff8; 0x7f0ff8; 0x6f8000; 0xcdcfc0; 0x1cceff8; 0x78c71fc; 0x30c3000;
   0xc0000; 0x0; 0x0; 0x0; 0x0; 0x202000; 0x0; 0x0;
   0x0; 0x60; 0x2aaa060; 0x7fff7e0; 0x2aaaff0; 0x630; 0x1ffc638; 0x1ffc31c;
   0x180cffc; 0x180cffc; 0x1aacc88; 0x1ffccd8; 0xc88; 0xff8; 0x3ffeff8; 0x3fffcd8;
   0x3086c88; 0x31c7cd8; 0x3aaeff8; 0x3fffff8; 0x3086000; 0x31c7400; 0x3086ff8; 0x3fff7fc;
   0x3ffe00c; 0x3007000; 0x0; 0x0; 0x0; 0x0; 0x202000; 0x0;
   0x0; 0x0; 0xc4060; 0x18ce060; 0x1ccc7f0; 0xedc7f0; 0x6d8730; 0x3ffe338;
   0x3fff19c; 0x3002ffc; 0x3007ffc; 0x3aaacc8; 0x1ffdcd8; 0xff8cc8; 0xff8; 0xff8;
   0x7fffcd8; 0x3fffcc8; 0x70cd8; 0x230ff8; 0x638ff8; 0xe18000; 0x1c1c400; 0x1feeff8;
   0x3fff7fc; 0x302e008; 0x1000000; 0x0; 0x0; 0x0; 0x0; 0x202000;
   0x0; 0x0; 0x0; 0x60; 0x1ffc060; 0x1ffc7f0; 0x180c7f0; 0x1d5c770;
   0x1ffc338; 0x1d5c39c; 0x180cffc; 0x1ffcffc; 0x1ffcc98; 0xdd8; 0xc98; 0x7fffff8;
   0x3ffeff8; 0x1d4dd8; 0xccc98; 0x3fccdd8; 0x3fccff8; 0x1cc550; 0xce000; 0x1dff00;
   0xffff8; 0x7ff71fc; 0x3fc380c; 0x1401000; 0x0; 0x0; 0x0; 0x0;
   0x202000; 0x0; 0x0; 0x0; 0xc0; 0x1ffc060; 0x1ffc7e0; 0x180cff0;
   0x1c0c630; 0x1aac338; 0x1ffc31c; 0x1aacffc; 0x1c0cffc; 0x180cc98; 0x1ffcdd8; 0x1ffcc98;
   0xff8; 0xff8; 0x1ffedd8; 0x1baec98; 0x1b76dd8; 0x1b26ff8; 0x1b76ff8; 0x1b26000;
   0x1b77f00; 0x1b26ff8; 0x7fff9fc; 0x3fff800; 0x0; 0x0; 0x0; 0x0;
   0x0; 0x202000; 0x0; 0x0; 0x0; 0xe0; 0x1ffe060; 0x1ffe7f0;
   0x18c6ff0; 0x18c6730; 0x1ffe338; 0x1ffe31c; 0x18c6ffc; 0x18c6ffc; 0x1aeecd8; 0x1ffecd8;
   0xaaacd8; 0xff8; 0x3fffff8; 0x3fffcd8; 0xcccd8; 0x31cccd8; 0x398cff8; 0x1f8cff8;
   0x70c000; 0x70cf00; 0xeecff8; 0x1cfe7fc; 0x383e00c; 0x3004000; 0x0; 0x0;
   0x0; 0x0; 0x202000; 0x0; 0x0; 0x0; 0xe0; 0x3ffe060;
   0x3ffe3f0; 0x38c67f0; 0x38c6730; 0x38c6338; 0x3ffe19c; 0x3ffe7fc; 0x38c67fc; 0x38c66d8;
   0x38c66d8; 0x3ffe6d8; 0x3ffe7f8; 0x607f8; 0xc06d8; 0x9de6d8; 0x1d9f6d8; 0x1b9a7f8;
   0x391b7f8; 0x301b000; 0x7c1b400; 0x6c1bff8; 0xff9ffc; 0x7f800c; 0x140000; 0x0;
   0x0; 0x0; 0x0; 0x202000; 0x0; 0x0; 0x0; 0xe0;
   0x1fbe060; 0x1fff7f0; 0x19a2ff0; 0x19e7630; 0x19a2338; 0x1fff31c; 0x1fbeffc; 0xffc;
   0xaaacd8; 0x1ffecd8; 0xaaacd8; 0xff8; 0x3fffff8; 0x3fffcd8; 0x38cd8; 0x18cd8;
   0x1ff8ff8; 0x1ffcff8; 0xc00000; 0x1c00f00; 0xc00ff8; 0xc101fc; 0xfe000c; 0x7e0000;
   0x0; 0x0; 0x0; 0x0; 0x202000; 0x0; 0x0; 0x0;
   0x610060; 0x63e060; 0x63fff0; 0x60fbf0; 0x60c338; 0x60c398; 0x36cc19c; 0x368c7fc;
   0x36ffffc; 0x36ffec8; 0x17ce6dc; 0x1ece6c8; 0x1f7e7fc; 0x167e7f8; 0x73f6dc; 0xf2f6c8;
   0xf2dedc; 0xf8dff8; 0xd8dffc; 0x98c800; 0x19cc700; 0x18cc7f8; 0x30ec1fc; 0x306c000;
   0x306c000; 0x0; 0x0; 0x0; 0x0; 0x202000; 0x0; 0x0;
   0x0; 0x180e0; 0x18060; 0x3ffc7f0; 0x3ffc7f0; 0x155e730; 0x6338; 0x1fff31c;
   0x1fffffc; 0x180dffc; 0x1aacc98; 0x1ffccd8; 0x180cc98; 0x1d5cff8; 0x1ffcff8; 0x1574cd8;
   0x38c98; 0x1ffccd8; 0x1ebeff8; 0xe3fff8; 0x773000; 0x7f1400; 0x3e0ff8; 0x1ffd7fc;
   0x3e1f808; 0x3007000; 0x0; 0x0; 0x0; 0x0; 0x202000; 0x0;
   0x0; 0x0; 0x1c0060; 0xc0060; 0x15f47f0; 0x1ffcff0; 0x1ffc630; 0x180c638;
   0x1ffc31c; 0x1ffcffc; 0x1d5cffc; 0x180cc98; 0x1ffcdd8; 0x1ffcc98; 0xff8; 0xff8;
   0x3ffedd8; 0x3ffec98; 0x1c0dd8; 0x180ff8; 0x1ffcff8; 0x1ffc000; 0x1c1c00; 0x180ff8;
   0x3fffffc; 0x3fff00c; 0x1555000; 0x0; 0x0; 0x0; 0x0; 0x202000;
   0x0; 0x0; 0x0; 0x1c00e0; 0xc0060; 0xe07f0; 0x1ffe7f0; 0x1ffe730;
   0x1806338; 0x180631c; 0x1ffeffc; 0x1ffeffc; 0x1806cc8; 0x1d56cd8; 0x1ffecc8; 0x1ffeff8;
   0xc0ff8; 0x39d5cd8; 0x1dffcc8; 0xff5cd8; 0x3d8ff8; 0x7dcff8; 0xecc000; 0x1ccef00;
   0x38c7ff8; 0x70c39fc; 0x20f900c; 0x70000; 0x0; 0x0; 0x0; 0x0;
   0x202000; 0x0; 0x0; 0x0; 0x30c060; 0x38c060; 0x3fcc1f0; 0x3fcc3f0;
   0x38fcb38; 0x18fd998; 0x1dfd99c; 0xf8dbfc; 0x70f7fc; 0x38f2c8; 0x1ded6cc; 0xcfc2c8;
   0x1c0c7fc; 0x3fec3f8; 0x7ffe6cc; 0xc0f2c8; 0x1c6fecc; 0xcedbf8; 0x1dccffc; 0xd8c000;
   0x1c8c7c0; 0xc0c7fc; 0x1d0c07c; 0xf0c000; 0x70c000; 0x0; 0x0; 0x0;
   0x0; 0x202000; 0x0; 0x0; 0x0; 0x60070; 0xe0030; 0xc01f0;
   0x1ffe3f8; 0x1fff318; 0x1802198; 0x18071dc; 0x1aaa7fe; 0x1fff7fc; 0xaaa6c8; 0x76dc;
   0x2aab6c8; 0x3fff7fc; 0x3aef7f8; 0x374f6dc; 0x324f6c8; 0x374f6dc; 0x3fff7f8; 0x3fff7fc;
   0x324f800; 0x374df00; 0x324dff8; 0x374ddfc; 0x3e4cc0c; 0x1c0c000; 0x0; 0x0;
   0x0; 0x0; 0x202000; 0x0; 0x0; 0x0; 0xe0; 0x1ffe060;
   0x1fff7f0; 0xc6cff0; 0xedc730; 0x6b8338; 0x77031c; 0x3e0ffc; 0x7f0ffc; 0xffcc98;
   0x3edfcd8; 0x20c3c98; 0x15d4ff8; 0x1ffeff8; 0x1dd6cd8; 0x18c6c98; 0x18c6cd8; 0x1ffeff8].
Definition hanzi_data_506 : list N :=
  [0x1ffeff8; 0xc0000; 0xcc0f00; 0x1cc0ff8; 0x1fff1fc; 0x3fff00c; 0x3000000; 0x0;
   0x0; 0x0; 0x0; 0x202000; 0x0; 0x0; 0x0; 0x60180;
   0x63ff8; 0x1573ffc; 0x3ff8ba8; 0x1d5dff8; 0xe3e180; 0x777ffc; 0x3e2ae8; 0x1c1fe0;
   0x3e1fe0; 0xf7fd70; 0x3e1cfbc; 0x387ff1c; 0xfff80; 0x57d5f0; 0x7ffffc; 0x60607c;
   0x7fffe0; 0x7fffe0; 0x606060; 0x7fffe0; 0x2aaaa0; 0x7fffffe; 0x3fffffe; 0x0;
   0x0; 0x0; 0x0; 0x0; 0x202000; 0x0; 0x0; 0x0;
   0x700e0; 0x1020060; 0x1bfe7e0; 0xffe7f0; 0xe70730; 0x720338; 0x3fff31c; 0x3fffffc;
   0xc70ffc; 0x1fbcc98; 0x17ffcd8; 0x3013c98; 0x3ff1ff8; 0x1ff0ff8; 0xcd8; 0x1ffcc98;
   0x1ffccd8; 0x180cff8; 0x1ffcff8; 0x1ffc000; 0x180cf00; 0x180cff8; 0x1ffc5fc; 0x1aac00c;
   0x180c000; 0x0; 0x0; 0x0; 0x0; 0x202000; 0x0; 0x0;
   0x0; 0xe0; 0x1ffe060; 0x1ffe3f0; 0x18067f0; 0x1c06730; 0x1ffe338; 0x1ffe19c;
   0x18067fc; 0x1d567fc; 0x1ffe6c8; 0x15546d8; 0x6c8; 0x3fff7f8; 0x3fbf7f8; 0x31f36d8;
   0x33a66c8; 0x37766d8; 0x3e2c7f8; 0x3c7c7f8; 0x3f3c000; 0x37ff400; 0x31a2ff8; 0x3070ffc;
   0x3e3c00c; 0x1e3c000; 0x0; 0x0; 0x0; 0x0; 0x202000; 0x0;
   0x0; 0x0; 0xe0; 0x2aaa060; 0x3fff7f0; 0x3332ff0; 0x3337630; 0x3332338;
   0x377731c; 0x3ffeffc; 0x15d5ffc; 0xc0c88; 0x6d8cd8; 0xeccc88; 0x1cccff8; 0x38c6ff8;
   0x30c7cd8; 0x10c2c88; 0x7f8cd8; 0xed8ff8; 0x1cdcff8; 0x18ce000; 0x38c7f00; 0x30c3ff8;
   0x10c11fc; 0xc000c; 0xc0000; 0x0; 0x0; 0x0; 0x0; 0x202000;
   0x0; 0x0; 0x0; 0x10000e0; 0x1f80060; 0x1fff7f0; 0x83fff0; 0x1864730;
   0x18e6338; 0x1cc631c; 0xcccffc; 0x64cffc; 0x18cd8; 0x1ffccd8; 0x1ffecd8; 0x15d7ff8;
   0xc7ff8; 0xc2cd8; 0x3fffcd8; 0x3fffcd8; 0xc0ff8; 0x18c6ff8; 0x18c6000; 0x18c6f00;
   0x18c6ff8; 0x1ffe1fc; 0x1ffe008; 0x1800000; 0x0; 0x0; 0x0; 0x0;
   0x202000; 0x0; 0x0; 0x0; 0xe00e0; 0xe0060; 0x15d47f0; 0x3ffe7f0;
   0x3ffe730; 0xe38338; 0x63031c; 0x2ebaffc; 0x3ffeffc; 0x3006cd8; 0x30c6cd8; 0x30c6cd8;
   0x7fffff8; 0x3ffeff8; 0x5575cd8; 0x30cd8; 0x1ff0cd8; 0x1ff0ff8; 0x1d70ff8; 0x1c38000;
   0x1c18f00; 0xc1cff8; 0xc4e1fc; 0xf87808; 0x783000; 0x0; 0x0; 0x0;
   0x0; 0x202000; 0x0; 0x0; 0x0; 0x40c0e0; 0xe0c060; 0x71c3f0;
   0x3387f0; 0x3fff730; 0x3fff338; 0x19819c; 0x198ffc; 0x1fffffc; 0x1fffcd8; 0x1998cd8;
   0x3bbacd8; 0x7fffff8; 0x3bbaff8; 0x1998cd8; 0x1bbacd8; 0x1fffcd8; 0x39cff8; 0x79cff8;
   0x79e000; 0xd9f7c0; 0x199bffc; 0x7999dfc; 0x3198c00; 0x198800; 0x0; 0x0;
   0x0; 0x0; 0x202000; 0x0; 0x0; 0x0; 0x733070; 0x233020;
   0x7775f0; 0x27fdf0; 0x777598; 0x2ab3098; 0x3fff0dc; 0x3abf3fc; 0x370c3fc; 0x322ea68;
   0x377fb6c; 0x326fa68; 0x336dbfc; 0x336dbf8; 0x337db6c; 0x337fa68; 0x335d36c; 0x330c3f8;
   0x31ffffc; 0x31ff800; 0x31cc700; 0x38cc3f8; 0x1dcc1fc; 0x1eec000; 0x44c000; 0x0;
   0x0; 0x0; 0x0; 0x202000; 0x0; 0x0; 0x0; 0xe0;
   0x3ffe060; 0x3fff7e0; 0x330ff0; 0x330730; 0x3ffe338; 0x3ffe31c; 0x3326ffc; 0x3336ffc;
   0x3326c88; 0x3ffecd8; 0x2aaac88; 0x1554ff8; 0x1ffcff8; 0x1554cd8; 0xc88; 0x7fffcd8;
   0x3fffff8; 0x5c4ff8; 0xccc000; 0x1dcef00; 0x38c6ff8; 0x31c71fc; 0x20fb00c; 0xf0000;
   0x0; 0x0; 0x0; 0x0; 0x202000; 0x0; 0x0; 0x0;
   0xe0; 0x1ffe060; 0x1fff7f0; 0xc0ff0; 0x15d5730; 0x3fff338; 0x35d731c; 0x30c3ffc;
   0x3fdfffc; 0xac8cd8; 0xc0cd8; 0x1fdecd8; 0x1fdeff8; 0xff8; 0x1ffecd8; 0x1ffecd8;
   0x1d54cd8; 0x1800ff8; 0x1ffcff8; 0x1ffc000; 0x1800f00; 0x1800ff8; 0x1ffe5fc; 0x1ffe00c;
   0x1800000; 0x0; 0x0; 0x0; 0x0; 0x202000; 0x0; 0x0;
   0x0; 0xc1190; 0xe3998; 0x61db0; 0x3ff0db0; 0x3ffbffc; 0xe7bff8; 0x67f5dc;
   0x7cb5e8; 0x3c3dfc; 0x7e3da8; 0x1f7fdbc; 0x3c3b388; 0x307ff10; 0x7ff80; 0x381f0;
   0x7ffff8; 0x7575fc; 0x6aeae0; 0x7fffe0; 0x6060e0; 0x7fffe0; 0x2aaaa0; 0x3fffffc;
   0x3fffffc; 0x1555554; 0x0; 0x0; 0x0; 0x0; 0x202000; 0x0;
   0x0; 0x0; 0x70; 0x1ffc030; 0x1ffc3f0; 0x180c7f8; 0x1ffc318; 0x1aac318;
   0x1d5c19c; 0x1ffc7fe; 0x15547fc; 0x2aaa6c8; 0x3ffe6dc; 0x33266c8; 0x33367fc; 0x3ffe7f8;
   0x3ffe6dc; 0x6c8; 0x1fff6dc; 0x1ffe7f8; 0xe1c7fc; 0xe38000; 0x7f0f00; 0x3e0ff8;
   0x1ffc1fc; 0x3e3f80c; 0x3007000; 0x0; 0x0; 0x0; 0x0; 0x202000;
   0x0; 0x0; 0x0; 0x60060; 0x67ff0; 0x3ff7ff8; 0x3ff0018; 0xc39ffe;
   0xe7d9b0; 0x67df30; 0x3c7ffc; 0x3c7ddc; 0x3c1b98; 0x1ff7ff8; 0x3c3fff8; 0x3018e00;
   0x7ff80; 0x755f0; 0xfffffc; 0xfffff8; 0xe06060; 0xffffe0; 0xe06060; 0xffffe0;
   0xffffe0; 0x1555554; 0x3fffffc; 0x1555554; 0x0; 0x0; 0x0; 0x0;
   0x202000; 0x0; 0x0; 0x0; 0xc00e0; 0xc0060; 0x15d53f0; 0x3fff7f0;
   0x3fff730; 0x183338; 0x1ffb19c; 0x1bab7fc; 0x7fff7fc; 0x3fff6c8; 0x19836d8; 0x1ffb6c8;
   0x1ffb7f8; 0x1837f8; 0x3fff6d8; 0x3ffb6c8; 0x399f6d8; 0x3ffb7f8; 0x3ddf7f8; 0x398b800;
   0x3ffdc00; 0x3989ff8; 0x399dffc; 0x3d88c0c; 0x1d1c800; 0x0; 0x0; 0x0;
   0x0; 0x202000; 0x0; 0x0; 0x0; 0x1800060; 0x187f820; 0x187f9f0;
   0x1861bf0; 0x1861998; 0x1861998; 0x7fff9dc; 0x7fffbfe; 0x5d01bfc; 0x1801b68; 0x187db6c;
   0x1b7db68; 0x1b01bfc; 0x1a01bf8; 0x1effb6c; 0x1effb68; 0x1831b6c; 0x18f7bf8; 0x18f7ffc;
   0x18b6c00; 0x19b7fc0; 0x18b3ffc; 0x1d34f7c; 0x1f3c400; 0xe1c000; 0x0; 0x0;
   0x0; 0x0; 0x202000; 0x0; 0x0; 0x0; 0xe0; 0x3fbf060].
Definition hanzi_data_507 : list N :=
  [0x3fff7f0; 0x3022ff0; 0x33e7730; 0x372e338; 0x366c31c; 0x3830ffc; 0x3f7cffc; 0x37afc98;
   0x31e7cd8; 0x20e0c98; 0xc0ff8; 0xaeaff8; 0x1ffecd8; 0x1aaec98; 0x1806cd8; 0x1806ff8;
   0x1ffeff8; 0x1aae000; 0x1806f00; 0x1806ff8; 0x1ffe5fc; 0x1ffe00c; 0x1806000; 0x0;
   0x0; 0x0; 0x0; 0x202000; 0x0; 0x0; 0x0; 0x70;
   0x3fff830; 0x3fff9f0; 0x2aabbf8; 0x6c5998; 0x6cd898; 0x66d8dc; 0x669bfe; 0x7fffbfc;
   0x3effb68; 0x3311b6c; 0x2fd7b68; 0x3fd7bfc; 0x3dd7bf8; 0x1dd7b6c; 0xcd7b68; 0xcd7b6c;
   0xeffbf8; 0xe75bfc; 0xe38800; 0x1f19f00; 0x1b18ffe; 0x339cdfc; 0x318ec00; 0x2084400;
   0x0; 0x0; 0x0; 0x0; 0x202000; 0x0; 0x0; 0x0;
   0x61c0e0; 0x618060; 0x7183f0; 0x3fff7f0; 0x3fff730; 0xc0338; 0x1ffe19c; 0x1ffe7fc;
   0xc07fc; 0x2aea6c8; 0x3fff6d8; 0x2aee6c8; 0x1ccc7f8; 0xccc7f8; 0x7fff6d8; 0x3fff6c8;
   0x6d8; 0xaaa7f8; 0x1ffe7f8; 0x1806000; 0x1806400; 0x1806ff8; 0x1ffeffc; 0x1ffe00c;
   0x1806000; 0x0; 0x0; 0x0; 0x0; 0x202000; 0x0; 0x0;
   0x0; 0x8c4070; 0x18c6030; 0xcce1f0; 0x6cc3f8; 0x7cc198; 0x3fff998; 0x3fff8dc;
   0x3f03fe; 0x7dc3fc; 0x1ece248; 0x7cc7b4c; 0x30c3248; 0xcc63fc; 0x2e863f8; 0x3fff34c;
   0xc3b248; 0xdf1b4c; 0xcbbbf8; 0xddfbfc; 0x3fde000; 0x7fcc700; 0xc0e7fe; 0xc071fc;
   0xc03800; 0xc01800; 0x0; 0x0; 0x0; 0x0; 0x202000; 0x0;
   0x0; 0x0; 0x40c060; 0xe18060; 0x7383f0; 0x2bba7f0; 0x3fff738; 0x120318;
   0x157519c; 0x1ffe7fe; 0x1d777fc; 0x19326d8; 0x1f1f6d8; 0x180a6d8; 0x1fff7f8; 0x1aaa7f8;
   0x1d576d8; 0x1ffe6d8; 0x17556d8; 0x6007f8; 0x7fff7f8; 0x2eaa000; 0x61cf00; 0x638ff8;
   0x6301fc; 0x7c000c; 0x7c0000; 0x0; 0x0; 0x0; 0x0; 0x202000;
   0x0; 0x0; 0x0; 0x6180e0; 0x618060; 0x3fff7f0; 0x3fff7f0; 0x6dc730;
   0xcc338; 0x15de39c; 0x3ffe7fc; 0x1877fc; 0x1fffed8; 0x1fff6d8; 0x1866d8; 0x1ffe7f8;
   0x1867f8; 0x7ffe6d8; 0x3ffe6d8; 0x66d8; 0x1ffe7f8; 0x1fff7f8; 0xe38000; 0x770f00;
   0x3e0ff8; 0x1ffc1fc; 0x7e3f808; 0x3807000; 0x0; 0x0; 0x0; 0x0;
   0x202000; 0x0; 0x0; 0x0; 0xf000e0; 0x1b00060; 0x3b007f0; 0x3ffe7f0;
   0x3ffe730; 0x2bae338; 0x335619c; 0x32fe7fc; 0x37567fc; 0x1aae6c8; 0x1eff6d8; 0xe9a6c8;
   0x2edf7f8; 0x6ebb7f8; 0x6ffb6d8; 0x3f836c8; 0x39636d8; 0x8f87f8; 0x1ddf7f8; 0x199a000;
   0x341b700; 0x3c1bff8; 0x77f99fc; 0x7f900c; 0x0; 0x0; 0x0; 0x0;
   0x0; 0x202000; 0x0; 0x0; 0x0; 0x3700e0; 0x330060; 0x3ffe7f0;
   0x3ffeff0; 0x3b76730; 0x3bae338; 0x3ffe31c; 0x3b26ffc; 0x3b76ffc; 0x3ffec98; 0x1ffecd8;
   0xc98; 0x3fffff8; 0x2aaaff8; 0x1ffccd8; 0x1ffcc98; 0x1c0ccd8; 0x180cff8; 0x1ffcff8;
   0x1ffc000; 0xe18f00; 0x638ff8; 0x17755fc; 0x3fff00c; 0x5555000; 0x0; 0x0;
   0x0; 0x0; 0x202000; 0x0; 0x0; 0x0; 0x600e0; 0xe0060;
   0x3fff3f0; 0x3fff7f0; 0x730; 0x1ffe338; 0x1fff19c; 0x1bfa7fc; 0x1fff7fc; 0x1a1a6c8;
   0x1fff6d8; 0x1aaa6c8; 0x1fff7f8; 0x7f8; 0x1ffe6d8; 0xffe6c8; 0x1c0e6d8; 0xffe7f8;
   0x1c0e7f8; 0xeae000; 0x1ffef00; 0xff8; 0x7fff1fc; 0x3fff000; 0x0; 0x0;
   0x0; 0x0; 0x0; 0x202000; 0x0; 0x0; 0x0; 0x70c060;
   0x20e060; 0x3f7e7f0; 0x3f7e7f0; 0xf9f730; 0xd9b338; 0x1df399c; 0xe07fc; 0x3fff7fe;
   0x3fff4d8; 0x30034d8; 0x3fff4d8; 0x1ffd7f8; 0xc0c7f8; 0xc0c4d8; 0xffc4d8; 0xffc4d8;
   0xc7f8; 0x1ffc7f8; 0x1ffc000; 0x180cfc0; 0x180cff8; 0x1ffc1fc; 0x1aac000; 0x180c000;
   0x0; 0x0; 0x0; 0x0; 0x202000; 0x0; 0x0; 0x0;
   0x7000; 0x3000; 0x557d40; 0x3fffe0; 0x7fffe0; 0x3000e0; 0x301ce0; 0x303ce0;
   0x30f0e0; 0x3be0e0; 0x1f00e0; 0xa00e0; 0x15555e0; 0x1ffffe0; 0x1ffffe0; 0x1800000;
   0x1800000; 0x18aaaa8; 0x1cffffc; 0x18ffffc; 0x1c00000; 0xc00000; 0xc00000; 0xfe0000;
   0x7c0000; 0x0; 0x0; 0x0; 0x0; 0x202000; 0x0; 0x0;
   0x0; 0x60070; 0x60060; 0x1ffe070; 0xffe060; 0x1ffe070; 0xc2e060; 0x1c7e7fc;
   0xcce7fc; 0xdce770; 0xc0e660; 0xfce770; 0x78e630; 0xe770; 0x3ffe630; 0x3ffe730;
   0x3aabe30; 0x1801f30; 0x1800e38; 0x1bff718; 0x1bff318; 0x180001c; 0x180000c; 0x1d4000e;
   0xf80000; 0x500000; 0x0; 0x0; 0x0; 0x0; 0x202000; 0x0;
   0x0; 0x0; 0xe0000; 0x60000; 0x574000; 0xffeffc; 0xd56ffc; 0xc26e00;
   0xc76600; 0xce6608; 0xfc671c; 0xe06338; 0x7c6370; 0x7863e0; 0x63e0; 0x2aae1c0;
   0x3ffe1c0; 0x38003c0; 0x38003e0; 0x3800760; 0x1fff670; 0x3bff238; 0x180001c; 0x180000e;
   0x1c00004; 0x1f80000; 0xf80000; 0x0; 0x0; 0x0; 0x0; 0x202000;
   0x0; 0x0; 0x0; 0xc7000; 0x3c6000; 0x3fde000; 0x3ffffe0; 0x5fffc;
   0x203800c; 0x71f3000; 0x3fc1800; 0x3ffffc0; 0xbfffc0; 0x3000c0; 0x301cc0; 0x3878c0;
   0x3ee0c0; 0x1e40c0; 0xaaaac0; 0x1ffffc0; 0x1800000; 0x1800000; 0x18ffffc; 0x1cffffc;
   0x1c00000; 0x1c00000; 0xfc0000; 0x7c0000; 0x0; 0x0; 0x0; 0x0;
   0x202000; 0x0; 0x0; 0x0; 0xe0000; 0x60000; 0x5753fc; 0xfff3f8;
   0xd573fc; 0xc13318; 0xc3b31c; 0xc63318; 0xce331c; 0xe43318; 0x7c331c; 0x783318;
   0x331c; 0x2aab318; 0x3fff31c; 0x3800318; 0x38003fc; 0x38003f8; 0x1fff95c; 0x3bff818;
   0x180001c; 0x1800000; 0x1c00000; 0x1f80000; 0xf80000; 0x0; 0x0; 0x0;
   0x0; 0x202000; 0x0; 0x0; 0x0; 0x60000; 0x60000; 0xffdff8;
   0xffcff8; 0xc0dc38; 0xc2cc38; 0xcedc38; 0xdccc38; 0xd8dc38; 0xe0cff8; 0x78dff8;
   0x38cc38; 0xd438; 0x3ffc038; 0x3ffc038; 0x3800038; 0x3800018; 0x3bff018; 0x1bff018].
Definition hanzi_data_508 : list N :=
  [0x3800018; 0x180001c; 0x180000c; 0x180000e; 0x1f00000; 0xf00000; 0x0; 0x0;
   0x0; 0x0; 0x202000; 0x0; 0x0; 0x0; 0x1c0000; 0xe0000;
   0x1fffffc; 0x1ffbff8; 0x1d5c01c; 0x1859808; 0x18ddc7c; 0x1998c68; 0x191ccdc; 0x1818ec8;
   0x1f9c7dc; 0xf18788; 0x1c71c; 0x3ff8708; 0x3ffc79c; 0x3000f88; 0x3000ddc; 0x32aace8;
   0x37ffc7c; 0x32aa078; 0x300001c; 0x3802aa8; 0x1803ffc; 0x1f83ff8; 0xf00000; 0x0;
   0x0; 0x0; 0x0; 0x202000; 0x0; 0x0; 0x0; 0x1c0000;
   0xe0aa8; 0x1ffdffc; 0x1ffdffc; 0x1d5c638; 0x184c638; 0x19dc618; 0x198c618; 0x1b1c618;
   0x180c618; 0x1f9fffc; 0xf0fffc; 0x1dffc; 0x3ffc780; 0x3ffc7c0; 0x30006c0; 0x30006e0;
   0x32aa660; 0x37fe670; 0x32aa638; 0x300061c; 0x380060c; 0x180074c; 0x1f807e0; 0xf003e0;
   0x0; 0x0; 0x0; 0x0; 0x202000; 0x0; 0x0; 0x0;
   0x1c0100; 0xc0180; 0x1ffc3c0; 0x1ffc7c0; 0x1ffcec0; 0x180cc60; 0x1dfdc70; 0xfcf838;
   0x1d1d01c; 0xc0caae; 0xf9dff4; 0x78ceb0; 0x1dc30; 0x3ffcc30; 0x3ffcc30; 0x3000eb0;
   0x3000fb0; 0x3aa83b0; 0x3ffc830; 0x3bfd830; 0x1801830; 0x1801830; 0x1d01ff0; 0x1f80fe0;
   0x700000; 0x0; 0x0; 0x0; 0x0; 0x202000; 0x0; 0x0;
   0x0; 0x1c0010; 0xc0018; 0x1574c18; 0xffcf98; 0x1d5c3f8; 0xc2c0f8; 0x1c7d818;
   0xccd818; 0xdcdd58; 0xc0cff8; 0xf8c7f0; 0x78c080; 0xc1c0; 0x2aac1c0; 0x3ffc1c0;
   0x3801ffc; 0x3801ffc; 0x38001c0; 0x3ffe1c0; 0x3ffe1c0; 0x18001c0; 0x18001c0; 0x18001c0;
   0x1f801c0; 0xf001c0; 0x0; 0x0; 0x0; 0x0; 0x202000; 0x0;
   0x0; 0x0; 0x1c01c0; 0xc0180; 0x15701c0; 0x1ff8180; 0x1d5bffc; 0xc5bffc;
   0x1ddbddc; 0xd9b98c; 0x1d1b9cc; 0xc1b8cc; 0xf991c4; 0xf983c0; 0x183c0; 0x2ab83c0;
   0x3ff83c0; 0x3aa83e0; 0x3800360; 0x3aa8360; 0x1ffd370; 0x3fffb30; 0x1801f38; 0x1800798;
   0x1c0011c; 0x1f8000e; 0xf80004; 0x0; 0x0; 0x0; 0x0; 0x202000;
   0x0; 0x0; 0x0; 0xc01c0; 0xe0180; 0x15741c0; 0xffc180; 0x1ffc1c0;
   0xc4dffc; 0x1cedffc; 0xcccba8; 0xd8c1c0; 0xc0c180; 0xfcc1c0; 0x78c180; 0xcff8;
   0x3ffcff8; 0x3ffcd58; 0x3800c18; 0x1800c18; 0x3aaac18; 0x1ffec18; 0x1aaac18; 0x1800ff8;
   0x1800ff8; 0x1fc0018; 0xf80018; 0x500000; 0x0; 0x0; 0x0; 0x0;
   0x202000; 0x0; 0x0; 0x0; 0x1c01c0; 0xc00c0; 0x15d00c0; 0x1ffbffc;
   0x1ffbffc; 0x185aae8; 0x1cd8070; 0x9982b0; 0x1d183b0; 0xc183b8; 0xf98398; 0xf98bb8;
   0x19ffc; 0x3ff8ba8; 0x3ff8380; 0x3800fb0; 0x3001fb0; 0x3801bb8; 0x3ffdb98; 0x3ffbb98;
   0x180339c; 0x180338c; 0x1d403d0; 0x1f803e0; 0x7801e0; 0x0; 0x0; 0x0;
   0x0; 0x202000; 0x0; 0x0; 0x0; 0x180180; 0x180180; 0x15d1580;
   0x1ffbf80; 0x1ffbf80; 0x1898180; 0x19d8180; 0x1b99ff8; 0x1b19ff8; 0x1819ab8; 0x1f19838;
   0xf19838; 0x19838; 0x19ab8; 0x3ff9ff8; 0x3ff9ff8; 0x3001818; 0x32a8018; 0x37fc018;
   0x3aa8018; 0x380001c; 0x180000c; 0x180001c; 0x1f0000e; 0x1f00004; 0x0; 0x0;
   0x0; 0x0; 0x202000; 0x0; 0x0; 0x0; 0x180000; 0x180000;
   0x15d1ffc; 0x1ff9ffc; 0x1ff999c; 0x181998c; 0x19d999c; 0x199998c; 0x1b19ffc; 0x1819ffc;
   0x1f1999c; 0xf1998c; 0x1999c; 0x1998c; 0x3ff9ffc; 0x3ff9ffc; 0x300199c; 0x32a8180;
   0x37fc180; 0x3aa8180; 0x3800180; 0x1800180; 0x1800180; 0x1f00180; 0x1f00180; 0x0;
   0x0; 0x0; 0x0; 0x202000; 0x0; 0x0; 0x0; 0x1c0000;
   0xe0ff8; 0x1ffdff8; 0x1ffcc18; 0x1d5dc18; 0x184cc18; 0x19ddc18; 0x198cff8; 0x1b1dff8;
   0x180c000; 0x1f9fffe; 0xf0fffe; 0x1d574; 0x3ffc030; 0x3ffc030; 0x3000ff8; 0x3000ff8;
   0x32aac00; 0x37fec00; 0x32aac00; 0x3000c00; 0x3800e00; 0x1800600; 0x1f807e0; 0xf007c0;
   0x0; 0x0; 0x0; 0x0; 0x202000; 0x0; 0x0; 0x0;
   0x6000; 0x6000; 0x7fffe0; 0x7fffe0; 0x606060; 0x607060; 0x3fffffc; 0x3fffffc;
   0x71f00; 0x3e67c0; 0x7fc31fc; 0x3fffffc; 0x3fffc4; 0x301cc0; 0x3878c0; 0x1ee0c0;
   0x1f40c0; 0x1ffffc0; 0x1ffffc0; 0x1800000; 0x18ffffc; 0x18ffffc; 0x1c55554; 0xfc0000;
   0xfc0000; 0x0; 0x0; 0x0; 0x0; 0x202000; 0x0; 0x0;
   0x0; 0x1c0180; 0xc0180; 0x1ffc1c0; 0x1ff83c0; 0x1d5c7e0; 0x1848e60; 0x19ddc70;
   0x1b8b8b8; 0x1b1f1dc; 0x180818c; 0x1f1c380; 0xf08300; 0x1c550; 0x3ff9ff8; 0x7ffdff8;
   0x3000c00; 0x3000e00; 0x32aa600; 0x37fe778; 0x32aa3e0; 0x30001e0; 0x3800380; 0x1800700;
   0x1f80600; 0x1f00000; 0x0; 0x0; 0x0; 0x0; 0x202000; 0x0;
   0x0; 0x0; 0x1c1000; 0xc1c00; 0x15d3fc0; 0x1ff83f8; 0x1ff8378; 0x1858318;
   0x19d8318; 0x1998318; 0x1f18718; 0x818318; 0x1f9bff8; 0xf1bff8; 0x19758; 0x3ff8618;
   0x3ff8618; 0x3000618; 0x3000618; 0x32a8618; 0x37fa618; 0x3aaed98; 0x1806d98; 0x1803f78;
   0x1c03b7c; 0x1f81208; 0xf80000; 0x0; 0x0; 0x0; 0x0; 0x202000;
   0x0; 0x0; 0x0; 0x1c0060; 0xc0060; 0x1ff8070; 0xff8030; 0x1d5bff0;
   0xc5bff8; 0xcd9818; 0xd9b81c; 0xd1995c; 0xc19bfe; 0xf99bfc; 0x799b18; 0x19b18;
   0x3ff9b18; 0x1ff9b18; 0x3801b18; 0x1801bf8; 0x1801bf8; 0x1ffd818; 0x1bfd818; 0x1801c00;
   0x1801800; 0x1c01d40; 0xf80fc0; 0xf807c0; 0x0; 0x0; 0x0; 0x0;
   0x202000; 0x0; 0x0; 0x0; 0x180; 0xff8ac0; 0xffbfe0; 0xc1b870;
   0xf19c7c; 0x2f98cec; 0x3018fc0; 0x3ff8380; 0x3fff1f0; 0x30fc; 0x3fffdc; 0x3fffc0;
   0x300cc0; 0x303cc0; 0x3f70c0; 0x1e60c0; 0x1ffffc0; 0x1ffffc0; 0x1d55540; 0x1800000;
   0x18ffffc; 0x18ffffc; 0x1c00000; 0xfc0000; 0x7c0000; 0x0; 0x0; 0x0;
   0x0; 0x202000; 0x0; 0x0; 0x0; 0xc01c0; 0xc00c0; 0x1c05d0].
Definition hanzi_data_509 : list N :=
  [0x180ff8; 0x3ffeff8; 0x3ffec18; 0x3006cf8; 0x3006d98; 0x301ed98; 0x18c18; 0x18fd8;
   0xc18798; 0x1f18018; 0x7d8ab8; 0x1f9ff8; 0x39aa8; 0x19800; 0x19a00; 0x1019ffc;
   0x60198fc; 0x7019804; 0x3019800; 0x3ff9d00; 0x3ff8f80; 0x540780; 0x0; 0x0;
   0x0; 0x0; 0x202000; 0x0; 0x0; 0x0; 0x1c01c0; 0x8e00c0;
   0x1c71c70; 0xffcff8; 0x3fc7f8; 0xe03c0; 0x1ff9ff0; 0xff9ff8; 0x1c050; 0x3fffffc;
   0x3fffffc; 0x3000; 0x3fffc0; 0x3fffc0; 0x301cc0; 0x3a3cc0; 0x1e70c0; 0xc0;
   0x1ffffc0; 0x1800000; 0x1855554; 0x18ffffc; 0x1c00000; 0xfc0000; 0xfc0000; 0x0;
   0x0; 0x0; 0x0; 0x202000; 0x0; 0x0; 0x0; 0x701c0;
   0x30180; 0x7feffc; 0x7feffc; 0x6301c0; 0x63ef80; 0x63effc; 0x2e781bc; 0x6dfc1c0;
   0x3c8f1f8; 0x3c07cf0; 0x3fffc0; 0x3fffc0; 0x3008c0; 0x307cc0; 0x1ef0c0; 0x440c0;
   0x1ffffc0; 0x1ffffc0; 0x1800000; 0x18ffffc; 0x18ffffc; 0x1c00000; 0xfc0000; 0x7c0000;
   0x0; 0x0; 0x0; 0x0; 0x202000; 0x0; 0x0; 0x0;
   0x180000; 0x182aa8; 0x1ff7ffc; 0x1ff7ffc; 0x1d701c0; 0x18b0180; 0x19f3ffc; 0x1bb3ff8;
   0x1b337dc; 0x8336c8; 0x1f336dc; 0xf336c8; 0x336dc; 0x3ff36c8; 0x3ff36dc; 0x30036c8;
   0x30036dc; 0x32ab6c8; 0x37fb6dc; 0x38036c8; 0x38036dc; 0x18036c8; 0x18036dc; 0x1f03808;
   0x1f0181c; 0x0; 0x0; 0x0; 0x0; 0x202000; 0x0; 0x0;
   0x0; 0x1c0c00; 0xc1f80; 0x15d0ffc; 0x1ff81fc; 0x1ff8184; 0x1818180; 0x1cd8180;
   0x199abaa; 0x1f1bffe; 0x81bffe; 0x1f98180; 0xf18180; 0x518180; 0x2ab8180; 0x3ff9ffc;
   0x3aa9ff8; 0x300181c; 0x3001818; 0x37fd81c; 0x3ffd818; 0x380181c; 0x3801ff8; 0x1801ffc;
   0x1f00018; 0x1f00014; 0x0; 0x0; 0x0; 0x0; 0x202000; 0x0;
   0x0; 0x0; 0x180cc0; 0x180cc0; 0x15d0ce0; 0x1ff0c60; 0x1ff0c70; 0x18b0c30;
   0x19f7fb0; 0x1bb7fb8; 0x1f37fbc; 0x830e3c; 0x1fb1e3e; 0xf31e36; 0x33e34; 0x33f30;
   0x3ff6f30; 0x3aa6f30; 0x3004db0; 0x3000db0; 0x37fcdf0; 0x3aa8cb0; 0x3000c30; 0x3800c30;
   0x1800c30; 0x1f00c30; 0x1f00c30; 0x0; 0x0; 0x0; 0x0; 0x202000;
   0x0; 0x0; 0x0; 0x180020; 0x180060; 0x15d7f70; 0x1ff7f38; 0x1ff001c;
   0x18b000c; 0x1df00cc; 0x1bb00e0; 0x1f37ff0; 0xc37fb0; 0x1fb1838; 0xfb1838; 0x3183c;
   0x3183e; 0x3ff1834; 0x3aa1830; 0x3001830; 0x3001830; 0x37fd830; 0x3aa9830; 0x3801830;
   0x3801830; 0x1801d30; 0x1f01f30; 0x1f00f30; 0x0; 0x0; 0x0; 0x0;
   0x202000; 0x0; 0x0; 0x0; 0x1c0380; 0xc0180; 0x5741c0; 0xffcff0;
   0x1ffdff0; 0xc4c830; 0x1cfdcf0; 0xd8c9b0; 0xd9ddb0; 0xc0cb30; 0xfddd30; 0x78c830;
   0x1dffc; 0x2aacffc; 0x3ffdc30; 0x38008b0; 0x3801db0; 0x3800b30; 0x3ffff18; 0x3bfe818;
   0x1801c18; 0x1800818; 0x1d01d1c; 0x1f80f8c; 0x780704; 0x0; 0x0; 0x0;
   0x0; 0x202000; 0x0; 0x0; 0x0; 0x1c0180; 0xc0180; 0x15f43c0;
   0x1ff87e0; 0x1ffcee0; 0x1819c70; 0x18ffc38; 0x19d981c; 0x1d1c55c; 0xc18ffc; 0x1f9cff0;
   0xf18000; 0x1c000; 0x3ff8ff8; 0x3ffdff8; 0x3000c38; 0x3001c38; 0x3000c38; 0x37fdc38;
   0x3ffcc38; 0x3801d78; 0x1800ff8; 0x1c01ff8; 0x1f80038; 0xf80000; 0x0; 0x0;
   0x0; 0x0; 0x202000; 0x0; 0x0; 0x0; 0x7000; 0x6000;
   0x3fffffc; 0x3fffffc; 0x30c00; 0x330cc0; 0x730ce0; 0xe30c70; 0x1c30c38; 0x1836c18;
   0x7000; 0x3fffc0; 0x3fffc0; 0x301ec0; 0x3d7cc0; 0x1e60c0; 0x440c0; 0x1ffffc0;
   0x1ffffc0; 0x1800000; 0x18ffffc; 0x18ffffc; 0x1c55554; 0xfc0000; 0xfc0000; 0x0;
   0x0; 0x0; 0x0; 0x202000; 0x0; 0x0; 0x0; 0x1c0000;
   0xc001c; 0x15f0038; 0x1ffaaf0; 0x1d5bfe0; 0x85ae80; 0x1dd8c00; 0xf98c00; 0x1d18c0c;
   0xc18c1c; 0xf98c78; 0xf98c30; 0x18c00; 0x2ab8c00; 0x3ffec00; 0x3007c20; 0x3003f70;
   0x3000fb0; 0x37fc3b0; 0x3ffc038; 0x3800018; 0x3800018; 0x180001c; 0x1f8000c; 0xf00000;
   0x0; 0x0; 0x0; 0x0; 0x202000; 0x0; 0x0; 0x0;
   0x1c0000; 0xc0000; 0x1ffbffc; 0x1ffbffc; 0x1d581c0; 0x1899998; 0x19d99d8; 0x1b99998;
   0x1b199d8; 0x1818998; 0x1f19dd8; 0xf19d98; 0x1bdfc; 0x3ffbdbc; 0x3fffdec; 0x30027ec;
   0x30007c6; 0x32a8184; 0x37fc1c0; 0x3aabf80; 0x3803ffc; 0x18003fe; 0x180001c; 0x1f80000;
   0xf80000; 0x0; 0x0; 0x0; 0x0; 0x202000; 0x0; 0x0;
   0x0; 0x180180; 0x180180; 0x15d0180; 0x1fffffc; 0x1fffffc; 0x1898180; 0x19d8180;
   0x1b9bffc; 0x1b1bffc; 0x181b00c; 0x1f1b00c; 0xf1bff8; 0x19ff0; 0x18700; 0x3ff8380;
   0x3ff8180; 0x3001ff0; 0x32a8ffc; 0x37fc19c; 0x3aa8180; 0x3800180; 0x1800180; 0x18001f8;
   0x1f001f0; 0x1f00050; 0x0; 0x0; 0x0; 0x0; 0x202000; 0x0;
   0x0; 0x0; 0x300000; 0x38aaa8; 0x15cfffc; 0x1fefffc; 0x1ff0000; 0x1820000;
   0x19ffffc; 0x1b2fefc; 0x1f7c7cc; 0x1a2c68c; 0x1f7c7cc; 0xf2c68c; 0x7dfdc; 0x2debc;
   0x3ffd7fc; 0x3aaf6ac; 0x300f7ec; 0x32ac6ac; 0x37fc7cc; 0x32ac68c; 0x300c7cc; 0x380c68c;
   0x180c7cc; 0x1f0f6ec; 0x1f0766c; 0x0; 0x0; 0x0; 0x0; 0x202000;
   0x0; 0x0; 0x0; 0x1c0000; 0xc0ff8; 0x1ff9ff8; 0xff8818; 0x1d59c18;
   0xc58818; 0xcd9ff8; 0xd98ff8; 0xd18000; 0xc19ff8; 0xf99ff8; 0x799818; 0x1981c;
   0x3ff9ff8; 0x1ff9ffc; 0x3801818; 0x180181c; 0x1801ab8; 0x1ffdffc; 0x1bfdab8; 0x180181c;
   0x1801818; 0x1c0181c; 0xf81f18; 0xf81f1c; 0x0; 0x0; 0x0; 0x0;
   0x202000; 0x0; 0x0; 0x0; 0x1c0300; 0xc0330; 0x15d0330; 0x1ff8338;
   0x1d5fff8; 0x185bff8; 0x18fc31c; 0x199830c; 0x1d9c30c; 0x818308; 0xf9fffc; 0xf9bffc;
   0x1c000; 0x2ab8000; 0x3ffdff8; 0x3801ff8; 0x3001d58; 0x3aa9818; 0x3ffd818; 0x3801818].
Definition hanzi_data_510 : list N :=
  [0x1801818; 0x1801ff8; 0x1801ff8; 0x1f81818; 0xf01818; 0x0; 0x0; 0x0;
   0x0; 0x202000; 0x0; 0x0; 0x0; 0x180400; 0x1806e0; 0x15d1ffc;
   0x1ff363c; 0x1d73674; 0x18b2620; 0x19f7670; 0x1bb0620; 0x1b37ffc; 0x1837ffc; 0x1f30670;
   0xf32620; 0x37670; 0x2ab36a0; 0x3ff37f0; 0x3001e7e; 0x3001c7c; 0x32a8c20; 0x37fce70;
   0x3800e20; 0x1804f70; 0x1806ba0; 0x18079f0; 0x1f8383c; 0x1f0303c; 0x0; 0x0;
   0x0; 0x0; 0x202000; 0x0; 0x0; 0x0; 0x1c0000; 0xc06e0;
   0x15d0e60; 0x1ff9c70; 0x1d5f830; 0x185b038; 0x18fd31c; 0x199838c; 0x1d9c7c0; 0x818ec0;
   0xf9dce0; 0xf99870; 0x1f878; 0x2abbffc; 0x3fffffe; 0x3801ab4; 0x3001830; 0x3aa9830;
   0x3ffd830; 0x3801830; 0x1801d70; 0x1801ff0; 0x1801ff0; 0x1f81830; 0xf00010; 0x0;
   0x0; 0x0; 0x0; 0x202000; 0x0; 0x0; 0x0; 0x380000;
   0x187f98; 0x187fb8; 0x1ff6ab0; 0x1ff6060; 0x18b6300; 0x19f631c; 0x1bb6308; 0x1f36ffc;
   0x836fe8; 0x1fb675c; 0xf36388; 0x3679c; 0x36f88; 0x3ff6fdc; 0x3aa7b68; 0x3007b7c;
   0x3006328; 0x3ffe31c; 0x32ae308; 0x300631c; 0x3806308; 0x1807c1c; 0x1f03c08; 0xf01414;
   0x0; 0x0; 0x0; 0x0; 0x202000; 0x0; 0x0; 0x0;
   0x1c0c10; 0xc0c30; 0x15d0e70; 0xff8660; 0x1ffbffc; 0xc5bffc; 0x1cdb5d4; 0xd9b180;
   0x1f1b180; 0xc1bff8; 0xf9bff8; 0xf98188; 0x1819c; 0x3ff818c; 0x3ffbffc; 0x3003ffc;
   0x30031c0; 0x3aab1e0; 0x37ff1f0; 0x3aab9b8; 0x1801f9c; 0x1800f8e; 0x1800184; 0x1f00180;
   0x1f00180; 0x0; 0x0; 0x0; 0x0; 0x202000; 0x0; 0x0;
   0x0; 0x180c00; 0x183c00; 0x15d3df8; 0x1ffedf8; 0x1d7ec00; 0x18b8c00; 0x1dffffc;
   0x1bbfffc; 0x1f38c00; 0xc38cc0; 0x1fb8cc0; 0xfb8cc8; 0x38dcc; 0x2ab8fc8; 0x3ff8fcc;
   0x3000cc8; 0x3001ccc; 0x3aa88c8; 0x37fd8cc; 0x3801ac8; 0x380dffc; 0x380f9fe; 0x180f01c;
   0x1f06000; 0xf00000; 0x0; 0x0; 0x0; 0x0; 0x202000; 0x0;
   0x0; 0x0; 0x180e70; 0x180e60; 0x1ff8e70; 0x1ffaee8; 0x1d5bffc; 0x181aee8;
   0x1dd8e70; 0xd98e60; 0x1f1df74; 0xc1bffe; 0xf9fffc; 0xf98000; 0x19550; 0x2ab9ff8;
   0x3ff9ff8; 0x3aa9818; 0x3001818; 0x3801ff8; 0x3ffdff8; 0x3aa9818; 0x1801818; 0x1801818;
   0x1801ff8; 0x1f81ff8; 0xf01818; 0x0; 0x0; 0x0; 0x0; 0x202000;
   0x0; 0x0; 0x0; 0x180670; 0x180660; 0x15d0670; 0x1ff8660; 0x1ffbffc;
   0x189bffc; 0x19d8670; 0x1b98660; 0x1b18670; 0x1818000; 0x1f19ff8; 0xf19ff8; 0x1999c;
   0x19998; 0x3ff999c; 0x3ff9ff8; 0x3001ffc; 0x32a9998; 0x37fd99c; 0x3aa9998; 0x380199c;
   0x1801ff8; 0x1801ffc; 0x1f01818; 0x1f00014; 0x0; 0x0; 0x0; 0x0;
   0x202000; 0x0; 0x0; 0x0; 0x1c0180; 0xc0180; 0x1ff81c0; 0x1ffbffc;
   0x1fffffc; 0x1838ee0; 0x19f9c70; 0x1bbbbb0; 0x1b3f3b8; 0x183abbc; 0x1f3bffc; 0xf3b398;
   0x3b398; 0x2abbff8; 0x3ffbff8; 0x3aab398; 0x30037d8; 0x3003ff8; 0x3ffd7d8; 0x3ff8398;
   0x3000380; 0x3803b80; 0x1807f80; 0x1f80fc0; 0xf00180; 0x0; 0x0; 0x0;
   0x0; 0x202000; 0x0; 0x0; 0x0; 0x1c0000; 0xc1ff8; 0x1ff9ff8;
   0x1ff9818; 0x1d59818; 0x1899ff8; 0x19d9ff8; 0x1b99818; 0x1b19818; 0x1819ab8; 0x1f19ff8;
   0xf18000; 0x18718; 0x3ff8618; 0x3ff8718; 0x3003ef8; 0x3003ff8; 0x32a8618; 0x37fc718;
   0x3aa8618; 0x38037d8; 0x3803ef8; 0x1800f7c; 0x1f80318; 0xf00008; 0x0; 0x0;
   0x0; 0x0; 0x202000; 0x0; 0x0; 0x0; 0x1c0180; 0x180180;
   0x15d01c0; 0x1ffbff8; 0x1d5bffc; 0x185b998; 0x1cdb99c; 0x199bff8; 0x1d1bffc; 0xc1b998;
   0xf9b99c; 0xf9bff8; 0x1bffc; 0x2ab80e0; 0x3ff8770; 0x3800638; 0x300071c; 0x3802ea8;
   0x3fffffc; 0x3bfbffc; 0x1800700; 0x1800600; 0x1f80700; 0xf80600; 0x500700; 0x0;
   0x0; 0x0; 0x0; 0x202000; 0x0; 0x0; 0x0; 0x180000;
   0x187ef8; 0x15d7efc; 0x1ff6688; 0x1ff66dc; 0x18b6688; 0x19f66dc; 0x1bb7ef8; 0x1f37efc;
   0x836688; 0x1f366dc; 0xf36688; 0x1366dc; 0x36688; 0x3ff7efc; 0x3aa7ea8; 0x30066dc;
   0x3806688; 0x1ffe6cc; 0x3ffe68c; 0x18066cc; 0x180628c; 0x18063fc; 0x1f07be6; 0xf03b44;
   0x0; 0x0; 0x0; 0x0; 0x202000; 0x0; 0x0; 0x0;
   0x1c0040; 0xc00c0; 0x1ffc0e0; 0x1ffbfe0; 0x1ffdff0; 0x1819830; 0x19ddc38; 0x1b98e18;
   0x1b1c61c; 0x181824c; 0x1f9c0f0; 0xf1be78; 0x1ff1c; 0x2abb80c; 0x3fff81c; 0x3aab80c;
   0x3003ffc; 0x3003ffc; 0x37ff81c; 0x37ff80c; 0x300381c; 0x3803ffc; 0x1803ffc; 0x1f8380c;
   0xf0001c; 0x0; 0x0; 0x0; 0x0; 0x202000; 0x0; 0x0;
   0x0; 0x1801c0; 0x180180; 0x15d15d4; 0x1ffbffc; 0x1ffbffc; 0x1818000; 0x1cd9ff8;
   0x999ab8; 0x1f19818; 0xc19818; 0xf99ff8; 0xf98000; 0x19ffc; 0x19ff8; 0x3ff8e00;
   0x3aa8380; 0x3000180; 0x3801fa0; 0x3ffdffc; 0x3aa81bc; 0x1800180; 0x1800180; 0x1800180;
   0x1f801f0; 0xf000f0; 0x0; 0x0; 0x0; 0x0; 0x202000; 0x0;
   0x0; 0x0; 0x380100; 0x180380; 0x15d5750; 0x1ff7ff8; 0x1ff7ff8; 0x1830318;
   0x19b3ff8; 0x1b33ff8; 0x1f33758; 0x1833318; 0x1f37ff8; 0xf37ff8; 0x33318; 0x2ab3318;
   0x3ff3ff8; 0x3aa3ff8; 0x300071c; 0x32a8708; 0x37f8d9c; 0x32a998c; 0x30019cc; 0x38030cc;
   0x18070ec; 0x1f0007e; 0xf00024; 0x0; 0x0; 0x0; 0x0; 0x202000;
   0x0; 0x0; 0x0; 0x380300; 0x180300; 0x15d3ff0; 0x1fe3ff0; 0x1ff3300;
   0x18a3300; 0x19ffffc; 0x1b2fffc; 0x1f73300; 0x1823300; 0x1f73ff8; 0xf23ff8; 0x570300;
   0x22318; 0x3ff77d8; 0x3aa27d8; 0x3007f58; 0x32a2f58; 0x37f7f58; 0x3aa2b68; 0x1807f7c;
   0x1802b2c; 0x180732c; 0x1f0230e; 0xf07304; 0x0; 0x0; 0x0; 0x0;
   0x202000; 0x0; 0x0; 0x0; 0x700070; 0x30fc60; 0x174fc70; 0x1fecc60].
Definition hanzi_data_511 : list N :=
  [0x1fecc70; 0x196cc60; 0x1becdfc; 0x1e6edfc; 0x1e6fc70; 0x186ec60; 0x1f6cc70; 0xe6cc60;
   0x6cdfc; 0x2aecdfc; 0x3fefd8c; 0x3aafd8c; 0x300cd8c; 0x32acd8c; 0x37fcd8c; 0x32acfac;
   0x300c7fc; 0x380c60c; 0x180c70c; 0x1f0f300; 0xf07300; 0x0; 0x0; 0x0;
   0x0; 0x202000; 0x0; 0x0; 0x0; 0x1c0000; 0xc3ff8; 0x1ffbff8;
   0x1ffb818; 0x1d7b818; 0x18bbff8; 0x19fbd58; 0x1bbb818; 0x1b3bff8; 0x183bff8; 0x1f38060;
   0xf38030; 0x3bff0; 0x3ffbff8; 0x3ffb19c; 0x300318e; 0x30033dc; 0x32ab3d8; 0x37ff678;
   0x32ab858; 0x3803ff8; 0x3803ff8; 0x1801800; 0x1f81f00; 0xf80f00; 0x0; 0x0;
   0x0; 0x0; 0x202000; 0x0; 0x0; 0x0; 0x180000; 0x183ffc;
   0x1ff3ffc; 0x1ffb3cc; 0x1d7b3cc; 0x18bb3cc; 0x19fbffc; 0x1bbbffc; 0x1b38000; 0x1839ff8;
   0x1f39ffc; 0xf38000; 0x39554; 0x3ffbffc; 0x3fffffc; 0x3000030; 0x3001570; 0x32a9ff0;
   0x37fdd50; 0x3aa9800; 0x3801800; 0x3801800; 0x1801d40; 0x1f00fc0; 0xf007c0; 0x0;
   0x0; 0x0; 0x0; 0x202000; 0x0; 0x0; 0x0; 0x1c0000;
   0xc1ff8; 0x15d1ff8; 0x1ff9838; 0x1d599f8; 0x18599f8; 0x18f9938; 0x1999938; 0x1d9bffc;
   0x81bffc; 0x1f9b00c; 0xf9bffc; 0x19ff0; 0x2ab8c30; 0x3ff9c30; 0x3800ff0; 0x3001d70;
   0x3aa8c30; 0x3ffdff0; 0x3800ff0; 0x1801c30; 0x1800c30; 0x1801c30; 0x1f80f30; 0xf00730;
   0x0; 0x0; 0x0; 0x0; 0x202000; 0x0; 0x0; 0x0;
   0xc0c00; 0xc0ff8; 0x38cc1f8; 0x18cc180; 0x1ccdffc; 0xccfffc; 0x5e67e0; 0x3e0ff0;
   0x730db8; 0x1e1e19c; 0x1c0f984; 0x1880; 0x3fffc0; 0x3aaac0; 0x303cc0; 0x1ef0c0;
   0x1e40c0; 0x1ffffc0; 0x1ffffc0; 0x1800000; 0x18ffffc; 0x18ffffc; 0x1c00000; 0xfc0000;
   0xfc0000; 0x0; 0x0; 0x0; 0x0; 0x202000; 0x0; 0x0;
   0x0; 0x381020; 0x183830; 0x15d1870; 0x1ff0c60; 0x1ff0ce0; 0x18b7ffc; 0x19f7ffc;
   0x1bb0820; 0x1b31870; 0x1830830; 0x1fb4db0; 0xf36d98; 0x367d8; 0x2ab3eec; 0x3ff3ffc;
   0x300326c; 0x3001870; 0x32ab870; 0x37ffcf0; 0x32aecd8; 0x30076dc; 0x380fefe; 0x180dffc;
   0x1f8c180; 0x1f00000; 0x0; 0x0; 0x0; 0x0; 0x202000; 0x0;
   0x0; 0x0; 0x180000; 0x183ff8; 0x1ff3ff8; 0x1ff3318; 0x1d73318; 0x18b3318;
   0x19f3ff8; 0x1bb3ff8; 0x1f31558; 0x1830018; 0x1f33ff8; 0xf33ff8; 0x33078; 0x3ff3078;
   0x3ff3ff8; 0x3003ff8; 0x3003078; 0x32abaf8; 0x37ffffc; 0x32ab068; 0x300306c; 0x3803aec;
   0x1803fec; 0x1f8306e; 0xf03064; 0x0; 0x0; 0x0; 0x0; 0x202000;
   0x0; 0x0; 0x0; 0x61550; 0x63ff8; 0x3ff1c40; 0x3ff8fe0; 0xc7fffc;
   0xe6fffc; 0x7c73c0; 0x383b60; 0xff1b3c; 0x3e7c39c; 0x381b3c4; 0x3fffc0; 0x3fffc0;
   0x300cc0; 0x303cc0; 0x1ef0c0; 0x440c0; 0x1ffffc0; 0x1ffffc0; 0x1800000; 0x19ffffc;
   0x19ffffc; 0x1c00000; 0xfc0000; 0x7c0000; 0x0; 0x0; 0x0; 0x0;
   0x202000; 0x0; 0x0; 0x0; 0x180000; 0x187ffc; 0x15d7ffc; 0x1ff0000;
   0x1ff1ff8; 0x1831ff8; 0x19b1818; 0x1b31818; 0x1f31ff8; 0x1831ff8; 0x1f30000; 0xf32aa8;
   0x37ffc; 0x2ab300c; 0x3ff7c6c; 0x3aa36ec; 0x30077cc; 0x3003fec; 0x37ffffc; 0x32ab18c;
   0x300718c; 0x380318c; 0x180718c; 0x1f03d8c; 0xf01d0c; 0x0; 0x0; 0x0;
   0x0; 0x202000; 0x0; 0x0; 0x0; 0x1c1000; 0xc3f80; 0x1ff9ffc;
   0x1ffb0bc; 0x1d7b1dc; 0x18bb998; 0x19f9998; 0x1bb9bb8; 0x1b38c10; 0x1838830; 0x1f3bff0;
   0xf3bff8; 0x3819c; 0x3ff818c; 0x3ff95dc; 0x3003ffc; 0x3007ffc; 0x32aa998; 0x37ff998;
   0x32ab998; 0x3003998; 0x3803b98; 0x1803ff8; 0x1f83bf8; 0xf00000; 0x0; 0x0;
   0x0; 0x0; 0x202000; 0x0; 0x0; 0x0; 0x180400; 0x180ee0;
   0x1c1c70; 0x1ffb830; 0x1fff19c; 0x18ba18c; 0x1df8cc0; 0x1bb8c60; 0x1f39ff0; 0x83bff8;
   0x1fbb058; 0xfb8000; 0x3bffc; 0x3bffc; 0x3ffb7cc; 0x3ffb6d8; 0x3003cf0; 0x30030c0;
   0x37ffcf0; 0x3aabefc; 0x38037dc; 0x38030c0; 0x18034d0; 0x1f03ef8; 0xf01450; 0x0;
   0x0; 0x0; 0x0; 0x202000; 0x0; 0x0; 0x0; 0x180040;
   0x1800e0; 0x1ff7f7c; 0x1ff7f0c; 0x1d76c0c; 0x18b6c4c; 0x19b6ccc; 0x1b366cc; 0x1f366fc;
   0x18366fc; 0x1f37f9c; 0xf30a04; 0x30000; 0x3ff3ff8; 0x3ff3ff8; 0x3003318; 0x3003318;
   0x32abff8; 0x37fbff8; 0x32ab318; 0x3003318; 0x3803318; 0x1803ff8; 0x1f03ff8; 0xf03018;
   0x0; 0x0; 0x0; 0x0; 0x202000; 0x0; 0x0; 0x0;
   0x1c0300; 0xc2388; 0x1fff9fc; 0x1ff9db0; 0x1d58180; 0x1898db0; 0x1ddfdfe; 0xb9a3cc;
   0x1d18ee0; 0xc19c70; 0xf9b87c; 0x79fffe; 0x1bff4; 0x3ff9830; 0x3ff9d70; 0x3801ff0;
   0x3001d70; 0x3aa9830; 0x3ffdff0; 0x3aa9ff0; 0x1801830; 0x1801830; 0x1f81830; 0xf01f30;
   0xf30; 0x0; 0x0; 0x0; 0x0; 0x202000; 0x0; 0x0;
   0x0; 0x1c0810; 0xc1838; 0x1ff9c30; 0x1ff8c60; 0x1d78660; 0x18b8020; 0x19fbffc;
   0x1bbbffc; 0x1f38660; 0x1838e60; 0x1f39c38; 0xf3b81c; 0x3f01c; 0x3ff8aa8; 0x3ff9ff8;
   0x3001ad8; 0x3001bd8; 0x32a9ad8; 0x37fdbd8; 0x32a9ad8; 0x3007fd8; 0x3803ff8; 0x18007fe;
   0x1f8000e; 0x1f00000; 0x0; 0x0; 0x0; 0x0; 0x202000; 0x0;
   0x0; 0x0; 0x301830; 0x381830; 0x15d0c60; 0x1ffaee8; 0x1fffffc; 0x1832ee8;
   0x19f06c0; 0x1bb3ff8; 0x1f37ffc; 0x18326c0; 0x1f376c0; 0xf3fffc; 0x3fffc; 0x326c0;
   0x3ff76c0; 0x3aa3ff8; 0x3007ffc; 0x32a8ee0; 0x37f9ef0; 0x32ab6d8; 0x30076dc; 0x38026cc;
   0x18006cc; 0x1f006c4; 0x1f006c0; 0x0; 0x0; 0x0; 0x0; 0x202000;
   0x0; 0x0; 0x0; 0x1c0180; 0xc0180; 0x15d0180; 0x1ffbffc; 0x1d5bffc;
   0x185b0cc; 0x1cdb3fc; 0x199b36c; 0x1d18770; 0xc1bff0; 0xf9bff8; 0xf1823c; 0x1873e;
   0x2abbffc; 0x3ffbff4; 0x3aa8230; 0x3000730; 0x3002ab0; 0x37ffff0; 0x3ff8230; 0x3800730].
Definition hanzi_data_512 : list N :=
  [0x3800230; 0x1807ff0; 0x1f83ff0; 0xf80030; 0x0; 0x0; 0x0; 0x0;
   0x202000; 0x0; 0x0; 0x0; 0x700000; 0x30fdf8; 0x3fffdfc; 0x3fe8d88;
   0x357bdec; 0x386bde8; 0x13fbdec; 0x3f6bda8; 0x1e7bdec; 0x186bda8; 0x1d795fc; 0x1f678f0;
   0x6dddc; 0x2af8f8e; 0x3fe8584; 0x3aa3ffc; 0x3007ffc; 0x30060e0; 0x37f3070; 0x37f3830;
   0x3001ff0; 0x3000f80; 0x3807fe0; 0x1f0f0fc; 0x1f0401c; 0x0; 0x0; 0x0;
   0x0; 0x202000; 0x0; 0x0; 0x0; 0x180300; 0x180700; 0x15d0700;
   0x1ff7ff8; 0x1ff7ff8; 0x18b0018; 0x19f3198; 0x1bb3198; 0x1f33198; 0x1837ff8; 0x1d37ff8;
   0xf33198; 0x533198; 0x33198; 0x3ff3198; 0x3ff3f98; 0x3003f98; 0x32a8018; 0x37ffd58;
   0x3aaebd8; 0x3007b5c; 0x3804b6c; 0x1805b6c; 0x1f00b2e; 0x1f00004; 0x0; 0x0;
   0x0; 0x0; 0x202000; 0x0; 0x0; 0x0; 0x300000; 0x387efc;
   0x15d7efc; 0x1ff66c8; 0x1ff6edc; 0x18368f0; 0x19f70e0; 0x1bb7cf8; 0x1f36edc; 0x18362c8;
   0x1f34300; 0xf30fc0; 0x33ef0; 0x37a3c; 0x3ff671c; 0x3aa01e0; 0x3001cf8; 0x32a8e38;
   0x37fb7c0; 0x3aab8f8; 0x3801c78; 0x3800f80; 0x18007f0; 0x1f800fc; 0xf0001c; 0x0;
   0x0; 0x0; 0x0; 0x202000; 0x0; 0x0; 0x0; 0x1c0300;
   0xc0380; 0x1ff15d4; 0x1ffbffc; 0x1d7d5d4; 0x18bb3c8; 0x19f9ffc; 0x1bb8e70; 0x1b3bc70;
   0x183fffc; 0x1f3fffc; 0xf39834; 0x39ff0; 0x3ff9ab0; 0x3ff9830; 0x3001ff0; 0x3001ff0;
   0x32a8ba0; 0x37fdfb0; 0x32a9bb8; 0x3003398; 0x380339c; 0x180038c; 0x1f803e0; 0xf801e0;
   0x0; 0x0; 0x0; 0x0; 0x202000; 0x0; 0x0; 0x0;
   0x1c0360; 0xc0660; 0x15d0670; 0x1ff8e30; 0x1fffff0; 0x181fff8; 0x1dd863c; 0x199863c;
   0x1d1bffc; 0xc1bff4; 0xf98630; 0xf1aeb0; 0x1bff0; 0x2ab8630; 0x3ff8630; 0x3aafff0;
   0x3007ff0; 0x3800030; 0x3ffb658; 0x3ffb6d8; 0x18076d8; 0x18066d8; 0x1806ccc; 0x1f0000c;
   0xf00000; 0x0; 0x0; 0x0; 0x0; 0x202000; 0x0; 0x0;
   0x0; 0xdc0180; 0x1cc2ba8; 0x18c7ffc; 0x3ff8aa0; 0x3ffdff0; 0x1e1830; 0x11e1ff0;
   0x21f0980; 0x35f9db0; 0x3f9f9f8; 0xf1dc; 0x3fffc0; 0x3fffc0; 0x3008c0; 0x347cc0;
   0x3ee0c0; 0x4c0c0; 0x1ffffc0; 0x1ffffc0; 0x1800000; 0x19ffffc; 0x18ffffc; 0x1c00000;
   0xfc0000; 0x7c0000; 0x0; 0x0; 0x0; 0x0; 0x202000; 0x0;
   0x0; 0x0; 0x180000; 0x183ff8; 0x1ff1ff8; 0x3ff0c60; 0x1d70fe0; 0x18b3ffc;
   0x19b7ffc; 0x1b333c0; 0x1e337f0; 0x1830238; 0x1f307dc; 0xf30380; 0x37ff8; 0x3ff7ff8;
   0x3ff7598; 0x3006ed8; 0x3007c78; 0x32aeff8; 0x37fffd8; 0x32aecd8; 0x3007dd8; 0x3806fd8;
   0x18070d8; 0x1f07818; 0xf03818; 0x0; 0x0; 0x0; 0x0; 0x202000;
   0x0; 0x0; 0x0; 0xc0000; 0xfe1ff8; 0x1ffdc18; 0xe6fab8; 0x7c5ff8;
   0x3ff8180; 0x7c3ff98; 0xff9f98; 0x1c19198; 0xeb9ff8; 0x1fff5fc; 0x3000; 0x3fffc0;
   0x3fffc0; 0x301cc0; 0x38f8c0; 0x1ec0c0; 0x1ffffc0; 0x1ffffc0; 0x1800000; 0x18ffffc;
   0x18ffffc; 0x1c00000; 0xfc0000; 0x7c0000; 0x0; 0x0; 0x0; 0x0;
   0x202000; 0x0; 0x0; 0x0; 0x1c0000; 0x183ff8; 0x15d3ff8; 0x1ffb6c8;
   0x1d7b6d8; 0x18bbff8; 0x1dfbff8; 0xbb8000; 0x1f3fffc; 0xc3fffc; 0xfb8000; 0xfbbff8;
   0x3bff8; 0x2abb018; 0x3ffb018; 0x3003ff8; 0x3003ff8; 0x3aaa3e0; 0x37ff770; 0x3aa9c3e;
   0x3801c7c; 0x1803a20; 0x1f873f0; 0x1f820f0; 0x500010; 0x0; 0x0; 0x0;
   0x0; 0x202000; 0x0; 0x0; 0x0; 0x1801c0; 0x180180; 0x15d7ffc;
   0x1ffbffc; 0x1ff8000; 0x181bff8; 0x19dbffc; 0x199b2a8; 0x1f1b7fc; 0x81b668; 0x1f9b7fc;
   0xf1baa8; 0x1bffc; 0x18000; 0x3ff9ff8; 0x3aa9ab8; 0x3801d78; 0x3801ff8; 0x1ffd838;
   0x1ffdff8; 0x1801ff8; 0x1803800; 0x1d03ffc; 0xf80bfc; 0x500004; 0x0; 0x0;
   0x0; 0x0; 0x202000; 0x0; 0x0; 0x0; 0x6000; 0xe000;
   0x3fffff0; 0x3fffff0; 0x1ccc30; 0x1ffe630; 0x15d7730; 0xfffbb0; 0x1fffff0; 0xbaeaf0;
   0x1ffe730; 0x186238; 0x3fff730; 0x7a38; 0xffff38; 0xffff38; 0x64fb18; 0x7be318;
   0x3ffff18; 0x3ffff18; 0x300001c; 0x3bfffcc; 0x195554c; 0x1f8000e; 0x1f80004; 0x0;
   0x0; 0x0; 0x0; 0x202000; 0x0; 0x0; 0x0; 0x6381c0;
   0x6380c0; 0x3fff5d0; 0x3fff7f8; 0x6bc7f8; 0x18c618; 0x15de6f8; 0x3ffe6d8; 0x187798;
   0x1fffe18; 0x1fff7d8; 0x1863d8; 0x1ffe018; 0x186018; 0x3ffeff8; 0x3ffeea8; 0x6c00;
   0x1ffee00; 0x1ffeffc; 0xe38ffe; 0x770c04; 0x3e0c00; 0x1ffce00; 0x3e3f7c0; 0x30077c0;
   0x0; 0x0; 0x0; 0x0; 0x202000; 0x0; 0x0; 0x0;
   0x180c60; 0x180c60; 0x15d7ffc; 0x1fffffc; 0x1d78c60; 0x18b8c60; 0x1dffffc; 0x1bbfffc;
   0x1f3e00c; 0xc3efec; 0xfb9ff0; 0xfb8000; 0x3fffc; 0x2abfff8; 0x3ff91c0; 0x30031f8;
   0x3001b3c; 0x32a8fc8; 0x37fdf70; 0x3ff9fbc; 0x38077c8; 0x38026e0; 0x180063c; 0x1f003cc;
   0xf003c0; 0x0; 0x0; 0x0; 0x0; 0x202000; 0x0; 0x0;
   0x0; 0x380c60; 0x180c60; 0x15d7ffc; 0x1ffbffc; 0x1d78c60; 0x183aaa8; 0x19fbefc;
   0x1bba2c8; 0x1f3b6cc; 0x83bef8; 0x1fb9674; 0xf38320; 0x3fff0; 0x3ffbff8; 0x3ff863c;
   0x3002ebc; 0x3003ffe; 0x300063c; 0x37ffff8; 0x37fbff8; 0x3800638; 0x3800638; 0x1807ff8;
   0x1f83ff8; 0xf00038; 0x0; 0x0; 0x0; 0x0; 0x202000; 0x0;
   0x0; 0x0; 0x300000; 0x387ff8; 0x187ff8; 0x1fe0300; 0x1fffffc; 0x182fffc;
   0x19fc30c; 0x1bafbfc; 0x1f77f70; 0x8203a8; 0x1ff7ff8; 0xf20200; 0x7fe70; 0x2fe20;
   0x3ffc7fc; 0x3aaeffc; 0x300fe70; 0x300c6f0; 0x3ffd7f8; 0x3aaffa8; 0x300c67c; 0x380c624;
   0x180fe74; 0x1f0ee20; 0xf0c670; 0x0; 0x0; 0x0; 0x0; 0x202000;
   0x0; 0x0; 0x0; 0x1c301c0; 0xc300c0; 0xc715c0; 0x661fc0; 0x3ffdfc0].
Definition hanzi_data_513 : list N :=
  [0x3ffc0c0; 0x1c01c0; 0xc0ff8; 0x1ffdffc; 0x1ffca08; 0xc1f3c; 0xe0b68; 0x7ffff7c;
   0x3ffe9c8; 0x71ddc; 0x30988; 0x1ff9ddc; 0x1ff8b68; 0x31df7c; 0x30ea38; 0x307c1c;
   0x302ff8; 0x7ffdffc; 0x3ffc808; 0x1c; 0x0; 0x0; 0x0; 0x0;
   0x202000; 0x0; 0x0; 0x0; 0x6000; 0xe000; 0x3fffff0; 0x3fffff0;
   0x1575d70; 0x60c30; 0x70c30; 0x1fffff0; 0x1fffff0; 0x1860c30; 0x1870c30; 0x1860c30;
   0x1fffff0; 0x1fffff0; 0x70330; 0x830338; 0x1e75738; 0xfb7f38; 0x3f7f18; 0x30318;
   0x707031c; 0x303031c; 0x3ffff8c; 0x3feff8e; 0x1540184; 0x0; 0x0; 0x0;
   0x0; 0x202000; 0x0; 0x0; 0x0; 0xc000; 0xc000; 0x3fffff0;
   0x3fffff0; 0x70c30; 0x1fffff0; 0x1fffff0; 0x1830c30; 0x1c70c30; 0x1fffff0; 0x1575770;
   0xe30330; 0x1ffff30; 0xfab38; 0x307d338; 0x3ffffb8; 0x1ff1f98; 0x200218; 0x7f0718;
   0xffe18; 0x1c07f1c; 0x180020c; 0x1d5570c; 0xfffe0e; 0x7ffc00; 0x0; 0x0;
   0x0; 0x0; 0x202000; 0x0; 0x0; 0x0; 0xe000; 0xe000;
   0x3fffff0; 0x3fffff0; 0x30c30; 0xfffff0; 0xfffff0; 0xc30c30; 0xfffff0; 0xfffff0;
   0xc30330; 0x1fb7f38; 0x7f7f30; 0x3030338; 0x3577fb8; 0x3ffffb8; 0x198; 0xffc18;
   0xffc18; 0xe0e18; 0x30e0e1c; 0x30e060c; 0x35c078c; 0x3fc03ce; 0x15001c4; 0x0;
   0x0; 0x0; 0x0; 0x202000; 0x0; 0x0; 0x0; 0x6000;
   0xe000; 0x3fffff8; 0x3fffff8; 0x30c38; 0xfffff8; 0x1fffff8; 0x830c38; 0x1fffff8;
   0xababb8; 0x1f77fb8; 0xff7fb8; 0x30703b8; 0x3ffffb8; 0x1fe1ff8; 0x3e00b8; 0x7fff18;
   0xc218; 0x3fffff8; 0x3fffff8; 0x7f81c; 0x3cde0c; 0x1f1c7ce; 0x3c0c0ee; 0x1c004;
   0x0; 0x0; 0x0; 0x0; 0x202000; 0x0; 0x0; 0x0;
   0x6000; 0xe000; 0x3fffff0; 0x3fffff0; 0x70c30; 0x1fffff0; 0x1fffff0; 0x1830c30;
   0x1fffff0; 0x1fffff0; 0xc30330; 0x1ff7f38; 0x11f5730; 0x303e3b8; 0x3fffff8; 0xa8e3b8;
   0x155d558; 0x1ffffd8; 0x155d558; 0xc018; 0xffff9c; 0xc00c; 0x155d54c; 0x3ffffee;
   0x1555544; 0x0; 0x0; 0x0; 0x0; 0x202000; 0x0; 0x0;
   0x0; 0x6000; 0xe000; 0x3fffff0; 0x3fffff0; 0x30c30; 0xfffff0; 0x1fffff0;
   0xc30c30; 0x1fffff0; 0xfffff0; 0x1f35730; 0xff7f38; 0x3070330; 0x3037bb8; 0x3ff7fb8;
   0x30c2b8; 0x71c718; 0x38ce18; 0x3ffffd8; 0x3ffffd8; 0xff81c; 0x3cde0c; 0x1f1c7cc;
   0x3e0c1ee; 0x101c044; 0x0; 0x0; 0x0; 0x0; 0x202000; 0x0;
   0x0; 0x0; 0x6000; 0xe000; 0x3fffff0; 0x2aaaeb0; 0x1fffff0; 0xfffff0;
   0x1c70c30; 0xfffff0; 0xc30330; 0xff7f30; 0x3175730; 0x3ffffb8; 0x1fe7fb0; 0x2838;
   0xfffff8; 0xea81b8; 0xff7fd8; 0xff3f98; 0xc001d8; 0xffff98; 0x1575d1c; 0x3031c0c;
   0x3570f4c; 0x3fe03ee; 0x1540044; 0x0; 0x0; 0x0; 0x0; 0x202000;
   0x0; 0x0; 0x0; 0x1c301c0; 0xc30180; 0x1c317d0; 0xc33ff8; 0x3fffffc;
   0x3ffc6c8; 0x1c306dc; 0xc33ff8; 0x1ff3ffc; 0xff36c8; 0x1c336dc; 0xc336c8; 0x1ff3ffc;
   0xff3ff8; 0x1c3067c; 0xc30668; 0x7ffdffc; 0x3ffffe8; 0x555467c; 0xee066c; 0xc7066c;
   0x1833fec; 0x3839ffc; 0x301c26e; 0x100c004; 0x0; 0x0; 0x0; 0x0;
   0x202000; 0x0; 0x0; 0x0; 0x1c0180; 0x80180; 0x3fffffc; 0x3fffffc;
   0x7f07f0; 0x1ebddb8; 0x7dcf99e; 0x208618c; 0x3fffff0; 0x3fffff0; 0x30c30; 0x30c30;
   0x1fffff0; 0x1abaeb0; 0x1c30c30; 0x1fffff8; 0x1fffff8; 0x8301b8; 0x1f37f98; 0xff7f98;
   0x1070198; 0x203019c; 0x303ff9c; 0x3ffff8e; 0x1fe0184; 0x0; 0x0; 0x0;
   0x0; 0x202000; 0x0; 0x0; 0x0; 0x7000; 0xe000; 0x3fffff0;
   0x2abaeb0; 0x1fffff0; 0xfffff0; 0x1c30c30; 0xfffff0; 0xc30330; 0x1ff7f30; 0x31f5730;
   0x3fffbb8; 0x1fe7ff0; 0xe0b8; 0x3fffff8; 0x2aaaab8; 0x7fff98; 0x7fff98; 0x755798;
   0x7fff98; 0x18c41c; 0x3ccf0c; 0x1f0c3ce; 0x380f8e0; 0x100f060; 0x0; 0x0;
   0x0; 0x0; 0x202000; 0x0; 0x0; 0x0; 0xe000; 0xc000;
   0x3fffff8; 0x30c38; 0x1fffff8; 0xebaeb8; 0x1fffff8; 0xfffff8; 0xf355b8; 0xff7fb8;
   0x30741b8; 0x3fffff8; 0x1540fb8; 0x602eb8; 0x607ff8; 0x3ff60b8; 0x3ff7fd8; 0x626098;
   0x667fd8; 0x6e6098; 0x6c7ffc; 0x687c0c; 0x6067cc; 0x7c69ee; 0x7c7844; 0x0;
   0x0; 0x0; 0x0; 0x202000; 0x0; 0x0; 0x0; 0x1801c0;
   0x3998180; 0x1998380; 0xdb3ff8; 0x1dd7ffc; 0x3ffc2c8; 0x3ffc6dc; 0x7e1ff8; 0x1df1ffc;
   0x39b92c8; 0x719f6dc; 0x399d2c8; 0x1819ffc; 0x18f9ff8; 0x7f7c67c; 0x3f6c668; 0x1967ffc;
   0x19effe8; 0x19ff67c; 0x3fb8668; 0x7fb066c; 0x1819fec; 0x181dffc; 0x180e22e; 0x1804004;
   0x0; 0x0; 0x0; 0x0; 0x202000; 0x0; 0x0; 0x0;
   0x6000; 0x6000; 0x1fffff8; 0x1fffff8; 0x6000; 0x6000; 0xffffe0; 0xffffe0;
   0x6000; 0x6000; 0x3fffffc; 0x3fffffc; 0x1e00; 0xf00; 0x7fff80; 0x3fffc0;
   0x1c07f0; 0xe0e3c; 0x71e18; 0x3f800; 0x1f000; 0xffe00; 0x1ff1ff0; 0x3f803fc;
   0x3c0007c; 0x0; 0x0; 0x0; 0x0; 0x202000; 0x0; 0x0;
   0x0; 0x181c0; 0x18080; 0x1dffc; 0x3ffdffc; 0x3ffcdd0; 0x380ec98; 0x38677d8;
   0x3a6eeb8; 0x3b6dbec; 0x3b683e4; 0x3978ff0; 0x3969cb8; 0x1fff9fe; 0x3ffe06c; 0x18f0ff0;
   0x19f8ff0; 0x1bf8638; 0x1b6c67c; 0x1e6e7ec; 0x18663c0; 0x18637c0; 0x1860ee0; 0x1c6047c;
   0xf0001c; 0xf00000; 0x0; 0x0; 0x0; 0x0; 0x202000; 0x0;
   0x0; 0x0; 0x1c0180; 0x180180; 0x1c1ffc; 0x181ffc; 0x15d4180; 0x1ff8ba8;
   0x1ffdffc; 0x180ba8; 0x1c0180; 0x183ffc; 0x1c3ffc; 0x2ba80e0; 0x3ffc560; 0x3ffdff0;
   0x1c1ff0; 0x3c0c38; 0x3c0e7c; 0x3e06ee; 0x7707c4; 0x670380; 0xe387c0; 0x1c1cee0].
Definition hanzi_data_514 : list N :=
  [0x3c1e478; 0x380703c; 0x3002008; 0x0; 0x0; 0x0; 0x0; 0x202000;
   0x0; 0x0; 0x0; 0x101c0; 0x18080; 0x1dffc; 0x3ffdffc; 0x3ffc1c0;
   0x300eaa8; 0x3067ffc; 0x3667aa8; 0x376c1c0; 0x3369ffc; 0x3179ffc; 0x30680e0; 0x37fe560;
   0x37feff0; 0x3070ff0; 0x38f0e38; 0x39f863c; 0x3b6c6fe; 0x1e6e7e4; 0x3867380; 0x18637c0;
   0x1860ee0; 0x1c60478; 0x1f6003e; 0xf0000c; 0x0; 0x0; 0x0; 0x0;
   0x202000; 0x0; 0x0; 0x0; 0xe000; 0xe000; 0x1c000; 0x3fffff8;
   0x3fffff8; 0x38; 0x380c38; 0x380c38; 0x380c38; 0x380c38; 0x3ff7ff8; 0x3ff7ff8;
   0x7c1e18; 0x7c3e38; 0xfc7f18; 0xfeef18; 0x1ff4f98; 0x1bb0d98; 0x3bb8ddc; 0x739ccf8;
   0x339cc5c; 0x380c0c; 0x380c0c; 0x380c0e; 0x380c04; 0x0; 0x0; 0x0;
   0x0; 0x202000; 0x0; 0x0; 0x0; 0xc000; 0xc000; 0x3fffff8;
   0x3fffff8; 0x100438; 0x180c38; 0x1ff7ff8; 0x1ff7fb8; 0x17d5d38; 0x7c3e38; 0xdf7f38;
   0x19b6fb8; 0x399cdf8; 0x188cb8; 0x10e438; 0x7038; 0xf3c18; 0x78e18; 0x33c798;
   0x30e398; 0x70781c; 0xfe3e1c; 0x1ffff9c; 0x182ff8e; 0x1800104; 0x0; 0x0;
   0x0; 0x0; 0x202000; 0x0; 0x0; 0x0; 0xe000; 0xe000;
   0x3fffff8; 0x3fffff8; 0x180c38; 0x180c38; 0x3ff7ff8; 0x3ff7fb8; 0x7c3e38; 0xfe6f38;
   0x1df4fb8; 0x39b8df8; 0x1190cf8; 0x3e0838; 0x1fffb8; 0xffb8; 0x1ffc018; 0xffffd8;
   0xd7d8; 0x3ffc018; 0x1ffffdc; 0x200c3ec; 0x700c00c; 0x3ffc00e; 0x1ffc00c; 0x0;
   0x0; 0x0; 0x0; 0x202000; 0x0; 0x0; 0x0; 0xe0700;
   0xe0600; 0x1fffff0; 0xfffff0; 0x15f5750; 0xe0600; 0xe0700; 0x3fffffc; 0x3fffffc;
   0x6000; 0x557540; 0x7fffe0; 0x757560; 0x606060; 0x7fffe0; 0x7fffe0; 0x606060;
   0x606060; 0x7fffe0; 0x7fffe0; 0x60600; 0x3f0f80; 0x1fc07f0; 0x3e000fc; 0x1800018;
   0x0; 0x0; 0x0; 0x0; 0x202000; 0x0; 0x0; 0x0;
   0x180e60; 0x180e60; 0x181f74; 0x183ffc; 0x183ffc; 0x180e60; 0x7f80e60; 0x3f83ffc;
   0x187ffc; 0x180180; 0x1815d0; 0x183ff8; 0x183ddc; 0x1ffb998; 0x1fffffc; 0x181bff8;
   0x181f99c; 0x181b998; 0x181fffc; 0x181bff8; 0x181c460; 0x1818e70; 0x1fffc3c; 0x1ff980e;
   0x181c004; 0x0; 0x0; 0x0; 0x0; 0x202000; 0x0; 0x0;
   0x0; 0x707040; 0x7060e0; 0x38e1c0; 0x1fffff8; 0x1fffff8; 0x1820218; 0x186061c;
   0x1fffff8; 0x7fffe0; 0x60600; 0x3fffffc; 0x3fffffc; 0x6000; 0x7fffe0; 0x7fffe0;
   0x606060; 0x7fffe0; 0x7fffe0; 0x606060; 0x7fffe0; 0x7fffe0; 0xe0600; 0x7f07c0;
   0x3f001fc; 0x1c00078; 0x0; 0x0; 0x0; 0x0; 0x202000; 0x0;
   0x0; 0x0; 0x700000; 0x7ffa00; 0x1ffff0; 0x6ae0; 0x6000; 0x3fffff8;
   0x3fffffc; 0x7fc00; 0x1f6f00; 0x7863c0; 0x1f0f1f8; 0x180f83c; 0x107dc18; 0xf0f00;
   0x7c67c0; 0x3f860f8; 0x3d861fc; 0x21c6388; 0xff700; 0x7fe00; 0x1f7fc0; 0xf863f0;
   0xf06078; 0x7c00; 0x7c00; 0x0; 0x0; 0x0; 0x0; 0x202000;
   0x0; 0x0; 0x0; 0x71c00; 0x31fe8; 0x307fc; 0x3ff8180; 0x3ffd5d4;
   0x398fffc; 0x39cf7d4; 0x38c47e0; 0x18e1ff0; 0x18719b8; 0x1d3e19c; 0x1f0f18c; 0x73fd84;
   0xf8e00; 0x7e67c0; 0x1f861f0; 0x3f8617c; 0x31c639c; 0xff700; 0x7fe00; 0x1f7f00;
   0x3c63e0; 0xf060f0; 0x407c30; 0x7c00; 0x0; 0x0; 0x0; 0x0;
   0x202000; 0x0; 0x0; 0x0; 0x1c1000; 0x183ff8; 0x1c17f8; 0x180380;
   0x1c7ffc; 0x3f87ffc; 0x7fc57d4; 0x180fe0; 0x1c3ff0; 0x1833bc; 0x1c039c; 0x1803c0;
   0x3ff8fe0; 0x3ffbcf8; 0x3d5f9be; 0x381a18c; 0x38199bc; 0x3818df0; 0x3818fe0; 0x3819ff0;
   0x381bdfc; 0x3abb18c; 0x3ff8184; 0x3ff81e0; 0x38181c0; 0x0; 0x0; 0x0;
   0x0; 0x202000; 0x0; 0x0; 0x0; 0x0; 0x7fffe0; 0x7ffff0;
   0x606260; 0x6c6370; 0x666660; 0x676670; 0x636660; 0x757570; 0x7fffe0; 0x7ffff0;
   0x6000; 0xfffff0; 0xfffff0; 0x557550; 0x6000; 0x1557554; 0x3fffffc; 0x3fffffc;
   0x20; 0xf18c70; 0xe38c30; 0x1c30c38; 0x3870c38; 0x1071c1c; 0x0; 0x0;
   0x0; 0x0; 0x202000; 0x0; 0x0; 0x0; 0x1c0000; 0xc1ffc;
   0x1c1ffc; 0x3e1aac; 0x771fbc; 0x631aac; 0xe39bec; 0x1c59aac; 0x3cfd98c; 0x39cfffc;
   0x1385ffc; 0x300180; 0x101ffc; 0x1ff9ffc; 0x1ffd5d4; 0xc00180; 0xe01ffc; 0x601ffc;
   0x700814; 0x300f68; 0x301b7c; 0x381b6c; 0x1c1b4c; 0x1c026e; 0xc0004; 0x0;
   0x0; 0x0; 0x0; 0x202000; 0x0; 0x0; 0x0; 0x180000;
   0x183ff8; 0x783ff8; 0xd83198; 0x1d83df8; 0x1983df8; 0x11835f8; 0x1837d8; 0x3fff598;
   0x3fffff8; 0x1c3ff8; 0x180180; 0x1c3ffc; 0x3c3ff8; 0x3c15d0; 0x3c0180; 0x7e3ffc;
   0x663ffc; 0x670014; 0xe31ad8; 0x1c396d8; 0x183b6c8; 0x781d6cc; 0x700e6ce; 0x2004004;
   0x0; 0x0; 0x0; 0x0; 0x202000; 0x0; 0x0; 0x0;
   0x1c6100; 0x7ee380; 0x370c1c0; 0x3fffef0; 0x15ffefc; 0x20700dc; 0x71f00cc; 0x3fc00c0;
   0x1f55540; 0x7fffe0; 0x646360; 0x6e6360; 0x676660; 0x626060; 0x7fffe0; 0x6000;
   0xfffff0; 0xfffff0; 0x6000; 0x3fffffc; 0x1555554; 0x638ce0; 0x1c30c70; 0x1830c38;
   0x1871c1c; 0x0; 0x0; 0x0; 0x0; 0x202000; 0x0; 0x0;
   0x0; 0x180000; 0x181ff8; 0x1195ffc; 0x3989888; 0x399dfbc; 0x3989ea8; 0x399dfec;
   0x3989ae8; 0x399dbac; 0x3ba9ff8; 0x3ffdffc; 0x2ba8180; 0x1815d4; 0x318dffc; 0x318d5d4;
   0x318c180; 0x318dffc; 0x318dffc; 0x318c014; 0x318cb68; 0x318db58; 0x3ffda68; 0x3ffd64c;
   0x300024c; 0x3000044; 0x0; 0x0; 0x0; 0x0; 0x202000; 0x0;
   0x0; 0x0; 0x700000; 0x318ffc; 0x718ffc; 0x308ccc; 0x70cffc; 0x30ceec].
Definition hanzi_data_515 : list N :=
  [0x3fccfec; 0x3fe6dec; 0x3376dcc; 0x3333ffc; 0x333fffc; 0x331f0c0; 0x3318ffc; 0x3308ffc;
   0x330c5d4; 0x333c0c0; 0x3136ffc; 0x31a6ffc; 0x31ff404; 0x31ff5a8; 0x31e7dec; 0x38c096c;
   0x18e1d6c; 0x1e6036c; 0xe60004; 0x0; 0x0; 0x0; 0x0; 0x202000;
   0x0; 0x0; 0x0; 0x1c0000; 0xc1ffc; 0x1fe1ffc; 0x1ff1aac; 0x1c39efc;
   0xc1daac; 0xe7faec; 0x7e5aac; 0x3c18cc; 0x1e1ffc; 0x1f1ffc; 0x3be080; 0x1ddffc;
   0x3fe0ffc; 0x3ff15d4; 0x3838080; 0x185dffc; 0x1cefffc; 0xfc4004; 0xf80d68; 0x781f7c;
   0x3e1b6c; 0xfdb4c; 0x3e26c; 0xc004; 0x0; 0x0; 0x0; 0x0;
   0x202000; 0x0; 0x0; 0x0; 0x180000; 0x183ff8; 0x183ffc; 0x1831a8;
   0x3fffdbc; 0x3fff5a8; 0x1835fc; 0x1837e8; 0x18359c; 0x183ff8; 0x1ffbffc; 0x1ff8180;
   0x1553ffc; 0x3ff8; 0x15515d4; 0x1ff8180; 0x1ffbffc; 0x183bffc; 0x1839014; 0x1839b48;
   0x183b7d8; 0x183b6c8; 0x1ffb6cc; 0x1ff86cc; 0x1838044; 0x0; 0x0; 0x0;
   0x0; 0x202000; 0x0; 0x0; 0x0; 0x0; 0x3fffff8; 0x3fffff8;
   0x18038; 0x39c038; 0x70c038; 0x3fffff8; 0x2aefab8; 0x1c3c38; 0xf80f38; 0x7fffff8;
   0x3c99bf8; 0xcd9338; 0xcdb338; 0xffff18; 0x18038; 0x1ffff18; 0xffff18; 0x18018;
   0x3ffffd8; 0x155555c; 0xc6330c; 0x1cc738c; 0x38c61ce; 0x10460c4; 0x0; 0x0;
   0x0; 0x0; 0x202000; 0x0; 0x0; 0x0; 0x40000; 0xe0ffc;
   0x771ffc; 0xe30aac; 0x1c39efc; 0x1ffcaac; 0x3ffdfec; 0x300cbac; 0x1771ccc; 0xe38ffc;
   0x1c1dffc; 0x380c080; 0x706fffc; 0x62ffc; 0x1ff05d4; 0x1ff8080; 0x1c3dffc; 0xe3fffc;
   0x776014; 0x3e0de8; 0x1c0d7c; 0x7e1b6c; 0x1f7db6c; 0x3c1e26e; 0x3006044; 0x0;
   0x0; 0x0; 0x0; 0x202000; 0x0; 0x0; 0x0; 0xc0000;
   0xc1ff8; 0x1c1ffc; 0x381988; 0x3ffddbc; 0x3ffdfa8; 0x1ffc; 0x1ff9be8; 0x1ff999c;
   0x1819ff8; 0x1819ffc; 0x1818180; 0x1819ffc; 0x1ff9ffc; 0x1ff95d4; 0x180180; 0x193ffc;
   0xdb3ffc; 0x1d98014; 0x1998b68; 0x319db5c; 0x318dacc; 0x718e6cc; 0x1e02cc; 0x1e0044;
   0x0; 0x0; 0x0; 0x0; 0x202000; 0x0; 0x0; 0x0;
   0x30f00; 0x38ffc; 0x3ff81fc; 0x3ff8180; 0x3dddffc; 0x38cebe8; 0x18e6ff0; 0x1871db8;
   0x1f7899e; 0xe18188; 0x7ffff0; 0x7fffe0; 0x666770; 0x626660; 0x7ffff0; 0x7fffe0;
   0xfffff0; 0xfffff0; 0x6000; 0x3fffffc; 0x3fffffc; 0x718e60; 0xe38c70; 0x1c30c3c;
   0x1830c18; 0x0; 0x0; 0x0; 0x0; 0x202000; 0x0; 0x0;
   0x0; 0x1c0000; 0xc1ff8; 0x15d5ffc; 0xff9888; 0x1ffdfbc; 0xc1ea8; 0x15d5fec;
   0x3fffaa8; 0x1fffbac; 0x1881ff8; 0x1db9ffc; 0xde0180; 0x1cd5d4; 0x19cffc; 0x1995d4;
   0x180180; 0x3fffffc; 0x3fffffc; 0xc0014; 0x3e0b28; 0x771b78; 0xe39a48; 0x3c3c64c;
   0x300f24c; 0x1006044; 0x0; 0x0; 0x0; 0x0; 0x202000; 0x0;
   0x0; 0x0; 0x40000; 0xe0ffc; 0x370ffc; 0x638c8c; 0xfdcefc; 0x1ffeebc;
   0x18fcffc; 0xe0fac; 0x3fffdcc; 0x3ffeffc; 0x730ffc; 0xe380c0; 0x3dde5d4; 0x38cfffc;
   0x20725d4; 0x6380c0; 0x79cffc; 0x11c0ffc; 0x3cf0414; 0xe3cde8; 0x718d7c; 0x3c0b6c;
   0x1f9b6c; 0x3e26e; 0x1c046; 0x0; 0x0; 0x0; 0x0; 0x202000;
   0x0; 0x0; 0x0; 0x1c0000; 0x181ff8; 0x181ffc; 0x3ffd988; 0x3ffddbc;
   0xc31da8; 0xc31ffc; 0xc31be8; 0x671b9c; 0x2eabff8; 0x7fffffc; 0x2aaa180; 0x15d4;
   0x1ffbffc; 0x1ff95d4; 0x1818180; 0x181bffc; 0x1abbffc; 0x1ff9014; 0x1ab9b08; 0x181b758;
   0x181b6c8; 0x1ff96cc; 0x1ff86cc; 0x1818044; 0x0; 0x0; 0x0; 0x0;
   0x202000; 0x0; 0x0; 0x0; 0x639c40; 0x638c60; 0x739ce0; 0x338cc0;
   0x339dc0; 0x3fffffc; 0x3fffffc; 0x3860c0; 0x1c63c0; 0xe6300; 0xfffff0; 0xfffff0;
   0xf57570; 0xe06030; 0xe36c70; 0xe36e30; 0xe66670; 0xee6630; 0xec6770; 0xfc63b0;
   0xf861f0; 0xe06030; 0xf46070; 0xfc6030; 0x7c6070; 0x0; 0x0; 0x0;
   0x0; 0x202000; 0x0; 0x0; 0x0; 0xe0640; 0x6e3248; 0xee365c;
   0x18e1a58; 0x18e1e58; 0xe2ae8; 0x3fffffc; 0x3ffaba8; 0x6199c; 0x619b8; 0x1fe0db0;
   0x3fe2ba8; 0x1d73ffc; 0x18e3ba8; 0x1cf319c; 0xcf37e8; 0xdf37fc; 0xfbbda8; 0x71bdbc;
   0x31f9b8; 0x78f19c; 0xfcf188; 0x3cf319c; 0x387bd88; 0x1031d1c; 0x0; 0x0;
   0x0; 0x0; 0x202000; 0x0; 0x0; 0x0; 0x580760; 0xf83268;
   0x398377c; 0x1181a78; 0x7ffdf78; 0x3ffc260; 0x187ffc; 0x183ffe; 0x3ffb99c; 0x3ff9998;
   0x3199db0; 0x319abb8; 0x3ffbffc; 0x3ffbba8; 0x319b18c; 0x319b3e8; 0x35db7ec; 0x3ffbda8;
   0x3ffbdbc; 0x319bdb8; 0x319b19c; 0x319b188; 0x319b18c; 0x3d9bd88; 0x1c19d8c; 0x0;
   0x0; 0x0; 0x0; 0x202000; 0x0; 0x0; 0x0; 0x0;
   0x3fffe0; 0x7fffe0; 0x300060; 0x700060; 0x300060; 0x7fffe0; 0x3fffe0; 0x7000;
   0x6000; 0xfffff0; 0xfffff0; 0xe07030; 0xe06030; 0xfffff0; 0xeaeab0; 0xe07030;
   0xeaeab0; 0xfffff0; 0xaaeab0; 0x7007030; 0x3006000; 0x3fff000; 0x3ffe000; 0x1550000;
   0x0; 0x0; 0x0; 0x0; 0x202000; 0x0; 0x0; 0x0;
   0x0; 0x7fffe0; 0x7fffe0; 0x0; 0x3fffffc; 0x3fffffc; 0x3030600; 0x3030780;
   0x3ff03fc; 0xa8007c; 0x7fffe0; 0x300060; 0x755560; 0x3fffe0; 0x7000; 0xfffff0;
   0xfffff0; 0xc06030; 0xfffff0; 0xc06030; 0xfffff0; 0x2fffff0; 0x7007000; 0x3ffe000;
   0x1ffc000; 0x0; 0x0; 0x0; 0x0; 0x202000; 0x0; 0x0;
   0x0; 0x555550; 0xff9ff8; 0x1d5dd78; 0xff9ff8; 0x7fffe0; 0x7fffe0; 0x7fffe0;
   0x7fffe0; 0x7fffe0; 0x7fffe0; 0x3fffffc; 0x3fffffc; 0x7fffe0; 0x3fffe0; 0x7fffe0;
   0x3fffe0; 0xfffff0; 0xfffff0; 0xd57570; 0xfffff0; 0xc07030; 0x2fffff0; 0x7007000].
Definition hanzi_data_516 : list N :=
  [0x3ffe000; 0x1ffc000; 0x0; 0x0; 0x0; 0x0; 0x202000; 0x0;
   0x0; 0x0; 0x0; 0xfff00; 0x1cfff38; 0xce0338; 0x1cfff38; 0xcfff38;
   0x1ce0338; 0xcfff38; 0x1cfff38; 0xce0338; 0x1cfff38; 0xcfff38; 0x1c00038; 0xff8ff8;
   0x1ff8ff8; 0x38c00; 0x1578d54; 0x1ff8ffc; 0x1ff8ffc; 0x1838c60; 0x1838c70; 0x1838c30;
   0x1838c38; 0x1838c1c; 0x1838c1c; 0x0; 0x0; 0x0; 0x0; 0x202000;
   0x0; 0x0; 0x0; 0x0; 0xffff8; 0x1ffff8; 0x3fc0700; 0x3fe0380;
   0x38001c0; 0x19ffff8; 0x1efff3c; 0xec031c; 0xcfff30; 0xcc0330; 0xcfff30; 0xcfff30;
   0xcc0330; 0xcfff30; 0xc00030; 0xff9ff0; 0xff8ff0; 0x39c00; 0x1ff8ffc; 0x1ff9ffc;
   0x18388e0; 0x1839c70; 0x183883c; 0x1839c1c; 0x0; 0x0; 0x0; 0x0;
   0x202000; 0x0; 0x0; 0x0; 0x70000; 0xabaaa8; 0x1fffff8; 0x3e000;
   0x77c00; 0x30f80; 0x757fc; 0x3e07c; 0x1fff80; 0xfff80; 0x1fff80; 0xcfffb0;
   0x1dd57b0; 0xcfffb0; 0x1dc03b0; 0xcfffb0; 0x1c00030; 0xff8ff0; 0x1ff9ff0; 0x38c00;
   0x1ff9ffc; 0x1ab8ee8; 0x1839c70; 0x1838c3c; 0x1839c1c; 0x0; 0x0; 0x0;
   0x0; 0x202000; 0x0; 0x0; 0x0; 0x180180; 0x180180; 0x183ffc;
   0x183ffc; 0x3ffd5d4; 0x3ffc180; 0x15d5ffc; 0x181ffc; 0x181554; 0x180000; 0x1ffdff8;
   0x3ffdff8; 0x181dc18; 0x1819818; 0x1c39d58; 0xc31ff8; 0xe71ff8; 0x7e0c30; 0x7e0e70;
   0x3c0660; 0x7e3660; 0xff3fe0; 0x1e7dffc; 0x381e03c; 0x3006000; 0x0; 0x0;
   0x0; 0x0; 0x202000; 0x0; 0x0; 0x0; 0x419c20; 0xf998f0;
   0x1f9fc0; 0xf9e00; 0x7f9ff8; 0x3e18ef8; 0x3018f80; 0x3ff83f8; 0x1ff01fc; 0x180180;
   0x1c3ffc; 0x3fffffc; 0x3ffc180; 0x181ff8; 0x1c1ff8; 0x3ffcaa8; 0x1ffdff8; 0x1c39818;
   0xe71ff8; 0x661ff8; 0x7e0c30; 0x3e2660; 0x1ffbff4; 0x3e3effc; 0x300c014; 0x0;
   0x0; 0x0; 0x0; 0x202000; 0x0; 0x0; 0x0; 0x1c0180;
   0x182ba8; 0x3fffffc; 0x2baaba8; 0x1c3ff8; 0x1ff8000; 0x1ffdff8; 0xe31818; 0x771ff8;
   0x3c0c20; 0x1fffff0; 0x3e3bffc; 0x1557d54; 0x7fffe0; 0x606060; 0x7fffe0; 0x7fffe0;
   0x603860; 0x7fffe0; 0x38f80; 0x157d7d4; 0x3fffffc; 0x157d554; 0x38000; 0x38000;
   0x0; 0x0; 0x0; 0x0; 0x202000; 0x0; 0x0; 0x0;
   0xc00; 0xaa9fe0; 0xff87f0; 0xe00030; 0xe00070; 0xff9ff0; 0xff9ff0; 0xe00030;
   0xe00070; 0xfffff0; 0xfffff0; 0x0; 0x717070; 0x336360; 0x7f7f70; 0x3e6c60;
   0x707170; 0x636360; 0x777770; 0x6e6e60; 0x647070; 0x26e6660; 0x7eff7f0; 0x3c0f1f0;
   0x1801010; 0x0; 0x0; 0x0; 0x0; 0x202000; 0x0; 0x0;
   0x0; 0x300040; 0x360af0; 0x771f7c; 0x631808; 0x63181c; 0xe39f78; 0xc19f7c;
   0x1c19808; 0x1c1d81c; 0x380fff8; 0x7557ffc; 0x2ffa888; 0x1ff9ddc; 0xce0888; 0xc61ffc;
   0xc60ee8; 0xc61ddc; 0xc60bb8; 0xc71ffc; 0xc30ee8; 0xc31ddc; 0xe3aea8; 0xf5fffc;
   0x7df9fe; 0x3cb044; 0x0; 0x0; 0x0; 0x0; 0x202000; 0x0;
   0x0; 0x0; 0x70040; 0x60af0; 0x71f7c; 0x31808; 0x3ff181c; 0x3ff9f78;
   0x3ff9f7c; 0x3819808; 0x301d81c; 0x380fff8; 0x33fdffc; 0x3bf8800; 0x3b1999c; 0x3b19b88;
   0x3b19ffc; 0x3b19fe8; 0x1bf999c; 0x1bf9bb8; 0x1959ffc; 0x1819da8; 0x180199c; 0x1805d88;
   0x1c457fc; 0xfc73fc; 0x7c7044; 0x0; 0x0; 0x0; 0x0; 0x202000;
   0x0; 0x0; 0x0; 0x40; 0x2af0; 0x3ffff7c; 0x3ffb008; 0x1c301c;
   0xc3ef8; 0xc3ffc; 0xe3008; 0x6301c; 0x63ff8; 0x73ffc; 0x1ff2888; 0x1ff999c;
   0x187b9a8; 0x187dffc; 0x186fde8; 0x187d1dc; 0x18637a8; 0x1871ffc; 0x1863dc8; 0x187719c;
   0x1fef1e8; 0x1fff7fc; 0x186f3bc; 0x1876084; 0x0; 0x0; 0x0; 0x0;
   0x202000; 0x0; 0x0; 0x0; 0x180040; 0x180af0; 0x181f7c; 0x181808;
   0x18181c; 0x3ffdf78; 0x3ffdf7c; 0x3bad808; 0x398d81c; 0x398dff8; 0x398dffc; 0x398c880;
   0x398dddc; 0x3ffc888; 0x3ffdffc; 0x398cee8; 0x398dddc; 0x398cbb8; 0x398dffc; 0x398cee8;
   0x398d9dc; 0x3bae888; 0x3fffffc; 0x3fffbfc; 0x380d044; 0x0; 0x0; 0x0;
   0x0; 0x202000; 0x0; 0x0; 0x0; 0x40; 0x3ffeaf0; 0x3ffff7c;
   0xc3808; 0xc381c; 0xe3ff8; 0x1ffbffc; 0x1ffb808; 0x1c6381c; 0xc63ff8; 0x1c63ffc;
   0x3ffc880; 0x7ffd998; 0x1ba8; 0x1ff8; 0x1ff9de8; 0x1ff9998; 0x1819ba8; 0x1819ff8;
   0x1819dc8; 0x1819998; 0x181d988; 0x1ffd7fc; 0x1fff3fc; 0x181f044; 0x0; 0x0;
   0x0; 0x0; 0x202000; 0x0; 0x0; 0x0; 0x180040; 0x180af0;
   0x3ffdf7c; 0x3ffd808; 0x18181c; 0xba9f78; 0x1ff9f7c; 0x181808; 0x18181c; 0x3ffdff8;
   0x3ffdffc; 0x888; 0x1ff9d9c; 0x1ff8888; 0x1819ffc; 0x1ff8ee8; 0x1ff999c; 0x1818bb8;
   0x1d59ffc; 0x1ff8ea8; 0x1d5999c; 0x181fc88; 0x181fffc; 0x1f1bbfc; 0x1f1b044; 0x0;
   0x0; 0x0; 0x0; 0x202000; 0x0; 0x0; 0x0; 0x1000040;
   0x3fa0af0; 0x1ffdf7c; 0x30bd808; 0x19dd81c; 0x1999f78; 0x1dd9f7c; 0x8d1808; 0x4e181c;
   0xe71ff8; 0x779ffc; 0xdf8888; 0x1df9ddc; 0x1870888; 0x3ffdffc; 0x33fcee8; 0x1185ddc;
   0x2ba8bb8; 0x7ffdffc; 0x2be8ee8; 0x3c19dc; 0x6e78a8; 0x1e77ffc; 0x383fbfe; 0x301f044;
   0x0; 0x0; 0x0; 0x0; 0x202000; 0x0; 0x0; 0x0;
   0x40; 0x1ff8af0; 0x1ffdf7c; 0x1819808; 0x1ffd81c; 0x1ff9f78; 0x181df7c; 0x1ff9808;
   0x1ffd81c; 0xc1ff8; 0x3ffdffc; 0x3ffc888; 0x300ddcc; 0x30cc888; 0xc1ffc; 0x3ffcee8;
   0x7ffddcc; 0xc30bb8; 0xe31ffc; 0x6f8ee8; 0x7f19cc; 0xfc7ea8; 0x1ff7ffc; 0x387fbfe;
   0x101b044; 0x0; 0x0; 0x0; 0x0; 0x202000; 0x0; 0x0;
   0x0; 0x7000; 0x7000; 0x3fffc0; 0x3fffc0; 0x3fffc0; 0x3fffc0; 0x3555c0].
Definition hanzi_data_517 : list N :=
  [0x3fffc0; 0x3000c0; 0x3fffc0; 0x155540; 0xfffff0; 0xfffff0; 0xc06030; 0xfffff0;
   0xc06030; 0xfffff0; 0xaaaaa0; 0x3fffffc; 0x3fffffc; 0x15f5754; 0xe0380; 0xe01e0;
   0xe00fc; 0xe001c; 0x0; 0x0; 0x0; 0x0; 0x202000; 0x0;
   0x0; 0x0; 0x60300; 0x60380; 0x63ff0; 0x63ab0; 0x63ff0; 0x63ff0;
   0x7ffff0; 0x7ffff0; 0x663d70; 0x663ff0; 0x660000; 0x667ff8; 0x67775c; 0x667ff8;
   0x677ffc; 0x636ba8; 0x677ffc; 0x630000; 0x263fffc; 0x663fffc; 0x6618c60; 0x6618c30;
   0x7e1cc38; 0x3e0ec3c; 0x1c04c1c; 0x0; 0x0; 0x0; 0x0; 0x202000;
   0x0; 0x0; 0x0; 0x380; 0x180; 0x3ff9ff8; 0x3ff9818; 0x381ff8;
   0x381ab8; 0x381ff8; 0x381ff8; 0x381ff8; 0x381ff8; 0x7ffc000; 0x3fffffc; 0x17d718c;
   0x383ffc; 0x3835dc; 0x383bac; 0x383ffc; 0x380000; 0x387ffc; 0x382ee8; 0x380c70;
   0x380c70; 0x380c38; 0x380c3c; 0x380c1c; 0x0; 0x0; 0x0; 0x0;
   0x202000; 0x0; 0x0; 0x0; 0x60380; 0x60180; 0x71ff8; 0x31ab8;
   0x3ff9ff8; 0x3ff9ff8; 0x301dff8; 0x300fff8; 0x315fd58; 0x3bfdff8; 0x3358000; 0x3b1bff8;
   0x3b1f5dc; 0x3b1bff8; 0x1b1fffc; 0x1b1bba8; 0x1bffffc; 0x1bf8000; 0x181fffc; 0x180fffe;
   0x1800c70; 0x1800c30; 0x1c00c38; 0xfc0c1c; 0x7c0c1c; 0x0; 0x0; 0x0;
   0x0; 0x202000; 0x0; 0x0; 0x0; 0x180180; 0x180180; 0x181ff8;
   0x3ffdab8; 0x3ffdff8; 0x7e1ff8; 0xff1ff8; 0xdb9ff8; 0x399dd58; 0x318fff8; 0x184000;
   0x3ff8; 0x1ffb5d8; 0x1abbff8; 0x181bffc; 0x1ffbba8; 0x1ffbffc; 0x1818000; 0x181bffc;
   0x1ffbffc; 0x1ff8670; 0x630; 0x7ffe638; 0x3ffe61c; 0x60c; 0x0; 0x0;
   0x0; 0x0; 0x202000; 0x0; 0x0; 0x0; 0x180180; 0x180180;
   0x3f81ff8; 0x2b81ab8; 0x15d5ff8; 0x3ffdff8; 0x35ddff8; 0x398dff8; 0x3ffdd58; 0x31adff8;
   0x3f8c000; 0x1f8fff8; 0x154f5dc; 0x1fefff8; 0x1d6fffc; 0x186fba8; 0x1fefffc; 0x1fec000;
   0x186fffe; 0x1fefffe; 0x1fec670; 0x186e630; 0x5d76638; 0x3ffe61c; 0x555460c; 0x0;
   0x0; 0x0; 0x0; 0x202000; 0x0; 0x0; 0x0; 0xc01c0;
   0x3fff0c0; 0x3fff7f8; 0xffe618; 0x1dd67f8; 0xffe6b8; 0x1ffe7f8; 0x3fffff8; 0x3557ff8;
   0x3fbfff8; 0x39e7800; 0x1fbeffc; 0x1774ccc; 0x3ffeffc; 0x1fffddc; 0xffeeec; 0x1ffeffc;
   0x2aba000; 0x3fffffc; 0x9b8bb8; 0x1f1f330; 0x61bb30; 0x1df9318; 0x38fc31e; 0x101c30c;
   0x0; 0x0; 0x0; 0x0; 0x202000; 0x0; 0x0; 0x0;
   0x7000; 0x6000; 0xe000; 0x3fffffc; 0x3fffffc; 0x1c0380; 0xe0700; 0x70e00;
   0x3fc00; 0x1f800; 0x7fc00; 0x3f9fc0; 0x7fc07fc; 0x3e802fc; 0x1c0300; 0xc0300;
   0x1c0300; 0xc0380; 0x1c0380; 0xc0380; 0x1c0180; 0xc01c0; 0x1c01e0; 0xc00f0;
   0x1c0060; 0x0; 0x0; 0x0; 0x0; 0x202000; 0x0; 0x0;
   0x0; 0x3800; 0x7000; 0x3fffffc; 0x3fffffc; 0x15d57d4; 0xe0700; 0x7de00;
   0x1f800; 0x1fff00; 0x3ff8ff8; 0x3fd11fc; 0x19808; 0xf5dd70; 0xff9fb0; 0xf5dd70;
   0xe19830; 0xffdff0; 0xeb9ab0; 0xe1d830; 0xff9fb0; 0xffdfb0; 0xe19838; 0xffffdc;
   0xffffcc; 0xe0000c; 0x0; 0x0; 0x0; 0x0; 0x202000; 0x0;
   0x0; 0x0; 0x6000; 0x6080; 0x61c0; 0xffe0c0; 0xffe1c0; 0x60c0;
   0x61c0; 0x60c0; 0x3fffffc; 0x3fffffc; 0x6000; 0xc0e030; 0x1c06030; 0xc06030;
   0x1c07030; 0xc1f830; 0x1c3dc30; 0xcf0e30; 0x1de0f30; 0xfc03b0; 0x1d801b0; 0xeaaab0;
   0x1fffff0; 0xfffff0; 0x1c00000; 0x0; 0x0; 0x0; 0x0; 0x202000;
   0x0; 0x0; 0x0; 0xc0300; 0xc0300; 0xc0330; 0xc2b30; 0xc7f30;
   0x38c0330; 0x3cc0330; 0x1cc0330; 0xec7ffc; 0x7c7ffc; 0x7c0300; 0x1c2318; 0x1e319c;
   0xf3198; 0xff19c; 0xdb398; 0xc33dc; 0xc36d8; 0x10c3efc; 0x30c3c78; 0x70c301c;
   0x30c3a18; 0x3fc3ffc; 0x3fc32f8; 0x1503000; 0x0; 0x0; 0x0; 0x0;
   0x202000; 0x0; 0x0; 0x0; 0x40180; 0xe0180; 0x60198; 0x63f98;
   0x3ff3f98; 0x3ff8198; 0x1558198; 0x1c198; 0x1fffc; 0x3ffc; 0x1ff0100; 0xff1988;
   0x70198c; 0x301988; 0x3819cc; 0x1c19c8; 0x1c1bcc; 0xe1be8; 0x71e6c; 0x6031c38;
   0x7039c3c; 0x2039808; 0x7ff9ffc; 0x3ff18b8; 0x1fc1000; 0x0; 0x0; 0x0;
   0x0; 0x202000; 0x0; 0x0; 0x0; 0x1800180; 0x3e00180; 0x1ff0198;
   0x3fbf98; 0x3bf98; 0x18198; 0x18198; 0x18198; 0x1bffc; 0x3ffbffc; 0x7ff8100;
   0x619988; 0x61998c; 0x619888; 0x6199cc; 0x6199c8; 0x619bcc; 0x619be8; 0x61de6c;
   0x60de38; 0x60dc3c; 0x60f808; 0x60fffc; 0x6078b8; 0x605000; 0x0; 0x0;
   0x0; 0x0; 0x202000; 0x0; 0x0; 0x0; 0x300; 0xaa0300;
   0x1ff0318; 0xeb2b18; 0x1c33f18; 0xc30318; 0x1c30318; 0xc30318; 0x1ff7ffc; 0xff3ffc;
   0x1d70180; 0xc33188; 0x1c3319c; 0xc33188; 0x1c3319c; 0xff3188; 0x1ff33dc; 0xc336c8;
   0x1c3367c; 0xc33c78; 0x1c3343c; 0xc33e88; 0x7fffffc; 0x3fff0b8; 0x5555000; 0x0;
   0x0; 0x0; 0x0; 0x202000; 0x0; 0x0; 0x0; 0x180180;
   0x180180; 0x1c0198; 0x3e1f98; 0x7e1f98; 0x670198; 0xe70198; 0x1c38198; 0x38ffffc;
   0x31cfffc; 0x3384180; 0x101988; 0x155199c; 0x3ff9988; 0x1ffd9dc; 0xc01988; 0xe019dc;
   0x601bc8; 0x739f7c; 0x3f1e68; 0x1e187c; 0x1c1ea8; 0x781ffc; 0x7018b8; 0x601800;
   0x0; 0x0; 0x0; 0x0; 0x202000; 0x0; 0x0; 0x0;
   0x60180; 0x60180; 0x70198; 0x2ab1f98; 0x3ff9f98; 0x3ab8198; 0x301c198; 0x300e198;
   0x37ffffc; 0x33fbffc; 0x3718180; 0x3219988; 0x371999c; 0x3219988; 0x37599dc; 0x3bf9988;
   0x3d599dc; 0x1f19bc8; 0x1f19f7c; 0x19e68; 0x701987c; 0x3019ea8; 0x3559ffc; 0x3ff98b8].
Definition hanzi_data_518 : list N :=
  [0x1ff1800; 0x0; 0x0; 0x0; 0x0; 0x202000; 0x0; 0x0;
   0x0; 0x300; 0x2aa8300; 0x3ffc318; 0x3aebf18; 0x30c3f18; 0x30c0318; 0x30e0318;
   0x3860318; 0x3877ffe; 0x1833ffe; 0x1f3c100; 0xf1f388; 0x719c; 0xaab188; 0x1ffb19c;
   0x1ffb188; 0x181b3dc; 0x181b6c8; 0x181b6fc; 0x181bc68; 0x181b47c; 0x181ba08; 0x1ffbffc;
   0x1ffb0b8; 0x1819000; 0x0; 0x0; 0x0; 0x0; 0x202000; 0x0;
   0x0; 0x0; 0x1701c0; 0x320080; 0x7701d8; 0x320f98; 0x770fd8; 0x2320098;
   0x37741d8; 0x3b24098; 0x1f75ffc; 0xfe5ffc; 0xff4040; 0x724cc8; 0x774cdc; 0x324cc8;
   0x774cdc; 0x324cc8; 0x774ddc; 0x324de8; 0x6774f7c; 0x2324e38; 0x77f4c3c; 0x23fcea8;
   0x3f7fffc; 0x3e0ecb8; 0xc00; 0x0; 0x0; 0x0; 0x0; 0x202000;
   0x0; 0x0; 0x0; 0x180; 0x1ffc180; 0x1ffc190; 0x180df98; 0x181df98;
   0x180c198; 0x181c198; 0x1ffc198; 0x1fffffc; 0x180fffc; 0x181c000; 0x180d98c; 0x1ffd98c;
   0x1ffd88c; 0x10dd9cc; 0x38cd9cc; 0x3dddbcc; 0xf8dbec; 0x79de6c; 0x30de6c; 0x71dc3c;
   0xf8d80c; 0x3dfdffc; 0x387f8bc; 0x100d800; 0x0; 0x0; 0x0; 0x0;
   0x202000; 0x0; 0x0; 0x0; 0x180; 0x3ffc180; 0x3ffc190; 0x61f98;
   0x61f98; 0x60198; 0x1ffc198; 0xffc198; 0xc73ffc; 0xc33ffc; 0xc30000; 0x3ffd98c;
   0x7ffd98c; 0x188c; 0x19cc; 0x1ff99cc; 0x1ffdbcc; 0x1819bec; 0x181de6c; 0x1819e6c;
   0x181dc3c; 0x181980c; 0x1ffdffc; 0x1ff98bc; 0x181d800; 0x0; 0x0; 0x0;
   0x0; 0x202000; 0x0; 0x0; 0x0; 0x300; 0x3ff8300; 0x3ff8318;
   0x381bf18; 0x381bf18; 0x3818318; 0x3818318; 0x3818318; 0x3fffffe; 0x3ffbffe; 0x15d0180;
   0x183188; 0x18319c; 0x1bb188; 0x15bb19c; 0x3fbb188; 0x3f9b3dc; 0x19b6c8; 0x1bbefc;
   0x1bbc68; 0x1ff47c; 0x1efa28; 0x7fcfffc; 0x3f8f0b8; 0x1405000; 0x0; 0x0;
   0x0; 0x0; 0x202000; 0x0; 0x0; 0x0; 0x1c00180; 0x3fe8180;
   0x7fc198; 0x189f98; 0x181f98; 0x1ff8198; 0x1ffc198; 0x1988198; 0x199dffc; 0x1989ffc;
   0x1ffc100; 0x1ff8988; 0x181dcc; 0x180888; 0x3ffdccc; 0x3ffc8c8; 0x358ddcc; 0x378cb68;
   0x358df6c; 0x3ffce38; 0x3dfdc3c; 0x300ca08; 0x300dffc; 0x3e0c8b8; 0x1e0d000; 0x0;
   0x0; 0x0; 0x0; 0x202000; 0x0; 0x0; 0x0; 0x180;
   0x3ffc180; 0x3ffc190; 0x380df98; 0x380df98; 0x3ffc198; 0x3ffc198; 0xc198; 0xdffc;
   0x3ffdffc; 0x3ffc000; 0x9cc98c; 0x1ccd9cc; 0x186c88c; 0x3ffd8cc; 0x3fec9cc; 0x130d9cc;
   0x30cb6c; 0x3ffdf6c; 0x3feee3c; 0x30783c; 0x306a0c; 0x7fffffc; 0x3ffb8bc; 0x1553000;
   0x0; 0x0; 0x0; 0x0; 0x202000; 0x0; 0x0; 0x0;
   0x1c00; 0x60c00; 0x1e1c00; 0x380c00; 0x700c00; 0x200c00; 0x3fffffc; 0x3fffffc;
   0x3fffffc; 0x18e00; 0xc1ce00; 0xe18600; 0x71c600; 0x318600; 0x39c700; 0x1d8300;
   0xfc380; 0x78380; 0x3c1c0; 0x301e0e0; 0x701f8f0; 0x301be78; 0x3ffde3c; 0x3ff800c;
   0x0; 0x0; 0x0; 0x0; 0x0; 0x202000; 0x0; 0x0;
   0x0; 0x71c00; 0x1f0c00; 0x3c0c00; 0x3fffffc; 0x3fffffc; 0x60c600; 0x79c700;
   0x3ec380; 0x107f1c0; 0x301fee0; 0x3ffde7c; 0xff0038; 0xe0700; 0xaeaea0; 0x1fffff0;
   0xaeaea0; 0xe0700; 0xe0600; 0x3fffffc; 0x3fffffc; 0x70600; 0x3f0f80; 0x1fc07f0;
   0x3e000fc; 0x1000018; 0x0; 0x0; 0x0; 0x0; 0x202000; 0x0;
   0x0; 0x0; 0xc000; 0xe000; 0x1fc00; 0xf9e00; 0x7e07c0; 0x7fffffe;
   0x3c7ff7c; 0x0; 0x7fffe0; 0x600060; 0x700060; 0x7fffe0; 0x555540; 0xf1800;
   0x1c1c00; 0x2baaea8; 0x3fffffc; 0x2aaaea8; 0x71c600; 0x788700; 0x31fc380; 0x207e1c0;
   0x355fef0; 0x3ff8c3e; 0x155001c; 0x0; 0x0; 0x0; 0x0; 0x202000;
   0x0; 0x0; 0x0; 0xe00; 0x700; 0x7ff00; 0x7ff80; 0x701c0;
   0x380e0; 0x1c070; 0x7ffff8; 0x7ffffe; 0x60607c; 0x607070; 0x606070; 0x7ffff0;
   0x7ffff0; 0x607070; 0x606070; 0x757570; 0x7ffff0; 0x17ffff0; 0x3006070; 0x7007000;
   0x3006000; 0x3ffe000; 0x3ffe000; 0xffc000; 0x0; 0x0; 0x0; 0x0;
   0x202000; 0x0; 0x0; 0x0; 0xe000; 0xf000; 0x1fc00; 0xf9e00;
   0x7f07c0; 0x3fffff8; 0x7efff7e; 0x200000c; 0xfdfbf0; 0xfdfbf0; 0xcd9b30; 0xcd9b30;
   0xfdfbf0; 0xfdfbf0; 0x0; 0xfffff0; 0xfffff0; 0xc30c30; 0xc30c70; 0xfffff0;
   0xfffff0; 0xc30c30; 0xc30c70; 0xfb0c30; 0x730c70; 0x0; 0x0; 0x0;
   0x0; 0x202000; 0x0; 0x0; 0x0; 0x1000300; 0x1e00380; 0x1ff0fc0;
   0x3f1ee0; 0x317878; 0x30effe; 0x305fec; 0x300000; 0x3ff7fbc; 0x3ff5eac; 0x785eac;
   0x785eac; 0x7c7fbc; 0xfc0000; 0xf47ffc; 0xb67ff8; 0x1b666dc; 0x3b366c8; 0x3337ffc;
   0x731fff8; 0x23166dc; 0x3066c8; 0x3066dc; 0x3076c8; 0x3074dc; 0x0; 0x0;
   0x0; 0x0; 0x202000; 0x0; 0x0; 0x0; 0x30060; 0x38060;
   0xffc060; 0x1ffc060; 0xe0f060; 0x61f860; 0x7bbffc; 0x3f0bfc; 0x1f03fc; 0x7fc060;
   0x7f1f860; 0x38c7c60; 0xc1860; 0x1fff060; 0x1fff060; 0xc0260; 0xc37e0; 0xc31f8;
   0xc307c; 0x3fff80c; 0x3fff804; 0xc0000; 0xc0000; 0xc0000; 0xc0000; 0x0;
   0x0; 0x0; 0x0; 0x202000; 0x0; 0x0; 0x0; 0x380000;
   0x3802a8; 0x381ffc; 0x3837fc; 0x387060; 0x386060; 0x3ff6070; 0x3ff0030; 0x3ff0030;
   0x387838; 0x387ff8; 0x7863f8; 0x78673c; 0xf8623e; 0xdc673c; 0xcc6238; 0x1ce6738;
   0x1866238; 0x1876738; 0x18262b8; 0x77f8; 0x1fab8; 0x7ffdc38; 0x3fe0838; 0x3fc0800;
   0x0; 0x0; 0x0; 0x0; 0x202000; 0x0; 0x0; 0x0;
   0xc0060; 0xc0060; 0x3fff070; 0x3fff7f8; 0xc07f8; 0xc02bc; 0x1fff01c; 0x1ffe00c].
Definition hanzi_data_519 : list N :=
  [0xc07fc; 0xc03f8; 0x7fff8c0; 0x3fff8c0; 0x300c0; 0x387fc; 0x1ffc7fc; 0x1ffe2e8;
   0xc1f0c0; 0xe3b8c0; 0x7718c0; 0x3e04c0; 0x1f07c0; 0x7f87e0; 0x7f3f1f0; 0x3e0f860;
   0x1001820; 0x0; 0x0; 0x0; 0x0; 0x202000; 0x0; 0x0;
   0x0; 0x7000; 0x7000; 0x7000; 0x3fffffc; 0x3fffffc; 0x0; 0x7ffff0;
   0x7ffff0; 0x606070; 0x606030; 0x7ffff0; 0x7ffff0; 0x606070; 0x606030; 0x7ffff0;
   0x7ffff0; 0x3000; 0x603320; 0xe0e370; 0xc0c330; 0x1dc4338; 0x1980338; 0x19fff1c;
   0x8fff00; 0x7fc00; 0x0; 0x0; 0x0; 0x0; 0x202000; 0x0;
   0x0; 0x0; 0x0; 0x1fff80; 0x3fffc0; 0x9c0008; 0x1cf0018; 0x1878018;
   0x1c3c018; 0x180e018; 0x1c06018; 0x1806018; 0x1c06018; 0x1806018; 0x1c06018; 0x1806018;
   0x1c06018; 0x1806018; 0x1c06018; 0x1806018; 0x1c06018; 0x1807c18; 0x1c07c18; 0x1800018;
   0x1fffff8; 0x1fffff8; 0x1c00000; 0x0; 0x0; 0x0; 0x0; 0x202000;
   0x0; 0x0; 0x0; 0x6000; 0x6000; 0x3f861fc; 0x3f861f8; 0x31bfddc;
   0x39bfd88; 0x198619c; 0x1986188; 0x1d8619c; 0xd86188; 0xdbfd9c; 0xdbfd88; 0x198619c;
   0x3986188; 0x318619c; 0x31bff88; 0x71fff9c; 0x31aebf8; 0x31871fc; 0x3f83008; 0x1d8301c;
   0x183800; 0x181c00; 0x180e00; 0x180400; 0x0; 0x0; 0x0; 0x0;
   0x202000; 0x0; 0x0; 0x0; 0x70060; 0x60060; 0xe0060; 0x1fff860;
   0x1fffc60; 0x1800860; 0x1801d74; 0x1aaabfc; 0x1fffffc; 0xaaa860; 0x1c60; 0x2aaac60;
   0x3fffc60; 0x3baec60; 0x3367c60; 0x3326c60; 0x3367f60; 0x3ffefe0; 0x3fffdfc; 0x3326e3c;
   0x336761c; 0x3326600; 0x3367700; 0x3f26300; 0x1c07000; 0x0; 0x0; 0x0;
   0x0; 0x202000; 0x0; 0x0; 0x0; 0x60060; 0xe0060; 0x3fff860;
   0x3fff860; 0x15d5860; 0xc1860; 0x1ffd974; 0xff9bfc; 0x1cc1bfc; 0x2aeb860; 0x3fff860;
   0x8c1860; 0x1cc1860; 0xffd860; 0x15d5860; 0x18cda60; 0x1cddbe0; 0xff9be0; 0x7d1cfe;
   0x7f1c3c; 0xefdc04; 0x3ccec00; 0x30c6e00; 0xf8600; 0xf0400; 0x0; 0x0;
   0x0; 0x0; 0x202000; 0x0; 0x0; 0x0; 0xe00e0; 0x38e20e0;
   0x1ce70e0; 0xcee0e0; 0xefc0e0; 0x4e43fc; 0x3fffffc; 0x3fffae8; 0x38018e0; 0x38018e0;
   0x3fff9f0; 0x2ffebf0; 0xe0e7f0; 0xe0e6f8; 0xe0e2f8; 0xeae0f8; 0xffe0ec; 0xffe0ee;
   0x3b00e4; 0x3b80e0; 0x739c0e0; 0x339c0e0; 0x738f0e0; 0x3f07ce0; 0x1f018e0; 0x0;
   0x0; 0x0; 0x0; 0x202000; 0x0; 0x0; 0x0; 0x30010;
   0x30038; 0x300f8; 0x301e0; 0x3ffffc0; 0x3fffe00; 0x30000; 0x30000; 0x1fffc1c;
   0x1fffc3c; 0x1fffcf0; 0x30060; 0x30040; 0x2abaa00; 0x3ffff40; 0x3fffec0; 0x30300c0;
   0x38300e0; 0x3830070; 0x3830070; 0x1930070; 0x1e30038; 0xe3001c; 0x3001c; 0x30010;
   0x0; 0x0; 0x0; 0x0; 0x202000; 0x0; 0x0; 0x0;
   0x0; 0x38; 0x1fffcf8; 0x1fffde0; 0x301c0; 0x30080; 0x30000; 0x30000;
   0x3001c; 0x2abaa3c; 0x7fffef0; 0x3fffee0; 0xd8040; 0xd8000; 0xdc040; 0xdc0c0;
   0xdc0c0; 0xce0e0; 0xc6070; 0xc7070; 0x70c7870; 0x30c3c38; 0x7fc1e1c; 0x3fc0f1c;
   0x1500610; 0x0; 0x0; 0x0; 0x0; 0x202000; 0x0; 0x0;
   0x0; 0x70000; 0x30038; 0x1fffe78; 0x1ffffe0; 0x701c0; 0x233000; 0x757000;
   0x3fffe00; 0x3fffe1c; 0x20303c; 0x7070f0; 0xaaa860; 0x1fffc40; 0xeaac00; 0x1c01c40;
   0xc30cc0; 0x1c71cc0; 0xc30ce0; 0x1c71c60; 0xc30c70; 0x1f8470; 0x79e038; 0x1f0fc1c;
   0x3803f1c; 0x3000600; 0x0; 0x0; 0x0; 0x0; 0x202000; 0x0;
   0x0; 0x0; 0x70000; 0x60000; 0x3fffbfc; 0x3fffbfc; 0x3fff860; 0x60e060;
   0x70c060; 0x30c060; 0x3fffc60; 0x3fffc60; 0x3061dfc; 0x30e0dfc; 0x30e1c60; 0x1fff060;
   0x1fff060; 0x18e3060; 0x1ce3060; 0x18e3260; 0x1ce37e0; 0x18e33f8; 0x1fe307e; 0xee300c;
   0x4e0000; 0xe0000; 0xe0000; 0x0; 0x0; 0x0; 0x0; 0x202000;
   0x0; 0x0; 0x0; 0x606000; 0x1606000; 0x1e57400; 0x367fffe; 0x367fffe;
   0x2606030; 0x2606070; 0x63fe30; 0x3fffe70; 0x3fa8630; 0x67dffc; 0x62d6fc; 0xe65774;
   0xe2fe30; 0xe7fe70; 0xe26630; 0xf66670; 0xa3fe30; 0x1f7fff0; 0x1b267fe; 0x1b6667e;
   0x39a6606; 0x31e6600; 0x60fa600; 0x2098600; 0x0; 0x0; 0x0; 0x0;
   0x202000; 0x0; 0x0; 0x0; 0xc31800; 0x821800; 0xc61800; 0x2affdfe;
   0x7fffdfe; 0x3aabe30; 0x1ffbe70; 0x1f03e30; 0xdf9e70; 0xca9830; 0x1cfb9fc; 0x3cfb9fc;
   0x36ded74; 0x26fec30; 0x23f8670; 0x200030; 0x1fffc70; 0xfffe30; 0x7073f0; 0x38e3fe;
   0x1fc07e; 0xf8006; 0x1fff000; 0x3f07e00; 0x1001e00; 0x0; 0x0; 0x0;
   0x0; 0x202000; 0x0; 0x0; 0x0; 0x0; 0x3fbf2a8; 0x3fbf7fc;
   0x31b37fc; 0x31b3060; 0x31b3060; 0x3fbf070; 0x3fbf030; 0x1515030; 0x38; 0x1fff7f8;
   0xffe3f8; 0x73c; 0x2aaab3c; 0x3ffff3c; 0x2abeb34; 0x1c730; 0xffc330; 0xffe730;
   0xc003b0; 0xc007f0; 0xe002b0; 0xe00030; 0x7e0030; 0x7e0000; 0x0; 0x0;
   0x0; 0x0; 0x202000; 0x0; 0x0; 0x0; 0x330000; 0x3302a8;
   0x7fffffc; 0x3fffffc; 0x330060; 0x3fff060; 0x3fff070; 0x3333030; 0x3777030; 0x3fff038;
   0x37777f8; 0x33333f8; 0x3fff73c; 0x3fff23c; 0x73c; 0x1ffe234; 0x1ffe730; 0x1806230;
   0x1ffe730; 0x1ffe2b0; 0x1c067f0; 0x18062b0; 0x1ffe030; 0x1aae030; 0x1c06000; 0x0;
   0x0; 0x0; 0x0; 0x202000; 0x0; 0x0; 0x0; 0x0;
   0x7fe2a8; 0x7fe7fc; 0x60e7fc; 0x70e060; 0x7fe060; 0x7fe070; 0x2aaa830; 0x3fff830;
   0x30b1838; 0x31f1bf8; 0x30b1bf8; 0x3fffb3c; 0x3fffb3c; 0x6033c; 0x2aeab34; 0x3ffff30;
   0x2bfab30; 0x1f8330; 0x37c3b0; 0xf6e3f0; 0x1c67ab0; 0x7863c30; 0x60830; 0x60000].
Definition hanzi_data_520 : list N :=
  [0x0; 0x0; 0x0; 0x0; 0x202000; 0x0; 0x0; 0x0;
   0xc00c0; 0xc00c0; 0xc0ccc; 0x3fffecc; 0x3fff6dc; 0x2bfa6d8; 0x7f87d8; 0xedc3f8;
   0x1ccf0c0; 0x38c7ffc; 0x10c17fc; 0xffe2e8; 0x1ffe0e0; 0xc060e0; 0x1c061f0; 0xffe3f0;
   0x1ffe7d8; 0xc066d8; 0x1d564dc; 0xffe0ce; 0x15540c4; 0xc0; 0x3fff8c0; 0x3fff8c0;
   0xc0; 0x0; 0x0; 0x0; 0x0; 0x202000; 0x0; 0x0;
   0x0; 0x40; 0x3fff8c0; 0x3fff8e0; 0x60060; 0x7fffc70; 0x3fffc30; 0x7060f30;
   0x3f7ff38; 0x7f7ff1c; 0x603fe; 0x1f7f1fc; 0x600e0; 0x1555460; 0x3fffc70; 0x5575738;
   0x303fc; 0x3fff9fc; 0x3fff80c; 0x3199800; 0x3199a00; 0x3199ff0; 0x3199bfe; 0x319981c;
   0x3d99800; 0x1d99800; 0x0; 0x0; 0x0; 0x0; 0x202000; 0x0;
   0x0; 0x0; 0xc0; 0x3ffc0c0; 0x3ffdffc; 0x38c1ffc; 0x38c0c30; 0x38c0e30;
   0x3bcd774; 0x3bcbffc; 0x3ed9554; 0x3ed8aa8; 0x3ed9ffc; 0x38c1988; 0x38c1dd8; 0x38e1ff8;
   0x3cf1ddc; 0x3ef9988; 0x3fddffc; 0x3bceba8; 0x39c4180; 0x38c1ff8; 0x38c1ffc; 0x38c0180;
   0x3dffff4; 0x1e7bffc; 0x1e7805c; 0x0; 0x0; 0x0; 0x0; 0x202000;
   0x0; 0x0; 0x0; 0x1c0000; 0xc07f8; 0x1c07f8; 0xc0618; 0x1c0618;
   0xc0618; 0x3fff618; 0x3fff7f8; 0x1c07f8; 0xc06b8; 0x1c0618; 0xc0618; 0x1c0618;
   0x1ffe618; 0x1ffe7f8; 0x1aae7f8; 0x1806618; 0x1806618; 0x180661c; 0x1806618; 0x180661c;
   0x1ffe60c; 0x1ffe74c; 0x1aae7ce; 0x18067c4; 0x0; 0x0; 0x0; 0x0;
   0x202000; 0x0; 0x0; 0x0; 0xe0000; 0x18e33f8; 0x1ce73f8; 0xcee318;
   0x6ec318; 0x3fffb18; 0x3fffb18; 0x1f83f8; 0x7fc3f8; 0xeee3b8; 0x3ce7b18; 0x38e3b18;
   0x10f0318; 0x30318; 0x15753fc; 0x3fffbf8; 0x3fffb1c; 0x60c308; 0x70e31c; 0x3be30c;
   0x1fc30c; 0x3e030c; 0x1f7c34c; 0x3e3fbee; 0x10071c4; 0x0; 0x0; 0x0;
   0x0; 0x202000; 0x0; 0x0; 0x0; 0xe0700; 0xe0300; 0x15f5754;
   0x3fffffc; 0x3fffffc; 0xe0300; 0xe0700; 0x0; 0x7fffc0; 0x3fffc0; 0x7555c0;
   0x3000c0; 0x7000c0; 0x3000c0; 0x7000c0; 0x3aaac0; 0x7fffc0; 0x3fffc0; 0x40200;
   0xe0f00; 0x3c0780; 0x7803e0; 0x1f000f0; 0x3c00038; 0x1800010; 0x0; 0x0;
   0x0; 0x0; 0x202000; 0x0; 0x0; 0x0; 0x60700; 0x60600;
   0x3fffffc; 0x3fffffc; 0x1575754; 0x60600; 0x60700; 0x1ff3ffc; 0x3ff3ffc; 0x3ab30c0;
   0x1c331c0; 0xc330c0; 0xe33ffc; 0x633ffc; 0xe330c0; 0x1c330c0; 0x38335f4; 0x3033ffc;
   0x3033ffc; 0x38b3060; 0x1f33070; 0xf33030; 0x33d38; 0x33f1c; 0x31f18; 0x0;
   0x0; 0x0; 0x0; 0x202000; 0x0; 0x0; 0x0; 0x0;
   0x1ffc7f8; 0x1ffc7f8; 0x180c618; 0x184c618; 0x18ec618; 0x19cc618; 0x198e618; 0x190c7f8;
   0x180e7f8; 0x7fff9c0; 0x3fff880; 0x1c061d8; 0x1826798; 0x1c667d8; 0x1cc6098; 0x1dc61d8;
   0xd86098; 0x1c071d8; 0x3ffee98; 0x3fffff8; 0xc003fe; 0xe0007c; 0xfc0000; 0x7c0000;
   0x0; 0x0; 0x0; 0x0; 0x202000; 0x0; 0x0; 0x0;
   0xc00c0; 0xc00c0; 0x38c60c0; 0x18c6ffc; 0x1cccffc; 0xcccae8; 0xcdc070; 0xed80b0;
   0x6dc1b0; 0xc01b0; 0x3fff1b8; 0x3fffbb8; 0x330ffc; 0x330ba8; 0x330180; 0x330180;
   0x331d80; 0x338fe0; 0x1319ffc; 0x23181bc; 0x731c184; 0x230e180; 0x7f07180; 0x3f03980;
   0x1e01180; 0x0; 0x0; 0x0; 0x0; 0x202000; 0x0; 0x0;
   0x0; 0x1c0; 0x1ff0180; 0x3ff01c0; 0x1832ba8; 0x1c37ffc; 0xc33ffc; 0xe301c0;
   0x630180; 0x7301c0; 0x733ffc; 0xe33ffc; 0x1c33000; 0x1833810; 0x3831838; 0x3831cf0;
   0x3830dc0; 0x1d30fc0; 0x1fb0700; 0x730f00; 0x30f80; 0x31de0; 0x338f0; 0x3107c;
   0x3001c; 0x30000; 0x0; 0x0; 0x0; 0x0; 0x202000; 0x0;
   0x0; 0x0; 0x300; 0x380; 0x3fe11c0; 0x3fe38e0; 0x18e70f0; 0x18e6070;
   0x1cefffc; 0xcefff8; 0xcfc018; 0xee38e0; 0x6e38e0; 0xee38e0; 0x1cffffc; 0x18efffc;
   0x38ffffc; 0x30e38e0; 0x30e3860; 0x30e3860; 0x38e3860; 0x3ee3860; 0x1ee3870; 0xe3838;
   0xe383c; 0xe381c; 0xe3808; 0x0; 0x0; 0x0; 0x0; 0x202000;
   0x0; 0x0; 0x0; 0x0; 0x1fefdf8; 0x3fefdfc; 0x18ec588; 0x1cefdfc;
   0xcec588; 0xcefdfc; 0xeefdf8; 0x6ed5dc; 0xeefdf8; 0xce0760; 0x18e0660; 0x18efff0;
   0x38efff8; 0x38e063c; 0x38e2ebe; 0x1fe7ff4; 0x1ee0630; 0x6e5770; 0xe7ff0; 0xe0630;
   0xe0630; 0xefff0; 0xefff0; 0xe0030; 0x0; 0x0; 0x0; 0x0;
   0x202000; 0x0; 0x0; 0x0; 0x300060; 0x1f7e0c0; 0x3b7effc; 0x2baaffc;
   0x3fff710; 0x330338; 0x7f63f0; 0x6f23c0; 0x26367e0; 0x2ffa670; 0x3dff43c; 0x380e00c;
   0x1f804; 0x7be00; 0x7f0fc0; 0x3fffff8; 0x3cffe7c; 0x6000; 0x7fffe0; 0x7fffe0;
   0x1c6380; 0xc6300; 0x1fffffc; 0x1fffff8; 0x0; 0x0; 0x0; 0x0;
   0x0; 0x202000; 0x0; 0x0; 0x0; 0x4c0060; 0xec0060; 0x1cc0070;
   0x38c0ff0; 0x10c0ff8; 0x3fff018; 0x3fff01c; 0xc000c; 0x10c47fc; 0x38c67f8; 0x39ce0c0;
   0x1dcc0c0; 0xfdc0c0; 0x7d8ffc; 0x3c8ffc; 0x3e0ae8; 0x7f00c0; 0xef80c0; 0x1cde0c0;
   0x38cfcc0; 0x70c7fc0; 0x20c27c0; 0xc01e0; 0xf80e0; 0x78020; 0x0; 0x0;
   0x0; 0x0; 0x202000; 0x0; 0x0; 0x0; 0x60c030; 0x60c038;
   0x60c038; 0x3fffbf8; 0x3fffffc; 0x60c00c; 0x6ec00e; 0x2e8004; 0x1f03fc; 0x3b83f8;
   0xf1e060; 0x3e0f860; 0x3fffc60; 0x27fdbfc; 0x3fc; 0x2e8; 0xfff060; 0xffe060;
   0xc07460; 0xc06660; 0xc077e0; 0xc063e0; 0xfff0f0; 0xffe030; 0xc07010; 0x0;
   0x0; 0x0; 0x0; 0x202000; 0x0; 0x0; 0x0; 0x31c060;
   0x318060; 0x175d070; 0x1fffbf0; 0x1fff7f8; 0x318018; 0x31c01c; 0x3fff80c; 0x3fffffc].
Definition hanzi_data_521 : list N :=
  [0x603f8; 0x1fff0c0; 0x1fff0c0; 0x1c630c0; 0x18637fc; 0x1fff7fc; 0x1fff2e8; 0x1c630c0;
   0x18630c0; 0x1fff0c0; 0x1fff4c0; 0x3187c0; 0xf1e3e0; 0x1e0f1f0; 0x3803c60; 0x1001820;
   0x0; 0x0; 0x0; 0x0; 0x202000; 0x0; 0x0; 0x0;
   0x60c060; 0x61c060; 0x71c070; 0x2baaff0; 0x3fffff8; 0x1b001c; 0x15f501e; 0x1fff00c;
   0x1df77fc; 0x19b33f8; 0x1f9f0e0; 0x180b0e0; 0x1fff0e0; 0x1aab7fc; 0x1d577fc; 0x1fff0e0;
   0x3000e0; 0x2baa8e0; 0x7fff8e0; 0x2bae8e0; 0x30e7e0; 0x31c7e0; 0x3181f0; 0x3e00e0;
   0x1e0020; 0x0; 0x0; 0x0; 0x0; 0x202000; 0x0; 0x0;
   0x0; 0x10000; 0x383f8; 0x1fff7f8; 0x1f8fb18; 0x1803b18; 0x1803b98; 0x1803998;
   0x1fbf998; 0x1fbf9d8; 0x18039d8; 0x1803998; 0x1803b18; 0x1d57f18; 0x1fffa18; 0x1fff718;
   0x198618; 0x19c778; 0x19c3d8; 0x19c1d8; 0x18c018; 0x718e018; 0x2187018; 0x7587c18;
   0x3f81e18; 0x1f00c18; 0x0; 0x0; 0x0; 0x0; 0x202000; 0x0;
   0x0; 0x0; 0xe0060; 0xc0060; 0x1c03f0; 0x2aaa7f0; 0x3fff730; 0x3ffe3b8;
   0x306719c; 0x30627fc; 0x30677fc; 0x606d8; 0x706d8; 0x3fff6d8; 0x7fff7f8; 0xc387f8;
   0xe186d8; 0x61c6d8; 0x71c6d8; 0x33c7f8; 0x3f07f8; 0x3e0000; 0x7e0f00; 0xef0ff8;
   0x3c7e1fc; 0x380f00c; 0x1007000; 0x0; 0x0; 0x0; 0x0; 0x202000;
   0x0; 0x0; 0x0; 0x300e0; 0x30060; 0x3f87f0; 0x7f8ff0; 0x75c730;
   0x30c338; 0x38e31c; 0x3fffffc; 0x3fffffc; 0x30c6cd8; 0x31c6cd8; 0x30c6cd8; 0x30c6ff8;
   0x30c6ff8; 0x3ffecd8; 0x3ffecd8; 0x3e0cd8; 0x3e0ff8; 0x3f0ff8; 0x23b0000; 0x73b8f00;
   0x239cff8; 0x778f7fc; 0x3f8780c; 0x1401000; 0x0; 0x0; 0x0; 0x0;
   0x202000; 0x0; 0x0; 0x0; 0xe00e0; 0xc0060; 0x15d43f0; 0x3ffe7f0;
   0x3fff730; 0x186338; 0x1fff19c; 0x1ffe7fc; 0x19877fc; 0x3bae4c8; 0x3fff4d8; 0x19864c8;
   0x19877f8; 0x1ffe7f8; 0x1fff4d8; 0x198e4c8; 0x1d9f4d8; 0xfb27f8; 0x7f77f8; 0x7e3000;
   0x1ffb700; 0x399f7f8; 0x318d9fc; 0x1f180c; 0xf1000; 0x0; 0x0; 0x0;
   0x0; 0x202000; 0x0; 0x0; 0x0; 0x1c0380; 0x182ba8; 0x1c7ffc;
   0x180380; 0x1c7ff8; 0x183ff8; 0x3ff8380; 0x3ffaba8; 0x35d7ffc; 0x31c0000; 0x31c7ff8;
   0x30c3ff8; 0x31c7558; 0x38c3218; 0x38c7318; 0x38c3318; 0x38e7318; 0x38e3398; 0x3867398;
   0x3860580; 0x1871dc0; 0x18398e0; 0x1d3f870; 0x1f9f03c; 0xf88018; 0x0; 0x0;
   0x0; 0x0; 0x202000; 0x0; 0x0; 0x0; 0xe0060; 0x18e3060;
   0x1ce7060; 0xcee060; 0x6ec060; 0x3fff860; 0x3fffbfc; 0x1f83fc; 0x7fc3fc; 0xeee060;
   0x1ce7060; 0x38e3c60; 0x10f1860; 0x30060; 0x1575060; 0x3fffa60; 0x3ffffe0; 0x60c3f0;
   0x70e07e; 0x3be01c; 0x1fc004; 0x3f0000; 0x1f7f000; 0x3c0fc00; 0x1001c00; 0x0;
   0x0; 0x0; 0x0; 0x202000; 0x0; 0x0; 0x0; 0x60;
   0x1fdf860; 0x1fdfc60; 0x1898060; 0x19d9c60; 0x1b9b060; 0x1d1d3fc; 0x1f1e3fc; 0x1bdfffc;
   0x1899860; 0x1870060; 0xf8060; 0x7df060; 0x3e07c60; 0x3ce1c60; 0x2078260; 0x71f7e0;
   0x3c3bf0; 0x1cf007e; 0xe3f01c; 0x707804; 0x3e0000; 0xff000; 0x1fc00; 0x1c00;
   0x0; 0x0; 0x0; 0x0; 0x202000; 0x0; 0x0; 0x0;
   0x330060; 0x330060; 0x330060; 0x330060; 0x330464; 0x3fff26c; 0x3fff66c; 0x3bbb26c;
   0x3b3366c; 0x3b3326c; 0x3b3366c; 0x3b3326c; 0x3b3366c; 0x3fff26c; 0x3fff66c; 0x3b3326c;
   0x3b3366c; 0x3b3326c; 0x3b3366c; 0x3b333fc; 0x3b337fc; 0x3fff200; 0x3fff000; 0x3803000;
   0x3803000; 0x0; 0x0; 0x0; 0x0; 0x202000; 0x0; 0x0;
   0x0; 0x406010; 0xc06030; 0xc06030; 0xfffff0; 0xfffff0; 0x3800; 0x3fffffc;
   0x3fffffc; 0xe1f00; 0x3c3b80; 0xf01df0; 0x3fffffc; 0x3fffffc; 0x700; 0xc380;
   0x2aebc0; 0x7fffc0; 0x2aeac0; 0xc000; 0x1fffff8; 0x1fffff8; 0xc000; 0xc000;
   0xc000; 0xc000; 0x0; 0x0; 0x0; 0x0; 0x202000; 0x0;
   0x0; 0x0; 0x60e060; 0x160e060; 0x1e5f460; 0x367fc60; 0x367fd64; 0x260e16c;
   0x260e16c; 0x67fd6c; 0x7fffd6c; 0x3fe2d6c; 0xe7bd6c; 0xe7ad6c; 0xe7ed6c; 0xe7fd6c;
   0xe7fd6c; 0xe64d6c; 0x1e64d6c; 0x1e7fd6c; 0x1f7fd6c; 0x1a64dfc; 0x1364dfc; 0x3364d00;
   0x73e4c00; 0x61f8c00; 0x2170c00; 0x0; 0x0; 0x0; 0x0; 0x202000;
   0x0; 0x0; 0x0; 0x0; 0x1fff000; 0x1fff3fc; 0x1aab3fc; 0x1c0731c;
   0x182330c; 0x1c6731c; 0x18633fc; 0x1c673fc; 0x186330c; 0x1c6731c; 0x186330c; 0x1c6731c;
   0x18633fc; 0x1c673fc; 0x9e230c; 0x1f031c; 0x1b030c; 0x11f83fc; 0x21983fc; 0x71de15c;
   0x318f00c; 0x35c7c1c; 0x3f83e00; 0x1f00c00; 0x0; 0x0; 0x0; 0x0;
   0x202000; 0x0; 0x0; 0x0; 0x1000040; 0x3e07ee0; 0x1fffee0; 0x3f6860;
   0x717070; 0x203030; 0x703330; 0x221b98; 0x76199c; 0x3e2fdfe; 0x3f6fefc; 0x22c0e0;
   0x766070; 0x226c30; 0x766df8; 0x226df8; 0x767c7c; 0x22380c; 0x3fe3b00; 0x3fe3bc0;
   0x7df8; 0x1ec3c; 0x7ffcf1c; 0x3fe0700; 0x300; 0x0; 0x0; 0x0;
   0x0; 0x202000; 0x0; 0x0; 0x0; 0xc01040; 0xe0f8e0; 0x7ff0e0;
   0x3f8060; 0x7fc070; 0x1f3f030; 0x1c3ff38; 0x1039b18; 0x155d79c; 0x3fffdfe; 0x7fffdfc;
   0xee0e0; 0xe7070; 0xaeb030; 0x1fffbf8; 0x1fffffc; 0x18e7c7c; 0x18e300c; 0x18e7000;
   0x18e3380; 0x1ce73f0; 0x1ee30fc; 0xee701c; 0xe0000; 0xe0000; 0x0; 0x0;
   0x0; 0x0; 0x202000; 0x0; 0x0; 0x0; 0x70040; 0xe00c0;
   0x3fff8e0; 0x3fff8e0; 0x60c070; 0x60c030; 0x575d730; 0x3fffb38; 0x7fffb9c; 0x1fe;
   0x1fff1fc; 0x18030e0; 0x1c07070; 0x1fff030; 0x1d573f8; 0x18033fc; 0x1fff07c; 0xaaa00c;
   0xc75000; 0x18edb80; 0x19cdff0; 0x3e8c8fc; 0x760cc1c; 0x27fcc00; 0x7fc000; 0x0].
Definition hanzi_data_522 : list N :=
  [0x0; 0x0; 0x0; 0x202000; 0x0; 0x0; 0x0; 0xc00040;
   0x1ffe8c0; 0x5ff0e0; 0x600e0; 0x3fffc70; 0x3fff830; 0x60730; 0x1fff338; 0x1fff39c;
   0x1a6b1fe; 0x1b7b1fc; 0x1b7b0e0; 0x1fff060; 0x1fff030; 0x607f8; 0x1fff3fc; 0x157507c;
   0x6000c; 0x7fffc00; 0x3fffb80; 0xcdb7f0; 0x199b8fc; 0x399981c; 0x3330c00; 0x7110c00;
   0x0; 0x0; 0x0; 0x0; 0x202000; 0x0; 0x0; 0x0;
   0xe0700; 0xe0300; 0x3fffffc; 0x3fffffc; 0x15f5754; 0xe0300; 0xe77e0; 0x31c0;
   0x71c0; 0x3080; 0x1fffff8; 0x1fffff8; 0x1807000; 0x1803000; 0x181b800; 0x183b800;
   0x1871c00; 0x18e1c00; 0x1ce0e00; 0x1840f00; 0x1c00780; 0x1c003c0; 0x1ff01f0; 0xfe0078;
   0x7e0030; 0x0; 0x0; 0x0; 0x0; 0x202000; 0x0; 0x0;
   0x0; 0xe0070; 0xe0060; 0x3fff860; 0x3fff8e0; 0xe01fc; 0xaea3fc; 0x1fff3d4;
   0xe0180; 0x7fffdc0; 0x3fffac0; 0x55556e0; 0xaaa3e0; 0x1fff3f0; 0x1aab3f8; 0x1c4377c;
   0x18e326e; 0x1ce3064; 0x18e3060; 0x1ce3060; 0x1863060; 0x1171060; 0x7b8060; 0x1f1f060;
   0x380fc60; 0x3001c60; 0x0; 0x0; 0x0; 0x0; 0x202000; 0x0;
   0x0; 0x0; 0x0; 0x3fff830; 0x3fffc70; 0x3aab8e0; 0x3801dc0; 0x3801880;
   0x3ffdc00; 0x3bfd800; 0x3801cfc; 0x38018fc; 0x3bfdcfc; 0x3bf98e0; 0x3b1dce0; 0x3b098e0;
   0x3b1dce0; 0x3b098e0; 0x3b1dce0; 0x3bf9ae0; 0x3bfdfe0; 0x3809be0; 0x3801de0; 0x38018e0;
   0x3d01c70; 0x3f01820; 0x1f01c00; 0x0; 0x0; 0x0; 0x0; 0x202000;
   0x0; 0x0; 0x0; 0x580000; 0xd80030; 0x3980070; 0x31800e0; 0x3fffdc0;
   0x3fff880; 0x1755c00; 0x380800; 0x137fc7c; 0x337e8fc; 0x3301cfc; 0x1b008e0; 0x1b7fce0;
   0x1b7e8e0; 0x1f47ce0; 0xf468e0; 0xf47ce0; 0x66eee0; 0x77efe0; 0x6786fe0; 0x67c6de0;
   0x2ec0ef0; 0x3cf0670; 0x3c30620; 0x1800400; 0x0; 0x0; 0x0; 0x0;
   0x202000; 0x0; 0x0; 0x0; 0x60000; 0x68030; 0x1f7f078; 0x1f678e0;
   0x18619e0; 0x18618c0; 0x1f6f800; 0x1f6f800; 0x18618fc; 0x18618fc; 0x1fff8fc; 0x1fff8e0;
   0x15750e0; 0x600e0; 0x600e0; 0x1fff8e0; 0x1fffce0; 0xe070e0; 0x70e6e0; 0x39cfe0;
   0x1f87e0; 0x1f81e0; 0x1fff0f0; 0x3f0fe20; 0x3801c00; 0x0; 0x0; 0x0;
   0x0; 0x202000; 0x0; 0x0; 0x0; 0x10; 0x1fff838; 0x1fffc78;
   0x1888870; 0x1999ce0; 0x1fff8c0; 0x1fffc40; 0x0; 0x3fffe7c; 0x3fffe7c; 0x7c;
   0xfff860; 0x1fff860; 0xc01860; 0x1c01860; 0xfff860; 0x1fff860; 0x18f8060; 0x3ddf360;
   0xf87be0; 0x787fe0; 0xf460e0; 0x7e7f070; 0x383f020; 0x1007000; 0x0; 0x0;
   0x0; 0x0; 0x202000; 0x0; 0x0; 0x0; 0x1c0; 0xc0;
   0x3ffe0c0; 0x3fffffc; 0x1775ffc; 0x630ae8; 0x730070; 0x630330; 0x730330; 0x630338;
   0x730318; 0x630bb8; 0x731ffc; 0x631ff8; 0x730300; 0x638300; 0x719f00; 0x619fe0;
   0x271dffc; 0x661c33c; 0x770c304; 0x260e300; 0x7f07300; 0x3e03b00; 0x1e01300; 0x0;
   0x0; 0x0; 0x0; 0x202000; 0x0; 0x0; 0x0; 0x100c0;
   0x380e0; 0x1f9f0e0; 0x1f86ffc; 0x1807ffc; 0x18062e8; 0x1807070; 0x1fbe1b0; 0x1fbf1f0;
   0x18061b8; 0x18071d8; 0x18063b8; 0x1fff7fc; 0x1ffe3a8; 0x17fd1c0; 0x3b8180; 0x398dc0;
   0x398fe0; 0x3987fc; 0x3981bc; 0x739c1c0; 0x238e180; 0x37871c0; 0x3f83980; 0x1f019c0;
   0x0; 0x0; 0x0; 0x0; 0x202000; 0x0; 0x0; 0x0;
   0xc0; 0xffe0e0; 0x1ffe060; 0x718ffc; 0x3f8ffc; 0x1e0ae8; 0x7fff070; 0x3fff1b0;
   0x39f01f0; 0x19b8198; 0x1dde1d8; 0x1f7bb8; 0xf37fc; 0xe03a8; 0xe01c0; 0x2aea180;
   0x3fffdc0; 0x2bfafe0; 0x3f87fc; 0x6f81bc; 0xefe1c4; 0x3ce7180; 0x78e79c0; 0xe1180;
   0xe01c0; 0x0; 0x0; 0x0; 0x0; 0x202000; 0x0; 0x0;
   0x0; 0x0; 0x1fe3ff0; 0x3fe7ff0; 0x3ae3030; 0x1867030; 0x1863ab0; 0x1c67ff0;
   0xc62ba0; 0xe60300; 0x667ff8; 0x767ffc; 0xe66318; 0x1c6631c; 0x1867ff8; 0x1867ffc;
   0x3866318; 0x306631c; 0x3067ff8; 0x3867ffc; 0x1f60318; 0x1f67300; 0x67f00; 0x61f80;
   0x60780; 0x60180; 0x0; 0x0; 0x0; 0x0; 0x202000; 0x0;
   0x0; 0x0; 0xc0060; 0xc0060; 0xc0070; 0xc07f0; 0xc07f8; 0x1ffe018;
   0x1ffe01c; 0xc000c; 0xc07fc; 0xc07f8; 0xc00c0; 0xe00c0; 0x3fff0c0; 0x3fff7fc;
   0x15f57fc; 0x1e02e8; 0x1f00c0; 0x3b00c0; 0x3380c0; 0x7384c0; 0xf1c7c0; 0xe0e3e0;
   0x3c079f0; 0x3803c60; 0x1001820; 0x0; 0x0; 0x0; 0x0; 0x202000;
   0x0; 0x0; 0x0; 0x1c0060; 0xc0060; 0x1c0070; 0xc0ff0; 0x3ffeff8;
   0x3ffe018; 0x1c001c; 0xc000c; 0x1c07fc; 0x2aea7f8; 0x7fff0c0; 0x3fff0c0; 0x1c00c0;
   0xc0ffc; 0x1c0ffc; 0x2aeaae8; 0x3fff0c0; 0x3ffe0c0; 0x1c00c0; 0xc04c0; 0x1c0fc0;
   0xc03c0; 0x7fff9e0; 0x3fff8e0; 0x20; 0x0; 0x0; 0x0; 0x0;
   0x202000; 0x0; 0x0; 0x0; 0x60; 0xffe060; 0x1ffe070; 0xc06ff0;
   0x1c06ff8; 0xc06018; 0x1ffe01c; 0xffe00c; 0x7fc; 0x7f8; 0x1fff0c0; 0x1ffe0c0;
   0x18070c0; 0x1806ffc; 0x1fffffc; 0x1ffeae8; 0x18070c0; 0x18060c0; 0x1fff0c0; 0x1ffe4c0;
   0x1807fc0; 0x18067c0; 0x18071e0; 0x1f060e0; 0x1f07020; 0x0; 0x0; 0x0;
   0x0; 0x202000; 0x0; 0x0; 0x0; 0xe0c060; 0xe0c060; 0xe0c070;
   0xe0c7f0; 0x3fff7f8; 0x3fff018; 0xe0c01c; 0xe0c00c; 0xffc7fc; 0xffc7f8; 0xe0c0c0;
   0xe0c0c0; 0xffc0c0; 0xffc7fc; 0xf5c7fc; 0xe0c2e8; 0x1f5d0c0; 0x3fff8c0; 0x7fff8c0;
   0x2380c0; 0xf1c7c0; 0xe0e7e0; 0x1c0f1e0; 0x38038e0; 0x1001020; 0x0; 0x0;
   0x0; 0x0; 0x202000; 0x0; 0x0; 0x0; 0xc00060; 0x1ff8060;
   0x7ff070; 0x8c47f0; 0x1cce7f8; 0xecc018; 0x6dc01c; 0x3fff80c; 0x3fffffc; 0x3f03f8].
Definition hanzi_data_523 : list N :=
  [0x7fc0e0; 0xede0e0; 0x7ccf0e0; 0x38c3ffc; 0x1fff7fc; 0x1ffe2e8; 0x18c70e0; 0x18c60e0;
   0x1fff0e0; 0x1ffe4e0; 0x18c77e0; 0x18c63e0; 0x1fff1f0; 0x1ffe060; 0x1807020; 0x0;
   0x0; 0x0; 0x0; 0x202000; 0x0; 0x0; 0x0; 0x60;
   0x1ffe060; 0x1fff070; 0xf387f0; 0x3f07f8; 0x3fff818; 0x7fff81c; 0x31e000c; 0x19b87fc;
   0x99e3f8; 0x1878c0; 0x1e30c0; 0x15550c0; 0x3fffffc; 0x3113ffc; 0x33b3ae8; 0x371f8c0;
   0x3c0f8c0; 0x37ff8c0; 0x321b8c0; 0x371bfc0; 0x32bbfe0; 0x37fb9f0; 0x3e1b8e0; 0x1c03820;
   0x0; 0x0; 0x0; 0x0; 0x202000; 0x0; 0x0; 0x0;
   0x10; 0xaaa838; 0x1fffc70; 0x1fffce0; 0x18039c0; 0x1801800; 0x19fff18; 0x18c0318;
   0x19fff18; 0x18fff18; 0x19d5718; 0x18fff18; 0x19c0318; 0x18fff18; 0x1957518; 0x1806018;
   0x1bfffd8; 0x1bfffd8; 0x183f818; 0x1876c18; 0x18e6e18; 0x19c6398; 0x1d861d8; 0x1f06098;
   0xf04018; 0x0; 0x0; 0x0; 0x0; 0x202000; 0x0; 0x0;
   0x0; 0x180; 0x3ffc180; 0x3ffd99c; 0x181988; 0x18199c; 0x181988; 0x1ff9ffc;
   0x1ff9ff8; 0x1818000; 0x1998000; 0x1999ffc; 0x1999ff8; 0x1999c00; 0x1999800; 0x1999c00;
   0x1999ff8; 0x19d9ff8; 0x1898018; 0x19d8018; 0x2c0018; 0xfe1c18; 0x1c71ff8; 0x3c3c7fc;
   0x301e038; 0x1006000; 0x0; 0x0; 0x0; 0x0; 0x202000; 0x0;
   0x0; 0x0; 0x440; 0x660; 0x3ffc660; 0x3ff8660; 0x1c3668; 0xc366c;
   0x1ffb67c; 0x1ffbe78; 0x1819e78; 0x1898e70; 0x1998660; 0x1998660; 0x1999e60; 0x199be70;
   0x199f678; 0x199a67c; 0x199866c; 0x1998660; 0x19de670; 0x2c7e30; 0x7e3e30; 0xe70f38;
   0x3c3c71c; 0x300f00c; 0x2006004; 0x0; 0x0; 0x0; 0x0; 0x202000;
   0x0; 0x0; 0x0; 0x0; 0x1ff8; 0x3fffff8; 0x3fff8c0; 0x1c1cc0;
   0xc3ae8; 0x1fffffc; 0x1ffbae8; 0x1819cc0; 0x18198e0; 0x1999ffc; 0x1999ff8; 0x1998070;
   0x1998030; 0x1999ff0; 0x1999ff8; 0x19d9878; 0x199983c; 0x19d987e; 0x2c1834; 0x7e1870;
   0xe61ff0; 0x3c79ff0; 0x301e030; 0x200c050; 0x0; 0x0; 0x0; 0x0;
   0x202000; 0x0; 0x0; 0x0; 0xe0070; 0xe0030; 0xe0070; 0x3fff830;
   0x3fffff0; 0xe07f8; 0xe0758; 0x1fff318; 0x1fff31c; 0x1aeb30c; 0x18e316e; 0x18e3064;
   0x18e3060; 0x1fff060; 0x1fff060; 0x1f0060; 0x3f0060; 0x3f8060; 0x7fc660; 0xeee760;
   0x1ce73e0; 0x38e3ce0; 0x30e1c70; 0xe0830; 0xe0000; 0x0; 0x0; 0x0;
   0x0; 0x202000; 0x0; 0x0; 0x0; 0x70030; 0x60030; 0x3fffc30;
   0x3fffc38; 0x7f8; 0x1fffbf8; 0x1fffb58; 0x18a9b18; 0x19fdb9c; 0x190d9ac; 0x19fd97e;
   0x1801860; 0x1fff870; 0x1fff860; 0x555070; 0xfff060; 0xc03070; 0xfff060; 0xfff370;
   0xc033e0; 0xfff1f0; 0xaaa0f0; 0x7fffe70; 0x3fffe38; 0x5555410; 0x0; 0x0;
   0x0; 0x0; 0x202000; 0x0; 0x0; 0x0; 0x60000; 0xe0ff8;
   0xc07fc; 0x1c0600; 0x1c0600; 0x3ffe630; 0x7fff630; 0xc1c638; 0x1c1c638; 0xc18638;
   0xe18718; 0xe38618; 0x631758; 0x630ff8; 0x771ff8; 0x3e0c00; 0x3c1c00; 0x1c0de0;
   0x3c0dfc; 0x3e0c3e; 0x770c04; 0xe38e00; 0x3c1fe00; 0x380f7e0; 0x30077c0; 0x0;
   0x0; 0x0; 0x0; 0x202000; 0x0; 0x0; 0x0; 0xc0000;
   0xc07fc; 0xc07fc; 0xc0600; 0x15d4700; 0x1ffc618; 0x1ffc718; 0x18c0318; 0x1cc0718;
   0x18c0318; 0x1cc0318; 0x18c0318; 0x7ffe75c; 0x3ffeff8; 0x7ffeffc; 0x1e0c00; 0x3e0c00;
   0x360dc0; 0x770dfc; 0x630e3e; 0xe38e04; 0x1c1c600; 0x3c1e710; 0x380f7e0; 0x30063e0;
   0x0; 0x0; 0x0; 0x0; 0x202000; 0x0; 0x0; 0x0;
   0x1c000; 0xc7fc; 0xc7fc; 0xe6a8; 0x3ffe700; 0x3fff318; 0x300f718; 0x300fb18;
   0x37fdb18; 0x33fe318; 0x3067318; 0x3063318; 0x357575c; 0x37ff7f8; 0x35757fc; 0x3262600;
   0x3667600; 0x3662680; 0x36677fc; 0x3ffe63e; 0x3fff704; 0x3800300; 0x1800300; 0x1f803f0;
   0xf001f0; 0x0; 0x0; 0x0; 0x0; 0x202000; 0x0; 0x0;
   0x0; 0x0; 0xffe7fc; 0xffe7fc; 0xc00600; 0xc00700; 0xffe218; 0xffe718;
   0xc00318; 0xc00318; 0x3fff318; 0x3fff318; 0x2aea318; 0x10c275c; 0x38c6ff8; 0x1cceffc;
   0xedcc00; 0x7d8c00; 0x3e0fc0; 0x7f87fc; 0xefc63e; 0x1ccf604; 0x38c7600; 0x30c1700;
   0xf83f0; 0x781f0; 0x0; 0x0; 0x0; 0x0; 0x202000; 0x0;
   0x0; 0x0; 0x0; 0x1ffe7fc; 0x1ffe7fc; 0x180e300; 0x1c0e700; 0x1ffe318;
   0x1ffe318; 0x180e318; 0x1d5e318; 0x1ffe318; 0x1554318; 0x318; 0x3fff75c; 0x3fffff8;
   0xc0f54; 0xcce00; 0xce600; 0x1fce7e0; 0x1fce7fc; 0xce63e; 0xdf604; 0xfb600;
   0x7ff3f10; 0x3fe1be0; 0x15019e0; 0x0; 0x0; 0x0; 0x0; 0x202000;
   0x0; 0x0; 0x0; 0x0; 0x3fff7fc; 0x3fff7fc; 0x2bab6a8; 0x1c7700;
   0x2aeb318; 0x3fff718; 0x381b318; 0x381f318; 0x3abb318; 0x3fff318; 0x381b318; 0x381f75c;
   0x3abb7f8; 0x3fff7fc; 0x183600; 0x193600; 0x19b3680; 0x19b37fc; 0x319b63e; 0x319ff04;
   0x218db00; 0x618db00; 0x1e1bf0; 0x1c19f0; 0x0; 0x0; 0x0; 0x0;
   0x202000; 0x0; 0x0; 0x0; 0x1c00000; 0x3fe07fc; 0x7ff7fc; 0x384f6a8;
   0x1867700; 0x18c6318; 0xdc6718; 0x866318; 0x678318; 0x71c318; 0x3ff318; 0x5fe318;
   0xc7075c; 0x183c7f8; 0x3fff7fc; 0x32ff600; 0x10e1600; 0x2aea680; 0x7fff7fc; 0x2aea63e;
   0x3f0704; 0xf38300; 0x1c1f300; 0x380fbf0; 0x30011f0; 0x0; 0x0; 0x0;
   0x0; 0x202000; 0x0; 0x0; 0x0; 0xc070; 0xc030; 0x3ffc1f0;
   0x3fedbf8; 0x70d998; 0x20d998; 0x174d8dc; 0x3fedbfe; 0x3fedbfc; 0x326da48; 0x376db4c;
   0x326da48; 0x376dbfc; 0x326dbf8; 0x376db4c; 0x326c248; 0x376c34c; 0x326c3f8; 0x37643fc;
   0x3a66000; 0x1f66700; 0x2037fe; 0x7031fc; 0x201800; 0x701000; 0x0; 0x0].
Definition hanzi_data_524 : list N :=
  [0x0; 0x0; 0x202000; 0x0; 0x0; 0x0; 0x18300; 0x818300;
   0x1f19738; 0xffbf38; 0x1f9738; 0x1018338; 0x301b338; 0x3abbff8; 0x1ff9ffc; 0x62c;
   0x3ff00; 0x3ff80; 0x1c1e0; 0x7ffff0; 0x7ffffc; 0x606068; 0x7fffe0; 0x7fffe0;
   0x606060; 0x6aeae0; 0x7fffe0; 0x0; 0x3fffffc; 0x3fffffc; 0x0; 0x0;
   0x0; 0x0; 0x0; 0x202000; 0x0; 0x0; 0x0; 0x19cc070;
   0x18e6030; 0xe771f0; 0x633bf8; 0x1ce7398; 0x38ce198; 0x1fff1dc; 0x1fff7fe; 0x1f1b7fc;
   0x1bfb6c8; 0x19f36dc; 0x1b3f6c8; 0x1fff7fc; 0x1fff7f8; 0xc636dc; 0xc6b6c8; 0xfff6dc;
   0xe737f8; 0xd6b7fc; 0xfff000; 0xf73f00; 0x2863ffa; 0x7bff1fc; 0x3bff800; 0x3063000;
   0x0; 0x0; 0x0; 0x0; 0x202000; 0x0; 0x0; 0x0;
   0x770; 0x3fffbe0; 0x3fff9e0; 0x601f8; 0x1fff31c; 0x1fffbc0; 0x603f0; 0x6033e;
   0x3fffd84; 0x3fff9f0; 0x1cf0; 0xc00; 0x3fffc0; 0x3aaac0; 0x301cc0; 0x3ef8c0;
   0x1ee0c0; 0xaaaac0; 0x1ffffc0; 0x1800000; 0x18ffffc; 0x18ffffc; 0x1c55554; 0xfc0000;
   0xfc0000; 0x0; 0x0; 0x0; 0x0; 0x202000; 0x0; 0x0;
   0x0; 0x71c000; 0x308000; 0x7fffd54; 0x3fffffc; 0x71c3fc; 0x308060; 0x1555070;
   0x3fff860; 0x3fff870; 0x130060; 0x1303fc; 0x1fffbfc; 0x1fff870; 0x1999860; 0x1999870;
   0x1b99860; 0x1bb9870; 0x1ff9be0; 0x1ffdbf0; 0x1ccd8fe; 0x1cc581c; 0x1801800; 0x1801800;
   0x1f01800; 0x1f01800; 0x0; 0x0; 0x0; 0x0; 0x202000; 0x0;
   0x0; 0x0; 0x700c0; 0x601c0; 0xe00c0; 0x3fff8e0; 0x3fff860; 0x70;
   0x630; 0x1fff638; 0x1fff75c; 0x18033fe; 0x1c071fc; 0x18030c0; 0x1c070e0; 0x1fff070;
   0x1fff7f8; 0xe07fc; 0x4ec1fc; 0xeee00c; 0x1ce7000; 0x18e3600; 0x18e3ff0; 0x30e19fe;
   0x30e181c; 0xfc000; 0x7c000; 0x0; 0x0; 0x0; 0x0; 0x202000;
   0x0; 0x0; 0x0; 0x1830070; 0x830060; 0xc70c70; 0xe60bfc; 0x3ff9bfc;
   0x3ffb830; 0x1c3030; 0xe00b8; 0x30f00d8; 0x39fa8d8; 0x1d9fcdc; 0xfcb8cc; 0x1f733fc;
   0x1b3b3fc; 0x1b9b0c0; 0x3bc30c0; 0x37e33c0; 0x337b3f0; 0x733b1fc; 0x230b0cc; 0x3e78c0;
   0xefcc0; 0x7ffcec0; 0x3ff86c0; 0x15404c0; 0x0; 0x0; 0x0; 0x0;
   0x202000; 0x0; 0x0; 0x0; 0x618060; 0x618060; 0x618070; 0x6187f0;
   0x6187f8; 0x2eba018; 0x3fff01c; 0x3ffe00c; 0x6187fc; 0x6187f8; 0x6180c0; 0x6180c0;
   0x6180c0; 0x618ffc; 0x7fffffc; 0x3fff2e8; 0x7fff0c0; 0x80c0; 0x7380c0; 0xe1c4c0;
   0x1c1cfc0; 0x180e7c0; 0x38071e0; 0x30038e0; 0x3003020; 0x0; 0x0; 0x0;
   0x0; 0x202000; 0x0; 0x0; 0x0; 0x380030; 0x380830; 0x380c30;
   0x381ff8; 0x381bfc; 0x38380c; 0x17d100c; 0x3ff800c; 0x3ff81fc; 0x183ff8; 0x383e60;
   0x383a60; 0x7c3060; 0xec33fc; 0xcc33fc; 0xce32e8; 0x1c63060; 0x1873060; 0x383b060;
   0x303b360; 0x10133e0; 0xfde0; 0x7ffde70; 0x3ff8630; 0x3fc0410; 0x0; 0x0;
   0x0; 0x0; 0x202000; 0x0; 0x0; 0x0; 0x140; 0x3ffc0c0;
   0x7ffc1c0; 0x2ba80c0; 0x1c1ffc; 0xc1ffc; 0x3ffc1c0; 0x3ff80c0; 0x381c1c0; 0x3898ffc;
   0x399dffc; 0x3998c00; 0x399cc10; 0x3998e38; 0x399c670; 0x39986e0; 0x399c7c0; 0x3998380;
   0x39dc7c0; 0x2c0ee0; 0xfe1c70; 0xe7083c; 0x3c3c01e; 0x380e004; 0x1006000; 0x0;
   0x0; 0x0; 0x0; 0x202000; 0x0; 0x0; 0x0; 0xc0000;
   0xe07fc; 0x1c07fc; 0x1806a8; 0x7fff700; 0x3fff318; 0x7fff718; 0x60318; 0x70318;
   0x1c38318; 0x1c18318; 0xe1c318; 0x74e75c; 0x3fe7f8; 0x3fe7fc; 0x1c0600; 0x6e0600;
   0xe60680; 0xc707fc; 0xc3863e; 0x1c1c704; 0x1ffe300; 0x3fff300; 0x300f3f0; 0x10001f0;
   0x0; 0x0; 0x0; 0x0; 0x202000; 0x0; 0x0; 0x0;
   0x40180; 0xf0180; 0x3f7c190; 0x3f0df98; 0x381df98; 0x380c198; 0x381c198; 0x3f7c198;
   0x3f7dffc; 0x380dffc; 0x381c000; 0x380d98c; 0x3ffddcc; 0x3ffd88c; 0x1775dcc; 0x2619cc;
   0x771dcc; 0x261bec; 0x771f6c; 0x231e6c; 0x7731c3c; 0x2239eac; 0x371dffc; 0x3e0f82c;
   0x1c07400; 0x0; 0x0; 0x0; 0x0; 0x202000; 0x0; 0x0;
   0x0; 0x603180; 0x603380; 0x707180; 0x38e1c0; 0x19c1c0; 0x1c40e0; 0x1fffc70;
   0xfffc70; 0x1c71c78; 0xc30c78; 0x1fffc7c; 0xfffc6c; 0x1c71c64; 0xc30c60; 0x1fffc60;
   0xfffc60; 0x70060; 0x30060; 0x3ffff60; 0x3fffe60; 0x70060; 0x30060; 0x70060;
   0x30060; 0x70060; 0x0; 0x0; 0x0; 0x0; 0x202000; 0x0;
   0x0; 0x0; 0x0; 0x3fffc00; 0x3fffdfc; 0x1881fc; 0x19c1fc; 0x3988d8c;
   0x199dd9c; 0x198998c; 0xd9d99c; 0xf8b98c; 0x19d19c; 0x18818c; 0x7ffff9c; 0x3ffff8c;
   0x3019c; 0x8721ac; 0x1c67dfc; 0x18e6dfc; 0x39c6c1c; 0x3206e0c; 0x7606600; 0x2606600;
   0x756400; 0x3fe000; 0x3fc000; 0x0; 0x0; 0x0; 0x0; 0x202000;
   0x0; 0x0; 0x0; 0x60; 0x60; 0x3fff860; 0x3fff860; 0x3860;
   0xc03860; 0xc1fbfc; 0xe3bbfc; 0x633bfc; 0x773860; 0x7e3860; 0x3c3860; 0x1c3860;
   0x3c3860; 0x7c3860; 0x6e3a60; 0xe73fe0; 0xc3bbf8; 0x1c1f87e; 0x81f81c; 0xb804;
   0x3800; 0x7fff800; 0x3fff800; 0x0; 0x0; 0x0; 0x0; 0x0;
   0x202000; 0x0; 0x0; 0x0; 0x60060; 0x70060; 0xf0060; 0xf8060;
   0x1dc060; 0x38c060; 0x70e3fc; 0xe073fc; 0x1c03ffc; 0x3801e60; 0x3007e60; 0x206460;
   0x707060; 0x7c6060; 0x1f7060; 0x7e260; 0x1f7e0; 0x63f8; 0x8070fe; 0x380601c;
   0x1807004; 0x1806000; 0x1fff000; 0xffe000; 0x0; 0x0; 0x0; 0x0;
   0x0; 0x202000; 0x0; 0x0; 0x0; 0x71c060; 0x60c060; 0x71c060;
   0x3fff860; 0x7fffc60; 0x60c060; 0x71c3fc; 0x3fc; 0x3fffffc; 0x3fff860; 0x3001c60].
Definition hanzi_data_525 : list N :=
  [0x3021860; 0x3071c60; 0x60060; 0x1fff060; 0x1fff260; 0x1c307e0; 0x18303f0; 0x1c3807e;
   0xc1801c; 0x1c1c004; 0xc0e000; 0xfc7800; 0x7c3c00; 0x3c0c00; 0x0; 0x0;
   0x0; 0x0; 0x202000; 0x0; 0x0; 0x0; 0x402060; 0xe07060;
   0x70e060; 0x70c060; 0x31c060; 0x380060; 0x1fff974; 0x1fffbfc; 0x1863bfc; 0x1863860;
   0x1fff860; 0x1fff860; 0x1863860; 0x1863860; 0x1fff860; 0x1fff860; 0x60360; 0x603e0;
   0x7fffdfc; 0x3fffc3e; 0x6001c; 0x60000; 0x60000; 0x60000; 0x60000; 0x0;
   0x0; 0x0; 0x0; 0x202000; 0x0; 0x0; 0x0; 0x60;
   0x2aa060; 0x1fff070; 0xfff030; 0x700070; 0x780030; 0x3c07fc; 0x1e07fc; 0x7f0630;
   0xfbc638; 0x3e1f718; 0x3807b18; 0x3001b18; 0x318; 0x1fff39c; 0x1fff3b8; 0xe01f0;
   0xe01e0; 0xe01c0; 0xe03e0; 0xe0770; 0xe0638; 0x7fffc3c; 0x3fff81c; 0x4;
   0x0; 0x0; 0x0; 0x0; 0x202000; 0x0; 0x0; 0x0;
   0xc0; 0x3ffe0c0; 0x7fff0c0; 0x2aae0c0; 0x1c74c4; 0xc66cc; 0x1c76cc; 0xc66cc;
   0x1fff6cc; 0x1ffe6cc; 0x1fff6cc; 0x18c66cc; 0x18c76cc; 0x18c66cc; 0x18c76cc; 0x18c36cc;
   0x18e76cc; 0x18636cc; 0x1c636cc; 0x18637fc; 0x1c73ffc; 0xc3be00; 0xfd9c00; 0xf9dc00;
   0x109800; 0x0; 0x0; 0x0; 0x0; 0x202000; 0x0; 0x0;
   0x0; 0xee6060; 0xeee060; 0xeee060; 0xeee060; 0x3fffd64; 0x3fffb6c; 0xeee36c;
   0xeee36c; 0xeee36c; 0x36c; 0x3ffff6c; 0x3fffb6c; 0x3061f6c; 0x3061b6c; 0x3061f6c;
   0xffe36c; 0xfff36c; 0xc6236c; 0xc6736c; 0xc623fc; 0xd673fc; 0xf62300; 0x565000;
   0x60000; 0x60000; 0x0; 0x0; 0x0; 0x0; 0x202000; 0x0;
   0x0; 0x0; 0x7000; 0xe000; 0x3fffff8; 0x3fffff8; 0x1555578; 0x60338;
   0x60338; 0x67fb8; 0x3ff7fb8; 0x3ff01f8; 0x31300f8; 0x19bbff8; 0x199fff8; 0x1998638;
   0x180638; 0x387ff8; 0x3c7fd8; 0x3c0618; 0x7c0618; 0x6c0618; 0xe6661c; 0xc77e0c;
   0x3c3fe0c; 0x381cf0e; 0x101c204; 0x0; 0x0; 0x0; 0x0; 0x202000;
   0x0; 0x0; 0x0; 0x0; 0x7fc; 0x3fff7fc; 0x3fff6a8; 0x7700;
   0x803600; 0x1c1f700; 0xc3b7f8; 0xe777f8; 0x6632b8; 0x7e701c; 0x3c3018; 0x3c701c;
   0x3837fc; 0x7c77fc; 0xee37a8; 0xe77700; 0x1c33300; 0x1c3f700; 0x81f300; 0xf300;
   0x3380; 0x7fff3d0; 0x3fff1f8; 0x1f8; 0x0; 0x0; 0x0; 0x0;
   0x202000; 0x0; 0x0; 0x0; 0x60000; 0x60000; 0x603fc; 0x603f8;
   0x3fffb1c; 0x3fffb18; 0x6031c; 0x60318; 0x1fff31c; 0x1fff318; 0x1fff3fc; 0x603f8;
   0x6031c; 0x2aeab18; 0x7fffb1c; 0x3aeab18; 0x306031c; 0x30603f8; 0x30603fc; 0x30602b8;
   0x3e6001c; 0x1e60018; 0x460000; 0x60000; 0x60000; 0x0; 0x0; 0x0;
   0x0; 0x202000; 0x0; 0x0; 0x0; 0x0; 0x1ffe000; 0x1fff7fc;
   0x1aae7f8; 0x1c0771c; 0x18a6618; 0x1ce771c; 0x18e6618; 0x1ce771c; 0x18e6618; 0x1ce77fc;
   0x18e67f8; 0x1ce771c; 0x18e6618; 0x1c6771c; 0x9e2618; 0x1f0718; 0x1b0618; 0x11b07fc;
   0x21b87f8; 0x719c01c; 0x318e018; 0x3587800; 0x3f83c00; 0x1f01c00; 0x0; 0x0;
   0x0; 0x0; 0x202000; 0x0; 0x0; 0x0; 0x600e0; 0x600e0;
   0x600e0; 0x600e0; 0x3fff8e0; 0x3fffffc; 0x4607fc; 0x1c632e8; 0xc670e0; 0xe660e0;
   0x6661f0; 0x66e3f0; 0x6647f0; 0x3fffaf8; 0x3fffcf8; 0xf00ec; 0xf00ec; 0x1f80ee;
   0x1b80e4; 0x39c0e0; 0x71e0e0; 0xe0f0e0; 0x3c07ce0; 0x3801ee0; 0x30004e0; 0x0;
   0x0; 0x0; 0x0; 0x202000; 0x0; 0x0; 0x0; 0x10000e0;
   0x1fe00e0; 0x1fff8e0; 0x2f8e0; 0x1c18e0; 0xc18e0; 0x3fffffc; 0x3fffbfc; 0xc18e0;
   0xc18e0; 0x1ffd9f0; 0x1ffd9f0; 0x180dbf0; 0x198dbf8; 0x19cdef8; 0x198daf8; 0x19cd8ec;
   0x18cd8ee; 0x19cd8e4; 0x19cd8e4; 0x7e1ce0; 0xe60ce0; 0x1c7cce0; 0x381eee0; 0x10044e0;
   0x0; 0x0; 0x0; 0x0; 0x202000; 0x0; 0x0; 0x0;
   0x10; 0x38; 0x3fffcf0; 0x3fffde0; 0x155d5c0; 0xc000; 0xc000; 0xc000;
   0xc01c; 0x1ffc03c; 0x1ffc078; 0x180e0e0; 0x180e040; 0x180e000; 0x1806000; 0x1806180;
   0x18071c0; 0x18070c0; 0x18070e0; 0x18038e0; 0x1c03870; 0x1c01c38; 0x1d41e38; 0xfc0e18;
   0x7c0410; 0x0; 0x0; 0x0; 0x0; 0x202000; 0x0; 0x0;
   0x0; 0x10; 0x1fff838; 0x1fff878; 0x1aab9e0; 0x1c019c0; 0x1861800; 0x1c61800;
   0x1861800; 0x1c6181c; 0x186183c; 0x1c618f0; 0x18618e0; 0x1c71800; 0x1861800; 0x1c71880;
   0x1871980; 0x1c719c0; 0x18318c0; 0x14b90e0; 0x3f8060; 0x79c070; 0xe0e038; 0x1c07c1c;
   0x3803e1c; 0x1000400; 0x0; 0x0; 0x0; 0x0; 0x202000; 0x0;
   0x0; 0x0; 0x10; 0x1fffe38; 0x1fffef0; 0x1800fe0; 0x1800fc0; 0x1800e00;
   0x1bfee00; 0x1aaae00; 0x1870e1c; 0x1820e3c; 0x1870ef0; 0x1bfee60; 0x1bfee00; 0x18a0e00;
   0x19f0e40; 0x1b20ec0; 0x1970ec0; 0x1bffee0; 0x1fffe70; 0x1800e70; 0x1800e70; 0x1fffe38;
   0x1fffe1c; 0x1800e18; 0x1800e00; 0x0; 0x0; 0x0; 0x0; 0x202000;
   0x0; 0x0; 0x0; 0xc0; 0xc0; 0x3fff0c0; 0x3fff0c0; 0x70c0;
   0x803ec0; 0x1c1f6dc; 0xc3b6c8; 0xe777cc; 0x6633cc; 0x7e73cc; 0x3c30ec; 0x3c70c4;
   0x3830e0; 0x7c7060; 0xee30e0; 0xe771e0; 0x1c331e0; 0x1c3f3f0; 0x81f730; 0xf630;
   0x3238; 0x7fff01c; 0x3fff00c; 0xc; 0x0; 0x0; 0x0; 0x0;
   0x202000; 0x0; 0x0; 0x0; 0xe0; 0xfff8e0; 0x1fff8e0; 0x8000e0;
   0x1c000e0; 0xaaa6e0; 0x1fff6fc; 0xaaa6e8; 0x1c007ec; 0x8003ec; 0x1fffbec; 0xfff8ec;
   0x7000e4; 0x6000e0; 0x7fffc60; 0x3fffc60; 0x17554e0; 0x6030e0; 0x70f1f0; 0x60e3b0;
   0x71c730; 0x608238; 0x70001c; 0x7e000c; 0x3c000c; 0x0; 0x0; 0x0].
Definition hanzi_data_526 : list N :=
  [0x0; 0x202000; 0x0; 0x0; 0x0; 0x4040c0; 0xe060c0; 0x60c0c0;
   0x71c0c0; 0x31c0c0; 0x388ec8; 0x1fff6d8; 0x1fff6d8; 0x18e37dc; 0x18e33c8; 0x1fff3dc;
   0x1fff0ec; 0x18e30cc; 0x18e30e0; 0x1fff0e0; 0x1fff0e0; 0xe00e0; 0xe01e0; 0x7fffff0;
   0x3fffb30; 0xe0738; 0xe0238; 0xe001c; 0xe000e; 0xe0004; 0x0; 0x0;
   0x0; 0x0; 0x202000; 0x0; 0x0; 0x0; 0x1c0000; 0x1c0aa8;
   0x1c1ffc; 0x3e1ffc; 0x770638; 0x670638; 0xe38618; 0x1c18618; 0x3c1e618; 0x3fff618;
   0x17f7ffc; 0x1ffc; 0x1ffc; 0x780; 0x1ffc7c0; 0x1ffc6c0; 0x1c1c6e0; 0x180c660;
   0x1c1c670; 0x180c638; 0x1c1c61c; 0x1aac60c; 0x1ffc744; 0x1ffc7e0; 0x1c1c3e0; 0x0;
   0x0; 0x0; 0x0; 0x202000; 0x0; 0x0; 0x0; 0xc00000;
   0xfe0000; 0x1fff3fc; 0x3f3fc; 0x7060; 0xe3060; 0xe3060; 0xe3060; 0xe3060;
   0xe3860; 0x3fffbfc; 0x3fffbfc; 0xe0060; 0xe0060; 0xe0060; 0xee6060; 0xce7060;
   0x1ce3260; 0x18e33e0; 0x38e3bf8; 0x30e1c7e; 0x30e0c0c; 0x30e0c00; 0xf8000; 0x78000;
   0x0; 0x0; 0x0; 0x0; 0x202000; 0x0; 0x0; 0x0;
   0x10; 0x3ffc78; 0x3ffdf0; 0xe0080; 0x7c000; 0xf008; 0x3fffc7c; 0x3fff8f0;
   0x19cc140; 0x18c6180; 0x18e71c0; 0x18638e0; 0x1c71e78; 0xfb843c; 0x79c018; 0x1fffff0;
   0x1fffff0; 0x6000; 0x557540; 0x7fffe0; 0x557540; 0x3e6000; 0x3fffffc; 0x3fffffc;
   0x1555554; 0x0; 0x0; 0x0; 0x0; 0x202000; 0x0; 0x0;
   0x0; 0x0; 0xfff800; 0x1fffffc; 0x8003fc; 0x1c00060; 0xaaa060; 0x1fff060;
   0xaaa060; 0x1c00060; 0x800060; 0x1fffbfc; 0xfffbfc; 0x700060; 0x600060; 0x7fffc60;
   0x3fffc60; 0x1755460; 0x603260; 0x70f3e0; 0x60e3f8; 0x71c07e; 0x60800e; 0x700000;
   0x7e0000; 0x3c0000; 0x0; 0x0; 0x0; 0x0; 0x202000; 0x0;
   0x0; 0x0; 0x603040; 0xe070e0; 0x7060c0; 0x38e1c0; 0x3fffffc; 0x3fffff8;
   0x3d5555c; 0x3800018; 0x380001c; 0x0; 0x3fffffc; 0x3fffffc; 0xe00; 0x600;
   0x700; 0xffff80; 0xffffc0; 0xeaabf0; 0xe003fc; 0xe003be; 0xe0039c; 0xe00380;
   0xffff80; 0xffff80; 0xe00380; 0x0; 0x0; 0x0; 0x0; 0x202000;
   0x0; 0x0; 0x0; 0x1c0000; 0xc02a8; 0x15cc7fc; 0x1fcc2e8; 0x1fcc060;
   0xcc060; 0x1cc070; 0x3fff830; 0x7fff830; 0x38; 0x1ffe7f8; 0x1ffe7f8; 0x1d5663c;
   0x180663e; 0x1ffe634; 0x1ffe634; 0x1c06630; 0x1806630; 0x1ffe630; 0x1ffe6b0; 0x1c067f0;
   0x18062b0; 0x1d06030; 0x1f86030; 0xf06000; 0x0; 0x0; 0x0; 0x0;
   0x202000; 0x0; 0x0; 0x0; 0x318000; 0x31b2a8; 0x31b7fc; 0x3f9b2e8;
   0x3f9b060; 0xdb060; 0x6db070; 0xe5b030; 0x1c1b030; 0x818038; 0x5557f8; 0xfff3f8;
   0x1fff73c; 0xc0323e; 0x1c67734; 0xc63234; 0x1c67730; 0xc63230; 0x1df7730; 0x8f32b0;
   0x11f87f0; 0x20d82b0; 0x7fdf030; 0x3f87c30; 0x1501800; 0x0; 0x0; 0x0;
   0x0; 0x202000; 0x0; 0x0; 0x0; 0x700e0; 0x38060; 0x3fffff0;
   0x3fffff8; 0x18f39c; 0x38230e; 0xfffff0; 0xffffe0; 0x6000; 0x3fffffc; 0x3fffffc;
   0x2aaa80; 0x7fffc0; 0x3aaac0; 0x7040c0; 0x3060c0; 0x7060c0; 0x3060c0; 0x7060c0;
   0x30f0c0; 0x77b8c0; 0x1f9e00; 0x7c0fc0; 0xf003f8; 0xc00070; 0x0; 0x0;
   0x0; 0x0; 0x202000; 0x0; 0x0; 0x0; 0x1004180; 0x380e180;
   0x39ce1c0; 0x38ce0c0; 0x39ce0e0; 0x38ce060; 0x39cec70; 0x38cee38; 0x39ce75c; 0x38ce3fe;
   0x39ce3fc; 0x38ce1c0; 0x39ce0e0; 0x38ce070; 0x39c6778; 0x38ce7fc; 0x39c61fc; 0x38c600c;
   0x39c7000; 0x38c7e00; 0x39c7ff0; 0x38c30fe; 0x380381c; 0x3801800; 0x3801000; 0x0;
   0x0; 0x0; 0x0; 0x202000; 0x0; 0x0; 0x0; 0xe0180;
   0xe0180; 0xe01c0; 0xe00e0; 0xe00e0; 0x3fff060; 0x3fff670; 0x38e3638; 0x38e371c;
   0x38e33fe; 0x39e31fc; 0xe00c0; 0x1e00e0; 0xe0070; 0x1f0738; 0xf07fc; 0x1f01fc;
   0xb800c; 0x11f8000; 0x209ce00; 0x71dcff0; 0x308e3fe; 0x3fc707c; 0x3f83c00; 0x1501800;
   0x0; 0x0; 0x0; 0x0; 0x202000; 0x0; 0x0; 0x0;
   0xc0; 0x3fff9c0; 0x3fff8c0; 0x3aab8e0; 0x30e1870; 0x30e1870; 0x30e1f30; 0x30e1f38;
   0x37fdb1c; 0x37fdbfe; 0x35759fc; 0x30618e0; 0x30e1860; 0x30e1870; 0x31f1bf8; 0x33b1bfc;
   0x333187c; 0x361980c; 0x361d800; 0x360fb80; 0x3005ff0; 0x3aab8fc; 0x3fff81c; 0x3aab800;
   0x3001800; 0x0; 0x0; 0x0; 0x0; 0x202000; 0x0; 0x0;
   0x0; 0x10000c0; 0x3e0fcc0; 0x1fffcc0; 0x3fe8e0; 0x306070; 0x306030; 0x307730;
   0x303338; 0x301b9c; 0x1fef9fe; 0x1fffdfc; 0x30c0e0; 0x30c060; 0x30c830; 0x30cff8;
   0x30ebf8; 0x30787c; 0x30780c; 0x3ff7300; 0x3ff33c0; 0xf9f8; 0x3dc3c; 0x7ffce1c;
   0x3fe0700; 0x1500200; 0x0; 0x0; 0x0; 0x0; 0x202000; 0x0;
   0x0; 0x0; 0x70040; 0x600e0; 0xe00e0; 0x2aea860; 0x3fff870; 0x3aab830;
   0x3001b38; 0x3001b18; 0x1fff39c; 0xffe1fe; 0x1fc; 0xe0; 0x70; 0x3fff830;
   0x7fffbf8; 0x3983fc; 0x39c07c; 0x38c00c; 0x38c000; 0x38e380; 0x738e3f0; 0x63870fc;
   0x7783c1c; 0x3f81e00; 0x1f00400; 0x0; 0x0; 0x0; 0x0; 0x202000;
   0x0; 0x0; 0x0; 0xe00c0; 0xe00c0; 0x3fff8c0; 0x3fff8e0; 0xe0070;
   0x2aea230; 0x3fff730; 0xe0338; 0x15f53dc; 0x3fff9fe; 0x7fff9fc; 0xe0; 0x1ffe060;
   0x1aae030; 0x1c06738; 0x1aae7f8; 0x1ffe1fc; 0x180600c; 0x1c06000; 0x1ffe600; 0x1ffe7f0;
   0x18063fc; 0x1c0601c; 0x1f06000; 0xf06000; 0x0; 0x0; 0x0; 0x0;
   0x202000; 0x0; 0x0; 0x0; 0x706040; 0x2060e0; 0x706060; 0x206060;
   0x706070; 0x206030; 0x3fdfd38; 0x3fdff98; 0x7071dc; 0x7070fe; 0xf8f0fc; 0xf8f0e0].
Definition hanzi_data_527 : list N :=
  [0xf9f870; 0xab7830; 0x1fd7df8; 0x1ac6dfc; 0x3766c7c; 0x3266e0c; 0x7776500; 0x22363c0;
   0x7061f8; 0x20603e; 0x70601c; 0x206000; 0x706000; 0x0; 0x0; 0x0;
   0x0; 0x202000; 0x0; 0x0; 0x0; 0x700c0; 0x600c0; 0x3fffcc0;
   0x3fffce0; 0x1555470; 0x30; 0x1fff630; 0xeab738; 0x1c0331c; 0xc033fe; 0x1fff1fc;
   0xfff0c0; 0xe0; 0xfff870; 0x1fffbf8; 0x7803fc; 0x1e007c; 0x6000c; 0x3fffc00;
   0x3ffff80; 0x603f0; 0x600fc; 0x6001c; 0x7e000; 0x7c000; 0x0; 0x0;
   0x0; 0x0; 0x202000; 0x0; 0x0; 0x0; 0x70040; 0x600e0;
   0xe00e0; 0x3fffc60; 0x7fffc70; 0x3000c30; 0x7555f38; 0x1fff318; 0x157539c; 0x601fe;
   0x1fff1fc; 0x1fff0e0; 0x1863070; 0x1863030; 0x1fff7f8; 0x1fff3fc; 0x186307c; 0x186300c;
   0x1fff000; 0x1fff380; 0x71c7f0; 0xe0e0fc; 0x1c0701c; 0x3803c00; 0x1001800; 0x0;
   0x0; 0x0; 0x0; 0x202000; 0x0; 0x0; 0x0; 0x40;
   0x1fff8e0; 0x1fff8e0; 0x1a69860; 0x1b6d870; 0x1b69830; 0x1979f38; 0x1fffb18; 0x157539c;
   0xaea9fe; 0x1fff9fc; 0x600e0; 0x3fffc70; 0x3fff830; 0x1d97338; 0x19b33fc; 0x33331fc;
   0x33f180c; 0x15f5000; 0x1fff380; 0x15f57f0; 0xe00fc; 0x7fffc1c; 0x3fffc00; 0x0;
   0x0; 0x0; 0x0; 0x0; 0x202000; 0x0; 0x0; 0x0;
   0x70040; 0x600e0; 0x3fffce0; 0x3fffc60; 0x1515070; 0x1fbf830; 0x19b1f38; 0x19b1b18;
   0x1fbfb9c; 0xbae9fe; 0x175d1fc; 0x3fff8e0; 0x175d060; 0xbae830; 0x1fffbf8; 0x30c3fc;
   0x7fffc7c; 0x3fffc0c; 0x11dc000; 0x3d8f380; 0xf8fff0; 0x70c8fc; 0x1efe01c; 0x38fe000;
   0x3006000; 0x0; 0x0; 0x0; 0x0; 0x202000; 0x0; 0x0;
   0x0; 0x60700; 0x60600; 0x3fffffc; 0x3fffffc; 0x60700; 0x60600; 0x1555438;
   0x1fffc70; 0x1fffce0; 0x1c000c0; 0x1c00000; 0x1c00038; 0x1c7fe38; 0x1c7fe38; 0x1c70638;
   0x1c60638; 0x1c70638; 0x1c6ae38; 0x1c7fe38; 0x1c7fe38; 0x1c00638; 0x1c00238; 0x1c00038;
   0xfc0038; 0xfc0038; 0x0; 0x0; 0x0; 0x0; 0x202000; 0x0;
   0x0; 0x0; 0x60700; 0x60600; 0x3fffffc; 0x3fffffc; 0x60700; 0x20200;
   0x3fffffc; 0x3fffffc; 0x70e00; 0x30e00; 0xfffff8; 0xfffff8; 0xc30e38; 0xc30638;
   0xc30638; 0xc78e38; 0xcf9f38; 0xcdfb38; 0xddd3b8; 0xd8e1f8; 0xd060f8; 0xc00038;
   0xc00038; 0xfc0038; 0x7c0038; 0x0; 0x0; 0x0; 0x0; 0x202000;
   0x0; 0x0; 0x0; 0xe0700; 0xe0300; 0x3fffffc; 0x3fffffc; 0xe0700;
   0xe0380; 0x3ffe180; 0x3ffe198; 0x1c1f98; 0xc1f98; 0x1ffc198; 0x1aac198; 0x19dfffc;
   0x198fffc; 0x19dc190; 0x198d9b8; 0x19dd998; 0x198dd8c; 0x19dcd8c; 0x18cce88; 0x17e4700;
   0xf603c0; 0x1c7c1f0; 0x381f07c; 0x3006018; 0x0; 0x0; 0x0; 0x0;
   0x202000; 0x0; 0x0; 0x0; 0xe0700; 0xe0300; 0x3fffffc; 0x3fffffc;
   0xe0700; 0xe0300; 0x1c3ffc; 0xae3ffc; 0x1ff0000; 0x8b1ff8; 0x1df1d78; 0x9b1838;
   0xd31ff8; 0xfb0000; 0x733ffc; 0x3ff3ffc; 0x1ff367c; 0x18036cc; 0x1d577fc; 0x1bfb7ec;
   0x1d5719c; 0x180318c; 0x180319c; 0x1f83d8c; 0xf0141c; 0x0; 0x0; 0x0;
   0x0; 0x202000; 0x0; 0x0; 0x0; 0x700e0; 0x300e0; 0x300e0;
   0x380e0; 0x3fff8e0; 0x3fffffc; 0x1c7fc; 0xc64c; 0xcc64c; 0xce64c; 0xc664c;
   0xc664c; 0x1fff64c; 0x1fff7fc; 0xc17fc; 0xc00ec; 0x4dc3e4; 0xccc3e0; 0x1cce7e0;
   0x18c66e0; 0x38c77f0; 0x38c36fc; 0x70d7c1c; 0xf8000; 0x78000; 0x0; 0x0;
   0x0; 0x0; 0x202000; 0x0; 0x0; 0x0; 0x0; 0xaaa030;
   0x1fff070; 0x1fff0e0; 0xc01c0; 0xc0180; 0xc0000; 0xc0000; 0xc00fc; 0xc00fc;
   0x7fff8fc; 0x3fff8c0; 0x7fff8c0; 0xc00c0; 0xc00c0; 0xc00c0; 0xc00c0; 0xc0cc0;
   0xc0fc0; 0xc07c0; 0xc03e0; 0xc00e0; 0xfc070; 0xfc020; 0x7c000; 0x0;
   0x0; 0x0; 0x0; 0x202000; 0x0; 0x0; 0x0; 0x60000;
   0x70030; 0xe0070; 0xe00e0; 0xc01c0; 0x3fff980; 0x3fff800; 0x3003800; 0x30038fc;
   0x30038fc; 0x30038fc; 0xc0; 0xc0; 0xc0; 0xc0; 0xc0; 0xc0;
   0xcc0; 0xfc0; 0x7c0; 0x15553e0; 0x3fff8e0; 0x3fff870; 0x20; 0x0;
   0x0; 0x0; 0x0; 0x0; 0x202000; 0x0; 0x0; 0x0;
   0x98000; 0x1f8010; 0x798078; 0x638070; 0x14381e0; 0x1ff80c0; 0x1fff800; 0xff800;
   0x399fc; 0x20381fc; 0x3f301fc; 0x3ff8180; 0x1ffdc0; 0x303f980; 0x38701c0; 0x1c60180;
   0x1e601c0; 0xf60180; 0x7e0dc0; 0x1e0f80; 0x71f87c0; 0x33be3c0; 0x379fde0; 0x3f03840;
   0x1c00000; 0x0; 0x0; 0x0; 0x0; 0x202000; 0x0; 0x0;
   0x0; 0x0; 0x1fff030; 0x1fff070; 0x18030e0; 0x1c071c0; 0x1803180; 0x1fff000;
   0x1fff000; 0x1c070fc; 0x18030fc; 0x1c070fc; 0x1fff0c0; 0x1fff0c0; 0x230c0; 0x10670c0;
   0x38630c0; 0x1ec70c0; 0x7c34c0; 0x3c77c0; 0x3837c0; 0x7073e0; 0xe7b0e0; 0x7c7f070;
   0x380f820; 0x3001000; 0x0; 0x0; 0x0; 0x0; 0x202000; 0x0;
   0x0; 0x0; 0x10; 0x3fffc38; 0x3fffc78; 0x2bbe8e0; 0x39c1e0; 0x39c080;
   0x3fffc00; 0x3fffc00; 0x319dc54; 0x3198cfe; 0x319dcfe; 0x3bbace0; 0x3fffce0; 0x2aaa8e0;
   0x600e0; 0x600e0; 0x1fff8e0; 0x1fff8e0; 0x1fff8e0; 0x602e0; 0x607e0; 0x603e0;
   0x7fffef0; 0x3fffe60; 0x0; 0x0; 0x0; 0x0; 0x0; 0x202000;
   0x0; 0x0; 0x0; 0x0; 0xfff030; 0x1fff070; 0xc030e0; 0x1c031c0;
   0xfff180; 0x1fff000; 0xc03000; 0x1d570fc; 0xfff0fc; 0x15550fc; 0xe0; 0x7fffce0;
   0x3fffce0; 0x600e0; 0x660e0; 0x670e0; 0x1fe32e0; 0x1fe77e0; 0x67be0; 0x6f9e0;
   0x7d8e0; 0x7ff9c70; 0x3fe0e20; 0x1500400; 0x0; 0x0; 0x0; 0x0].
Definition hanzi_data_528 : list N :=
  [0x202000; 0x0; 0x0; 0x0; 0x60000; 0x60030; 0x3fffc70; 0x3fff8e0;
   0x601c0; 0x1fff980; 0x1fff800; 0x1863800; 0x1fff87c; 0x1fff87c; 0x186387c; 0x1aeb860;
   0x1fff860; 0xe60060; 0x1d60060; 0x3fff860; 0x7fffc60; 0x2060260; 0x1cedb60; 0x19cdbe0;
   0x388dde0; 0x360ccf0; 0x775cc70; 0x27fcc00; 0x3f8000; 0x0; 0x0; 0x0;
   0x0; 0x202000; 0x0; 0x0; 0x0; 0xc0; 0x1f800e0; 0x1ffc060;
   0x1feffc; 0x186ffc; 0x186ae8; 0x186070; 0x1861b0; 0x1861b0; 0x186198; 0x15d6198;
   0x3ffebb8; 0x3ffeffc; 0x386ba8; 0x386180; 0x386180; 0x306d80; 0x306fe0; 0x13067fc;
   0x23061bc; 0x7706180; 0x2676180; 0x3e7f180; 0x3c0f180; 0x1807180; 0x0; 0x0;
   0x0; 0x0; 0x202000; 0x0; 0x0; 0x0; 0x1c040c0; 0x1c0e0e0;
   0xc1c060; 0xe18ffc; 0x1755ffc; 0x3fffae8; 0x3fff070; 0x3201b0; 0x3701b0; 0x3ffe198;
   0x3ffe198; 0x3926bb8; 0x3966ffc; 0x3926ba8; 0x3936180; 0x3f3e180; 0x3c1ed80; 0x3806fe0;
   0x3ffe7fc; 0x3ffe1bc; 0x3806180; 0x3806180; 0x3ffe180; 0x3ffe180; 0x3806180; 0x0;
   0x0; 0x0; 0x0; 0x202000; 0x0; 0x0; 0x0; 0x0;
   0xaafffc; 0x7fefffc; 0x3aeeaa8; 0x38ee000; 0x18eeaa8; 0x1cefff8; 0xceeaa8; 0xcee000;
   0xeee000; 0x6efffc; 0xeefffc; 0x1ce3000; 0x18e3000; 0x38ffffc; 0x30ffffc; 0x30f7554;
   0x30e3038; 0x38e3070; 0x3fe30e0; 0x1fe30c0; 0xe3040; 0xe3000; 0xe3f00; 0xe1f00;
   0x0; 0x0; 0x0; 0x0; 0x202000; 0x0; 0x0; 0x0;
   0x180000; 0x180ffc; 0x181ffc; 0x180120; 0x3fff160; 0x3ffe120; 0x30c7ffc; 0x30e2ffc;
   0x31e7dec; 0x1e0dac; 0x1f0dec; 0x31b0dac; 0x39b8dec; 0x1f38fac; 0xf3cc3c; 0x33ec0c;
   0x737d5c; 0x632ffc; 0xc30ffc; 0xc30c0c; 0x1d30c0c; 0x39f8ffc; 0x71f8ffc; 0x2038c0c;
   0x1840c; 0x0; 0x0; 0x0; 0x0; 0x202000; 0x0; 0x0;
   0x0; 0x70060; 0x330060; 0x770070; 0xe31ff0; 0x1c71ff8; 0x83001c; 0x7001e;
   0x386000e; 0x3ffdffc; 0xffeff8; 0x7e1c0; 0x60180; 0x601c0; 0xe1ffc; 0xe1ffc;
   0xe0ba8; 0xc01c0; 0xc0180; 0x11c01c0; 0x3182180; 0x3183dc0; 0x3383fc0; 0x3f007c0;
   0x3e001e0; 0x1c00040; 0x0; 0x0; 0x0; 0x0; 0x202000; 0x0;
   0x0; 0x0; 0xc0060; 0xe0060; 0x1f0070; 0x1f0ff0; 0x3b8ff8; 0x33801c;
   0x71c01e; 0xe0e00c; 0x1c077fc; 0x3803ff8; 0x301d8c0; 0x40c0c0; 0xf1c0c0; 0xf8cffc;
   0x3fcffc; 0xfcae8; 0x7c0c0; 0xc0c0; 0x81c0c0; 0x380c8c0; 0x181cec0; 0x180cfc0;
   0x1ffc3e0; 0xff80e0; 0x20; 0x0; 0x0; 0x0; 0x0; 0x202000;
   0x0; 0x0; 0x0; 0xc060; 0x80c060; 0x1c0c070; 0xe0c7f0; 0xe0c7f8;
   0x70c01c; 0x38c01e; 0x1cc00c; 0xfc7fc; 0x4c3f8; 0x7fff8c0; 0x3fff8c0; 0x7fff8c0;
   0xcc7fc; 0x1cc7fc; 0x18c2e8; 0x38c0c0; 0x30c0c0; 0x70c0c0; 0x60c8c0; 0xfccfc0;
   0x1cfc7c0; 0x787c1e0; 0x301e0e0; 0x6020; 0x0; 0x0; 0x0; 0x0;
   0x202000; 0x0; 0x0; 0x0; 0xc00060; 0x1f80060; 0x1ff0070; 0xfcff0;
   0x1cff8; 0xc018; 0xc01c; 0xc00c; 0xc7fc; 0x3ffc7f8; 0x7ffc1c0; 0x60e0c0;
   0x70c1c0; 0x60effc; 0x70effc; 0x60eae8; 0x7061c0; 0x6060c0; 0x7061c0; 0x606cc0;
   0x707fc0; 0x6037c0; 0x7039e0; 0x6018e0; 0x701040; 0x0; 0x0; 0x0;
   0x0; 0x202000; 0x0; 0x0; 0x0; 0xe0060; 0x2e0060; 0x7e0070;
   0xee0ff0; 0x1ce0ff8; 0x8e001c; 0xe001e; 0x3fff00c; 0x3fff7fc; 0x1e07f8; 0x1f00c0;
   0x3f00c0; 0x3f80c0; 0x3f8ffc; 0x6fcffc; 0xeecae8; 0x1cee0c0; 0x1ce60c0; 0x38e70c0;
   0x38e38c0; 0x30e1fc0; 0xe07c0; 0xe01e0; 0xe00e0; 0xe0020; 0x0; 0x0;
   0x0; 0x0; 0x202000; 0x0; 0x0; 0x0; 0xc0060; 0xc0060;
   0xc0070; 0xc07f0; 0x3fff7f8; 0x3fff01c; 0x3dd701e; 0x38c300c; 0x38c37fc; 0x38c37f8;
   0x3fff0c0; 0x3fff0c0; 0x38c30c0; 0x38c3ffc; 0x38c3ffc; 0x3aebae8; 0x3fff0c0; 0x3aeb0c0;
   0x18c30c0; 0xc00c0; 0xc07c0; 0xc0fc0; 0xc01e0; 0xc00e0; 0xc0020; 0x0;
   0x0; 0x0; 0x0; 0x202000; 0x0; 0x0; 0x0; 0xe0060;
   0xe0060; 0x3fe0070; 0x3fe07f0; 0x15e07f8; 0xe001c; 0xe001e; 0x1ffe00c; 0x1fff7fc;
   0x18067f8; 0x18070c0; 0x18060c0; 0x18070c0; 0x1ffe7fc; 0x1fff7fc; 0x1aae2e8; 0x18070c0;
   0x30c0; 0x30c0; 0x30c0; 0x3fc0; 0x3fe0; 0x1de0; 0xce0; 0xc20;
   0x0; 0x0; 0x0; 0x0; 0x202000; 0x0; 0x0; 0x0;
   0x60; 0x2aaa060; 0x3ffe070; 0x3aeaff0; 0x3061ff8; 0x3860018; 0x387001c; 0x383000c;
   0x1830ffc; 0x1838ff8; 0x1f9c1c0; 0xf0e0c0; 0x41c0; 0x1ffc; 0x1ffdffc; 0x1ffcae8;
   0x180c1c0; 0x180c0c0; 0x180c1c0; 0x180c8c0; 0x180dfc0; 0x180cfc0; 0x1ffc7e0; 0x1ffc0e0;
   0x180c040; 0x0; 0x0; 0x0; 0x0; 0x202000; 0x0; 0x0;
   0x0; 0x60; 0x1ffe060; 0x1ffc070; 0x180eff0; 0x1c6eff8; 0x18ee01c; 0x1dc601e;
   0x198e00c; 0x1d867fc; 0x18067f8; 0x7fff8c0; 0x3fff8c0; 0x1c060c0; 0x1c36ffc; 0x1c77ffc;
   0xce6ae8; 0x1dc70c0; 0xc870c0; 0xc070c0; 0x3fff0c0; 0x3fff7c0; 0xe007c0; 0xe001e0;
   0x7e00e0; 0x7c0020; 0x0; 0x0; 0x0; 0x0; 0x202000; 0x0;
   0x0; 0x0; 0x303070; 0x303030; 0x303030; 0x3033f8; 0x3033f8; 0x31fe1c;
   0x31fe0c; 0x30ba0c; 0x3ff71fc; 0x3fe79f8; 0x3ff7860; 0x30f860; 0x31f860; 0x31bbfc;
   0x30bffc; 0x303ee8; 0x303660; 0x303660; 0x303460; 0x303060; 0x303160; 0x2bab3e0;
   0x7ffb0f0; 0x3ffb030; 0x3010; 0x0; 0x0; 0x0; 0x0; 0x202000;
   0x0; 0x0; 0x0; 0x70060; 0x60060; 0xe0070; 0x3fff7f0; 0x3fff7f8;
   0x3803018; 0x383301c; 0x383300c; 0x307fc; 0x387f8; 0x3fff8c0; 0x3fff8c0; 0x180c0].
Definition hanzi_data_529 : list N :=
  [0x98ffc; 0x1dcffc; 0xcc2e8; 0xcc0c0; 0xeee0c0; 0xc660c0; 0xc774c0; 0x1c377c0;
   0x1fbbbc0; 0x3ffdde0; 0x30f88e0; 0x3008020; 0x0; 0x0; 0x0; 0x0;
   0x202000; 0x0; 0x0; 0x0; 0x70060; 0xe0060; 0x3fff870; 0x3fffff0;
   0x15557f8; 0x18; 0x1fff01c; 0x1aae00c; 0x1c077fc; 0x18063f8; 0x1fff0e0; 0x1ffe0e0;
   0xe0; 0x1fff7fc; 0x1fff7fc; 0x7802e8; 0x1e00e0; 0xe00e0; 0x7fff8e0; 0x3fffce0;
   0xe07e0; 0xe03e0; 0xe01e0; 0xfc070; 0x7c020; 0x0; 0x0; 0x0;
   0x0; 0x202000; 0x0; 0x0; 0x0; 0x180030; 0x180c38; 0x181c18;
   0x183bf8; 0x3fff3fc; 0x3ff800c; 0x199c00e; 0x1998004; 0x199cdfc; 0x199df8; 0x1fff860;
   0x1ffb060; 0x1d7d060; 0x18783fc; 0x1c7c3fc; 0xced2e8; 0xedd860; 0x6cd860; 0x78d860;
   0x38cf60; 0x7cefe0; 0xee6de0; 0x1c77670; 0x383b630; 0x1012410; 0x0; 0x0;
   0x0; 0x0; 0x202000; 0x0; 0x0; 0x0; 0x7030; 0xff6038;
   0xff7018; 0xc033f8; 0xc03bfc; 0xc0380c; 0x3ffdc0e; 0x3ffdc04; 0x1575dfc; 0x31ff8;
   0x31e60; 0x1ff9860; 0x1ff9860; 0x19dbfc; 0x18dbfc; 0x189ae8; 0x3ffd860; 0x3ffd860;
   0x3c1860; 0x3c1b60; 0x6e1be0; 0xee19e0; 0x1c79870; 0x383d830; 0x300d810; 0x0;
   0x0; 0x0; 0x0; 0x202000; 0x0; 0x0; 0x0; 0x100070;
   0x19c030; 0x70c030; 0xe063f8; 0x1c77bf8; 0x783bc1c; 0x339cc0e; 0x70e00c; 0xff73fc;
   0x1fffbf8; 0x181f060; 0x60; 0x3fffc60; 0x3fbfbfc; 0x31317fc; 0x33b3ae8; 0x3737060;
   0x3636060; 0x3c3c060; 0x3e3e260; 0x37f7fe0; 0x31b1fe0; 0x30300f0; 0x3e3e030; 0x1e1c010;
   0x0; 0x0; 0x0; 0x0; 0x202000; 0x0; 0x0; 0x0;
   0xe0c060; 0xe0c060; 0x3fbf870; 0x3fbfff0; 0xe0c7f8; 0xe0c018; 0x3fbf81c; 0x3fbf80c;
   0xe0c7fc; 0x2eaebf8; 0x7fff8e0; 0xe0c0e0; 0xe0c0e0; 0x7fc; 0x1ffe7fc; 0x1ffe2e8;
   0x1c000e0; 0x18000e0; 0x1ffe0e0; 0x1ffe4e0; 0x1c007e0; 0x18003e0; 0x1ffe1f0; 0x1ffe060;
   0x1c00020; 0x0; 0x0; 0x0; 0x0; 0x202000; 0x0; 0x0;
   0x0; 0x606030; 0x226030; 0x766c18; 0x326df8; 0x337dfc; 0x3f3780c; 0x7f1f80e;
   0x337fe04; 0x31ffffc; 0x33e66f8; 0x1be6670; 0x1bef620; 0x1b7f670; 0x1a7f7fc; 0x1f7f7fc;
   0xe7fea8; 0xe77e70; 0xe76e20; 0xc77e70; 0xe66720; 0x1f667f0; 0x1b666e0; 0x3be6670;
   0x31fe638; 0xf4610; 0x0; 0x0; 0x0; 0x0; 0x202000; 0x0;
   0x0; 0x0; 0xe0070; 0xe0030; 0x3fff830; 0x3fffff8; 0xe07f8; 0x1fff01c;
   0x1fff00e; 0xc; 0x1fff7fc; 0xffe3f8; 0x1c07060; 0xeae060; 0x1fff060; 0x60c7fc;
   0x71c7fc; 0x2bbaae8; 0x7fffc60; 0x60; 0x1fff460; 0x1ffe660; 0x18077e0; 0x18023e0;
   0x1fff0f0; 0x1ffe030; 0x1807010; 0x0; 0x0; 0x0; 0x0; 0x202000;
   0x0; 0x0; 0x0; 0x60; 0xaaa060; 0x1fff070; 0x1aeb3f0; 0x1e6f7f8;
   0x1a6b018; 0x1b7b01c; 0x1b7b00c; 0x197b3fc; 0x1aeb3f8; 0x1fff0c0; 0xe00c0; 0xe00c0;
   0x1fff7fc; 0x1fff7fc; 0xe02e8; 0xe00c0; 0x3fff8c0; 0x3fffcc0; 0xc004c0; 0x1ddb7c0;
   0x19bb3e0; 0x31319f0; 0x3331860; 0x2131820; 0x0; 0x0; 0x0; 0x0;
   0x202000; 0x0; 0x0; 0x0; 0x60070; 0x1c63030; 0xc66030; 0x66e3f8;
   0x7643f8; 0x3fffabc; 0x3fffc1c; 0x3f800c; 0x77c3fc; 0x1e6f3f8; 0x7c67c60; 0x2060860;
   0xc67060; 0x2e833fc; 0x3fff7fc; 0x2ebbae8; 0xcd9c60; 0xcdbe60; 0xcdf460; 0x3fce260;
   0x7fc6760; 0xc073e0; 0xc039f0; 0xc01c70; 0xc00c00; 0x0; 0x0; 0x0;
   0x0; 0x202000; 0x0; 0x0; 0x0; 0x1830030; 0xc30030; 0xc70c30;
   0xe60ff8; 0x3ff9ffc; 0x3ff980c; 0x1c180e; 0xe000c; 0x30f01fc; 0x38fabf8; 0x1d9fe70;
   0xfc3860; 0xf73070; 0x1b3b3fc; 0x1b9b3fc; 0x33c32e8; 0x33f3070; 0x333b060; 0x631b070;
   0x38b260; 0x1e3bf0; 0xafde0; 0x7ffce70; 0x3ff8638; 0x1540410; 0x0; 0x0;
   0x0; 0x0; 0x202000; 0x0; 0x0; 0x0; 0x10; 0xaaa838;
   0x1fffc70; 0x1fffce0; 0x18001c0; 0x18aaa80; 0x19fff98; 0x1819818; 0x1819818; 0x18fff98;
   0x19fff98; 0x1899998; 0x1999998; 0x1899998; 0x19fff98; 0x18fff98; 0x1806018; 0x18aea18;
   0x18fff18; 0x1806018; 0x1806018; 0x1bfff98; 0x1dfffd8; 0x1f00018; 0xf00018; 0x0;
   0x0; 0x0; 0x0; 0x202000; 0x0; 0x0; 0x0; 0xe0000;
   0x38e33f8; 0x38e37f8; 0x38e3318; 0x38e3318; 0x38e3398; 0x3fff198; 0x3fff198; 0x1d8;
   0x1d8; 0x1fff398; 0x1fff318; 0x1d55718; 0x1800618; 0x1800718; 0x1aaa618; 0x1fff7d8;
   0x1fff3d8; 0x71d8; 0x3018; 0x7007018; 0x3003018; 0x3fff018; 0x3ffe018; 0x554018;
   0x0; 0x0; 0x0; 0x0; 0x202000; 0x0; 0x0; 0x0;
   0x70000; 0x603f8; 0xe07f8; 0x3fffb18; 0x3fffb18; 0xe0e398; 0x61c198; 0x718198;
   0x7381d8; 0x3f01d8; 0x1f0198; 0xff8318; 0x7f3ff18; 0x3807a18; 0x61c718; 0x61c618;
   0x61c778; 0x60c3d8; 0x61c1d8; 0x60c018; 0x60e018; 0x606018; 0x607018; 0x603c18;
   0x601818; 0x0; 0x0; 0x0; 0x0; 0x202000; 0x0; 0x0;
   0x0; 0x60000; 0x603f8; 0x1fff7fc; 0x1aeb318; 0x1c6339c; 0x1aeb198; 0x1fff19c;
   0x60098; 0x15754dc; 0x3fffcd8; 0x7fffd9c; 0x398; 0x1fff31c; 0xfff318; 0x1c0331c;
   0xc63318; 0x1c633fc; 0xc633d8; 0x1c631dc; 0xc63018; 0x15f101c; 0x3f8018; 0x1f1f01c;
   0x3c07c18; 0x1001c1c; 0x0; 0x0; 0x0; 0x0; 0x202000; 0x0;
   0x0; 0x0; 0x1c0; 0x3ffc180; 0x7ffc1c0; 0x2ba8180; 0x1c1ffc; 0xc1ffc;
   0x3ffd9dc; 0x3ff998c; 0x381d9dc; 0x399998c; 0x399d9dc; 0x3999bac; 0x399dffc; 0x3999ffc;
   0x399d9dc; 0x399998c; 0x399d9dc; 0x399998c; 0x39dd9dc; 0x2c1bac; 0xfe1ffc; 0xe71aac;
   0x3c3d81c; 0x380e000; 0x1006000; 0x0; 0x0; 0x0; 0x0; 0x202000].
Definition hanzi_data_530 : list N :=
  [0x0; 0x0; 0x0; 0xc0; 0xc0; 0x3ffcfe0; 0x3ff8fe0; 0x1c0d70;
   0x80e38; 0x1ff8618; 0x1ffbffc; 0x181fffe; 0x181801c; 0x1999518; 0x199bf98; 0x199bfd8;
   0x199b198; 0x199b1d8; 0x199b198; 0x199bdd8; 0x1999d98; 0x19d81d8; 0x2c2198; 0x7e3ddc;
   0x1e70f8c; 0x3c3c7cc; 0x300f0ce; 0x2006044; 0x0; 0x0; 0x0; 0x0;
   0x202000; 0x0; 0x0; 0x0; 0x0; 0x3ffeff8; 0x3ffe7fc; 0x2baa600;
   0x180600; 0x180638; 0x1c0630; 0x3c0638; 0x7e0718; 0xfe0618; 0x1df0718; 0x19b8318;
   0x39dc758; 0x319cff8; 0x71cfff8; 0x184c00; 0x1c0c00; 0x180de0; 0x1c0dfc; 0x180c3e;
   0x1c0c04; 0x180e00; 0x7ffe600; 0x3ffe7e0; 0x3e0; 0x0; 0x0; 0x0;
   0x0; 0x202000; 0x0; 0x0; 0x0; 0x0; 0x3fff7fc; 0x3fff7fc;
   0x3aab6a8; 0x3803700; 0x3803318; 0x3bfb718; 0x3bfb318; 0x3bfb318; 0x3b1b318; 0x3b1b318;
   0x3b1b318; 0x3b1b75c; 0x3b1b7f8; 0x3b1b7fc; 0x3b1b600; 0x3bfb600; 0x3bfb680; 0x381b7fc;
   0x381b63e; 0x381b704; 0x3803300; 0x3d03300; 0x3f033f0; 0x1f031f0; 0x0; 0x0;
   0x0; 0x0; 0x202000; 0x0; 0x0; 0x0; 0x1c0000; 0xd87fc;
   0x1dc7fc; 0xcc6a8; 0x15dc700; 0x3ffe318; 0x3ffe718; 0xc6318; 0x1c7318; 0xc3318;
   0x1c0318; 0x3fff318; 0x7fff75c; 0x2bba7f8; 0x3307fc; 0x330600; 0x330600; 0x338680;
   0x3187fc; 0x231863e; 0x631c704; 0x630e300; 0x770f300; 0x3f07bf0; 0x1e011f0; 0x0;
   0x0; 0x0; 0x0; 0x202000; 0x0; 0x0; 0x0; 0x1c0000;
   0xc0ff8; 0x1e07fc; 0x3e0e00; 0x770600; 0xe38630; 0x1c1e630; 0x780f638; 0x3fff638;
   0xff8638; 0x5d0718; 0xc0618; 0x1c1758; 0x3ffeff8; 0x3fffff8; 0xc0c00; 0x5d9c00;
   0xcd8de0; 0x1ddcdfc; 0x18cec3e; 0x39c6c04; 0x30c6e00; 0x31c7e00; 0xf07e0; 0xf07c0;
   0x0; 0x0; 0x0; 0x0; 0x202000; 0x0; 0x0; 0x0;
   0x330000; 0x3303fc; 0x3307fc; 0x330300; 0x3f3fb00; 0x3f3fb18; 0x1735318; 0x330318;
   0x330318; 0x330398; 0x3f3f198; 0x3f3f198; 0x3305dc; 0x3307f8; 0x3307fc; 0x330600;
   0x7f3ff00; 0x3f3fec0; 0x3307fc; 0x33033e; 0x330304; 0x330300; 0x330380; 0x3303f8;
   0x3301f0; 0x0; 0x0; 0x0; 0x0; 0x202000; 0x0; 0x0;
   0x0; 0xc0000; 0xc03fc; 0x1fff7fc; 0x1fff300; 0xc0300; 0xc0318; 0x1ffe318;
   0xaea318; 0xc0318; 0x1fff318; 0x1fff318; 0xc0398; 0x55555dc; 0x3fffff8; 0x55757fc;
   0x38600; 0x1558600; 0x1ffc6c0; 0x1ffe7fc; 0x181f63e; 0x181ff04; 0x1819b00; 0x1ffc300;
   0x1ff83f0; 0x181c1f0; 0x0; 0x0; 0x0; 0x0; 0x202000; 0x0;
   0x0; 0x0; 0x8c4000; 0x18c63fc; 0xcce3fc; 0x6cc300; 0x7cc300; 0x3fffb18;
   0x3fffb1c; 0x3f0398; 0x7dc39c; 0x1ece38c; 0x7cc799c; 0x30c318c; 0xcc67fc; 0x2e867fc;
   0x3fff754; 0xc3b600; 0xdf1f00; 0xcbbee0; 0xddfffe; 0x3fdc30e; 0x7fcc300; 0xc0e300;
   0xc07300; 0xc03bf0; 0xc019f0; 0x0; 0x0; 0x0; 0x0; 0x202000;
   0x0; 0x0; 0x0; 0x300e0; 0x30060; 0x387e0; 0x18ff0; 0x3ffc730;
   0x3ffc338; 0x3ffc31c; 0x380effc; 0x3807ffc; 0x3807c98; 0x1bfecd8; 0x3bfcc98; 0x1b0cff8;
   0x1b0cff8; 0x1b0ccd8; 0x1b0cc98; 0x1bfccd8; 0x1bfcff8; 0x195cff8; 0x180c000; 0x1c00f00;
   0x1800ff8; 0x1c407fc; 0xfc000c; 0x7c0000; 0x0; 0x0; 0x0; 0x0;
   0x202000; 0x0; 0x0; 0x0; 0x600e0; 0xe0060; 0x1c07f0; 0x1c0ff0;
   0x3fff630; 0x3ffe338; 0x300731c; 0x3006ffc; 0x301fffc; 0x18c88; 0x1ccd8; 0x818c88;
   0x1e1cff8; 0xf98ff8; 0x7fccd8; 0xf8c88; 0x3ccd8; 0x18ff8; 0x101cff8; 0x3018000;
   0x301df00; 0x3018ff8; 0x3ff81fc; 0x1ff800c; 0x540000; 0x0; 0x0; 0x0;
   0x0; 0x202000; 0x0; 0x0; 0x0; 0x700e0; 0x30060; 0x7f07f0;
   0xff87f0; 0x61c730; 0x60c338; 0x30e31c; 0x3ffeffc; 0x7fffffc; 0xec88; 0xccd8;
   0x1fecc88; 0x1fecff8; 0x186cff8; 0x186ccd8; 0x186cc88; 0x186ccd8; 0x1e6eff8; 0x1e6eff8;
   0x6e000; 0x3066f00; 0x2066ff8; 0x30671fc; 0x3fe380c; 0x1fc3000; 0x0; 0x0;
   0x0; 0x0; 0x202000; 0x0; 0x0; 0x0; 0x3700e0; 0x330060;
   0x3707f0; 0x3307f0; 0x1372730; 0x3336338; 0x3b7631c; 0x1b3cffc; 0x1f7cffc; 0xf38c88;
   0x778cd8; 0x330c88; 0x370ff8; 0x738ff8; 0x1f7ccd8; 0x3f3ec88; 0x7b37cd8; 0x2332ff8;
   0x338ff8; 0x2318000; 0x731cf00; 0x230eff8; 0x770f1fc; 0x3f0780c; 0x1f03000; 0x0;
   0x0; 0x0; 0x0; 0x202000; 0x0; 0x0; 0x0; 0x300c070;
   0x300c030; 0x300c1f0; 0x32ffbf8; 0x37ff998; 0x320c198; 0x370c0dc; 0x327fbfe; 0x377fbfc;
   0x3249a68; 0x374db6c; 0x3249a68; 0x374dbfc; 0x327fbf8; 0x377fb6c; 0x320c268; 0x371c36c;
   0x323e3f8; 0x307f3fc; 0x30ef000; 0x304db00; 0x300dff8; 0x300cdfc; 0x3e0c00c; 0x1c0c000;
   0x0; 0x0; 0x0; 0x0; 0x202000; 0x0; 0x0; 0x0;
   0x1c00e0; 0xc0060; 0x1c07e0; 0x3ffeff0; 0x3ffe730; 0xc0338; 0x1c031c; 0x3ffeffc;
   0x3ffeffc; 0x3c96c98; 0x35d6cd8; 0x36b6c98; 0x37f6ff8; 0x32a6ff8; 0x3ffecd8; 0x3ffec98;
   0x3e0cd8; 0x3e0ff8; 0x7f0ff8; 0xef8000; 0x1ddcf00; 0x38ceff8; 0x71c71fc; 0x20c200c;
   0x1c0000; 0x0; 0x0; 0x0; 0x0; 0x202000; 0x0; 0x0;
   0x0; 0x0; 0x3ffdff8; 0x3ffdff8; 0x199838; 0x19dff8; 0x2bad838; 0x3ffdff8;
   0xc1ff8; 0x3c0e38; 0x23e0e38; 0x3379ffc; 0x3f3f8fc; 0x1f0cf18; 0xfff80; 0x755f0;
   0xfffff8; 0xfffff8; 0xe06060; 0xffffe0; 0xe06060; 0xffffe0; 0xaaaaa0; 0x3fffffc;
   0x3fffff8; 0x0; 0x0; 0x0; 0x0; 0x0; 0x202000; 0x0;
   0x0; 0x0; 0x11c060; 0x18c060; 0x3ffc3f0; 0x3ffe7f0; 0x31e7730; 0x3b6b398;
   0x1b3f99c; 0xf33ffc; 0xe1f7fc; 0xe1e6d8; 0x1c0c6d8; 0x3ffe6d8; 0x7fffff8; 0x20017f8].
Definition hanzi_data_531 : list N :=
  [0x6d8; 0x3ffe6d8; 0x3fff6d8; 0xc07f8; 0xcdc7f8; 0xccc000; 0x1cc6f00; 0x38c6ff8;
   0x70c31fc; 0x20fb00c; 0xf0000; 0x0; 0x0; 0x0; 0x0; 0x202000;
   0x0; 0x0; 0x0; 0xc00e0; 0xc0060; 0x3fffff0; 0x3fffff0; 0xc0730;
   0x1fff338; 0x1fff31c; 0xffc; 0x1ffeffc; 0x1ffec88; 0x1c06cd8; 0x1806c88; 0x1ffeff8;
   0xe08ff8; 0x618cd8; 0x238c88; 0x7fffcd8; 0x2aaaff8; 0x1ffeff8; 0x1ffe000; 0x1806f00;
   0x1806ff8; 0x1ffe1fc; 0x1ffe00c; 0x1806000; 0x0; 0x0; 0x0; 0x0;
   0x202000; 0x0; 0x0; 0x0; 0x1c05c0; 0xc0f80; 0x15f1dc0; 0x1ff9980;
   0x1d5bffe; 0x81bffe; 0x1cd81c0; 0xd98180; 0x1d19ffc; 0xc19ffc; 0xf9998c; 0x79998c;
   0x19ffc; 0x2ab9ffc; 0x3ff9ddc; 0x3aa998c; 0x380198c; 0x3801ffc; 0x3ffdffc; 0x3bfd98c;
   0x180198c; 0x180198c; 0x180198c; 0x1f81f8c; 0xf81f8c; 0x0; 0x0; 0x0;
   0x0; 0x202000; 0x0; 0x0; 0x0; 0xc0000; 0xc7ffc; 0x1577ffc;
   0x1ff800c; 0x1ffbfec; 0x18bbfec; 0x19fb06c; 0x1bbbfec; 0x1f3bfec; 0x83b06c; 0x1fbbfec;
   0xf3abac; 0x3830c; 0x3bfec; 0x3fffffc; 0x3aa98cc; 0x3001dcc; 0x3000fcc; 0x37fdf0c;
   0x3ffffec; 0x38030fc; 0x380000c; 0x1807ffc; 0x1f07ffc; 0x1f00000; 0x0; 0x0;
   0x0; 0x0; 0x202000; 0x0; 0x0; 0x0; 0x581930; 0xd839f0;
   0x1d870e0; 0x9801f0; 0x3ff3dbc; 0x3ff3d8c; 0x3c31e0; 0x2c33f0; 0x6cf1bc; 0xcef18c;
   0x1c779f0; 0x38392f0; 0x1010750; 0x7fffe0; 0x7fffe0; 0x300c60; 0x703c60; 0x3e7860;
   0x144060; 0x1ffffe0; 0x1ffffe0; 0x19ffffc; 0x19ffffc; 0x1f80000; 0xf00000; 0x0;
   0x0; 0x0; 0x0; 0x202000; 0x0; 0x0; 0x0; 0x7000;
   0x2aaeaa8; 0x3fffffc; 0x382020c; 0x3fffffc; 0x3ffffec; 0x60600; 0x7fffe0; 0x60600;
   0x3fffffc; 0x3fffffc; 0x1c6380; 0x7fffe0; 0x3fffff8; 0x3d839fc; 0x18f188; 0x1f41c0;
   0xf0180; 0xffffc0; 0xffff80; 0xdffff0; 0xcffff8; 0xe00000; 0x7c0000; 0x7c0000;
   0x0; 0x0; 0x0; 0x0; 0x202000; 0x0; 0x0; 0x0;
   0x180c0; 0x2aac180; 0x3ffdffc; 0x37ffc; 0x1fff060; 0xccfe0; 0x3fffd60; 0x3ffec60;
   0x3f0c30; 0x2e3efb8; 0x3c1f51c; 0x3fffc0; 0x3fffc0; 0x300cc0; 0x303cc0; 0x1ef0c0;
   0x440c0; 0x1ffffc0; 0x1ffffc0; 0x1800000; 0x19ffffc; 0x19ffffc; 0x1c00000; 0xfc0000;
   0x7c0000; 0x0; 0x0; 0x0; 0x0; 0x202000; 0x0; 0x0;
   0x0; 0x1c1000; 0xc1fe0; 0x15f1ffc; 0x1ff9998; 0x1d59998; 0x818db0; 0x1cd9df4;
   0xd9bffc; 0x1d1bffc; 0xc187e0; 0xf99ff0; 0x79b9b8; 0x1b19c; 0x2ab818c; 0x3ff9ff8;
   0x3aa9ff8; 0x3801998; 0x3801998; 0x3ffdff8; 0x3bfdbb8; 0x1801998; 0x1801998; 0x1801ff8;
   0x1f80ab8; 0xf80018; 0x0; 0x0; 0x0; 0x0; 0x202000; 0x0;
   0x0; 0x0; 0x180380; 0x1803a0; 0x3c1fb0; 0x3c1fb0; 0x7e17b0; 0x6e03b0;
   0xe73ffe; 0x1c3bffe; 0x3c3c000; 0x781d80c; 0x3e7d99c; 0xe6198c; 0xe7199c; 0xe6198c;
   0xe719dc; 0xe619cc; 0xe71bdc; 0xe71bcc; 0xe71e7c; 0xe31e6c; 0xe3181c; 0xe39e8c;
   0xe1dffc; 0xe0f8bc; 0xe0d000; 0x0; 0x0; 0x0; 0x0; 0x202000;
   0x0; 0x0; 0x0; 0x180180; 0x180180; 0x15d4190; 0x3ffcf98; 0x3ffdf98;
   0x1c0198; 0x7e0198; 0xf60198; 0x1c7dffc; 0x381fffc; 0x1554000; 0x3ffe88c; 0x7fffdcc;
   0x180088c; 0x1dfdccc; 0x19f88cc; 0x1d9ddcc; 0x1988bec; 0x1d9df6c; 0x19f8a3c; 0x1dfdc3c;
   0x1808a8c; 0x1c15ffc; 0x1f808bc; 0xf01400; 0x0; 0x0; 0x0; 0x0;
   0x202000; 0x0; 0x0; 0x0; 0xc10180; 0xc10180; 0xc10f98; 0x3f7ef98;
   0x3f7e198; 0xe38198; 0x1e7dffc; 0x1ffdffc; 0x3fdc000; 0x3d96c0c; 0x2c96ddc; 0xc10c8c;
   0x3ffecdc; 0x3ffeccc; 0x39c0cdc; 0x1898dcc; 0x11dcddc; 0x1f98f6c; 0x1fdcf7c; 0x9ce2c;
   0x1fcc3c; 0xbee8c; 0x7ff6ffc; 0x3fe7c3c; 0x3f02400; 0x0; 0x0; 0x0;
   0x0; 0x202000; 0x0; 0x0; 0x0; 0x0; 0x0; 0x0;
   0x0; 0x0; 0x0; 0x0; 0x0; 0x0; 0x0; 0x0;
   0x0; 0x0; 0x0; 0x0; 0x0; 0x0; 0x0; 0x0;
   0x0; 0x0; 0x0; 0x0; 0x0; 0x0; 0x0; 0x0;
   0x0; 0x0; 0x202000; 0x0; 0x0; 0x0; 0x0; 0x0;
   0x0; 0x0; 0x0; 0x0; 0x0; 0x0; 0x0; 0x0;
   0x0; 0x0; 0x0; 0x0; 0x0; 0x0; 0x0; 0x18;
   0x3c; 0x78; 0xf0; 0x1e0; 0x3c0; 0x180; 0x0; 0x0;
   0x0; 0x0; 0x0; 0x202000; 0x0; 0x0; 0x0; 0x0;
   0x0; 0x0; 0x0; 0x0; 0x0; 0x0; 0x0; 0x0;
   0x0; 0x0; 0x0; 0x0; 0x0; 0x0; 0x0; 0xf0;
   0x1f8; 0x30c; 0x306; 0x304; 0x30c; 0x19c; 0xf8; 0x70;
   0x0; 0x0; 0x0; 0x0; 0x202000; 0x0; 0x0; 0x0;
   0x0; 0x0; 0x0; 0x0; 0x0; 0x0; 0x1c1c00; 0x1c3c00;
   0x1c1c00; 0xe1c00; 0xe0e00; 0xe0e00; 0x70700; 0x30700; 0x30700; 0x38380;
   0x18180; 0x18180; 0x1c1c0; 0x0; 0x0; 0x0; 0x0; 0x0;
   0x0; 0x0; 0x0; 0x0; 0x0; 0x202000; 0x0; 0x0;
   0x0; 0x3c00; 0x83f00; 0x3803c0; 0x7800e0; 0xf80070; 0xd80038; 0x1980018;
   0x318000c; 0x318600c; 0x20ce00c; 0x70fe004; 0x203e006; 0x6006006; 0x2007806; 0x7007e04;
   0x200660c; 0x300670c; 0x300260c; 0x1800618; 0xc00c38; 0xe01870; 0x7008e0; 0x3c0fc0;
   0xfc700; 0x3c000; 0x0; 0x0; 0x0; 0x0; 0x202000; 0x0].
Definition hanzi_data_532 : list N :=
  [0x0; 0x0; 0x0; 0x800; 0x3800; 0x3800; 0x1c00; 0x1c00;
   0x1c00; 0x7ffe00; 0x7fff00; 0x300700; 0x380700; 0x380380; 0x1c01c0; 0x1c00e0;
   0xe04f0; 0xe1c70; 0x77c30; 0x3f800; 0x3e000; 0x78000; 0x1f0000; 0x1e0000;
   0x1c0000; 0x0; 0x0; 0x0; 0x0; 0x0; 0x0; 0x202000;
   0x0; 0x0; 0x0; 0x0; 0x0; 0x600000; 0xf00000; 0x700000;
   0x380000; 0x1c0200; 0xe0f00; 0xf1f00; 0x7bc00; 0x3f800; 0x1e000; 0x7e000;
   0xfe000; 0x1f7000; 0x3c3800; 0x781c70; 0x600e60; 0x200f60; 0x760; 0x7e0;
   0x3e0; 0x1e0; 0xe0; 0x40; 0x0; 0x0; 0x0; 0x0;
   0x202000; 0x0; 0x0; 0x0; 0x1fc00; 0xffe00; 0x1fffc0; 0x3c03e0;
   0x7000f0; 0xe00070; 0x1c00038; 0x1800038; 0x380001c; 0x380000c; 0x300000c; 0x300000c;
   0x300000c; 0x300000c; 0x300000c; 0x380000c; 0x380001c; 0x1800018; 0x1c00038; 0xe00070;
   0x7000f0; 0x3c03e0; 0x1fffc0; 0xffe00; 0x1fc00; 0x0; 0x0; 0x0;
   0x0; 0x202000; 0x0; 0x0; 0x0; 0x3000000; 0x3800000; 0x1c00000;
   0xc00000; 0xe00000; 0x600000; 0x700000; 0x380000; 0x180000; 0x1c0000; 0xe0000;
   0x60000; 0x70000; 0x60000; 0xe0000; 0x1c0000; 0x1c0000; 0x380000; 0x700000;
   0x600000; 0xe00000; 0xc00000; 0x1c00000; 0x3800000; 0x3000000; 0x0; 0x0;
   0x0; 0x0; 0x202000; 0x0; 0x0; 0x0; 0xc; 0x1c;
   0x18; 0x38; 0x70; 0x60; 0xe0; 0xc0; 0x1c0; 0x380;
   0x700; 0x600; 0xe00; 0x600; 0x700; 0x380; 0x1c0; 0xc0;
   0xe0; 0x60; 0x70; 0x38; 0x18; 0x1c; 0xc; 0x0;
   0x0; 0x0; 0x0; 0x202000; 0x0; 0x0; 0x0; 0x7700000;
   0x3300000; 0x3180000; 0x1980000; 0x1dc0000; 0xcc0000; 0xc60000; 0x660000; 0x670000;
   0x330000; 0x338000; 0x198000; 0x19c000; 0x198000; 0x338000; 0x330000; 0x670000;
   0x660000; 0xc60000; 0xcc0000; 0x1dc0000; 0x1980000; 0x3180000; 0x3300000; 0x7700000;
   0x0; 0x0; 0x0; 0x0; 0x202000; 0x0; 0x0; 0x0;
   0xc6; 0xcc; 0x1dc; 0x198; 0x118; 0x330; 0x730; 0x660;
   0x660; 0xcc0; 0x1cc0; 0x1980; 0x1980; 0x1980; 0x1cc0; 0xcc0;
   0x660; 0x660; 0x730; 0x330; 0x118; 0x198; 0x1dc; 0xcc;
   0xc6; 0x0; 0x0; 0x0; 0x0; 0x202000; 0x0; 0x0;
   0x0; 0x7fc0000; 0x7fc0000; 0xc0000; 0xc0000; 0xc0000; 0xc0000; 0xc0000;
   0xc0000; 0xc0000; 0xc0000; 0xc0000; 0xc0000; 0xc0000; 0xc0000; 0xc0000;
   0xc0000; 0xc0000; 0x80000; 0x0; 0x0; 0x0; 0x0; 0x0;
   0x0; 0x0; 0x0; 0x0; 0x0; 0x0; 0x202000; 0x0;
   0x0; 0x0; 0x0; 0x0; 0x0; 0x0; 0x0; 0x0;
   0x0; 0x200; 0x300; 0x300; 0x300; 0x300; 0x300; 0x300;
   0x300; 0x300; 0x300; 0x300; 0x300; 0x300; 0x300; 0x300;
   0x300; 0x3fe; 0x3fe; 0x0; 0x0; 0x0; 0x0; 0x202000;
   0x0; 0x0; 0x0; 0x7ff0000; 0x6020000; 0x6030000; 0x7f20000; 0x130000;
   0x120000; 0x130000; 0x120000; 0x130000; 0x120000; 0x130000; 0x120000; 0x130000;
   0x120000; 0x130000; 0x120000; 0x130000; 0x1e0000; 0x0; 0x0; 0x0;
   0x0; 0x0; 0x0; 0x0; 0x0; 0x0; 0x0; 0x0;
   0x202000; 0x0; 0x0; 0x0; 0x0; 0x0; 0x0; 0x0;
   0x0; 0x0; 0x0; 0xf80; 0xcc0; 0xc80; 0xcc0; 0xc80;
   0xcc0; 0xc80; 0xcc0; 0xc80; 0xcc0; 0xc80; 0xcc0; 0xc80;
   0xcd4; 0xcfe; 0xc06; 0xc02; 0xffe; 0x0; 0x0; 0x0;
   0x0; 0x202000; 0x0; 0x0; 0x0; 0x7fc0000; 0x1fc0000; 0x1fc0000;
   0xfc0000; 0x7c0000; 0x7c0000; 0x7c0000; 0x3c0000; 0x3c0000; 0x3c0000; 0x3c0000;
   0x3c0000; 0x1c0000; 0x3c0000; 0x3c0000; 0x3c0000; 0x3c0000; 0x3c0000; 0x7c0000;
   0x7c0000; 0x7c0000; 0xfc0000; 0x1fc0000; 0x1fc0000; 0x7fc0000; 0x0; 0x0;
   0x0; 0x0; 0x202000; 0x0; 0x0; 0x0; 0x3fc; 0x3f8;
   0x3f8; 0x3f0; 0x3f0; 0x3e0; 0x3c0; 0x3c0; 0x3c0; 0x3c0;
   0x3c0; 0x380; 0x3c0; 0x380; 0x3c0; 0x3c0; 0x3c0; 0x3c0;
   0x3c0; 0x3e0; 0x3f0; 0x3f0; 0x3f8; 0x3f8; 0x3fc; 0x0;
   0x0; 0x0; 0x0; 0x202000; 0x0; 0x0; 0x0; 0x0;
   0x0; 0x0; 0x7fffe0; 0x7fffe0; 0x7fffe0; 0x0; 0x0; 0x0;
   0x7fffe0; 0x7fffe0; 0x6000; 0x7000; 0x6000; 0x7000; 0x6000; 0x7000;
   0x6000; 0x7000; 0x6000; 0x7000; 0x6000; 0x7000; 0x0; 0x0;
   0x0; 0x0; 0x0; 0x0; 0x202000; 0x0; 0x0; 0x0;
   0x0; 0xaaaaa8; 0x1fffff8; 0x1fffff8; 0x1fffff8; 0x1fffff8; 0x1fffff8; 0x1fffff8;
   0x1fffff8; 0x1fffff8; 0x0; 0x0; 0x0; 0x0; 0x0; 0x1fffff8;
   0x1fffff8; 0x1fffff8; 0x1fffff8; 0x1fffff8; 0x1fffff8; 0x1fffff8; 0x1fffff8; 0xaaaaa8;
   0x0; 0x0; 0x0; 0x0; 0x0; 0x202000; 0x0; 0x0;
   0x2000000; 0x3000000; 0x3c00000; 0x1f00000; 0x780000; 0x380000; 0x380000; 0x380000;
   0x380000; 0x380000; 0x380000; 0x380000; 0x380000; 0x380000; 0x380000; 0x380000].
Definition hanzi_data_533 : list N :=
  [0x380000; 0x380000; 0x380000; 0x380000; 0x380000; 0x380000; 0x780000; 0x1f00000;
   0x3c00000; 0x7000000; 0x2000000; 0x0; 0x0; 0x0; 0x202000; 0x0;
   0x0; 0x0; 0xc; 0x3c; 0x70; 0xe0; 0x1c0; 0xc0;
   0x1c0; 0xc0; 0x1c0; 0xc0; 0x1c0; 0xc0; 0x1c0; 0xc0;
   0x1c0; 0xc0; 0x1c0; 0xc0; 0x1c0; 0xc0; 0x1c0; 0xe0;
   0x70; 0x3c; 0xc; 0x0; 0x0; 0x0; 0x0; 0x202000;
   0x0; 0x0; 0x0; 0x7fe0000; 0x1820000; 0xc20000; 0x620000; 0x320000;
   0x120000; 0x120000; 0xa0000; 0xa0000; 0xa0000; 0xa0000; 0xa0000; 0xe0000;
   0xa0000; 0xa0000; 0xa0000; 0xa0000; 0xa0000; 0x120000; 0x120000; 0x320000;
   0x620000; 0xc20000; 0x1820000; 0x7fe0000; 0x0; 0x0; 0x0; 0x0;
   0x202000; 0x0; 0x0; 0x0; 0x7fe; 0x418; 0x430; 0x420;
   0x440; 0x480; 0x480; 0x480; 0x500; 0x500; 0x500; 0x500;
   0x500; 0x500; 0x500; 0x500; 0x500; 0x480; 0x480; 0x480;
   0x440; 0x420; 0x430; 0x418; 0x7fe; 0x0; 0x0; 0x0;
   0x0; 0x202000; 0x0; 0x0; 0x1000000; 0x3c00000; 0x2600000; 0x6380000;
   0x30c0000; 0x1c40000; 0x640000; 0x640000; 0x240000; 0x640000; 0x240000; 0x640000;
   0x240000; 0x640000; 0x240000; 0x640000; 0x240000; 0x640000; 0x240000; 0x640000;
   0x640000; 0x1c40000; 0x30c0000; 0x6380000; 0x2600000; 0x3c00000; 0x1000000; 0x0;
   0x0; 0x0; 0x202000; 0x0; 0x0; 0x8; 0x1c; 0x64;
   0x1c6; 0x30c; 0x238; 0x260; 0x260; 0x260; 0x260; 0x260;
   0x260; 0x260; 0x260; 0x260; 0x260; 0x260; 0x260; 0x260;
   0x260; 0x260; 0x238; 0x30c; 0x1c6; 0x64; 0x1c; 0x8;
   0x0; 0x0; 0x0; 0x202000; 0x0; 0x0; 0x0; 0x7f80000;
   0x2b80000; 0x1d80000; 0x980000; 0x1d80000; 0x980000; 0x1d80000; 0x980000; 0x1d80000;
   0x980000; 0x1d80000; 0x980000; 0x1d80000; 0x980000; 0x1d80000; 0x980000; 0x1d80000;
   0x980000; 0x1d80000; 0x980000; 0x1d80000; 0x980000; 0x1d80000; 0x2b80000; 0x7f80000;
   0x0; 0x0; 0x0; 0x0; 0x202000; 0x0; 0x0; 0x0;
   0x1fe; 0x1ba; 0x198; 0x198; 0x198; 0x198; 0x198; 0x198;
   0x198; 0x198; 0x198; 0x198; 0x198; 0x198; 0x198; 0x198;
   0x198; 0x198; 0x198; 0x198; 0x198; 0x198; 0x198; 0x1ba;
   0x1fe; 0x0; 0x0; 0x0; 0x0; 0x202000; 0x0; 0x0;
   0x0; 0x0; 0x0; 0x0; 0x0; 0x0; 0x0; 0x0;
   0x0; 0x100; 0xfe0; 0x1003ff0; 0x3807878; 0x3c0f01c; 0x1e3e00e; 0xffc008;
   0x3f0000; 0x0; 0x0; 0x0; 0x0; 0x0; 0x0; 0x0;
   0x0; 0x0; 0x0; 0x0; 0x0; 0x0; 0x202000; 0x0;
   0x0; 0x0; 0x180000; 0x380000; 0xf80000; 0x1e00000; 0x3800000; 0x2180000;
   0x780000; 0xf80000; 0x1e00000; 0x3800000; 0x3000000; 0x0; 0x0; 0x0;
   0x0; 0x0; 0x0; 0x0; 0x0; 0x0; 0x0; 0x0;
   0x0; 0x0; 0x0; 0x0; 0x0; 0x0; 0x0; 0x202000;
   0x0; 0x0; 0x0; 0x180; 0x1e0; 0x1f0; 0x38; 0x1c;
   0x184; 0x1c0; 0xf0; 0x7c; 0x1c; 0x4; 0x0; 0x0;
   0x0; 0x0; 0x0; 0x0; 0x0; 0x0; 0x0; 0x0;
   0x0; 0x0; 0x0; 0x0; 0x0; 0x0; 0x0; 0x0;
   0x202000; 0x0; 0x0; 0x0; 0x0; 0x0; 0x0; 0x0;
   0x0; 0x0; 0x0; 0x0; 0x0; 0x0; 0x0; 0x0;
   0x0; 0x0; 0x4; 0x1c; 0x7c; 0xf0; 0x1c0; 0x184;
   0x1c; 0x38; 0x1f0; 0x1e0; 0x180; 0x0; 0x0; 0x0;
   0x0; 0x202000; 0x0; 0x0; 0x0; 0x0; 0x0; 0x1c0;
   0x1c0; 0x1c0; 0x1c0; 0x1c0; 0x1c0; 0x1c0; 0x1c0; 0x1c0;
   0xc0; 0x1c0; 0xc0; 0x1c0; 0xc0; 0x40; 0x0; 0x0;
   0xc0; 0x1e0; 0x1e0; 0x1c0; 0x0; 0x0; 0x0; 0x0;
   0x0; 0x0; 0x202000; 0x0; 0x0; 0x78e00; 0x79e00; 0x78e00;
   0x71e00; 0x30e00; 0x70c00; 0x30c00; 0x30c00; 0x30c00; 0x0; 0x0;
   0x0; 0x0; 0x0; 0x0; 0x0; 0x0; 0x0; 0x0;
   0x0; 0x0; 0x0; 0x0; 0x0; 0x0; 0x0; 0x0;
   0x0; 0x0; 0x0; 0x202000; 0x0; 0x0; 0x0; 0x0;
   0x0; 0x41800; 0x61800; 0x61c00; 0x60800; 0x61c00; 0x2eaea0; 0x7fffe0;
   0x2eaea0; 0x70c00; 0x20c00; 0x70c00; 0x30e00; 0x30600; 0x3fffe0; 0x7fffe0;
   0x30600; 0x30600; 0x38600; 0x18700; 0x18200; 0x18700; 0x0; 0x0;
   0x0; 0x0; 0x0; 0x0; 0x202000; 0x0; 0x0; 0x6000;
   0x6000; 0x6000; 0x7000; 0x3fc00; 0xfff00; 0x1e0f00; 0xc0780; 0x380;
   0x380; 0x780; 0x1f00; 0xfe00; 0x3fc00; 0xfe000; 0x1f0000; 0x1e0000;
   0x1c0000; 0x180000; 0x1c0180; 0x1c0380; 0x1fdf80; 0x7fe00; 0x1fc00; 0x6000;
   0x6000; 0x6000; 0x0; 0x0; 0x0; 0x202000; 0x0; 0x0].
Definition hanzi_data_534 : list N :=
  [0x0; 0x0; 0x0; 0x1c01e0; 0xc03f0; 0x60738; 0x60618; 0x30e1c;
   0x38e18; 0x18c1c; 0x8e18; 0x78ce1c; 0xfce618; 0x1ce6738; 0x18633f0; 0x18731e0;
   0x3831800; 0x3871800; 0x3830c00; 0x1870c00; 0x1860600; 0x1ce0700; 0xfc0300; 0x780300;
   0x0; 0x0; 0x0; 0x0; 0x0; 0x0; 0x202000; 0x0;
   0x0; 0x0; 0x0; 0x0; 0x7000; 0xfc00; 0x1fe00; 0x18700;
   0x18700; 0x18300; 0x1c700; 0xe600; 0x7e00; 0x3e00; 0x701e00; 0x303f80;
   0x3873c0; 0x38e1c0; 0x1dc1c0; 0x1f80e0; 0xf00c0; 0x1f01c0; 0x7fc7c0; 0x79ff80;
   0x70ff00; 0x0; 0x0; 0x0; 0x0; 0x0; 0x0; 0x202000;
   0x0; 0x0; 0xf000; 0xf000; 0xe000; 0x7000; 0x6000; 0x7000;
   0x6000; 0x6000; 0x6000; 0x0; 0x0; 0x0; 0x0; 0x0;
   0x0; 0x0; 0x0; 0x0; 0x0; 0x0; 0x0; 0x0;
   0x0; 0x0; 0x0; 0x0; 0x0; 0x0; 0x0; 0x0;
   0x202000; 0x0; 0x0; 0x0; 0x7000000; 0x3800000; 0x1c00000; 0xe00000;
   0x600000; 0x600000; 0x700000; 0x300000; 0x300000; 0x380000; 0x380000; 0x380000;
   0x180000; 0x380000; 0x380000; 0x380000; 0x380000; 0x300000; 0x700000; 0x600000;
   0x600000; 0xe00000; 0x1c00000; 0x3800000; 0x7000000; 0x0; 0x0; 0x0;
   0x0; 0x202000; 0x0; 0x0; 0x8; 0x1c; 0x18; 0x38;
   0x30; 0x70; 0xe0; 0xe0; 0xc0; 0x1c0; 0x1c0; 0x1c0;
   0x180; 0x1c0; 0x180; 0x1c0; 0x1c0; 0x1c0; 0xc0; 0xe0;
   0xe0; 0x70; 0x30; 0x38; 0x18; 0x1c; 0x8; 0x0;
   0x0; 0x0; 0x202000; 0x0; 0x0; 0x0; 0x0; 0x0;
   0x6000; 0x6000; 0x6000; 0x6000; 0x406000; 0x606060; 0x7861e0; 0x1e6780;
   0x7ff00; 0x3fc00; 0x1f000; 0x3fc00; 0x7ff00; 0x1e6780; 0x7861e0; 0x606060;
   0x406000; 0x6000; 0x6000; 0x6000; 0x6000; 0x0; 0x0; 0x0;
   0x0; 0x0; 0x0; 0x202000; 0x0; 0x0; 0x0; 0x0;
   0x0; 0x4000; 0x6000; 0x6000; 0x6000; 0x6000; 0x6000; 0x6000;
   0x6000; 0x6000; 0xaaeaa0; 0xfffff0; 0xfffff0; 0x6000; 0x6000; 0x6000;
   0x6000; 0x6000; 0x6000; 0x6000; 0x6000; 0x6000; 0x0; 0x0;
   0x0; 0x0; 0x0; 0x0; 0x202000; 0x0; 0x0; 0x0;
   0x0; 0x0; 0x0; 0x0; 0x0; 0x0; 0x0; 0x0;
   0x0; 0x0; 0x0; 0x0; 0x0; 0x0; 0x0; 0x0;
   0x1c0; 0x1e0; 0x1e0; 0x3e0; 0x1c0; 0x180; 0x1c0; 0xe0;
   0x70; 0x20; 0x0; 0x0; 0x0; 0x202000; 0x0; 0x0;
   0x0; 0x0; 0x0; 0x0; 0x0; 0x0; 0x0; 0x0;
   0x0; 0x0; 0x0; 0x0; 0xaaaaa0; 0xfffff0; 0xfffff0; 0x0;
   0x0; 0x0; 0x0; 0x0; 0x0; 0x0; 0x0; 0x0;
   0x0; 0x0; 0x0; 0x0; 0x0; 0x0; 0x202000; 0x0;
   0x0; 0x0; 0x0; 0x0; 0x0; 0x0; 0x0; 0x0;
   0x0; 0x0; 0x0; 0x0; 0x0; 0x0; 0x0; 0x0;
   0x0; 0x0; 0x0; 0x0; 0xc0; 0x1e0; 0x1f0; 0x1e0;
   0xc0; 0x0; 0x0; 0x0; 0x0; 0x0; 0x0; 0x202000;
   0x0; 0x0; 0x0; 0x6000000; 0x3000000; 0x1800000; 0xc00000; 0x600000;
   0x300000; 0x180000; 0xc0000; 0x60000; 0x30000; 0x18000; 0xc000; 0x6000;
   0x3000; 0x1800; 0xc00; 0x600; 0x300; 0x180; 0xc0; 0x60;
   0x30; 0x18; 0xc; 0x6; 0x0; 0x0; 0x0; 0x0;
   0x202000; 0x0; 0x0; 0x0; 0x0; 0x0; 0x7000; 0x3fc00;
   0x7fe00; 0xf0f00; 0xe0700; 0x1c0380; 0x1c0380; 0x1c0380; 0x1c01c0; 0x180180;
   0x1c01c0; 0x180180; 0x1c01c0; 0x180380; 0x1c0380; 0x1c0380; 0x1c0780; 0xe0700;
   0x71f00; 0x3fe00; 0x1fc00; 0x0; 0x0; 0x0; 0x0; 0x0;
   0x0; 0x202000; 0x0; 0x0; 0x0; 0x0; 0x0; 0x0;
   0xf000; 0xff00; 0xfe00; 0xe000; 0xe000; 0xe000; 0xe000; 0xe000;
   0xe000; 0xe000; 0xe000; 0xe000; 0xe000; 0xe000; 0xe000; 0xe000;
   0xe000; 0x15f500; 0x1fff80; 0x1fff80; 0x0; 0x0; 0x0; 0x0;
   0x0; 0x0; 0x202000; 0x0; 0x0; 0x0; 0x0; 0x0;
   0x7000; 0x3fe00; 0x7ff00; 0xf0780; 0xe03c0; 0xe0000; 0x1c0000; 0xe0000;
   0xe0000; 0xe0000; 0x70000; 0x38000; 0x3c000; 0x1e000; 0xf000; 0x7800;
   0x3c00; 0x1e00; 0x1fff00; 0x1fff80; 0x1fff80; 0x0; 0x0; 0x0;
   0x0; 0x0; 0x0; 0x202000; 0x0; 0x0; 0x0; 0x0;
   0x0; 0x7000; 0x3fe00; 0x7ff00; 0xe0780; 0xe0180; 0xe0000; 0xc0000;
   0xe0000; 0x70000; 0x3f800; 0x1f800; 0x7f800; 0xf0000; 0xe0000; 0x1c0000;
   0x1c0000; 0x1c0180; 0xe03c0; 0xf0780; 0x7ff00; 0x1fc00; 0x0; 0x0;
   0x0; 0x0; 0x0; 0x0; 0x202000; 0x0; 0x0; 0x0;
   0x0; 0x0; 0x0; 0x78000; 0x7c000; 0x6c000; 0x7e000; 0x77000;
   0x77000; 0x73800; 0x71c00; 0x70e00; 0x70f00; 0x70700; 0x70380; 0x3fff80].
Definition hanzi_data_535 : list N :=
  [0x3fffc0; 0x2faa80; 0x70000; 0x70000; 0x70000; 0x70000; 0x70000; 0x0;
   0x0; 0x0; 0x0; 0x0; 0x0; 0x202000; 0x0; 0x0;
   0x0; 0x0; 0x0; 0x0; 0xfff00; 0xfff00; 0x700; 0x700;
   0x300; 0x700; 0x300; 0x1ff00; 0x7ff00; 0xf0700; 0xe0000; 0x1c0000;
   0x1c0000; 0x1c0000; 0x1c0000; 0x1c0080; 0xe0180; 0xfc7c0; 0x3ff00; 0x1fc00;
   0x0; 0x0; 0x0; 0x0; 0x0; 0x0; 0x202000; 0x0;
   0x0; 0x0; 0x0; 0x0; 0x1c000; 0x7f800; 0x1ffc00; 0xc1e00;
   0x80f00; 0x700; 0x700; 0x380; 0x1f380; 0x7fb80; 0xfff80; 0xe0f80;
   0x1c0780; 0x180380; 0x1c0380; 0x180380; 0x1c0700; 0x1c0700; 0xf1f00; 0x7fc00;
   0x3f800; 0x0; 0x0; 0x0; 0x0; 0x0; 0x0; 0x202000;
   0x0; 0x0; 0x0; 0x0; 0x0; 0x0; 0x1fff80; 0x1fff80;
   0xc0000; 0xe0000; 0x70000; 0x70000; 0x38000; 0x1c000; 0x1c000; 0xe000;
   0xe000; 0xe000; 0x6000; 0x7000; 0x7000; 0x7000; 0x3000; 0x7000;
   0x3800; 0x7800; 0x0; 0x0; 0x0; 0x0; 0x0; 0x0;
   0x202000; 0x0; 0x0; 0x0; 0x0; 0x0; 0x7000; 0x3fc00;
   0x7ff00; 0xe0700; 0x1c0700; 0xc0380; 0x1c0300; 0xc0700; 0xe0f00; 0x73e00;
   0x3fc00; 0x7ee00; 0xf0700; 0x1e0380; 0x1c0180; 0x180180; 0x1c0180; 0x1c0380;
   0x1f0700; 0xffe00; 0x3fc00; 0x0; 0x0; 0x0; 0x0; 0x0;
   0x0; 0x202000; 0x0; 0x0; 0x0; 0x0; 0x0; 0x7000;
   0x1fe00; 0x7ff00; 0xf0700; 0xe0380; 0xe0380; 0x1c0180; 0x1c0380; 0x1c0380;
   0x1e0380; 0x1f0700; 0x1fff00; 0x1dfe00; 0x1c2000; 0x1c0000; 0xe0000; 0xe0000;
   0x70100; 0x7c780; 0x3ff00; 0x1fe00; 0x0; 0x0; 0x0; 0x0;
   0x0; 0x0; 0x202000; 0x0; 0x0; 0x0; 0x0; 0x0;
   0x0; 0x0; 0x0; 0x80; 0x1e0; 0x1e0; 0x1e0; 0xc0;
   0x0; 0x0; 0x0; 0x0; 0x0; 0x0; 0x0; 0x0;
   0x0; 0x1e0; 0x1e0; 0x1e0; 0x1c0; 0x0; 0x0; 0x0;
   0x0; 0x0; 0x0; 0x202000; 0x0; 0x0; 0x0; 0x0;
   0x0; 0x0; 0x0; 0x0; 0x80; 0x1e0; 0x1e0; 0x1e0;
   0xc0; 0x0; 0x0; 0x0; 0x0; 0x0; 0x0; 0x0;
   0x1c0; 0x3e0; 0x3e0; 0x3c0; 0x300; 0x380; 0x180; 0x1c0;
   0xe0; 0x70; 0x0; 0x0; 0x202000; 0x0; 0x0; 0x0;
   0x0; 0x0; 0xc00000; 0xe00000; 0x7c0000; 0x3e0000; 0x7c000; 0x3e000;
   0x7c00; 0x3e00; 0xfc0; 0x3e0; 0xf8; 0x1e0; 0x7c0; 0x1e00;
   0x7c00; 0x1e000; 0x7c000; 0x1f0000; 0x7c0000; 0xf00000; 0xc00000; 0x0;
   0x0; 0x0; 0x0; 0x0; 0x0; 0x202000; 0x0; 0x0;
   0x0; 0x0; 0x0; 0x0; 0x0; 0x0; 0x0; 0x0;
   0x0; 0xfffff0; 0xfffff0; 0x555550; 0x0; 0x0; 0x0; 0xfffff0;
   0xfffff0; 0xfffff0; 0x0; 0x0; 0x0; 0x0; 0x0; 0x0;
   0x0; 0x0; 0x0; 0x0; 0x0; 0x0; 0x202000; 0x0;
   0x0; 0x0; 0x0; 0x0; 0x10; 0xf0; 0x1f0; 0x780;
   0x1f00; 0x7800; 0x1f000; 0x78000; 0x1f0000; 0x780000; 0x1f00000; 0xf80000;
   0x1f0000; 0xf8000; 0x3f000; 0xf800; 0x3f00; 0xf80; 0x3e0; 0xf8;
   0x30; 0x0; 0x0; 0x0; 0x0; 0x0; 0x0; 0x202000;
   0x0; 0x0; 0x0; 0x0; 0x0; 0x7f0; 0xff8; 0x1f7c;
   0x1c0e; 0x1c04; 0x1c00; 0x1c00; 0xe00; 0xf00; 0x380; 0x3c0;
   0x1c0; 0xc0; 0xe0; 0x40; 0x0; 0x0; 0xc0; 0x1e0;
   0x1e0; 0x1c0; 0x0; 0x0; 0x0; 0x0; 0x0; 0x0;
   0x202000; 0x0; 0x0; 0x0; 0x7f000; 0xffc00; 0x3f1f00; 0x700380;
   0xe001c0; 0xc000e0; 0x1c00070; 0x186f030; 0x187fc38; 0x1871c38; 0x1870e18; 0x1830618;
   0x183071c; 0x1830618; 0x1c3071c; 0xe38618; 0x77fe18; 0x3e7c38; 0x1c1038; 0x30;
   0x70; 0xe0; 0x707c0; 0x3ff00; 0x1fc00; 0x0; 0x0; 0x0;
   0x0; 0x202000; 0x0; 0x0; 0x0; 0x0; 0x0; 0x0;
   0xf000; 0xf000; 0xf800; 0x1d800; 0x19c00; 0x39c00; 0x38c00; 0x70e00;
   0x70e00; 0x70700; 0xe0700; 0xf5700; 0xfff80; 0x1fff80; 0x1c0380; 0x1c01c0;
   0x3801c0; 0x3801e0; 0x7800e0; 0x7000f0; 0x0; 0x0; 0x0; 0x0;
   0x0; 0x0; 0x202000; 0x0; 0x0; 0x0; 0x0; 0x0;
   0x0; 0x3ff80; 0xfff80; 0x1e0380; 0x1c0380; 0x180380; 0x1c0380; 0x1c0380;
   0x1e0380; 0xfff80; 0xfff80; 0x1fab80; 0x3c0380; 0x380380; 0x700380; 0x700380;
   0x700380; 0x380380; 0x3f5780; 0xfff80; 0x7ff80; 0x0; 0x0; 0x0;
   0x0; 0x0; 0x0; 0x202000; 0x0; 0x0; 0x0; 0x0;
   0x0; 0x1c000; 0xff800; 0x3ffe00; 0x381f00; 0x100700; 0x380; 0x3c0;
   0x1c0; 0x1c0; 0x1c0; 0x1c0; 0x1c0; 0x1c0; 0x1c0; 0x1c0;
   0x380; 0x780; 0x300f00; 0x7d7f00; 0x3ffc00; 0xff000; 0x0; 0x0;
   0x0; 0x0; 0x0; 0x0; 0x202000; 0x0; 0x0; 0x0].
Definition hanzi_data_536 : list N :=
  [0x0; 0x0; 0x0; 0xffc0; 0x7ffc0; 0xf81c0; 0x1e01c0; 0x3c01c0;
   0x3801c0; 0x3801c0; 0x7001c0; 0x7001c0; 0x7001c0; 0x7001c0; 0x7001c0; 0x3801c0;
   0x3801c0; 0x3801c0; 0x1c01c0; 0x1e01c0; 0xfffc0; 0x3ffc0; 0xffc0; 0x0;
   0x0; 0x0; 0x0; 0x0; 0x0; 0x202000; 0x0; 0x0;
   0x0; 0x0; 0x0; 0x0; 0x1fff00; 0x1fff00; 0x700; 0x700;
   0x700; 0x700; 0x700; 0x700; 0x7ff00; 0x7ff00; 0x2af00; 0x700;
   0x700; 0x700; 0x700; 0x700; 0x700; 0x1fff00; 0x3fff00; 0x3fff00;
   0x0; 0x0; 0x0; 0x0; 0x0; 0x0; 0x202000; 0x0;
   0x0; 0x0; 0x0; 0x0; 0x0; 0x3fff00; 0x3fff00; 0x700;
   0x700; 0x700; 0x700; 0x700; 0x700; 0x700; 0xfff00; 0xfff00;
   0x700; 0x700; 0x700; 0x700; 0x700; 0x700; 0x700; 0x700;
   0x700; 0x0; 0x0; 0x0; 0x0; 0x0; 0x0; 0x202000;
   0x0; 0x0; 0x0; 0x0; 0x0; 0x1c000; 0xff800; 0x3ffe00;
   0x380f00; 0x100780; 0x3c0; 0x1c0; 0x1e0; 0x1e0; 0xe0; 0x7f80e0;
   0x3f80e0; 0x7f80e0; 0x3000e0; 0x7001c0; 0x3001c0; 0x7003c0; 0x300780; 0x7d7f00;
   0x3ffe00; 0xff800; 0x0; 0x0; 0x0; 0x0; 0x0; 0x0;
   0x202000; 0x0; 0x0; 0x0; 0x0; 0x0; 0x0; 0x3801c0;
   0x3801c0; 0x3801c0; 0x3801c0; 0x3801c0; 0x3801c0; 0x3801c0; 0x3801c0; 0x3fffc0;
   0x3fffc0; 0x3aabc0; 0x3801c0; 0x3801c0; 0x3801c0; 0x3801c0; 0x3801c0; 0x3801c0;
   0x3801c0; 0x3801c0; 0x3801c0; 0x0; 0x0; 0x0; 0x0; 0x0;
   0x0; 0x202000; 0x0; 0x0; 0x0; 0x0; 0x0; 0x0;
   0x1fff80; 0x1fff80; 0x6000; 0x7000; 0x6000; 0x7000; 0x6000; 0x7000;
   0x6000; 0x7000; 0x6000; 0x7000; 0x6000; 0x7000; 0x6000; 0x7000;
   0x6000; 0x1fff80; 0x1fff80; 0x1fff80; 0x0; 0x0; 0x0; 0x0;
   0x0; 0x0; 0x202000; 0x0; 0x0; 0x0; 0x0; 0x0;
   0x0; 0x60000; 0x70000; 0x60000; 0x70000; 0x60000; 0x70000; 0x60000;
   0x70000; 0x60000; 0x70000; 0x60000; 0x70000; 0x60000; 0x70000; 0x60000;
   0x70100; 0x70380; 0x7df80; 0x3ff00; 0x1fc00; 0x0; 0x0; 0x0;
   0x0; 0x0; 0x0; 0x202000; 0x0; 0x0; 0x0; 0x0;
   0x0; 0x0; 0x380380; 0x1c0380; 0xe0380; 0x70380; 0x38380; 0x1c380;
   0xe380; 0x7380; 0xfb80; 0x1ff80; 0x3df80; 0x38f80; 0x78780; 0x70380;
   0xe0380; 0x1c0380; 0x3c0380; 0x380380; 0x780380; 0x700380; 0x0; 0x0;
   0x0; 0x0; 0x0; 0x0; 0x202000; 0x0; 0x0; 0x0;
   0x0; 0x0; 0x0; 0x600; 0x700; 0x600; 0x700; 0x600;
   0x700; 0x600; 0x700; 0x600; 0x700; 0x600; 0x700; 0x600;
   0x700; 0x600; 0x700; 0x600; 0x1fff00; 0x3ffe00; 0x3fff00; 0x0;
   0x0; 0x0; 0x0; 0x0; 0x0; 0x202000; 0x0; 0x0;
   0x0; 0x0; 0x0; 0x0; 0xf000e0; 0xf801f0; 0xf801e0; 0xfc01f0;
   0xfc03e0; 0xec0370; 0xee0760; 0xe60770; 0xe60e60; 0xe70e70; 0xe30c60; 0xe39c70;
   0xe19860; 0xe1f870; 0xe0f860; 0xe0f070; 0xe0f060; 0xe06070; 0xe00060; 0xe00070;
   0x0; 0x0; 0x0; 0x0; 0x0; 0x0; 0x202000; 0x0;
   0x0; 0x0; 0x0; 0x0; 0x0; 0x3801c0; 0x3803c0; 0x3803c0;
   0x3807c0; 0x380ec0; 0x381dc0; 0x381cc0; 0x3839c0; 0x3878c0; 0x3871c0; 0x38e0c0;
   0x39c1c0; 0x39c0c0; 0x3b81c0; 0x3f80c0; 0x3701c0; 0x3e00c0; 0x3c01c0; 0x3c00c0;
   0x3801c0; 0x0; 0x0; 0x0; 0x0; 0x0; 0x0; 0x202000;
   0x0; 0x0; 0x0; 0x0; 0x0; 0x7000; 0x3fe00; 0x1fff00;
   0x1e0f80; 0x3c03c0; 0x7801e0; 0x7000e0; 0x7000e0; 0xf00070; 0xe00070; 0xe00070;
   0xe00070; 0xe00070; 0xe000e0; 0x7000e0; 0x7000e0; 0x7801c0; 0x3c03c0; 0x1f5f80;
   0xfff00; 0x3fc00; 0x0; 0x0; 0x0; 0x0; 0x0; 0x0;
   0x202000; 0x0; 0x0; 0x0; 0x0; 0x0; 0x0; 0x3ff80;
   0x1fff80; 0x1e0380; 0x3c0380; 0x380380; 0x380380; 0x380380; 0x380380; 0x3c0380;
   0x1f5780; 0xfff80; 0x3ff80; 0x380; 0x380; 0x380; 0x380; 0x380;
   0x380; 0x380; 0x380; 0x0; 0x0; 0x0; 0x0; 0x0;
   0x0; 0x202000; 0x0; 0x0; 0x0; 0x0; 0x0; 0x7000;
   0x3fe00; 0x1fff00; 0x1e0f80; 0x3c03c0; 0x3801e0; 0x7000e0; 0x7000e0; 0xf00070;
   0xe00070; 0xe00070; 0xe00070; 0xf00070; 0xe000e0; 0x7000e0; 0x7000e0; 0x7801c0;
   0x3c03c0; 0x1f0f80; 0xfff00; 0x3fc00; 0xe000; 0x1e000; 0xffc000; 0xff0000;
   0xfc0000; 0x0; 0x202000; 0x0; 0x0; 0x0; 0x0; 0x0;
   0x0; 0x7ff80; 0x1fff80; 0x1e0380; 0x3c0380; 0x380380; 0x380380; 0x380380;
   0x3c0380; 0x1e0380; 0x1fff80; 0x7ff80; 0x1d780; 0x38380; 0x78380; 0x70380;
   0xe0380; 0x1e0380; 0x1c0380; 0x380380; 0x700380; 0x0; 0x0; 0x0;
   0x0; 0x0; 0x0; 0x202000; 0x0; 0x0; 0x0; 0x0;
   0x0; 0x15000; 0x7fc00; 0x1fff00; 0x1e0f00; 0x80780; 0x380; 0x380;
   0x780; 0x1f00; 0xfe00; 0x7fc00; 0xfe000; 0x1f0000; 0x3c0000; 0x380000].
Definition hanzi_data_537 : list N :=
  [0x380000; 0x380180; 0x3c0380; 0x1f5fc0; 0xfff00; 0x7fc00; 0x0; 0x0;
   0x0; 0x0; 0x0; 0x0; 0x202000; 0x0; 0x0; 0x0;
   0x0; 0x0; 0x0; 0x3fffe0; 0x7fffe0; 0x6000; 0x7000; 0x6000;
   0x7000; 0x6000; 0x7000; 0x6000; 0x7000; 0x6000; 0x7000; 0x6000;
   0x7000; 0x6000; 0x7000; 0x6000; 0x7000; 0x6000; 0x7000; 0x0;
   0x0; 0x0; 0x0; 0x0; 0x0; 0x202000; 0x0; 0x0;
   0x0; 0x0; 0x0; 0x0; 0x3801c0; 0x3801c0; 0x3801c0; 0x3801c0;
   0x3801c0; 0x3801c0; 0x3801c0; 0x3801c0; 0x3801c0; 0x3801c0; 0x3801c0; 0x3801c0;
   0x3801c0; 0x3801c0; 0x3801c0; 0x3c03c0; 0x1c0380; 0x1f5f80; 0xffe00; 0x3fc00;
   0x0; 0x0; 0x0; 0x0; 0x0; 0x0; 0x202000; 0x0;
   0x0; 0x0; 0x0; 0x0; 0x0; 0x7000e0; 0x7801c0; 0x3801c0;
   0x3801c0; 0x1c0380; 0x1c0380; 0xc0380; 0xe0700; 0xe0700; 0x70700; 0x70e00;
   0x70e00; 0x38c00; 0x39c00; 0x39c00; 0x1f800; 0x1f800; 0x1f000; 0xf000;
   0xf000; 0x0; 0x0; 0x0; 0x0; 0x0; 0x0; 0x202000;
   0x0; 0x0; 0x0; 0x0; 0x0; 0x0; 0x700e00e; 0x700f01e;
   0x380f01c; 0x381f01c; 0x381f81c; 0x181f81c; 0x1819838; 0x1c39c38; 0x1c39c38; 0x1c31c30;
   0xe30c30; 0xe70e70; 0xe60e70; 0x660670; 0x6e06e0; 0x7e07e0; 0x7e03e0; 0x7c03c0;
   0x3c03c0; 0x3c01c0; 0x0; 0x0; 0x0; 0x0; 0x0; 0x0;
   0x202000; 0x0; 0x0; 0x0; 0x0; 0x0; 0x0; 0x380380;
   0x1c0380; 0xe0700; 0xf0700; 0x70e00; 0x79c00; 0x39c00; 0x1f800; 0xf000;
   0xf000; 0xf000; 0x1f800; 0x39c00; 0x39c00; 0x70e00; 0xf0700; 0xe0700;
   0x1c0380; 0x3c03c0; 0x3801c0; 0x0; 0x0; 0x0; 0x0; 0x0;
   0x0; 0x202000; 0x0; 0x0; 0x0; 0x0; 0x0; 0x0;
   0x3801c0; 0x1c03c0; 0x1c0380; 0xe0700; 0xe0700; 0x70e00; 0x30e00; 0x39c00;
   0x39800; 0x1f800; 0xf000; 0xf000; 0x6000; 0x7000; 0x6000; 0x7000;
   0x6000; 0x7000; 0x6000; 0x7000; 0x0; 0x0; 0x0; 0x0;
   0x0; 0x0; 0x202000; 0x0; 0x0; 0x0; 0x0; 0x0;
   0x0; 0x3fff80; 0x3fff80; 0x1c0000; 0xe0000; 0xf0000; 0x70000; 0x38000;
   0x1c000; 0xe000; 0xf000; 0x7000; 0x7800; 0x3c00; 0x1c00; 0xe00;
   0x700; 0x380; 0x3fffc0; 0x3fffc0; 0x3fffc0; 0x0; 0x0; 0x0;
   0x0; 0x0; 0x0; 0x202000; 0x0; 0x0; 0x0; 0x7f80000;
   0x2b80000; 0x380000; 0x380000; 0x380000; 0x380000; 0x380000; 0x380000; 0x380000;
   0x380000; 0x380000; 0x380000; 0x380000; 0x380000; 0x380000; 0x380000; 0x380000;
   0x380000; 0x380000; 0x380000; 0x380000; 0x380000; 0x380000; 0x2b80000; 0x7f80000;
   0x0; 0x0; 0x0; 0x0; 0x202000; 0x0; 0x0; 0x0;
   0x6; 0xc; 0x18; 0x30; 0x60; 0xc0; 0x180; 0x300;
   0x600; 0xc00; 0x1800; 0x3000; 0x6000; 0xc000; 0x18000; 0x30000;
   0x60000; 0xc0000; 0x180000; 0x300000; 0x600000; 0xc00000; 0x1800000; 0x3000000;
   0x6000000; 0x0; 0x0; 0x0; 0x0; 0x202000; 0x0; 0x0;
   0x0; 0x1fe; 0xea; 0x1c0; 0xc0; 0x1c0; 0xc0; 0x1c0;
   0xc0; 0x1c0; 0xc0; 0x1c0; 0xc0; 0x1c0; 0xc0; 0x1c0;
   0xc0; 0x1c0; 0xc0; 0x1c0; 0xc0; 0x1c0; 0xc0; 0x1c0;
   0xea; 0x1fe; 0x0; 0x0; 0x0; 0x0; 0x202000; 0x6000;
   0x1f000; 0x1b800; 0x31c00; 0x0; 0x0; 0x0; 0x0; 0x0;
   0x0; 0x0; 0x0; 0x0; 0x0; 0x0; 0x0; 0x0;
   0x0; 0x0; 0x0; 0x0; 0x0; 0x0; 0x0; 0x0;
   0x0; 0x0; 0x0; 0x0; 0x0; 0x0; 0x0; 0x202000;
   0x0; 0x0; 0x0; 0x0; 0x0; 0x0; 0x0; 0x0;
   0x0; 0x0; 0x0; 0x0; 0x0; 0x0; 0x0; 0x0;
   0x0; 0x0; 0x0; 0x0; 0x0; 0x0; 0x0; 0x0;
   0x0; 0x0; 0x0; 0x5555555; 0xfffffff; 0x0; 0x0; 0x0;
   0x202000; 0x1e00; 0x3c00; 0x3000; 0x7000; 0x0; 0x0; 0x0;
   0x0; 0x0; 0x0; 0x0; 0x0; 0x0; 0x0; 0x0;
   0x0; 0x0; 0x0; 0x0; 0x0; 0x0; 0x0; 0x0;
   0x0; 0x0; 0x0; 0x0; 0x0; 0x0; 0x0; 0x0;
   0x0; 0x202000; 0x0; 0x0; 0x0; 0x0; 0x0; 0x0;
   0x0; 0x0; 0x0; 0x0; 0x0; 0x3fc00; 0x7ff00; 0xf0700;
   0xe0200; 0x1c0000; 0x1e8000; 0x1ff800; 0x1cfe00; 0x1c0f00; 0x1c0380; 0x1c0380;
   0x1e0380; 0x1fc780; 0x1fff00; 0x1cfe00; 0x0; 0x0; 0x0; 0x0;
   0x0; 0x0; 0x202000; 0x0; 0x0; 0x0; 0x0; 0x380;
   0x380; 0x380; 0x380; 0x380; 0x380; 0x380; 0x7fb80; 0xfff80;
   0x1f1f80; 0x1c0380; 0x3c0380; 0x380380; 0x380380; 0x380380; 0x380380; 0x380380;
   0x1c0380; 0x1e0380; 0xf1f80; 0x7ff80; 0x3f980; 0x0; 0x0; 0x0;
   0x0; 0x0; 0x0; 0x202000; 0x0; 0x0; 0x0; 0x0].
Definition hanzi_data_538 : list N :=
  [0x0; 0x0; 0x0; 0x0; 0x0; 0x0; 0x0; 0x7f800;
   0xffc00; 0x1c1e00; 0x80f00; 0x700; 0x380; 0x380; 0x380; 0x380;
   0x380; 0x700; 0x80f00; 0x1c1e00; 0xffc00; 0x7f000; 0x0; 0x0;
   0x0; 0x0; 0x0; 0x0; 0x202000; 0x0; 0x0; 0x0;
   0x0; 0x1c0000; 0x1c0000; 0x1c0000; 0x1c0000; 0x1c0000; 0x1c0000; 0x1c2000;
   0x1dfc00; 0x1ffe00; 0x1f0f00; 0x1c0380; 0x1c03c0; 0x1c01c0; 0x1c01c0; 0x1c01c0;
   0x1c01c0; 0x1c01c0; 0x1c03c0; 0x1e0380; 0x1f0f00; 0x1ffe00; 0x1dfc00; 0x0;
   0x0; 0x0; 0x0; 0x0; 0x0; 0x202000; 0x0; 0x0;
   0x0; 0x0; 0x0; 0x0; 0x0; 0x0; 0x0; 0x0;
   0x0; 0x7fc00; 0xffe00; 0x1e0f00; 0x1c0780; 0x1c0380; 0x380380; 0x3fffc0;
   0x3fff80; 0x1c0; 0x380; 0x380; 0x780; 0x1c1f00; 0x1ffe00; 0x7f800;
   0x0; 0x0; 0x0; 0x0; 0x0; 0x0; 0x202000; 0x0;
   0x0; 0x0; 0x0; 0x3f8000; 0x7fc000; 0x20e000; 0x7000; 0x7000;
   0x7000; 0x7000; 0x1fff00; 0x1fff00; 0x7000; 0x7000; 0x7000; 0x7000;
   0x7000; 0x7000; 0x7000; 0x7000; 0x7000; 0x7000; 0x7000; 0x7000;
   0x7000; 0x0; 0x0; 0x0; 0x0; 0x0; 0x0; 0x202000;
   0x0; 0x0; 0x0; 0x0; 0x0; 0x0; 0x0; 0x0;
   0x0; 0x0; 0x0; 0x3ffc00; 0x3ffe00; 0x70700; 0xe0300; 0xe0300;
   0xe0380; 0xe0700; 0x70f00; 0x7fe00; 0x1fe00; 0x300; 0x300; 0x700;
   0xfff00; 0x3fff00; 0x380380; 0x380180; 0x380180; 0x1c0380; 0xf8f80; 0x7ff00;
   0x202000; 0x0; 0x0; 0x0; 0x0; 0x380; 0x380; 0x380;
   0x380; 0x380; 0x380; 0x8380; 0x7f380; 0xffb80; 0x1f1f80; 0x1e0780;
   0x1c0380; 0x1c0380; 0x1c0380; 0x1c0380; 0x1c0380; 0x1c0380; 0x1c0380; 0x1c0380;
   0x1c0380; 0x1c0380; 0x1c0380; 0x0; 0x0; 0x0; 0x0; 0x0;
   0x0; 0x202000; 0x0; 0x0; 0x0; 0x0; 0x6000; 0xf000;
   0xf000; 0xf000; 0x0; 0x0; 0x0; 0x7000; 0x6000; 0x7000;
   0x6000; 0x7000; 0x6000; 0x7000; 0x6000; 0x7000; 0x6000; 0x7000;
   0x6000; 0x7000; 0x6000; 0x7000; 0x0; 0x0; 0x0; 0x0;
   0x0; 0x0; 0x202000; 0x0; 0x0; 0x0; 0x0; 0x8000;
   0x3c000; 0x3c000; 0x1c000; 0x0; 0x0; 0x0; 0x1c000; 0x1c000;
   0x1c000; 0x1c000; 0x1c000; 0x1c000; 0x1c000; 0x1c000; 0x1c000; 0x1c000;
   0x1c000; 0x1c000; 0x1c000; 0x1c000; 0x1c000; 0x1c000; 0x1c000; 0x1c000;
   0x1e180; 0xff80; 0x7fc0; 0x202000; 0x0; 0x0; 0x0; 0x0;
   0x700; 0x700; 0x700; 0x700; 0x700; 0x700; 0x700; 0x1c0700;
   0xe0700; 0x70700; 0x38700; 0x1c700; 0xe700; 0xf700; 0x1ff00; 0x1df00;
   0x38f00; 0x70700; 0xe0700; 0x1e0700; 0x1c0700; 0x380700; 0x0; 0x0;
   0x0; 0x0; 0x0; 0x0; 0x202000; 0x0; 0x0; 0x0;
   0x0; 0x7000; 0x7000; 0x7000; 0x7000; 0x7000; 0x7000; 0x7000;
   0x7000; 0x7000; 0x7000; 0x7000; 0x7000; 0x7000; 0x7000; 0x7000;
   0x7000; 0x7000; 0x7000; 0x7000; 0x11f000; 0x1fe000; 0x1fc000; 0x0;
   0x0; 0x0; 0x0; 0x0; 0x0; 0x202000; 0x0; 0x0;
   0x0; 0x0; 0x0; 0x0; 0x0; 0x0; 0x0; 0x0;
   0x200200; 0xfe3f9c; 0x1ff3ff8; 0x1c3f8fc; 0x380f038; 0x380701c; 0x3806018; 0x380701c;
   0x3806018; 0x380701c; 0x3806018; 0x380701c; 0x3806018; 0x380701c; 0x3806018; 0x380701c;
   0x0; 0x0; 0x0; 0x0; 0x0; 0x0; 0x202000; 0x0;
   0x0; 0x0; 0x0; 0x0; 0x0; 0x0; 0x0; 0x0;
   0x0; 0x8000; 0x7f380; 0xffb80; 0x1f1f80; 0x1e0780; 0x1c0380; 0x1c0380;
   0x1c0380; 0x1c0380; 0x1c0380; 0x1c0380; 0x1c0380; 0x1c0380; 0x1c0380; 0x1c0380;
   0x1c0380; 0x0; 0x0; 0x0; 0x0; 0x0; 0x0; 0x202000;
   0x0; 0x0; 0x0; 0x0; 0x0; 0x0; 0x0; 0x0;
   0x0; 0x0; 0x0; 0x3fc00; 0x7fe00; 0xf0f00; 0x1e0380; 0x1c03c0;
   0x3801c0; 0x3801c0; 0x3801c0; 0x3801c0; 0x3801c0; 0x1c03c0; 0x1e0380; 0xf1f00;
   0x7fe00; 0x1fc00; 0x0; 0x0; 0x0; 0x0; 0x0; 0x0;
   0x202000; 0x0; 0x0; 0x0; 0x0; 0x0; 0x0; 0x0;
   0x0; 0x0; 0x0; 0x8000; 0x7fb80; 0xfff80; 0x1f1f80; 0x1c0380;
   0x3c0380; 0x380380; 0x380380; 0x380380; 0x380380; 0x380380; 0x1c0380; 0x1e0380;
   0xf1f80; 0x7ff80; 0x3fb80; 0x380; 0x380; 0x380; 0x380; 0x380;
   0x380; 0x202000; 0x0; 0x0; 0x0; 0x0; 0x0; 0x0;
   0x0; 0x0; 0x0; 0x0; 0x2000; 0x1dfc00; 0x1ffe00; 0x1f0f00;
   0x1c0380; 0x1c03c0; 0x1c01c0; 0x1c01c0; 0x1c01c0; 0x1c01c0; 0x1c01c0; 0x1c03c0;
   0x1e0380; 0x1f0f80; 0x1fff00; 0x1dfc00; 0x1c0000; 0x1c0000; 0x1c0000; 0x1c0000;
   0x1c0000; 0x1c0000; 0x202000; 0x0; 0x0; 0x0; 0x0; 0x0;
   0x0; 0x0; 0x0; 0x0; 0x0; 0x0; 0x1fce00; 0x1fee00;
   0x10fe00; 0x3e00; 0x1e00; 0xe00; 0xe00; 0xe00; 0xe00; 0xe00].
Definition hanzi_data_539 : list N :=
  [0xe00; 0xe00; 0xe00; 0xe00; 0xe00; 0x0; 0x0; 0x0;
   0x0; 0x0; 0x0; 0x202000; 0x0; 0x0; 0x0; 0x0;
   0x0; 0x0; 0x0; 0x0; 0x0; 0x0; 0x0; 0x7fc00;
   0xffe00; 0xe0700; 0x300; 0x700; 0xf00; 0x1fe00; 0x7f800; 0xfc000;
   0x1e0000; 0x1c0000; 0x1c0100; 0x1f0780; 0xfff00; 0x7fc00; 0x0; 0x0;
   0x0; 0x0; 0x0; 0x0; 0x202000; 0x0; 0x0; 0x0;
   0x0; 0x0; 0x0; 0x0; 0x3800; 0x3800; 0x3800; 0x3800;
   0x1fff80; 0x1fff80; 0x3800; 0x3800; 0x3800; 0x3800; 0x3800; 0x3800;
   0x3800; 0x3800; 0x3800; 0x3800; 0x107000; 0x1ff000; 0x1fe000; 0x0;
   0x0; 0x0; 0x0; 0x0; 0x0; 0x202000; 0x0; 0x0;
   0x0; 0x0; 0x0; 0x0; 0x0; 0x0; 0x0; 0x0;
   0x0; 0x1c0380; 0xc0380; 0x1c0380; 0xc0380; 0x1c0380; 0xc0380; 0x1c0380;
   0xc0380; 0x1c0380; 0xc0380; 0x1c0380; 0xe0380; 0x1fcf00; 0xdff00; 0x1cfe00;
   0x0; 0x0; 0x0; 0x0; 0x0; 0x0; 0x202000; 0x0;
   0x0; 0x0; 0x0; 0x0; 0x0; 0x0; 0x0; 0x0;
   0x0; 0x0; 0x1c01c0; 0x1c0380; 0x1c0380; 0xe0700; 0xe0700; 0x60e00;
   0x70e00; 0x30e00; 0x39c00; 0x39c00; 0x19c00; 0x1f800; 0x1f800; 0xf000;
   0xf000; 0x0; 0x0; 0x0; 0x0; 0x0; 0x0; 0x202000;
   0x0; 0x0; 0x0; 0x0; 0x0; 0x0; 0x0; 0x0;
   0x0; 0x0; 0x0; 0x1c0f01c; 0x180f038; 0x1c0f038; 0xc0f838; 0xc1d870;
   0xe19870; 0xe19c70; 0x639ce0; 0x731ce0; 0x730ce0; 0x770fc0; 0x3e07c0; 0x3e07c0;
   0x1e0780; 0x1c0780; 0x0; 0x0; 0x0; 0x0; 0x0; 0x0;
   0x202000; 0x0; 0x0; 0x0; 0x0; 0x0; 0x0; 0x0;
   0x0; 0x0; 0x0; 0x0; 0x1e0700; 0xe0700; 0x70e00; 0x39c00;
   0x39c00; 0x1f800; 0x1f000; 0xf000; 0x1f800; 0x1d800; 0x39c00; 0x70e00;
   0xf0700; 0xe0700; 0x1c0380; 0x0; 0x0; 0x0; 0x0; 0x0;
   0x0; 0x202000; 0x0; 0x0; 0x0; 0x0; 0x0; 0x0;
   0x0; 0x0; 0x0; 0x0; 0x0; 0x1c01c0; 0x1c0380; 0x1c0780;
   0xe0700; 0xe0700; 0xe0e00; 0x70e00; 0x70c00; 0x31c00; 0x39800; 0x1b800;
   0x1b800; 0x1f000; 0xe000; 0xe000; 0xe000; 0x7000; 0x7000; 0x3c00;
   0x1f80; 0xf80; 0x202000; 0x0; 0x0; 0x0; 0x0; 0x0;
   0x0; 0x0; 0x0; 0x0; 0x0; 0x0; 0x1fff00; 0xfff00;
   0xf0000; 0x70000; 0x38000; 0x1c000; 0x1e000; 0xf000; 0x7800; 0x3800;
   0x1c00; 0xe00; 0x155700; 0x1fff80; 0x1fff80; 0x0; 0x0; 0x0;
   0x0; 0x0; 0x0; 0x202000; 0x0; 0x0; 0x2000000; 0x7c00000;
   0xc00000; 0xc00000; 0xc00000; 0xc00000; 0xc00000; 0xc00000; 0xc00000; 0xc00000;
   0xc00000; 0xc00000; 0xe00000; 0x780000; 0xe80000; 0xc00000; 0xc00000; 0xc00000;
   0xc00000; 0xc00000; 0xc00000; 0xc00000; 0xc00000; 0xc00000; 0xc00000; 0x7c00000;
   0x2000000; 0x0; 0x0; 0x0; 0x202000; 0x0; 0x0; 0x6000;
   0x6000; 0x6000; 0x6000; 0x6000; 0x6000; 0x6000; 0x6000; 0x6000;
   0x6000; 0x6000; 0x6000; 0x6000; 0x6000; 0x6000; 0x6000; 0x6000;
   0x6000; 0x6000; 0x6000; 0x6000; 0x6000; 0x6000; 0x6000; 0x6000;
   0x6000; 0x6000; 0x0; 0x0; 0x0; 0x202000; 0x0; 0x0;
   0xa; 0x3e; 0x38; 0x30; 0x30; 0x70; 0x30; 0x30;
   0x30; 0x30; 0x30; 0x70; 0xe0; 0x1c0; 0xe0; 0x70;
   0x30; 0x30; 0x30; 0x30; 0x30; 0x70; 0x30; 0x30;
   0x38; 0x3e; 0x2; 0x0; 0x0; 0x0; 0x202000; 0x0;
   0x0; 0x0; 0x0; 0x0; 0x0; 0x0; 0x0; 0x0;
   0x0; 0x0; 0x100; 0xfe0; 0x1003ff0; 0x3807878; 0x3c0f01c; 0x1e3e00e;
   0xffc008; 0x3f0000; 0x0; 0x0; 0x0; 0x0; 0x0; 0x0;
   0x0; 0x0; 0x0; 0x0; 0x0; 0x0; 0x0; 0x202000;
   0x0; 0x0; 0x0; 0x7300000; 0x3980000; 0x1dc0000; 0xcc0000; 0xc60000;
   0x660000; 0x670000; 0x330000; 0x330000; 0x330000; 0x330000; 0x330000; 0x330000;
   0x330000; 0x330000; 0x330000; 0x330000; 0x330000; 0x770000; 0x660000; 0xc60000;
   0xcc0000; 0x1dc0000; 0x3980000; 0x7300000; 0x0; 0x0; 0x0; 0x0;
   0x202000; 0x0; 0x0; 0x80; 0x1cc; 0x198; 0x398; 0x330;
   0x770; 0x660; 0x660; 0xce0; 0xcc0; 0xcc0; 0xcc0; 0xcc0;
   0xcc0; 0xcc0; 0xcc0; 0xcc0; 0xcc0; 0xce0; 0x660; 0x660;
   0x770; 0x330; 0x398; 0x198; 0x1cc; 0x80; 0x0; 0x0;
   0x0].
Definition hanzi_data_group_3 : list (list N) :=
  [hanzi_data_420; hanzi_data_421; hanzi_data_422; hanzi_data_423;
   hanzi_data_424; hanzi_data_425; hanzi_data_426; hanzi_data_427;
   hanzi_data_428; hanzi_data_429; hanzi_data_430; hanzi_data_431;
   hanzi_data_432; hanzi_data_433; hanzi_data_434; hanzi_data_435;
   hanzi_data_436; hanzi_data_437; hanzi_data_438; hanzi_data_439;
   hanzi_data_440; hanzi_data_441; hanzi_data_442; hanzi_data_443;
   hanzi_data_444; hanzi_data_445; hanzi_data_446; hanzi_data_447;
   hanzi_data_448; hanzi_data_449; hanzi_data_450; hanzi_data_451;
   hanzi_data_452; hanzi_data_453; hanzi_data_454; hanzi_data_455;
   hanzi_data_456; hanzi_data_457; hanzi_data_458; hanzi_data_459;
   hanzi_data_460; hanzi_data_461; hanzi_data_462; hanzi_data_463;
   hanzi_data_464; hanzi_data_465; hanzi_data_466; hanzi_data_467;
   hanzi_data_468; hanzi_data_469; hanzi_data_470; hanzi_data_471;
   hanzi_data_472; hanzi_data_473; hanzi_data_474; hanzi_data_475;
   hanzi_data_476; hanzi_data_477; hanzi_data_478; hanzi_data_479;
   hanzi_data_480; hanzi_data_481; hanzi_data_482; hanzi_data_483;
   hanzi_data_484; hanzi_data_485; hanzi_data_486; hanzi_data_487;
   hanzi_data_488; hanzi_data_489; hanzi_data_490; hanzi_data_491;
   hanzi_data_492; hanzi_data_493; hanzi_data_494; hanzi_data_495;
   hanzi_data_496; hanzi_data_497; hanzi_data_498; hanzi_data_499;
   hanzi_data_500; hanzi_data_501; hanzi_data_502; hanzi_data_503;
   hanzi_data_504; hanzi_data_505; hanzi_data_506; hanzi_data_507;
   hanzi_data_508; hanzi_data_509; hanzi_data_510; hanzi_data_511;
   hanzi_data_512; hanzi_data_513; hanzi_data_514; hanzi_data_515;
   hanzi_data_516; hanzi_data_517; hanzi_data_518; hanzi_data_519;
   hanzi_data_520; hanzi_data_521; hanzi_data_522; hanzi_data_523;
   hanzi_data_524; hanzi_data_525; hanzi_data_526; hanzi_data_527;
   hanzi_data_528; hanzi_data_529; hanzi_data_530; hanzi_data_531;
   hanzi_data_532; hanzi_data_533; hanzi_data_534; hanzi_data_535;
   hanzi_data_536; hanzi_data_537; hanzi_data_538; hanzi_data_539].
