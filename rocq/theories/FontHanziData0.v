(** GENERATED by tools/gen_fonts.py from /repo/src/fonts/hanzi.rs -- do not edit.
    DATA (src/fonts/hanzi.rs:17024-67287), words 0 to 71679. *)
From Verif Require Import Prim FontDefs.

Definition hanzi_data_0 : list N :=
  [0x202000; 0x0; 0x0; 0x0; 0x18300; 0x18380; 0x1c380; 0xffc180;
   0xffe1c0; 0xe070c0; 0x7070e0; 0x7038e0; 0x381cf0; 0x180ef8; 0x1fffcfc; 0x1fff8fc;
   0x18000ec; 0x18000e0; 0x18000e0; 0x1fff8e0; 0x1fff8e0; 0x1aaa8e0; 0x18000e0; 0x18000e0;
   0x18000e0; 0x1fff8e0; 0x1fffce0; 0x18000e0; 0x18000e0; 0x0; 0x0; 0x0;
   0x0; 0x202000; 0x0; 0x0; 0x0; 0x30100; 0x30380; 0x701c0;
   0xe01c0; 0x3fffec0; 0x3fffee0; 0x3fffe70; 0x198070; 0x19c078; 0x99807c; 0xd9dc7e;
   0xd98c6e; 0x1d9dc64; 0x198cc60; 0x399ce60; 0x318c660; 0x718c760; 0x318e360; 0x1186260;
   0x187060; 0x187060; 0x183860; 0x181c60; 0x1f0e60; 0x1f0460; 0x0; 0x0;
   0x0; 0x0; 0x202000; 0x0; 0x0; 0x0; 0x0; 0x30c000;
   0x71c554; 0xe0e3fc; 0x1c077fc; 0x1c0730c; 0x3803f1c; 0x3803b0c; 0x7605f1c; 0x606b0c;
   0x70e71c; 0x30c30c; 0x31c71c; 0x39830c; 0x1d871c; 0x1f83fc; 0xf07fc; 0xe000c;
   0x1f001c; 0x1f800c; 0x79e000; 0xf0f000; 0x3e07c00; 0x7801e00; 0x3000400; 0x0;
   0x0; 0x0; 0x0; 0x202000; 0x0; 0x0; 0x0; 0x400;
   0x3ff8ea8; 0x3ff9cfc; 0x30038ec; 0x30010cc; 0x319f2cc; 0x319f6cc; 0x30886cc; 0x35ffecc;
   0x37bfecc; 0x36db6cc; 0x325b6cc; 0x365f6cc; 0x32db6cc; 0x33db6cc; 0x329f6cc; 0x339f6fc;
   0x331b6fc; 0x337b60c; 0x33bfe0c; 0x379fe00; 0x3698600; 0x30d8600; 0x3e78600; 0x1e40600;
   0x0; 0x0; 0x0; 0x0; 0x202000; 0x0; 0x0; 0x0;
   0x70; 0xa8a860; 0x3fdfc70; 0x1a9a860; 0x1818070; 0x198d860; 0xfcf974; 0xf0e1fc;
   0x1f1f1fc; 0x3bbb860; 0x31d1c70; 0xe0860; 0x40070; 0x3fffc60; 0x3fdfc70; 0x3898060;
   0x18dc370; 0x1cccfe0; 0xd8fdf8; 0xf8707e; 0x71f01c; 0xf9b800; 0x1df1e00; 0x38f0f00;
   0x3030300; 0x0; 0x0; 0x0; 0x0; 0x202000; 0x0; 0x0;
   0x0; 0x60; 0x2aaa860; 0x3fffc60; 0x2bba860; 0x198060; 0xbba860; 0x1fff974;
   0x1bbbbfc; 0x1999bfc; 0x1999860; 0x1999860; 0x1fff860; 0x1fff860; 0x38060; 0x18060;
   0x3fffc60; 0x3ffff60; 0x70e3e0; 0x7073f8; 0x38f07e; 0x1ff01c; 0x3f0000; 0xfff000;
   0x3e0fe00; 0x1c01c00; 0x0; 0x0; 0x0; 0x0; 0x202000; 0x0;
   0x0; 0x0; 0x600700; 0xe00300; 0xe71fc0; 0xee38e0; 0xfcf078; 0xe0eabe;
   0xe13ffc; 0xe78300; 0xfe0300; 0xe87ff8; 0x3e07ffc; 0x3fe1b30; 0x1ffb330; 0xe0b338;
   0xe0635c; 0xe003e0; 0x406000; 0x6000; 0xfffff0; 0xfffff0; 0x6000; 0x6000;
   0x3fffffc; 0x3fffffc; 0x0; 0x0; 0x0; 0x0; 0x0; 0x202000;
   0x0; 0x0; 0x0; 0x1c0; 0x180; 0x1ffdffc; 0x1ffdffc; 0x18601c0;
   0x1860180; 0x1871ff8; 0x1870ff8; 0x1c701c0; 0x1838180; 0x1c1dffc; 0xf9fffc; 0xf8e1c0;
   0x1980; 0x1c00; 0x3fffffc; 0x3fffffc; 0x1c0300; 0xe0380; 0xf0fc0; 0x7ffc0;
   0xff800; 0xffff40; 0x3f81ffc; 0x1c001fc; 0x0; 0x0; 0x0; 0x0;
   0x202000; 0x0; 0x0; 0x0; 0x60; 0xaaa060; 0x1fff070; 0xeaa060;
   0x70c070; 0x3be2b8; 0x1f87fc; 0x1e03fc; 0x1ffff30; 0x1fffb38; 0x1861b18; 0x1861b18;
   0x1861b18; 0x1fffb98; 0x1fff99c; 0x18619bc; 0x18619f0; 0x1aeb8e0; 0x1fffbc0; 0x1aebbe0;
   0x1861f70; 0x1861a38; 0x186183c; 0x1f6181e; 0x1f61804; 0x0; 0x0; 0x0;
   0x0; 0x202000; 0x0; 0x0; 0x0; 0x1070; 0x3030; 0x3fff070;
   0x3ffb030; 0x183030; 0x1838b8; 0x3ffdbfe; 0x3ff9bfe; 0x319df18; 0x3189f98; 0x3ffdf98;
   0x3ba9d98; 0x319d99c; 0x3ba998c; 0x3ffd9cc; 0x1818dc; 0x19d8f8; 0x998f0; 0xf19e0;
   0xe19e0; 0x1e1bf0; 0x3e1b38; 0x1f79a1c; 0x3c3d80e; 0x301d804; 0x0; 0x0;
   0x0; 0x0; 0x202000; 0x0; 0x0; 0x0; 0xc0; 0x2aaa0c0;
   0x3fff0c0; 0x3aaa0c0; 0x38004c4; 0x38006c8; 0x3bfe6dc; 0x3bfe6c8; 0x38006dc; 0x38006c8;
   0x3bfc6dc; 0x3bfc6c8; 0x3b8c6dc; 0x3b8c6c8; 0x3b8c6dc; 0x3b8c6c8; 0x3bdc6dc; 0x3bfc6c8;
   0x39fc6dc; 0x380c7f8; 0x38047fc; 0x3800600; 0x3800000; 0x3f80000; 0x1f00000; 0x0;
   0x0; 0x0; 0x0; 0x202000; 0x0; 0x0; 0x0; 0x6000;
   0xc06038; 0x1c06038; 0xc06038; 0x1fffff8; 0xfffff8; 0xc0180; 0x6c0180; 0xec17d4;
   0x1cc3ffc; 0x18c7ffc; 0x3ffc000; 0x3ffdff8; 0xc1ab8; 0x3e1818; 0x3e1ff8; 0x3e1ff8;
   0x3e0380; 0x3f1fb0; 0x3b1bb8; 0x73bb398; 0x239b39c; 0x3f1c388; 0x3f0e3e0; 0x1d061e0;
   0x0; 0x0; 0x0; 0x0; 0x202000; 0x0; 0x0; 0x0;
   0x718060; 0x318060; 0x3fff860; 0x3fff860; 0x718164; 0x31826c; 0x3fff36c; 0x3fff26c;
   0x300336c; 0x37fb26c; 0x7fc36c; 0x26c; 0x3fff36c; 0x2afa26c; 0x183c36c; 0x3e6fa6c;
   0x7f336c; 0x7fc26c; 0x7cf36c; 0xde3bfc; 0x1dbc3fc; 0x398e200; 0x79c7c00; 0x20f8800;
   0x78000; 0x0; 0x0; 0x0; 0x0; 0x202000; 0x0; 0x0;
   0x0; 0x30060; 0x38060; 0x18060; 0xffc060; 0x1ffc160; 0xe0e1e8; 0x60736c;
   0x703b6c; 0x383f6c; 0x381e6c; 0x3fff86c; 0x3fff06c; 0x3800064; 0x3800060; 0x3800060;
   0x3fff060; 0x3fff060; 0x3aaa060; 0x3800060; 0x3800060; 0x3800060; 0x3fff860; 0x3fff860;
   0x3800060; 0x3800060; 0x0; 0x0; 0x0; 0x0; 0x202000; 0x0;
   0x0; 0x0; 0x60060; 0x60060; 0x60060; 0x1fff860; 0x1fff960; 0x601e8;
   0x601ec; 0x2aeab6c; 0x3ffff6c; 0x2aaab6c; 0x79e06c; 0xf3706e; 0x1c3bc64; 0x3838e60;
   0x1ffc460; 0xffe060; 0x60f060; 0x70fc60; 0x39dc60; 0x1f8060; 0xf0060; 0x3fc060;
   0x1f9fc60; 0x3e07e60; 0x1001c60; 0x0; 0x0; 0x0; 0x0; 0x202000;
   0x0; 0x0; 0x0; 0x70; 0x60; 0x3fffe70; 0x3fefe60; 0x186c070;
   0x186c0e8; 0x184c1fc; 0x18ce1fc; 0x1cc6670; 0x1cc6e60; 0x1cc7c70; 0xcc79e0; 0xdc71f0].
Definition hanzi_data_1 : list N :=
  [0xf870fc; 0x78f07c; 0x78f864; 0x71d870; 0x399860; 0x7b9c70; 0x7d0e60; 0xfe0e70;
   0x1ce0760; 0x3c70370; 0x383807c; 0x301003c; 0x0; 0x0; 0x0; 0x0;
   0x202000; 0x0; 0x0; 0x0; 0x700c0; 0x700c0; 0x738c0; 0x770c0;
   0x7e0c0; 0x3e0c0; 0x707fc; 0x1fffffc; 0x1fff8c0; 0x18300c0; 0x18300c0; 0x18380c0;
   0x18787c0; 0x18f8fe0; 0x1dd87fe; 0x1b980fe; 0x1f9c0c4; 0x1b0c0c0; 0x1c0e0c0; 0x1c060c0;
   0x1c070c0; 0xc038c0; 0xfe1cd0; 0xfe0ef8; 0x140478; 0x0; 0x0; 0x0;
   0x0; 0x202000; 0x0; 0x0; 0x0; 0x70; 0x660; 0x3ffde70;
   0x3ffb860; 0x1f070; 0x180e8; 0x1c1fc; 0x181fc; 0x1c670; 0x18e60; 0x1dc70;
   0x191e0; 0x1c1f0; 0x180fc; 0x1c07c; 0x19064; 0x1d870; 0x19860; 0x1dc70;
   0x18c60; 0x1ce70; 0x3ff8660; 0x3ffc770; 0x827c; 0x3c; 0x0; 0x0;
   0x0; 0x0; 0x202000; 0x0; 0x0; 0x0; 0x70000; 0x60000;
   0xe03f8; 0xfff3f8; 0xfff318; 0xc03318; 0xc07318; 0xc03318; 0xfff318; 0xfff318;
   0xc073f8; 0xc033f8; 0xfff318; 0xfff318; 0xfff318; 0x1863318; 0x3ce7318; 0xec33b8;
   0x7c73f8; 0x3833f8; 0x707018; 0xf73018; 0x1e7f000; 0x380f800; 0x1003000; 0x0;
   0x0; 0x0; 0x0; 0x202000; 0x0; 0x0; 0x0; 0x0;
   0x7fffe0; 0x7fffe0; 0x600060; 0x7fffe0; 0x600060; 0x7fffe0; 0x7fffe0; 0xfff540;
   0x2ffff0; 0x7070c0; 0x38e1c0; 0x1fffff0; 0xfffff0; 0x700; 0x3fffffc; 0x3fffffc;
   0x300; 0x7fff80; 0x3aaf80; 0x1c3dc0; 0xff0e0; 0x1ff078; 0x3fe7fbc; 0x1f0079c;
   0x0; 0x0; 0x0; 0x0; 0x202000; 0x0; 0x0; 0x0;
   0x0; 0x7fffe0; 0x7ffff0; 0x600060; 0x7ffff0; 0x7fffe0; 0x600070; 0x7fffe0;
   0x7ffff0; 0xc0380; 0x4e01c0; 0xe718e0; 0x739c70; 0x3fcff8; 0x5dc7f0; 0xee0f80;
   0x1c719c0; 0x1ffbff0; 0x39ffff8; 0x603020; 0x618c70; 0xe38c70; 0x1c30c38; 0x1870c18;
   0x1810418; 0x0; 0x0; 0x0; 0x0; 0x202000; 0x0; 0x0;
   0x0; 0x703000; 0x303000; 0x3071fc; 0x33fff8; 0x3fff9c; 0x7f8b988; 0x7f9d99c;
   0x1999988; 0x19ffd9c; 0x19ffd88; 0x19f05fc; 0x19ffdf8; 0x1ddfd9c; 0xf98d88; 0xf1dd9c;
   0xf1fd88; 0xf18d9c; 0xe18da8; 0x61fdfc; 0xe1fdf8; 0x1f18c1c; 0x1b98c08; 0x39d8c00;
   0x30fec00; 0x205cc00; 0x0; 0x0; 0x0; 0x0; 0x202000; 0x0;
   0x0; 0x0; 0xe0; 0x1fff8e0; 0x1fffce0; 0x18018e0; 0x1801ce0; 0x1b818e0;
   0x1981ffc; 0x198dbfc; 0x19ddce0; 0x18d98e0; 0x18f9df0; 0x18f19f0; 0x18f1ff0; 0x18e1bf8;
   0x18f1ef8; 0x19f18f8; 0x19b1cfc; 0x1bb98ee; 0x1f19ce4; 0x1b1d8e4; 0x180dce0; 0x180d8e0;
   0x1f81ce0; 0x1f818e0; 0x701ce0; 0x0; 0x0; 0x0; 0x0; 0x202000;
   0x0; 0x0; 0x0; 0x600e0; 0x600e0; 0x600e0; 0x600e0; 0x600e0;
   0x1fff7fc; 0x1fff7fc; 0x602e8; 0x600e0; 0x600e0; 0x601f0; 0x2aeabf0; 0x3fffbf0;
   0x3fffbf8; 0x706fc; 0x382ec; 0x3380ee; 0x71c0e4; 0x61c0e4; 0xe0e0e0; 0x1f070e0;
   0x1fff8e0; 0x3fff8e0; 0x30038e0; 0x30000e0; 0x0; 0x0; 0x0; 0x0;
   0x202000; 0x0; 0x0; 0x0; 0x1c0; 0x1ff8180; 0x1ff9ff8; 0x1839ff8;
   0x1c39818; 0x1ff9ff8; 0x1ff9ff8; 0x1839818; 0x1c19ff8; 0x1ff9ff8; 0x1ff8e18; 0x181ce18;
   0x1d0dff8; 0x1f0f8fc; 0x706018; 0x6000; 0x3fffffc; 0x3fffffc; 0x3fc00; 0x7ee00;
   0x1f6780; 0x7c63e0; 0x7f060fc; 0x3c0603c; 0x100600c; 0x0; 0x0; 0x0;
   0x0; 0x202000; 0x0; 0x0; 0x0; 0x11c070; 0x1bf860; 0x187c70;
   0x3f82060; 0x3fc7070; 0x36ffffc; 0x377fffc; 0x330f0f8; 0x339f870; 0x31bac70; 0x3df7ef0;
   0x1e726f8; 0xcff1f8; 0x38e1e8; 0xf7717c; 0x3e63e6c; 0x3673e7e; 0x667066; 0x376074;
   0x1f8060; 0x3fe070; 0xf67860; 0x1c71e70; 0x387c460; 0x3c070; 0x0; 0x0;
   0x0; 0x0; 0x202000; 0x0; 0x0; 0x0; 0x82000; 0x1c6038;
   0x387078; 0x3038e0; 0x7018c0; 0xe01c00; 0x1c01c00; 0x1800e00; 0x390170c; 0x1303a3e;
   0x303078; 0x383020; 0x187000; 0x186000; 0x1ce040; 0xec040; 0x7c0e0; 0x78060;
   0x78070; 0xfc030; 0x1cf038; 0x787818; 0x1f03f1c; 0x3e00f88; 0x1000700; 0x0;
   0x0; 0x0; 0x0; 0x202000; 0x0; 0x0; 0x0; 0x18010;
   0x38038; 0x700f0; 0x3ffffe0; 0x3ffffc0; 0x2abaa00; 0x31c000; 0x30e000; 0x70701c;
   0xe0703c; 0x1fffc78; 0x1bffc60; 0x1801c40; 0x186000; 0x1c6080; 0x186180; 0x1c61c0;
   0x1860c0; 0x11c70e0; 0x2183060; 0x71c3070; 0x3183838; 0x3fc1e38; 0x3f80f18; 0x1f00710;
   0x0; 0x0; 0x0; 0x0; 0x202000; 0x0; 0x0; 0x0;
   0xc0000; 0x6e0038; 0xec0078; 0x1cc00e0; 0x8c00c0; 0x3fffc00; 0x3fffc00; 0xc0c00;
   0xc1c0c; 0x38c0c3e; 0x19c1c78; 0x18c2c60; 0x1dc7c00; 0xf8ec00; 0x79cc40; 0x798cc0;
   0x780cc0; 0x380c60; 0x3c0c70; 0x23e0e30; 0x7770638; 0x3638638; 0x3e1e71c; 0x3c0e388;
   0x1804300; 0x0; 0x0; 0x0; 0x0; 0x202000; 0x0; 0x0;
   0x0; 0x7010; 0x3038; 0x7ff878; 0x3ff8e0; 0x381cc0; 0x180e00; 0xffff00;
   0xfffe00; 0xc0000c; 0xc0003e; 0xfffc78; 0xfff860; 0xc00000; 0xc00000; 0xfffc00;
   0xfffc40; 0x30060; 0x432260; 0xc63670; 0x1863630; 0x1f03738; 0x3303398; 0x33ff1dc;
   0x3ff008; 0x0; 0x0; 0x0; 0x0; 0x0; 0x202000; 0x0;
   0x0; 0x0; 0x10; 0x3fffe38; 0x3fffe78; 0x2aaaee0; 0x3636c0; 0x322600;
   0x336600; 0x336600; 0x3f7f61c; 0x3f7f63c; 0x310c678; 0x37eb620; 0x37ef600; 0x36eb600;
   0x166f640; 0x66b6c0; 0x66f6c0; 0xe7f6e0; 0xf7f770; 0xf0c330; 0x1f0c730; 0x198e338;
   0x39c739c; 0x30e398c; 0x3041100; 0x0; 0x0; 0x0; 0x0; 0x202000].
Definition hanzi_data_2 : list N :=
  [0x0; 0x0; 0x0; 0xc0; 0xc0; 0x3fff0c0; 0x3fff0c0; 0x38c30c0;
   0x38c3cc0; 0x38c36dc; 0x38c36c8; 0x3fff7dc; 0x3fff3cc; 0x38c33cc; 0x38c30cc; 0x38c30cc;
   0x38c30e0; 0x3fff0e0; 0x3fff8e0; 0x3dd79e0; 0x38c3be0; 0x38c1b70; 0x38c1f30; 0x38c1e30;
   0x38c0c38; 0x38c0c1c; 0x3ec0e0e; 0x1f40404; 0x0; 0x0; 0x0; 0x0;
   0x202000; 0x0; 0x0; 0x0; 0x6c060; 0x66060; 0x1fff060; 0xaeb860;
   0x61860; 0x3ffff60; 0x3ffff78; 0x368; 0x1fff1ec; 0xc031ec; 0x1c031ec; 0xfff06c;
   0x1fff064; 0x198060; 0x3f9fc60; 0x3f9fc60; 0x198070; 0xb9a8f0; 0x1f9f9f0; 0x1981b0;
   0x159d5b8; 0x3f9fc18; 0x19801c; 0x19800e; 0x198004; 0x0; 0x0; 0x0;
   0x0; 0x202000; 0x0; 0x0; 0x0; 0x60; 0x1fff060; 0x1fff060;
   0x60060; 0x3fffc60; 0x3ffff60; 0x3061f7c; 0x3f7ede8; 0x1f7f5ec; 0xa6a1ec; 0x1f7f0ec;
   0xc206c; 0xc7064; 0x3fff060; 0x3fff870; 0xc3c60; 0x1fffe70; 0x1fff6f0; 0xc31f0;
   0x1fff1b0; 0x1fff398; 0xc3118; 0x3fff01c; 0x3fff00e; 0x3004; 0x0; 0x0;
   0x0; 0x0; 0x202000; 0x0; 0x0; 0x0; 0x60000; 0x60388;
   0x1f019c; 0x3fc1f8; 0x79e0f0; 0xe07870; 0x7d57ef8; 0x37ffcfc; 0x7ff0dc; 0xc4;
   0x193fdc0; 0x19bfdc0; 0x19b1de0; 0x19b0de0; 0x19bfdf0; 0x19bfdb8; 0x19b1dde; 0x19b0d8c;
   0x19bfdc4; 0x19bfcc0; 0x1931dc0; 0x1830cc0; 0x1831cfc; 0x1f3ccf8; 0x1e1dc78; 0x0;
   0x0; 0x0; 0x0; 0x202000; 0x0; 0x0; 0x0; 0x0;
   0x3fff800; 0x3fffffc; 0x603fc; 0x3fffc60; 0x3fff860; 0x3061c60; 0x3f6e860; 0x1f7f460;
   0x60060; 0x1f7f3fc; 0x603fc; 0x1fff060; 0x1fff060; 0x60; 0x3fffc60; 0x7fffc60;
   0xc260; 0x1ffe7e0; 0xffe3f8; 0xc000fe; 0xc0000c; 0xc00000; 0xfe0000; 0x7e0000;
   0x0; 0x0; 0x0; 0x0; 0x202000; 0x0; 0x0; 0x0;
   0x30010; 0x38038; 0x7c0f0; 0x1ee0c0; 0x787800; 0x1effe1c; 0x3dfef7c; 0x260;
   0x7ffc80; 0x7ff8c0; 0x701cf0; 0x6aa878; 0x7ffc1c; 0x80088; 0x180180; 0x3fffffc;
   0x3fffffc; 0x180180; 0x1fff80; 0x1fff80; 0x180180; 0x180180; 0x1fff80; 0x1fff80;
   0x180180; 0x0; 0x0; 0x0; 0x0; 0x202000; 0x0; 0x0;
   0x0; 0x600c0; 0x8600e0; 0x1863060; 0x1863060; 0x1c673fc; 0xc663f8; 0xe6635c;
   0x66e308; 0x76c31c; 0x60308; 0x3fffb18; 0x3fffbf8; 0x3fffbfc; 0x198308; 0x19c31c;
   0x18c308; 0x19c31c; 0x18c308; 0x118c3fc; 0x218e3f8; 0x718701c; 0x3183008; 0x3f83c1c;
   0x3f81e00; 0x1f00400; 0x0; 0x0; 0x0; 0x0; 0x202000; 0x0;
   0x0; 0x0; 0x470000; 0xc63800; 0xc733fc; 0x6673f8; 0x77631c; 0x3ffff08;
   0x3ffff18; 0xf83f8; 0x3fc3fc; 0x76e308; 0x1e77f1c; 0x3861f08; 0x1070f1c; 0x383f8;
   0x155d7fc; 0x3ffff08; 0x3ffff1c; 0x306308; 0x3873fc; 0x1dfbf8; 0x1fc1fc; 0x3f8008;
   0xfff01c; 0x1e0fe00; 0x1c01c00; 0x0; 0x0; 0x0; 0x0; 0x202000;
   0x0; 0x0; 0x0; 0x1c0; 0x180; 0x1ffdffc; 0x1ffdffc; 0x18601c0;
   0x1860ba8; 0x1871ff8; 0x1830180; 0x1c301c0; 0x1c39ffc; 0x1d5dffc; 0xf8e180; 0x7841c0;
   0x2aaaaa8; 0x3fffffc; 0x2aaaea8; 0x700; 0xffff80; 0xffffc0; 0xe001f0; 0xe001fc;
   0xe0019c; 0xffff8c; 0xffff80; 0xe00180; 0x0; 0x0; 0x0; 0x0;
   0x202000; 0x0; 0x0; 0x0; 0x404000; 0xe062a8; 0x60c7fc; 0x70c7fc;
   0x31c060; 0x388060; 0x3fff070; 0x3fff030; 0x38e3030; 0x38e3038; 0x3fff3f8; 0x3fff3f8;
   0x38e331c; 0x38e331e; 0x3fff31c; 0x3fff31c; 0xe0318; 0xe0318; 0x7ffff18; 0x3fffbb8;
   0xe03f8; 0xe02b8; 0xe0018; 0xe0018; 0xe0000; 0x0; 0x0; 0x0;
   0x0; 0x202000; 0x0; 0x0; 0x0; 0x70000; 0x302a8; 0x3fffffc;
   0x3fffae8; 0x17dd060; 0x70e060; 0x1e77c70; 0x38b9e30; 0x13fc430; 0x38e038; 0x1c7ff8;
   0xedbf8; 0x77c33c; 0x3b833e; 0x3fdf33c; 0x1ae7f3c; 0x1c79b38; 0xe1e338; 0x77fb38;
   0x3e33b8; 0x1c03f8; 0xf82b8; 0x7f038; 0xf838; 0x1000; 0x0; 0x0;
   0x0; 0x0; 0x202000; 0x0; 0x0; 0x0; 0x30200; 0x387c0;
   0x71c7fc; 0xe0e0fc; 0x1ff70c0; 0x1fff0c0; 0x107f0c0; 0x600c0; 0x3fffffc; 0x3fffbfc;
   0x39c0e0; 0xf0e0e0; 0x1ecf1f0; 0x38e3ff0; 0x3071fd8; 0x63e2d8; 0x38f0dc; 0x9e20cc;
   0x1c7c0ce; 0xe1f0c4; 0x7870c0; 0x3e00c0; 0x7c0c0; 0x1f8c0; 0x70c0; 0x0;
   0x0; 0x0; 0x0; 0x202000; 0x0; 0x0; 0x0; 0x40;
   0xc0; 0x3fff0e0; 0x3fff060; 0x3803070; 0x3803030; 0x3803638; 0x3803718; 0x3bfb31c;
   0x3bfb3fe; 0x3b1b1fc; 0x3b1b0e0; 0x3b1b060; 0x3b1b070; 0x3b1b738; 0x3b1b7fc; 0x3bfb1fc;
   0x3bfb00c; 0x381b000; 0x380b600; 0x38037f0; 0x38031fe; 0x3f0301c; 0x3f03000; 0x1f03000;
   0x0; 0x0; 0x0; 0x0; 0x202000; 0x0; 0x0; 0x0;
   0x180; 0x180; 0x3ffc180; 0x3ff8180; 0x30c1ff8; 0x30c1ff8; 0x33cd998; 0x33cd998;
   0x37dd998; 0x36d9bb8; 0x36d9ff8; 0x32d1bb8; 0x30c1998; 0x38c1998; 0x3ce1998; 0x3ef7ffc;
   0x37ffffc; 0x33dd818; 0x31cd818; 0x30c1818; 0x30c1818; 0x30c1818; 0x30c1818; 0x3ef9e18;
   0x1e71e18; 0x0; 0x0; 0x0; 0x0; 0x202000; 0x0; 0x0;
   0x0; 0xc30; 0x3ffdc30; 0x3ffcc70; 0x38c0660; 0x38c3ffc; 0x3acbba8; 0x3bcfdbc;
   0x3adbda8; 0x3edb5fc; 0x3efb7c8; 0x3cf319c; 0x38d3ff8; 0x38c3ffc; 0x38e0000; 0x3cf1ff0;
   0x3ef9ff0; 0x3fdd830; 0x3bcd830; 0x39c5ff0; 0x38c1830; 0x38c1830; 0x38c1ff0; 0x1dfdff0;
   0x1e79830; 0x1e79010; 0x0; 0x0; 0x0; 0x0; 0x202000; 0x0;
   0x0; 0x0; 0x60000; 0x603f8; 0x707f8; 0x1fff318; 0x1fff718; 0x30318;
   0x38718; 0x383f8; 0x3fffff8; 0x3fffbb8; 0x155d718; 0xc318; 0xc718; 0xffe318].
Definition hanzi_data_3 : list N :=
  [0x1ffe7f8; 0xeaa3f8; 0xe00718; 0x708318; 0x39c71c; 0x3b8318; 0x1f071c; 0x1e030c;
   0x7c074c; 0x7003ee; 0x2001c4; 0x0; 0x0; 0x0; 0x0; 0x202000;
   0x0; 0x0; 0x0; 0x0; 0x3f8; 0x1fff3f8; 0x1ffe318; 0x318;
   0x318; 0x318; 0x3f8; 0x7fffbf8; 0x3fffbb8; 0xe0318; 0xe0318; 0x4e4318;
   0xeee318; 0xce63f8; 0xce63f8; 0x1ce7318; 0x18e3318; 0x38e331c; 0x30e3b18; 0x30e1f1c;
   0x30e0b0c; 0xfc34c; 0xfc3ee; 0x141e4; 0x0; 0x0; 0x0; 0x0;
   0x202000; 0x0; 0x0; 0x0; 0x404000; 0xe0e3f8; 0x60c3f8; 0x70c318;
   0x1fffb18; 0x1fffb18; 0x1fffb18; 0x18603f8; 0x18603f8; 0x1aea3b8; 0x1fff318; 0xaeb318;
   0x63318; 0x63b18; 0x3fffbf8; 0x3fffbf8; 0x3070318; 0x3078318; 0x307c31c; 0x386c318;
   0x3f6f31c; 0x1e67b0c; 0x1e63f4c; 0x60bee; 0x601c4; 0x0; 0x0; 0x0;
   0x0; 0x202000; 0x0; 0x0; 0x0; 0x0; 0x2aaabf8; 0x3fffff8;
   0x3aabb18; 0x3b01f18; 0x3fe1b18; 0x39fdf18; 0x38c9bf8; 0x38c1ff8; 0x38c1bb8; 0x3ffff18;
   0x3ae9b18; 0x38f1f18; 0x39f1b18; 0x3bf1ff8; 0x3bd9bf8; 0x3fddf18; 0x3ecfb18; 0x38c5f1c;
   0x38c1b18; 0x38c1f1c; 0x3801b0c; 0x3ffff4c; 0x3fffbee; 0x38019c4; 0x0; 0x0;
   0x0; 0x0; 0x202000; 0x0; 0x0; 0x0; 0x60700; 0x60600;
   0x3fffffc; 0x3fffffc; 0x60700; 0x63600; 0x7000; 0x1fffff8; 0x1fffffc; 0x1800018;
   0x1871c1c; 0x19f0f18; 0x7c07fc; 0xf070f0; 0x407030; 0xfffff0; 0x7ffff0; 0x603800;
   0x601c00; 0x601c00; 0x700e00; 0x600780; 0x7503f0; 0x3f00f8; 0x1f0038; 0x0;
   0x0; 0x0; 0x0; 0x202000; 0x0; 0x0; 0x0; 0xe0700;
   0xe0300; 0x3fffffc; 0x3fffffc; 0xe0700; 0xe0300; 0x555550; 0xfffff0; 0xfffff0;
   0xc00030; 0xc00070; 0xfffff0; 0xfffff0; 0xe18330; 0xe1c370; 0xe18330; 0xffff70;
   0xffff30; 0x1c030; 0xc181b8; 0x1c1c198; 0xc18198; 0x1ffff9c; 0xffff8e; 0x1c00004;
   0x0; 0x0; 0x0; 0x0; 0x202000; 0x0; 0x0; 0x0;
   0xe0700; 0xe0300; 0x3fffffc; 0x3fffffc; 0x15f5754; 0xe0300; 0x1fffffc; 0x1fffff8;
   0x1fffffc; 0x1800398; 0x180019c; 0x7fffc0; 0x7fffc0; 0x60e0; 0x6070; 0x2aaeaa8;
   0x3fffffc; 0x6000; 0x606060; 0x606060; 0x606060; 0x606060; 0x7fffe0; 0x7fffe0;
   0x600000; 0x0; 0x0; 0x0; 0x0; 0x202000; 0x0; 0x0;
   0x0; 0xe0700; 0xe0300; 0x3fffffc; 0x3fffffc; 0xe0700; 0xe6300; 0x6000;
   0x1fffff8; 0x1fffff8; 0x3f800; 0x1fdf00; 0xfe07f8; 0xf001f8; 0x3fffffc; 0x3fffffc;
   0x300000; 0x70ffe0; 0x30ffe0; 0x70c0e0; 0x30c0e0; 0x70ffe0; 0x30ffe0; 0x7055e0;
   0x3f00e0; 0x1f0000; 0x0; 0x0; 0x0; 0x0; 0x202000; 0x0;
   0x0; 0x0; 0xe0700; 0xe0300; 0x3fffffc; 0x3fffffc; 0xe0700; 0xe6300;
   0x7000; 0xffe000; 0x1fff000; 0x6000; 0xfffff0; 0xffffe0; 0xe00070; 0xffffe0;
   0xfffff0; 0xe00060; 0xfffff0; 0xffffe0; 0x6000; 0x6000; 0x3fffffc; 0x3fffffc;
   0x6000; 0x6000; 0x6000; 0x0; 0x0; 0x0; 0x0; 0x202000;
   0x0; 0x0; 0x0; 0x466060; 0xe66060; 0xe66060; 0xe66060; 0x3fff860;
   0x3fffbfc; 0xe663fc; 0xe6626c; 0xe6636c; 0x26c; 0x3fffb6c; 0x3fffa6c; 0x3061b6c;
   0x3061bfc; 0x3061bfc; 0xffe06c; 0xfff16c; 0xc62360; 0xc67360; 0xc62260; 0xc677f0;
   0xee27fe; 0xf6761c; 0x262200; 0x60000; 0x0; 0x0; 0x0; 0x0;
   0x202000; 0x0; 0x0; 0x0; 0x186060; 0x86060; 0xc7060; 0x3fc3060;
   0x1fef060; 0x18efbfc; 0xdfdbfc; 0xfadb6c; 0x70df6c; 0xf8df6c; 0x7dfdf6c; 0x303df6c;
   0x1ffdb6c; 0x1aedbfc; 0x186dbfc; 0x1fed86c; 0x1fed96c; 0x186db60; 0x1fedb60; 0x1fedb60;
   0x186dff0; 0x1861bfe; 0x1861e1c; 0x1e61a00; 0x461800; 0x0; 0x0; 0x0;
   0x0; 0x202000; 0x0; 0x0; 0x0; 0xc000; 0x1c000; 0x3fffff0;
   0x3fffff0; 0x1c1c30; 0x2baaab0; 0x3fffff0; 0x180830; 0x1d5c30; 0x1ff830; 0x555730;
   0xe63330; 0x1c67330; 0x18c21b0; 0x8591b0; 0xabaab0; 0x1ffffb0; 0xc183b8; 0x1c18398;
   0xffff98; 0x1ffff1c; 0xe1801c; 0x1ffffdc; 0x3ffffee; 0x3000144; 0x0; 0x0;
   0x0; 0x0; 0x202000; 0x0; 0x0; 0x0; 0x706060; 0x306060;
   0x1707060; 0x3fff060; 0x7fff860; 0xccdbfc; 0x1cfdffc; 0x40a6c; 0x3f1fb6c; 0x1fefa6c;
   0x7ec36c; 0x20626c; 0x70736c; 0x3fef3fc; 0x3fffbfc; 0x20886c; 0x71db60; 0x20db60;
   0x3fef760; 0x3fef260; 0x15477f0; 0xf7fe; 0x7fffe3c; 0x3ff1c00; 0x3f00c00; 0x0;
   0x0; 0x0; 0x0; 0x202000; 0x0; 0x0; 0x0; 0xc00000;
   0x1f80030; 0x1ffc070; 0xfe0e0; 0x171c0; 0x6080; 0x7000; 0x6000; 0x70fc;
   0x3ffe0fc; 0x7fff0fc; 0x2bae0c0; 0x3070c0; 0x3060c0; 0x3070c0; 0x3060c0; 0x3070c0;
   0x3030c0; 0x3036c0; 0x303fc0; 0x303be0; 0x3018e0; 0x301c70; 0x300e20; 0x300400;
   0x0; 0x0; 0x0; 0x0; 0x202000; 0x0; 0x0; 0x0;
   0x200; 0x3ffe780; 0x3ffe3f0; 0x60fe; 0x61dc; 0x1806988; 0x1837f98; 0x1876738;
   0x1ce63f0; 0xce63f0; 0xfc637c; 0x78670c; 0x706780; 0x7867e0; 0xf866f0; 0xfc6e3c;
   0x1cc6f1c; 0x18e6f80; 0x3876de0; 0x183ecf0; 0x6c3c; 0x2aaee0c; 0x7ffe744; 0x3ffe7c0;
   0x1c0; 0x0; 0x0; 0x0; 0x0; 0x202000; 0x0; 0x0;
   0x0; 0x0; 0xaa0000; 0x7ff7ff8; 0x3fe3ff8; 0x1870000; 0x1860000; 0x1c70000;
   0xc60000; 0xe70000; 0x66fffc; 0x77fffc; 0xe6abe8; 0x1c701c0; 0x18600c0; 0x38700c0;
   0x3861ce0; 0x3071c60; 0x3063860; 0x3873070; 0x3f63038; 0x1f77ff8; 0x267ffc; 0x7e1f8;
   0x66000; 0x70000; 0x0; 0x0; 0x0; 0x0; 0x202000; 0x0].
Definition hanzi_data_4 : list N :=
  [0x0; 0x0; 0x300; 0x300; 0x3fe4310; 0x3fe6318; 0x3866318; 0x1866318;
   0x1c66318; 0xc66318; 0xc66318; 0xe66bb8; 0x767ff8; 0xe62ba8; 0x1c60300; 0x1862308;
   0x1866318; 0x3866318; 0x3066318; 0x3066318; 0x3066318; 0x3f66318; 0x1f67f58; 0xe67ff8;
   0x677f8; 0x66000; 0x60000; 0x0; 0x0; 0x0; 0x0; 0x202000;
   0x0; 0x0; 0x0; 0x1040; 0xaa1860; 0x3fe1860; 0x3fe1860; 0x1861860;
   0x1861860; 0x1c6fffc; 0xc6fffc; 0xe61860; 0x661860; 0x661860; 0xc61860; 0x1c61860;
   0x186bae8; 0x387fffc; 0x386fffc; 0x3060000; 0x38618e0; 0x3861c60; 0x3f63870; 0x1f67070;
   0x26e038; 0x6e01c; 0x6c00c; 0x60008; 0x0; 0x0; 0x0; 0x0;
   0x202000; 0x0; 0x0; 0x0; 0x0; 0x3fcaaa8; 0x7fcfff8; 0x3acaab8;
   0x38c0018; 0x18c0018; 0x1ccffd8; 0xccffd8; 0xcc0018; 0xec0018; 0x6cfff8; 0xccfff8;
   0x1cc55d8; 0x18c0f98; 0x30dddd8; 0x30cf998; 0x30c79d8; 0x30c3198; 0x30c71dc; 0x3fc6198;
   0x1fceddc; 0xccf8c; 0xcc7cc; 0xc01ce; 0xc0044; 0x0; 0x0; 0x0;
   0x0; 0x202000; 0x0; 0x0; 0x0; 0x0; 0x3fefffc; 0x3fefffc;
   0x3860000; 0x1867ff8; 0x1863ff8; 0x1c67018; 0xc62018; 0x667ff8; 0x663ff8; 0x760000;
   0xe6aaa8; 0x1c6fffc; 0x186e00c; 0x386eccc; 0x306eccc; 0x306e7cc; 0x306ffec; 0x386fffc;
   0x3f6e30c; 0x1f6e30c; 0x6e30c; 0x6e30c; 0x6fb0c; 0x6790c; 0x0; 0x0;
   0x0; 0x0; 0x202000; 0x0; 0x0; 0x0; 0x310; 0x3fee318;
   0x7fe7330; 0x3ae3330; 0x38e3330; 0x18efffc; 0x1cffffc; 0xcec00c; 0xcffffc; 0xeebff8;
   0x6e7570; 0xce3030; 0x1ce7030; 0x18e3ff0; 0x30e7ff0; 0x30e0300; 0x30e0300; 0x30e7ff8;
   0x38e7ff8; 0x3fe0300; 0x1fe0300; 0xeff00; 0xefffc; 0xe0bfc; 0xe0004; 0x0;
   0x0; 0x0; 0x0; 0x202000; 0x0; 0x0; 0x0; 0xe0060;
   0x2e0060; 0xf6e070; 0x1c66ff0; 0x1c66ff8; 0x866ab8; 0x3fff01c; 0x3fff00c; 0x15757fc;
   0x307f8; 0x300c0; 0x1ff80c0; 0x1ff80c0; 0x1c38ffc; 0x1c3cffc; 0xe7cae8; 0x77e0c0;
   0x7e60c0; 0x3c70c0; 0x3c38c0; 0x7e17c0; 0xf787c0; 0x3e3c1f0; 0x381e0e0; 0x1006020;
   0x0; 0x0; 0x0; 0x0; 0x202000; 0x0; 0x0; 0x0;
   0x718060; 0x618060; 0x7fff870; 0x3fffff0; 0x7187f8; 0x6782b8; 0x387001c; 0x1bfe00c;
   0x1fff7fc; 0xe603f8; 0x7700c0; 0x3fff0c0; 0x7fff0c0; 0xe07fc; 0x707fc; 0xab82e8;
   0x1fff0c0; 0x180f8c0; 0x1c1f0c0; 0x1ffc0c0; 0x1ffc7c0; 0x180c7e0; 0x1ffc1f0; 0x1ffc060;
   0x1c1c020; 0x0; 0x0; 0x0; 0x0; 0x202000; 0x0; 0x0;
   0x0; 0x30000; 0x703f8; 0x607f8; 0x2aeab18; 0x3fffb18; 0x3aabb98; 0x3801998;
   0x3801998; 0x1d8; 0x1fff1d8; 0x1fff198; 0xe0318; 0xe0718; 0xe6218; 0xe7718;
   0x1fe6618; 0x1fe7758; 0xe73d8; 0xe71d8; 0xef018; 0xef818; 0xf9818; 0x7ff9c18;
   0x3fe0e18; 0x3f40418; 0x0; 0x0; 0x0; 0x0; 0x202000; 0x0;
   0x0; 0x0; 0xe0; 0x38060; 0x1fff3f0; 0x1fcf7f0; 0x19c3730; 0x18c3338;
   0x19c319c; 0x18c37fc; 0x19c37fc; 0x18ff6d8; 0x19ff6d8; 0x18c36d8; 0x19c37f8; 0x18c37f8;
   0x19c36d8; 0x18c36d8; 0x19c36d8; 0x18e37f8; 0x1fff7f8; 0x1edf800; 0x1c77c0; 0xc07fc;
   0x1c007c; 0xc0000; 0x1c0000; 0x0; 0x0; 0x0; 0x0; 0x202000;
   0x0; 0x0; 0x0; 0xc0060; 0xc0060; 0x15d53e0; 0x3ffe7f0; 0x3fff730;
   0x60338; 0x1ffe19c; 0x1ffe7fc; 0x707fc; 0x306c8; 0x7fff6d8; 0x3fff6c8; 0x61c7f8;
   0xe0c7f8; 0x1ffe6d8; 0x3fff6c8; 0x7c0fed8; 0x2c0d7f8; 0xffc7f8; 0xeac000; 0xc0c400;
   0xc0cff8; 0xffcffc; 0xffc00c; 0xc0c000; 0x0; 0x0; 0x0; 0x0;
   0x202000; 0x0; 0x0; 0x0; 0x60000; 0xe633f8; 0x7773f8; 0x336398;
   0x1fffb98; 0x1fffb98; 0x1c398; 0x3fffff8; 0x7fffff8; 0x6363b8; 0xf5fb98; 0x3dfdf98;
   0x79cff98; 0x2aee398; 0xfffbf8; 0xc63ff8; 0xfff398; 0xfff398; 0xc6339c; 0xfff388;
   0xfff39c; 0x2aaab8c; 0x3ffffcc; 0x2aaabee; 0x1e4; 0x0; 0x0; 0x0;
   0x0; 0x202000; 0x0; 0x0; 0x0; 0x1c0000; 0xc0000; 0x15f7ffc;
   0xfffffc; 0x1d5c180; 0xc4c180; 0x1cfc180; 0xd8dff8; 0x1d9dffc; 0xc0d998; 0xf9d998;
   0xf8d998; 0x1d99c; 0x2aad998; 0x3ffd99c; 0x3001998; 0x300199c; 0x3001998; 0x37ff99c;
   0x3bfff98; 0x3801f9c; 0x3800198; 0x1f80180; 0x1f00180; 0x500180; 0x0; 0x0;
   0x0; 0x0; 0x202000; 0x0; 0x0; 0x0; 0xc00c0; 0xe00c0;
   0x5741c0; 0xffc180; 0xd5fffc; 0xc0fffc; 0xcec410; 0xdcc630; 0xd8cc30; 0xc0dc38;
   0xfcd81c; 0x78d80e; 0xc60c; 0x2aac610; 0x3ffc778; 0x38003e0; 0x38003c0; 0x3800380;
   0x1bfe7c0; 0x1bfeee0; 0x1801c70; 0x1800c70; 0x1f8003c; 0xf8001c; 0x50000c; 0x0;
   0x0; 0x0; 0x0; 0x202000; 0x0; 0x0; 0x0; 0x1800000;
   0x18efff8; 0x18efffc; 0x18e01c0; 0x18e7ff0; 0x18e3038; 0x18e39fc; 0x18e0f80; 0x1d00700;
   0x1f863e0; 0x50307c; 0x3fffc8; 0x3fffc0; 0x300cc0; 0x1d78c0; 0x1ee0c0; 0x40c0;
   0x1ffffc0; 0x1ffffc0; 0x1800000; 0x18ffffc; 0x18ffffc; 0x1c55554; 0xfc0000; 0xfc0000;
   0x0; 0x0; 0x0; 0x0; 0x202000; 0x0; 0x0; 0x0;
   0x1c0180; 0xc0180; 0x15d3ffc; 0xffbff8; 0x1d58180; 0xc9aba8; 0x1ddbff8; 0xf98180;
   0xf18180; 0xc1fffc; 0xf9fffc; 0x798000; 0x1bff8; 0x2abbab8; 0x3ffb018; 0x3803ff8;
   0x3803ff8; 0x3aab018; 0x3fff018; 0x3fffff8; 0x1803ff8; 0x1803018; 0x1f83018; 0xf83f18;
   0x501e18; 0x0; 0x0; 0x0; 0x0; 0x202000; 0x0; 0x0;
   0x0; 0x1c0000; 0xc0aa8; 0x15d1ff8; 0xff9818; 0x1d59818; 0xc99ff8; 0x1dd9ff8;
   0xf99818; 0xf19ff8; 0xc19ff8; 0xf99818; 0x799ff8; 0x19ff8; 0x2ab8780; 0x3ff8dc0].
Definition hanzi_data_5 : list N :=
  [0x3800d80; 0x3803ffc; 0x3aabffc; 0x1ffc3c0; 0x1ffc6e0; 0x1800e70; 0x1800c70; 0x1c01c3c;
   0x1f8181e; 0x700004; 0x0; 0x0; 0x0; 0x0; 0x202000; 0x0;
   0x0; 0x0; 0x387000; 0x187f80; 0x15d1ffc; 0x1ff0628; 0x1d77e1c; 0x18b7e08;
   0x19f061c; 0x1bbffe8; 0x1f7fffc; 0x83c668; 0x1ffd67c; 0xf33fe8; 0x747fc; 0x2ab4668;
   0x3ff7e6c; 0x3003c68; 0x3001f6c; 0x32a9f6c; 0x37f936c; 0x32a932c; 0x300533c; 0x380f1b6;
   0x18039f6; 0x1f018d6; 0x1f00050; 0x0; 0x0; 0x0; 0x0; 0x202000;
   0x0; 0x0; 0x0; 0x701000; 0x3038a8; 0x17431f8; 0x3fffdb8; 0x1d7fd98;
   0x38ec998; 0x1becd98; 0x1f6cd98; 0x1e65df8; 0x18669f8; 0x1f67818; 0xe7fe18; 0x7fe18;
   0x2ae31f8; 0x7fe31fc; 0x30031b8; 0x301fdbc; 0x3aafdbc; 0x3ff31bc; 0x3fe31bc; 0x30031bc;
   0x30031f6; 0x30031f4; 0x1f03030; 0x1f03030; 0x0; 0x0; 0x0; 0x0;
   0x202000; 0x0; 0x0; 0x0; 0x71c00; 0x1f0c00; 0x3c0c00; 0x3fffffc;
   0x3fffffc; 0x60c600; 0x7dc700; 0x3fc380; 0x107f1c0; 0x300fef0; 0x3ffc47c; 0xff8008;
   0x0; 0xfffff0; 0x1fffff0; 0x6000; 0x7000; 0x3fffffc; 0x3fffffc; 0x1f800;
   0x79e00; 0x1e0f80; 0x1fc07f0; 0x3e000fc; 0x180001c; 0x0; 0x0; 0x0;
   0x0; 0x202000; 0x0; 0x0; 0x0; 0x0; 0x0; 0x0;
   0x0; 0x0; 0x0; 0x0; 0x0; 0x0; 0x0; 0x0;
   0x3fffffc; 0x7fffffc; 0x2aaaaa8; 0x0; 0x0; 0x0; 0x0; 0x0;
   0x0; 0x0; 0x0; 0x0; 0x0; 0x0; 0x0; 0x0;
   0x0; 0x0; 0x202000; 0x0; 0x0; 0x0; 0x0; 0x0;
   0x3fffffc; 0x3fffffc; 0x3fffffc; 0xe000; 0xe000; 0xe000; 0xe000; 0xe000;
   0xe000; 0xe000; 0xe000; 0xe000; 0xe000; 0xe000; 0xe000; 0xe000;
   0xe000; 0xe000; 0xe000; 0xe000; 0xff80; 0xff80; 0x7f00; 0x0;
   0x0; 0x0; 0x0; 0x202000; 0x0; 0x0; 0x0; 0xc00;
   0xe00; 0xe00; 0xe00; 0xe00; 0xe00; 0xe00; 0x3a00e00; 0x3ff4e00;
   0xfffe00; 0x7fffc; 0xffc; 0xe7c; 0xe00; 0xe00; 0xe00; 0xe00;
   0x800e00; 0x1800e00; 0x1800e00; 0x1c00c00; 0x1c00c00; 0x1fffc00; 0xfff800; 0x0;
   0x0; 0x0; 0x0; 0x0; 0x202000; 0x0; 0x0; 0x0;
   0x0; 0x0; 0x3fffffc; 0x3fffffc; 0x1555f54; 0xe00; 0xe00; 0xe00;
   0xe00; 0x2aae00; 0x7ffe00; 0x7ffe00; 0x600700; 0x600600; 0x600700; 0x600300;
   0x700380; 0x600380; 0x7001c0; 0x7001c0; 0x7000e0; 0x300070; 0x3d607c; 0x3fc01e;
   0x1fc00c; 0x0; 0x0; 0x0; 0x0; 0x202000; 0x0; 0x0;
   0x0; 0x30000; 0x30000; 0x30000; 0x30000; 0x30000; 0x3fffffc; 0x3fffffc;
   0x2abaaa8; 0x30000; 0x380c0; 0x381c0; 0x38180; 0x18180; 0x18380; 0x1c700;
   0x1c600; 0x1ee00; 0xfc00; 0x7c00; 0xf800; 0x1fe00; 0xfcf80; 0x1ff07fc;
   0x3f800f8; 0x1c00018; 0x0; 0x0; 0x0; 0x0; 0x202000; 0x0;
   0x0; 0x0; 0x0; 0x0; 0x0; 0xfffff0; 0xfffff0; 0x0;
   0x0; 0x0; 0x0; 0x0; 0x0; 0x2aaaa0; 0x3fffe0; 0x3fffe0;
   0x0; 0x0; 0x0; 0x0; 0x0; 0x0; 0x0; 0x3fffffc;
   0x3fffffc; 0x0; 0x0; 0x0; 0x0; 0x0; 0x0; 0x202000;
   0x0; 0x0; 0x0; 0x7000; 0x3000; 0x7000; 0x3000; 0x7000;
   0x3000; 0x7000; 0x3000; 0x7000; 0xfff000; 0x1fff000; 0x3000; 0x7000;
   0x3000; 0x7000; 0x3000; 0x7000; 0x3000; 0x7000; 0x3000; 0x7000;
   0x3fffffc; 0x3fffffc; 0x3fffffc; 0x0; 0x0; 0x0; 0x0; 0x0;
   0x202000; 0x0; 0x0; 0x0; 0x0; 0x0; 0x3fffffc; 0x3fffffc;
   0x1557554; 0x7000; 0x7000; 0x7000; 0x7000; 0x1f000; 0x7f000; 0xf7000;
   0x7c7000; 0xf87000; 0x1f07000; 0xc07000; 0x7000; 0x7000; 0x7000; 0x7000;
   0x7000; 0x7000; 0x7000; 0x7000; 0x7000; 0x0; 0x0; 0x0;
   0x0; 0x202000; 0x0; 0x0; 0x0; 0x0; 0x0; 0x1555554;
   0x3fffff8; 0x3fffffc; 0xc0300; 0x1c0300; 0xc0300; 0x1c0300; 0xc0300; 0x1c0300;
   0xc0380; 0x1c0300; 0xc0380; 0x1c0380; 0xc0380; 0x1c0180; 0xc0180; 0x1c01c0;
   0xc00e0; 0x1c00f0; 0xc0070; 0x1c007c; 0xc003e; 0x1c001c; 0x0; 0x0;
   0x0; 0x0; 0x202000; 0x0; 0x0; 0x0; 0x0; 0x0;
   0x3fffffc; 0x3fffffc; 0x1c000; 0xe000; 0xf000; 0x7000; 0x7800; 0x37c00;
   0xf7e00; 0x3e6f00; 0x7867c0; 0xf063e0; 0x1e061f0; 0x380607c; 0x300601c; 0x6008;
   0x6000; 0x6000; 0x6000; 0x6000; 0x6000; 0x6000; 0x6000; 0x0;
   0x0; 0x0; 0x0; 0x202000; 0x0; 0x0; 0x0; 0x100;
   0x380; 0x180; 0x180; 0xffffc0; 0xffff80; 0x1c0; 0xc0; 0xc0;
   0xc0; 0x1ffffe0; 0xffffe0; 0x1ffffe0; 0xc00000; 0xc00000; 0xc00000; 0xc7fffc;
   0xe7fffc; 0xe55554; 0x600000; 0x600000; 0x700000; 0x7fe000; 0x3fc000; 0x1fc000;
   0x0; 0x0; 0x0; 0x0; 0x202000; 0x0; 0x0; 0x0;
   0x0; 0x0; 0x3fffffc; 0x3fffff8; 0x7000; 0x6000; 0x7000; 0x6060;
   0x1fff060; 0x1ffe060; 0x1c07070; 0x1c06070; 0x1c07070; 0xc06030; 0x1d57570; 0xfffff0;
   0xfffff8; 0xc00000; 0xc00000; 0xc00000; 0xc00000; 0xe00000; 0x710000; 0x7f8000;
   0x3f0000; 0x0; 0x0; 0x0; 0x0; 0x202000; 0x0; 0x0].
Definition hanzi_data_6 : list N :=
  [0x0; 0x0; 0x0; 0x3fffffc; 0x3fffffc; 0x7000; 0x6000; 0x7000;
   0x60e0; 0xfff060; 0xffe060; 0x7060; 0x6060; 0x7070; 0x6060; 0x1fffff0;
   0x1fffff0; 0x1800000; 0x1800000; 0x1c00000; 0x1c00000; 0x1c00000; 0xc00000; 0xe04000;
   0xff8000; 0x7f8000; 0x0; 0x0; 0x0; 0x0; 0x202000; 0x0;
   0x0; 0x0; 0x0; 0x0; 0x7ffff8; 0x3ffff8; 0x701c00; 0x300c00;
   0x700c00; 0x300c00; 0x700c00; 0x300e00; 0x300e00; 0x3ffff0; 0x3ffff0; 0x3ffff0;
   0x300e00; 0x380e00; 0x380600; 0x380600; 0x380600; 0x380600; 0x380700; 0x380700;
   0x3fffffc; 0x3fffffc; 0x0; 0x0; 0x0; 0x0; 0x0; 0x202000;
   0x0; 0x0; 0x0; 0x3000; 0x3800; 0x3800; 0xfffff0; 0xfffff0;
   0x1c00; 0x1c00; 0xc00; 0x3fffffc; 0x3fffffc; 0x1555754; 0x700; 0x700;
   0x7fff00; 0x7fff80; 0x380000; 0x1c0000; 0xe0000; 0x70100; 0x38f80; 0x1ff00;
   0x3f000; 0xfc000; 0x1e0000; 0xc0000; 0x0; 0x0; 0x0; 0x0;
   0x202000; 0x0; 0x0; 0x0; 0x0; 0x0; 0x3fffc0; 0x3fffc0;
   0x3001c0; 0x3000c0; 0x3001c0; 0x3000c0; 0x3fffc0; 0x3fffc0; 0x3555c0; 0x3000c0;
   0x3001c0; 0x3000c0; 0x3001c0; 0x3fffc0; 0x3fffc0; 0x3000c0; 0x3001c0; 0x3000c0;
   0x3001c0; 0x2baaae8; 0x3fffffc; 0x3fffffc; 0x0; 0x0; 0x0; 0x0;
   0x0; 0x202000; 0x0; 0x0; 0x0; 0x0; 0x0; 0x1fffffc;
   0x1fffff8; 0x1c000; 0xe000; 0x7000; 0x7000; 0x37c00; 0x77c00; 0x1e6f00;
   0x3c6780; 0x7063c0; 0xe060f0; 0x1c0607c; 0x380603c; 0x1006008; 0x6000; 0x6000;
   0x6000; 0x6000; 0x0; 0x3fffffc; 0x3fffffc; 0x0; 0x0; 0x0;
   0x0; 0x0; 0x202000; 0x0; 0x0; 0x0; 0x307000; 0x3060c0;
   0x3070c0; 0x3060c0; 0x3070c0; 0x3060c0; 0x3070c0; 0x3fffffc; 0x3fffffc; 0x3060c0;
   0x3070c0; 0x3060c0; 0x3070c0; 0x3060c0; 0x3070c0; 0x3fe0c0; 0x3ff0c0; 0x2aa0c0;
   0xc0; 0xc0; 0xc0; 0x1ffffc0; 0x1ffffc0; 0x0; 0x0; 0x0;
   0x0; 0x0; 0x0; 0x202000; 0x0; 0x0; 0x0; 0x0;
   0x380000; 0x7ff000; 0xfffc0; 0x17fc0; 0xc0; 0x1c0; 0xc0; 0x1c0;
   0xc0; 0x1ffffc0; 0x1ffffc0; 0x1c01c0; 0xc00c0; 0x1c01c0; 0xc00c0; 0x1c01c0;
   0xc00c0; 0x1c01c0; 0xc00c0; 0x1c01c0; 0x3fffffc; 0x3fffffc; 0x2aaaaa8; 0x0;
   0x0; 0x0; 0x0; 0x0; 0x202000; 0x0; 0x0; 0x0;
   0x0; 0x0; 0x3fffffc; 0x3fffffc; 0x7000; 0x6000; 0x7000; 0x6000;
   0x1fffff8; 0x1fffff8; 0x1c07038; 0x1807038; 0x1c07038; 0x180f838; 0x1c3f838; 0x1879c38;
   0x1cf1e38; 0x19c0f38; 0x1f807f8; 0x19001b8; 0x1c00038; 0x1800038; 0x1d40038; 0xfc0038;
   0x7c0038; 0x0; 0x0; 0x0; 0x0; 0x202000; 0x0; 0x0;
   0x0; 0x70c00; 0x30c00; 0x70c00; 0x30c00; 0x70c00; 0x30c00; 0x870c18;
   0x1830c18; 0x1c70c38; 0xc30c30; 0xc70c70; 0xe30c60; 0x770ce0; 0x330ce0; 0x3f0dc0;
   0x3b0dc0; 0x170c40; 0x30c00; 0x70c00; 0x30c00; 0x70c00; 0x3fffffc; 0x3fffffc;
   0x2aaaaa8; 0x0; 0x0; 0x0; 0x0; 0x0; 0x202000; 0x0;
   0x0; 0x0; 0xc0300; 0xc0300; 0xc0300; 0xe0300; 0xe0300; 0xe0380;
   0xe0380; 0xe0380; 0xe0780; 0xe0780; 0x1f0fc0; 0x1f0dc0; 0x3f1dc0; 0x3bb8c0;
   0x73f0e0; 0x61b0e0; 0xe1c070; 0x1c0e078; 0x3c0703c; 0x3807818; 0x1003010; 0x0;
   0x3fffffc; 0x3fffffc; 0x0; 0x0; 0x0; 0x0; 0x0; 0x202000;
   0x0; 0x0; 0x0; 0x1800; 0x3800; 0x1c00; 0x1c00; 0x1fffffc;
   0x1fffff8; 0x700; 0x8700; 0x1c380; 0xc380; 0x1c1c0; 0xaaeae0; 0xfffff0;
   0xffffe0; 0x1c000; 0xc080; 0x1dc380; 0x38c180; 0x71c1c0; 0xe0c0e0; 0x1c1c070;
   0x180c038; 0x381fc3c; 0xf810; 0x7800; 0x0; 0x0; 0x0; 0x0;
   0x202000; 0x0; 0x0; 0x0; 0x180100; 0x380300; 0x1c0380; 0xc0380;
   0xc01c0; 0x8e10c0; 0x1c738e0; 0x1c33860; 0xe39c70; 0xffceb8; 0x7fc7f8; 0x3ac7f8;
   0x1c0380; 0xe0180; 0x701c0; 0x300e0; 0x1ffdff0; 0x1ffdff8; 0x17c5f8; 0x0;
   0x0; 0x3fffffc; 0x3fffffc; 0x2aaaaa8; 0x0; 0x0; 0x0; 0x0;
   0x0; 0x202000; 0x0; 0x0; 0x0; 0x0; 0x3fffe0; 0x3fffe0;
   0x1e0000; 0xf0000; 0x38000; 0x81e000; 0x183eff8; 0x1c367fc; 0xe36600; 0x776700;
   0x3e6300; 0x1c6380; 0x1c6180; 0x3861c0; 0x3860e0; 0xf06070; 0x1e06038; 0x3c0751c;
   0x1007e08; 0x3e00; 0x0; 0x3fffffc; 0x3fffffc; 0x0; 0x0; 0x0;
   0x0; 0x0; 0x202000; 0x0; 0x0; 0x0; 0x700000; 0xffa000;
   0x7ffff0; 0xfff0; 0x6000; 0x6000; 0x6000; 0xfffff0; 0xfffff0; 0x6000;
   0x6000; 0x6000; 0x3fffffc; 0x3fffffc; 0x3fffffc; 0x1c00; 0x1c0e00; 0x1c0700;
   0x380780; 0x700380; 0x7f41e0; 0xfffff0; 0x1c7fff0; 0x1800030; 0x1800000; 0x0;
   0x0; 0x0; 0x0; 0x202000; 0x0; 0x0; 0x0; 0x0;
   0x0; 0x3fffffc; 0x3fffffc; 0x70e00; 0x30e00; 0x70e00; 0xabaea8; 0x1fffff8;
   0x1fffff8; 0x1c70e38; 0x1830e38; 0x1c70638; 0x1870e38; 0x1cf9f38; 0x19fbf38; 0x1f9f338;
   0x1b0d3b8; 0x1f0e1f8; 0x1a070f8; 0x1c060f8; 0x1800038; 0x1c00038; 0x1fc0038; 0xfc0038;
   0x0; 0x0; 0x0; 0x0; 0x202000; 0x0; 0x0; 0x0;
   0x0; 0xaaaaa8; 0x1fffff8; 0x1fffff8; 0x630c60; 0xe30c60; 0x730ce0; 0x330cc0;
   0x3b0dc0; 0x1b0c80; 0x3fffff0; 0x3fffff8; 0x1555578; 0x38; 0x38; 0x38].
Definition hanzi_data_7 : list N :=
  [0x38; 0x38; 0x18; 0x18; 0x18; 0x1c; 0x1c; 0xe;
   0x4; 0x0; 0x0; 0x0; 0x0; 0x202000; 0x0; 0x0;
   0x0; 0x6000; 0x6000; 0x6000; 0x1fffff8; 0x1fffff8; 0x6000; 0x7060e0;
   0x3860c0; 0x1c61c0; 0xc6380; 0xe6300; 0x6000; 0x3fffffc; 0x3fffffc; 0x4071c0;
   0xe0e1c0; 0x70c1c0; 0x3dc1c0; 0x1f81c0; 0x701c0; 0x1f41c0; 0x3c79c0; 0x1f87fc0;
   0x3e00fe0; 0x1000040; 0x0; 0x0; 0x0; 0x0; 0x202000; 0x0;
   0x0; 0x0; 0x6000; 0x6000; 0x6000; 0x6000; 0x6000; 0x6000;
   0x6000; 0x6000; 0x6000; 0x6000; 0x6000; 0x6000; 0x6000; 0x6000;
   0x6000; 0x6000; 0x6000; 0x6000; 0x6000; 0x6000; 0x6000; 0x6000;
   0x6000; 0x6000; 0x6000; 0x0; 0x0; 0x0; 0x0; 0x202000;
   0x0; 0x0; 0x0; 0x4000; 0xe000; 0xf000; 0xf800; 0x1fc00;
   0x39e00; 0xf0f00; 0x1e0780; 0x7c63c0; 0xf060f0; 0x7e0607c; 0x380603c; 0x1006008;
   0x6000; 0x6000; 0x6000; 0x6000; 0x6000; 0x6000; 0x6000; 0x6000;
   0x6000; 0x6000; 0x6000; 0x6000; 0x0; 0x0; 0x0; 0x0;
   0x202000; 0x0; 0x0; 0x0; 0x0; 0xe000e0; 0x7001e0; 0x3803c0;
   0x1c0780; 0xe0e00; 0x71c00; 0x38800; 0x1e000; 0xe000; 0x6000; 0x6000;
   0x6000; 0x6000; 0x6000; 0x6000; 0x6000; 0x6000; 0x6000; 0x6000;
   0x6000; 0x6000; 0x6000; 0x6000; 0x6000; 0x0; 0x0; 0x0;
   0x0; 0x202000; 0x0; 0x0; 0x0; 0xc000; 0xc000; 0xc000;
   0xc200; 0xc700; 0xc600; 0xce00; 0xcc00; 0xdc00; 0xc800; 0xc000;
   0xc000; 0xc000; 0xc000; 0xf000; 0xf800; 0xff00; 0xcf80; 0xc780;
   0xc000; 0xc000; 0xc000; 0xc000; 0xc000; 0xc000; 0x0; 0x0;
   0x0; 0x0; 0x202000; 0x0; 0x0; 0x0; 0x6000; 0x6000;
   0x6000; 0x6000; 0x6000; 0x1fffff8; 0x1fffff8; 0x1806018; 0x1c06018; 0x1806018;
   0x1c06018; 0x1806018; 0x1c06018; 0x1806018; 0x1fffff8; 0x1fffff8; 0x1c06018; 0x1806018;
   0x6000; 0x6000; 0x6000; 0x6000; 0x6000; 0x6000; 0x6000; 0x0;
   0x0; 0x0; 0x0; 0x202000; 0x0; 0x0; 0x0; 0x6000;
   0x6000; 0x6000; 0x6000; 0x1fffff8; 0x1fffff8; 0x6000; 0x6000; 0x6000;
   0x6000; 0xfffff0; 0xfffff0; 0x6000; 0x6000; 0x6000; 0x6000; 0x3fffffc;
   0x3fffffc; 0x3fffffc; 0x6000; 0x6000; 0x6000; 0x6000; 0x6000; 0x6000;
   0x0; 0x0; 0x0; 0x0; 0x202000; 0x0; 0x0; 0x0;
   0x7000; 0x6000; 0x7000; 0xfffff0; 0xfffff0; 0xe06070; 0xe07070; 0xe06070;
   0xe07070; 0xfffff0; 0xfffff0; 0x6000; 0x7000; 0x1fffff8; 0x1fffff8; 0x1c06038;
   0x1c07038; 0x1c06038; 0x1fffff8; 0x1fffff8; 0x1fffff8; 0x1c06038; 0x7000; 0x6000;
   0x7000; 0x0; 0x0; 0x0; 0x0; 0x202000; 0x0; 0x0;
   0x0; 0x1c180; 0xc180; 0xc180; 0x3ffe198; 0x3ffe198; 0x2aae198; 0x27198;
   0x73998; 0x1e1d98; 0x3c1d98; 0x380998; 0x198; 0x1fff198; 0x3fff198; 0x3fff198;
   0x38c3198; 0x38c3198; 0x38c3198; 0x38c3198; 0x38c3198; 0x38c3198; 0x3fff188; 0x3fff180;
   0x3aab180; 0x3803180; 0x0; 0x0; 0x0; 0x0; 0x202000; 0x0;
   0x0; 0x0; 0x0; 0x0; 0x0; 0x0; 0x0; 0x0;
   0x300; 0xf80; 0x1f00; 0x3c00; 0x7800; 0xf000; 0x1e000; 0x38000;
   0x70000; 0xe0000; 0x60000; 0x0; 0x0; 0x0; 0x0; 0x0;
   0x0; 0x0; 0x0; 0x0; 0x0; 0x0; 0x0; 0x202000;
   0x0; 0x0; 0x0; 0x1c00; 0x1800; 0x1c00; 0x1800; 0x1c00;
   0x1800; 0x1ffff8; 0x1ffff8; 0x1c1c00; 0x180c00; 0x1c1c00; 0x180c70; 0x1c0df0;
   0x180fc0; 0x1c0f80; 0x181e00; 0x1c7f00; 0x18fb00; 0x61ce380; 0x61841c0; 0x61c01e0;
   0x61800f0; 0x7fc007c; 0x3f8003e; 0x1f0000c; 0x0; 0x0; 0x0; 0x0;
   0x202000; 0x0; 0x0; 0x0; 0x0; 0x2aaa80; 0x7fffc0; 0x3fffc0;
   0x7000c0; 0x3018c0; 0x7078c0; 0x30f0c0; 0x71e0c0; 0x31c0c0; 0x7180c0; 0x3000c0;
   0x3fffffc; 0x3fffffc; 0x7000c0; 0x3000e0; 0x7000e0; 0x300060; 0x700070; 0x300070;
   0x700070; 0x300038; 0x70001c; 0x3f800e; 0x3f800c; 0x0; 0x0; 0x0;
   0x0; 0x202000; 0x0; 0x0; 0x0; 0x3800; 0x38e0; 0x38e0;
   0x39c0; 0x3980; 0x3980; 0x1fffffc; 0x1fffff8; 0x1fffffc; 0x1c01800; 0x1c01800;
   0x1c01800; 0x1c1dc00; 0x1c1cc00; 0x1c38e00; 0xc30e00; 0x1c70700; 0xc60700; 0xc00380;
   0xc001c0; 0xe001e0; 0xe000f0; 0xff007c; 0x7f0018; 0x3f0008; 0x0; 0x0;
   0x0; 0x0; 0x202000; 0x0; 0x0; 0x0; 0x1000; 0x3800;
   0x7000; 0xe000; 0x1c000; 0xaaaaa8; 0x1fffff8; 0x1fffff8; 0x6000; 0x6000;
   0x6000; 0x6000; 0x6000; 0xffffe0; 0xfffff0; 0xaaeaa0; 0x6000; 0x6000;
   0x6000; 0x6000; 0x6000; 0x6000; 0x3fffffc; 0x3fffffc; 0x0; 0x0;
   0x0; 0x0; 0x0; 0x202000; 0x0; 0x0; 0x0; 0x0;
   0x0; 0x3fffffc; 0x3fffffc; 0x0; 0x0; 0x1ff9ff8; 0x1ff9ff8; 0x1ff9ff8;
   0x1819838; 0x1c19c38; 0x18198b8; 0x1cd9df8; 0x18d99b8; 0x1dd9db8; 0x1b99bb8; 0x1f19f38;
   0x1919938; 0x1c19c38; 0x1819838; 0x1c19c38; 0x1819838; 0x1c19d38; 0x1f19f38; 0xf18f38;
   0x0; 0x0; 0x0; 0x0; 0x202000; 0x0; 0x0; 0x0].
Definition hanzi_data_8 : list N :=
  [0x1800; 0x703860; 0x7070e0; 0x3861c0; 0x1c6180; 0x3fffffc; 0x3fffffc; 0x2aeafa8;
   0x1c0300; 0x386380; 0x7061c0; 0xe060e0; 0x3fffffc; 0x3bfffbe; 0x31fffcc; 0x6000;
   0x6000; 0xaaeaa8; 0x1fffff8; 0x1fffff8; 0x6000; 0x6000; 0x6000; 0x6000;
   0x6000; 0x0; 0x0; 0x0; 0x0; 0x202000; 0x0; 0x0;
   0x0; 0x0; 0xc000; 0x1c000; 0xc000; 0x1c000; 0xc000; 0x1c000;
   0xc000; 0x1c000; 0xc000; 0x1c000; 0xc000; 0x1c000; 0xc000; 0xc000;
   0xe000; 0xe000; 0x7000; 0x7000; 0x3800; 0x1c00; 0xe00; 0xf80;
   0x380; 0x100; 0x0; 0x0; 0x0; 0x0; 0x202000; 0x0;
   0x0; 0x0; 0x0; 0x0; 0x7000e0; 0x7000e0; 0x7000c0; 0x3800c0;
   0x3801c0; 0x380180; 0x1c0380; 0x1c0380; 0xe0700; 0xe0700; 0x70e00; 0x38e00;
   0x39c00; 0x1f800; 0x1f800; 0xf000; 0x1fc00; 0x7fe00; 0x1f0f80; 0x3e07e0;
   0x1fc01fc; 0x3e0007c; 0x380001c; 0x0; 0x0; 0x0; 0x0; 0x202000;
   0x0; 0x0; 0x0; 0x0; 0x0; 0x1ffff8; 0xffff8; 0xe0380;
   0xe0380; 0x60380; 0x60380; 0x70380; 0x70380; 0x70180; 0x1ff8180; 0x1ff8180;
   0x1ff8180; 0x1c001c0; 0xc000c0; 0x1c000c0; 0xc000e0; 0xc00070; 0xc00070; 0xe00078;
   0xe00038; 0x7f801c; 0x7f800e; 0x50004; 0x0; 0x0; 0x0; 0x0;
   0x202000; 0x0; 0x0; 0x0; 0x600; 0xe00; 0x700; 0x700;
   0x7ff00; 0x7ff80; 0x7ffc0; 0x301c0; 0x381e0; 0x380e0; 0x1c070; 0x1c038;
   0x1c01c; 0x1e00c; 0x3f008; 0x33800; 0x73c00; 0xe1c00; 0x1c0e00; 0x3c0780;
   0x7807c0; 0xf001e0; 0x3e000fc; 0x380003c; 0x1000018; 0x0; 0x0; 0x0;
   0x0; 0x202000; 0x0; 0x0; 0x0; 0x300000; 0x7e0000; 0x7fc000;
   0xffe00; 0x7ffc; 0x1bf8; 0x1818; 0x1800; 0x1800; 0x1800; 0x1800;
   0x3fa1800; 0x7fffff4; 0x3ffffc; 0x1dfc; 0x1800; 0x1800; 0x1800; 0x1001800;
   0x3001800; 0x7001800; 0x3001800; 0x3fff800; 0x1fff800; 0xfff000; 0x0; 0x0;
   0x0; 0x0; 0x202000; 0x0; 0x0; 0x0; 0x1000; 0x3000;
   0x3800; 0x1c00; 0x1e00; 0xe00; 0x1c0700; 0xe0380; 0x701c0; 0x380e0;
   0x3c078; 0x1c03c; 0xe018; 0x7000; 0xc7800; 0x1c3c00; 0x3c1e00; 0x380f00;
   0x700780; 0xe001c0; 0x1fffdf0; 0x1fffff8; 0x3817ff0; 0x3800000; 0x1000000; 0x0;
   0x0; 0x0; 0x0; 0x202000; 0x0; 0x0; 0x0; 0x3000;
   0x3000; 0x407000; 0xe06060; 0x60e070; 0x60e0e0; 0x70c0e0; 0x3800c0; 0x3801c0;
   0x180380; 0x1c0380; 0xe0700; 0x70e00; 0x70e00; 0x39c00; 0x1f800; 0xf000;
   0xf000; 0x3fc00; 0x79e00; 0x1f0f80; 0x7c03e0; 0x1f801fc; 0x3e0003c; 0x100001c;
   0x0; 0x0; 0x0; 0x0; 0x202000; 0x0; 0x0; 0x0;
   0x3000; 0x7000; 0x7000; 0xe000; 0x1c000; 0x7ffff8; 0xfffff8; 0x7ffff8;
   0x780000; 0x380000; 0x1c0000; 0xe0000; 0x70000; 0x38000; 0x1e000; 0xf000;
   0x7800; 0x3e00; 0xf00; 0x3e0; 0x3f0; 0x2000fb8; 0x3fffe1c; 0x3fff808;
   0x0; 0x0; 0x0; 0x0; 0x0; 0x202000; 0x0; 0x0;
   0x0; 0x7000; 0x3800; 0x1800; 0x7fffc0; 0x7fffc0; 0x7000c0; 0x7000c0;
   0x3000c0; 0x3000c0; 0x3f00c0; 0x1f00c0; 0xc0; 0x1ffffc0; 0x1ffffc0; 0x1ffffc0;
   0x1800000; 0x1800000; 0x19ffffc; 0x19ffffc; 0x18aaaa8; 0x1c00000; 0x1c00000; 0x1d40000;
   0xfe0000; 0x7e0000; 0x0; 0x0; 0x0; 0x0; 0x202000; 0x0;
   0x0; 0x0; 0x700; 0x700; 0x700; 0x380; 0x15555c0; 0x3ffffc0;
   0x3ffffe0; 0x38e0; 0x3870; 0x3838; 0x1fff83c; 0xfff81c; 0x1fff808; 0x3800;
   0x3800; 0x3800; 0x1fff800; 0x1fff800; 0x1fff800; 0x3800; 0x3800; 0x3800;
   0x3800; 0x3800; 0x3800; 0x0; 0x0; 0x0; 0x0; 0x202000;
   0x0; 0x0; 0x0; 0x400000; 0x7e0000; 0xfffff0; 0x3fff0; 0x6570;
   0xe06060; 0x6060e0; 0x7060c0; 0x7061c0; 0x386180; 0x186180; 0x86180; 0x6000;
   0x3fffffc; 0x3fffffc; 0x6000; 0x6000; 0x6000; 0x6000; 0x6000; 0x6000;
   0x6000; 0x7000; 0x7f80; 0x7f00; 0x0; 0x0; 0x0; 0x0;
   0x202000; 0x0; 0x0; 0x0; 0x0; 0xfe0000; 0x1ffffd0; 0xbfff0;
   0x15f0; 0x3800; 0x7000; 0x6000; 0x6000; 0x7ffff0; 0xfffff0; 0x7aaaa0;
   0x380000; 0x1c0000; 0xf0000; 0x78000; 0x1c000; 0xf000; 0x7c00; 0x1fe0;
   0x7f0; 0xfb8; 0x7ffff1c; 0x3fff808; 0x154008; 0x0; 0x0; 0x0;
   0x0; 0x202000; 0x0; 0x0; 0x0; 0x400000; 0xfe8000; 0xffffe0;
   0x3ffe0; 0x60; 0xa060; 0xe070; 0xe060; 0xe070; 0xe030; 0xe030;
   0x3fffff8; 0x3fffff0; 0xe000; 0xe000; 0x10e080; 0x38e1c0; 0x70e0e0; 0xe0e070;
   0x1c0e070; 0x1c0e038; 0x380e01c; 0x300f40c; 0xfe00; 0x7c00; 0x0; 0x0;
   0x0; 0x0; 0x202000; 0x0; 0x0; 0x0; 0x700000; 0x7ff800;
   0x7fffc0; 0x2f80; 0x1c0; 0x180; 0x1c0; 0x1ffff80; 0x1ffffc0; 0xaeab80;
   0xc01c0; 0xc0180; 0xc01c0; 0xc0180; 0xc01c0; 0x2aeaba8; 0x3fffffc; 0x3fffffc;
   0x400; 0xf00; 0x7c0; 0x3e0; 0xf8; 0x38; 0x18; 0x0;
   0x0; 0x0; 0x0; 0x202000; 0x0; 0x0; 0x0; 0x700000;
   0x7ff800; 0x7fffc0; 0x2f80; 0x1c0; 0x180; 0x1c0; 0x1ffff80; 0x1ffffc0;
   0xaeab80; 0xc01c0; 0xc0180; 0xc01c0; 0xc0180; 0xc01c0; 0x2aeaba8; 0x3fffffc].
Definition hanzi_data_9 : list N :=
  [0x3fffffc; 0x60000; 0xf0000; 0x3c0000; 0xf80000; 0x1f00000; 0x3c00000; 0x1800000;
   0x0; 0x0; 0x0; 0x0; 0x202000; 0x0; 0x0; 0x0;
   0x400000; 0x7f8000; 0x7ffff8; 0xbff0; 0x3000; 0x3800; 0x1c00; 0x3fffffc;
   0x3fffffc; 0x70e00; 0x1e0780; 0x3c03c0; 0x7e07f0; 0x1f606f8; 0x7c6073e; 0x306060c;
   0x60700; 0x60300; 0x60700; 0x60300; 0x60380; 0x601c0; 0x601f0; 0x600f8;
   0x60030; 0x0; 0x0; 0x0; 0x0; 0x202000; 0x0; 0x0;
   0x0; 0x700000; 0x7ff800; 0x7ffff0; 0x6ff0; 0x6000; 0x6000; 0x3fffffc;
   0x3fffffc; 0x6000; 0xc6300; 0x18c6300; 0x3ec63fc; 0xfc63fc; 0x3c6300; 0xc6300;
   0x30c6300; 0x70c63e0; 0x30c63fc; 0x3fc637c; 0x1f86308; 0x6000; 0x6000; 0x6000;
   0x6000; 0x6000; 0x0; 0x0; 0x0; 0x0; 0x202000; 0x0;
   0x0; 0x0; 0x700000; 0x7ff800; 0x7ffff0; 0x7ff0; 0x6000; 0x6000;
   0x3fffffc; 0x3fffffc; 0xc6300; 0x8c6300; 0x1fc63f8; 0xfc63f8; 0x1c6300; 0xc6300;
   0x30cf3c0; 0x3acfbfc; 0x1fdff7c; 0xabec00; 0x76f00; 0x1e6380; 0x7c61e0; 0xf060f8;
   0x7e0607c; 0x380600c; 0x6000; 0x0; 0x0; 0x0; 0x0; 0x202000;
   0x0; 0x0; 0x0; 0x0; 0x0; 0x1ffff8; 0x3ffff8; 0x1ffff8;
   0xf0000; 0x78000; 0x3c000; 0x1f000; 0x7800; 0x3c00; 0x1e00; 0xf00;
   0x380; 0x1c0; 0xe0; 0x1800070; 0x3800038; 0x3800038; 0x3800018; 0x1800018;
   0x1eaaaf8; 0x1fffff0; 0xffffe0; 0x0; 0x0; 0x0; 0x0; 0x0;
   0x202000; 0x0; 0x0; 0x0; 0x0; 0x180; 0x180; 0x180;
   0x180; 0x780180; 0x7f0180; 0x6fe180; 0x71ff80; 0x603fc0; 0x7007fc; 0x7001fe;
   0x70019c; 0x300180; 0x300180; 0x3f8180; 0x1f8180; 0x800180; 0x3800180; 0x3800180;
   0x1800180; 0x1c00380; 0x1ffff00; 0xfffe00; 0x0; 0x0; 0x0; 0x0;
   0x0; 0x202000; 0x0; 0x0; 0x0; 0x1c00; 0xc00; 0x1c00;
   0xc00; 0x1c00; 0xc00; 0xc00; 0xffff8; 0xffffc; 0xc0c00; 0xc0c00;
   0xc0e00; 0xc0e00; 0xc0e00; 0xc0600; 0xc0700; 0xc0700; 0xc0380; 0x10c0380;
   0x60c01c0; 0x70c01e0; 0x60c00f0; 0x7fc007c; 0x3fc003e; 0x1f0000c; 0x0; 0x0;
   0x0; 0x0; 0x202000; 0x0; 0x0; 0x0; 0x700; 0x380;
   0x380; 0x2aaabc0; 0x3ffffc0; 0x3ffffe0; 0x70; 0x38; 0x3c; 0xfffdc;
   0x1fffc8; 0xf8000; 0x3c000; 0xf000; 0x7c00; 0x1e00; 0xf00; 0x380;
   0x10001c0; 0x38000e0; 0x3800070; 0x3800060; 0x1fffff0; 0x1ffffe0; 0x7fff00; 0x0;
   0x0; 0x0; 0x0; 0x202000; 0x0; 0x0; 0x0; 0xc000;
   0xc000; 0xc1c0; 0xc0c0; 0x40c1c0; 0xf8c0c0; 0xffc1c0; 0xcfe0c0; 0xc1fdc0;
   0xc0ffc0; 0xc0c7fc; 0xc0c0fe; 0xc0c1dc; 0xe0c0c0; 0xe0c1c0; 0x7ac0c0; 0x7ec1c0;
   0xcc0c0; 0x300c1c0; 0x30000c0; 0x30001c0; 0x38001c0; 0x1ffffc0; 0xffff80; 0x555400;
   0x0; 0x0; 0x0; 0x0; 0x202000; 0x0; 0x0; 0x0;
   0x0; 0x0; 0x1fffff0; 0xfffff0; 0x1c00000; 0xc00000; 0x1c00100; 0xc00380;
   0x1c00f00; 0xc01e00; 0x1c03c00; 0xc07000; 0x1c06000; 0xc00000; 0x1cf0000; 0xcfc000;
   0xc7fc00; 0xc07f00; 0xc01ff0; 0xc003f8; 0xc00070; 0xe00000; 0x750000; 0x7f0000;
   0x3f0000; 0x0; 0x0; 0x0; 0x0; 0x202000; 0x0; 0x0;
   0x0; 0x4000; 0xe000; 0x7000; 0x3800; 0x101e00; 0x380f00; 0x1e0780;
   0xfffe0; 0x7ffe0; 0x1e2e0; 0x40f000; 0xc03c00; 0xe01f00; 0xffefc0; 0x7ffff0;
   0x38bff0; 0x1c0010; 0xe0000; 0x78000; 0x3e000; 0x1fc00; 0x3f80; 0x1ffc;
   0x3f8; 0x78; 0x0; 0x0; 0x0; 0x0; 0x202000; 0x0;
   0x0; 0x0; 0x3000; 0x303000; 0x703000; 0x1e03000; 0x3c03000; 0x33ffff0;
   0x3ffff0; 0x303000; 0x303000; 0x303000; 0x303000; 0x303000; 0x3fffffc; 0x3fffffc;
   0x3003000; 0x3803000; 0x3803000; 0x3803000; 0x1803000; 0x1803000; 0x1fe3000; 0xfc3000;
   0x143000; 0x3000; 0x3000; 0x0; 0x0; 0x0; 0x0; 0x202000;
   0x0; 0x0; 0x0; 0x60180; 0x60180; 0x60180; 0x60180; 0x60180;
   0x6ff80; 0x6ff80; 0x60180; 0x60180; 0x60180; 0x60180; 0x60180; 0x63ff8;
   0x63ff8; 0x63018; 0x63018; 0x1063018; 0x3063018; 0x7063018; 0x3063018; 0x3063018;
   0x3063ff8; 0x3fe3ff8; 0x1fe3018; 0x1018; 0x0; 0x0; 0x0; 0x0;
   0x202000; 0x0; 0x0; 0x0; 0x0; 0x0; 0x3fffff8; 0x1fffff8;
   0x1c00000; 0xc1c080; 0xe1c7c0; 0x61cf80; 0x41de00; 0xc830; 0x1c0f8; 0xc3e0;
   0xc3c0; 0xc000; 0x3fffffc; 0x3fffffc; 0x3fffffc; 0x7000; 0x1f000; 0xfb800;
   0x1f1e00; 0x780f80; 0x1f007f0; 0x3c000fc; 0x1000018; 0x0; 0x0; 0x0;
   0x0; 0x202000; 0x0; 0x0; 0x0; 0x63000; 0x67e00; 0x67ffc;
   0x603fc; 0x60304; 0x60300; 0x60300; 0x6aba8; 0x6fffe; 0x6fffe; 0x60300;
   0x60300; 0x60300; 0x60300; 0x67ff8; 0x67ff8; 0x67018; 0x66018; 0x7067018;
   0x3066018; 0x7067018; 0x3067ff8; 0x3fe7ff8; 0x3fe6018; 0x1fc0018; 0x0; 0x0;
   0x0; 0x0; 0x202000; 0x0; 0x0; 0x0; 0x7000; 0xeffe8;
   0xe7ffc; 0xee028; 0xe6198; 0xe63b8; 0xe7330; 0xe3b70; 0xe1f70; 0xe3ff8;
   0xe7ff8; 0xe3aa8; 0xe1c00; 0xe0e00; 0xe0700; 0xee300; 0xefffc; 0x10e3ffc;
   0x70e037c; 0x30e0300; 0x30e0300; 0x30e0300; 0x3fe0300; 0x3fc03e0; 0x3e0; 0x0;
   0x0; 0x0; 0x0; 0x202000; 0x0; 0x0; 0x0; 0x100].
Definition hanzi_data_10 : list N :=
  [0x1ff8300; 0x1ff8330; 0x1898330; 0x19d8330; 0x1999b30; 0x1f99f30; 0x1819fb0; 0x3ffdff0;
   0x3ffdbf8; 0x1c59b3c; 0x8d9b3c; 0x1dddb30; 0xd89b30; 0xc1db30; 0x3ffdf30; 0x1ffdf30;
   0xc00330; 0x1fc0330; 0x3780030; 0x7000030; 0x3800030; 0x3fffff0; 0x1ffffe0; 0x0;
   0x0; 0x0; 0x0; 0x0; 0x202000; 0x0; 0x0; 0x0;
   0x60180; 0x60180; 0x70180; 0x33ffc; 0x7ffbffc; 0x3ff8180; 0x1c180; 0xdff8;
   0xfff8; 0x7818; 0x1ff9d58; 0xff9ff8; 0x701d58; 0x381818; 0x3c1ff8; 0x1c1ff8;
   0xe0180; 0x60180; 0x1073ffc; 0x603bffc; 0x701c180; 0x3018180; 0x3ffc180; 0x3ff8180;
   0x1ff0180; 0x0; 0x0; 0x0; 0x0; 0x202000; 0x0; 0x0;
   0x0; 0x0; 0x0; 0xfffff8; 0xfffff8; 0xf55550; 0x380000; 0x1c0000;
   0xf0000; 0x7c000; 0x1e000; 0xe000; 0x6000; 0x6000; 0x6000; 0x6000;
   0x6000; 0x6000; 0x6000; 0x6000; 0x6000; 0x6000; 0x6000; 0x7000;
   0x7f80; 0x3f00; 0x0; 0x0; 0x0; 0x0; 0x202000; 0x0;
   0x0; 0x0; 0x0; 0x2aaaa0; 0x7ffff0; 0x3fffe0; 0x1c0000; 0xe0200;
   0x79f00; 0x1fe00; 0x1f000; 0x7c000; 0x3fffffc; 0x3fffffc; 0x1c06000; 0xc06000;
   0xe06000; 0x706000; 0x706000; 0x6000; 0x6000; 0x6000; 0x6000; 0x6000;
   0x7500; 0x7e00; 0x7e00; 0x0; 0x0; 0x0; 0x0; 0x202000;
   0x0; 0x0; 0x0; 0x1c00; 0xe00; 0x7ff00; 0xfff80; 0xf57c0;
   0x700e0; 0x380f0; 0x7ffff8; 0x7ffff8; 0x606000; 0x707000; 0x606000; 0x7fffffc;
   0x3fffffc; 0x707000; 0x606000; 0x707000; 0x7ffff0; 0x7ffff0; 0x6000; 0x7000;
   0x6000; 0x7000; 0x7f00; 0x3f00; 0x0; 0x0; 0x0; 0x0;
   0x202000; 0x0; 0x0; 0x0; 0x6000; 0x6000; 0x3fffffc; 0x3fffffc;
   0x6000; 0x2aeaa0; 0x7fffe0; 0x606060; 0x606060; 0x7fffe0; 0x7fffe0; 0x6000;
   0xfffff0; 0xfffff0; 0xe06000; 0x2eaeaa8; 0x3fffffc; 0xe06000; 0xe06000; 0xfffff0;
   0xfffff0; 0xe06000; 0x6000; 0x7e00; 0x7e00; 0x0; 0x0; 0x0;
   0x0; 0x202000; 0x0; 0x0; 0x0; 0x0; 0x0; 0x0;
   0x0; 0xfffff0; 0xfffff0; 0x555550; 0x0; 0x0; 0x0; 0x0;
   0x0; 0x0; 0x0; 0x0; 0x0; 0x0; 0x0; 0x0;
   0x0; 0x3fffffc; 0x3fffffc; 0x0; 0x0; 0x0; 0x0; 0x0;
   0x0; 0x0; 0x202000; 0x0; 0x0; 0x0; 0x0; 0x0;
   0xfffff0; 0xffffe0; 0xfffff0; 0x0; 0x0; 0x0; 0x0; 0x3fffffc;
   0x3fffffc; 0x6000; 0x6000; 0x6000; 0x6000; 0x6000; 0x6000; 0x6000;
   0x6000; 0x6000; 0x6000; 0x6000; 0x7500; 0x7f00; 0x7f00; 0x0;
   0x0; 0x0; 0x0; 0x202000; 0x0; 0x0; 0x0; 0x0;
   0x0; 0xfffff0; 0xfffff0; 0x6000; 0x6000; 0x6000; 0x6000; 0x6000;
   0x6000; 0x6000; 0x3fffffc; 0x3fffffc; 0x6000; 0x6000; 0x6000; 0x6000;
   0x6000; 0x6000; 0x6000; 0x6000; 0x6000; 0x7f00; 0x7f00; 0x3f00;
   0x0; 0x0; 0x0; 0x0; 0x202000; 0x0; 0x0; 0x0;
   0x0; 0x0; 0xfffff0; 0xfffff0; 0x0; 0x0; 0x0; 0x0;
   0x3fffffc; 0x3fffffc; 0x700; 0x300; 0x700; 0x380; 0x380; 0x7fff80;
   0x7fff80; 0x600000; 0x700000; 0x300000; 0x700000; 0x300000; 0x380000; 0x3fe000;
   0x1fe000; 0x0; 0x0; 0x0; 0x0; 0x202000; 0x0; 0x0;
   0x0; 0x0; 0x0; 0x7fffe0; 0x7fffe0; 0x7fffe0; 0x0; 0x0;
   0x0; 0x0; 0x0; 0x3fffffc; 0x3fffffc; 0x1c00; 0xe00; 0x40e00;
   0xe0700; 0x1c0700; 0x380380; 0x3801c0; 0x7000e0; 0xffd0f0; 0xfffff8; 0x1d7fff0;
   0x18000b0; 0x1800000; 0x0; 0x0; 0x0; 0x0; 0x202000; 0x0;
   0x0; 0x0; 0x0; 0x0; 0x1fffff8; 0x1fffff8; 0x700; 0x700;
   0x700; 0x300; 0x1fff00; 0x1fff80; 0x180380; 0x180380; 0x1c0180; 0x180180;
   0x1c01c0; 0xeabc0; 0x1fffc0; 0xfffc0; 0xc0000; 0xc0000; 0xe0000; 0xe0000;
   0x3fffffc; 0x3fffffc; 0x0; 0x0; 0x0; 0x0; 0x0; 0x202000;
   0x0; 0x0; 0x0; 0x0; 0x0; 0x7fffe0; 0x7fffe0; 0x7fffe0;
   0x0; 0x0; 0x0; 0x0; 0x3fffff8; 0x3fffffc; 0xe0600; 0xe0700;
   0xe0600; 0xe0700; 0xe0700; 0xe0700; 0xe0300; 0xe0380; 0xe0180; 0xe01c0;
   0xe00e0; 0xe0078; 0xe0038; 0xe0018; 0x0; 0x0; 0x0; 0x0;
   0x202000; 0x0; 0x0; 0x0; 0x0; 0x0; 0x0; 0xfffff0;
   0xfffff0; 0x3800; 0x3800; 0x1800; 0x1800; 0x1800; 0x1fffe0; 0x3fffe0;
   0x1fffe0; 0x180c00; 0x180c00; 0x180c00; 0x180e00; 0x180e00; 0x1c0e00; 0x180600;
   0x1c0600; 0x3fffffc; 0x3fffffc; 0x2aaaaa8; 0x0; 0x0; 0x0; 0x0;
   0x0; 0x202000; 0x0; 0x0; 0x0; 0xc0700; 0xc0300; 0xc0700;
   0xc0300; 0xc0700; 0xaeaba8; 0x1fffff8; 0x1fffff8; 0xc0700; 0xc0300; 0xc0700;
   0xc0300; 0xc0700; 0xc0300; 0x3fffffc; 0x3fffffc; 0xc0300; 0xc0380; 0xc0380;
   0xc01c0; 0xc01c0; 0xc00e0; 0xc0070; 0xc0038; 0xc0018; 0x0; 0x0;
   0x0; 0x0; 0x202000; 0x0; 0x0; 0x0; 0x0; 0x0;
   0x1fffff8; 0x1fffff8; 0x0; 0x0; 0x3fffc0; 0x3fffc0; 0x3555c0; 0x3000c0;
   0x3000c0; 0x3000c0; 0x3fffc0; 0x3fffc0; 0x3000c0; 0x3000c0; 0x3000c0; 0x3fffc0].
Definition hanzi_data_11 : list N :=
  [0x3fffc0; 0x0; 0x0; 0x0; 0x3fffffc; 0x3fffffc; 0x0; 0x0;
   0x0; 0x0; 0x0; 0x202000; 0x0; 0x0; 0x0; 0x0;
   0x0; 0x3fffffc; 0x3fffffc; 0x30e00; 0x30e00; 0x30e00; 0x30e00; 0x1c30e18;
   0x1c30e38; 0xc30e30; 0xe30e30; 0x630e70; 0x730e60; 0x730ee0; 0x3b0ec0; 0x1b0fc0;
   0x30e00; 0x30e00; 0x30e00; 0x30e00; 0x3fffffc; 0x3fffffc; 0x2aaaaa8; 0x0;
   0x0; 0x0; 0x0; 0x0; 0x202000; 0x0; 0x0; 0x0;
   0x18300; 0x18300; 0x18300; 0xc18338; 0x1f18338; 0x7fbf38; 0x1fbf38; 0x38338;
   0x1018338; 0x3018338; 0x3018338; 0x303bb38; 0x3ffbffc; 0x1ff0ffc; 0x1c; 0x0;
   0x7fffe0; 0x7fffe0; 0x555540; 0x0; 0x0; 0x0; 0x3fffffc; 0x3fffffc;
   0x0; 0x0; 0x0; 0x0; 0x0; 0x202000; 0x0; 0x0;
   0x0; 0x0; 0x3fffe0; 0x7fffe0; 0x1e0000; 0x78000; 0x3e000; 0xf000;
   0xff67f8; 0x1ff77f8; 0xc06618; 0xc17718; 0xe3e618; 0x6f7718; 0x7c6618; 0x7c7718;
   0x3866b8; 0x7c77f8; 0xee6000; 0x1c7ff00; 0x83fe00; 0x11600; 0x2aaaaa8; 0x3fffffc;
   0x3fffffc; 0x0; 0x0; 0x0; 0x0; 0x0; 0x202000; 0x0;
   0x0; 0x0; 0x1000; 0x3800; 0x7000; 0x7000; 0xe000; 0xc000;
   0x3fffffc; 0x3fffffc; 0x0; 0x0; 0x0; 0x0; 0x0; 0x0;
   0x0; 0x0; 0x0; 0x0; 0x0; 0x0; 0x0; 0x0;
   0x0; 0x0; 0x0; 0x0; 0x0; 0x0; 0x0; 0x202000;
   0x0; 0x0; 0x0; 0x7000; 0x7000; 0x7000; 0xe000; 0xe000;
   0xc000; 0x3fffffc; 0x3fffffc; 0xc0; 0xc0; 0xc0; 0xc0; 0xc0;
   0xc0; 0xc0; 0xc0; 0xc0; 0xc0; 0xc0; 0xc0; 0xc0;
   0xffffc0; 0x1ffffc0; 0x0; 0x0; 0x0; 0x0; 0x0; 0x0;
   0x202000; 0x0; 0x0; 0x0; 0x7000; 0x7000; 0xe000; 0xe000;
   0xc000; 0x3fffffc; 0x3fffffc; 0x0; 0x0; 0x0; 0xfff00; 0xfff00;
   0xe0700; 0xe0300; 0xe0700; 0xe0300; 0xe0300; 0xe0380; 0x70e0380; 0x20e0180;
   0x70e01c0; 0x20e00e0; 0x3fe007c; 0x3fc003c; 0x170001c; 0x0; 0x0; 0x0;
   0x0; 0x202000; 0x0; 0x0; 0x0; 0x3000; 0x7000; 0x7000;
   0xe000; 0x3fffffc; 0x3fffffc; 0x40000; 0xe0700; 0x1c0780; 0x7803c0; 0xf001f0;
   0x1ec0278; 0x3ce073c; 0x8e0610; 0x70e00; 0x38c00; 0x3dc00; 0x1f800; 0xf000;
   0x1f800; 0x7fe00; 0x3f0f80; 0x1fc07f0; 0x3f000fc; 0x180001c; 0x0; 0x0;
   0x0; 0x0; 0x202000; 0x0; 0x0; 0x0; 0x7000; 0x7000;
   0xe000; 0x2aaeaa8; 0x3fffffc; 0x3fffffc; 0x1c00; 0x40e00; 0x1c0700; 0xe0380;
   0x7ffe0; 0x63ffe0; 0xe1e5e0; 0x70f800; 0x387c00; 0x1c1f80; 0x1f07f0; 0x781f8;
   0x7c070; 0xff800; 0x3e7e00; 0x781f80; 0x1f007f8; 0x1c000fc; 0x800018; 0x0;
   0x0; 0x0; 0x0; 0x202000; 0x0; 0x0; 0x0; 0x3000;
   0x7000; 0x7000; 0xe000; 0x4000; 0x3fffffc; 0x3fffffc; 0x60c00; 0x71c00;
   0x260c00; 0x771ce0; 0x660ce0; 0xe70c70; 0xe60c70; 0x1c70c70; 0x1860e38; 0x1870e1c;
   0x386061c; 0x3070700; 0x60300; 0x70380; 0x601c0; 0x751e0; 0x7f0f0; 0x3f070;
   0x0; 0x0; 0x0; 0x0; 0x202000; 0x0; 0x0; 0x0;
   0x7000; 0x7000; 0xe000; 0x1fffff8; 0x1fffff8; 0xaaaaa8; 0x1c0300; 0x1c0700;
   0xc0600; 0xe0e00; 0x3fffff0; 0x3fffff0; 0x1555570; 0x30; 0x30; 0x30;
   0x30; 0x30; 0x38; 0x38; 0x18; 0x18; 0x1c; 0xe;
   0xc; 0x0; 0x0; 0x0; 0x0; 0x202000; 0x0; 0x0;
   0x0; 0x7000; 0x7000; 0x1557554; 0x3fffffc; 0x3fffffc; 0x0; 0x7fffc0;
   0x3fffc0; 0x7000c0; 0x3000c0; 0x7fffc0; 0x3fffc0; 0x0; 0x2aaaa8; 0xfffff8;
   0xfffff8; 0x3f0000; 0x7e000; 0x1e000; 0x6000; 0x6000; 0x6000; 0x6000;
   0x7f00; 0x7f00; 0x0; 0x0; 0x0; 0x0; 0x202000; 0x0;
   0x0; 0x0; 0x3000; 0x7000; 0x7000; 0xe000; 0x3fffffc; 0x3fffffc;
   0x0; 0x0; 0xfffff0; 0xfffff0; 0xfffff0; 0xe06030; 0xe06070; 0xe06030;
   0xe06070; 0xfffff0; 0xfffff0; 0xe06030; 0xe06070; 0xe06030; 0xe06070; 0xfffff0;
   0xfffff0; 0xeaaab0; 0xe00070; 0x0; 0x0; 0x0; 0x0; 0x202000;
   0x0; 0x0; 0x0; 0x7000; 0x6000; 0x3fffffc; 0x3fffffc; 0x3fffffc;
   0x0; 0x7fffe0; 0x3fffe0; 0x7000e0; 0x3000e0; 0x7fffe0; 0x2aaaa0; 0x0;
   0x7fffe0; 0x7ffff0; 0x1f8000; 0x7e000; 0x6000; 0x3fffffc; 0x3fffffc; 0x6000;
   0x6000; 0x6000; 0x7f00; 0x7f00; 0x0; 0x0; 0x0; 0x0;
   0x202000; 0x0; 0x0; 0x0; 0x3000; 0x7000; 0x7000; 0x2aaeaa8;
   0x3fffffc; 0x3fffffc; 0x0; 0x2aaa80; 0x7fffe0; 0x7fffe0; 0x7000e0; 0x7000e0;
   0x7000e0; 0x7aaae0; 0x7fffe0; 0x7fffe0; 0x6000; 0x106080; 0x3861c0; 0x7060e0;
   0xe06070; 0x1c06038; 0x1c0601c; 0x1807e08; 0x7e00; 0x0; 0x0; 0x0;
   0x0; 0x202000; 0x0; 0x0; 0x0; 0x7000; 0x6000; 0x3fffffc;
   0x3fffffc; 0x1555554; 0x0; 0x7fffc0; 0x3000c0; 0x7000c0; 0x3fffc0; 0x7fffc0;
   0x0; 0x1fffffc; 0x3fffffc; 0x3d5555c; 0x380000c; 0x3ffffdc; 0x3bfffcc; 0xe000;
   0xe000; 0xe000; 0xe000; 0xe000; 0xfe00; 0x7e00; 0x0; 0x0;
   0x0; 0x0; 0x202000; 0x0; 0x0; 0x0; 0x7000; 0x6000].
Definition hanzi_data_12 : list N :=
  [0x155f554; 0x3fffffc; 0x3fffffc; 0x0; 0x7fffc0; 0x3aaac0; 0x7000c0; 0x3aaac0;
   0x7fffc0; 0x0; 0x0; 0x1fffff8; 0x1fffffc; 0x1800018; 0x187ff1c; 0x87fe08;
   0x60700; 0x60300; 0x3060300; 0x3860380; 0x3fe01f0; 0x1fe00fc; 0x740018; 0x0;
   0x0; 0x0; 0x0; 0x202000; 0x0; 0x0; 0x0; 0x3000;
   0x7000; 0x7000; 0xfffff0; 0x1fffff0; 0xaaaaa0; 0x1c0380; 0xe0300; 0xe0700;
   0x60600; 0x3fffffc; 0x3fffffc; 0x6000; 0x6000; 0x1fffff8; 0x1fffff8; 0x1557550;
   0x86380; 0x1c6380; 0x3861c0; 0x7060e0; 0xe06070; 0x1c06078; 0xc07e10; 0x7c00;
   0x0; 0x0; 0x0; 0x0; 0x202000; 0x0; 0x0; 0x0;
   0x7000; 0x7000; 0x155f554; 0x3fffffc; 0x3fffffc; 0x0; 0x7fffc0; 0x3000c0;
   0x7000c0; 0x3fffc0; 0x7fffc0; 0x0; 0x3fffffc; 0x3fffff8; 0x39c001c; 0x39ffa18;
   0x381ffdc; 0x3000; 0x1fff400; 0x1fffffc; 0x7ffc; 0x3003000; 0x3c07000; 0x3fff000;
   0x1ffc000; 0x0; 0x0; 0x0; 0x0; 0x202000; 0x0; 0x0;
   0x0; 0x7000; 0x6000; 0x3fffffc; 0x3fffffc; 0x70180; 0x60180; 0x7ffffc;
   0x7feff8; 0x670180; 0x63e980; 0x63effc; 0x26783f8; 0x67fc190; 0x3ccf180; 0x3c071f0;
   0x78f0; 0x707e00; 0x38cf80; 0x1fc3fc; 0x7837c; 0xf031c; 0x3ce300; 0x3f0ff80;
   0x3c00f80; 0x180; 0x0; 0x0; 0x0; 0x0; 0x202000; 0x0;
   0x0; 0x0; 0x7000; 0x7000; 0x3fffffc; 0x3fffffc; 0x0; 0xffffe0;
   0xf55570; 0xe7fe60; 0xe7fe70; 0xe6ae60; 0xe7fe70; 0xe00060; 0xfffff0; 0x0;
   0x3fffc0; 0x3fffc0; 0x3000c0; 0x3fffc0; 0x3555c0; 0x3aaac0; 0x3fffc0; 0x0;
   0x3fffffc; 0x3fffffc; 0x0; 0x0; 0x0; 0x0; 0x0; 0x202000;
   0x0; 0x0; 0x0; 0xc0c060; 0xc1c0c0; 0xe180c0; 0x638ffc; 0x1775ffc;
   0x1fff000; 0x1fff7f8; 0x18c37f8; 0x18c7618; 0x1fff618; 0x1fff7f8; 0x18c32a8; 0x18c77fc;
   0x18c3ffc; 0x1fff700; 0x1fff380; 0xc00c0; 0xc0fe0; 0x7fffffe; 0x3fff8fe; 0xc00c0;
   0xc00c0; 0xc00d0; 0xc00f0; 0xc0070; 0x0; 0x0; 0x0; 0x0;
   0x202000; 0x0; 0x0; 0x0; 0x7000; 0x6000; 0x3fffffc; 0x2aaaaa8;
   0x57fdc0; 0xfffff0; 0xe35c70; 0xebfcb0; 0x7ffdf0; 0xe3fc20; 0x7fdff0; 0x6bfea0;
   0x630c70; 0x3fffffc; 0x3fffffc; 0x39fff8c; 0x39fffdc; 0x180180; 0x1fffc0; 0x180180;
   0x1fffc0; 0x1aab80; 0x3fffffc; 0x3fffffc; 0x0; 0x0; 0x0; 0x0;
   0x0; 0x202000; 0x0; 0x0; 0x0; 0x7000; 0x6000; 0x7000;
   0x6000; 0x7000; 0x7000; 0x7000; 0xf000; 0xf000; 0xf000; 0x1f800;
   0x1f800; 0x1d800; 0x39800; 0x39c00; 0x30e00; 0x70e00; 0xe0700; 0x1c0780;
   0x3c0380; 0x7801e0; 0xf000f0; 0x3e0007c; 0x380003c; 0x1000018; 0x0; 0x0;
   0x0; 0x0; 0x202000; 0x0; 0x0; 0x0; 0x1800; 0x1800;
   0x1c00; 0xe00; 0xe00; 0x700; 0x700; 0x380; 0x3c0; 0x3e0;
   0x370; 0x338; 0x33c; 0x31e; 0x30c; 0x300; 0x300; 0x300;
   0x300; 0x300; 0x300; 0x300; 0x300; 0x300; 0x300; 0x0;
   0x0; 0x0; 0x0; 0x202000; 0x0; 0x0; 0x0; 0x100;
   0x380; 0x180; 0x1fff980; 0x1fff9c0; 0xe000e0; 0x7000e0; 0x3800f0; 0x1c00f8;
   0xe00f8; 0x700fc; 0x300ee; 0x380e4; 0x1c0e0; 0xe0e0; 0x60e0; 0x10070e0;
   0x30038e0; 0x30018e0; 0x38018e0; 0x1801ce0; 0x1aab8e0; 0x1fff8e0; 0xffe0e0; 0xe0;
   0x0; 0x0; 0x0; 0x0; 0x202000; 0x0; 0x0; 0x0;
   0x70300; 0x60300; 0x70380; 0x60180; 0x701c0; 0x600c0; 0x700e0; 0x600e0;
   0x700f0; 0x3fffef8; 0x3fffefc; 0x2aeaaee; 0x700ec; 0x600e0; 0x700e0; 0x600e0;
   0x700e0; 0x600e0; 0x700e0; 0x600e0; 0x700e0; 0x600e0; 0x700e0; 0x600e0;
   0x700e0; 0x0; 0x0; 0x0; 0x0; 0x202000; 0x0; 0x0;
   0x0; 0x300; 0x300; 0x380; 0x380; 0x15551c0; 0x1fff8c0; 0x1fff8e0;
   0xe0; 0xf0; 0xf8; 0xfc; 0xee; 0xec; 0xe0; 0xe0;
   0xe0; 0xe0; 0xe0; 0xe0; 0xe0; 0x15554e0; 0x3fffee0; 0x3fffee0;
   0xe0; 0xe0; 0x0; 0x0; 0x0; 0x0; 0x202000; 0x0;
   0x0; 0x0; 0x38100; 0x38380; 0x38180; 0x381c0; 0x381c0; 0x380e0;
   0x1fffc60; 0x3fffe70; 0x1fffe78; 0x3818078; 0x181807c; 0x181806c; 0x181c064; 0x1818060;
   0x181c060; 0x180c060; 0x1c0c060; 0x180e060; 0x1c06060; 0x1c07060; 0x1c07060; 0xc03860;
   0x1fe1c60; 0xfe0e60; 0x7c0460; 0x0; 0x0; 0x0; 0x0; 0x202000;
   0x0; 0x0; 0x0; 0x100; 0x380; 0x7fffd80; 0x3fffdc0; 0x7fffdc0;
   0x1800e0; 0x1c0070; 0x180070; 0x1c0078; 0x180078; 0x1c007c; 0x18006e; 0x1c0064;
   0x180060; 0x1c0060; 0x180060; 0x1c0060; 0x180060; 0x1c0060; 0x180060; 0x1c0060;
   0x180060; 0x1fe060; 0x1fc060; 0x7c060; 0x0; 0x0; 0x0; 0x0;
   0x202000; 0x0; 0x0; 0x0; 0x0; 0x0; 0x3fffff0; 0x3fffff0;
   0x10030; 0x38030; 0x18030; 0x18030; 0x18030; 0x18030; 0x1c030; 0x18030;
   0x3c030; 0x3c030; 0x7c030; 0x6e030; 0xee030; 0xc7038; 0x1c7038; 0x383818;
   0x701c1c; 0xe00e1c; 0x3c0079c; 0x380038e; 0x100010c; 0x0; 0x0; 0x0;
   0x0; 0x202000; 0x0; 0x0; 0x0; 0x100; 0x300; 0x380;
   0x1ffff80; 0x1fffdc0; 0x18038c0; 0x1c038e0; 0xc030e0; 0xc070f0; 0xe070f8; 0x6070fc;
   0x6060ee; 0x70e0ec; 0x38c0e0; 0x19c0e0; 0x1f80e0; 0xf80e0; 0xf00e0; 0xf00e0].
Definition hanzi_data_13 : list N :=
  [0x1f80e0; 0x3de0e0; 0xf0f8e0; 0x3e07ce0; 0x3801ee0; 0x30006e0; 0x0; 0x0;
   0x0; 0x0; 0x202000; 0x0; 0x0; 0x0; 0x18100; 0x18300;
   0x18380; 0x18380; 0x181c0; 0x180c0; 0x180e0; 0x180e0; 0xd80f0; 0x1d80f8;
   0x7980fc; 0xf180fe; 0x1e180ec; 0x3c180e4; 0x38180e0; 0x10180e0; 0x180e0; 0x180e0;
   0x180e0; 0x180e0; 0x180e0; 0x180e0; 0x180e0; 0x180e0; 0x180e0; 0x0;
   0x0; 0x0; 0x0; 0x202000; 0x0; 0x0; 0x0; 0xe100;
   0xe380; 0xe180; 0xe1c0; 0xe0c0; 0xe0e0; 0x3ffe70; 0x3ffe70; 0x3ffe78;
   0x30e078; 0x30e07c; 0x30e06c; 0x306064; 0x306060; 0x307060; 0x306060; 0x307060;
   0x303060; 0x1303860; 0x2303860; 0x7301c60; 0x2300e60; 0x7f00f60; 0x3f007e0; 0x1e00360;
   0x0; 0x0; 0x0; 0x0; 0x202000; 0x0; 0x0; 0x0;
   0x100; 0x2aa380; 0x3ff180; 0x3ff1c0; 0x3031c0; 0x3030e0; 0x303070; 0x303070;
   0x303078; 0x303078; 0x30307e; 0x30306e; 0x303064; 0x303060; 0x303060; 0x303060;
   0x303860; 0x303860; 0x7301860; 0x2301860; 0x7301c60; 0x2300c60; 0x3f00e60; 0x3f00760;
   0x1e00660; 0x0; 0x0; 0x0; 0x0; 0x202000; 0x0; 0x0;
   0x0; 0x6000; 0xe000; 0xf000; 0x1f800; 0x79c00; 0xf0e00; 0x1e0780;
   0x3813c0; 0x1f079f0; 0x3e0f07c; 0x3c1e03c; 0x1038008; 0x18000; 0x7fffe0; 0x7fffe0;
   0x7aaaa0; 0x380000; 0x1c0000; 0x1e0000; 0xe0000; 0x70000; 0x38000; 0x1c000;
   0xe000; 0x4000; 0x0; 0x0; 0x0; 0x0; 0x202000; 0x0;
   0x0; 0x0; 0x6000; 0xe000; 0xf000; 0x1f800; 0x3dc00; 0x78e00;
   0x1f0700; 0x3c03c0; 0xf801f0; 0x3e000fc; 0x3c4013c; 0x20c030c; 0xc0300; 0xc0300;
   0xc0300; 0xc0300; 0xc0300; 0xc0380; 0xc0380; 0xc0380; 0xc01c0; 0xc00e0;
   0xc00f0; 0xc0038; 0xc0010; 0x0; 0x0; 0x0; 0x0; 0x202000;
   0x0; 0x0; 0x0; 0x1c0; 0xc0; 0x3ffec0; 0x3ffee0; 0x307060;
   0x383060; 0x187070; 0x183078; 0x1c7078; 0x18307c; 0x1fc307e; 0x1fc306e; 0x1803074;
   0x1803860; 0x1803870; 0x1803860; 0x1801870; 0x1801860; 0x1c01c70; 0x1c00c60; 0x1c00e70;
   0xc00e60; 0xf50770; 0xfe03e0; 0x7e0170; 0x0; 0x0; 0x0; 0x0;
   0x202000; 0x0; 0x0; 0x0; 0x40000; 0xc0380; 0xc0380; 0xe0380;
   0xe0380; 0xe0380; 0xe0380; 0xe0380; 0x60180; 0x60380; 0x707c0; 0xe0780;
   0xf0fc0; 0xf0dc0; 0x1f1dc0; 0x1bb8e0; 0x3bf0e0; 0x39b0e0; 0x71d070; 0x60e070;
   0xe0e070; 0x1c07038; 0x7c0781c; 0x380381e; 0x1001008; 0x0; 0x0; 0x0;
   0x0; 0x202000; 0x0; 0x0; 0x0; 0x4000; 0xe000; 0xf000;
   0x1f800; 0x39c00; 0xf0e00; 0x1e0780; 0x3c03c0; 0x1f001f0; 0x3e0007c; 0x3c0019c;
   0x1c0188; 0x1f0180; 0x7e180; 0x1fd80; 0x3f80; 0xf80; 0x180; 0x600180;
   0xe00180; 0x600180; 0x600380; 0x7fff80; 0x3fff00; 0x0; 0x0; 0x0;
   0x0; 0x0; 0x202000; 0x0; 0x0; 0x0; 0x6000; 0xe000;
   0xf000; 0x1f800; 0x39c00; 0x70e00; 0x1e0700; 0x3c0380; 0xf801e0; 0x3eaaaf8;
   0x7dffffe; 0x31fff8c; 0x1801c0; 0x180180; 0x1c01c0; 0x180180; 0x1d41c0; 0xfc180;
   0x47c1c0; 0xe00180; 0xe001c0; 0xe00180; 0x7fff80; 0x3fff80; 0x0; 0x0;
   0x0; 0x0; 0x0; 0x202000; 0x0; 0x0; 0x0; 0x180;
   0x380; 0x1fffdc0; 0x3fff9c0; 0x1e000c0; 0x7000e0; 0x3c0070; 0x1e0070; 0x70078;
   0x60078; 0x7007c; 0x6006c; 0x7fffe64; 0x3fffe60; 0x70060; 0x60060; 0x70060;
   0x60060; 0x70060; 0x60060; 0x70060; 0x60060; 0x75060; 0x7f060; 0x1f060;
   0x0; 0x0; 0x0; 0x0; 0x202000; 0x0; 0x0; 0x0;
   0x70700; 0x60300; 0x70380; 0x60380; 0x701c0; 0x600c0; 0x700e0; 0x600e0;
   0x55754f0; 0x3fffef8; 0x7fffefc; 0x600ee; 0x700e4; 0x600e0; 0x700e0; 0x600e0;
   0x700e0; 0x600e0; 0x700e0; 0x600e0; 0x700e0; 0x600e0; 0x3fffee0; 0x3fffee0;
   0xe0; 0x0; 0x0; 0x0; 0x0; 0x202000; 0x0; 0x0;
   0x0; 0x60100; 0x60380; 0x601c0; 0x619c0; 0x618c0; 0x1c618e0; 0x1f61870;
   0x1fe1870; 0x19fd878; 0x187f87c; 0x186fe7e; 0x1861f6e; 0x1861f64; 0x1861860; 0x1861860;
   0x1861860; 0x1f61860; 0xf61860; 0x1061860; 0x3001860; 0x7001860; 0x3003860; 0x3fff860;
   0x3fff060; 0x1ffc060; 0x0; 0x0; 0x0; 0x0; 0x202000; 0x0;
   0x0; 0x0; 0x1c0100; 0xc0300; 0x1c0380; 0xc0380; 0x1c01c0; 0xc00c0;
   0x7fffee0; 0x3fffef0; 0x1c00f0; 0xc00f8; 0x1c18fc; 0xc38ee; 0xc30e4; 0xe30e0;
   0xe70e0; 0x660e0; 0x7e0e0; 0x3c0e0; 0x3c0e0; 0x7c0e0; 0x1fe0e0; 0x3ef8e0;
   0x1f87ce0; 0x3e01ee0; 0x38006e0; 0x0; 0x0; 0x0; 0x0; 0x202000;
   0x0; 0x0; 0x0; 0x700100; 0x600300; 0x700380; 0x600380; 0x7001c0;
   0x6000c0; 0x3fffce0; 0x3fffce0; 0x17554f0; 0x6000f8; 0x7000fc; 0x6030fe; 0x7070ec;
   0x6070e0; 0x70e0e0; 0x60e0e0; 0x71c0e0; 0x6180e0; 0x7080e0; 0x6000e0; 0x7000e0;
   0x6000e0; 0x7000e0; 0x7f80e0; 0x3f80e0; 0x0; 0x0; 0x0; 0x0;
   0x202000; 0x0; 0x0; 0x0; 0x70180; 0x60380; 0x701c0; 0x601c0;
   0x700c0; 0x600e0; 0x1871c70; 0x1860c70; 0x1871c78; 0x1860c78; 0x1871c7c; 0x1860c6e;
   0x1871c64; 0x1860c60; 0x1871c60; 0x1860c60; 0x1871c60; 0x1860c60; 0x1871c60; 0x1860c60;
   0x1871c60; 0x1fffc60; 0x1fffc60; 0x1800060; 0x1800060; 0x0; 0x0; 0x0;
   0x0; 0x202000; 0x0; 0x0; 0x0; 0x4000; 0xe000; 0xf000].
Definition hanzi_data_14 : list N :=
  [0xf800; 0x3fc00; 0x79e00; 0xf0f00; 0x1e0780; 0x7c03c0; 0xf000f0; 0x3e0007c;
   0x3aaaabc; 0x37fffcc; 0x3fffc0; 0x6000; 0x6000; 0x6000; 0x6000; 0x6000;
   0x6000; 0x6000; 0x6000; 0x1fffff8; 0x1fffff8; 0x0; 0x0; 0x0;
   0x0; 0x0; 0x202000; 0x0; 0x0; 0x0; 0x100; 0x380;
   0x1555580; 0x3fffdc0; 0x3fffdc0; 0x30700e0; 0x3070070; 0x3030070; 0x3073878; 0x383187c;
   0x383187e; 0x3831c6e; 0x3838c64; 0x3838e60; 0x3818760; 0x3818660; 0x381c060; 0x380c060;
   0x180e060; 0x180e060; 0x1c07060; 0x1c03860; 0x1fe1e60; 0xfc0f60; 0x7c0660; 0x0;
   0x0; 0x0; 0x0; 0x202000; 0x0; 0x0; 0x0; 0x100;
   0xe00380; 0x1fc01c0; 0xffe1c0; 0x7fcc0; 0x62ce0; 0x70070; 0x60070; 0x70078;
   0x6007c; 0x7007e; 0x3fffe6e; 0x7fffe64; 0x60060; 0x70060; 0x60060; 0x70060;
   0x60060; 0x70060; 0x60060; 0x70060; 0x60060; 0x70060; 0x60060; 0x70060;
   0x0; 0x0; 0x0; 0x0; 0x202000; 0x0; 0x0; 0x0;
   0x4100; 0xe380; 0x6180; 0x61c0; 0x3fff1c0; 0x3fff8e0; 0x1555870; 0x1c70;
   0x1e78; 0xe78; 0xfff47e; 0x7ff06e; 0x3c0064; 0xe0060; 0x70060; 0x38060;
   0x1c060; 0xe060; 0x1007060; 0x3003860; 0x3001c60; 0x3001860; 0x3fffc60; 0x1fff860;
   0x7fc060; 0x0; 0x0; 0x0; 0x0; 0x202000; 0x0; 0x0;
   0x0; 0x18000; 0x338700; 0x718700; 0xe38380; 0x1c38180; 0x18381c0; 0x380e0;
   0x38380e0; 0x3ff40f0; 0x2fffef8; 0x7fedc; 0x302ce; 0x700c4; 0x700c0; 0x700c0;
   0x600c0; 0x600c0; 0xe00c0; 0x60e00c0; 0x60c00c0; 0x71c00c0; 0x33800c0; 0x3f800c0;
   0x3f000c0; 0x1c000c0; 0x0; 0x0; 0x0; 0x0; 0x202000; 0x0;
   0x0; 0x0; 0x4000; 0xe000; 0xf000; 0x1f800; 0x79c00; 0xf0e00;
   0x1e1780; 0x783be0; 0x1f071f0; 0x7c0e03e; 0x381c01c; 0x8000; 0x7fffe0; 0xffffe0;
   0x7fffe0; 0x380000; 0x1e0000; 0xe0400; 0x79f00; 0x3bc00; 0x1f800; 0x1e000;
   0x7c000; 0x78000; 0x30000; 0x0; 0x0; 0x0; 0x0; 0x202000;
   0x0; 0x0; 0x0; 0x0; 0x600000; 0x601060; 0x601860; 0x703860;
   0x603060; 0x707060; 0x70e060; 0x71c060; 0x30c060; 0x300060; 0x300060; 0x380060;
   0x380060; 0x1c0060; 0x1c2060; 0x1c3c60; 0x3e3e60; 0x7f0ff0; 0x7783f0; 0xe3c078;
   0x1c1e030; 0x380f800; 0x3003c00; 0x1001800; 0x0; 0x0; 0x0; 0x0;
   0x202000; 0x0; 0x0; 0x0; 0x100; 0x300; 0x380; 0x3ffff80;
   0x3fffdc0; 0x3fffcc0; 0xe0; 0xf0; 0xf0; 0xf8; 0xfc; 0xee;
   0x1fff8e4; 0x1fff8e0; 0xe0; 0xe0; 0xe0; 0xe0; 0xe0; 0xe0;
   0xe0; 0x3fffee0; 0x7fffee0; 0x2aaaae0; 0xe0; 0x0; 0x0; 0x0;
   0x0; 0x202000; 0x0; 0x0; 0x0; 0x100; 0x18380; 0x1839dc0;
   0x1831dc0; 0x1c71cc0; 0xce18e0; 0xcc1870; 0xc03870; 0xe03078; 0x60307c; 0x70707e;
   0x70606e; 0x306064; 0x38e060; 0x1dc060; 0x1dc060; 0xf8060; 0x78060; 0xf8060;
   0xfc060; 0x3de060; 0xf8f860; 0x1f03e60; 0x3c00f60; 0x1000760; 0x0; 0x0;
   0x0; 0x0; 0x202000; 0x0; 0x0; 0x0; 0x100; 0x18300;
   0x1c300; 0xc380; 0xc1c0; 0xe0c0; 0x1870e0; 0x1c70e0; 0x1c38f0; 0xe38f8;
   0xe1cfc; 0x60eee; 0x70cec; 0x2380e0; 0x7380e0; 0x7180e0; 0x61c0e0; 0xe0e0e0;
   0xc060e0; 0x1c070e0; 0x1fc38e0; 0x3fff8e0; 0x39ffce0; 0x30038e0; 0x10000e0; 0x0;
   0x0; 0x0; 0x0; 0x202000; 0x0; 0x0; 0x0; 0x19c0;
   0x1ff38c0; 0x1ff30c0; 0x18070e0; 0x1806060; 0x180ea60; 0x1800e70; 0x1800e30; 0x1800e78;
   0x1800e38; 0x1800e7c; 0x1800e3e; 0x1800e74; 0x1800e30; 0x1800e70; 0x1800e30; 0x1800e70;
   0x1800e30; 0x1800e70; 0x1800e30; 0x1800e70; 0x1800e30; 0x1800e70; 0x1f80e30; 0x1f00e70;
   0x0; 0x0; 0x0; 0x0; 0x202000; 0x0; 0x0; 0x0;
   0x180; 0xc180; 0x1fdc0; 0x3fe3cc0; 0x3fe0ce0; 0x3860c60; 0x3860c70; 0x3860c70;
   0x3860c78; 0x3860c78; 0x3860c7c; 0x3860c6e; 0x3860c74; 0x3860c60; 0x3860c70; 0x3860c60;
   0x386cc70; 0x386fe60; 0x1f67e70; 0x1f61e60; 0x560670; 0x60060; 0x60070; 0x60060;
   0x60070; 0x0; 0x0; 0x0; 0x0; 0x202000; 0x0; 0x0;
   0x0; 0x70180; 0x30380; 0x701c0; 0x301c0; 0x700c0; 0x2abaae0; 0x3fffe70;
   0x3fffe70; 0x3870e78; 0x3830e78; 0x3870e7c; 0x3830e6c; 0x3870e64; 0x3830e60; 0x3fffe60;
   0x3fffe60; 0x3870e60; 0x3830e60; 0x70060; 0x30060; 0x70060; 0x30060; 0x70060;
   0x30060; 0x70060; 0x0; 0x0; 0x0; 0x0; 0x202000; 0x0;
   0x0; 0x0; 0xc1d80; 0xc1d80; 0xc1dc0; 0xc1cc0; 0xc1cc0; 0xc1ce0;
   0x10c1c70; 0x18c1c70; 0x1cc1c78; 0xedfc78; 0x7dfc7c; 0x3c1c6e; 0xc1c64; 0xc1c60;
   0xc1c60; 0xc1c60; 0xc1c60; 0xc1c60; 0x10c1c60; 0x30d1c60; 0x70dfc60; 0x30cfc60;
   0x3fc7c60; 0x3fc0c60; 0x460; 0x0; 0x0; 0x0; 0x0; 0x202000;
   0x0; 0x0; 0x0; 0x6100; 0x6380; 0x7180; 0x31c0; 0x3fff9c0;
   0x3fff8e0; 0x1575c70; 0x61c70; 0x70e78; 0x60f78; 0x7067c; 0x6006c; 0x5575464;
   0x3fffe60; 0x7fffe60; 0x60060; 0x70060; 0x60060; 0x70060; 0x60060; 0x70060;
   0x60060; 0x70060; 0x60060; 0x70060; 0x0; 0x0; 0x0; 0x0;
   0x202000; 0x0; 0x0; 0x0; 0x70100; 0x60380; 0x73180; 0x631c0;
   0x739c0; 0xaeb8e0; 0x1fff870; 0x1fffc70; 0x71c78; 0x60e78; 0x70e7c; 0x6046c;
   0x70064; 0x2aeaa60; 0x3fffe60; 0x3fffe60; 0x70060; 0x60060; 0x70060; 0x60060].
Definition hanzi_data_15 : list N :=
  [0x70060; 0x60060; 0x70060; 0x60060; 0x70060; 0x0; 0x0; 0x0;
   0x0; 0x202000; 0x0; 0x0; 0x0; 0x70100; 0x30380; 0x78180;
   0xf81c0; 0x1dc1c0; 0x1ce0e0; 0x787070; 0xf03870; 0x1e01c78; 0x3c00e78; 0x3b077fc;
   0x30336c; 0x307064; 0x303060; 0x307060; 0x303060; 0x307060; 0x303060; 0x303060;
   0x303860; 0x301860; 0x301c60; 0x301e60; 0x300f60; 0x300660; 0x0; 0x0;
   0x0; 0x0; 0x202000; 0x0; 0x0; 0x0; 0x300; 0xe00300;
   0x1ff0380; 0x3ffb80; 0x7fdc0; 0x60cc0; 0x700e0; 0x600f0; 0x700f8; 0x600f8;
   0x700fc; 0x2aeaaee; 0x7ffffe4; 0x3fffee0; 0x700e0; 0x600e0; 0x700e0; 0x600e0;
   0x700e0; 0x600e0; 0x700e0; 0x600e0; 0x3fffce0; 0x3fffce0; 0xe0; 0x0;
   0x0; 0x0; 0x0; 0x202000; 0x0; 0x0; 0x0; 0x100180;
   0x18c380; 0x18e1c0; 0x38e1c0; 0x3070c0; 0x3070e0; 0x703070; 0xe03870; 0x1c01c78;
   0x3c00e78; 0x7ffff7c; 0x3fffe6c; 0x7ffa64; 0xe1c060; 0x61c060; 0x60c060; 0x60c060;
   0x60e060; 0x606060; 0x606060; 0x707060; 0x703860; 0x751c60; 0x3e0e60; 0x1e0460;
   0x0; 0x0; 0x0; 0x0; 0x202000; 0x0; 0x0; 0x0;
   0x70180; 0x70380; 0x701c0; 0xe01c0; 0x601c0; 0x3fffee0; 0x7fffe70; 0xc070;
   0xc078; 0xc078; 0xc07c; 0xffe06c; 0x1ffe064; 0xc0e060; 0x1c06060; 0xc06060;
   0xc07060; 0xc07060; 0xc07060; 0xc03860; 0xe03860; 0xe01c60; 0x751e60; 0x7e0f60;
   0x3e0660; 0x0; 0x0; 0x0; 0x0; 0x202000; 0x0; 0x0;
   0x0; 0x6000; 0xe000; 0xf000; 0x1f800; 0x39c00; 0xf0e00; 0x1e0780;
   0x3863e0; 0x1f061f0; 0x3e0607e; 0x380601c; 0x2006000; 0x60c0; 0x2ae0c0; 0x7fe0c0;
   0x7fe0c0; 0x60c0; 0x60c0; 0x60c0; 0x60c0; 0x60c0; 0x60c0; 0x3fffffc;
   0x3fffff8; 0x0; 0x0; 0x0; 0x0; 0x0; 0x202000; 0x0;
   0x0; 0x0; 0x4180; 0xe380; 0x7c1c0; 0xf81c0; 0x1e00c0; 0x1800e0;
   0x10e070; 0xe070; 0xe078; 0x60e07c; 0xe0ec7e; 0xc0ee6e; 0x1c0e664; 0x180e660;
   0x380e660; 0x300e660; 0x700e760; 0x300e360; 0xe0e360; 0xe0e060; 0x60e060; 0x60e060;
   0x7fe060; 0x7fe060; 0x3fc060; 0x0; 0x0; 0x0; 0x0; 0x202000;
   0x0; 0x0; 0x0; 0x18100; 0x38380; 0x701c0; 0x701c0; 0x700c0;
   0x3fffee0; 0x3fffe70; 0x70; 0x78; 0x2aa07c; 0x3ff07e; 0x3ff06e; 0x307064;
   0x303060; 0x307060; 0x303060; 0x303060; 0x303060; 0x1303060; 0x2303860; 0x7301c60;
   0x2301c60; 0x3700e60; 0x3f00760; 0x1f00360; 0x0; 0x0; 0x0; 0x0;
   0x202000; 0x0; 0x0; 0x0; 0x100; 0x380; 0x1fffd80; 0xfffdc0;
   0x1c181c0; 0xc180e0; 0x1c18070; 0xc18070; 0x7ffff78; 0x3ffff7c; 0x5d5d57e; 0xc1806e;
   0x1c18064; 0xc18060; 0x1fffc60; 0xfffc60; 0x1fffc60; 0xc0c060; 0xc060; 0xe060;
   0x7060; 0x3860; 0x1c60; 0xf60; 0x660; 0x0; 0x0; 0x0;
   0x0; 0x202000; 0x0; 0x0; 0x0; 0x1c0; 0x1c0; 0x3ffdc0;
   0x3ffce0; 0x3860e0; 0x186060; 0x186070; 0x1c6078; 0xc7078; 0x1fc607c; 0x1fe707c;
   0x180f06e; 0x1c0f074; 0xc0f060; 0xe1f070; 0x63b860; 0x771870; 0x3f1860; 0x3e1c70;
   0x1c0c60; 0x3f0e70; 0xf78e60; 0x1e3c770; 0x3c0e3e0; 0x1004170; 0x0; 0x0;
   0x0; 0x0; 0x202000; 0x0; 0x0; 0x0; 0x100; 0x380;
   0x3fffd80; 0x3fffdc0; 0x157d5c0; 0x380e0; 0x18070; 0x18070; 0x1c078; 0x18078;
   0x55d47c; 0xfffc6e; 0xfffc64; 0xe0c060; 0xe0c060; 0xe0e060; 0x60e060; 0x60e060;
   0x606060; 0x606060; 0x607060; 0x607060; 0x7ffff60; 0x3fffe60; 0x60; 0x0;
   0x0; 0x0; 0x0; 0x202000; 0x0; 0x0; 0x0; 0x70180;
   0x30380; 0x701c0; 0x301c0; 0x7fffec0; 0x3fffee0; 0x1575470; 0x30070; 0x70078;
   0x30078; 0x1fffe7c; 0x1fffe6e; 0x1fffe64; 0xe03860; 0xe03060; 0x707060; 0x78e060;
   0x3ce060; 0x1fc060; 0xf8060; 0x1fc060; 0x3df060; 0x1f87c60; 0x3e03f60; 0x1000660;
   0x0; 0x0; 0x0; 0x0; 0x202000; 0x0; 0x0; 0x0;
   0x30100; 0x230380; 0x730180; 0xe301c0; 0x1c301c0; 0x18300e0; 0x830070; 0x30070;
   0x3fffe78; 0x3fffe78; 0x7007c; 0x7806e; 0x78064; 0xf8060; 0xd8060; 0xd8060;
   0x1dc060; 0x18e060; 0x38e060; 0x307060; 0x707060; 0xe03860; 0x3c01e60; 0x3800f60;
   0x1000460; 0x0; 0x0; 0x0; 0x0; 0x202000; 0x0; 0x0;
   0x0; 0x1c100; 0x198300; 0x79c380; 0xf18380; 0x1c181c0; 0x180c0; 0x3c180e0;
   0x3ffe0e0; 0x3fffff0; 0x3fef8; 0x1c380fc; 0xc380ee; 0xe300ec; 0x6300e0; 0x7700e0;
   0x3f00e0; 0x1f00e0; 0xe00e0; 0x10f80e0; 0x30fc0e0; 0x71df0e0; 0x3187ce0; 0x3781ee0;
   0x3f004e0; 0x1e000e0; 0x0; 0x0; 0x0; 0x0; 0x202000; 0x0;
   0x0; 0x0; 0x70100; 0x30300; 0x70380; 0x30380; 0x701c0; 0x300c0;
   0x700e0; 0x3fffef0; 0x3fffff0; 0xf80f8; 0x1fc0fc; 0x1bc0ee; 0x1fe0e4; 0x3be0e0;
   0x7770e0; 0x6330e0; 0xe738e0; 0x1c31ce0; 0x3c71ee0; 0x7830fe0; 0x70707e0; 0x20302e0;
   0x700e0; 0x300e0; 0x700e0; 0x0; 0x0; 0x0; 0x0; 0x202000;
   0x0; 0x0; 0x0; 0x6000; 0xe000; 0x7000; 0xf800; 0x1fc00;
   0x39e00; 0xf0f00; 0x1e0780; 0x7c01f0; 0x3f000f8; 0x3ce037c; 0xe0308; 0xe0380;
   0x60380; 0xe0380; 0xe0780; 0x1f0fc0; 0x1b1cc0; 0x3bb8c0; 0x3bb0e0; 0x71c070;
   0xe0c070; 0x3c0f03c; 0x380781c; 0x1003008; 0x0; 0x0; 0x0; 0x0;
   0x202000; 0x0; 0x0; 0x0; 0x1c100; 0x398380; 0x71c180; 0xe1c1c0].
Definition hanzi_data_16 : list N :=
  [0x1c1c1c0; 0xc1c0e0; 0x3ffff60; 0x3ffff70; 0x3ffff78; 0xc078; 0xcc07c; 0xec06c;
   0xec064; 0xee060; 0xee060; 0xe6060; 0xe7060; 0xe7060; 0x10e7060; 0x30e3860;
   0x30e1c60; 0x30e1c60; 0x3fc0f60; 0x1fc0760; 0x260; 0x0; 0x0; 0x0;
   0x0; 0x202000; 0x0; 0x0; 0x0; 0x70100; 0x70380; 0x70180;
   0x701c0; 0x701c0; 0x30718e0; 0x3871870; 0x3871870; 0x1871c78; 0x1c31878; 0x1c71c7c;
   0xc30c6c; 0xe70e64; 0x70c60; 0x70060; 0xf8060; 0xd8060; 0xd8060; 0x1dc060;
   0x38e060; 0x78f060; 0xf07860; 0x3e03e60; 0x3800e60; 0x3000660; 0x0; 0x0;
   0x0; 0x0; 0x202000; 0x0; 0x0; 0x0; 0x4000; 0xe000;
   0xf000; 0x1f800; 0x79c00; 0xf0e00; 0x1e0780; 0x7803e0; 0x1fffff8; 0x3cffffc;
   0x11fff1c; 0x0; 0x0; 0xaaaaa8; 0x1fffff8; 0x1fffff8; 0x41c00; 0xe0e00;
   0x1c0700; 0x380380; 0x7001c0; 0xfffee0; 0xfffff0; 0x1c00fe0; 0xc00000; 0x0;
   0x0; 0x0; 0x0; 0x202000; 0x0; 0x0; 0x0; 0x100;
   0x380; 0x3fffd80; 0x3fffd80; 0x1dc0; 0xc01ce0; 0xc0dc60; 0xe1dc70; 0x63dc78;
   0x739c78; 0x771c7c; 0x3e1c6e; 0x1c1c64; 0x3c1c60; 0x7e1c60; 0x771c60; 0xe79c60;
   0xc39c60; 0x1c1fc60; 0x80fc60; 0x5c60; 0x1c60; 0x7fffc60; 0x3fffc60; 0x60;
   0x0; 0x0; 0x0; 0x0; 0x202000; 0x0; 0x0; 0x0;
   0x4000; 0xe000; 0xf000; 0x3fc00; 0x79f00; 0x1e0780; 0x7c03e0; 0x3f060f8;
   0x7c0607c; 0x230608c; 0x3061c0; 0x386180; 0x1c6380; 0xc6300; 0xe6700; 0x6000;
   0x1557554; 0x3fffffc; 0x3fffffc; 0x6000; 0x6000; 0x6000; 0x6000; 0x6000;
   0x6000; 0x0; 0x0; 0x0; 0x0; 0x202000; 0x0; 0x0;
   0x0; 0x30100; 0x30380; 0x30180; 0x30180; 0x1ffffc0; 0x1fffee0; 0x30060;
   0x30070; 0x1fffc70; 0xfffc78; 0x1fffc7c; 0x3006c; 0x30064; 0x2abaa60; 0x3ffff60;
   0x3fffe60; 0x3030060; 0x3830060; 0x3830060; 0x3830060; 0x1830060; 0x1e30060; 0xe30060;
   0x30060; 0x30060; 0x0; 0x0; 0x0; 0x0; 0x202000; 0x0;
   0x0; 0x0; 0x30100; 0x38380; 0x381c0; 0x1fffdc0; 0x1fffcc0; 0x180e0;
   0x1c070; 0xc070; 0x3ffff78; 0x3ffff7c; 0x155757e; 0x606e; 0x7074; 0xfff060;
   0x1fff070; 0xeaa860; 0x700070; 0x380060; 0x1c4070; 0xfe060; 0x7c070; 0xf0060;
   0x1e0070; 0x380060; 0x100070; 0x0; 0x0; 0x0; 0x0; 0x202000;
   0x0; 0x0; 0x0; 0x180; 0x3fffb80; 0x3fffdc0; 0x2faa9c0; 0x7010c0;
   0x7030e0; 0x703070; 0x703070; 0x703878; 0x703878; 0x7fff87c; 0x3fff86c; 0x7fffc64;
   0x7c0060; 0x7e0060; 0x770060; 0x73c060; 0x71e060; 0x70f060; 0x707860; 0x703e60;
   0x700f60; 0x750660; 0x3f0060; 0x1f0060; 0x0; 0x0; 0x0; 0x0;
   0x202000; 0x0; 0x0; 0x0; 0x100; 0xfff380; 0xfff180; 0xeab180;
   0xc031c0; 0xc230e0; 0xc73060; 0xc63070; 0xc73078; 0xc63078; 0xc7307c; 0xc6306e;
   0xc73064; 0xc63060; 0xc73060; 0xcf3060; 0xf0060; 0xf8060; 0x30dc060; 0x30cc060;
   0x30ce060; 0x30c7860; 0x3fc3c60; 0x1f80e60; 0x460; 0x0; 0x0; 0x0;
   0x0; 0x202000; 0x0; 0x0; 0x0; 0x6180; 0xe380; 0x71c0;
   0x71c0; 0x3fff0c0; 0x3fff8e0; 0x1c70; 0x38c70; 0x38f78; 0x3867c; 0x3807e;
   0x1fffc6e; 0x1fffc64; 0x1818060; 0x1818060; 0x1818060; 0x1c1c060; 0x180c060; 0x1c0e060;
   0x1c0e060; 0x1c07060; 0xc03860; 0xfe1c60; 0xfe0e60; 0x540660; 0x0; 0x0;
   0x0; 0x0; 0x202000; 0x0; 0x0; 0x0; 0x7100; 0xc03380;
   0xe071c0; 0xe031c0; 0x7071c0; 0x3830e0; 0x1c7070; 0xe3070; 0x7f078; 0x33078;
   0x3ffff7c; 0x3fffe6e; 0x3ffff64; 0xe3060; 0xc7060; 0xc3060; 0x1c7060; 0x383060;
   0x307060; 0x703060; 0xe77060; 0x1cff060; 0x7c1f860; 0x3003860; 0x1060; 0x0;
   0x0; 0x0; 0x0; 0x202000; 0x0; 0x0; 0x0; 0x70180;
   0x30380; 0x781c0; 0xf80c0; 0x1dc0c0; 0x38e0e0; 0x787070; 0xe03870; 0x1e01c78;
   0x3800f78; 0x3003f7c; 0x20386e; 0x703864; 0x3c3860; 0x1f3860; 0x7f860; 0x1f860;
   0x3860; 0x3860; 0x1803860; 0x1803860; 0x1803860; 0x1fff060; 0xfff060; 0x7fc060;
   0x0; 0x0; 0x0; 0x0; 0x202000; 0x0; 0x0; 0x0;
   0x70100; 0x30380; 0x78180; 0xfc1c0; 0x1dc1c0; 0x38e0e0; 0x787070; 0xf03870;
   0x1e01e78; 0x3eaaf78; 0x37fff7c; 0x7ff86e; 0x701864; 0x301860; 0x701860; 0x301860;
   0x3f1860; 0x3f1860; 0x1851860; 0x1801860; 0x1801860; 0x1803860; 0x1fff860; 0xfff060;
   0x554060; 0x0; 0x0; 0x0; 0x0; 0x202000; 0x0; 0x0;
   0x0; 0x38100; 0x38380; 0x38d80; 0x39dc0; 0x1b9c0; 0x3b0e0; 0x19070;
   0x3fffe70; 0x1fffe78; 0x381807c; 0x181c07e; 0x181c06e; 0x187c064; 0x18ec060; 0x18ec060;
   0x19ce060; 0x1f86060; 0x1986060; 0x1c07060; 0x1c03860; 0x1c01c60; 0xc01e60; 0xfe0f60;
   0xfe0760; 0x7c0260; 0x0; 0x0; 0x0; 0x0; 0x202000; 0x0;
   0x0; 0x0; 0x10100; 0x38300; 0x70300; 0xe0380; 0xe01c0; 0x2aea8c0;
   0x3fffce0; 0x3fffce0; 0x3000cf0; 0x3000cf8; 0x3000cfc; 0x20008ee; 0xec; 0xe0;
   0xe0; 0xe0; 0xe0; 0xe0; 0xe0; 0xe0; 0x15554e0; 0x3fffce0;
   0x7fffce0; 0xe0; 0xe0; 0x0; 0x0; 0x0; 0x0; 0x202000;
   0x0; 0x0; 0x0; 0x30100; 0x30380; 0x701c0; 0x601c0; 0x3fffec0;
   0x3fffee0; 0x3fffe70; 0x18070; 0x1c078; 0x60e078; 0x70707c; 0x38306c; 0x1d3864;
   0xffc60; 0xffc60; 0x70060; 0x738060; 0x61c060; 0xe0e060; 0xe06060; 0x1d07860].
Definition hanzi_data_17 : list N :=
  [0x1fffc60; 0x3fffc60; 0x3800c60; 0x1000060; 0x0; 0x0; 0x0; 0x0;
   0x202000; 0x0; 0x0; 0x0; 0x70300; 0x30380; 0x38180; 0x38180;
   0x181c0; 0xfffcc0; 0x1fffce0; 0xc00c60; 0x1c01c70; 0xc00c78; 0x1c01c7c; 0xc00c7c;
   0x1c01c6c; 0xfffc60; 0x1fffc60; 0xc00c60; 0x1c01c60; 0xc00c60; 0x1c01c60; 0xc00c60;
   0x1c01c60; 0xfffc60; 0x1fffc60; 0xfffc60; 0x1c01c60; 0x0; 0x0; 0x0;
   0x0; 0x202000; 0x0; 0x0; 0x0; 0x70100; 0x60380; 0x701c0;
   0x601c0; 0x700c0; 0x600e0; 0x7fffe70; 0x3fffe70; 0x70078; 0x6007c; 0x7007e;
   0x6006e; 0x70064; 0x1fff860; 0x1fffc60; 0x1aab860; 0x1c01c60; 0x1801860; 0x1c01c60;
   0x1801860; 0x1c01c60; 0x1801860; 0x1fffc60; 0x1fff860; 0x1c01c60; 0x0; 0x0;
   0x0; 0x0; 0x202000; 0x0; 0x0; 0x0; 0x180; 0xaaa980;
   0x1fffdc0; 0x1fffcc0; 0x1c01cc0; 0x1800ce0; 0x1c01c70; 0x1fffc70; 0x1fffc78; 0xc78;
   0x1dc7c; 0x18c6c; 0x1c1dc64; 0x1e18c60; 0x7dcc60; 0x3f8c60; 0x7cc60; 0x18c60;
   0x101ce60; 0x3018e60; 0x301c660; 0x3018660; 0x381c760; 0x3ff83e0; 0x1ff0160; 0x0;
   0x0; 0x0; 0x0; 0x202000; 0x0; 0x0; 0x0; 0x70100;
   0x830b80; 0x1c71d80; 0xc319c0; 0xc719c0; 0xe338e0; 0x773070; 0x233070; 0x1575478;
   0x1fffc7c; 0x1fffc7e; 0x3006e; 0x70064; 0x30060; 0x70060; 0x3fffe60; 0x7ffff60;
   0x2abaa60; 0x70060; 0x30060; 0x70060; 0x30060; 0x70060; 0x30060; 0x70060;
   0x0; 0x0; 0x0; 0x0; 0x202000; 0x0; 0x0; 0x0;
   0x70100; 0x30380; 0x781c0; 0xfc1c0; 0xdc0c0; 0x1ce0e0; 0x387070; 0x703870;
   0x1e1de78; 0x3c38f7c; 0x387077e; 0x2006e; 0x555474; 0xfffc60; 0xfffc70; 0x700060;
   0x780070; 0x380060; 0x1c7070; 0xef060; 0x7c070; 0x38060; 0xf0070; 0x1e0060;
   0xc0070; 0x0; 0x0; 0x0; 0x0; 0x202000; 0x0; 0x0;
   0x0; 0x70180; 0x30380; 0x701c0; 0x301c0; 0x3fffec0; 0x3fffee0; 0x3575670;
   0x3030670; 0x3070678; 0x303067c; 0x3fffe7e; 0x3fffe6e; 0x3070664; 0x3030660; 0x3070660;
   0x3fffe60; 0x3fffe60; 0x3abae60; 0x3070660; 0x30060; 0x70060; 0x30060; 0x70060;
   0x30060; 0x70060; 0x0; 0x0; 0x0; 0x0; 0x202000; 0x0;
   0x0; 0x0; 0x180; 0xaaab80; 0x3fffdc0; 0x3fffdc0; 0x38000c0; 0x38000e0;
   0x3bffe70; 0x3bffe70; 0x3800078; 0x380007c; 0x38ffc7e; 0x38ffc6e; 0x38ffc74; 0x38c0c60;
   0x38c1c70; 0x38c0c60; 0x38c1c70; 0x38eac60; 0x38ffc70; 0x38aac60; 0x3801c70; 0x3800060;
   0x1940070; 0x1f80060; 0x1f80070; 0x0; 0x0; 0x0; 0x0; 0x202000;
   0x0; 0x0; 0x0; 0x1c0; 0xe001c0; 0xc01dc0; 0xe0ece0; 0xe1dce0;
   0xe18c60; 0xe19c70; 0xe38c78; 0xe31c78; 0x630c7c; 0x671c7c; 0x620c6e; 0x701c74;
   0x700c60; 0x701c70; 0x700c60; 0xfbdc70; 0xf9ec60; 0x1dcfc70; 0x19c3c60; 0x38e1e70;
   0x38f0c60; 0x7078470; 0x3038060; 0x10070; 0x0; 0x0; 0x0; 0x0;
   0x202000; 0x0; 0x0; 0x0; 0x19c0; 0x18c0; 0x18c0; 0x3fc18e0;
   0x3fc1860; 0x38c1860; 0x38dff70; 0x38dff78; 0x38d9878; 0x38d987c; 0x38d9c7c; 0x38d986e;
   0x38d9c74; 0x38d8c60; 0x38d9c70; 0x38d8c60; 0x38d8c70; 0x38d8c60; 0x38dcc70; 0x38d8e60;
   0x3fdc670; 0x3fcc760; 0x38cff70; 0x38cfbe0; 0x1170; 0x0; 0x0; 0x0;
   0x0; 0x202000; 0x0; 0x0; 0x0; 0x100; 0x380; 0x3fffd80;
   0x3fffdc0; 0xe01c0; 0xe00e0; 0x70070; 0x38070; 0x17c078; 0x3be07c; 0xf7f07e;
   0x1e3786e; 0x3c73c64; 0x7830f60; 0x3070660; 0x30060; 0x70060; 0x30060; 0x70060;
   0x30060; 0x70060; 0x60; 0x7fffe60; 0x3fffe60; 0x60; 0x0; 0x0;
   0x0; 0x0; 0x202000; 0x0; 0x0; 0x0; 0x30100; 0x38380;
   0x1c1c0; 0x1c1c0; 0x18e0c0; 0x38e0e0; 0x707070; 0xe03870; 0x1c03878; 0x1fffc78;
   0x3fffe7c; 0x300bc6c; 0x1000064; 0x60; 0xfff860; 0xfff860; 0xc01860; 0xc01860;
   0xc01860; 0xc01860; 0xc01860; 0xc01860; 0xfff860; 0xfff860; 0xc01860; 0x0;
   0x0; 0x0; 0x0; 0x202000; 0x0; 0x0; 0x0; 0x180;
   0x380; 0x1fffdc0; 0x1fffdc0; 0x1870cc0; 0x1830ce0; 0x1870c70; 0x1830c70; 0x1870c78;
   0x1830c7c; 0x1870c7e; 0x1fffc6e; 0x1fffc74; 0x1abac60; 0x1870c70; 0x1830c60; 0x1870c70;
   0x1830c60; 0x1870c70; 0x1830c60; 0x1870c70; 0x1fffc60; 0x1fffc70; 0x1800c60; 0x1800c70;
   0x0; 0x0; 0x0; 0x0; 0x202000; 0x0; 0x0; 0x0;
   0x100; 0x380; 0x1fffb80; 0xfff980; 0x1c019c0; 0xc018e0; 0x1c01860; 0xc01870;
   0x1c01878; 0xfff878; 0x1fff87c; 0xc0186e; 0x1c01864; 0xc01860; 0x1c01860; 0xc01860;
   0x1fff860; 0xfff860; 0x1fff860; 0x60; 0x60; 0x60; 0x7ffff60; 0x3fffe60;
   0x60; 0x0; 0x0; 0x0; 0x0; 0x202000; 0x0; 0x0;
   0x0; 0x30100; 0x30300; 0x70380; 0x60180; 0x601c0; 0x1fffcc0; 0x1fffce0;
   0xf0; 0x6000f0; 0xe030f8; 0x6070fc; 0x6060ec; 0x7060e4; 0x7060e0; 0x7060e0;
   0x30e0e0; 0x30e0e0; 0x30e0e0; 0x38c0e0; 0x18c0e0; 0x1840e0; 0x1800e0; 0x3fffee0;
   0x3fffee0; 0xe0; 0x0; 0x0; 0x0; 0x0; 0x202000; 0x0;
   0x0; 0x0; 0xc00180; 0x1f80380; 0xfff1c0; 0xff9c0; 0xc7cc0; 0xc18e0;
   0xc1c70; 0xc1870; 0x1c1c78; 0xc1878; 0x3fffc7c; 0x3fff86e; 0x3fffc64; 0x181860;
   0x181c60; 0x181860; 0x181c60; 0x381860; 0x301c60; 0x6331860; 0x7771c60; 0x3669860;
   0x3effc60; 0x3cc7e60; 0x1c40c60; 0x0; 0x0; 0x0; 0x0; 0x202000;
   0x0; 0x0; 0x0; 0x18100; 0x38380; 0x70380; 0x60180; 0xe01c0].
Definition hanzi_data_18 : list N :=
  [0x3fffee0; 0x3fffee0; 0x2aeaaf0; 0x700f0; 0x600f8; 0x700fc; 0x600ec; 0x700e4;
   0x1fff8e0; 0x1fffce0; 0x600e0; 0x700e0; 0x600e0; 0x700e0; 0x600e0; 0x700e0;
   0x600e0; 0x7fffee0; 0x3fffee0; 0xe0; 0x0; 0x0; 0x0; 0x0;
   0x202000; 0x0; 0x0; 0x0; 0x18100; 0x18380; 0x1c180; 0x1c1c0;
   0x1c1c0; 0x2aaeae0; 0x7ffff70; 0x3fffe70; 0xe078; 0x607c; 0x707e; 0x706e;
   0x3fff064; 0x3fff860; 0x3fff860; 0xc1860; 0x1c1c60; 0xc0e60; 0x1c0e60; 0xc0760;
   0x1c07e0; 0xc0360; 0x7fff860; 0x3fff860; 0x60; 0x0; 0x0; 0x0;
   0x0; 0x202000; 0x0; 0x0; 0x0; 0x30100; 0x38380; 0x38180;
   0x381c0; 0x181c0; 0x3fffee0; 0x7ffff70; 0x2aaea70; 0xc078; 0xe07c; 0x607e;
   0x606e; 0x1557064; 0x1fff860; 0x1fff860; 0x1807c60; 0x1807e60; 0x1806f60; 0x1807760;
   0x1806260; 0x1807060; 0x1ffe060; 0x1fff060; 0x1806060; 0x1807060; 0x0; 0x0;
   0x0; 0x0; 0x202000; 0x0; 0x0; 0x0; 0x30180; 0x30180;
   0x301c0; 0x300c0; 0x300e0; 0x2abaae0; 0x3ffff70; 0x3fffe70; 0xfc078; 0xfc078;
   0x1fc07c; 0x1b606e; 0x3b7064; 0x333060; 0x733860; 0xe31860; 0x1c31c60; 0x3c30e60;
   0x7fff760; 0x33ff360; 0x30060; 0x30060; 0x30060; 0x30060; 0x30060; 0x0;
   0x0; 0x0; 0x0; 0x202000; 0x0; 0x0; 0x0; 0x180;
   0x380; 0x1c0; 0x3ffffc0; 0x7fffec0; 0xc000e0; 0x1c00070; 0xc00070; 0x1c7fc78;
   0xc7fc78; 0x1c7fc7c; 0xc60c6c; 0x1c61c64; 0xc60c60; 0x1c61c60; 0xc60c60; 0x1c7fc60;
   0xc7fc60; 0x1c01c60; 0xc00c60; 0x1c00060; 0xc00060; 0x1d40060; 0xfe0060; 0x7e0060;
   0x0; 0x0; 0x0; 0x0; 0x202000; 0x0; 0x0; 0x0;
   0x4100; 0x1e380; 0x1c7c180; 0xcf01c0; 0xee01c0; 0x6800e0; 0x706070; 0x306070;
   0x386078; 0x58647c; 0xfc6c7e; 0xce6e6e; 0x1ce6664; 0x1876660; 0x383e660; 0x303e660;
   0x701e760; 0x700e3e0; 0x607160; 0xe07860; 0x607c60; 0x606e60; 0x7fe760; 0x7fe260;
   0x1fc060; 0x0; 0x0; 0x0; 0x0; 0x202000; 0x0; 0x0;
   0x0; 0x30100; 0x30380; 0x701c0; 0xe01c0; 0x3fffcc0; 0x3fffce0; 0x3000c70;
   0x3000c70; 0x3007c78; 0x2006878; 0x707c; 0xe0606c; 0x1f07064; 0x3e6060; 0x1ff060;
   0x3e060; 0x7060; 0x6060; 0x1007060; 0x3006060; 0x3007060; 0x3806060; 0x1fff060;
   0x1ffe060; 0x550060; 0x0; 0x0; 0x0; 0x0; 0x202000; 0x0;
   0x0; 0x0; 0x4000; 0x6000; 0x1f000; 0x1b800; 0x79c00; 0xe0e00;
   0x1c0780; 0x7803e0; 0x1f555f0; 0x7cfff3e; 0x30fff1c; 0x0; 0x0; 0xfffff8;
   0x1fffff8; 0x6000; 0x86180; 0x1c6380; 0x3861c0; 0x7060e0; 0xe06070; 0x1c06038;
   0x1c0601c; 0x807e00; 0x7c00; 0x0; 0x0; 0x0; 0x0; 0x202000;
   0x0; 0x0; 0x0; 0x6000; 0xe000; 0x1f000; 0x3b800; 0x79e00;
   0xe0700; 0x3c03c0; 0xf801e0; 0x7fffffc; 0x39fffbe; 0x315750c; 0x6000; 0x6000;
   0xaaeaa8; 0x1fffff8; 0x1fffff8; 0x6000; 0x86180; 0x1c63c0; 0x3861c0; 0xf060f0;
   0x1e06078; 0x1c0603c; 0x807e08; 0x7e00; 0x0; 0x0; 0x0; 0x0;
   0x202000; 0x0; 0x0; 0x0; 0x70100; 0x63380; 0x731c0; 0x639c0;
   0x718c0; 0x1fff8e0; 0x1fffc70; 0x60c70; 0x70c78; 0x60e7c; 0x7067e; 0x7006e;
   0x7ffff64; 0x3fffe60; 0x70060; 0xf8060; 0xf8060; 0xd8060; 0x1dc060; 0x38e060;
   0x707060; 0xe03860; 0x3c01e60; 0x3800f60; 0x3000660; 0x0; 0x0; 0x0;
   0x0; 0x202000; 0x0; 0x0; 0x0; 0x1c6180; 0xce380; 0x1ce1c0;
   0xce1c0; 0x1fffec0; 0x1fffee0; 0x19ce070; 0x18ce070; 0x19ce078; 0x1fffe7c; 0x1fffe7e;
   0xce66e; 0x1ce664; 0xce660; 0x15df760; 0x3ffff60; 0x3ffff60; 0x30c6060; 0x31c7060;
   0x30c3060; 0x31c3860; 0x3ec3860; 0x1fc1e60; 0xc0f60; 0x1c0760; 0x0; 0x0;
   0x0; 0x0; 0x202000; 0x0; 0x0; 0x0; 0x4100; 0x1c380;
   0xc380; 0xe180; 0x7ffe1c0; 0x3fff0e0; 0x7fff0e0; 0x338f0; 0x31cf0; 0x31cf8;
   0x3ff0efc; 0x3ff06ec; 0x3ff04e4; 0x300e0; 0x300e0; 0x300e0; 0x3ff00e0; 0x3ff00e0;
   0x3ff00e0; 0x300e0; 0x300e0; 0x300e0; 0x300e0; 0x300e0; 0x300e0; 0x0;
   0x0; 0x0; 0x0; 0x202000; 0x0; 0x0; 0x0; 0x6100;
   0x6380; 0x7180; 0x31c0; 0x3fff1c0; 0x3fff8e0; 0x3fffc70; 0x3801c70; 0x3000e78;
   0x38aaf78; 0x38fff7c; 0x38eba6c; 0x38c1864; 0x38c1860; 0x38c1860; 0x38c1860; 0x18d5860;
   0x18ff860; 0x18ff860; 0x1801860; 0x1c00060; 0x1c00060; 0x1d40060; 0xfe0060; 0x7e0060;
   0x0; 0x0; 0x0; 0x0; 0x202000; 0x0; 0x0; 0x0;
   0x180; 0x180; 0x1fffdc0; 0xfffcc0; 0xc0; 0xe0; 0x70; 0x3ffff70;
   0x3ffff78; 0x3807c; 0x1c07e; 0x1c06e; 0x3ffff74; 0x3ffff60; 0x3ffff70; 0x303060;
   0x303870; 0x383860; 0x1df870; 0xfe060; 0x1f0070; 0x7fc060; 0x1f1fc70; 0x3c03f60;
   0x1000770; 0x0; 0x0; 0x0; 0x0; 0x202000; 0x0; 0x0;
   0x0; 0xc180; 0xe380; 0x4061c0; 0xfff1c0; 0xfff0c0; 0x6038e0; 0x707c70;
   0x386e70; 0x1ce778; 0xfc27c; 0x7807e; 0xfe06e; 0x7cf864; 0x3f83e60; 0x3c01f60;
   0x200e260; 0xfe060; 0x3f0060; 0x3c0060; 0x860; 0xfc60; 0x7f860; 0x7fc060;
   0x7c0060; 0x700060; 0x0; 0x0; 0x0; 0x0; 0x202000; 0x0;
   0x0; 0x0; 0x6180; 0x6380; 0x71c0; 0x31c0; 0x30c0; 0x3fff8e0;
   0x3fff870; 0x3aeb870; 0x3061c78; 0x3860e7c; 0x186077e; 0x46066e; 0x667064; 0xe63060;
   0xc63060; 0x1c63860; 0x1c61860; 0x1861c60; 0x3861c60; 0x3860e60; 0x3060660; 0x60060].
Definition hanzi_data_19 : list N :=
  [0x70060; 0x7c060; 0x7c060; 0x0; 0x0; 0x0; 0x0; 0x202000;
   0x0; 0x0; 0x0; 0x180; 0x380; 0x3fffdc0; 0x3fffdc0; 0x3871cc0;
   0x3860ce0; 0x3871c70; 0x3860c70; 0x3fffc78; 0x3fffc7c; 0x3d75c7e; 0x3860c6e; 0x3871c64;
   0x3860c60; 0x3fffc60; 0x3fffc60; 0x3fffc60; 0x3860c60; 0x3870c60; 0x3860e60; 0x3870660;
   0x3860660; 0x3870760; 0x3f603e0; 0x1f70160; 0x0; 0x0; 0x0; 0x0;
   0x202000; 0x0; 0x0; 0x0; 0x180; 0x180; 0x3fffdc0; 0x3fffcc0;
   0x70c0; 0x30e0; 0x7070; 0x7ff070; 0x7ff078; 0x603078; 0x70307c; 0x60b06e;
   0x71f064; 0x63b860; 0x773860; 0x663860; 0x763860; 0x6e3860; 0x701860; 0x6601860;
   0x6701860; 0x2679860; 0x7f7fc60; 0x3e0fc60; 0x1c00460; 0x0; 0x0; 0x0;
   0x0; 0x202000; 0x0; 0x0; 0x0; 0x4000; 0xe000; 0xf000;
   0x1f800; 0x39c00; 0xf0e00; 0x1e0780; 0x7c03e0; 0x1f555f0; 0x3effffe; 0x31fff9c;
   0x0; 0x603040; 0x603060; 0x7070e0; 0x3060c0; 0x3861c0; 0x18e180; 0x1cc380;
   0xc4300; 0xe0000; 0x60000; 0x3fffffc; 0x3fffff8; 0x0; 0x0; 0x0;
   0x0; 0x0; 0x202000; 0x0; 0x0; 0x0; 0x18100; 0x18380;
   0x18180; 0x181c0; 0x1ff81c0; 0x1ff80e0; 0x18070; 0x18070; 0x18078; 0x18078;
   0x7ffff7e; 0x3ffff6e; 0x7ffff64; 0x18060; 0x58060; 0xf8060; 0x3d8060; 0xf98060;
   0x1e18060; 0x1818060; 0x1018060; 0x18060; 0x18060; 0x18060; 0x18060; 0x0;
   0x0; 0x0; 0x0; 0x202000; 0x0; 0x0; 0x0; 0xc0;
   0xaaaac0; 0xfffec0; 0xeaaee0; 0xc00660; 0xc00660; 0xdff670; 0xdff638; 0xc30678;
   0xc30638; 0xdff67c; 0xdff63e; 0xd93674; 0xd93630; 0xd93670; 0xd93630; 0xd93770;
   0xd93230; 0x2d93770; 0x2d93330; 0x7dd3370; 0x2812330; 0x78103f0; 0x38101b0; 0x3010170;
   0x0; 0x0; 0x0; 0x0; 0x202000; 0x0; 0x0; 0x0;
   0x1c180; 0x80c180; 0x381c1c0; 0x18aeac0; 0x1dffec0; 0xfffee0; 0x71c070; 0x38c070;
   0x3dc078; 0x3ffff78; 0x7ffff7c; 0x7806e; 0x3c064; 0x1e060; 0x607060; 0xf87c60;
   0x7f7f60; 0xfe7e0; 0x1e160; 0x1006060; 0x3006060; 0x3806060; 0x1ffe060; 0x1ffe060;
   0x7f0060; 0x0; 0x0; 0x0; 0x0; 0x202000; 0x0; 0x0;
   0x0; 0xc01180; 0xe03980; 0xe071c0; 0x6060c0; 0x70e0c0; 0x3fffee0; 0x3fffe70;
   0x60070; 0x70078; 0x60078; 0x7007c; 0x1fffc6e; 0x1fffc64; 0x60060; 0x70060;
   0x60060; 0x7ffff60; 0x3fffe60; 0x7ffff60; 0x60060; 0x70060; 0x60060; 0x70060;
   0x60060; 0x70060; 0x0; 0x0; 0x0; 0x0; 0x202000; 0x0;
   0x0; 0x0; 0x180; 0x2aaab80; 0x3fffd80; 0x3fffd80; 0x301c0; 0x380c0;
   0x380e0; 0xaba860; 0x1fff870; 0xfff878; 0x1c0187c; 0xc0187c; 0x1c0186c; 0xc01864;
   0x1fff860; 0xfff860; 0x1fff860; 0xc01860; 0x1c01860; 0xc01860; 0x1c01860; 0xfff860;
   0x1fff860; 0xc01860; 0x1c01860; 0x0; 0x0; 0x0; 0x0; 0x202000;
   0x0; 0x0; 0x0; 0x70100; 0x70380; 0x70180; 0xafa9c0; 0x1fffdc0;
   0x1fff8e0; 0x70060; 0x70070; 0x70070; 0x3fffe78; 0x3fffe7c; 0x2aaaa6c; 0x70064;
   0x70060; 0x70060; 0x1fffc60; 0x1fffc60; 0xafa860; 0x70060; 0x70060; 0x70060;
   0x70060; 0x7ffff60; 0x3ffff60; 0x60; 0x0; 0x0; 0x0; 0x0;
   0x202000; 0x0; 0x0; 0x0; 0x180; 0x380; 0x3fffdc0; 0x3fffdc0;
   0xe030c0; 0xe030e0; 0xe03070; 0xfff070; 0xfff078; 0xe03078; 0xe0307c; 0xe0306c;
   0xe03064; 0xfff060; 0xfff060; 0xe03060; 0xe03060; 0x2e03060; 0x7ff7060; 0x3fffe60;
   0xe7fe60; 0xe00260; 0xe00060; 0xe00060; 0xe00060; 0x0; 0x0; 0x0;
   0x0; 0x202000; 0x0; 0x0; 0x0; 0x70100; 0x30380; 0x701c0;
   0x301c0; 0x3ffffc0; 0x3fffee0; 0x70070; 0x30070; 0x70078; 0x30078; 0x1fffe7c;
   0x1fffe6e; 0x64; 0x60; 0x60; 0xfffc60; 0xfffc60; 0xc00c60; 0xc01c60;
   0xc00c60; 0xc01c60; 0xc00c60; 0xfffc60; 0xfffc60; 0xc01c60; 0x0; 0x0;
   0x0; 0x0; 0x202000; 0x0; 0x0; 0x0; 0xc00100; 0x1f80380;
   0x1fffd80; 0xffdc0; 0x715c0; 0x700e0; 0x70070; 0x70070; 0x7ffff78; 0x3fffe7c;
   0x7007e; 0x7006e; 0x70064; 0x70060; 0x1fffc60; 0x1fff860; 0x1fffc60; 0x1801860;
   0x1c01c60; 0x1801860; 0x1c01c60; 0x1aab860; 0x1fffc60; 0x1fff860; 0x1c01c60; 0x0;
   0x0; 0x0; 0x0; 0x202000; 0x0; 0x0; 0x0; 0x10100;
   0x38380; 0x7c180; 0x7c1c0; 0xee1c0; 0x1c60e0; 0x787070; 0xf03870; 0x1e01e78;
   0x1ffff78; 0x17ffe7e; 0x2ba86e; 0x30064; 0x30060; 0x30060; 0xfffc60; 0xfffc60;
   0x30060; 0x30060; 0x30060; 0x30060; 0x30060; 0x3fffe60; 0x3fffe60; 0x60;
   0x0; 0x0; 0x0; 0x0; 0x202000; 0x0; 0x0; 0x0;
   0x1ce180; 0xce180; 0x1ce1c0; 0xce0c0; 0x19ce4c0; 0x18ce6e0; 0x1dcec70; 0xecec70;
   0x7cfc78; 0x2cf878; 0x1cf87c; 0xce06c; 0x1ce074; 0x7cf060; 0xfcfc70; 0x1ccfe60;
   0x39c6f70; 0x10c6260; 0x1c7070; 0xc3060; 0x71c3870; 0x30c3860; 0x35c1e70; 0x3fc0f60;
   0x1f80670; 0x0; 0x0; 0x0; 0x0; 0x202000; 0x0; 0x0;
   0x0; 0x30180; 0x30380; 0x701c0; 0x601c0; 0x7fffec0; 0x3fffee0; 0x70;
   0x386070; 0x707078; 0xe0387c; 0x1c01c7e; 0x3b00e6e; 0x7707764; 0x306260; 0x38e060;
   0x18c060; 0x1dc060; 0xf8060; 0x70060; 0xf8060; 0x1fc060; 0x78f060; 0x1f07c60;
   0x3e01f60; 0x3000760; 0x0; 0x0; 0x0; 0x0; 0x202000; 0x0;
   0x0; 0x0; 0x101c0; 0x301c0; 0x301c0; 0x386c0; 0x1ff8ee0; 0x3ff8c60].
Definition hanzi_data_20 : list N :=
  [0x1ffdc70; 0x180d870; 0x1cce878; 0xcc6078; 0xcc707c; 0xc206e; 0xc0074; 0xe3860;
   0x1e1870; 0x1e1860; 0x1f1c70; 0x3b0c60; 0x330e70; 0x738660; 0x61c770; 0xe0e360;
   0x3c07070; 0x3803860; 0x1001070; 0x0; 0x0; 0x0; 0x0; 0x202000;
   0x0; 0x0; 0x0; 0x84100; 0xce380; 0x1861c0; 0x3871c0; 0x3070c0;
   0x7038e0; 0xe01c70; 0x1c00e70; 0x3ffff78; 0x3fffbfc; 0x3601b7e; 0x60186e; 0x7ff864;
   0x7ff860; 0x601860; 0x601860; 0x601860; 0x7ff860; 0x7ff860; 0x601860; 0x601860;
   0x601860; 0x601860; 0x7e1860; 0x7e1860; 0x0; 0x0; 0x0; 0x0;
   0x202000; 0x0; 0x0; 0x0; 0x70300; 0x60380; 0x70180; 0x3ffffc0;
   0x7ffffc0; 0x600e0; 0x70070; 0x2aea870; 0x3fffc78; 0x3aeac7c; 0x3870c7e; 0x3860c6e;
   0x3870c64; 0x3fffc60; 0x3fffc60; 0x30860; 0x71c60; 0x31860; 0x3f860; 0x1e060;
   0x3c060; 0xff060; 0x1ff7c60; 0x3f81f60; 0x3c00660; 0x0; 0x0; 0x0;
   0x0; 0x202000; 0x0; 0x0; 0x0; 0x71180; 0x33b80; 0x739c0;
   0x319c0; 0x1fffcc0; 0x1fffce0; 0x1fffc70; 0x30e70; 0x70778; 0x3067c; 0x7007e;
   0x3ffff6e; 0x7ffff64; 0xce060; 0x1c6060; 0xc6060; 0x1c6060; 0xc6060; 0x11c7060;
   0x60c3060; 0x71c3860; 0x20c1c60; 0x7fc1f60; 0x3f80f60; 0x1f00360; 0x0; 0x0;
   0x0; 0x0; 0x202000; 0x0; 0x0; 0x0; 0x701c0; 0x601c0;
   0xe01c0; 0x3fffee0; 0x7fffee0; 0xe60; 0xf00e70; 0xfe0e70; 0x1ffe78; 0x7fe78;
   0x71e7c; 0x60e6e; 0x70e74; 0x3e60e60; 0x7fffe70; 0x3ffe60; 0x77670; 0x60660;
   0x70670; 0x2060660; 0x7070770; 0x3060360; 0x3fe0370; 0x3fe03e0; 0x1fc0170; 0x0;
   0x0; 0x0; 0x0; 0x202000; 0x0; 0x0; 0x0; 0x180;
   0xaaab80; 0xfffdc0; 0xfffdc0; 0xc01cc0; 0xc00ce0; 0xc01c70; 0xc00c70; 0xc01c78;
   0xeaac7c; 0xfffc7e; 0xfffc6e; 0x64; 0x631860; 0x631860; 0x631860; 0x631860;
   0x631860; 0x631860; 0x2631860; 0x6631c60; 0x6630e60; 0x6630f60; 0x3e307e0; 0x3c00360;
   0x0; 0x0; 0x0; 0x0; 0x202000; 0x0; 0x0; 0x0;
   0x180; 0x180; 0x3fffdc0; 0x3fffcc0; 0x1c0c0; 0x38e0e0; 0x707070; 0xe03070;
   0x1f43878; 0x1fffe78; 0x1dffc7c; 0x382006c; 0x70074; 0x70060; 0x70070; 0x1fffc60;
   0x1fffc70; 0x70060; 0x70070; 0x70060; 0x70070; 0x70060; 0x7ffff70; 0x3fffe60;
   0x70; 0x0; 0x0; 0x0; 0x0; 0x202000; 0x0; 0x0;
   0x0; 0x70100; 0x38380; 0x55c180; 0xffe1c0; 0xfff1c0; 0x703ce0; 0x785f70;
   0x1ce670; 0x1fc078; 0x78078; 0x1ff07c; 0xe7e6e; 0x1ff1e64; 0x3ff8060; 0x181e060;
   0x1c0f860; 0x1c1bc60; 0xe3ce60; 0x770460; 0x3e0060; 0x1f0060; 0x7c060; 0x1fc60;
   0x7f60; 0x1e60; 0x0; 0x0; 0x0; 0x0; 0x202000; 0x0;
   0x0; 0x0; 0x18180; 0x18380; 0x1c1c0; 0x2aaeac0; 0x3fffec0; 0x3fffee0;
   0x1c7070; 0x383870; 0xf01c78; 0x3fffe7c; 0x7bff7fe; 0x200036e; 0x74; 0x1fffe60;
   0x1fffe70; 0x6060; 0x7070; 0x2ab060; 0x7ff070; 0x6aa860; 0x700070; 0x600060;
   0x700070; 0x3f8060; 0x1f8070; 0x0; 0x0; 0x0; 0x0; 0x202000;
   0x0; 0x0; 0x0; 0x38000c0; 0x382aac0; 0x383ffe0; 0x39bfe60; 0x3981870;
   0x3981870; 0x3981c70; 0x398bc38; 0x399fc78; 0x399fc3c; 0x3998e7e; 0x399863c; 0x399c774;
   0x398cb30; 0x398dff0; 0x398f930; 0x398f070; 0x3986030; 0x3987070; 0x3803030; 0x3803870;
   0x3801c30; 0x1f81e70; 0x1f80730; 0x1f00670; 0x0; 0x0; 0x0; 0x0;
   0x202000; 0x0; 0x0; 0x0; 0x70100; 0x70380; 0x701c0; 0xafa9c0;
   0x1fffcc0; 0x1fffce0; 0x70070; 0x70070; 0x70078; 0x3fffe7c; 0x7ffff7e; 0x30006e;
   0x700064; 0x2baaa60; 0x3fffe60; 0x3fffe60; 0x701060; 0x303860; 0x707060; 0x30e060;
   0x70e060; 0x30c060; 0x700060; 0x3f0060; 0x3f0060; 0x0; 0x0; 0x0;
   0x0; 0x202000; 0x0; 0x0; 0x0; 0x70180; 0x33380; 0x731c0;
   0x339c0; 0x718c0; 0x1fff8e0; 0x1fffc70; 0x30c70; 0x70e78; 0x30678; 0x7047c;
   0x3fffe6c; 0x3ffff64; 0x2afaa60; 0x1fc060; 0x1bc060; 0x3fe060; 0x737060; 0xf77860;
   0xe33860; 0x3c71e60; 0x7830f60; 0x3070760; 0x30060; 0x70060; 0x0; 0x0;
   0x0; 0x0; 0x202000; 0x0; 0x0; 0x0; 0x18100; 0x18380;
   0x1c180; 0x1c180; 0x3ffffc0; 0x3fffee0; 0xe060; 0x6070; 0x1557078; 0xfff878;
   0x1fffc7c; 0xc07c6c; 0x1c07e64; 0xffe760; 0x1fff660; 0xc06060; 0x1c07060; 0xeae060;
   0x1fff060; 0xeae060; 0x1c07060; 0xc06060; 0x1c07060; 0xf86060; 0xf87060; 0x0;
   0x0; 0x0; 0x0; 0x202000; 0x0; 0x0; 0x0; 0x38100;
   0x38380; 0x39c180; 0x30e1c0; 0x7071c0; 0xfa38e0; 0x1fffc70; 0x3aff870; 0x1870078;
   0x63878; 0x7387c; 0xaeb86c; 0x1fffc64; 0x1fffc60; 0x70e60; 0x60660; 0x70460;
   0x3fffe60; 0x3ffff60; 0x60060; 0x70060; 0x60060; 0x70060; 0x60060; 0x70060;
   0x0; 0x0; 0x0; 0x0; 0x202000; 0x0; 0x0; 0x0;
   0x1c0; 0x3fffec0; 0x3fffec0; 0x38006e0; 0x3800660; 0x3800660; 0x3bff670; 0x3bfe678;
   0x3800678; 0x380067c; 0x39fe67c; 0x39fe66e; 0x3986674; 0x3986660; 0x3986670; 0x3986660;
   0x3986670; 0x39fe660; 0x39fe670; 0x3806660; 0x3804670; 0x3800660; 0x3800670; 0x1f00660;
   0x1f00670; 0x0; 0x0; 0x0; 0x0; 0x202000; 0x0; 0x0;
   0x0; 0x181c0; 0x381c0; 0x301c0; 0x3fffee0; 0x3fffee0; 0x3aaae60; 0x3800670;
   0x3b80670; 0x3ff0678; 0xfe078; 0x1fc7c; 0x1886e; 0x1c074; 0x3e98060; 0x3fff070;
   0x3fff60; 0x1ff70; 0x18060; 0x1c070; 0x3018060; 0x301c070; 0x3818060; 0x3ffc070].
Definition hanzi_data_21 : list N :=
  [0x1ff8060; 0x7d0070; 0x0; 0x0; 0x0; 0x0; 0x202000; 0x0;
   0x0; 0x0; 0x706180; 0x306380; 0x7061c0; 0x3061c0; 0x7060c0; 0x3060e0;
   0x3fffe70; 0x3fffe70; 0x706078; 0x30607c; 0x70607e; 0x30606e; 0x706064; 0x306060;
   0x7fffe60; 0x3fffe60; 0x7fffe60; 0x60; 0x30e060; 0x707060; 0xe07060; 0xc03860;
   0x1c01c60; 0x3800e60; 0x1000460; 0x0; 0x0; 0x0; 0x0; 0x202000;
   0x0; 0x0; 0x0; 0x10180; 0x38380; 0x701c0; 0x701c0; 0x600c0;
   0x3fffee0; 0x3ffff70; 0x38070; 0x3c078; 0x3e078; 0x307707c; 0x386386c; 0x1e63c64;
   0xfe3e60; 0x3c3f60; 0x1c3be0; 0x1c3960; 0x383860; 0x703860; 0x603860; 0x1e73860;
   0x3c7f860; 0x783f860; 0x3007c60; 0x1860; 0x0; 0x0; 0x0; 0x0;
   0x202000; 0x0; 0x0; 0x0; 0x70180; 0x30180; 0x701c0; 0x300c0;
   0x3fffec0; 0x3fffee0; 0x70070; 0xc30c70; 0xc71878; 0xe33878; 0x77307c; 0x33306c;
   0x271064; 0x3fffe60; 0x3ffff60; 0x78060; 0x78060; 0xf8060; 0x1dc060; 0x18e060;
   0x38f060; 0xf07860; 0x1e03e60; 0x3c00f60; 0x3000760; 0x0; 0x0; 0x0;
   0x0; 0x202000; 0x0; 0x0; 0x0; 0x180; 0xfff980; 0xfff9c0;
   0xe018c0; 0xe018e0; 0xe01860; 0xe01870; 0xe01870; 0xfff878; 0xfff878; 0xfff87c;
   0x6e; 0x64; 0xaaa860; 0x1fffc60; 0x1eaac60; 0x1c00c60; 0x1c00c60; 0x1c00c60;
   0x1c00c60; 0x1c00c60; 0x1fffc60; 0x1fffc60; 0x1eaac60; 0x1c00c60; 0x0; 0x0;
   0x0; 0x0; 0x202000; 0x0; 0x0; 0x0; 0x6180; 0xe180;
   0x140e1c0; 0x1ffe0c0; 0x1ffffc0; 0xc1fee0; 0xf1c070; 0x7b8070; 0x1f0078; 0x30f8078;
   0x31ffc7c; 0x3fc7e6c; 0x1f80c64; 0x800060; 0x3ffff60; 0x3ffff60; 0x3ffff60; 0xc6060;
   0x1c7060; 0xc7060; 0x71c3060; 0x30c3860; 0x75c1e60; 0x3fc0fe0; 0x1f00760; 0x0;
   0x0; 0x0; 0x0; 0x202000; 0x0; 0x0; 0x0; 0x38100;
   0x38380; 0x1ff8180; 0x1ff81c0; 0x1ff81c0; 0x380e0; 0x38070; 0x38070; 0x1fffc78;
   0xfffc78; 0x1c01c7e; 0xc30c6e; 0x1c31c64; 0xc30c60; 0x1c31c60; 0xc30c60; 0x1c31c60;
   0xc30c60; 0x1c39c60; 0x98060; 0x3dc060; 0xf8f060; 0x1e07c60; 0x3801e60; 0x1000660;
   0x0; 0x0; 0x0; 0x0; 0x202000; 0x0; 0x0; 0x0;
   0x38000c0; 0x38000e0; 0x393ff60; 0x39bab60; 0x39b0370; 0x39b3330; 0x39b3330; 0x39b3338;
   0x39b3338; 0x39b333c; 0x39b333c; 0x39b333e; 0x39b3334; 0x39b3330; 0x39b3330; 0x39b3330;
   0x39b3330; 0x39b3330; 0x39b1330; 0x3805830; 0x380dc30; 0x3818c30; 0x3838e30; 0x1f307b0;
   0x1f10330; 0x0; 0x0; 0x0; 0x0; 0x202000; 0x0; 0x0;
   0x0; 0x400180; 0xfa0380; 0xfffdc0; 0xffcc0; 0x380c0; 0x380e0; 0x18070;
   0x3ffff70; 0x3ffff78; 0x18e07c; 0x38707e; 0x70386e; 0xe03c64; 0x3c00e60; 0x7b877e0;
   0x2386360; 0x387060; 0x387060; 0x387060; 0x383060; 0x383860; 0x381860; 0x381c60;
   0x380e60; 0x380660; 0x0; 0x0; 0x0; 0x0; 0x202000; 0x0;
   0x0; 0x0; 0x70180; 0x38380; 0x781c0; 0xfc1c0; 0x1ce0c0; 0x3860e0;
   0x707870; 0xe03c70; 0x3c01f78; 0x3bffff8; 0x33ff37c; 0x6c; 0x64; 0x60;
   0x1fffe60; 0x1fffe60; 0xe060; 0x106060; 0x387060; 0x303060; 0x703860; 0xffbc60;
   0x1ffff60; 0x1c03e60; 0x800060; 0x0; 0x0; 0x0; 0x0; 0x202000;
   0x0; 0x0; 0x0; 0x181c0; 0x381c0; 0x700c0; 0x3fffee0; 0x3fffe60;
   0x703060; 0x307070; 0x38e078; 0x1dc078; 0xf807c; 0x1fc07e; 0xfff06e; 0x7f87f74;
   0x3c00f60; 0x707170; 0x303060; 0x707070; 0x303060; 0x707070; 0x303060; 0x703870;
   0x301860; 0x701e70; 0x300f60; 0x700270; 0x0; 0x0; 0x0; 0x0;
   0x202000; 0x0; 0x0; 0x0; 0x50180; 0x70180; 0x701c0; 0x300c0;
   0x3fffee0; 0x3fffe60; 0x3078670; 0x3078670; 0x307c678; 0x6c078; 0x6e07c; 0x18e606e;
   0x3cc7074; 0xec3860; 0x7c3c70; 0x383e60; 0x1837f0; 0x383260; 0x703070; 0x603060;
   0xe63070; 0x1c7f060; 0x787f870; 0x3007860; 0x1870; 0x0; 0x0; 0x0;
   0x0; 0x202000; 0x0; 0x0; 0x0; 0x71c0; 0x30c0; 0x38c0;
   0x3fff8e0; 0x3fffc60; 0xc60; 0xe70; 0xaaae70; 0x1ffff78; 0x1ebba78; 0x1c7187c;
   0xc6186e; 0x1cc1874; 0x3ffff60; 0x7ffff70; 0xc19860; 0xc39c70; 0xc60c60; 0xc60c70;
   0x3fffc60; 0x3fffc70; 0xe00060; 0x600070; 0x7e0060; 0x3e0070; 0x0; 0x0;
   0x0; 0x0; 0x202000; 0x0; 0x0; 0x0; 0x180; 0x3ff980;
   0x3ff9c0; 0x3aa8c0; 0x3800e0; 0x3800e0; 0x3ffff70; 0x3ffff70; 0x1555578; 0x3078;
   0x387c; 0xfff86e; 0x1fffc6c; 0x30e60; 0x30760; 0x30060; 0x3ffff60; 0x3ffff60;
   0x78060; 0x7c060; 0x1ce060; 0x387060; 0x1f07c60; 0x3e00f60; 0x3000760; 0x0;
   0x0; 0x0; 0x0; 0x202000; 0x0; 0x0; 0x0; 0xe000;
   0xe000; 0x1f000; 0x3bc00; 0xf1e00; 0x3e0780; 0xf803c0; 0x3effff0; 0x3cfff7c;
   0x200001c; 0x1c00004; 0xc27ff8; 0x1c67ff8; 0xc66180; 0x1c67180; 0xc63180; 0x1c67ff0;
   0xc63ff0; 0x1c630c0; 0xc630c0; 0x1c630c0; 0xc038c0; 0x1c0fff4; 0xf8fffc; 0x78005c;
   0x0; 0x0; 0x0; 0x0; 0x202000; 0x0; 0x0; 0x0;
   0x100; 0xfffb80; 0xfffdc0; 0xc001c0; 0xfff0c0; 0xfff8e0; 0xd55070; 0xc00070;
   0xfffc78; 0xfff87c; 0x7e; 0x3fffe6e; 0x3fffe64; 0x3000660; 0x37ffe60; 0x2fffa60;
   0x7ff860; 0x707060; 0x38e060; 0x1dc060; 0xf8060; 0xf8060; 0x7dfc60; 0x3f87e60;
   0x1c01e60; 0x0; 0x0; 0x0; 0x0; 0x202000; 0x0; 0x0;
   0x0; 0xc0; 0x1e02ac0; 0x1ff7fc0; 0x3fbee0; 0x393060; 0x383860; 0x381870].
Definition hanzi_data_22 : list N :=
  [0x380c38; 0x380c78; 0x3ffae3c; 0x7ffff7c; 0x387e3e; 0x387074; 0x383230; 0x383370;
   0x383230; 0x383e70; 0x2ba9e30; 0x3ff9c70; 0x3ff9c30; 0x3c70; 0xfe30; 0x7ffe770;
   0x3ff83b0; 0x3f401f0; 0x0; 0x0; 0x0; 0x0; 0x202000; 0x0;
   0x0; 0x0; 0x180; 0x180; 0x3ffffc0; 0x3fffec0; 0x700c0; 0x600e0;
   0x1fffc70; 0x1aeac70; 0x1870c78; 0x1860c78; 0x1fffc7c; 0x1fffc6c; 0x1870c64; 0x1860c60;
   0x1fffc60; 0x1fffc60; 0x70460; 0x30e60; 0x39c60; 0x3b860; 0x1f060; 0x7f060;
   0x5fffc60; 0x3fc1f60; 0x3c00760; 0x0; 0x0; 0x0; 0x0; 0x202000;
   0x0; 0x0; 0x0; 0x1c0; 0xfff9c0; 0x1fffcc0; 0xeab8e0; 0x1c01c60;
   0xc01860; 0x1c01c70; 0xc01878; 0x1d55c78; 0xfff87c; 0x1fffc7c; 0x6006e; 0x70074;
   0x61860; 0x1ff1870; 0x1fe1860; 0x1ff1c70; 0x61860; 0x73c70; 0x63c60; 0x77e70;
   0x7e660; 0x7ffc770; 0x3ff03e0; 0x1500170; 0x0; 0x0; 0x0; 0x0;
   0x202000; 0x0; 0x0; 0x0; 0x1c01c0; 0xcd81c0; 0xdff9c0; 0x1ccffe0;
   0x19c3fe0; 0x38c3060; 0x31c3070; 0xc3078; 0x3ffff78; 0x3ffff7c; 0x3ffff7c; 0x9c306e;
   0x19c3074; 0x19a3060; 0x1dff070; 0xfbfe60; 0x787f70; 0x383360; 0x383070; 0x23c3060;
   0x73e3070; 0x2373060; 0x377f070; 0x3e13e60; 0x1c01e70; 0x0; 0x0; 0x0;
   0x0; 0x202000; 0x0; 0x0; 0x0; 0x70100; 0x730380; 0xe701c0;
   0x1c301c0; 0x8700c0; 0x3fffee0; 0x3fffe70; 0x30070; 0x1870478; 0x1870c7c; 0x1c71c7e;
   0xef386e; 0x7f7064; 0x3f2060; 0x1f8060; 0x1bc060; 0x3fe060; 0x737060; 0xe73c60;
   0x3c31e60; 0x7c70760; 0x3030260; 0x70060; 0x3e060; 0x1e060; 0x0; 0x0;
   0x0; 0x0; 0x202000; 0x0; 0x0; 0x0; 0x18100; 0x11c380;
   0x38e180; 0x3071c0; 0x7039c0; 0xfffce0; 0x1fffe70; 0x800c70; 0x3ce078; 0x707078;
   0xe03c7c; 0x1c09e6e; 0x381c764; 0xe260; 0xfff060; 0x7ff860; 0x703c60; 0x386e60;
   0x1ce660; 0xfc060; 0x78060; 0x1fe060; 0x1fdfc60; 0x3f03f60; 0x1c00760; 0x0;
   0x0; 0x0; 0x0; 0x202000; 0x0; 0x0; 0x0; 0x30100;
   0x30380; 0x70180; 0xfff9c0; 0xfffdc0; 0xc018e0; 0xc01c70; 0xc01870; 0xfffc78;
   0xfff878; 0xc01c7e; 0xc0186e; 0xfffc64; 0xfff860; 0xfffc60; 0x831860; 0x1c71c60;
   0xfe1860; 0x7e1c60; 0x1c1860; 0x3c1c60; 0x7bd860; 0x1f3fc60; 0x3c07e60; 0x1001c60;
   0x0; 0x0; 0x0; 0x0; 0x202000; 0x0; 0x0; 0x0;
   0x0; 0xaaa180; 0x1ffe1c0; 0xffe1c0; 0x1c0e0c0; 0xc0e0e0; 0x1c0e1e0; 0xc0e7e0;
   0x1ffef70; 0xfffc38; 0x1c0ec1c; 0xc0e18c; 0x1c0e1c0; 0xc0e1c0; 0x1c0e1c0; 0xffe0c0;
   0x1ffe1e0; 0xc0e3e0; 0x1c0e770; 0xc0ee38; 0x1c0ec3c; 0xc0e01c; 0x7fff80e; 0x7fff800;
   0x0; 0x0; 0x0; 0x0; 0x0; 0x202000; 0x0; 0x0;
   0x0; 0x70180; 0x3860b80; 0x1871dc0; 0x1c639c0; 0xc738c0; 0xe630e0; 0x673070;
   0x60070; 0x1fffc78; 0x1fff878; 0x1c01c7c; 0x180186c; 0x1fffc64; 0x1fff860; 0x1fffc60;
   0x1801860; 0x1c01c60; 0x1fff860; 0x1fffc60; 0x1801860; 0x1c01c60; 0x1801860; 0x1d01c60;
   0x1f81860; 0xf81c60; 0x0; 0x0; 0x0; 0x0; 0x202000; 0x0;
   0x0; 0x0; 0x18001c0; 0x18181c0; 0x183fcc0; 0x198ffe0; 0x1983760; 0x1983060;
   0x1983070; 0x1983070; 0x19bff78; 0x19bff7c; 0x199757c; 0x198786e; 0x198f874; 0x198f860;
   0x199fc70; 0x19bbe60; 0x19b3670; 0x1983760; 0x19833f0; 0x18033e0; 0x1803170; 0x1803060;
   0x1d03070; 0x1f03060; 0x1f03070; 0x0; 0x0; 0x0; 0x0; 0x202000;
   0x0; 0x0; 0x0; 0x180; 0xfffd80; 0x1fffdc0; 0x7000c0; 0x3c60e0;
   0x1fe060; 0xfc070; 0x1e0070; 0x1fffc78; 0x1fffc78; 0x1870c7c; 0x1830c6e; 0x1fffc64;
   0x1fffc60; 0x1fffc60; 0x1830c60; 0x1870c60; 0x1fffc60; 0x1fffc60; 0x1830c60; 0x1870c60;
   0x1830c60; 0x1870c60; 0x1f30c60; 0x1f70c60; 0x0; 0x0; 0x0; 0x0;
   0x202000; 0x0; 0x0; 0x0; 0x104180; 0x18e180; 0x7871c0; 0x7030c0;
   0x1e038c0; 0x1c31ce0; 0x3830e70; 0x1078670; 0x7c478; 0xee07c; 0x1cf07e; 0x38786e;
   0xf03c64; 0x1e01e60; 0x7d55fe0; 0x3fffb60; 0xfffc60; 0xe01860; 0xe01c60; 0xe01860;
   0xe01c60; 0xe01860; 0xfffc60; 0xfff860; 0xe01c60; 0x0; 0x0; 0x0;
   0x0; 0x202000; 0x0; 0x0; 0x0; 0x1c00180; 0x1ff8180; 0x7ffdc0;
   0x80fcc0; 0x1c198e0; 0xe398e0; 0x631870; 0x633870; 0x373078; 0x7ffc78; 0xfffc7c;
   0x7aa86c; 0x3c0074; 0x1e0060; 0x70070; 0x30060; 0x3ffff70; 0x3fffe60; 0x70070;
   0x30060; 0x70070; 0x30060; 0x70070; 0x3e060; 0x3c070; 0x0; 0x0;
   0x0; 0x0; 0x202000; 0x0; 0x0; 0x0; 0x400180; 0xe03180;
   0x79f9c0; 0x1fc0c0; 0x1f80e0; 0x7be0e0; 0x1f0fe70; 0xc39c70; 0x18078; 0x3fffe78;
   0x3ffff7c; 0xe06e; 0xe7064; 0xe3860; 0x1fffc60; 0x1fffe60; 0x18e3f60; 0x18e3760;
   0x18e3260; 0x18e3060; 0x18e3060; 0x1ee3060; 0x1ee3060; 0xe0060; 0xe0060; 0x0;
   0x0; 0x0; 0x0; 0x202000; 0x0; 0x0; 0x0; 0x180;
   0xaaab80; 0x1fffdc0; 0x1abadc0; 0x1870cc0; 0x1830ce0; 0x1d75c70; 0x1fffc70; 0x1fffc78;
   0x1830c78; 0x1870c7c; 0x1830c6c; 0x1fffc64; 0x1fffc60; 0x70060; 0x70060; 0x1fffc60;
   0x1fffc60; 0x1fffc60; 0x70060; 0x70060; 0x70060; 0x7ffff60; 0x3ffff60; 0x60;
   0x0; 0x0; 0x0; 0x0; 0x202000; 0x0; 0x0; 0x0;
   0x70180; 0x30180; 0x15755c0; 0x1fffdc0; 0x1d75cc0; 0x1830ce0; 0x1fffc70; 0x1fffc70;
   0x1c70c78; 0x1830c78; 0x1fffc7c; 0x1fffc6e; 0x64; 0x3ffff60; 0x7ffff60; 0x3060;
   0x3060; 0xfff060; 0x1fff860; 0xc00060; 0xc00060; 0xc00060; 0xe00060; 0x7e0060].
Definition hanzi_data_23 : list N :=
  [0x7e0060; 0x0; 0x0; 0x0; 0x0; 0x202000; 0x0; 0x0;
   0x0; 0x100; 0x1fffb80; 0x1fffd80; 0x1aab9c0; 0x1c01dc0; 0x18018e0; 0x1c01c70;
   0x1801870; 0x1fffc78; 0x1fff87c; 0x7007e; 0x6006e; 0x70064; 0x3fffe60; 0x3ffff60;
   0xf8060; 0x1fc060; 0x3ee060; 0x777060; 0xe63860; 0x1c73c60; 0x3860e60; 0x7070760;
   0x2060260; 0x70060; 0x0; 0x0; 0x0; 0x0; 0x202000; 0x0;
   0x0; 0x0; 0x6000; 0xe000; 0x1f800; 0x3bc00; 0x71f00; 0x1e0780;
   0x7c03e0; 0x3fffff8; 0x3cfff7c; 0x200000c; 0x400000; 0xe03ff0; 0xe73ff0; 0xe23030;
   0xe73570; 0xe23ff0; 0xe73ff0; 0xe23030; 0xe73ff0; 0xe23ff0; 0xe73070; 0xe03030;
   0xe03070; 0xfc3e30; 0x781c70; 0x0; 0x0; 0x0; 0x0; 0x202000;
   0x0; 0x0; 0x0; 0x18100; 0x18380; 0x39c1c0; 0x30e1c0; 0x7070c0;
   0xfff8e0; 0x1fffc70; 0x180bc70; 0x807078; 0x3878; 0x1fff87c; 0x1fff86c; 0x1575c64;
   0x30e60; 0x70660; 0x2abaa60; 0x3ffff60; 0x3fffe60; 0x78060; 0xfc060; 0x1de060;
   0x38f060; 0x1f07c60; 0x3e01f60; 0x3800660; 0x0; 0x0; 0x0; 0x0;
   0x202000; 0x0; 0x0; 0x0; 0x10180; 0x38180; 0x701c0; 0x700c0;
   0x3fffec0; 0x3fffee0; 0x3fffe70; 0x70; 0xfffc78; 0xfff878; 0x7c; 0x6c;
   0xfffc64; 0xfff860; 0x60; 0x60; 0xfffc60; 0xfffc60; 0xc01c60; 0xc00c60;
   0xc01c60; 0xc00c60; 0xfffc60; 0xfffc60; 0xc01c60; 0x0; 0x0; 0x0;
   0x0; 0x202000; 0x0; 0x0; 0x0; 0x100; 0xffff80; 0x1fffdc0;
   0xeaadc0; 0x1c01cc0; 0xc00ce0; 0x1c01c70; 0xfffc70; 0x1fffc78; 0x78; 0x7c;
   0x1fffe6c; 0x1fffe64; 0x30060; 0x70060; 0x30060; 0x7ffff60; 0x3fffe60; 0x78060;
   0xf8060; 0x1de060; 0x38f060; 0x1f07c60; 0x3e01f60; 0x3000760; 0x0; 0x0;
   0x0; 0x0; 0x202000; 0x0; 0x0; 0x0; 0x30180; 0x30180;
   0x301c0; 0x3fffcc0; 0x3fffcc0; 0x180e0; 0x155d470; 0x1fffc70; 0x1fffc78; 0xc078;
   0x7ffff7c; 0x3fffe6e; 0x7ffff64; 0xe06060; 0x1f57060; 0x3fff060; 0x7fff060; 0xe0b860;
   0xe1dc60; 0xe38e60; 0xe70f60; 0xe207e0; 0xe00360; 0xfc0060; 0x7c0060; 0x0;
   0x0; 0x0; 0x0; 0x202000; 0x0; 0x0; 0x0; 0x100;
   0x2aaab80; 0x3fffdc0; 0x2baa9c0; 0x9dccc0; 0x1988ce0; 0x1dddc70; 0xd89870; 0xfdf878;
   0x58807c; 0x7fffe7e; 0x3fffe6e; 0x1555e64; 0xe60; 0xe60; 0xe60; 0xe60;
   0xe60; 0xe60; 0x660; 0x660; 0x760; 0x760; 0x3e0; 0x160;
   0x0; 0x0; 0x0; 0x0; 0x202000; 0x0; 0x0; 0x0;
   0xc0; 0xc0; 0x3ffffc0; 0x3ffffe0; 0x1cc060; 0x8c060; 0x1cc070; 0xaaea78;
   0x1fffe78; 0x1fffe78; 0x19cc67c; 0x188e66e; 0x19ce674; 0x19ce660; 0x1bde670; 0x1bde660;
   0x1ff7670; 0x1e63660; 0x1e73e70; 0x1831e60; 0x1831670; 0x1800660; 0x1d00670; 0x1f00660;
   0x700670; 0x0; 0x0; 0x0; 0x0; 0x202000; 0x0; 0x0;
   0x0; 0xc0; 0xc0; 0x3ffffc0; 0x3ffffe0; 0x60; 0x60; 0x1fcfe70;
   0x1fcfe38; 0x1dcd678; 0x18cc63c; 0x18cc67c; 0x18cc63e; 0x19cde74; 0x1bcde30; 0x1bcd670;
   0x1acf630; 0x1ecf670; 0x1ece630; 0x18cc670; 0x18cc630; 0x18cc670; 0x18cc630; 0x18cd670;
   0x1ece630; 0x1ec6670; 0x0; 0x0; 0x0; 0x0; 0x202000; 0x0;
   0x0; 0x0; 0x30180; 0x30180; 0x301c0; 0x1fffec0; 0x1fffee0; 0x300e0;
   0x431c70; 0xe31870; 0x631878; 0x33387c; 0x33307e; 0x33106e; 0x3ffff74; 0x3fffe60;
   0x7c070; 0xfc060; 0x1fe070; 0x3b7060; 0x733870; 0xe31e60; 0x3c30f70; 0x3830760;
   0x1030270; 0x30060; 0x30070; 0x0; 0x0; 0x0; 0x0; 0x202000;
   0x0; 0x0; 0x0; 0x30180; 0x38180; 0x7c1c0; 0x6c0c0; 0x1ee0e0;
   0x387060; 0x703870; 0xe01e70; 0x7ffff78; 0x3bffff8; 0x33ff17c; 0x6e; 0x1c18c74;
   0xc30c60; 0xc31c70; 0xe31860; 0x731870; 0x331860; 0x313870; 0x380060; 0x180070;
   0x3ffff60; 0x3ffff70; 0x2aaaa60; 0x70; 0x0; 0x0; 0x0; 0x0;
   0x202000; 0x0; 0x0; 0x0; 0x381c0; 0x181c0; 0x1c1c0; 0x3ffc0c0;
   0x1ffe0e0; 0x1c0f060; 0xe1f870; 0x73ba70; 0x3f1f78; 0x1e067c; 0x7fc77c; 0x3e3fe6e;
   0x3d87f74; 0xe0e60; 0x70770; 0x63e660; 0x70e770; 0x3c0660; 0x30fc770; 0x3c3e660;
   0x1f04770; 0x7c0060; 0x1fc070; 0x3f060; 0x7070; 0x0; 0x0; 0x0;
   0x0; 0x202000; 0x0; 0x0; 0x0; 0x300c0; 0x300c0; 0x700c0;
   0x3fffee0; 0x3fffe60; 0x808660; 0xc1c670; 0xc0c630; 0xc0c678; 0x3ffe638; 0x3ff667c;
   0xc0663e; 0xc07674; 0xc67e30; 0xc67e70; 0xcc6630; 0xdc6770; 0xd86630; 0xd86770;
   0xc06330; 0xc06370; 0xc06330; 0xc063f0; 0xf863b0; 0x786170; 0x0; 0x0;
   0x0; 0x0; 0x202000; 0x0; 0x0; 0x0; 0x180; 0xfffb80;
   0xfff9c0; 0xe019c0; 0xe018c0; 0xfff8e0; 0xfff870; 0xe01870; 0xe01878; 0xfff87c;
   0xfff87e; 0xe0186e; 0xf55864; 0xfff860; 0xfff860; 0xe01860; 0x1f55d60; 0x3ffff60;
   0x7ffff60; 0x306060; 0x787060; 0xe03860; 0x1c01c60; 0x3800f60; 0x1000660; 0x0;
   0x0; 0x0; 0x0; 0x202000; 0x0; 0x0; 0x0; 0x1cc180;
   0x18c380; 0x1cc1c0; 0x18c1c0; 0x15cd4c0; 0x3f8fee0; 0x3fcfe70; 0x18c070; 0x1cc078;
   0x18c078; 0x3fcfe7c; 0x3f8fe6c; 0x15cd464; 0x18c060; 0x1cc060; 0x18c060; 0x7fcff60;
   0x3f8ff60; 0x1cd560; 0x18c060; 0x1cc060; 0x18c060; 0x1cc060; 0x18c060; 0x1cc060;
   0x0; 0x0; 0x0; 0x0; 0x202000; 0x0; 0x0; 0x0;
   0x30180; 0x30380; 0x301c0; 0x1ffffc0; 0x1fffec0; 0x300e0; 0x30070; 0xfffc70].
Definition hanzi_data_24 : list N :=
  [0x1fffc78; 0x3007c; 0x157557e; 0x3ffff6e; 0x3ffff74; 0x6e060; 0x18e7070; 0x1cc3860;
   0xfc3f70; 0x383fe0; 0x383370; 0x323060; 0x73b070; 0x1e3f060; 0x7c0f870; 0x3803860;
   0x1070; 0x0; 0x0; 0x0; 0x0; 0x202000; 0x0; 0x0;
   0x0; 0x31c0; 0x31c0; 0x3fc30c0; 0x3fc30e0; 0x303f060; 0x30ff060; 0x31c3070;
   0x3883078; 0x19c3078; 0x19bff7c; 0x19bff7e; 0x19aba6e; 0x1d83074; 0xf93260; 0xf1b770;
   0xf3b260; 0x733370; 0x633360; 0x773370; 0xfa31e0; 0x1dc31f0; 0x19c3060; 0x38f3070;
   0x3073e60; 0x3031c70; 0x0; 0x0; 0x0; 0x0; 0x202000; 0x0;
   0x0; 0x0; 0x30180; 0x38380; 0x157d5c0; 0x1ffffc0; 0x1fffec0; 0x180e0;
   0x1fffc70; 0xfffc70; 0xc078; 0xe07c; 0x7ffff7e; 0x3ffff6e; 0x773864; 0xe31c60;
   0x1c71e60; 0x7fff7e0; 0x37ff360; 0x30060; 0x1575460; 0x1fffc60; 0x1fffc60; 0x30060;
   0x70060; 0x30060; 0x70060; 0x0; 0x0; 0x0; 0x0; 0x202000;
   0x0; 0x0; 0x0; 0x1c180; 0x18380; 0x1c1c0; 0x3ffffc0; 0x3ffffc0;
   0x2baeae0; 0x387070; 0x303870; 0x733878; 0xe31c7c; 0x1ffff7e; 0x7ffffee; 0x3e31f74;
   0xe30c60; 0xfffc70; 0xfffc60; 0xe31c70; 0xe30c60; 0xfffc70; 0xfffc60; 0x7031c70;
   0x3030060; 0x3030070; 0x3ff0060; 0x1ff0070; 0x0; 0x0; 0x0; 0x0;
   0x202000; 0x0; 0x0; 0x0; 0x70180; 0x70380; 0x701c0; 0x1fffdc0;
   0x1fffcc0; 0x1830ce0; 0x1870c70; 0x1fffc70; 0x1fffc78; 0x1830c7c; 0x1870c7e; 0x1830c6e;
   0x1fffc64; 0x1fffc60; 0x1dc060; 0x1ce060; 0x1c7c60; 0x1c3860; 0x7ffff60; 0x3ffff60;
   0x1c0060; 0x1c0060; 0x1c0060; 0x1c0060; 0x1c0060; 0x0; 0x0; 0x0;
   0x0; 0x202000; 0x0; 0x0; 0x0; 0x30180; 0x70180; 0x701c0;
   0x3fffec0; 0x3fffec0; 0x30006e0; 0x3000670; 0x37ffe70; 0x7ff878; 0x601878; 0x60187c;
   0x60186c; 0x7ff864; 0x7ff860; 0x1860; 0x1860; 0x1fff860; 0xfff860; 0x1c01860;
   0xc01860; 0x1c01860; 0xc01860; 0x1fff860; 0xfff860; 0x1c01860; 0x0; 0x0;
   0x0; 0x0; 0x202000; 0x0; 0x0; 0x0; 0x30180; 0x30380;
   0x701c0; 0x3fffdc0; 0x3fffcc0; 0x6020e0; 0x603070; 0x606070; 0x706078; 0x386078;
   0x55d747c; 0x3fffe6e; 0x7fffe64; 0x60; 0x60; 0xfff860; 0xfff860; 0xc01860;
   0xc01860; 0xc01860; 0xc01860; 0xc01860; 0xfff860; 0xfff860; 0xc01860; 0x0;
   0x0; 0x0; 0x0; 0x202000; 0x0; 0x0; 0x0; 0x701c0;
   0x301c0; 0x5781c0; 0x1ff86e0; 0x1ffc7e0; 0xe1e660; 0x73ff70; 0x3f3e78; 0x1f0778;
   0x3e067c; 0x1ffc77c; 0x7e3f66e; 0x3ccff74; 0xee0660; 0x1ce0770; 0x3fff660; 0x3fff770;
   0x2aea660; 0x1f0770; 0x3f0660; 0x7b8770; 0xe1c060; 0x1c0f070; 0x3803c60; 0x1001870;
   0x0; 0x0; 0x0; 0x0; 0x202000; 0x0; 0x0; 0x0;
   0xc0; 0x18000c0; 0x1bfffc0; 0x1bbffe0; 0x1b81860; 0x1b89c60; 0x1b9cc70; 0x1bb8e38;
   0x1bbff78; 0x1bbff3c; 0x1be1f7c; 0x1ba303e; 0x1b83074; 0x1b83030; 0x1bbff70; 0x1bbff30;
   0x1b83070; 0x1b83030; 0x1903070; 0x187b030; 0x187ff70; 0x1803fb0; 0x1f807f0; 0x1f80030;
   0x500070; 0x0; 0x0; 0x0; 0x0; 0x202000; 0x0; 0x0;
   0x0; 0x70180; 0x70380; 0x1c731c0; 0xc339c0; 0xe718c0; 0x6318e0; 0x771c70;
   0xf8870; 0x3fc078; 0xf8e07c; 0x1e07c7e; 0x3873e6e; 0x1070664; 0x870860; 0x1c71860;
   0xc71860; 0xc71c60; 0x670c60; 0x4f8e60; 0xd8060; 0x1dc060; 0x78f060; 0x1f07c60;
   0x3c01e60; 0x3000660; 0x0; 0x0; 0x0; 0x0; 0x202000; 0x0;
   0x0; 0x0; 0x180; 0x1fffd80; 0x1fffdc0; 0x1800cc0; 0x1800cc0; 0x1800ce0;
   0x1fffc70; 0x1fffc70; 0xc78; 0xc0c78; 0x18c6c7c; 0x18c6c6e; 0x18c6c64; 0x18c6c60;
   0x1ffec60; 0x1ffec60; 0xc0c60; 0x30c6e60; 0x30c6e60; 0x30c6e60; 0x30c6660; 0x30c6660;
   0x3ffe760; 0x3ffe360; 0x3000260; 0x0; 0x0; 0x0; 0x0; 0x202000;
   0x0; 0x0; 0x0; 0x4001c0; 0xfe81c0; 0x1fffdc0; 0x3fcc0; 0x700e0;
   0x30060; 0x3fffe70; 0x3fffe70; 0x1775c78; 0x631878; 0x67187c; 0x2ebba6e; 0x7ffff74;
   0x2ebba60; 0x671870; 0x631860; 0x1775c70; 0x3fffe60; 0x3ffff70; 0x30060; 0x70070;
   0x30060; 0x1fffe70; 0x1fffe60; 0x70; 0x0; 0x0; 0x0; 0x0;
   0x202000; 0x0; 0x0; 0x0; 0x301c0; 0x1830dc0; 0x1c31dc0; 0xe318e0;
   0x6338e0; 0x733060; 0x337070; 0x30070; 0x1fffe78; 0x1fffe78; 0x1fffe7c; 0x1800e6e;
   0x19fce74; 0x19fee60; 0x19d6e70; 0x1986e60; 0x1986e70; 0x1986e60; 0x19fee70; 0x19fee60;
   0x1806e70; 0x1800e60; 0x1800e70; 0x1f80e60; 0xf80e70; 0x0; 0x0; 0x0;
   0x0; 0x202000; 0x0; 0x0; 0x0; 0x1c0; 0xffe0c0; 0xffe0c0;
   0xe000e0; 0x6000e0; 0x600060; 0x3ffff70; 0x3fffa30; 0x1c778; 0xc238; 0x155c77c;
   0x1ffe23e; 0x1fff774; 0xc3230; 0xc3f70; 0xc0230; 0x3ffff70; 0x3fffa30; 0x1e0770;
   0x1e0230; 0x3f0070; 0x738030; 0x1e1f070; 0x3c07830; 0x3001870; 0x0; 0x0;
   0x0; 0x0; 0x202000; 0x0; 0x0; 0x0; 0x70180; 0x60380;
   0x701c0; 0x3ffffc0; 0x3fffec0; 0x380e0; 0x1fc070; 0x3fe070; 0x1f0fc78; 0x3e03e7c;
   0x1800e7e; 0x3ffff6e; 0x7ffff64; 0xc00060; 0xc55460; 0xc7fc60; 0xc7fc60; 0xc60c60;
   0xc71c60; 0xc6ac60; 0xc7fc60; 0xc00c60; 0xc01c60; 0xfe0060; 0x7c0060; 0x0;
   0x0; 0x0; 0x0; 0x202000; 0x0; 0x0; 0x0; 0x180;
   0x3fffd80; 0x3fffdc0; 0x3820cc0; 0x3870ce0; 0x3820ce0; 0x3bfec70; 0x3bfec70; 0x3870c78;
   0x3820c7c; 0x3fffc7c; 0x3bfec6e; 0x3800c74; 0x3aaae60; 0x3bfec70; 0x3b06e60; 0x3b06670;
   0x3b06660; 0x3b56670; 0x3bfe660; 0x3956770; 0x3806360; 0x1d00370; 0x1f803e0; 0x1f00170].
Definition hanzi_data_25 : list N :=
  [0x0; 0x0; 0x0; 0x0; 0x202000; 0x0; 0x0; 0x0;
   0x38180; 0x30180; 0x701c0; 0x3ffffc0; 0x3fffec0; 0xe0; 0x70; 0xfff870;
   0x1fffc78; 0xc01878; 0x1c01c7c; 0xc0186e; 0x1c01c74; 0xfff860; 0x1fffc70; 0x70060;
   0x471070; 0xe73860; 0xc71c70; 0x1c70c60; 0x1870e70; 0x3870760; 0x3075370; 0x3e060;
   0x1e070; 0x0; 0x0; 0x0; 0x0; 0x202000; 0x0; 0x0;
   0x0; 0x306180; 0x306380; 0x3061c0; 0x2baebc0; 0x3fffec0; 0x2baeae0; 0x306070;
   0x306070; 0x306078; 0x7ffff7c; 0x7ffff7e; 0x6e; 0x64; 0xfff860; 0xfff860;
   0xc01860; 0xc01860; 0xfff860; 0xfff860; 0xc01860; 0xc01860; 0xc01860; 0xfff860;
   0xfff860; 0xc01860; 0x0; 0x0; 0x0; 0x0; 0x202000; 0x0;
   0x0; 0x0; 0x180; 0xfffd80; 0xfffdc0; 0xc01cc0; 0xc01cc0; 0xfffce0;
   0xfffc70; 0xc01c70; 0xc01c78; 0xfffc7c; 0xfffc7e; 0x6e; 0x74; 0x1fffe60;
   0x1fffe70; 0x1800e60; 0x1800e70; 0x1fffe60; 0x1fffe70; 0x1800e60; 0x1800e70; 0x1800e60;
   0x1fffe70; 0x1fffe60; 0x1800e70; 0x0; 0x0; 0x0; 0x0; 0x202000;
   0x0; 0x0; 0x0; 0x30100; 0x30380; 0x70180; 0x3ffffc0; 0x3ffffc0;
   0x3000ee0; 0x3000e70; 0x3198e70; 0x79e078; 0xe0f078; 0x1c0787e; 0x3801e6e; 0x3000c64;
   0xaaa860; 0x1fff860; 0xaea860; 0x70060; 0x60060; 0x70060; 0x60060; 0x70060;
   0x60060; 0x7fffe60; 0x3fffe60; 0x60; 0x0; 0x0; 0x0; 0x0;
   0x202000; 0x0; 0x0; 0x0; 0x70180; 0xe31980; 0x6319c0; 0x3330c0;
   0x3bf0c0; 0xaba8e0; 0x1fffc70; 0xaba870; 0x1c078; 0xe078; 0x3ffff7c; 0x3ffff6c;
   0x707064; 0x603860; 0x1fffc60; 0x3fffe60; 0x3b03760; 0x303260; 0x343060; 0x3e3060;
   0xd43060; 0xc03060; 0xd57060; 0xfff060; 0x7fe060; 0x0; 0x0; 0x0;
   0x0; 0x202000; 0x0; 0x0; 0x0; 0x30180; 0x70380; 0x701c0;
   0x3ffffc0; 0x3fffec0; 0x3aaaee0; 0x3000e70; 0x3000e70; 0x1fffc78; 0xfff878; 0x7c;
   0x6c; 0x74; 0x3fffe60; 0x3fffe70; 0x60060; 0x470070; 0x663860; 0xe71870;
   0x1c61c60; 0x1c70c70; 0x3860e60; 0x3074770; 0x7e060; 0x3c070; 0x0; 0x0;
   0x0; 0x0; 0x202000; 0x0; 0x0; 0x0; 0x180; 0x1ffff80;
   0x1fffdc0; 0x1800dc0; 0x1c01cc0; 0x1800ce0; 0x1fffc70; 0x1fffc70; 0xc1c78; 0xc0c78;
   0xc1c7c; 0x3fffc6e; 0x3fffc64; 0xc0c60; 0xc1c60; 0xc0c60; 0x1ffec60; 0x1ffec60;
   0x1806e60; 0x1806e60; 0x1806660; 0x1806760; 0x1ffe760; 0x1ffe3e0; 0x1806160; 0x0;
   0x0; 0x0; 0x0; 0x202000; 0x0; 0x0; 0x0; 0x701c0;
   0x301c0; 0x1ffffc0; 0x1fffee0; 0x700e0; 0xaba860; 0x1fffc70; 0x30078; 0x1575578;
   0x3ffff7c; 0x7ffff7c; 0x6e; 0xfffc74; 0xfffc60; 0xc01c70; 0xeaac60; 0xfffc70;
   0xc00c60; 0xc01c70; 0xfffc60; 0xfffc70; 0xc00c60; 0xc01c70; 0xf80c60; 0x781c70;
   0x0; 0x0; 0x0; 0x0; 0x202000; 0x0; 0x0; 0x0;
   0x180; 0x1c180; 0x1fdf9c0; 0x1fc3cc0; 0x1801cc0; 0x1800ce0; 0x1801c70; 0x1a9fc70;
   0x1fdfc78; 0x1a80c78; 0x1801c7c; 0x1800c6e; 0x1801c64; 0x1fffc60; 0x1fffc60; 0xce060;
   0x1c6060; 0xc6060; 0x11c7060; 0x20c7060; 0x71c3060; 0x30c3860; 0x7fc1e60; 0x3f80fe0;
   0x1f80760; 0x0; 0x0; 0x0; 0x0; 0x202000; 0x0; 0x0;
   0x0; 0x30100; 0x30380; 0x15701c0; 0x3ff01c0; 0x3ff00c0; 0x300e0; 0x1fffc70;
   0x1fffc70; 0x1fffc78; 0x1800c7c; 0x1d55c7e; 0x1fffc6e; 0x1d55c64; 0x1800c60; 0x1fffc60;
   0x1fffc60; 0x1fffc60; 0x30060; 0x5575560; 0x3ffff60; 0x7ffff60; 0x30060; 0x30060;
   0x30060; 0x30060; 0x0; 0x0; 0x0; 0x0; 0x202000; 0x0;
   0x0; 0x0; 0xc00180; 0x1ff8380; 0x7ffdc0; 0x3bdc0; 0x700c0; 0x2abaae0;
   0x3ffff70; 0x3fffe70; 0x1fc078; 0x3b7078; 0x1f73c7c; 0x7c30f6e; 0x307c764; 0xc060;
   0x7ffff60; 0x3ffff60; 0x7ffff60; 0x303060; 0x387860; 0x19f860; 0x1fc060; 0x3f8060;
   0xfff060; 0x1e0fe60; 0x801e60; 0x0; 0x0; 0x0; 0x0; 0x202000;
   0x0; 0x0; 0x0; 0x180; 0x1fffd80; 0x1fffdc0; 0x1830dc0; 0x1c71cc0;
   0x1abace0; 0x1fffc70; 0x1abac70; 0x1c71c78; 0x1830c78; 0x1fffc7c; 0x1fffc6c; 0x70064;
   0x30060; 0x7ffff60; 0x3fffe60; 0xfc060; 0x1bc060; 0x3fe060; 0x737060; 0x1e73c60;
   0x3c31e60; 0x3870760; 0x30260; 0x70060; 0x0; 0x0; 0x0; 0x0;
   0x202000; 0x0; 0x0; 0x0; 0x38100; 0x38380; 0x18180; 0x2abab80;
   0x3ffffc0; 0x2baeae0; 0x386060; 0x737070; 0xe73870; 0x3fffe78; 0x7ffff7c; 0x203026e;
   0x70064; 0x232060; 0x376060; 0x306060; 0x3ffff60; 0x3ffff60; 0x306060; 0x306060;
   0x307060; 0x303860; 0x301c60; 0x300e60; 0x300460; 0x0; 0x0; 0x0;
   0x0; 0x202000; 0x0; 0x0; 0x0; 0x70180; 0x30180; 0x1ffffc0;
   0x1fffec0; 0x700e0; 0x30060; 0xfffc70; 0xaba870; 0x70078; 0x3fffe78; 0x3ffff7c;
   0x6c; 0x1fffc64; 0xfffc60; 0x1c00c60; 0xc30c60; 0x1c30c60; 0xc30c60; 0x1c30c60;
   0xc38c60; 0x1d8060; 0x7de060; 0x1f0fc60; 0x3803f60; 0x1000660; 0x0; 0x0;
   0x0; 0x0; 0x202000; 0x0; 0x0; 0x0; 0xc0; 0x3ffffc0;
   0x3ffffc0; 0x38c86e0; 0x18dc660; 0x18c8670; 0x1cdc670; 0xccfe38; 0xcdfe78; 0xec863c;
   0xedc67e; 0xcc863c; 0x18dfe74; 0x38cfe30; 0x30dd670; 0x30c8630; 0x70dc670; 0x30f8630;
   0x34fff70; 0x3ecffb0; 0x1edc770; 0xc8030; 0xdc070; 0xc8030; 0xdc070; 0x0;
   0x0; 0x0; 0x0; 0x202000; 0x0; 0x0; 0x0; 0x70180;
   0x70380; 0x701c0; 0x3ffffc0; 0x3fffec0; 0x300e0; 0x38070; 0xfff870; 0xfffc78].
Definition hanzi_data_26 : list N :=
  [0xc01878; 0xc01c7c; 0xfff86e; 0xfffc74; 0xc01860; 0xd55c70; 0xfff860; 0xfffc70;
   0xc01860; 0xfffc70; 0xfff860; 0xc01c70; 0xc01860; 0x7ffff70; 0x3ffff60; 0x70;
   0x0; 0x0; 0x0; 0x0; 0x202000; 0x0; 0x0; 0x0;
   0xc0; 0xc0; 0x7ffc0c0; 0x3ffc6e0; 0x180660; 0x180670; 0x1ff8670; 0x1ff8638;
   0x181be7c; 0x189be3c; 0x199867e; 0x199863e; 0x1998674; 0x1998630; 0x1998670; 0x1998630;
   0x199b670; 0x199be30; 0x19d9f70; 0x2c0330; 0x7e0070; 0xe60030; 0x3c78070; 0x381e030;
   0x3004070; 0x0; 0x0; 0x0; 0x0; 0x202000; 0x0; 0x0;
   0x0; 0xc00180; 0xfe0180; 0x7fffc0; 0x80fec0; 0x1c384e0; 0xc30c60; 0x671c70;
   0x703870; 0x30078; 0xfffc78; 0x1fffc7c; 0xc30c6e; 0x1c30c74; 0xfffc60; 0x1fffc70;
   0xc30c60; 0x1c30c70; 0x2ebae60; 0x3ffff70; 0x2eaae60; 0x1c00c70; 0xc00c60; 0x1d00c70;
   0xf80c60; 0x700c70; 0x0; 0x0; 0x0; 0x0; 0x202000; 0x0;
   0x0; 0x0; 0x180; 0x2aaa980; 0x3fffdc0; 0x2aaacc0; 0x554ce0; 0xffcc60;
   0xc0cc70; 0xeacc70; 0xffcc78; 0xc0cc7c; 0xffcc7c; 0xffcc6e; 0x70c64; 0x3fffc60;
   0x3fffc60; 0x618c60; 0x71cc60; 0x3fcc60; 0x1f0c60; 0xff8c60; 0x1e7fc60; 0x802c60;
   0x7fffc60; 0x3fffc60; 0x60; 0x0; 0x0; 0x0; 0x0; 0x202000;
   0x0; 0x0; 0x0; 0xc0; 0x1fefec0; 0x1fffec0; 0x18086e0; 0x181c660;
   0x1808660; 0x181c670; 0x1808638; 0x1fffe78; 0x1fefe38; 0x67c; 0x63e; 0x1fffe74;
   0x1fefe30; 0x186fe70; 0x1ce0630; 0xcc0670; 0xecae30; 0x78fe70; 0x78ae30; 0x780670;
   0xfc0630; 0x1cf0670; 0x383c630; 0x3018670; 0x0; 0x0; 0x0; 0x0;
   0x202000; 0x0; 0x0; 0x0; 0x100; 0xfffb80; 0xfff9c0; 0xc019c0;
   0xc019c0; 0xfff8e0; 0xfff870; 0xc01870; 0xfff878; 0xfff878; 0x55707c; 0x306c;
   0x1fff864; 0x1fff860; 0x1860c60; 0x1860e60; 0x1871e60; 0x18f9860; 0x19ddc60; 0x190d860;
   0x1bffc60; 0x1bff860; 0x1c00060; 0xf80060; 0xf00060; 0x0; 0x0; 0x0;
   0x0; 0x202000; 0x0; 0x0; 0x0; 0x706180; 0x306380; 0x7061c0;
   0x3ffffc0; 0x3fffec0; 0x3060e0; 0x706070; 0x31e070; 0x1c078; 0x1c07c; 0x7ffff7e;
   0x3fffe6e; 0xe064; 0x6060; 0x7060; 0x1fff860; 0x1fffc60; 0x1807c60; 0x1c07f60;
   0x1806760; 0x1c07260; 0x1aae060; 0x1fff060; 0x1ffe060; 0x1c07060; 0x0; 0x0;
   0x0; 0x0; 0x202000; 0x0; 0x0; 0x0; 0x100; 0xfffb80;
   0x1fffd80; 0xc219c0; 0x1c71dc0; 0xfff8e0; 0x1fffc70; 0xc21870; 0x1c71c78; 0xeab878;
   0x1fffc7c; 0xaaa86c; 0x64; 0x3fffe60; 0x7ffff60; 0x23860; 0x1863860; 0x1ee3860;
   0xfc3860; 0x3c3860; 0x383860; 0x723860; 0x1f3f860; 0x3c1f860; 0x3001860; 0x0;
   0x0; 0x0; 0x0; 0x202000; 0x0; 0x0; 0x0; 0x30100;
   0x30380; 0x70180; 0x1fffd80; 0x1fffdc0; 0x1800ce0; 0x1800c60; 0x1800c70; 0x1fffc78;
   0x1fffc78; 0xc7c; 0x3fffc6e; 0x3fffc64; 0x3333c60; 0x3333c60; 0x3333c60; 0x3333c60;
   0x3fffe60; 0x3fffe60; 0x3333660; 0x3333660; 0x3333660; 0x3333760; 0x3f33360; 0x1c03260;
   0x0; 0x0; 0x0; 0x0; 0x202000; 0x0; 0x0; 0x0;
   0x180; 0x1fffd80; 0x1fffdc0; 0x1800dc0; 0x1800cc0; 0x1aaace0; 0x1fffc70; 0xaaac70;
   0xc78; 0x3fffc78; 0x3fffc7c; 0x238c6c; 0x71cc74; 0xe0ec60; 0x1fffc70; 0x3afec60;
   0x10e0c70; 0xe0e60; 0x1fff670; 0x1ffe660; 0xe0770; 0xe0360; 0x7fffb70; 0x3fffbe0;
   0x5555170; 0x0; 0x0; 0x0; 0x0; 0x202000; 0x0; 0x0;
   0x0; 0xc1d00; 0xc0f80; 0x10c1d80; 0x3cc0dc0; 0x1fdfdc0; 0x3dfce0; 0x1c1c70;
   0x20c0c70; 0x70d1c78; 0x30dec78; 0x3fdfc7c; 0x1fb3e6c; 0x70464; 0x38060; 0x1fffc60;
   0x1aab860; 0x1c01c60; 0x1801860; 0x1fffc60; 0x1fff860; 0x1c01c60; 0x1801860; 0x1fffc60;
   0x1fff860; 0x1c01c60; 0x0; 0x0; 0x0; 0x0; 0x202000; 0x0;
   0x0; 0x0; 0x1831c0; 0x1839c0; 0x1c39c0; 0x1838e0; 0x1c3860; 0x3fdff60;
   0x7fdff70; 0x18eba78; 0x18e3878; 0x18e387c; 0x1cf387e; 0x8fb86e; 0x1dfff74; 0xc9fe60;
   0xd9c770; 0xf98260; 0x79c770; 0x718260; 0x71c770; 0x798260; 0xfdff70; 0x1cffe60;
   0x3c70770; 0x3838260; 0x3010070; 0x0; 0x0; 0x0; 0x0; 0x202000;
   0x0; 0x0; 0x0; 0x30180; 0x30180; 0x3ffffc0; 0x3ffffc0; 0x3fffec0;
   0xe0; 0xfff870; 0xeab870; 0xc01878; 0xfff878; 0xfff87c; 0x6c; 0x3fffe74;
   0x3fffe60; 0x3555670; 0x3000660; 0x3fffe70; 0xfff860; 0x70070; 0x70060; 0x70070;
   0x70060; 0x70070; 0x3e060; 0x3e070; 0x0; 0x0; 0x0; 0x0;
   0x202000; 0x0; 0x0; 0x0; 0x7031c0; 0x6031c0; 0x7031c0; 0x3fffee0;
   0x3fffee0; 0x603060; 0x757070; 0x7ff070; 0x7ff078; 0x603078; 0x7ff07c; 0x7ff06e;
   0x703074; 0x603060; 0x7ffff70; 0x3ffff60; 0x330c70; 0x338c60; 0x718c70; 0xe0cc60;
   0xc0ec70; 0x404c60; 0x3fffc70; 0x3fffc60; 0x70; 0x0; 0x0; 0x0;
   0x0; 0x202000; 0x0; 0x0; 0x0; 0xc00c0; 0xc00c0; 0x1ffffe0;
   0xffbfe0; 0x1cc3860; 0x8c1870; 0x7fffc70; 0x3ffec38; 0x1cc0e78; 0x8c063c; 0x1ffbf7e;
   0xaebf3c; 0xc3174; 0x1fff830; 0x1ffd9f0; 0xc1b30; 0xc1b70; 0x3ffda30; 0x3ffde70;
   0xc0e30; 0xc1e70; 0xc7e30; 0x55ff770; 0x3ff83b0; 0x3fc01f0; 0x0; 0x0;
   0x0; 0x0; 0x202000; 0x0; 0x0; 0x0; 0x71c0; 0x31c0;
   0x39c0; 0x3fff8e0; 0x3fffce0; 0x3998e60; 0x199d770; 0x18cfbf8; 0x18ff178; 0x18fb07c;
   0x19e387e; 0x19b1c6e; 0x1c38e74; 0xf9c660; 0xf18070; 0x1a060; 0xc3b770; 0xc33260;
   0x1c73770; 0x1863360; 0x3e03370; 0x36033e0; 0x17ff1f0; 0x3ff060; 0x1fc070; 0x0].
Definition hanzi_data_27 : list N :=
  [0x0; 0x0; 0x0; 0x202000; 0x0; 0x0; 0x0; 0x1c0;
   0x2aaabc0; 0x3ffffc0; 0x2abaae0; 0x18060; 0x18060; 0x3fffe70; 0x3fffe78; 0x3fffe78;
   0x388c67c; 0x39cc67e; 0x38ac66e; 0x39fc674; 0x38ac660; 0x39cc670; 0x388c660; 0x39fc670;
   0x38fc660; 0x39fc670; 0x388c660; 0x39cc670; 0x388c660; 0x3fffe70; 0x3fffe60; 0x3800670;
   0x0; 0x0; 0x0; 0x0; 0x202000; 0x0; 0x0; 0x0;
   0x19c0; 0xaa19c0; 0x1feffc0; 0x1bafee0; 0x1981860; 0x1981860; 0x198fe70; 0x198fe78;
   0x19c1878; 0x18cba7c; 0x1ceff7c; 0xf7ba6e; 0xf71874; 0x21860; 0x38070; 0x38060;
   0x3ffff70; 0x3ffff60; 0x7c070; 0x7c060; 0x1ee070; 0x3c7060; 0x1f87c70; 0x3e01fe0;
   0x1c00770; 0x0; 0x0; 0x0; 0x0; 0x202000; 0x0; 0x0;
   0x0; 0x180; 0xfffd80; 0x1fffdc0; 0xc30cc0; 0x1c71cc0; 0xc30ce0; 0x1fffc70;
   0xfffc70; 0x1c71c78; 0xc30c7c; 0x1c71c7e; 0xfffc6e; 0x1fffc74; 0x60; 0x39070;
   0x873c60; 0x1ce7670; 0x18c3660; 0x1847670; 0x3a03660; 0x3707770; 0x3303360; 0x13ff370;
   0x3fe060; 0x70; 0x0; 0x0; 0x0; 0x0; 0x202000; 0x0;
   0x0; 0x0; 0x180; 0x1ffff80; 0x1fffdc0; 0x1830dc0; 0x1c71cc0; 0x1abace0;
   0x1fffc70; 0x1830c70; 0x1c71c78; 0x1830c78; 0x1fffc7c; 0xaba86e; 0x70064; 0x3fffe60;
   0x3fffe60; 0x3abae60; 0x3370660; 0x3330660; 0x37f0660; 0x37ff660; 0x347f660; 0x3c00660;
   0x3000660; 0x3f00660; 0x1f00660; 0x0; 0x0; 0x0; 0x0; 0x202000;
   0x0; 0x0; 0x0; 0x301c0; 0x381c0; 0x7c1c0; 0xee0e0; 0x7c70e0;
   0xf03c60; 0x7d55f70; 0x3bff770; 0x3ff178; 0x800078; 0x1d1fe7c; 0x199fe6e; 0x1dd8674;
   0x1998660; 0x1ddfe70; 0x199ae60; 0x1dd8670; 0x199ae60; 0x1ddfe70; 0x1998660; 0x1dd8670;
   0x1818660; 0x1c1c670; 0xf1e660; 0xf0e670; 0x0; 0x0; 0x0; 0x0;
   0x202000; 0x0; 0x0; 0x0; 0x471180; 0xc33980; 0xe731c0; 0x6370c0;
   0x3770c0; 0x3fffee0; 0x3fffe70; 0x2afaa70; 0x1fc078; 0x73e078; 0x1e7787c; 0x3831e6e;
   0x1078c64; 0x1c060; 0x3fffe60; 0x3fffe60; 0x3fffe60; 0x707060; 0x383860; 0x38f860;
   0x1ff060; 0x3f8060; 0x1fff460; 0x3e0fe60; 0x1001e60; 0x0; 0x0; 0x0;
   0x0; 0x202000; 0x0; 0x0; 0x0; 0x70180; 0x30180; 0x1fffdc0;
   0x1fffcc0; 0x15754e0; 0x333060; 0x753070; 0x3ffff70; 0x7ffff78; 0x303078; 0x70307c;
   0xfffc6e; 0xfffc74; 0xc00c60; 0xc31c70; 0xc30c60; 0xc31c70; 0xc30c60; 0xc31c70;
   0xc38c60; 0x5dd470; 0x79e060; 0x1f07c70; 0x3803f60; 0x3000670; 0x0; 0x0;
   0x0; 0x0; 0x202000; 0x0; 0x0; 0x0; 0x4701c0; 0x1c31dc0;
   0xe738c0; 0x6338e0; 0x7770e0; 0x3fffe60; 0x3fffe70; 0x3800670; 0x3800678; 0x3aaae78;
   0x1fffc7c; 0xfff86e; 0x74; 0x60; 0x7ffff70; 0x3ffff60; 0x1c070; 0x30e060;
   0x707070; 0xe03860; 0xe03c70; 0x1fffc60; 0x3fffe70; 0x380be60; 0x1000070; 0x0;
   0x0; 0x0; 0x0; 0x202000; 0x0; 0x0; 0x0; 0x70180;
   0x30380; 0x381c0; 0x1fffdc0; 0x1fffcc0; 0x1830ce0; 0x1c70c70; 0x1abac70; 0x1fffc78;
   0x1830c78; 0x1c30c7c; 0x1830c6c; 0x1fffc64; 0x1fffc60; 0x278060; 0x678060; 0xf7c060;
   0x1b6c060; 0x1dfe060; 0x3fe7060; 0x15f7860; 0x2063c60; 0x7571e60; 0x3fe0f60; 0x1fc0360;
   0x0; 0x0; 0x0; 0x0; 0x202000; 0x0; 0x0; 0x0;
   0x30180; 0x30180; 0x1ffffc0; 0x1fffec0; 0x300e0; 0xfffc60; 0x1fffc70; 0x30070;
   0x1575578; 0x3ffff7c; 0x3ffff7c; 0x19e06e; 0x3c7c74; 0xffc60; 0x77fc70; 0xe0f060;
   0x1fffe70; 0x3fffe60; 0x3070670; 0x633060; 0xf73c70; 0x1c31e60; 0x3870f70; 0x303c260;
   0x3c070; 0x0; 0x0; 0x0; 0x0; 0x202000; 0x0; 0x0;
   0x0; 0x370180; 0xf30380; 0x1d755c0; 0x3ffffc0; 0x3fffec0; 0x300e0; 0x1fffc70;
   0x1fffc70; 0x1870c78; 0x1fffc7c; 0x1fffc7e; 0x1830c6e; 0x1fffc64; 0x1fffc60; 0x1f70c60;
   0x600060; 0x7ffff60; 0x3ffff60; 0x701060; 0x603860; 0x707060; 0x60e060; 0x70c060;
   0x7e0060; 0x3e0060; 0x0; 0x0; 0x0; 0x0; 0x202000; 0x0;
   0x0; 0x0; 0x180; 0x180; 0x3ffffc0; 0x3fffec0; 0x18c0c0; 0x2baeae0;
   0x3fffe70; 0x3aaee70; 0x398ce78; 0x388ce78; 0x398ce7c; 0x3fffe6c; 0x3fffe74; 0x30060;
   0x70070; 0x3fffe60; 0x3ffff70; 0xf8060; 0x1fe070; 0x3be060; 0xf77870; 0x1e33e60;
   0x7c71f70; 0x3030660; 0x70070; 0x0; 0x0; 0x0; 0x0; 0x202000;
   0x0; 0x0; 0x0; 0x180; 0x3fffb80; 0x3fffdc0; 0x19c0; 0x1ffdcc0;
   0xffd8e0; 0x1c70; 0x3fff870; 0x3fffc78; 0x188d878; 0x1d8dc7c; 0xf8dc6e; 0x77dc64;
   0x3e7cc60; 0x3f1dc60; 0x600c60; 0x3fffc60; 0x3ffec60; 0x708c60; 0x61ce60; 0x738660;
   0x630660; 0x710760; 0x7c0360; 0x7c0060; 0x0; 0x0; 0x0; 0x0;
   0x202000; 0x0; 0x0; 0x0; 0x70100; 0x70380; 0x15755c0; 0x1fffdc0;
   0x1fffcc0; 0x7060e0; 0x306070; 0x38e070; 0x3fffe78; 0x3fffe78; 0x303067c; 0x303066e;
   0x70064; 0x1fffe60; 0x1fffe60; 0xe060; 0xe060; 0xffe060; 0xffe060; 0xe06060;
   0xe07060; 0xe03860; 0x601c60; 0x7e0f60; 0x7c0660; 0x0; 0x0; 0x0;
   0x0; 0x202000; 0x0; 0x0; 0x0; 0xc001c0; 0xff81c0; 0x7fffc0;
   0xc1fce0; 0xe39ce0; 0x631860; 0x771870; 0x219070; 0x1c078; 0x1cf078; 0x1f7c7c;
   0x37fc6e; 0x71dc74; 0xe8f060; 0x1fffe70; 0x383fe60; 0x30470; 0x2abaa60; 0x3ffff70;
   0x2afaa60; 0x1dc070; 0x38e060; 0x1f87c70; 0x3e01fe0; 0x3800770; 0x0; 0x0;
   0x0; 0x0; 0x202000; 0x0; 0x0; 0x0; 0x70100; 0x30380;
   0x381c0; 0x3ffffc0; 0x3fffec0; 0x381cee0; 0x387ce70; 0x38cee70; 0x1c7078; 0x1fff07c].
Definition hanzi_data_28 : list N :=
  [0x1fff87e; 0xc3c6e; 0xc3e64; 0xffff60; 0x1fff660; 0xc3060; 0xc3060; 0xaeb060;
   0x1fff060; 0xc3060; 0xc3060; 0xc3060; 0x3fff060; 0x3fff060; 0x3060; 0x0;
   0x0; 0x0; 0x0; 0x202000; 0x0; 0x0; 0x0; 0x30180;
   0x30180; 0x15755c0; 0x1fffec0; 0x1fffec0; 0x180e0; 0x1fffc70; 0x1fffc70; 0xc078;
   0xe078; 0x3ffff7c; 0x3ffff6e; 0x383864; 0x733c60; 0x1f31e60; 0x7e30fe0; 0x3731f60;
   0x3b3860; 0x1ff060; 0x3fe060; 0x7b7c60; 0x1e31f60; 0x1c30760; 0x3e060; 0x1e060;
   0x0; 0x0; 0x0; 0x0; 0x202000; 0x0; 0x0; 0x0;
   0x301c0; 0xc30cc0; 0xc31cc0; 0xe318e0; 0x7318e0; 0x230060; 0x3ffff70; 0x3ffff70;
   0x3000778; 0x3000378; 0x37fff7c; 0x27ffa6e; 0x60187e; 0x601864; 0x601870; 0x6ab860;
   0x7ff870; 0x7ff860; 0xcc070; 0xce060; 0x70c7070; 0x30c3860; 0x3fc3c70; 0x3fc0f60;
   0x1f00770; 0x0; 0x0; 0x0; 0x0; 0x202000; 0x0; 0x0;
   0x0; 0x30180; 0x30380; 0x701c0; 0x3ffffc0; 0x3fffec0; 0x3800ee0; 0x3f40e70;
   0x3fffe70; 0x1ff078; 0x3078; 0x307c; 0x1fff06e; 0x1fff064; 0x183060; 0x183060;
   0x183060; 0x183060; 0x3ffff60; 0x3ffff60; 0x104060; 0x78f060; 0xf07860; 0x1c03c60;
   0x3800e60; 0x1000660; 0x0; 0x0; 0x0; 0x0; 0x202000; 0x0;
   0x0; 0x0; 0xe00c0; 0x30e00c0; 0x38e07e0; 0x1ffce60; 0x1ffdc70; 0xce1830;
   0xee0830; 0x6e0038; 0x7ffe538; 0x3ffefbc; 0x1c0fbe; 0xe0c3e; 0x78c34; 0x1ffcc30;
   0x1fffc30; 0x1836c30; 0x1830c30; 0x1ff0c30; 0x1ff0c30; 0x1832c30; 0x1837c30; 0x1ab3e30;
   0x1ff0e30; 0x1ab0230; 0x1830030; 0x0; 0x0; 0x0; 0x0; 0x202000;
   0x0; 0x0; 0x0; 0xc00c0; 0x2e00c0; 0x7600e0; 0xe60060; 0xc77fe0;
   0x2abbfb0; 0x3ffb030; 0x2ebf038; 0x63f138; 0x6379bc; 0x637b3c; 0x3ff1b3e; 0x3ff1e34;
   0x631e30; 0x631c30; 0x631c30; 0x3ff1e30; 0x3ff3e30; 0x633730; 0x636330; 0x6363b0;
   0x2eb01f0; 0x7ff01b0; 0x2ab0030; 0x30030; 0x0; 0x0; 0x0; 0x0;
   0x202000; 0x0; 0x0; 0x0; 0x701c0; 0x1860cc0; 0x1871cc0; 0x1860ce0;
   0x1871ce0; 0x1aeac60; 0x1fffc70; 0xaaa870; 0x63878; 0xe1878; 0x3fffc7c; 0x3fffc6e;
   0x3fffc74; 0xc0e60; 0x1ffff70; 0x1ffffe0; 0xc1d70; 0xc0c60; 0x1fffc70; 0x1fffc60;
   0xc1c70; 0xc0c60; 0x7fffc70; 0x3fffc60; 0x1c70; 0x0; 0x0; 0x0;
   0x0; 0x202000; 0x0; 0x0; 0x0; 0x3031c0; 0x3831c0; 0x3830c0;
   0x1bffe0; 0x1bffe0; 0x3f83060; 0x7fc3070; 0x18dff70; 0x18dff78; 0x18e3078; 0x1df307c;
   0x19a306e; 0x1dbfff4; 0xdbffe0; 0xd81c70; 0xf00c60; 0xf1fc70; 0x71fc60; 0x718c70;
   0xf18e60; 0xf9c670; 0x1d98660; 0x39fd770; 0x30ef3e0; 0x3067170; 0x0; 0x0;
   0x0; 0x0; 0x202000; 0x0; 0x0; 0x0; 0x411c0; 0x619c0;
   0x3fffdc0; 0x3fffce0; 0x18d8ee0; 0x18d9e60; 0xddff70; 0xf8e3f0; 0x787778; 0x703c78;
   0xe0387c; 0x1fffc6e; 0x7ffef74; 0x30003e0; 0x170; 0x1fffc60; 0x1fffc70; 0x30060;
   0x671870; 0xe31860; 0x1c71c70; 0x1830e60; 0x3870770; 0x103e260; 0x3e070; 0x0;
   0x0; 0x0; 0x0; 0x202000; 0x0; 0x0; 0x0; 0x70180;
   0x38180; 0x1ffffc0; 0x1fffec0; 0x1d86ee0; 0x19cfe60; 0x1c7ce70; 0x18fce70; 0x1fdfe78;
   0x1902e78; 0x1fffe7c; 0xaaea6e; 0x7cf064; 0x1e03c60; 0x3c1df60; 0xe260; 0x7ff060;
   0x7abc60; 0x387f60; 0x1ce260; 0x1fc060; 0xf8060; 0x7ffc60; 0x3f83f60; 0x1c00760;
   0x0; 0x0; 0x0; 0x0; 0x202000; 0x0; 0x0; 0x0;
   0x180; 0x1fdfd80; 0x1fdfdc0; 0x18188c0; 0x19d9ce0; 0x1b9b860; 0x1d1d070; 0x1f9f070;
   0x19dbc78; 0x18f8c78; 0x187007c; 0xf806e; 0x3dc064; 0xf0f860; 0x7e63e60; 0x3838e60;
   0x11f060; 0x1c7060; 0xcf0060; 0xe3e060; 0x78f060; 0x3e0060; 0x7c060; 0x1fc60;
   0x7860; 0x0; 0x0; 0x0; 0x0; 0x202000; 0x0; 0x0;
   0x0; 0x1c0; 0x3fdffc0; 0x3fdffc0; 0x30d86e0; 0x30d86e0; 0x3fdfe60; 0x1fdfe70;
   0x30d8678; 0x30d8678; 0x3fdfe7c; 0x1f9fc7c; 0x38606e; 0x386074; 0x3fffe60; 0x3fffe70;
   0x386060; 0x386070; 0x386060; 0x7ffff70; 0x3ffff60; 0x306070; 0xf8f060; 0x1e03c70;
   0x3800f60; 0x1000670; 0x0; 0x0; 0x0; 0x0; 0x202000; 0x0;
   0x0; 0x0; 0xe180; 0x6380; 0x1ff1c0; 0x1ff9c0; 0xc1cc0; 0xe0ee0;
   0x1ffff70; 0x1aaaff0; 0x1c70d78; 0x1830c78; 0x1fffc7c; 0x1fffc6e; 0x1e074; 0xc3f860;
   0x1f31f70; 0x7f8e60; 0x7ee070; 0x6e3860; 0x6f1f70; 0xcdc660; 0x1ccf070; 0x38e3c60;
   0x3061f70; 0x7c260; 0x3c070; 0x0; 0x0; 0x0; 0x0; 0x202000;
   0x0; 0x0; 0x0; 0x7031c0; 0x3061c0; 0x38e1c0; 0x2baeae0; 0x3ffffe0;
   0xcc060; 0x15dd470; 0x1fffe70; 0x1ccce78; 0x18cce7c; 0x1fc7e7c; 0x1803e6e; 0x1fffe74;
   0x1aaae60; 0x1c00e70; 0x1fffe60; 0x17d5470; 0x380060; 0x3ffff70; 0x2baaa60; 0x381c70;
   0x383060; 0x387070; 0x3f0060; 0x1f0070; 0x0; 0x0; 0x0; 0x0;
   0x202000; 0x0; 0x0; 0x0; 0x70180; 0x30380; 0x3ffffc0; 0x3ffffc0;
   0x700c0; 0x1fffce0; 0x1fffc70; 0x70; 0x1fffc78; 0xfff87c; 0x1c01c7e; 0xc0186e;
   0x1fffc64; 0xbae860; 0x306060; 0x3ffff60; 0x7ffff60; 0x60; 0x1fffc60; 0x1fffc60;
   0x1c01c60; 0x1800c60; 0x1fffc60; 0x1fffc60; 0x1c01c60; 0x0; 0x0; 0x0;
   0x0; 0x202000; 0x0; 0x0; 0x0; 0x30180; 0x38180; 0x181c0;
   0x3ffffc0; 0x3ffffe0; 0x118e0e0; 0x3b86f70; 0x1f07c70; 0xf03878; 0xfffc7c; 0x1ffff7c;
   0x7e01fee; 0x7fffb74; 0xfff860; 0xe01870; 0xe01860; 0xfff870; 0xfff860; 0x471870;
   0xe31860; 0x1e71c70; 0x1c30e60; 0x3870770; 0x303e260; 0x3e070; 0x0; 0x0].
Definition hanzi_data_29 : list N :=
  [0x0; 0x0; 0x202000; 0x0; 0x0; 0x0; 0x3011c0; 0xb018c0;
   0x1f038c0; 0x3b0bae0; 0x331ff60; 0x331ff60; 0x300070; 0x3fefe38; 0x3ffff78; 0x30823c;
   0x31c77c; 0x70823c; 0x71c774; 0x78fe30; 0x79ff70; 0x783030; 0x78f670; 0x79b230;
   0x7db370; 0x26db330; 0x67d31f0; 0x66631b0; 0x77731f0; 0x3e3bc30; 0x1c11c70; 0x0;
   0x0; 0x0; 0x0; 0x202000; 0x0; 0x0; 0x0; 0x603180;
   0x603180; 0x7071c0; 0x38e0c0; 0x1fffec0; 0x1fffee0; 0x1f33670; 0x1b33670; 0x19b6678;
   0x19b6678; 0x18f467c; 0x1fffe6e; 0x1fffe64; 0x60; 0x7ffc60; 0xfff860; 0xf55c60;
   0xe01860; 0xfffc60; 0xfff860; 0xe01c60; 0xe01860; 0xfffc60; 0xeab860; 0xe01c60;
   0x0; 0x0; 0x0; 0x0; 0x202000; 0x0; 0x0; 0x0;
   0x67100; 0xe3380; 0xc3180; 0xc3980; 0x3fff9c0; 0x3fffce0; 0x3fffc60; 0xc0e70;
   0x1ffff78; 0x1fffb78; 0xc1f7c; 0xc086c; 0x1fffc64; 0x1fff860; 0xc1c60; 0xc0860;
   0x3fffc60; 0x3fff860; 0x1c60; 0xcc8860; 0x1dddc60; 0x3998c60; 0x3998e60; 0x3398660;
   0x7118660; 0x0; 0x0; 0x0; 0x0; 0x202000; 0x0; 0x0;
   0x0; 0xc0; 0x3fffec0; 0x3ffffc0; 0x6832e0; 0x643660; 0x663260; 0x3ffff70;
   0x3fffe78; 0x707878; 0x707878; 0x679fc7c; 0x27cee6e; 0x3ef7774; 0x2822360; 0x1fffc70;
   0x1fffc60; 0x1c00c70; 0x1800c60; 0x1fffc70; 0x1fffc60; 0x1c00c70; 0x1800c60; 0x1fffc70;
   0x1fffc60; 0x1c00c70; 0x0; 0x0; 0x0; 0x0; 0x202000; 0x0;
   0x0; 0x0; 0x381c0; 0x301c0; 0x1ffffc0; 0x1fffee0; 0x3070e0; 0x386060;
   0x3ffff70; 0x3ffff70; 0x78; 0xaaa878; 0x1fffc7c; 0xc30c6e; 0x1d75c74; 0xfffc60;
   0x1c30c70; 0xc30c60; 0x1fffc70; 0xaba860; 0x30070; 0x1fffe60; 0x1fffe70; 0x30060;
   0x1575570; 0x3ffff60; 0x7ffff70; 0x0; 0x0; 0x0; 0x0; 0x202000;
   0x0; 0x0; 0x0; 0x180180; 0x180180; 0x3fffffc; 0x3fffffc; 0x180180;
   0x3ff9ff8; 0x3ffdffc; 0x3989988; 0x399d99c; 0x3d89d88; 0x1fddfdc; 0x7e07e0; 0x1ff9ff0;
   0x3d9f9b8; 0x798f19e; 0x218618c; 0x187180; 0xf080; 0x1f800; 0x39c00; 0x71f00;
   0x1e0780; 0x1fc03f0; 0x3f000fc; 0x1c0001c; 0x0; 0x0; 0x0; 0x0;
   0x202000; 0x0; 0x0; 0x0; 0xc0; 0x2aaabc0; 0x3ffffc0; 0x2baeac0;
   0x18c0e0; 0x3fffe60; 0x3fffe70; 0x318c670; 0x318c678; 0x318c678; 0x35dd67c; 0x3fffe6e;
   0x3fffe74; 0xc31860; 0xe73870; 0x633060; 0x7ffff70; 0x3fffe60; 0x7ffff70; 0x3be060;
   0x777070; 0xe33860; 0x7c71f70; 0x3830e60; 0x70070; 0x0; 0x0; 0x0;
   0x0; 0x202000; 0x0; 0x0; 0x0; 0x1c0; 0x3fffec0; 0x3fffec0;
   0xe0; 0x1fffc60; 0xebac60; 0x1d75c70; 0xfffc70; 0x1c71c78; 0xfffc78; 0x1fffc7c;
   0x6e; 0x3ffff74; 0x2aaaa60; 0x1fffc70; 0x1fffc60; 0x1c70c70; 0x1fffc60; 0x1fffc70;
   0x1c30c60; 0x1fffc70; 0xaaa860; 0x3ffff70; 0x3ffff60; 0x1555570; 0x0; 0x0;
   0x0; 0x0; 0x202000; 0x0; 0x0; 0x0; 0x3001c0; 0x30aac0;
   0x70fec0; 0x2eaeee0; 0x3fec660; 0x2aac660; 0x18cc670; 0x18cc638; 0x1dcfe78; 0xc8fe38;
   0x5d5077c; 0x3ff063e; 0x7ff0774; 0x30fe30; 0x71ff70; 0x308f30; 0x3ffcf70; 0x3fe8f30;
   0x71cf70; 0x308fb0; 0x71ddf0; 0x30fdb0; 0x71fdf0; 0x300c30; 0x700c70; 0x0;
   0x0; 0x0; 0x0; 0x202000; 0x0; 0x0; 0x0; 0x18c640;
   0x18c6e0; 0x19d760; 0x1bffe0; 0x1ffff0; 0x3f8c630; 0x7fcc630; 0x18c0e38; 0x18d5638;
   0x18ffe3c; 0x19fff3c; 0x18f83bc; 0x1dffff4; 0xd9bff0; 0xd9f3f0; 0xf9b330; 0xf1f330;
   0x71b330; 0x71ff30; 0x70bf30; 0xf9c330; 0xd8c030; 0x3dcc030; 0x38ef830; 0x1067830;
   0x0; 0x0; 0x0; 0x0; 0x202000; 0x0; 0x0; 0x0;
   0x1c0; 0x1fffdc0; 0x1fffdc0; 0x188cce0; 0x198cce0; 0x1aaec60; 0x1fffc70; 0x70;
   0x3ffff78; 0x3ffff78; 0x7c; 0xfffc6e; 0x1fffc74; 0xc00c60; 0x1c01c70; 0xeaac60;
   0x1fffc70; 0x30fc060; 0x3ccf070; 0xfc3e60; 0x787f70; 0x743260; 0x1e7f070; 0x7c3f860;
   0x3007870; 0x0; 0x0; 0x0; 0x0; 0x202000; 0x0; 0x0;
   0x0; 0x6180; 0x7380; 0x3ff1c0; 0x1ab9c0; 0x1c1cc0; 0x3fffee0; 0x3ffff70;
   0x338ff0; 0x1f1cf78; 0x38eec78; 0x10c6c7c; 0x3fffc6c; 0x3fffc64; 0xc60; 0x1ffec60;
   0xaaac60; 0x1ffec60; 0xffee60; 0xe60; 0x1ffe660; 0x1ffe660; 0x1806660; 0x1ffe760;
   0x1ffe360; 0x1806360; 0x0; 0x0; 0x0; 0x0; 0x202000; 0x0;
   0x0; 0x0; 0x180; 0x1ffff80; 0x1ffffc0; 0x300c0; 0x3ffffe0; 0x3ffff60;
   0x3030370; 0x3fb7f30; 0xff7c78; 0x30038; 0xff7c7c; 0x3002e; 0x1555574; 0x3ffff20;
   0x7ffff70; 0x38020; 0x1fffe70; 0x1fffe20; 0x19cc670; 0x188c620; 0x19cc670; 0x188c620;
   0x19cc670; 0x1e8c620; 0x1fcc670; 0x0; 0x0; 0x0; 0x0; 0x202000;
   0x0; 0x0; 0x0; 0x1c0; 0xaaa9c0; 0xfffcc0; 0xe30ce0; 0xe30c60;
   0xebac60; 0xfffc70; 0xe30c78; 0xe30c78; 0xebac7c; 0xfffc7e; 0x6e; 0x1545574;
   0x3feff60; 0x377df70; 0x3269b60; 0x367db70; 0x3feff60; 0x3ffff70; 0x3269b60; 0x367db70;
   0x3269b60; 0x3ffff70; 0x3aeab60; 0x307c370; 0x0; 0x0; 0x0; 0x0;
   0x202000; 0x0; 0x0; 0x0; 0x301c0; 0x301c0; 0x3ffffc0; 0x3fffee0;
   0x15dd6e0; 0x18c660; 0x3fffe70; 0x3baee38; 0x398c678; 0x3fffe3c; 0x3fffe7c; 0x8362e;
   0x1dff674; 0xfbf620; 0x11c3770; 0x30a3620; 0x35ff770; 0x3f8f220; 0x1770; 0xc9b320;
   0x199b370; 0x1999b20; 0x31919f0; 0x33309a0; 0x10d70; 0x0; 0x0; 0x0;
   0x0; 0x202000; 0x0; 0x0; 0x0; 0x71c0; 0x3ff8c0; 0x3ffcc0;
   0x1c0ee0; 0x1ffffe0; 0x18007e0; 0x1fffe70; 0x1fffe30; 0x60c78; 0x1fefc38; 0x11f5c7c].
Definition hanzi_data_30 : list N :=
  [0x3aefe2e; 0x3ff7e74; 0x1ab820; 0x3ffc70; 0x1c0e20; 0x1fffff0; 0x1abafa0; 0x1830670;
   0x1fffe20; 0x1fffc70; 0x27ae020; 0x7677c70; 0x3fe3fa0; 0x1fc07f0; 0x0; 0x0;
   0x0; 0x0; 0x202000; 0x0; 0x0; 0x0; 0x301c0; 0x301c0;
   0x3ffffc0; 0x3fffec0; 0xe0; 0x1fdfc60; 0x1fdfc70; 0x18d8c70; 0x1fdfc78; 0x1fdfc78;
   0x15d747c; 0x1fffe6e; 0x1fffc74; 0xbae860; 0x1fffc70; 0x186060; 0x3ffff70; 0x3fffe60;
   0x187e070; 0x1ec7860; 0x7c3f70; 0x383760; 0x1f7f070; 0x3c3f860; 0x3007070; 0x0;
   0x0; 0x0; 0x0; 0x202000; 0x0; 0x0; 0x0; 0x0;
   0xe0380; 0xe0380; 0xe0380; 0xe0380; 0xe0380; 0xe0380; 0xe0380; 0xe0380;
   0xe0380; 0xe0380; 0xe0380; 0xe0380; 0xe0380; 0xe0180; 0xe0180; 0xe01c0;
   0x30e01c0; 0x70e01c0; 0x30e00e0; 0x70e0070; 0x30e0078; 0x3fe003c; 0x3fc001e; 0x1fc000c;
   0x0; 0x0; 0x0; 0x0; 0x202000; 0x0; 0x0; 0x0;
   0x0; 0x0; 0x0; 0x3fffffc; 0x3fffffc; 0x60300; 0x70700; 0x60300;
   0x70700; 0x60300; 0x70700; 0x60300; 0x70700; 0x60300; 0x70300; 0x60380;
   0x70380; 0x60380; 0x30701c0; 0x30600e0; 0x70700f0; 0x3060070; 0x3ff007c; 0x3fe001e;
   0x1fc000c; 0x0; 0x0; 0x0; 0x0; 0x202000; 0x0; 0x0;
   0x0; 0x3000; 0x3800; 0x1c00; 0xc00; 0x70e00; 0xe0700; 0x1c0700;
   0x380380; 0x7801c0; 0x7ff8e0; 0xfffff0; 0xe33ff0; 0xc30c10; 0x30e00; 0x30e00;
   0x30e00; 0x30600; 0x1030600; 0x7030700; 0x3030380; 0x70303c0; 0x30301e0; 0x3ff00f8;
   0x3ff003e; 0x17c001c; 0x0; 0x0; 0x0; 0x0; 0x202000; 0x0;
   0x0; 0x0; 0x0; 0x0; 0xfffff0; 0xffffe0; 0x555550; 0x0;
   0x0; 0x0; 0x0; 0x0; 0x3fffffc; 0x3fffffc; 0x70600; 0x30600;
   0x70700; 0x30700; 0x70700; 0x30300; 0x7070380; 0x3030380; 0x30701c0; 0x30300e0;
   0x3ff0078; 0x3fe003c; 0x7c0018; 0x0; 0x0; 0x0; 0x0; 0x202000;
   0x0; 0x0; 0x0; 0x0; 0x2aaaa0; 0xffffe0; 0xffffe0; 0xe00060;
   0xe00060; 0xe00060; 0xe00060; 0xe00060; 0xe00060; 0xf55560; 0xffffe0; 0xffffe0;
   0x30600; 0x30600; 0x30600; 0x30700; 0x30700; 0x7030700; 0x3030380; 0x70301c0;
   0x30300e0; 0x3ff00fc; 0x3ff003c; 0x1fe001c; 0x0; 0x0; 0x0; 0x0;
   0x202000; 0x0; 0x0; 0x0; 0x7000; 0x7000; 0xe000; 0xe000;
   0x3fffffc; 0x3fffffc; 0x3fffffc; 0xe00; 0xf0700; 0x1c0380; 0x3801c0; 0x7a00e0;
   0xfffff0; 0x1effff0; 0x1c30c50; 0x30e00; 0x30e00; 0x30e00; 0x1030700; 0x3030700;
   0x3030380; 0x30303e0; 0x3ff01f8; 0x3ff007c; 0x540018; 0x0; 0x0; 0x0;
   0x0; 0x202000; 0x0; 0x0; 0x0; 0x30c00; 0x30c00; 0x830c10;
   0x1c30c18; 0x1c30c38; 0xe30c70; 0x730c70; 0x330ce0; 0x3b0dc0; 0x1b0c80; 0x30c00;
   0x70c00; 0x1f0f00; 0x3f0f80; 0xf30ff0; 0x3e30efc; 0x7c3061c; 0x3030608; 0x30700;
   0x1030380; 0x70303c0; 0x30301e0; 0x3ff00f8; 0x3ff003c; 0x1fc0018; 0x0; 0x0;
   0x0; 0x0; 0x202000; 0x0; 0x0; 0x0; 0x6000; 0x6180;
   0x61c0; 0x61c0; 0xffffc0; 0xffffe0; 0xffffe0; 0x6060; 0x6070; 0x6038;
   0x6010; 0x2aaeaa8; 0x3fffffc; 0x3fffffc; 0x70600; 0x30600; 0x70700; 0x30700;
   0x1070700; 0x3030380; 0x30703c0; 0x30301e0; 0x3ff00f8; 0x3fe003c; 0x1fc001c; 0x0;
   0x0; 0x0; 0x0; 0x202000; 0x0; 0x0; 0x0; 0x6000;
   0x606020; 0xe06070; 0x6060e0; 0x7060e0; 0x3060c0; 0x3861c0; 0x186180; 0x1c6180;
   0x6000; 0x3fffffc; 0x3fffffc; 0x3fffffc; 0x30600; 0x70600; 0x30600; 0x70700;
   0x30700; 0x1070300; 0x3030380; 0x70701c0; 0x30300e0; 0x357007c; 0x3ff003c; 0x1fe001c;
   0x0; 0x0; 0x0; 0x0; 0x202000; 0x0; 0x0; 0x0;
   0x6000; 0x6000; 0x1557554; 0x3fffffc; 0x3fffffc; 0x6000; 0x6000; 0x2aeaa0;
   0x7fffe0; 0x7fffe0; 0x7000e0; 0x6000e0; 0x7000e0; 0x6000e0; 0x7fffe0; 0x7fffe0;
   0x30e00; 0x30e00; 0x1030700; 0x3030700; 0x7030780; 0x30303c0; 0x3ff01f8; 0x3ff007c;
   0x1fe001c; 0x0; 0x0; 0x0; 0x0; 0x202000; 0x0; 0x0;
   0x0; 0xe00; 0x600; 0x7ff00; 0x7ff80; 0x301c0; 0x380e0; 0x1c070;
   0xfffff8; 0xfffffc; 0xc06068; 0xc06070; 0xc06060; 0xc07070; 0xffffe0; 0xfffff0;
   0xabbaa0; 0x3b800; 0x39800; 0x1039c00; 0x3038e00; 0x3038780; 0x30383e0; 0x3ff81fc;
   0x3ff803c; 0x540018; 0x0; 0x0; 0x0; 0x0; 0x202000; 0x0;
   0x0; 0x0; 0x180180; 0x180380; 0x1c0300; 0xe0700; 0x70600; 0x2baaa0;
   0x7fffe0; 0x6aaae0; 0x600060; 0x600060; 0x600060; 0x600060; 0x600060; 0x7fffe0;
   0x7fffe0; 0x30c00; 0x30e00; 0x30e00; 0x30600; 0x3030700; 0x7030780; 0x30303c0;
   0x3ff01f0; 0x3ff007c; 0x17c0018; 0x0; 0x0; 0x0; 0x0; 0x202000;
   0x0; 0x0; 0x0; 0xe00; 0x600; 0x7ff00; 0x7ff80; 0x381c0;
   0x380e0; 0x1c070; 0xfffff8; 0xfffffc; 0xc0607c; 0xc06070; 0xc06070; 0xc07070;
   0xc07070; 0xfffff0; 0xfffff0; 0x9f800; 0x1db800; 0x79dc00; 0x1718e00; 0x761c700;
   0x30183c0; 0x355c1f0; 0x3ff807c; 0x1ff001c; 0x0; 0x0; 0x0; 0x0;
   0x202000; 0x0; 0x0; 0x0; 0x0; 0xff0ff0; 0xff0ff0; 0xe30c30;
   0xe30c70; 0xe30c30; 0xe3fc70; 0xe3fc30; 0xe3fc70; 0xe00030; 0xe00070; 0xe00030;
   0xfffff0; 0xfffff0; 0xfffff0; 0x38e00; 0x38600; 0x38600; 0x3038700; 0x3038300;
   0x7038380; 0x30381c0; 0x3ff01f0; 0x3ff007c; 0x1c; 0x0; 0x0; 0x0].
Definition hanzi_data_31 : list N :=
  [0x0; 0x202000; 0x0; 0x0; 0x0; 0x7000; 0x6000; 0xe000;
   0x3fffffc; 0x3fffffc; 0x60200; 0x1f0700; 0x7803c0; 0x1f071f0; 0x3c0387c; 0x1861c18;
   0xe0e00; 0x1c0700; 0x3803c0; 0x7ffff0; 0xefffe0; 0x670660; 0x30600; 0x70600;
   0x1030700; 0x7070780; 0x30303c0; 0x3ff01f0; 0x3ff00fc; 0x540018; 0x0; 0x0;
   0x0; 0x0; 0x202000; 0x0; 0x0; 0x0; 0x6040; 0x7060e0;
   0x7061c0; 0x386180; 0x1c6380; 0x3fffff8; 0x3fffffc; 0x3800018; 0x380001c; 0x39fff98;
   0x39fffdc; 0x180180; 0x1801c0; 0x180180; 0x1801c0; 0x1fff80; 0x1fffc0; 0x38c00;
   0x38e00; 0x1038e00; 0x7038700; 0x3038380; 0x35781fc; 0x3ff00fc; 0x1ff001c; 0x0;
   0x0; 0x0; 0x0; 0x202000; 0x0; 0x0; 0x0; 0x6000;
   0x6180; 0x1f873e0; 0x1fbfcf8; 0x1d3fc38; 0x1830c38; 0x1c30c38; 0x1830c38; 0x1c3fc38;
   0x183fc38; 0x1c30c38; 0x1830db8; 0x1d35df8; 0x1fbfcf8; 0x1fbfc7c; 0x30e08; 0x30e00;
   0x30e00; 0x30600; 0x3030700; 0x3030780; 0x30303c0; 0x3ff01f0; 0x3ff00fc; 0x1fe001c;
   0x0; 0x0; 0x0; 0x0; 0x202000; 0x0; 0x0; 0x0;
   0x1c01c0; 0x180180; 0x1c01c0; 0x3ffdffc; 0x3ffdffc; 0x180180; 0x1c01c0; 0xba8ba8;
   0x1ffdffc; 0x1ab9ab8; 0x181dc1c; 0x1819818; 0x181dc1c; 0x1ff9ff8; 0x1ffdffc; 0x320660;
   0x770670; 0x330630; 0x772670; 0x6333e30; 0x673bf30; 0x6338f38; 0x7f1c71c; 0x3e0e00e;
   0x1e06004; 0x0; 0x0; 0x0; 0x0; 0x202000; 0x0; 0x0;
   0x0; 0x0; 0x600; 0xf00; 0x1e00; 0x3c00; 0x3800; 0x7000;
   0xe000; 0x1f000; 0x1f000; 0x1b000; 0x3b800; 0x73800; 0x71800; 0x71c00;
   0xe0e00; 0x1c0e00; 0x1c0700; 0x380780; 0x7003c0; 0xf001e0; 0x3e000f0; 0x7c0007c;
   0x380003c; 0x2000018; 0x0; 0x0; 0x0; 0x0; 0x202000; 0x0;
   0x0; 0x0; 0x6000; 0x6000; 0xf000; 0x1f800; 0x79c00; 0xf0e00;
   0x1e0780; 0x3803c0; 0xf001f0; 0x3e00078; 0x7fffffe; 0x33fffcc; 0x6000; 0x6000;
   0x6000; 0x6000; 0x7fffc0; 0x3fffc0; 0x6000; 0x6000; 0x6000; 0x6000;
   0x3fffffc; 0x3fffff8; 0x0; 0x0; 0x0; 0x0; 0x0; 0x202000;
   0x0; 0x0; 0x0; 0x0; 0x0; 0x70000; 0x30600; 0x70700;
   0x60700; 0x70700; 0x60300; 0x60700; 0x60300; 0xe0300; 0xe0380; 0xc0380;
   0xc0380; 0x1c01c0; 0x1801c0; 0x3801c0; 0x3800e0; 0x7000e0; 0x600060; 0xe00070;
   0x1c00038; 0x3c0001c; 0x380000e; 0x1000004; 0x0; 0x0; 0x0; 0x0;
   0x202000; 0x0; 0x0; 0x0; 0x0; 0x70e00; 0x70700; 0xe0700;
   0x1c0780; 0x380380; 0x7801c0; 0x7000e0; 0xf020f0; 0x1e07070; 0x3c0703c; 0x380381c;
   0x1003c18; 0x1c00; 0x41e00; 0xe0e00; 0x1c0700; 0x1c0380; 0x3803c0; 0x7001c0;
   0x7ffff0; 0xfffff0; 0x1c017f0; 0x1800000; 0x800000; 0x0; 0x0; 0x0;
   0x0; 0x202000; 0x0; 0x0; 0x0; 0x3000; 0x3800; 0x7000;
   0x6000; 0xe000; 0xe000; 0x4000; 0x3fffffc; 0x3fffffc; 0x2aaaaa8; 0x0;
   0x0; 0x40100; 0xe0700; 0x1c0700; 0x1c0380; 0x3801c0; 0x3801c0; 0x7001e0;
   0xe000e0; 0x1e00070; 0x1c00038; 0x3c0003c; 0x380001c; 0x1000008; 0x0; 0x0;
   0x0; 0x0; 0x202000; 0x0; 0x0; 0x0; 0x70600; 0x60600;
   0xe0700; 0xe0300; 0x1c0380; 0x3801c0; 0x7801e0; 0xf000e0; 0x1fffff0; 0x3dfffbc;
   0x3800e1c; 0xe08; 0x600; 0x600; 0x3fff00; 0x3fff00; 0x3d5500; 0x380000;
   0x180000; 0x180000; 0x1c0000; 0x1c0000; 0x1ff800; 0xff000; 0x7f000; 0x0;
   0x0; 0x0; 0x0; 0x202000; 0x0; 0x0; 0x0; 0x180180;
   0x3801c0; 0x1c0380; 0xc0300; 0xe0700; 0x60200; 0x1fffff8; 0x1fffff8; 0x1555550;
   0x0; 0x0; 0x0; 0x0; 0x2aaaa0; 0x7ffff0; 0x7fffe0; 0x0;
   0x0; 0x0; 0x0; 0x0; 0x3fffffc; 0x3fffffc; 0x3fffffc; 0x0;
   0x0; 0x0; 0x0; 0x0; 0x202000; 0x0; 0x0; 0x0;
   0xc0700; 0xc0300; 0xc0700; 0xc0300; 0xc0700; 0xc0300; 0x1fffff8; 0x1fffff8;
   0xc0700; 0xc0300; 0xc0700; 0xc0300; 0xc0700; 0xc0300; 0x7fffffc; 0x3fffffc;
   0x0; 0x200; 0x70f00; 0x1e0780; 0x3c03c0; 0xf801e0; 0x1f000f0; 0x3c0003c;
   0x1800018; 0x0; 0x0; 0x0; 0x0; 0x202000; 0x0; 0x0;
   0x0; 0x180100; 0x380180; 0x1c0380; 0xc0300; 0xe0700; 0x60200; 0x1fffff0;
   0xfffff0; 0x6000; 0x6000; 0x6000; 0x6000; 0x1557554; 0x3fffffc; 0x3fffffc;
   0xf000; 0x1f000; 0x3b800; 0x71c00; 0xe0e00; 0x1e0780; 0x7803e0; 0x7f001fc;
   0x3e0007c; 0x1000018; 0x0; 0x0; 0x0; 0x0; 0x202000; 0x0;
   0x0; 0x0; 0x0; 0x800c00; 0x3c01c00; 0x1c0381c; 0x1c0381c; 0xe03038;
   0x707070; 0x706060; 0x3860e0; 0x3820e0; 0x1c00c0; 0xe0000; 0x0; 0x3fffffc;
   0x3fffffc; 0x0; 0x40100; 0xe0700; 0x1c0380; 0x3801c0; 0x7001e0; 0xe000f0;
   0x1c0007c; 0x380001c; 0x1000008; 0x0; 0x0; 0x0; 0x0; 0x202000;
   0x0; 0x0; 0x0; 0x700000; 0x7ff800; 0x7fffc0; 0x2f80; 0x1c0;
   0x180; 0x1c0; 0x1ffff80; 0x1ffffc0; 0xaeab80; 0xc01c0; 0xc0180; 0xc01c0;
   0xc0180; 0xc01c0; 0x2aeaba8; 0x3fffffc; 0x3fffffc; 0x60600; 0xf0f00; 0x3c07c0;
   0xf801e0; 0x1f000f0; 0x3c0003c; 0x1000018; 0x0; 0x0; 0x0; 0x0;
   0x202000; 0x0; 0x0; 0x0; 0x180180; 0x180180; 0x180180; 0x1fffff8;
   0x1fffffc; 0xbaaba8; 0x180180; 0x180180; 0x1fff80; 0x1fff80; 0x180180; 0x180180].
Definition hanzi_data_32 : list N :=
  [0x1fff80; 0x1fff80; 0x1d5580; 0x180180; 0x180180; 0x3fffffc; 0x3fffffc; 0x20000;
   0x1f0f00; 0x3e07c0; 0x1f801f0; 0x3e0007c; 0x180001c; 0x0; 0x0; 0x0;
   0x0; 0x202000; 0x0; 0x0; 0x0; 0x0; 0x3fffc0; 0x3fffc0;
   0x3000c0; 0x3001c0; 0x3fffc0; 0x3fffc0; 0x3000c0; 0x3001c0; 0x3fffc0; 0x3fffc0;
   0x3000c0; 0x3001c0; 0x3fffc0; 0x3fffc0; 0x3000c0; 0x3001c0; 0x3fffffc; 0x3fffffc;
   0xe0200; 0x3f0780; 0xf803e0; 0x1f001f8; 0x3c0003e; 0x100001c; 0x0; 0x0;
   0x0; 0x0; 0x202000; 0x0; 0x0; 0x0; 0x30c00; 0x30c00;
   0x30c00; 0xfffff0; 0xfffff0; 0xebaeb0; 0xc30c70; 0xc30c30; 0xc30c70; 0xc30c30;
   0xfffff0; 0xfffff0; 0xc30c70; 0xc30c30; 0xc30c70; 0xc30c30; 0x7fffffc; 0x3fffffe;
   0x7fffffe; 0xe0600; 0x1f0780; 0x7803c0; 0x1f001f0; 0x3c0007c; 0x1800018; 0x0;
   0x0; 0x0; 0x0; 0x202000; 0x0; 0x0; 0x0; 0x180180;
   0x380180; 0x1c0380; 0xe0300; 0x3fffffc; 0x3fffffc; 0x3fffffc; 0xc0180; 0xe01c0;
   0x600e0; 0xc71860; 0xe39c70; 0xe1dc30; 0x7fcff8; 0x3fe7fc; 0x3ac3b8; 0x1c0380;
   0x6e05c0; 0xe70ce0; 0xc38c60; 0x1c1dc30; 0x1fffff8; 0x3fffffc; 0x300b00c; 0x1001000;
   0x0; 0x0; 0x0; 0x0; 0x202000; 0x0; 0x0; 0x0;
   0x1c0380; 0xc0300; 0xe0700; 0x1fffff8; 0x1fffff8; 0x6000; 0x557540; 0xffffe0;
   0xfffff0; 0x3800; 0x3fffffc; 0x3fffffc; 0x3fffffc; 0xe0780; 0x7c07c0; 0xfe07f8;
   0x7e6077c; 0x386061c; 0x60700; 0x60300; 0x60380; 0x60380; 0x601e0; 0x600f8;
   0x60070; 0x0; 0x0; 0x0; 0x0; 0x202000; 0x0; 0x0;
   0x0; 0x3001c0; 0x380380; 0x1c0780; 0xe0700; 0x3fffffc; 0x3fffffc; 0x38c00;
   0x38c00; 0x7ffff0; 0x7ffff0; 0x638c00; 0x638c00; 0x3fffffc; 0x3fffffc; 0x638c00;
   0x638c00; 0x7ffff0; 0x7ffff0; 0xf8f00; 0x1f8f80; 0x7b8dc0; 0xf38cf0; 0x7c38c7c;
   0x3838c1c; 0x38c00; 0x0; 0x0; 0x0; 0x0; 0x202000; 0x0;
   0x0; 0x0; 0x1c0300; 0xc0300; 0xe0700; 0xaeaea0; 0xfffff0; 0xc06030;
   0xc06030; 0xfffff0; 0xfffff0; 0xc06030; 0xc06030; 0xfffff0; 0xfffff0; 0x0;
   0x3fffffc; 0x3fffffc; 0x0; 0x7fffe0; 0x7fffe0; 0x600060; 0x600060; 0x600060;
   0x7fffe0; 0x7fffe0; 0x600060; 0x0; 0x0; 0x0; 0x0; 0x202000;
   0x0; 0x0; 0x0; 0x18c00; 0x1e18c00; 0x1ff8ffc; 0x10f8ea8; 0x3018d00;
   0x3ff8ffc; 0x1ff0d7c; 0x2aaaa0; 0x7fffe0; 0x606060; 0x7fffe0; 0x7fffe0; 0x606060;
   0x7fffe0; 0x7fffe0; 0xe0300; 0x1fffff8; 0x1fffff8; 0xe0700; 0x3fffffc; 0x7fffffc;
   0xe0e00; 0xff0fe0; 0x3e000fc; 0x300001c; 0x0; 0x0; 0x0; 0x0;
   0x202000; 0x0; 0x0; 0x0; 0x618; 0x3ffe638; 0x3ffe730; 0x3006330;
   0x3006ffc; 0x3aaeffc; 0x3ffeccc; 0x2eeeccc; 0xc66ddc; 0xc66ffc; 0x3ffeddc; 0x3ffeccc;
   0xc66ccc; 0xc66eec; 0xc66ffc; 0x3ffe0c0; 0x7ffe0c0; 0x23360c0; 0x3f37ffe; 0x1e33ffe;
   0x6330c0; 0xc338c0; 0x3df1cc0; 0x38f9cc0; 0x108c0; 0x0; 0x0; 0x0;
   0x0; 0x202000; 0x0; 0x0; 0x0; 0x0; 0x0; 0x1fffff8;
   0x1fffff8; 0x1c00038; 0x1800038; 0x1c00038; 0x1800038; 0x1c00038; 0x1800038; 0x1c00038;
   0x1800038; 0x1c00038; 0x1800038; 0x1c00038; 0x1800038; 0x1c00038; 0x1800038; 0x1c00038;
   0x1800038; 0x1c00038; 0x1800038; 0x1c00038; 0x1fc0038; 0xfc0038; 0x0; 0x0;
   0x0; 0x0; 0x202000; 0x0; 0x0; 0x0; 0x6000; 0x6000;
   0x6000; 0x6000; 0x1557550; 0x1fffff8; 0x1fffff8; 0x1806018; 0x1c07018; 0x1806018;
   0x1c07018; 0x180f018; 0x1c1f818; 0x183b818; 0x1c71c18; 0x18e0e18; 0x1dc0718; 0x1b803d8;
   0x1d001d8; 0x1800098; 0x1c00018; 0x1800018; 0x1d40018; 0x1fc0018; 0xfc0018; 0x0;
   0x0; 0x0; 0x0; 0x202000; 0x0; 0x0; 0x0; 0x0;
   0xaaaaa8; 0x1fffff8; 0x1fffff8; 0x1c00018; 0x18c0018; 0x1ce0118; 0x18e0398; 0x1c70718;
   0x1830e18; 0x1c39c18; 0x181b818; 0x1c1f018; 0x180e018; 0x1c1f018; 0x183b818; 0x1c73c18;
   0x18e1e18; 0x1de0f18; 0x18c0798; 0x1c003d8; 0x1800018; 0x1d40018; 0x1fc0018; 0xfc0018;
   0x0; 0x0; 0x0; 0x0; 0x202000; 0x0; 0x0; 0x0;
   0x6000; 0x6000; 0x6000; 0xaaeaa0; 0xfffff0; 0xffffe0; 0xe06070; 0xe06060;
   0xe06070; 0xffffe0; 0xfffff0; 0xe06060; 0xe06070; 0xe06060; 0xe06070; 0x3fffffc;
   0x7fffffc; 0xe00060; 0xe00070; 0xe00060; 0xe00070; 0xe00060; 0x740070; 0x7e0060;
   0x7e0070; 0x0; 0x0; 0x0; 0x0; 0x202000; 0x0; 0x0;
   0x0; 0x0; 0x0; 0xff9ff0; 0xff8fe0; 0xe19c70; 0xe18c60; 0xe19c70;
   0xe18c60; 0xe19c70; 0xe18c60; 0x1f5dd74; 0x3fffffc; 0x7fffffc; 0xe18c60; 0xe19c70;
   0xe18c30; 0xe1dc70; 0xe18c30; 0xe1dc30; 0xe0cc38; 0xe0dc38; 0xe0ec18; 0xe07d1c;
   0x7c7f8e; 0x7c678c; 0x0; 0x0; 0x0; 0x0; 0x202000; 0x0;
   0x0; 0x0; 0x0; 0x0; 0x3fffffc; 0x3fffff8; 0x6000; 0x6000;
   0x7ffff0; 0x7fffe0; 0x606070; 0x606060; 0x606070; 0x7fffe0; 0x7ffff0; 0x606060;
   0x606070; 0x606060; 0x7fffffe; 0x3fffffc; 0x7fffffc; 0x600060; 0x600070; 0x600060;
   0x600070; 0x7e0060; 0x7e0070; 0x0; 0x0; 0x0; 0x0; 0x202000;
   0x0; 0x0; 0x0; 0x0; 0x0; 0x1fffff8; 0x1fffff8; 0x1810018;
   0x1839818; 0x1871c18; 0x1860e18; 0x18e0718; 0x19c0398; 0x1b801d8; 0x1baaad8; 0x19fff18;
   0x18eae18; 0x18e0718; 0x18e0618; 0x18e0718; 0x18e0618; 0x18fff18; 0x18ffe18; 0x1800718;
   0x1800618; 0x1d00018; 0x1f80018; 0xf80018; 0x0; 0x0; 0x0; 0x0].
Definition hanzi_data_33 : list N :=
  [0x202000; 0x0; 0x0; 0x0; 0x0; 0xfffff0; 0xfffff0; 0xc00030;
   0xd55530; 0xdfffb0; 0xd55530; 0xc00030; 0xdfffb0; 0xdfffb0; 0xc00030; 0x2aaa80;
   0x7fffe0; 0x3aaae0; 0x7000e0; 0x3fffe0; 0x7fffe0; 0x3000e0; 0x7fffe0; 0x3fffe0;
   0x7000e0; 0x3000e0; 0x7fffe0; 0x3fffe0; 0x7000e0; 0x0; 0x0; 0x0;
   0x0; 0x202000; 0x0; 0x0; 0x0; 0x0; 0x3fffc0; 0x7fffc0;
   0x3000c0; 0x77fec0; 0x37fec0; 0x7000c0; 0x3000c0; 0x77fec0; 0x37fec0; 0x100040;
   0xaaa2a8; 0x1fff3f8; 0xaea3f8; 0xc0318; 0xc0318; 0x3fffb18; 0x3fffb18; 0x3fffb18;
   0xc03f8; 0xc03f8; 0xc02b8; 0xc0018; 0xfc000; 0x7c000; 0x0; 0x0;
   0x0; 0x0; 0x202000; 0x0; 0x0; 0x0; 0x0; 0xfffff0;
   0xfffff0; 0xe00030; 0xffff70; 0xeaaa30; 0xe55570; 0xefff30; 0xe00e70; 0x2af00;
   0xfff80; 0x701c0; 0x57d5f0; 0xfffff8; 0xfffffc; 0xe06060; 0xe07060; 0xffffe0;
   0xffffe0; 0x1b800; 0x7019c00; 0x3018f00; 0x35587f0; 0x3ff81fc; 0x1ff001c; 0x0;
   0x0; 0x0; 0x0; 0x202000; 0x0; 0x0; 0x0; 0x0;
   0x0; 0x0; 0x0; 0x0; 0x0; 0x0; 0xaaaaa8; 0x1fffff8;
   0x1fffff8; 0x1c00018; 0x1800018; 0x1c00018; 0x1800018; 0x1c00018; 0x0; 0x0;
   0x0; 0x0; 0x0; 0x0; 0x0; 0x0; 0x0; 0x0;
   0x0; 0x0; 0x0; 0x0; 0x202000; 0x0; 0x0; 0x0;
   0x0; 0x0; 0x3fffffc; 0x3fffff8; 0x380001c; 0x3800018; 0x380001c; 0x3800018;
   0x38fff1c; 0xfff00; 0xfff00; 0xe0300; 0xe0700; 0xe0300; 0xe0700; 0xe0300;
   0xe0300; 0xe0380; 0x70e0380; 0x30e0180; 0x70e01c0; 0x30e00f0; 0x3fc007c; 0x3fc003c;
   0x1fc001c; 0x0; 0x0; 0x0; 0x0; 0x202000; 0x0; 0x0;
   0x0; 0x0; 0xaaaaa8; 0x1fffffc; 0x1fffff8; 0x180071c; 0x1800318; 0x180031c;
   0x3fff00; 0x3fff00; 0x380; 0x180; 0x180; 0x7fffc0; 0x7fffc0; 0x700000;
   0x300000; 0x700000; 0x33fff8; 0x37fff8; 0x300000; 0x380000; 0x380000; 0x1fe000;
   0xfe000; 0x7c000; 0x0; 0x0; 0x0; 0x0; 0x202000; 0x0;
   0x0; 0x0; 0x0; 0x3fffff8; 0x3fffffc; 0x3800018; 0x3801c1c; 0x3800c18;
   0x3800e1c; 0x7fffe0; 0x7fffe0; 0x700; 0xc300; 0xc380; 0xc1c0; 0x7fffe0;
   0x7fffc0; 0xc040; 0xc000; 0xc000; 0x3fffffc; 0x3fffff8; 0x3fffffc; 0xc000;
   0xc000; 0xc000; 0xc000; 0x0; 0x0; 0x0; 0x0; 0x202000;
   0x0; 0x0; 0x0; 0xc000; 0xc000; 0xe000; 0xaaeaa8; 0x1fffff8;
   0x1fffff8; 0x1807018; 0x1807818; 0x1807c18; 0xfc00; 0x40ce00; 0xe0c700; 0x79c780;
   0x3d83e0; 0x1f83f0; 0x703be; 0x7039c; 0xe0380; 0x1c0380; 0x380380; 0x78c380;
   0xe0ff80; 0x7c07fc0; 0x3800fc0; 0x1000180; 0x0; 0x0; 0x0; 0x0;
   0x202000; 0x0; 0x0; 0x0; 0x0; 0x1fffff8; 0x1fffffc; 0x1aaaab8;
   0x180001c; 0x1a00018; 0x601ff0; 0x601ff0; 0x601ff0; 0x3ffc000; 0x3ffc000; 0x600000;
   0x617ffc; 0x63bffc; 0x670c60; 0x660c60; 0x660c60; 0x620c60; 0x600c70; 0x37c0c70;
   0x77c0c70; 0x3000c38; 0x3fffc1c; 0x3fffc0e; 0x1fff00c; 0x0; 0x0; 0x0;
   0x0; 0x202000; 0x0; 0x0; 0x0; 0x0; 0x3fffff8; 0x3fffffc;
   0x3800018; 0x380001c; 0x3bfffd8; 0x3ffffdc; 0x7800; 0x1e00; 0x603f80; 0xf073f0;
   0x3860f8; 0x1ef818; 0xfdee0; 0xfcfc0; 0xde3e0; 0x1df7fc; 0x19bf38; 0x399c00;
   0x718f00; 0xe1c7c0; 0x3c180f8; 0x1c1c07c; 0xfc08; 0x7c00; 0x0; 0x0;
   0x0; 0x0; 0x202000; 0x0; 0x0; 0x0; 0x0; 0x1fffff8;
   0x1fffffc; 0x1800018; 0x1800e1c; 0x183ff18; 0x187ff9c; 0x38380; 0x1c1e0; 0xaaeaf0;
   0xfffffc; 0xe0607c; 0xe07060; 0xe06060; 0xe07060; 0xffffe0; 0xffffe0; 0x9b800;
   0x1ddc00; 0x2399c00; 0x771cf00; 0x3218780; 0x755c3f0; 0x3ff80fc; 0x1ff001c; 0x0;
   0x0; 0x0; 0x0; 0x202000; 0x0; 0x0; 0x0; 0x0;
   0x3fffff8; 0x3fffffc; 0x3aaaab8; 0x380001c; 0x3bfffd8; 0x1ffffdc; 0x3000c0; 0x7000c0;
   0x3fffc0; 0x7fffc0; 0x3000c0; 0x7000c0; 0x3fffc0; 0x7fffc0; 0x6000; 0x155f554;
   0x3fffffc; 0x3fffffc; 0x40200; 0x1f0700; 0x7c03c0; 0x1f001f0; 0x3c0007c; 0x1000018;
   0x0; 0x0; 0x0; 0x0; 0x202000; 0x0; 0x0; 0x0;
   0x0; 0x0; 0x10; 0x38; 0xf0; 0xe0; 0x1c0; 0x380;
   0x300; 0x0; 0x0; 0x0; 0x0; 0x200; 0x700; 0x380;
   0x1c0; 0x1c0; 0xe0; 0xe0; 0x70; 0x38; 0x1c; 0x10;
   0x0; 0x0; 0x0; 0x0; 0x0; 0x202000; 0x0; 0x0;
   0x0; 0x1c00; 0x1c00; 0x155e00; 0x3ffe00; 0x3fff00; 0x1c0380; 0x1e07c0;
   0x70ee0; 0x7dc78; 0x1f838; 0x1f010; 0x3fe00; 0x1f9fc0; 0xfe03f8; 0x3f005fc;
   0x1803c18; 0x1fc00; 0xfe000; 0x70000; 0x180; 0x1fc0; 0xfe00; 0x7f000;
   0x1f8000; 0xc0000; 0x0; 0x0; 0x0; 0x0; 0x202000; 0x0;
   0x0; 0x0; 0x0; 0x8; 0x3fffe1c; 0x3fffe38; 0x1575470; 0x300e0;
   0x700e0; 0x30000; 0x70000; 0x30000; 0x70000; 0x30000; 0x70000; 0x30040;
   0x700c0; 0x300e0; 0x70060; 0x30070; 0x70070; 0x30038; 0x157551c; 0x3ffff1c;
   0x7ffff0e; 0x8; 0x0; 0x0; 0x0; 0x0; 0x0; 0x202000;
   0x0; 0x0; 0x0; 0x0; 0x200008; 0x7ffe1c; 0x7ffe18; 0x700038;
   0x600870; 0x701870; 0x3018e0; 0x701860; 0x301800; 0x301c00; 0x301c00; 0x1fffc00].
Definition hanzi_data_34 : list N :=
  [0x1fffc20; 0x1800060; 0x1800060; 0x1800070; 0x19fff30; 0x1dfff38; 0xc00038; 0x1c0001c;
   0xc0001c; 0xe1000e; 0x7f0008; 0x7f0000; 0x0; 0x0; 0x0; 0x0;
   0x202000; 0x0; 0x0; 0x0; 0x30000; 0x30000; 0x3000c; 0x3003c;
   0x3007c; 0x300f0; 0x3870060; 0x1c77f00; 0x1e77f00; 0xe76000; 0x7f7000; 0x1f3000;
   0x1f3040; 0x1b38e0; 0x3b18e0; 0x331860; 0x731c70; 0xe30e38; 0x1c3071c; 0x383039c;
   0x783039c; 0x2030108; 0x3d000; 0x3f000; 0x1f000; 0x0; 0x0; 0x0;
   0x0; 0x202000; 0x0; 0x0; 0x0; 0x0; 0x8; 0x3ffff1c;
   0x3ffff38; 0x7078; 0x6070; 0x70e0; 0x30e0; 0x7ff000; 0x7ff000; 0x703000;
   0x603800; 0x703800; 0x701800; 0x7018e0; 0x3ab8e0; 0x7ffc70; 0x3ffc70; 0x300030;
   0x380038; 0x38001c; 0x38001c; 0x7ffff8e; 0x3ffff88; 0x0; 0x0; 0x0;
   0x0; 0x0; 0x202000; 0x0; 0x0; 0x0; 0x70000; 0x30000;
   0x7001c; 0x3003c; 0x70078; 0x3fffee0; 0x3fffee0; 0x3abae40; 0x3870e00; 0x3830e00;
   0x3870e00; 0x3830e00; 0x3870e40; 0x3abaec0; 0x3fffee0; 0x3fffe60; 0x3870e70; 0x2830a38;
   0x70038; 0x3001c; 0x7001c; 0x3000c; 0x70000; 0x30000; 0x70000; 0x0;
   0x0; 0x0; 0x0; 0x202000; 0x0; 0x0; 0x0; 0x38000;
   0x38008; 0x3801c; 0x38038; 0xfffc70; 0xfffc60; 0xfffce0; 0xe38040; 0xe38000;
   0xe38000; 0xe38000; 0xe38000; 0x7ffff00; 0x3fffe00; 0x7ffffc0; 0x780e0; 0xfc070;
   0xcc070; 0x1ce030; 0x386038; 0x78781c; 0xf03c1c; 0x1e01f0c; 0x3800f88; 0x1000300;
   0x0; 0x0; 0x0; 0x0; 0x202000; 0x0; 0x0; 0x0;
   0x0; 0x1fffc00; 0x1fffc18; 0x1eaac38; 0x1c01c70; 0x1c00ce0; 0x1c01dc0; 0x1c00c80;
   0x1c01c00; 0x1c00c00; 0x1fffc00; 0x1fffc00; 0x1fffcc0; 0x18e0c0; 0x1ce0e0; 0x18e060;
   0x1c6070; 0x186038; 0x11c701c; 0x618301c; 0x71c380c; 0x3181c08; 0x7fc1f00; 0x3f80780;
   0x1f00100; 0x0; 0x0; 0x0; 0x0; 0x202000; 0x0; 0x0;
   0x0; 0x18000; 0x18008; 0x1c01c; 0xe038; 0x1ce070; 0x3870e0; 0x7070e0;
   0xe03840; 0x1c01c00; 0x1fffe00; 0x3fffe00; 0x380be00; 0x1000000; 0x0; 0xfffcc0;
   0xfffce0; 0xc01ce0; 0xc00c70; 0xc01c70; 0xc00c38; 0xc01c1c; 0xc00c1c; 0xfffc0e;
   0xfffc08; 0xc01c00; 0x0; 0x0; 0x0; 0x0; 0x202000; 0x0;
   0x0; 0x0; 0x30000; 0x38008; 0x7801c; 0x7c018; 0xfe038; 0x1ce070;
   0x387070; 0x703860; 0x1e1de00; 0x3c38f00; 0x3870700; 0x20000; 0x555400; 0xfffc20;
   0xfffc60; 0x700060; 0x380070; 0x380030; 0x1c7038; 0xef038; 0x7c01c; 0x3801c;
   0xf000e; 0x1e0008; 0xc0000; 0x0; 0x0; 0x0; 0x0; 0x202000;
   0x0; 0x0; 0x0; 0x1c000; 0xc008; 0xe01c; 0xe018; 0x3ffff38;
   0x3ffff30; 0x7070; 0x30e0; 0x73820; 0x63800; 0x71c00; 0x60c00; 0x1fffe00;
   0x1fffe00; 0x700e0; 0x60060; 0x773870; 0xe63830; 0xc71c30; 0x1c60c38; 0x1870e1c;
   0x386071c; 0x707470c; 0x7e208; 0x3e000; 0x0; 0x0; 0x0; 0x0;
   0x202000; 0x0; 0x0; 0x0; 0x70000; 0x73808; 0x7381c; 0x71838;
   0x1fffc70; 0x1fffce0; 0x1fffc40; 0x70e00; 0x70700; 0x70300; 0x70000; 0x2afaa00;
   0x3fffec0; 0x3fffec0; 0x1c60e0; 0x186060; 0x1c6070; 0x186038; 0x11c7018; 0x618301c;
   0x71c381e; 0x2181c08; 0x7fc1f00; 0x3f80780; 0x1f00100; 0x0; 0x0; 0x0;
   0x0; 0x202000; 0x0; 0x0; 0x0; 0x3800000; 0x382aa08; 0x383ff1c;
   0x39bff18; 0x3981838; 0x3981830; 0x3981c70; 0x398ac60; 0x39bfc20; 0x39bfe00; 0x3998600;
   0x3998600; 0x3998700; 0x3998ba0; 0x399dd60; 0x398f960; 0x398f070; 0x3986030; 0x3987038;
   0x3803818; 0x3803c1c; 0x3801c0c; 0x1d00f0c; 0x1f80788; 0x1f00100; 0x0; 0x0;
   0x0; 0x0; 0x202000; 0x0; 0x0; 0x0; 0x6000; 0x6008;
   0x1ff01c; 0x3ff818; 0x1d5c38; 0xc1c70; 0xe0e70; 0xffffe0; 0xffff00; 0xc38000;
   0xc38000; 0x2ebaa00; 0x7ffff00; 0x3ffff00; 0xc380e0; 0xc380e0; 0xfffe70; 0xfffe70;
   0xd7d470; 0x838038; 0x38038; 0x3801c; 0x3801c; 0x3f808; 0x1f000; 0x0;
   0x0; 0x0; 0x0; 0x202000; 0x0; 0x0; 0x0; 0x18000;
   0x18008; 0x3ffff8c; 0x3ffff98; 0x18018; 0xabaa38; 0xffff70; 0xc18020; 0xc18000;
   0x3ffff80; 0x7ffffc0; 0xc18000; 0xffff00; 0xfffe00; 0xc070; 0xe030; 0x3ffffb0;
   0x3ffffb8; 0x1c1c18; 0xe3c18; 0xffc1c; 0x3fc00c; 0xfdfd0e; 0x1e03f88; 0x800780;
   0x0; 0x0; 0x0; 0x0; 0x202000; 0x0; 0x0; 0x0;
   0x41000; 0xe3008; 0xe301c; 0xc3818; 0x1c1c38; 0x3fffc70; 0x3fffc70; 0xc0e60;
   0xc1f00; 0xc0f80; 0x1ffffc0; 0x1fffd80; 0xc1c00; 0xc0c00; 0xc1ce0; 0xaeace0;
   0x1fffc70; 0x1fffc70; 0xc1c70; 0xc0c38; 0xc1c38; 0x3fffc1c; 0x3fffc1c; 0xc08;
   0x1c00; 0x0; 0x0; 0x0; 0x0; 0x202000; 0x0; 0x0;
   0x0; 0x400c00; 0xee0c08; 0xe60c1c; 0xc60c18; 0xc60c38; 0xc60c30; 0x1c77ff0;
   0x1837fa0; 0x1830c00; 0x38b9e00; 0x719de00; 0x219be00; 0x1c7f00; 0xc6f00; 0xc4fe0;
   0xc0db0; 0xee0df0; 0xc60cb0; 0x1c60c18; 0x1860c18; 0x1870c1c; 0x1fb8c0c; 0x3ff8c0e;
   0x3038c00; 0x1000c00; 0x0; 0x0; 0x0; 0x0; 0x202000; 0x0;
   0x0; 0x0; 0x18000; 0x38008; 0x7001c; 0x3fffe18; 0x3ffff38; 0x30;
   0x70; 0xfffc60; 0xfffc60; 0xe00c00; 0xe01c00; 0xe00c00; 0xe01c00; 0xfffc20;
   0xfffce0; 0x30060; 0x631870; 0x631c30; 0xe31c38; 0xc30e38; 0x1c3071c; 0x383071c;
   0x183030e; 0x3f008; 0x1f000; 0x0; 0x0; 0x0; 0x0; 0x202000].
Definition hanzi_data_35 : list N :=
  [0x0; 0x0; 0x0; 0x0; 0x1fffe00; 0x1fffe1c; 0x180063c; 0x1830678;
   0x18306e0; 0x1bff6e0; 0x1bfe600; 0x1830600; 0x1830600; 0x1bff600; 0x1bff600; 0x18006c0;
   0x18aa6e0; 0x1bfe660; 0x1bae670; 0x1b06670; 0x1b06638; 0x1bfe71c; 0x1bfe31c; 0x180630e;
   0x1806388; 0x18001c0; 0x1f800c0; 0x1f000c0; 0x0; 0x0; 0x0; 0x0;
   0x202000; 0x0; 0x0; 0x0; 0x30000; 0x30008; 0xfffc1c; 0xfffc18;
   0x575438; 0x30030; 0x1575570; 0x3ffffe0; 0x3ffff00; 0x186000; 0x7c7800; 0xe03c00;
   0x3c1df00; 0x100c620; 0x7fe060; 0xfff060; 0x707c70; 0x387e30; 0x3cef38; 0xfc238;
   0x7801c; 0x1fe00c; 0x1fdfc0e; 0x3f03f88; 0x3c00700; 0x0; 0x0; 0x0;
   0x0; 0x202000; 0x0; 0x0; 0x0; 0x5c0000; 0xec0008; 0x1dc001c;
   0x38c0018; 0x3ffff38; 0x3ffff30; 0x3ffff70; 0x180360; 0x11fff00; 0x39bfb00; 0x1980700;
   0x1980300; 0x1dbff00; 0xdbfb20; 0xdb1f60; 0xfb1b60; 0x731b70; 0x331b30; 0x3bfb38;
   0x63bfb98; 0x67c199c; 0x26e018c; 0x3e781ce; 0x3c3c0c8; 0x1c180c0; 0x0; 0x0;
   0x0; 0x0; 0x202000; 0x0; 0x0; 0x0; 0x38000; 0x38008;
   0x157d51c; 0x1fffe18; 0x1ffff38; 0x18030; 0x1fffe70; 0xfffee0; 0xe000; 0xe000;
   0x3ffff00; 0x3ffff00; 0x783c00; 0xfffe20; 0x3ffff60; 0x3838760; 0x1038170; 0xfffc30;
   0x1fffc38; 0x2c038; 0x1ee01c; 0x3e701c; 0x1f03c1c; 0x1c00f08; 0x1000600; 0x0;
   0x0; 0x0; 0x0; 0x202000; 0x0; 0x0; 0x0; 0x0;
   0x3fffe00; 0x3fffe08; 0x18c01c; 0x1cc03c; 0x2bae870; 0x3fffcf0; 0x398cc60; 0x39ccc00;
   0x398cc00; 0x39ccc00; 0x3fffc00; 0x3fffc40; 0x300e0; 0x70060; 0x3fffe60; 0x3ffff70;
   0xf8038; 0x1fe038; 0x3be01c; 0xf7781c; 0x1e31e0c; 0x7c70f00; 0x3030300; 0x70000;
   0x0; 0x0; 0x0; 0x0; 0x202000; 0x0; 0x0; 0x0;
   0x100c600; 0x380c600; 0x3fcc60c; 0x7cc61c; 0xdffb8; 0xceeb0; 0xcc670; 0xcc660;
   0x7fcfe00; 0x3fcfe00; 0x7fcc600; 0x8cc600; 0x1ccfe40; 0x8cfee0; 0x1ccc670; 0x8cc630;
   0x1cdffb0; 0x8fffb8; 0x1cd551c; 0x8eee1c; 0x1c6c60c; 0x87c708; 0x1c78300; 0x838380;
   0x1c30100; 0x0; 0x0; 0x0; 0x0; 0x202000; 0x0; 0x0;
   0x0; 0x18000; 0x38000; 0x3ffff08; 0x3ffff1c; 0x38; 0xfffe70; 0x1fffee0;
   0xcaaec0; 0x1dfee40; 0xd86e00; 0x1dfee00; 0xc00e00; 0x1fffec0; 0xaaa8c0; 0xfffce0;
   0xfffc60; 0x70; 0x3ffff38; 0x3ffff1c; 0x23001c; 0x731c0c; 0xe30e08; 0x3c30700;
   0x383e380; 0x101e100; 0x0; 0x0; 0x0; 0x0; 0x202000; 0x0;
   0x0; 0x0; 0x300; 0x3ff4300; 0x3fffb0c; 0x1c03f3c; 0xec0778; 0x7e83f0;
   0x79c360; 0xe0ff00; 0xc07e00; 0x3ff0600; 0x3ff0700; 0x330ff00; 0x330ff00; 0x3361ba0;
   0x361970; 0x3f2bab0; 0x3f7ffb0; 0x32ffb8; 0x371c18; 0x373c18; 0x3f7c1c; 0x3fee0e;
   0x7f9c708; 0x3f1c380; 0x3c08180; 0x0; 0x0; 0x0; 0x0; 0x202000;
   0x0; 0x0; 0x0; 0x0; 0x0; 0xfff80; 0xfff80; 0xc0380;
   0xc0380; 0xc0380; 0xc0380; 0xc0380; 0xc0380; 0xc0380; 0xc0380; 0xc0380;
   0xc0380; 0xc0180; 0xc0180; 0xc01c0; 0x30c01c0; 0x70c01c0; 0x30c00e0; 0x70c0070;
   0x30c0070; 0x3fc003c; 0x3fc001c; 0x150000c; 0x0; 0x0; 0x0; 0x0;
   0x202000; 0x0; 0x0; 0x0; 0x0; 0xaaa80; 0x1fff80; 0xfff80;
   0x1c0180; 0xc0180; 0x1c0180; 0xc0180; 0x1c0d80; 0xc1d80; 0x1c3d80; 0xc3980;
   0x1cf1c0; 0xce180; 0x1dc1c0; 0xc81c0; 0x1c01c0; 0x20c00e0; 0x71c00e0; 0x30c0060;
   0x71c0070; 0x30c0038; 0x3fc003c; 0x3f8001e; 0xc; 0x0; 0x0; 0x0;
   0x0; 0x202000; 0x0; 0x0; 0x0; 0x0; 0x2aaaa0; 0x7ffff0;
   0x6aaae0; 0x600070; 0x600060; 0x615570; 0x67ff60; 0x67ff70; 0x660060; 0x670070;
   0x630670; 0x638f70; 0xe19c30; 0x61f870; 0xe0f030; 0xe1e030; 0xe3f030; 0x2e7b830;
   0x2c71e38; 0x6ce0f18; 0x2c40398; 0x7c0011c; 0x380000e; 0x100000c; 0x0; 0x0;
   0x0; 0x0; 0x202000; 0x0; 0x0; 0x0; 0x7000; 0x3800;
   0x7fffe0; 0x3fffe0; 0x7fffe0; 0x300460; 0x303c60; 0x3ef860; 0x3ee060; 0x60;
   0x1ffffe0; 0x3ffffe0; 0x1ffffe0; 0x1800000; 0x183ff80; 0x183ff80; 0x1c3d780; 0x1fb8380;
   0xf38380; 0x38380; 0x70381c0; 0x30380e0; 0x3ff00f8; 0x3ff003c; 0x54001c; 0x0;
   0x0; 0x0; 0x0; 0x202000; 0x0; 0x0; 0x0; 0x400100;
   0xfe8380; 0x7ffdc0; 0x3fcc0; 0x700e0; 0x30070; 0x3ffff7c; 0x3fffe7e; 0x7006c;
   0x30060; 0x70060; 0x3fffe60; 0x3fffe60; 0x60; 0x0; 0xfff80; 0xfff80;
   0xc0380; 0xc0380; 0x20c0380; 0x70c01c0; 0x20c00e0; 0x7fc00f8; 0x3fc003c; 0x1f0001c;
   0x0; 0x0; 0x0; 0x0; 0x202000; 0x0; 0x0; 0x0;
   0x180; 0x2a0180; 0x7fb19c; 0x6bb198; 0x63b19c; 0x63b198; 0x63bffc; 0x63bff8;
   0x638000; 0x638000; 0x639ffc; 0x639ff8; 0x639800; 0x639800; 0x639800; 0x619ff8;
   0x619ff8; 0x618018; 0x61c018; 0x261c018; 0x761df18; 0x260dff8; 0x760e1fc; 0x3e06038;
   0x1c04000; 0x0; 0x0; 0x0; 0x0; 0x202000; 0x0; 0x0;
   0x0; 0x0; 0xaaaaa0; 0xfffff0; 0xeaaaf0; 0xe07070; 0xeafa70; 0xefff70;
   0xec0370; 0xed5770; 0xefff70; 0xec0370; 0xec0370; 0xefff70; 0xeaaa30; 0xf55570;
   0xffffb0; 0xffffb0; 0xe06030; 0x2cfff38; 0x2cfff38; 0x6c06018; 0x2c0601c; 0x7ffffdc;
   0x3bfffce; 0x300000c; 0x0; 0x0; 0x0; 0x0; 0x202000; 0x0;
   0x0; 0x0; 0x31c000; 0x399ff8; 0x1f9ff8; 0x1870e30; 0x1ee0770; 0x7fffe0;
   0x7ffde0; 0x3e000f8; 0x3fffffe; 0x3aab8c; 0x3801c0; 0x3fff80; 0x3fffc0; 0xe0600].
Definition hanzi_data_36 : list N :=
  [0x1575754; 0x3fffffc; 0x3fffffc; 0xaaa00; 0xfff00; 0xc0380; 0x70c0380; 0x30c01c0;
   0x3fc01f0; 0x3fc007c; 0x1f0001c; 0x0; 0x0; 0x0; 0x0; 0x202000;
   0x0; 0x0; 0x0; 0x0; 0x0; 0x1c00038; 0x1800038; 0x1c00038;
   0x1800038; 0x1c00038; 0x1800038; 0x1c00038; 0x1800038; 0x1c00038; 0x1800038; 0x1c00038;
   0x1800038; 0x1c00038; 0x1800038; 0x1c00038; 0x1800038; 0x1c00038; 0x1800038; 0x1d55578;
   0x1fffff8; 0x1fffff8; 0x1800000; 0x1c00000; 0x0; 0x0; 0x0; 0x0;
   0x202000; 0x0; 0x0; 0x0; 0x0; 0x0; 0x180000; 0x1c0080;
   0x1c01c0; 0x18e0398; 0x1870718; 0x1870e18; 0x1839c18; 0x183b818; 0x181f018; 0x180e018;
   0x181f018; 0x183b818; 0x1873c18; 0x18e1e18; 0x19c0f18; 0x1bc0398; 0x19801f8; 0x18000d8;
   0x1800018; 0x1fffff8; 0x1fffff8; 0x1fffff8; 0x1800000; 0x0; 0x0; 0x0;
   0x0; 0x202000; 0x0; 0x0; 0x0; 0x0; 0x0; 0xfff00;
   0xffe00; 0xe0700; 0xe0600; 0xe0700; 0xe0600; 0xe0700; 0xe0600; 0x1fe07f8;
   0x1fe07f8; 0x1c00018; 0x1800018; 0x1c00018; 0x1800018; 0x1c00018; 0x1800018; 0x1c00018;
   0x1800018; 0x1fffff8; 0x1fffff8; 0x1fffff8; 0x1800018; 0x1c00018; 0x0; 0x0;
   0x0; 0x0; 0x202000; 0x0; 0x0; 0x0; 0x0; 0x0;
   0x1ff0ff8; 0x1ff0ff8; 0x1ff0ff8; 0x1830c18; 0x1c30c18; 0x1830c18; 0x1c30c18; 0x1830c18;
   0x1c30c18; 0x1830c18; 0x1c3fc18; 0x183fc18; 0x1c00018; 0x1800018; 0x1c00018; 0x1800018;
   0x1c00018; 0x1800018; 0x1fffff8; 0x1fffff8; 0x1d55558; 0x1800018; 0x1400018; 0x0;
   0x0; 0x0; 0x0; 0x202000; 0x0; 0x0; 0x0; 0x7000;
   0x6000; 0x607070; 0xe06060; 0xe07070; 0xe06060; 0xe07070; 0xe06060; 0xe07070;
   0xe06060; 0xfffff0; 0xffffe0; 0x7000; 0x806028; 0x1c07038; 0x1c06038; 0x1c07038;
   0x1c06038; 0x1c07038; 0x1c06038; 0x1c07038; 0x1fffff8; 0x1fffff8; 0x1eaaaa8; 0x1c00000;
   0x0; 0x0; 0x0; 0x0; 0x202000; 0x0; 0x0; 0x0;
   0x6000; 0x6000; 0x6000; 0x6000; 0xfffff0; 0xfffff0; 0xfffff0; 0x6000;
   0x6000; 0x6000; 0x3fffffc; 0x3fffffc; 0x3fffffc; 0x6000; 0x606070; 0xe06060;
   0xe06070; 0xe06060; 0xe06070; 0xe06060; 0xe06070; 0xffffe0; 0xfffff0; 0xeaaaa0;
   0xe00000; 0x0; 0x0; 0x0; 0x0; 0x202000; 0x0; 0x0;
   0x0; 0x4000; 0xe000; 0x180e018; 0x180e018; 0x190e018; 0x1b8e018; 0x19cffd8;
   0x18cffd8; 0x187fc18; 0x183ec18; 0x187ee18; 0x186e618; 0x18ee718; 0x19ce318; 0x19ce398;
   0x1b8e1d8; 0x1f0e0f8; 0x180e058; 0x1807c18; 0x1803818; 0x1800018; 0x1fffff8; 0x1fffff8;
   0x1800000; 0x1800000; 0x0; 0x0; 0x0; 0x0; 0x202000; 0x0;
   0x0; 0x0; 0x0; 0x3fffe0; 0x3fffe0; 0x1e0000; 0xf0000; 0x38000;
   0x181e018; 0x1b06098; 0x1b861d8; 0x19c6398; 0x18e6718; 0x186e618; 0x183f018; 0x183f818;
   0x1877f18; 0x18e6798; 0x1bc63f8; 0x1b860d8; 0x1907c58; 0x1807c18; 0x1801418; 0x1fffff8;
   0x1fffff8; 0x1aaaaa8; 0x1800000; 0x0; 0x0; 0x0; 0x0; 0x202000;
   0x0; 0x0; 0x0; 0x31c00; 0x630c60; 0x631c60; 0x730ce0; 0x331dc0;
   0x130c80; 0x7fffffe; 0x3fffffe; 0x1555554; 0xc60630; 0xc70c30; 0xc38c30; 0xdfffb0;
   0xdfffb0; 0xc06030; 0xc06030; 0xdfffb0; 0xcaeab0; 0xc06030; 0xc06030; 0xc06030;
   0xfffff0; 0xfffff0; 0xc00000; 0xc00000; 0x0; 0x0; 0x0; 0x0;
   0x202000; 0x0; 0x0; 0x0; 0x0; 0x0; 0x0; 0x1fffff8;
   0x1fffff8; 0x1801800; 0x1c01800; 0x1801800; 0x1c01c00; 0x1c01800; 0x1c01c00; 0x1c01c00;
   0x1c01c00; 0x1c00c00; 0x1c00e00; 0xc00e00; 0x1c00700; 0xc00700; 0xc00780; 0xc00380;
   0xe001c0; 0xe000e0; 0x7f8078; 0x7f803c; 0x3f001c; 0x0; 0x0; 0x0;
   0x0; 0x202000; 0x0; 0x0; 0x0; 0x0; 0x0; 0x1555550;
   0xfffff0; 0x1fffff0; 0xc00000; 0x1c00000; 0xc00000; 0xc00000; 0xc30000; 0xc3c000;
   0xc1e000; 0xc07800; 0xc03c00; 0xc01f00; 0xe00780; 0xe003e0; 0xe000f8; 0xe00078;
   0xe00010; 0x600000; 0x700000; 0x7fc000; 0x3f8000; 0x1fc000; 0x0; 0x0;
   0x0; 0x0; 0x202000; 0x0; 0x0; 0x0; 0x1c00000; 0xc00000;
   0x1c00000; 0xc0c000; 0x1c0c000; 0xc0c000; 0x1c0c000; 0xc0c000; 0x1c0c000; 0xc0c000;
   0x1c0c000; 0xc0c000; 0x1c0c000; 0xc0c000; 0x1c0c000; 0xc0c000; 0x1c0c000; 0xc0c000;
   0x1c00000; 0xc00000; 0x1c00000; 0xc00000; 0x1fe0000; 0xfc0000; 0x7c0000; 0x0;
   0x0; 0x0; 0x0; 0x202000; 0x0; 0x0; 0x0; 0x0;
   0x0; 0x0; 0xfffff8; 0xfffff8; 0xc07000; 0xc07000; 0xc03000; 0xc070e0;
   0xc030e0; 0xc03060; 0xe03860; 0xc03870; 0xe01830; 0xe01c38; 0xe01c1c; 0xe00e08;
   0xe00e00; 0x600700; 0x600380; 0x6003c0; 0x6001e0; 0x7500f8; 0x3f803c; 0x1f8018;
   0x0; 0x0; 0x0; 0x0; 0x202000; 0x0; 0x0; 0x0;
   0x40000; 0x60e00; 0xe0700; 0xc0300; 0x1c0380; 0x380380; 0x7001c0; 0x7000e0;
   0x1e00070; 0x3c00078; 0x7fffffc; 0x33ffffc; 0x7fffc8; 0x301800; 0x301c00; 0x300c00;
   0x300c00; 0x300e00; 0x300700; 0x380700; 0x380380; 0x3801e0; 0x1fc1f0; 0x1fc078;
   0xfc018; 0x0; 0x0; 0x0; 0x0; 0x202000; 0x0; 0x0;
   0x0; 0x0; 0x60; 0x3fff070; 0x3fff060; 0x3fff070; 0x3830060; 0x3830c70;
   0x3830fe0; 0x3830ffe; 0x38300fe; 0x3830074; 0x3838060; 0x3838070; 0x3838060; 0x1818070;
   0x3818860; 0x181df70; 0x180cfe0; 0x180e1f0; 0x180e0f0; 0x1c07010; 0x1c03800; 0x1fe3c00;
   0xfc0e00; 0x7c0400; 0x0; 0x0; 0x0; 0x0; 0x202000; 0x0].
Definition hanzi_data_37 : list N :=
  [0x0; 0x0; 0x1c00000; 0x1806000; 0x1c07000; 0x1803008; 0x1c4301c; 0x1863838;
   0x1c61878; 0x1861870; 0x1c61ce0; 0x1860dc0; 0x1c60fc0; 0x1860f80; 0x1c60700; 0x1860f00;
   0x1c60f80; 0x1861f80; 0x1c61dc0; 0x18238e0; 0x1c070f0; 0x1807070; 0x1c02038; 0x180001c;
   0x1fc001c; 0x1fc0000; 0xfc0000; 0x0; 0x0; 0x0; 0x0; 0x202000;
   0x0; 0x0; 0x0; 0x1000000; 0x1800000; 0x1807ffc; 0x1867ffc; 0x1860380;
   0x1860380; 0x1860380; 0x1860380; 0x1860380; 0x1860380; 0x18657d4; 0x1867ffe; 0x1867ffe;
   0x1860380; 0x1860380; 0x1860380; 0x1860380; 0x1860380; 0x1840380; 0x1800380; 0x1800380;
   0x1800380; 0x1d40380; 0x1fc0380; 0xfc0380; 0x0; 0x0; 0x0; 0x0;
   0x202000; 0x0; 0x0; 0x0; 0x1c00; 0x1c00; 0x1e00; 0xaae00;
   0x7fff00; 0x3fff80; 0x3801c0; 0x1c00e0; 0xe0070; 0xe0038; 0x1fffffc; 0x1ffffe8;
   0x1c00000; 0x1c00000; 0x1c00000; 0x1ffffe0; 0x1ffffe0; 0x1ffffe0; 0x1c00000; 0x1c00000;
   0x1c00000; 0x1fffff0; 0x1fffff0; 0x1c00000; 0x1c00000; 0x0; 0x0; 0x0;
   0x0; 0x202000; 0x0; 0x0; 0x0; 0x10000c0; 0x18000e0; 0x1800060;
   0x198aae0; 0x19dfff0; 0x198fff0; 0x19dd930; 0x198d9b8; 0x19ddd9c; 0x198c88c; 0x19cccce;
   0x198ccc4; 0x19ccc60; 0x198c660; 0x19cc670; 0x198c638; 0x19cc718; 0x198c30c; 0x180c38c;
   0x180e180; 0x18061c0; 0x18060e0; 0x1807f70; 0x1f83e20; 0x1f01e00; 0x0; 0x0;
   0x0; 0x0; 0x202000; 0x0; 0x0; 0x0; 0x1000000; 0x180aaa8;
   0x180fffc; 0x18cfffc; 0x18c1860; 0x18c1860; 0x18c1860; 0x18c1860; 0x18c1860; 0x18c1860;
   0x18d5d74; 0x18cfffc; 0x18dfffc; 0x18c1860; 0x18c1860; 0x18c1860; 0x18c1870; 0x18c1870;
   0x1801870; 0x1801830; 0x1801838; 0x1801838; 0x1d0181c; 0x1f8180e; 0x1f81804; 0x0;
   0x0; 0x0; 0x0; 0x202000; 0x0; 0x0; 0x0; 0x18000e0;
   0x18006e0; 0x1801ee0; 0x18c38e0; 0x18c38e0; 0x18c10e0; 0x18dc0c0; 0x18cffe0; 0x18dfffe;
   0x18c00fe; 0x18c71c0; 0x18c30c0; 0x18c31c0; 0x18c3980; 0x18c1d80; 0x18c0f80; 0x18c0f80;
   0x18c0700; 0x1804780; 0x18087c0; 0x181c7f0; 0x180ce78; 0x1d0dc3c; 0x1f8f80c; 0x1f87000;
   0x0; 0x0; 0x0; 0x0; 0x202000; 0x0; 0x0; 0x0;
   0x1800000; 0x1802aa0; 0x1803ff0; 0x18e3ab0; 0x18e3030; 0x18e3030; 0x18e3030; 0x18e3ab0;
   0x18e3ff0; 0x18e3ab0; 0x18e3030; 0x18e3030; 0x18e3030; 0x18e3ab0; 0x18e3ff0; 0x18e3ff0;
   0x18e3030; 0x18e3038; 0x1843038; 0x1803038; 0x1803018; 0x1803018; 0x1d0301c; 0x1f83f0e;
   0x1f81f0c; 0x0; 0x0; 0x0; 0x0; 0x202000; 0x0; 0x0;
   0x0; 0x3800000; 0x380aaa8; 0x380fffc; 0x38cfffc; 0x38c01c0; 0x38c00c0; 0x38c00c0;
   0x38c2ae0; 0x38c7fe0; 0x38c7fe0; 0x38c7070; 0x38c3038; 0x38c3038; 0x38c38dc; 0x38c39fc;
   0x38c1b88; 0x38c1f00; 0x38c0e00; 0x38c0e00; 0x3800700; 0x3800380; 0x38001e0; 0x1d000f0;
   0x1f80078; 0x1f00018; 0x0; 0x0; 0x0; 0x0; 0x202000; 0x0;
   0x0; 0x0; 0x1000100; 0x1800380; 0x1800300; 0x18e0700; 0x18efffc; 0x18efffc;
   0x18efffc; 0x18e1800; 0x18e1810; 0x18e1838; 0x18e1c78; 0x18e0ce0; 0x18e0de0; 0x18e0fc0;
   0x18e0780; 0x18e0700; 0x18e0f00; 0x18e1f80; 0x1801dc0; 0x18039c0; 0x18070e0; 0x1802070;
   0x1d0003c; 0x1f8001c; 0x1f8000c; 0x0; 0x0; 0x0; 0x0; 0x202000;
   0x0; 0x0; 0x0; 0x1800000; 0x1802aa8; 0x18c7ff8; 0x18c7ff8; 0x18c6018;
   0x18c6318; 0x18c6318; 0x18c6318; 0x18c6318; 0x18c6318; 0x18c6318; 0x18c6318; 0x18c6318;
   0x18c6318; 0x18c6318; 0x18c6318; 0x18c6318; 0x18c6398; 0x18c0580; 0x1800fc0; 0x1801dc0;
   0x18038e0; 0x1d47078; 0x1fc603c; 0xfc000c; 0x0; 0x0; 0x0; 0x0;
   0x202000; 0x0; 0x0; 0x0; 0x1000000; 0x180aaa8; 0x181fff8; 0x198eab8;
   0x199d018; 0x198d818; 0x199d878; 0x198d8d8; 0x199ddd8; 0x198cd98; 0x199cf18; 0x198cf18;
   0x199c718; 0x198c618; 0x199cf18; 0x198cf18; 0x199dd98; 0x198d998; 0x181f9d8; 0x180c0f8;
   0x181c078; 0x180c058; 0x1d1fc18; 0x1f8f818; 0x1f01018; 0x0; 0x0; 0x0;
   0x0; 0x202000; 0x0; 0x0; 0x0; 0x1800600; 0x1800700; 0x1800700;
   0x18c0f80; 0x18c1dc0; 0x18c38e0; 0x18c70f0; 0x18ce070; 0x18ce03c; 0x18cc01e; 0x18c7ffc;
   0x18c3ff0; 0x18c3070; 0x18c3030; 0x18c3070; 0x18c3030; 0x18c3870; 0x18c3e30; 0x1841f70;
   0x180c030; 0x180c070; 0x180c030; 0x1d4fff0; 0x1fc7fe0; 0xfc7fc0; 0x0; 0x0;
   0x0; 0x0; 0x202000; 0x0; 0x0; 0x0; 0x40; 0xe0;
   0x1fff8c0; 0x1fff9c0; 0x1fff080; 0x18307fc; 0x18307fc; 0x1830700; 0x1830300; 0x1830380;
   0x1830dc0; 0x1838ce0; 0x18387f0; 0x18183f0; 0x18187f8; 0x1818edc; 0x1c1cccc; 0x180c4c4;
   0x1c0e0c0; 0x1c0e0c0; 0x1c070c0; 0xc038c0; 0xf53cc0; 0xfe1cc0; 0x7e08c0; 0x0;
   0x0; 0x0; 0x0; 0x202000; 0x0; 0x0; 0x0; 0x1800000;
   0x181fbf8; 0x181fbf8; 0x1999b98; 0x1999b98; 0x1999b98; 0x1999b98; 0x1999b98; 0x1999b98;
   0x1999b98; 0x19ffffc; 0x19bfffc; 0x19ffffc; 0x1999b98; 0x1999b98; 0x1999b98; 0x1999b98;
   0x1999b98; 0x1919b98; 0x1819b98; 0x1819f98; 0x1818f98; 0x181cfdc; 0x1f1edec; 0x1f0e5ec;
   0x0; 0x0; 0x0; 0x0; 0x202000; 0x0; 0x0; 0x0;
   0x1000300; 0x1800300; 0x180e31c; 0x18e6338; 0x18e7330; 0x18e3330; 0x18e3b70; 0x18e1320;
   0x18e7ffc; 0x18e7ff8; 0x18e0300; 0x18e0300; 0x18e0300; 0x18e0300; 0x18efffc; 0x18efffc;
   0x18efffc; 0x18e0380; 0x1860180; 0x18001c0; 0x18001c0; 0x18000e0; 0x1d40070; 0x1fc0038;
   0xfc0018; 0x0; 0x0; 0x0; 0x0; 0x202000; 0x0; 0x0;
   0x0; 0x18000c0; 0x18000e0; 0x18000e0; 0x18cffe0; 0x19cfff0; 0x18cc030; 0x19cc038;
   0x18ccffc; 0x19ccffe; 0x18ceebc; 0x19cce38; 0x18cee38; 0x19cee38; 0x18ceff8; 0x19ceff8].
Definition hanzi_data_38 : list N :=
  [0x18ce2b8; 0x19c7c38; 0x18c7c38; 0x1801038; 0x1818038; 0x1818038; 0x1818038; 0x1d1fff0;
   0x1f8fff0; 0x1f07fc0; 0x0; 0x0; 0x0; 0x0; 0x202000; 0x0;
   0x0; 0x0; 0x1001000; 0x1803e00; 0x1801ff4; 0x18303fc; 0x187039c; 0x1830380;
   0x1870380; 0x1830380; 0x1877ffc; 0x1837ffc; 0x1870380; 0x18303c0; 0x18707c0; 0x1830fe0;
   0x1871fe0; 0x1833bb0; 0x18773b8; 0x18323b8; 0x180039c; 0x180038c; 0x1800384; 0x1800380;
   0x1d40380; 0x1fc0380; 0xfc0380; 0x0; 0x0; 0x0; 0x0; 0x202000;
   0x0; 0x0; 0x0; 0x1000000; 0x1803ff8; 0x1803ff8; 0x1863018; 0x1863018;
   0x1863018; 0x1863018; 0x1863018; 0x1863ff8; 0x1863ff8; 0x1860100; 0x1860180; 0x18601c0;
   0x1863ffc; 0x1867ffc; 0x18631c0; 0x18631c0; 0x18630c0; 0x18430c0; 0x18030e0; 0x1803070;
   0x1803830; 0x1d43d3c; 0x1f81f1e; 0x1f81f0c; 0x0; 0x0; 0x0; 0x0;
   0x202000; 0x0; 0x0; 0x0; 0x10001c0; 0x1800cc0; 0x1803dc0; 0x18c78c0;
   0x18c21c0; 0x18c60c0; 0x18c7fc0; 0x18c3ffc; 0x18c01fc; 0x18c0180; 0x18cc180; 0x18cff80;
   0x18c7ff0; 0x18c03fc; 0x18c631c; 0x18c6300; 0x18c7f00; 0x18c3f00; 0x1849f00; 0x1818f00;
   0x1818fc0; 0x1818df0; 0x1d1fc7c; 0x1f8f838; 0x1f0f000; 0x0; 0x0; 0x0;
   0x0; 0x202000; 0x0; 0x0; 0x0; 0x1800000; 0x1800000; 0x18c7ffc;
   0x18c3ff8; 0x18c3800; 0x18c1c00; 0x18c0e00; 0x18c0700; 0x18c1fc0; 0x18c79e0; 0x18df07c;
   0x18ce03c; 0x18c0000; 0x18c7ff8; 0x18c7ffc; 0x18c0300; 0x18c0300; 0x18c0300; 0x18c0300;
   0x1800300; 0x180ff00; 0x180fff8; 0x1d41ffc; 0x1f8003c; 0xf80000; 0x0; 0x0;
   0x0; 0x0; 0x202000; 0x0; 0x0; 0x0; 0x1803000; 0x1807e00;
   0x1801ffc; 0x18c03fc; 0x18c0304; 0x18c0300; 0x18c0300; 0x18caba8; 0x18cfffe; 0x18cfffe;
   0x18c0300; 0x18c0300; 0x18c0300; 0x18c0300; 0x18c7ffc; 0x18c7ff8; 0x18c601c; 0x18c6018;
   0x180601c; 0x1806018; 0x180601c; 0x1807ff8; 0x1fc7ffc; 0x1f86ab8; 0xf8601c; 0x0;
   0x0; 0x0; 0x0; 0x202000; 0x0; 0x0; 0x0; 0x1800000;
   0x1800000; 0x18dfffc; 0x18cfffc; 0x18c11c0; 0x18c18c0; 0x18c38e0; 0x18c3060; 0x18c7ff0;
   0x18cfff8; 0x18dc1f8; 0x18c0300; 0x18c0700; 0x18c0300; 0x18cfff8; 0x18cfff8; 0x18c0700;
   0x18c0300; 0x18c0700; 0x180e300; 0x180ff00; 0x1803ffc; 0x1f801fc; 0x1f80008; 0x500000;
   0x0; 0x0; 0x0; 0x0; 0x202000; 0x0; 0x0; 0x0;
   0x1000700; 0x1800300; 0x1800300; 0x18cfff8; 0x19dfffc; 0x18c1cc0; 0x19c38e0; 0x18c7070;
   0x19dfffc; 0x18cdfde; 0x19c000c; 0x18c0000; 0x19dfffc; 0x18dfffc; 0x19c00e0; 0x18c0060;
   0x19c5560; 0x18c7fe0; 0x1807ff0; 0x1806000; 0x1807000; 0x1803000; 0x18035c0; 0x1f83f80;
   0x1f01f80; 0x0; 0x0; 0x0; 0x0; 0x202000; 0x0; 0x0;
   0x0; 0x3800700; 0x3800330; 0x39c0730; 0x3980338; 0x39cfff8; 0x398fff8; 0x39c071c;
   0x398030c; 0x39d575c; 0x399fffc; 0x39dfffc; 0x3980300; 0x39c0700; 0x398fff8; 0x39cfff8;
   0x398c318; 0x39cc718; 0x398c318; 0x380c718; 0x380c318; 0x380c718; 0x380fb18; 0x3f87718;
   0x1f80300; 0x1f00700; 0x0; 0x0; 0x0; 0x0; 0x202000; 0x0;
   0x0; 0x0; 0x1000000; 0x180aaa8; 0x180fff8; 0x18cfff8; 0x18cc018; 0x18cc018;
   0x18cc018; 0x18cfff8; 0x18cfff8; 0x18c0c18; 0x18c0c18; 0x18cffd8; 0x18cffd8; 0x18ccc58;
   0x18ccc58; 0x18ccc58; 0x18ccc58; 0x18ccc58; 0x180cc58; 0x180cc58; 0x180fc5c; 0x180ec4c;
   0x1d00c0c; 0x1f80c0e; 0x1f00c00; 0x0; 0x0; 0x0; 0x0; 0x202000;
   0x0; 0x0; 0x0; 0xe000; 0x30e0c0; 0x3861c0; 0x186380; 0xc7300;
   0xfffff0; 0xfffff0; 0x3800; 0x1c00; 0x3fffffc; 0x3fffffc; 0x2aeafa8; 0x1c03c0;
   0x3801e0; 0xfffff0; 0x3fffffe; 0x3dfffdc; 0x2180c00; 0x180c00; 0x180e00; 0x1c0700;
   0x1c0380; 0x1d41f0; 0xfc0f8; 0x7c030; 0x0; 0x0; 0x0; 0x0;
   0x202000; 0x0; 0x0; 0x0; 0x1000000; 0x1806000; 0x1807038; 0x18e38f8;
   0x18e1fe0; 0x18e0f80; 0x18e1fc0; 0x18e39e0; 0x18e707c; 0x18e233c; 0x18e0300; 0x18e0300;
   0x18efffc; 0x18efffc; 0x18e0300; 0x18e1b20; 0x18e3b70; 0x18e3330; 0x1807330; 0x180e318;
   0x180c31c; 0x180c30c; 0x1800300; 0x1f803e0; 0x1f001c0; 0x0; 0x0; 0x0;
   0x0; 0x202000; 0x0; 0x0; 0x0; 0x1000300; 0x1800300; 0x1800300;
   0x18efffc; 0x18efffc; 0x18eaba8; 0x18e0300; 0x18e0300; 0x18e7ffc; 0x18e7ff8; 0x18e631c;
   0x18e6318; 0x18e631c; 0x18e7b18; 0x18e7b9c; 0x18e0380; 0x18e0fc0; 0x18e1fe0; 0x1807b70;
   0x180e338; 0x180431c; 0x180030e; 0x1d0030c; 0x1f80300; 0x1f80300; 0x0; 0x0;
   0x0; 0x0; 0x202000; 0x0; 0x0; 0x0; 0x1800380; 0x3800300;
   0x3800700; 0x398aea8; 0x39dfffc; 0x398aba8; 0x39c01c0; 0x39820c0; 0x39c7060; 0x3983830;
   0x39c1ffc; 0x3980ff8; 0x39c4e00; 0x398c700; 0x39ce3c0; 0x39871e0; 0x39c7878; 0x3983c3c;
   0x3941e18; 0x3803f00; 0x38077c0; 0x380e1e0; 0x1d1c0f8; 0x1f8803c; 0x1f00018; 0x0;
   0x0; 0x0; 0x0; 0x202000; 0x0; 0x0; 0x0; 0x1000600;
   0x1800600; 0x1800f00; 0x1981f80; 0x19c39c0; 0x19870e0; 0x19de070; 0x199c03c; 0x19ffffe;
   0x1997fec; 0x19c7fe0; 0x1980000; 0x19c0000; 0x199fffc; 0x19dfffc; 0x1980180; 0x19c11c0;
   0x19838c0; 0x18030e0; 0x1807060; 0x1806070; 0x180ffb0; 0x181fffc; 0x1f9c0f8; 0x1f00000;
   0x0; 0x0; 0x0; 0x0; 0x202000; 0x0; 0x0; 0x0;
   0x1800700; 0x1808608; 0x180c718; 0x18cc618; 0x19cc718; 0x18cc618; 0x19cd758; 0x18cfff8;
   0x19cfff8; 0x18c0180; 0x19c01c0; 0x18c7fc0; 0x19c7fe0; 0x18c6ae0; 0x19c7070; 0x18c30b8;
   0x19c39dc; 0x18c3b88; 0x1801f00; 0x1800e00; 0x1800780; 0x18003e0; 0x1d001fc; 0x1f8007c;
   0xf80018; 0x0; 0x0; 0x0; 0x0; 0x202000; 0x0; 0x0].
Definition hanzi_data_39 : list N :=
  [0x0; 0x1800300; 0x1808308; 0x180e31c; 0x180e318; 0x18ce31c; 0x18cebb8; 0x18cfffc;
   0x18caaa8; 0x18c0000; 0x18c2aa8; 0x18cfffc; 0x18cfffc; 0x18ce000; 0x18ce000; 0x18cf550;
   0x18cfff8; 0x18cfff8; 0x18c0018; 0x1840018; 0x1808018; 0x180ff18; 0x180fff8; 0x1d007fc;
   0x1f80008; 0x1f80000; 0x0; 0x0; 0x0; 0x0; 0x202000; 0x0;
   0x0; 0x0; 0x1800000; 0x1803fe0; 0x1803fe0; 0x18c3860; 0x19c3860; 0x18c3860;
   0x19c3870; 0x18c3870; 0x19df838; 0x18cf83c; 0x19d431c; 0x18c0300; 0x19dfffc; 0x18cfffc;
   0x19dfffc; 0x18c0f80; 0x19c1fc0; 0x18c3be0; 0x1807370; 0x180e330; 0x180c33c; 0x180431e;
   0x1d0030c; 0x1f80300; 0x1f00300; 0x0; 0x0; 0x0; 0x0; 0x202000;
   0x0; 0x0; 0x0; 0x1800300; 0x1800300; 0x1800700; 0x181fffc; 0x19dfffc;
   0x18c3000; 0x19c3070; 0x18c38f0; 0x19c1fc0; 0x18c0f00; 0x19c3fc0; 0x18cfbe0; 0x19de0fe;
   0x18cb0fc; 0x19c30e0; 0x18c30e0; 0x19c30e0; 0x18830e0; 0x1803060; 0x1803060; 0x1803070;
   0x1803030; 0x1d0303c; 0x1f8301e; 0x1f8300c; 0x0; 0x0; 0x0; 0x0;
   0x202000; 0x0; 0x0; 0x0; 0x1807060; 0x1803060; 0x1803060; 0x18c18c0;
   0x19cfffc; 0x18cfffc; 0x19cfffc; 0x18cc300; 0x19cc700; 0x18ceba8; 0x19cfff8; 0x18cabb8;
   0x19c0718; 0x18c0318; 0x19cfffc; 0x18cfffc; 0x19cc780; 0x18cc3c0; 0x180c7e0; 0x180c370;
   0x180f778; 0x1807b1e; 0x1d07f0c; 0x1f80300; 0x1f00700; 0x0; 0x0; 0x0;
   0x0; 0x202000; 0x0; 0x0; 0x0; 0x1000000; 0x1800000; 0x180fffc;
   0x18efffc; 0x18e0000; 0x18e0000; 0x18e7ff8; 0x18e7ff8; 0x18e7558; 0x18e6018; 0x18e7018;
   0x18e6018; 0x18e7ff8; 0x18e7ff8; 0x18e5550; 0x18e3820; 0x18e1870; 0x18e1860; 0x1841c60;
   0x1800ce0; 0x181fcc0; 0x181ffe8; 0x1d17ffc; 0x1f8003c; 0x1f80000; 0x0; 0x0;
   0x0; 0x0; 0x202000; 0x0; 0x0; 0x0; 0x1000380; 0x180e388;
   0x180739c; 0x1867398; 0x1863398; 0x1863bb8; 0x1861bb0; 0x1862ba8; 0x1867ff8; 0x1863ff8;
   0x1867018; 0x1863018; 0x1867ff8; 0x1863ff8; 0x1867018; 0x1863018; 0x1867ff8; 0x1863ff8;
   0x1807ff8; 0x1803018; 0x1807018; 0x1803018; 0x1d47518; 0x1f83e18; 0x1f81e18; 0x0;
   0x0; 0x0; 0x0; 0x202000; 0x0; 0x0; 0x0; 0x1c00380;
   0xc00380; 0x1c50380; 0xc67ffc; 0x1c77ffc; 0xc60380; 0x1c70380; 0xc63ff8; 0x1c73ffc;
   0xc63018; 0x1c7301c; 0xc63018; 0x1c7301c; 0xc63ff8; 0x1c73ffc; 0xc20c60; 0x1c00c60;
   0xc00c60; 0xfc0c70; 0xf80c70; 0x7100c70; 0x3000c38; 0x3fffc1c; 0x3fffc0e; 0x1fff004;
   0x0; 0x0; 0x0; 0x0; 0x202000; 0x0; 0x0; 0x0;
   0x1000300; 0x1800300; 0x1800300; 0x18cfffc; 0x18cfffc; 0x18c0300; 0x18c0300; 0x18cfff8;
   0x18cfffc; 0x18ce318; 0x18ce31c; 0x18ce318; 0x18ce31c; 0x18cfff8; 0x18cfffc; 0x18c0780;
   0x18c1fc0; 0x18c3be0; 0x1807b70; 0x180e338; 0x180631c; 0x180030e; 0x1d00304; 0x1f80300;
   0x1f80300; 0x0; 0x0; 0x0; 0x0; 0x202000; 0x0; 0x0;
   0x0; 0x3001c0; 0x380180; 0x1c0380; 0xc0700; 0x3fffffc; 0x3fffffc; 0x3fffffc;
   0x0; 0x1c03ff0; 0xc63ff8; 0x1c73ff8; 0xc63838; 0x1c73838; 0xc63ff8; 0x1c73ff8;
   0xc63838; 0x1c73838; 0xc63ff8; 0x1c73ff8; 0xc63838; 0x1c03838; 0xc03838; 0x1d43838;
   0xfc3f38; 0x7c1f38; 0x0; 0x0; 0x0; 0x0; 0x202000; 0x0;
   0x0; 0x0; 0x1800000; 0x180fff0; 0x180fff0; 0x198e030; 0x19ce030; 0x198e030;
   0x19cfff0; 0x198fff0; 0x19c0600; 0x1980600; 0x19c0600; 0x199fff8; 0x19dfffc; 0x1998618;
   0x19dc71c; 0x1998f18; 0x19ddf9c; 0x199bb98; 0x181f1d8; 0x181a0f8; 0x181c05c; 0x1818018;
   0x1d1c01c; 0x1f9f818; 0x1f0f81c; 0x0; 0x0; 0x0; 0x0; 0x202000;
   0x0; 0x0; 0x0; 0x1000700; 0x1800300; 0x1800f80; 0x1881d80; 0x19c39c0;
   0x18870e0; 0x19ce070; 0x189c038; 0x19dfffe; 0x1883fee; 0x19c0004; 0x1880000; 0x19cc310;
   0x188e318; 0x19c6730; 0x1886630; 0x19c7630; 0x1883630; 0x1943070; 0x1809800; 0x181fc00;
   0x180fff8; 0x18007fc; 0x1f80038; 0x1f80000; 0x0; 0x0; 0x0; 0x0;
   0x202000; 0x0; 0x0; 0x0; 0x1800000; 0x180fff8; 0x180fff8; 0x18cc038;
   0x19cc038; 0x18cfff8; 0x19cfff8; 0x18cc038; 0x19cc038; 0x18cfff8; 0x19cfff8; 0x18c00e0;
   0x19c0060; 0x18dfff0; 0x19dfff0; 0x18cd998; 0x19ddddc; 0x18ccccc; 0x180cce0; 0x180c670;
   0x180c738; 0x180e31c; 0x1d075c8; 0x1f87dc0; 0x1f03c80; 0x0; 0x0; 0x0;
   0x0; 0x202000; 0x0; 0x0; 0x0; 0x1801cc0; 0x18018c0; 0x1801cc0;
   0x18c18c0; 0x18dfcd4; 0x18df8fc; 0x18dfcfc; 0x18c18c0; 0x18c1cc0; 0x18c18c0; 0x18dfcfc;
   0x18cf8fc; 0x18dfcfc; 0x18c18c0; 0x18c1cc0; 0x18c18c0; 0x18dfcfc; 0x18df8fc; 0x181fcfc;
   0x18018c0; 0x1801cc0; 0x18018c0; 0x1d01cc0; 0x1f818c0; 0xf81cc0; 0x0; 0x0;
   0x0; 0x0; 0x202000; 0x0; 0x0; 0x0; 0x1000380; 0x1800300;
   0x1800700; 0x18cfffc; 0x18cfffc; 0x18cbaa8; 0x18c7070; 0x18c3860; 0x18c38e0; 0x18c18c0;
   0x18dfffc; 0x18dfffc; 0x18dfffc; 0x18c0000; 0x18c5550; 0x18c7ff8; 0x18c7ff8; 0x18c6038;
   0x1806038; 0x1806038; 0x1806038; 0x1806ab8; 0x1d07ff8; 0x1f86ab8; 0xf86038; 0x0;
   0x0; 0x0; 0x0; 0x202000; 0x0; 0x0; 0x0; 0x1800300;
   0x1800700; 0x1800700; 0x198aea8; 0x199fffc; 0x199aaac; 0x199801c; 0x199803c; 0x199fc30;
   0x198fff0; 0x199dff0; 0x1988f18; 0x199df18; 0x1988f98; 0x199dd8c; 0x1988dbe; 0x199fdf6;
   0x198ece0; 0x1801cc0; 0x1820ce0; 0x183dc70; 0x183fc30; 0x1807e38; 0x1f00e1c; 0x1f0040c;
   0x0; 0x0; 0x0; 0x0; 0x202000; 0x0; 0x0; 0x0;
   0x1000700; 0x1800300; 0x18c5754; 0x18cfffc; 0x18cfffc; 0x18c0780; 0x18c1fc0; 0x18c3ce0;
   0x18cf07c; 0x18c603c; 0x18dfffc; 0x18dfffc; 0x18c7000; 0x18c6000; 0x18c77f8; 0x18c63f8].
Definition hanzi_data_40 : list N :=
  [0x18c7718; 0x18c6218; 0x1807758; 0x18063f8; 0x18077f8; 0x1806018; 0x1d07000; 0x1f83e00;
   0x1f03e00; 0x0; 0x0; 0x0; 0x0; 0x202000; 0x0; 0x0;
   0x0; 0x1000000; 0x181fdfc; 0x181fdfc; 0x18d8180; 0x18dcdd8; 0x18cdcf8; 0x18cf8f0;
   0x18ce0e0; 0x18df1f0; 0x18db9b8; 0x18d1e1c; 0x18c0c0c; 0x18c0000; 0x18dfffc; 0x18dfffc;
   0x18d8180; 0x18ddddc; 0x18cfcf8; 0x180f0f0; 0x180e0e0; 0x181f1f0; 0x181b9b8; 0x1811c3c;
   0x1f80e1e; 0x1f00404; 0x0; 0x0; 0x0; 0x0; 0x202000; 0x0;
   0x0; 0x0; 0x1000700; 0x1800600; 0x180c770; 0x18ce330; 0x18c7730; 0x18c3338;
   0x18c3718; 0x18c0f80; 0x18c1fc0; 0x18c78e0; 0x18cf07c; 0x18c6638; 0x18c0700; 0x18c4600;
   0x18ce730; 0x18c6330; 0x18c7338; 0x18c3318; 0x184079c; 0x1801f80; 0x1803dc0; 0x180f0e0;
   0x181e07c; 0x1f8c03c; 0x1f00004; 0x0; 0x0; 0x0; 0x0; 0x202000;
   0x0; 0x0; 0x0; 0x1000000; 0x1803ff8; 0x1807ff8; 0x18c3000; 0x19c7000;
   0x18c3ff0; 0x19c7ff0; 0x18c3000; 0x19c3000; 0x18dfffc; 0x19dfffc; 0x18c0300; 0x19cc71c;
   0x18ce338; 0x19c7770; 0x18c3360; 0x19c1fa0; 0x18c3fc0; 0x1807ff0; 0x180e338; 0x181c71e;
   0x180830c; 0x1800700; 0x1f803e0; 0x1f003e0; 0x0; 0x0; 0x0; 0x0;
   0x202000; 0x0; 0x0; 0x0; 0x1000000; 0x180aaa8; 0x180fff8; 0x188eab8;
   0x19cc038; 0x188c038; 0x19cfff8; 0x188fff8; 0x19c5d78; 0x1880c38; 0x19c0c38; 0x189fff8;
   0x19dfff8; 0x1880c38; 0x19c0c18; 0x1880c18; 0x19cffd8; 0x188ffd8; 0x194c0dc; 0x180c0cc;
   0x180c0cc; 0x180c0ce; 0x180ffcc; 0x1f0ffc0; 0x1f0c0c0; 0x0; 0x0; 0x0;
   0x0; 0x202000; 0x0; 0x0; 0x0; 0x180c000; 0x180fe80; 0x1807ff8;
   0x19806b8; 0x1980600; 0x19bfffc; 0x19bfffc; 0x1980600; 0x19836c0; 0x199b6c0; 0x19bf6fc;
   0x198f6e8; 0x19836c0; 0x19b36e0; 0x19b36fc; 0x19bf6cc; 0x1994f40; 0x1983f80; 0x19077c0;
   0x180e6e0; 0x181c670; 0x1818638; 0x1d0061c; 0x1f80608; 0x1f00600; 0x0; 0x0;
   0x0; 0x0; 0x202000; 0x0; 0x0; 0x0; 0x1c0180; 0xc0380;
   0x15f5754; 0x3fffffc; 0x3fffffc; 0xe00000; 0xe73ff0; 0xe33030; 0xe73570; 0xe33ff0;
   0xe73030; 0xe33ab0; 0xe73ff0; 0xe03030; 0xf83c30; 0x380820; 0xfffffc; 0xfffff8;
   0xd57d50; 0xc01800; 0xe01c00; 0xe00e00; 0x6007f0; 0x7f01fc; 0x3f007c; 0x0;
   0x0; 0x0; 0x0; 0x202000; 0x0; 0x0; 0x0; 0x1000000;
   0x181fffc; 0x181fffc; 0x1880000; 0x19c0000; 0x188fff0; 0x19cfff0; 0x188e030; 0x19ce030;
   0x188eab0; 0x19cfff0; 0x188aaa0; 0x19c0000; 0x189fff8; 0x19dfff8; 0x1898618; 0x19dc718;
   0x189fff8; 0x19dfff8; 0x1818618; 0x181c718; 0x181aeb8; 0x1d1fff8; 0x1f9aab8; 0x1f9c018;
   0x0; 0x0; 0x0; 0x0; 0x202000; 0x0; 0x0; 0x0;
   0x3800300; 0x3800700; 0x3815754; 0x381fffc; 0x39dd55c; 0x389860c; 0x39dfffc; 0x388fff0;
   0x39c0700; 0x3880600; 0x39c7ff0; 0x3882ea0; 0x39c0700; 0x389fffc; 0x39dfffc; 0x3880600;
   0x39c5750; 0x388fff0; 0x39cfff0; 0x380e030; 0x380e030; 0x380e030; 0x380fff0; 0x1f8eab0;
   0x1f0e030; 0x0; 0x0; 0x0; 0x0; 0x202000; 0x0; 0x0;
   0x0; 0x1800000; 0x181fffc; 0x181fffc; 0x1980880; 0x19c1dc0; 0x199fff8; 0x19dfffc;
   0x1998888; 0x19ddddc; 0x199aaa8; 0x19dfffc; 0x1980000; 0x19c5550; 0x198fff8; 0x19cfff0;
   0x1980000; 0x19ffffc; 0x19bfffc; 0x1900700; 0x1803260; 0x180f730; 0x180c238; 0x1d1c71c;
   0x1f883cc; 0x1f003c0; 0x0; 0x0; 0x0; 0x0; 0x202000; 0x0;
   0x0; 0x0; 0x100c670; 0x180e738; 0x1807398; 0x18c398c; 0x19c7318; 0x18ce630;
   0x19dc670; 0x18cfff8; 0x19cfff8; 0x18cc318; 0x19cfff8; 0x18cfff8; 0x19cc718; 0x18cfff8;
   0x19cfff8; 0x18c0300; 0x19dfffc; 0x18dfffc; 0x19c0f80; 0x1803fc0; 0x1807ff0; 0x181e338;
   0x1d0c71e; 0x1f8030c; 0x1f00700; 0x0; 0x0; 0x0; 0x0; 0x202000;
   0x0; 0x0; 0x0; 0x10004c0; 0x1800ee0; 0x1801c60; 0x1981870; 0x19dfff0;
   0x199fff8; 0x19c1c3c; 0x1980c3e; 0x19dfffc; 0x198fff0; 0x19c1c30; 0x198aeb0; 0x19dfff0;
   0x1980c30; 0x19c1c30; 0x199fff0; 0x19dfff0; 0x1980030; 0x19cc110; 0x18099b0; 0x1819998;
   0x1839998; 0x1d3319c; 0x1fb338c; 0x1f1010c; 0x0; 0x0; 0x0; 0x0;
   0x202000; 0x0; 0x0; 0x0; 0x1000000; 0x387fff8; 0x387fff8; 0x3b00018;
   0x3b06c58; 0x3b06cd8; 0x3b064d8; 0x3b06698; 0x3b7fff8; 0x3b6eff8; 0x3b6f318; 0x3b6eb58;
   0x3b6ff58; 0x3b6fb58; 0x3b4cf58; 0x3b0cb58; 0x3b1cf58; 0x3b1cfd8; 0x3814fdc; 0x3836308;
   0x387618c; 0x386318c; 0x38631cc; 0x1e618ee; 0x1e01844; 0x0; 0x0; 0x0;
   0x0; 0x202000; 0x0; 0x0; 0x0; 0x1801830; 0x1801830; 0x1815d58;
   0x189fff8; 0x19dfdfc; 0x18c66cc; 0x19c64ce; 0x18c2606; 0x19c0700; 0x18c1f80; 0x19c79c0;
   0x18ce0f0; 0x19dfffc; 0x18cbffe; 0x19c0004; 0x18c0000; 0x19c7ff0; 0x18c7ff0; 0x1806030;
   0x1806030; 0x1806030; 0x1807ff0; 0x1d07ff0; 0x1f86030; 0x1f06030; 0x0; 0x0;
   0x0; 0x0; 0x202000; 0x0; 0x0; 0x0; 0xc0000; 0x181ff8;
   0x1ffdff8; 0x1ffd818; 0xc19818; 0xe31ff8; 0x1775ff8; 0x3ffe018; 0x3fffff8; 0x181ff8;
   0x15d587c; 0x3fff82c; 0x3ffd87c; 0x181fee; 0x1c1ff4; 0x80000; 0x1fffff8; 0xfffff8;
   0x1c03000; 0xc03800; 0xc01c00; 0xc00e00; 0xe007f0; 0x7f01fc; 0x7f007c; 0x0;
   0x0; 0x0; 0x0; 0x202000; 0x0; 0x0; 0x0; 0x10030c0;
   0x18030c0; 0x183fffc; 0x19bfffc; 0x19c34c0; 0x1980660; 0x19dfff0; 0x199fff8; 0x19c0c3c;
   0x198fffc; 0x19dfffc; 0x1980c30; 0x19dfff0; 0x1980c30; 0x19dfff0; 0x199fff0; 0x19c0030;
   0x198fffc; 0x181fffc; 0x180e070; 0x1807ff0; 0x1801f80; 0x180fff0; 0x1f9e0fc; 0x1f1801c;
   0x0; 0x0; 0x0; 0x0; 0x202000; 0x0; 0x0; 0x0].
Definition hanzi_data_41 : list N :=
  [0x1800700; 0x1800380; 0x1807ff0; 0x18c6ab0; 0x19c7ff0; 0x18c7ff0; 0x19c7ff0; 0x18c7ff0;
   0x19c7570; 0x18c7ff0; 0x19c0000; 0x18cfff8; 0x19cfffc; 0x18cfff8; 0x19cfffc; 0x18cc308;
   0x19cfffc; 0x18c0000; 0x19dfffc; 0x181fffc; 0x1801860; 0x1801860; 0x1d01870; 0x1f8183c;
   0x1f8181c; 0x0; 0x0; 0x0; 0x0; 0x202000; 0x0; 0x0;
   0x0; 0x3800; 0x3800; 0x3800; 0x3800; 0x3800; 0x3800; 0x1fffffc;
   0x1fffff8; 0x1c03800; 0x1803800; 0x1c01800; 0x1c01800; 0x1c01c00; 0xc01c00; 0x1c01c00;
   0xc00e00; 0x1c00e00; 0xc00700; 0xc00780; 0xe00380; 0xe001c0; 0xe000e0; 0x7f8078;
   0x7f803c; 0x3f0018; 0x0; 0x0; 0x0; 0x0; 0x202000; 0x0;
   0x0; 0x0; 0x70000; 0x70000; 0x70000; 0x70ffc; 0x70ffc; 0x70ea8;
   0x3fffe00; 0x3ffee0c; 0x387061c; 0x3870638; 0x1870770; 0x38303e0; 0x18303e0; 0x18303c0;
   0x18383c0; 0x18383c0; 0x18187e0; 0x181cee0; 0x1c1cc70; 0x180ec38; 0x1c0701c; 0x1c0780e;
   0x1fc3c04; 0xfc1c00; 0x7c0800; 0x0; 0x0; 0x0; 0x0; 0x202000;
   0x0; 0x0; 0x0; 0x1800; 0x1800; 0x1800; 0x1800; 0x1800;
   0x1ffff8; 0x1ffff8; 0x181800; 0x1c1c00; 0xdc1820; 0xdc1c60; 0xdc1c60; 0x1dc1c70;
   0x19c0c30; 0x39c0e38; 0x38c0e18; 0x31c071c; 0x30c0708; 0x10c0380; 0xe03c0; 0xe01e0;
   0xe00f0; 0x7f07c; 0x7f03c; 0x1d018; 0x0; 0x0; 0x0; 0x0;
   0x202000; 0x0; 0x0; 0x0; 0x70000; 0x60000; 0x70000; 0x70ffc;
   0x70ffc; 0x70ae8; 0x3fff0c0; 0x3fff0c0; 0x35750c0; 0x38300c0; 0x38700c0; 0x38300c0;
   0x38300c0; 0x38380c0; 0x38380c0; 0x3838cc0; 0x181dfc0; 0x181cff8; 0x181c0fc; 0x180e00c;
   0x1c07000; 0x1c03800; 0x1fe3c00; 0xfe0e00; 0x7c0400; 0x0; 0x0; 0x0;
   0x0; 0x202000; 0x0; 0x0; 0x0; 0xc0; 0xc0; 0xc0;
   0x1ff00c0; 0x1ff00c0; 0x1ff3ffc; 0x1833ffc; 0x1833ae8; 0x18330c0; 0x18338e0; 0x18330e0;
   0x18338e0; 0x1833860; 0x1833860; 0x1833860; 0x1833860; 0x1833870; 0x1833870; 0x1831870;
   0x1833830; 0x1ff1838; 0x1ff1818; 0x1ff1f9c; 0x1830f8e; 0x1030704; 0x0; 0x0;
   0x0; 0x0; 0x202000; 0x0; 0x0; 0x0; 0x1c00; 0xc00;
   0xe00; 0xffff00; 0x7fff80; 0x3803e0; 0x1c07f0; 0xf0e38; 0x7fc10; 0x1f800;
   0x17fffc0; 0x3fe0ffc; 0x3f071fc; 0x7000; 0x7000; 0xfffff0; 0xfffff0; 0xe03800;
   0xe01c00; 0x600e00; 0x600f00; 0x600380; 0x7541f0; 0x3f80fc; 0x1f8018; 0x0;
   0x0; 0x0; 0x0; 0x202000; 0x0; 0x0; 0x0; 0xc0000;
   0xc0000; 0xc3ffc; 0xc3ffc; 0xc00e0; 0xc00e0; 0x15d40e0; 0x3ffc0e0; 0x3ffc0e0;
   0x38c3fe0; 0x38c3fe0; 0x38c3860; 0x38e3860; 0x38e3860; 0x38e3870; 0x3863860; 0x1861870;
   0x1861830; 0x1871830; 0x1831838; 0x1839818; 0x1819818; 0x1fddfdc; 0xf8ef8e; 0x784504;
   0x0; 0x0; 0x0; 0x0; 0x202000; 0x0; 0x0; 0x0;
   0x7000; 0x86000; 0x1c7380; 0x386180; 0xf071c0; 0x1e860e0; 0x3dc7070; 0x38f6038;
   0x7f010; 0x1f800; 0x7fc0; 0x2ffc; 0x71fc; 0x3000; 0xfffff0; 0xfffff0;
   0xfffff0; 0xe03800; 0xe01c00; 0xe00e00; 0xe00f00; 0x600780; 0x7581f0; 0x3f80fc;
   0x1f001c; 0x0; 0x0; 0x0; 0x0; 0x202000; 0x0; 0x0;
   0x0; 0xc0000; 0xc0000; 0xc3ff8; 0xc3ff8; 0xc1550; 0xc0000; 0x3ffc000;
   0x3ffc000; 0x3ffd554; 0x30c3ffc; 0x30c3ffc; 0x38e00e0; 0x30e00e0; 0x38e0c60; 0x3861c70;
   0x3861870; 0x3871830; 0x3873838; 0x1873fd8; 0x183bffc; 0x183f07c; 0x181c008; 0x1fdc000;
   0xfce000; 0x7c4000; 0x0; 0x0; 0x0; 0x0; 0x202000; 0x0;
   0x0; 0x0; 0xe0000; 0xe0ff8; 0xe1ff8; 0xe0eb8; 0xe1c18; 0xe0c18;
   0x3fffc18; 0x3ffeff8; 0x3d75ff8; 0x38e0c18; 0x3861c18; 0x3860c18; 0x1861c18; 0x3860ff8;
   0x1871ff8; 0x1830c18; 0x1831c18; 0x183ac18; 0x181bf18; 0x181fff8; 0x181c7fe; 0x180e03e;
   0x1d47000; 0xfc3800; 0x7c1800; 0x0; 0x0; 0x0; 0x0; 0x202000;
   0x0; 0x0; 0x0; 0x180; 0x180; 0x3ffc1c0; 0x1ffbffc; 0x1c1bffc;
   0xc33860; 0xe71870; 0x661c30; 0x7e0ff0; 0x3c0fc0; 0x7e1f80; 0xffbde0; 0x7c3d8fc;
   0x380e03c; 0x7004; 0xaafaa0; 0x1fffff0; 0xeabaa0; 0xc03800; 0xe01800; 0xe01e00;
   0xe00f00; 0x7007f0; 0x7f01fc; 0x3f0078; 0x0; 0x0; 0x0; 0x0;
   0x202000; 0x0; 0x0; 0x0; 0xc0380; 0xc0380; 0xc0380; 0xc0380;
   0xc3ffc; 0xc3ff8; 0x3fffffc; 0x3ff8380; 0x3dd4380; 0x38c0380; 0x38c57d4; 0x38c7ffc;
   0x38c7ffc; 0x38e00c0; 0x18e08c0; 0x1860ce0; 0x1861c60; 0x1863870; 0x1873030; 0x1833fb8;
   0x183fffc; 0x183a078; 0x1d5c000; 0xf8e000; 0x784000; 0x0; 0x0; 0x0;
   0x0; 0x202000; 0x0; 0x0; 0x0; 0x1c0060; 0xc0060; 0x1c0070;
   0xc0030; 0x1c7ff0; 0xc3ff8; 0x3fff018; 0x3ffb018; 0x3fff01c; 0x38c33fe; 0x30c77fc;
   0x38c3318; 0x38c3718; 0x38c3318; 0x38c3718; 0x38e3318; 0x38637f8; 0x38633f8; 0x1873018;
   0x1873018; 0x1833000; 0x183b800; 0x1d1dd40; 0xf8ff80; 0xf8cf80; 0x0; 0x0;
   0x0; 0x0; 0x202000; 0x0; 0x0; 0x0; 0xc0000; 0xc0000;
   0xc3ffc; 0xc3ffc; 0xc38c0; 0xc38e0; 0x3fff860; 0x3fff860; 0x38c3870; 0x38c1838;
   0x38c1f3c; 0x38e1f1e; 0x38e0004; 0x38e1ff8; 0x3861ff8; 0x3861ab8; 0x1871818; 0x3871818;
   0x1831818; 0x1839818; 0x181dd58; 0x181dff8; 0x1d5fff8; 0xf8f018; 0xfc6018; 0x0;
   0x0; 0x0; 0x0; 0x202000; 0x0; 0x0; 0x0; 0x1c0000;
   0x18aaa8; 0x1cfff8; 0x18fff8; 0x1c0018; 0x180018; 0x15d7ff8; 0x3fffff8; 0x3fffff8;
   0x38c0318; 0x39c0318; 0x38c7f18; 0x38c7f18; 0x38c6b18; 0x38c7318; 0x38c2398; 0x18e7198].
Definition hanzi_data_42 : list N :=
  [0x18e3198; 0x1867198; 0x1863198; 0x18731dc; 0x183b0cc; 0x1c1ffec; 0xf9de6e; 0xf88464;
   0x0; 0x0; 0x0; 0x0; 0x202000; 0x0; 0x0; 0x0;
   0x1c0000; 0xc0000; 0x1c3ffc; 0xc1ffc; 0x1c1c00; 0xc0e00; 0x3ffc700; 0x3ffc780;
   0x3ffdfc0; 0x38c3cf0; 0x38c787c; 0x38c201c; 0x38c0000; 0x38e3ffc; 0x38e3ffc; 0x38e0180;
   0x1860180; 0x3860180; 0x1870180; 0x1832180; 0x183bfc0; 0x181bffc; 0x1f9c1fc; 0xf0e00c;
   0x504000; 0x0; 0x0; 0x0; 0x0; 0x202000; 0x0; 0x0;
   0x0; 0xe0700; 0xe0300; 0x15f5754; 0x3fffffc; 0x3fffffc; 0xe0300; 0xe0700;
   0x0; 0x1fffffc; 0x1fffff8; 0x180101c; 0x1803018; 0x180301c; 0x3800; 0xfffff0;
   0xfffff0; 0x601800; 0x601800; 0x601c00; 0x600e00; 0x700700; 0x700380; 0x7fc1fc;
   0x3f80fc; 0x1f801c; 0x0; 0x0; 0x0; 0x0; 0x202000; 0x0;
   0x0; 0x0; 0xc0180; 0xc0180; 0xc0180; 0xc2ba8; 0xc3ffc; 0xc2ba8;
   0x3ffc180; 0x3ffc180; 0x3ffc180; 0x38e3ffc; 0x38e3ffc; 0x38e0000; 0x3860000; 0x3860000;
   0x1861ff8; 0x3861ff8; 0x1871818; 0x1831818; 0x1831818; 0x1839818; 0x181dff8; 0x181dff8;
   0x1d4fff8; 0xf87018; 0x7c3010; 0x0; 0x0; 0x0; 0x0; 0x202000;
   0x0; 0x0; 0x0; 0x1c01c0; 0xc0180; 0x1c0380; 0xc2ba8; 0x1c7ffc;
   0xc7ffc; 0x3ff81c0; 0x3ff88e0; 0x3ff9c70; 0x38c0c38; 0x18c0ffc; 0x38c07f8; 0x18c3780;
   0x18c7380; 0x18e39e0; 0x18e38f0; 0x1861c7c; 0x1860e1c; 0x1871f08; 0x1833f80; 0x1c3b9c0;
   0xc390f0; 0x1fdc07c; 0xf8e01c; 0x784004; 0x0; 0x0; 0x0; 0x0;
   0x202000; 0x0; 0x0; 0x0; 0x301c0; 0x300c0; 0x5755d4; 0x7ffffc;
   0x7ffffc; 0x6300c0; 0x637dc0; 0x63fff8; 0x63c7fc; 0x267c0ec; 0x77ee1c0; 0x3ec70c0;
   0x3c078f8; 0x803038; 0x3000; 0xfffff8; 0xfffff8; 0xe01800; 0x601c00; 0x600e00;
   0x600700; 0x600380; 0x75c1f0; 0x3f80fc; 0x1f801c; 0x0; 0x0; 0x0;
   0x0; 0x202000; 0x0; 0x0; 0x0; 0x1c0380; 0xc0380; 0x1c57d4;
   0xc7ffc; 0x1c7ffc; 0xc0380; 0x3ff8380; 0x3fffffc; 0x3dd7ffc; 0x38c600c; 0x38c600c;
   0x38c3ff0; 0x18c1ff0; 0x38c0e00; 0x18c0780; 0x18e6380; 0x1867ff0; 0x1863ffc; 0x18703fc;
   0x1830380; 0x1838380; 0x1838380; 0x1ddc3f0; 0xf8e3f0; 0x7c41f0; 0x0; 0x0;
   0x0; 0x0; 0x202000; 0x0; 0x0; 0x0; 0x0; 0x3ffff0;
   0x7ffff0; 0x3e0000; 0x7ff00; 0x7f800; 0xfffff0; 0xfffff0; 0xe06070; 0xeaeab0;
   0xfffff0; 0xe06030; 0xe06070; 0xfffff0; 0xf57570; 0xe06030; 0x7000; 0xfffff8;
   0xfffff8; 0xc03800; 0xe01c00; 0xe00e00; 0x6007e0; 0x7e01fc; 0x3f007c; 0x0;
   0x0; 0x0; 0x0; 0x202000; 0x0; 0x0; 0x0; 0x1c01c0;
   0xc00c0; 0x1c0fe0; 0xc1fe0; 0xc0d70; 0x2ae8e38; 0x3ffc61c; 0x3fffffc; 0x38c7ffc;
   0x38c6318; 0x38c6318; 0x38e6318; 0x18e6318; 0x3866bb8; 0x1867ff8; 0x1862fa8; 0x1870f80;
   0x1838f80; 0x1f9cfc0; 0xf8eec0; 0x750cee0; 0x3000e70; 0x3fffc3c; 0x3fffc1e; 0x7fd00c;
   0x0; 0x0; 0x0; 0x0; 0x202000; 0x0; 0x0; 0x0;
   0x1c0000; 0xc3ff0; 0x1c3ff0; 0xc3830; 0x1c3830; 0xc3ff0; 0x3fffff0; 0x3ff8000;
   0x39c0000; 0x38c3ff8; 0x38c7ff8; 0x38c3018; 0x18c7398; 0x38c3398; 0x18c7398; 0x38e3398;
   0x18e7398; 0x1863398; 0x1877198; 0x1873198; 0x1870fc0; 0x1839ce0; 0x1fdfc78; 0xf9d83e;
   0x78800c; 0x0; 0x0; 0x0; 0x0; 0x202000; 0x0; 0x0;
   0x0; 0xc0180; 0xc0380; 0xc0380; 0xcaba8; 0xcfffc; 0xcaaa8; 0x3ff8000;
   0x3ffbff8; 0x18c3ff8; 0x38c3038; 0x18c3038; 0x18c3038; 0x18c3ff8; 0x18e3ff8; 0x1860300;
   0x1861b30; 0x1863b30; 0x1863338; 0x1877318; 0x1832318; 0x1c3831c; 0x1c18308; 0x1fdc3e0;
   0xf8e3e0; 0x504000; 0x0; 0x0; 0x0; 0x0; 0x202000; 0x0;
   0x0; 0x0; 0x1c0000; 0x183ff8; 0x1c7ff8; 0x181c00; 0x1c0f00; 0x180700;
   0x1ff8300; 0x3fffffc; 0x3fffffc; 0x38c0300; 0x39c0300; 0x38c0300; 0x38c03f0; 0x38c01e0;
   0x18c3ffc; 0x38c3ff8; 0x18e36dc; 0x18636c8; 0x18636dc; 0x18636c8; 0x18776dc; 0x183ffe8;
   0x1d7fffe; 0xf9c0be; 0xf88000; 0x0; 0x0; 0x0; 0x0; 0x202000;
   0x0; 0x0; 0x0; 0xc1c70; 0xc0c60; 0xc5d74; 0xc7ffc; 0xc7ffc;
   0xc0c60; 0x3ffdff0; 0x3ffcfe0; 0x3dd57d0; 0x38c0380; 0x38c7ffc; 0x38e3ff8; 0x18e739c;
   0x38e3398; 0x1867ffc; 0x1863ff8; 0x1870380; 0x1870380; 0x1877ffc; 0x183fffc; 0x1818380;
   0x181c380; 0x1d5e380; 0xf8f380; 0x786380; 0x0; 0x0; 0x0; 0x0;
   0x202000; 0x0; 0x0; 0x0; 0x180000; 0x180000; 0x19fffc; 0x18fffc;
   0x180300; 0x180300; 0x3ff0300; 0x3fefff8; 0x3fffffc; 0x318cc98; 0x318ccdc; 0x318cc98;
   0x318cfdc; 0x398cf98; 0x31cccdc; 0x38ccc98; 0x39ccddc; 0x38ccf98; 0x18ccfdc; 0x18ecc98;
   0x186ccdc; 0x186fff8; 0x1c7fffc; 0x1f3eab8; 0xf3c01c; 0x0; 0x0; 0x0;
   0x0; 0x202000; 0x0; 0x0; 0x0; 0x1c0000; 0x187ffc; 0x1c7ffc;
   0x18600c; 0x1c7fec; 0x186fec; 0x3ff600c; 0x3ff600c; 0x3ff7ffc; 0x38c6fec; 0x39c600c;
   0x38c0000; 0x19c3ff8; 0x38c3ff8; 0x18c3018; 0x18c3ff8; 0x18c3ff8; 0x18e3018; 0x1863ff8;
   0x1863ff8; 0x1873018; 0x1833018; 0x1ffbff8; 0xf9fab8; 0x79b018; 0x0; 0x0;
   0x0; 0x0; 0x202000; 0x0; 0x0; 0x0; 0x1c3870; 0xc3820;
   0x1c3870; 0xcfffc; 0x1cfffc; 0xc3820; 0x3ffbff0; 0x3ffbfe0; 0x3dd3870; 0x38c3820;
   0x38c3ff0; 0x38c3fe0; 0x18c3870; 0x38c3820; 0x18cfffc; 0x18efffe; 0x1860d18; 0x1861b98;
   0x18639d8; 0x18730d8; 0x18710d8; 0x183fff8; 0x1d5fff8; 0xf9c000; 0x788000; 0x0;
   0x0; 0x0; 0x0; 0x202000; 0x0; 0x0; 0x0; 0x1c3980].
Definition hanzi_data_43 : list N :=
  [0xc3998; 0x1c7ddc; 0xcfffe; 0x1c7ffc; 0xc3998; 0x3ff3d98; 0x3ff3f98; 0x3dd1518;
   0x38c7ff8; 0x38c7ff8; 0x38c0000; 0x18c1550; 0x38c3ff8; 0x18c3ff8; 0x18e3098; 0x1863198;
   0x1863198; 0x1873198; 0x1873198; 0x18305c0; 0x1839ee0; 0x1ddf878; 0xf9f03c; 0x788004;
   0x0; 0x0; 0x0; 0x0; 0x202000; 0x0; 0x0; 0x0;
   0xe0700; 0xe0300; 0x3fffffc; 0x3fffffc; 0xe0700; 0x7fffe0; 0x7fffe0; 0x600060;
   0x7fffe0; 0x7fffe0; 0x600060; 0x7fffe0; 0x7fffe0; 0xc00; 0x3fffffc; 0x3fffffc;
   0x1c73c0; 0x7830e0; 0x1fffffc; 0x3ffffdc; 0x3181c04; 0x180e00; 0x180fc0; 0x1f83f0;
   0xf80e0; 0x0; 0x0; 0x0; 0x0; 0x202000; 0x0; 0x0;
   0x0; 0x1c0000; 0x87efc; 0x1c7ffc; 0x86488; 0x1c6ddc; 0x3fe78b0; 0x3ff79d0;
   0x38878e0; 0x39c7ffc; 0x38c628c; 0x39c67c4; 0x38c1fc0; 0x18c7cf0; 0x38ce23e; 0x18cc71c;
   0x18c0bc0; 0x18c1cf0; 0x18e0e38; 0x18637c0; 0x18639f0; 0x1c71c70; 0x1830f00; 0x1fb87c0;
   0xf9c0f8; 0x518018; 0x0; 0x0; 0x0; 0x0; 0x202000; 0x0;
   0x0; 0x0; 0x1c1c70; 0xc1820; 0x1c7ffc; 0xc7ffc; 0x1c1c70; 0xc1aa0;
   0x3ff9ff0; 0x3ff8380; 0x3fffffc; 0x30c3ff8; 0x30c739c; 0x30c2388; 0x30c7ffc; 0x30c3ff8;
   0x30c0380; 0x38e7ffc; 0x3067ffc; 0x3860380; 0x3877ffc; 0x3833ff8; 0x1830380; 0x183fb80;
   0x1d1fffc; 0x1f8e2fc; 0xf84000; 0x0; 0x0; 0x0; 0x0; 0x202000;
   0x0; 0x0; 0x0; 0x180; 0x1ff8180; 0x1ff81c0; 0x199bff8; 0x199bff8;
   0x199b8c0; 0x1ffb8c0; 0x1ff98e0; 0x1999870; 0x1999f38; 0x1999f1c; 0x1ff8008; 0x1ff8410;
   0x80618; 0x183ffc; 0x1e3ffc; 0x1b6b7dc; 0x1b6b6d8; 0x1f6f6d8; 0x306b6d8; 0x3c6f6d8;
   0x2c6f2c8; 0x6c6f3cc; 0xfe1ffe; 0x7c1d74; 0x0; 0x0; 0x0; 0x0;
   0x202000; 0x0; 0x0; 0x0; 0x700; 0x300; 0x380; 0x380;
   0x1ffffc0; 0x3ffffc0; 0x3ffffc0; 0x38000e0; 0x1800070; 0x1800070; 0x1800038; 0x180001c;
   0x180001c; 0x1800008; 0x1c00000; 0x1800000; 0x1c00000; 0x1c00000; 0x1c00000; 0xc00000;
   0x1c00000; 0xe00000; 0xf58000; 0x7f8000; 0x7f0000; 0x0; 0x0; 0x0;
   0x0; 0x202000; 0x0; 0x0; 0x0; 0x700; 0x300; 0x380;
   0x380; 0x1ffffc0; 0x1ffffc0; 0x1ffffc0; 0x18000e0; 0x1800070; 0x1800038; 0x1800738;
   0x180071c; 0x1c00e1c; 0x1801c00; 0x1c03800; 0x1803800; 0x1c07000; 0x1c0e000; 0x1c02000;
   0xc00000; 0xc00000; 0xe00000; 0xf58000; 0x7f8000; 0x3f0000; 0x0; 0x0;
   0x0; 0x0; 0x202000; 0x0; 0x0; 0x0; 0x300; 0x300;
   0x380; 0x380; 0x3ffffc0; 0x3ffffc0; 0x1d555e0; 0x38000e0; 0x1801c70; 0x1800c38;
   0x1800e3c; 0x1808e1c; 0x181c70c; 0x1818380; 0x1c38380; 0x18301c0; 0x1c7c1c0; 0x1cfffe0;
   0x1cdfff0; 0xcc00e0; 0x1c00000; 0xe00000; 0xffc000; 0x7f8000; 0x3f8000; 0x0;
   0x0; 0x0; 0x0; 0x202000; 0x0; 0x0; 0x0; 0x300;
   0x380; 0x380; 0x180; 0x3ffffc0; 0x3ffffc0; 0x1ffffe0; 0x38e1860; 0x1861c70;
   0x1861c38; 0x1871c3c; 0x1870e1c; 0x187060c; 0x1838700; 0x1c38700; 0x1818380; 0x1c1c1c0;
   0x1c0c0e0; 0x1c0e0f0; 0xc06078; 0x1c0703c; 0xc03810; 0xff1c00; 0xfe0e00; 0x7e0c00;
   0x0; 0x0; 0x0; 0x0; 0x202000; 0x0; 0x0; 0x0;
   0x700; 0x700; 0x700; 0x380; 0x1ffffc0; 0x1ffffc0; 0x1ffffc0; 0x18000e0;
   0x1c00070; 0x1c00038; 0x1c007bc; 0xc00e1e; 0x1c07c0c; 0xc0f800; 0x1c06000; 0xc20000;
   0x1c3c000; 0xc3f800; 0xc0ff00; 0xc01fe0; 0xe007f0; 0xe00060; 0x754000; 0x7f8000;
   0x3f8000; 0x0; 0x0; 0x0; 0x0; 0x202000; 0x0; 0x0;
   0x0; 0x700; 0x300; 0x380; 0x380; 0xffffc0; 0xffffe0; 0xc00070;
   0xc00078; 0xc1fffc; 0xe1ffde; 0xc1ffcc; 0xe180c0; 0xe1c0c0; 0xe180c0; 0xe1ffc0;
   0xe1ffc0; 0x71ffc0; 0x7e00c0; 0x3c00c0; 0x30000c0; 0x70000c0; 0x38000c0; 0x3ffffc0;
   0x1ffff80; 0x555400; 0x0; 0x0; 0x0; 0x0; 0x202000; 0x0;
   0x0; 0x0; 0x300; 0x380; 0x380; 0x180; 0x1ffffc0; 0x1ffffe0;
   0x1ffffe0; 0x1861860; 0x1c71c70; 0x1871c38; 0x1c70ddc; 0x1c30fee; 0x1c31f8c; 0x1c3be00;
   0x1c1ff00; 0xc3e380; 0x1c7c1c0; 0xcfc1c0; 0xcee0e0; 0xc06070; 0xc07078; 0xe03838;
   0xf51c10; 0x7f0e00; 0x7f0400; 0x0; 0x0; 0x0; 0x0; 0x202000;
   0x0; 0x0; 0x0; 0x100; 0x300; 0x380; 0xaaab80; 0x3ffffc0;
   0x3ffffe0; 0x1800070; 0x3800078; 0x180c03c; 0x18ce37e; 0x18c677c; 0x18c3e60; 0x18c3c70;
   0x18c7860; 0x18cfc70; 0x18dce60; 0x18dc770; 0x18c83e0; 0x1cc0070; 0x18fffe0; 0x1cffff0;
   0x1c00000; 0x1d40000; 0xfe0000; 0x7e0000; 0x0; 0x0; 0x0; 0x0;
   0x202000; 0x0; 0x0; 0x0; 0x180; 0x180; 0x1c0; 0x1ffffc0;
   0x1ffffe0; 0x1808060; 0x187f870; 0x1873838; 0x1dffffc; 0x19fffec; 0x1c03804; 0x18fffe0;
   0x1cfffe0; 0x18c3860; 0x1cd7d60; 0x18fffe0; 0x1cc3860; 0x1cc3860; 0x1cfffe0; 0xcfffe0;
   0x1cc3860; 0xcc3860; 0xcfb860; 0xfbb860; 0x7c0000; 0x0; 0x0; 0x0;
   0x0; 0x202000; 0x0; 0x0; 0x0; 0x70180; 0x70180; 0x701c0;
   0x3ffbffc; 0x3ffbffc; 0x30187e0; 0x301ce70; 0x300ec38; 0x33fdd5c; 0x3bf9fee; 0x331c7e4;
   0x3b18000; 0x331dffc; 0x3b19ffc; 0x3bfd574; 0x3bf8030; 0x1f1d570; 0x1e18ff0; 0x41dff8;
   0x3018c00; 0x701cc00; 0x3018c00; 0x3ff8e00; 0x3ff87e0; 0x17d07e0; 0x0; 0x0;
   0x0; 0x0; 0x202000; 0x0; 0x0; 0x0; 0x180; 0x180;
   0x1c0; 0x1ffffc0; 0x1ffffe0; 0x1800060; 0x19ffff0; 0x18ffff8; 0x1c0001c; 0x187ffce;
   0x1c7ffcc; 0x18600c0; 0x1c7ffc0; 0x187ffc0; 0x1c55540; 0x18fffe0; 0x1cd7d60; 0x1cc3860].
Definition hanzi_data_44 : list N :=
  [0x1cfffe0; 0xcebae0; 0x1cc3860; 0xcfffe0; 0xcfffe0; 0xfc0060; 0x7c0000; 0x0;
   0x0; 0x0; 0x0; 0x202000; 0x0; 0x0; 0x0; 0x0;
   0xc0; 0xc0; 0xc0; 0x4000c0; 0xf000c0; 0xfc00c0; 0x3f00c0; 0xfc0c0;
   0x3f8c0; 0x7fc0; 0xfc0; 0x7c0; 0xc0; 0xc0; 0x8000c0; 0x38000c0;
   0x38000c0; 0x38000c0; 0x38000c0; 0x1c000c0; 0x1eaabc0; 0xffffc0; 0x3fff00; 0x0;
   0x0; 0x0; 0x0; 0x0; 0x202000; 0x0; 0x0; 0x0;
   0x14600; 0x1c700; 0x1c700; 0x1c380; 0x181c1c0; 0x381c1c0; 0x1c1c1e0; 0xe1c0e0;
   0x71c1f0; 0x39c0f8; 0x1dc1dc; 0xfc0cc; 0x7c1cc; 0x3c0c0; 0x1f1c0; 0x1f8c0;
   0x101ffc0; 0x301ccc0; 0x701c1c0; 0x301c0c0; 0x301c1c0; 0x301c0c0; 0x3ffc1c0; 0x1ff80c0;
   0x7d01c0; 0x0; 0x0; 0x0; 0x0; 0x202000; 0x0; 0x0;
   0x0; 0x10400; 0x30600; 0x30600; 0x30600; 0x30600; 0x1830600; 0x3c30600;
   0x1e307fc; 0x7b07fc; 0x3f0600; 0x1f0600; 0x30600; 0x30600; 0x30600; 0x30600;
   0x30600; 0x1030700; 0x60307c0; 0x70307f0; 0x60306fe; 0x703061c; 0x3030600; 0x3ff0600;
   0x3ff0600; 0x540600; 0x0; 0x0; 0x0; 0x0; 0x202000; 0x0;
   0x0; 0x0; 0x50000; 0x73ff8; 0x77ff8; 0x73018; 0x77558; 0x1873ff8;
   0x3c77018; 0xf73018; 0x7f7ff8; 0xf3ff8; 0x70000; 0x7aaa8; 0x7fffc; 0x7aba8;
   0x70330; 0x3070330; 0x7077f30; 0x3077f38; 0x3ff0338; 0x3fe0338; 0x3f8; 0x3d8;
   0x7ffff9c; 0x3fffe0e; 0x3ff5004; 0x0; 0x0; 0x0; 0x0; 0x202000;
   0x0; 0x0; 0x0; 0x0; 0x0; 0x1fffff0; 0xfffff0; 0x30;
   0x30; 0x30; 0x30; 0x30; 0x30; 0x30; 0x30; 0x30;
   0x30; 0x30; 0x30; 0x30; 0x30; 0x30; 0x30; 0x30;
   0x1fffff0; 0x1fffff0; 0x0; 0x0; 0x0; 0x0; 0x0; 0x0;
   0x202000; 0x0; 0x0; 0x0; 0x0; 0x3fffff8; 0x3fffff8; 0x2aaaab8;
   0x18018; 0x18e18; 0x318e18; 0x3f8e18; 0x3fce18; 0x33fe18; 0x31ffd8; 0x318fd8;
   0x318e58; 0x398e18; 0x3d8e18; 0x98e18; 0xc10e18; 0xc00e18; 0xfffc18; 0x7ff818;
   0x18; 0x18; 0x3fffff8; 0x3fffff8; 0x0; 0x0; 0x0; 0x0;
   0x0; 0x202000; 0x0; 0x0; 0x0; 0x0; 0x2aaaaa8; 0x3fffff8;
   0x3fffff8; 0x1c018; 0x18018; 0x1c018; 0x18018; 0x7fff18; 0x7fff18; 0x61c318;
   0x618318; 0x61c318; 0x618318; 0x61c318; 0x618318; 0x75c318; 0x7d8318; 0x3dc318;
   0x18018; 0x1c018; 0x18; 0x7fffff8; 0x3fffff8; 0x0; 0x0; 0x0;
   0x0; 0x0; 0x202000; 0x0; 0x0; 0x0; 0x0; 0x3fffff8;
   0x3fffff8; 0x2aaaab8; 0x18; 0x3e0018; 0x7fff18; 0x2fe18; 0x718; 0x618;
   0x718; 0x1fffe18; 0x1ffff18; 0xe0618; 0xe0718; 0xe0718; 0xe0718; 0xe0318;
   0xe0398; 0xe0398; 0xe01d8; 0xa0018; 0x3fffff8; 0x3fffff8; 0x0; 0x0;
   0x0; 0x0; 0x0; 0x202000; 0x0; 0x0; 0x0; 0x0;
   0x2aaaaa8; 0x3fffff8; 0x3fffff8; 0x18; 0x18; 0xffff18; 0xffff18; 0x1c018;
   0x18018; 0x1c018; 0x2baa18; 0x7fff18; 0x2baa18; 0x1c018; 0x18018; 0x1c018;
   0xffff98; 0x1ffff98; 0x18; 0x18; 0x18; 0x3fffff8; 0x3fffff8; 0x0;
   0x0; 0x0; 0x0; 0x0; 0x202000; 0x0; 0x0; 0x0;
   0x0; 0x3fffff8; 0x3fffff8; 0x3fffff8; 0x18; 0xffff18; 0xffff18; 0xe18318;
   0xe1c318; 0xe18318; 0xffff18; 0xffff18; 0xe1c318; 0xe18318; 0xffff18; 0xffff18;
   0xe1c318; 0x18018; 0x1c018; 0x18018; 0x1c018; 0x18018; 0x3fffff8; 0x3fffff8;
   0x0; 0x0; 0x0; 0x0; 0x0; 0x202000; 0x0; 0x0;
   0x0; 0x0; 0x3fffff8; 0x3fffff8; 0x18; 0x60618; 0x60618; 0x67fd8;
   0x67fd8; 0x7f8318; 0x7f8b18; 0x661d98; 0x662b98; 0x667fd8; 0x660898; 0x661c18;
   0x667818; 0x3677fd8; 0x3630bd8; 0x3639c18; 0x3e1c818; 0x1c09c18; 0x18; 0x3fffff8;
   0x3fffff8; 0x0; 0x0; 0x0; 0x0; 0x0; 0x202000; 0x0;
   0x0; 0x0; 0x0; 0x3fffff8; 0x3fffff8; 0x2aaaab8; 0x67018; 0x63018;
   0x67018; 0x1fe3f98; 0x1fe7f98; 0x63018; 0x67018; 0xfe3f98; 0xfe7f98; 0x63018;
   0x67018; 0xae3a98; 0x1fe7fd8; 0xae3a98; 0x67018; 0x63018; 0x67018; 0x18;
   0x3fffff8; 0x3fffff8; 0x0; 0x0; 0x0; 0x0; 0x0; 0x202000;
   0x0; 0x0; 0x0; 0x0; 0x3fffff8; 0x3fffff8; 0xc018; 0x7fff18;
   0x7fff18; 0x61c318; 0x7fff18; 0x7fff18; 0xc018; 0x1ffffd8; 0x1ffffd8; 0x555518;
   0x7fff18; 0x700718; 0x60c318; 0x71c718; 0x62e318; 0x7f7718; 0x3e3e18; 0xf01fd8;
   0x800198; 0x3fffff8; 0x3fffff8; 0x0; 0x0; 0x0; 0x0; 0x0;
   0x202000; 0x0; 0x0; 0x0; 0x0; 0x0; 0x3fffff8; 0x3fffff8;
   0x61c18; 0x60c18; 0x61c18; 0x60c18; 0x61c18; 0x60c18; 0x60c18; 0x60c18;
   0x1860e18; 0x3860e18; 0x1860718; 0x1860718; 0x1fe0398; 0xfe03d8; 0x198; 0x18;
   0x18; 0x3fffff8; 0x3fffff8; 0x0; 0x0; 0x0; 0x0; 0x0;
   0x0; 0x202000; 0x0; 0x0; 0x0; 0x0; 0xaaaaa8; 0x3fffff8;
   0x3fffff8; 0x18; 0x380018; 0x380318; 0x1c0718; 0x1c1e18; 0xe3c18; 0x77818;
   0x3e018; 0x1e018; 0x3e018; 0x77018; 0xe3818; 0x1c1c18; 0x380f18; 0x7007d8;
   0x200398; 0x18; 0x18; 0x3fffff8; 0x3fffff8; 0x0; 0x0; 0x0;
   0x0; 0x0; 0x202000; 0x0; 0x0; 0x0; 0x0; 0x2aaaaa8].
Definition hanzi_data_45 : list N :=
  [0x3fffff8; 0x3fffff8; 0x1c18; 0xc18; 0x555e18; 0xfffe18; 0xffff18; 0x18398;
   0x1c198; 0x18018; 0x1ffffd8; 0x1ffff98; 0x1c018; 0x3c018; 0xfe018; 0x1e7018;
   0x3c3c18; 0x700f98; 0xe00798; 0x400018; 0x3fffff8; 0x3fffff8; 0x0; 0x0;
   0x0; 0x0; 0x0; 0x202000; 0x0; 0x0; 0x0; 0x0;
   0x3fffff8; 0x3fffff8; 0x2aaaab8; 0x1c018; 0x3e018; 0x77018; 0xe3818; 0x7c1c18;
   0xffff18; 0x1ffffd8; 0x800098; 0x18; 0x3ffe18; 0x3ffe18; 0x300e18; 0x300e18;
   0x300e18; 0x3ffe18; 0x3ffe18; 0x18; 0x18; 0x3fffff8; 0x3fffff8; 0x0;
   0x0; 0x0; 0x0; 0x0; 0x202000; 0x0; 0x0; 0x0;
   0x0; 0x3fffff8; 0x3fffff8; 0x2aaaab8; 0x1c018; 0xffff18; 0xffff18; 0xe00318;
   0xe00318; 0xffff18; 0xffff18; 0x318; 0xffff18; 0xffff98; 0xcccf98; 0xcccd98;
   0xfffd98; 0xeeed98; 0xcccdd8; 0xecccd8; 0xfcccd8; 0x18; 0x3fffff8; 0x3fffff8;
   0x0; 0x0; 0x0; 0x0; 0x0; 0x202000; 0x0; 0x0;
   0x0; 0x0; 0x2aaaaa8; 0x3fffff8; 0x3fffff8; 0xc1818; 0xc1818; 0xffff98;
   0xffff98; 0xc5818; 0x8e818; 0x1557558; 0x1ffff98; 0x1ffffd8; 0x3818; 0x7ffc18;
   0x3ffe18; 0x701f98; 0x301bd8; 0x701d98; 0x3ff818; 0x7ffc18; 0x18; 0x3fffff8;
   0x3fffff8; 0x0; 0x0; 0x0; 0x0; 0x0; 0x202000; 0x0;
   0x0; 0x0; 0x6000; 0x6000; 0x6000; 0x6000; 0x6000; 0x6000;
   0x6000; 0x6000; 0x6000; 0x6000; 0x3fffffc; 0x3fffffc; 0x1557554; 0x6000;
   0x6000; 0x6000; 0x6000; 0x6000; 0x6000; 0x6000; 0x6000; 0x6000;
   0x6000; 0x6000; 0x6000; 0x0; 0x0; 0x0; 0x0; 0x202000;
   0x0; 0x0; 0x0; 0x200000; 0x7e0000; 0x7ffc00; 0x3fff8; 0x7ff0;
   0x6000; 0x6000; 0x6000; 0x6000; 0x6000; 0x1557554; 0x3fffffc; 0x3fffffc;
   0x6000; 0x6000; 0x6000; 0x6000; 0x6000; 0x6000; 0x6000; 0x6000;
   0x6000; 0x6000; 0x6000; 0x6000; 0x0; 0x0; 0x0; 0x0;
   0x202000; 0x0; 0x0; 0x0; 0x0; 0x6020c0; 0x7060c0; 0x6060c0;
   0x7060c0; 0x6060c0; 0x7060c0; 0x6060c0; 0x7060c0; 0x6060c0; 0x7fffffc; 0x3fffffc;
   0x7060c0; 0x6060e0; 0x7060e0; 0x6060e0; 0x7060e0; 0x606060; 0x706070; 0x606070;
   0x706070; 0x606038; 0x70601c; 0x60601e; 0x70000c; 0x0; 0x0; 0x0;
   0x0; 0x202000; 0x0; 0x0; 0x0; 0x40000; 0xc7000; 0x1c7e00;
   0xc1f80; 0x1c07fc; 0xc0378; 0x1c0300; 0xc0300; 0x1c0300; 0xc0300; 0x1c0300;
   0x3fffffc; 0x3fffffc; 0xc0300; 0x1c0300; 0xc0380; 0x1c0380; 0xc0380; 0x1c01c0;
   0xc01c0; 0x1c00e0; 0xc00f0; 0x1c0078; 0xc003c; 0x1c000c; 0x0; 0x0;
   0x0; 0x0; 0x202000; 0x0; 0x0; 0x0; 0x380; 0x180;
   0x1c0; 0xc0; 0xffffc0; 0xffffe0; 0x6070; 0x6030; 0x6038; 0x601c;
   0x6018; 0x6000; 0x3fffffc; 0x3fffffc; 0x3fffffc; 0x6000; 0x6000; 0x6000;
   0x6000; 0x6000; 0x6000; 0x6000; 0x6000; 0x6000; 0x6000; 0x0;
   0x0; 0x0; 0x0; 0x202000; 0x0; 0x0; 0x0; 0x6000;
   0x6000; 0x6000; 0x6000; 0x1fffff8; 0x1fffff8; 0x6000; 0x6000; 0x106100;
   0x186380; 0x1c0380; 0x180380; 0x15d57d4; 0x3fffffc; 0x3fffffc; 0x180180; 0x1c0180;
   0x180180; 0x1c01c0; 0x1800c0; 0x1c00e0; 0x180070; 0x1c007c; 0x18001c; 0x1c0008;
   0x0; 0x0; 0x0; 0x0; 0x202000; 0x0; 0x0; 0x0;
   0x6000; 0xe06060; 0x7060e0; 0x7060e0; 0x3861c0; 0x386180; 0x1c6380; 0x86080;
   0x557550; 0xfffff0; 0x1fffff0; 0x6000; 0x6000; 0x6000; 0x6000; 0x3fffffc;
   0x3fffffc; 0x6000; 0x6000; 0x6000; 0x6000; 0x6000; 0x6000; 0x6000;
   0x6000; 0x0; 0x0; 0x0; 0x0; 0x202000; 0x0; 0x0;
   0x0; 0x1c600; 0x18700; 0xc1c380; 0x1e18380; 0xfdc1c0; 0x3f81e0; 0x7f1f8;
   0x1fdbc; 0x101dddc; 0x3018180; 0x381c1c0; 0x3ff8180; 0x1ff81c0; 0x2180; 0x6000;
   0x6000; 0x1557554; 0x3fffffc; 0x3fffffc; 0x6000; 0x6000; 0x6000; 0x6000;
   0x6000; 0x6000; 0x0; 0x0; 0x0; 0x0; 0x202000; 0x0;
   0x0; 0x0; 0x18060; 0x18060; 0x18060; 0x18060; 0x18060; 0x7ffc60;
   0x7ffffc; 0x6babfc; 0x6183fc; 0x618060; 0x1f19c60; 0x1e19860; 0x3f1dc60; 0x361cc60;
   0x371ce60; 0x360c660; 0x770e760; 0x6306260; 0x707060; 0x303060; 0x703860; 0x301c60;
   0x3f9e60; 0x3f8760; 0x1f0660; 0x0; 0x0; 0x0; 0x0; 0x202000;
   0x0; 0x0; 0x0; 0x7000; 0x7000; 0x557d40; 0xffffe0; 0xfffff0;
   0xe06060; 0xe06070; 0xffffe0; 0xfffff0; 0xe06060; 0xe06070; 0xe06060; 0xfffff0;
   0xffffe0; 0x31c00; 0x30e00; 0x307f0; 0x301e0; 0x3fffffc; 0x3fffffc; 0x30000;
   0x30000; 0x30000; 0x30000; 0x30000; 0x0; 0x0; 0x0; 0x0;
   0x202000; 0x0; 0x0; 0x0; 0x7000; 0x6000; 0xe000; 0x1fffff8;
   0x1fffff8; 0xaaaaa8; 0x1c0700; 0xc0300; 0xc0380; 0xe0380; 0x1f0fc0; 0x7b9ee0;
   0xf1dc70; 0x1c0e038; 0x180701c; 0x6000; 0x3fffffc; 0x3fffffc; 0x3fffffc; 0x6000;
   0x7000; 0x6000; 0x7000; 0x6000; 0x7000; 0x0; 0x0; 0x0;
   0x0; 0x202000; 0x0; 0x0; 0x0; 0x7000; 0x6000; 0x1fff000;
   0x1ffe000; 0x7000; 0x6000; 0xffffe0; 0xffffe0; 0xe00060; 0xe00060; 0xffffe0;
   0xffffe0; 0xe00060; 0xe00060; 0xffffe0; 0xffffe0; 0x7fffe0; 0x6000; 0x3fffffc].
Definition hanzi_data_46 : list N :=
  [0x3fffffc; 0x3fffffc; 0x6000; 0x6000; 0x6000; 0x6000; 0x0; 0x0;
   0x0; 0x0; 0x202000; 0x0; 0x0; 0x0; 0x180100; 0x380380;
   0x1c0700; 0xc0600; 0x5f5740; 0xffffe0; 0xfffff0; 0xe06060; 0xe06070; 0xffffe0;
   0xfffff0; 0xe06060; 0xe06070; 0xe06060; 0xfffff0; 0xffffe0; 0x6000; 0x6000;
   0x3fffffc; 0x3fffffc; 0x6000; 0x6000; 0x6000; 0x6000; 0x6000; 0x0;
   0x0; 0x0; 0x0; 0x202000; 0x0; 0x0; 0x0; 0x6000;
   0x6000; 0x6000; 0xfffff0; 0xfffff0; 0x6000; 0x6000; 0x1fffff8; 0x1fffffc;
   0x1c00000; 0xc1c780; 0xe1de00; 0x61dc70; 0xc1e0; 0xc3c0; 0xc200; 0x3fffffc;
   0x3fffffc; 0x7000; 0x33800; 0x1fbc00; 0x7e1e00; 0x1f807f0; 0x3c001f8; 0x1000078;
   0x0; 0x0; 0x0; 0x0; 0x202000; 0x0; 0x0; 0x0;
   0x6000; 0x6000; 0x1557554; 0x3fffffc; 0x3fffffc; 0x6000; 0x6000; 0xaaeaa8;
   0x1fffff8; 0xfffff8; 0x1c60638; 0xc30e38; 0x1c31c38; 0xcbaa38; 0x1dfff38; 0xcaea38;
   0x1c06038; 0xc06038; 0x1dfffb8; 0xdfffb8; 0x1c06038; 0xc06038; 0x1c06038; 0xfc6038;
   0xfc6038; 0x0; 0x0; 0x0; 0x0; 0x202000; 0x0; 0x0;
   0x0; 0x370060; 0xf60060; 0x1c70060; 0x3fffe60; 0x7fffe60; 0x60060; 0x1fff860;
   0x1fffbfc; 0x1871bfe; 0x1fff860; 0x1fff860; 0x1861860; 0x1fff860; 0x1fff860; 0x1f71860;
   0xb20860; 0x7ffff60; 0x3fffe60; 0x7ffff60; 0x303860; 0x70f060; 0x30e060; 0x71c060;
   0x3e0060; 0x3e0060; 0x0; 0x0; 0x0; 0x0; 0x202000; 0x0;
   0x0; 0x0; 0x1c00; 0x1c00; 0x1c00; 0x1c00; 0x1c00; 0x1c00;
   0x1c00; 0x1c00; 0x3c00; 0xfc00; 0x7fc00; 0xf9c00; 0x3f1c00; 0xf81c00;
   0x1f01c00; 0xc01c00; 0x1c00; 0x1c00; 0x1c00; 0x1c00; 0x1c00; 0x1c00;
   0x1c00; 0x1c00; 0x1c00; 0x0; 0x0; 0x0; 0x0; 0x202000;
   0x0; 0x0; 0x0; 0x3000; 0x3000; 0x7000; 0xe000; 0xe000;
   0x3fffffc; 0x3fffffc; 0x2aaeaa8; 0x7000; 0x6000; 0x7000; 0x1e000; 0x7f000;
   0x1f6000; 0x7c7000; 0xf86000; 0xe07000; 0x806000; 0x7000; 0x6000; 0x7000;
   0x6000; 0x7000; 0x6000; 0x7000; 0x0; 0x0; 0x0; 0x0;
   0x202000; 0x0; 0x0; 0x0; 0x18000; 0x38000; 0x387f8; 0x387f8;
   0x387f8; 0x38618; 0x38718; 0x38618; 0xf8718; 0x1f8618; 0x7b8718; 0xf38618;
   0x1e38718; 0x3c38618; 0x3838718; 0x1038618; 0x387f8; 0x387f8; 0x387f8; 0x38018;
   0x38018; 0x38000; 0x38000; 0x38000; 0x38000; 0x0; 0x0; 0x0;
   0x0; 0x202000; 0x0; 0x0; 0x0; 0x7000; 0x7000; 0x7000;
   0x7000; 0x7000; 0x3fff000; 0x3fff000; 0x7000; 0x7000; 0x7000; 0x7000;
   0x7000; 0x7ffff0; 0x7fffe0; 0x7ffff0; 0x600060; 0x600070; 0x600060; 0x600070;
   0x600060; 0x600070; 0x7fffe0; 0x7ffff0; 0x600060; 0x600070; 0x0; 0x0;
   0x0; 0x0; 0x202000; 0x0; 0x0; 0x0; 0x7000; 0x3000;
   0x7000; 0x3000; 0x7ff000; 0x7ff000; 0x7000; 0x3000; 0x7000; 0x3000;
   0x3fffffc; 0x3fffffc; 0x7000; 0x7000; 0x7000; 0x3f000; 0x1ff000; 0x3e7000;
   0x1f87000; 0xe07000; 0x807000; 0x7000; 0x7000; 0x7000; 0x7000; 0x0;
   0x0; 0x0; 0x0; 0x202000; 0x0; 0x0; 0x0; 0x6000;
   0x6000; 0x1556000; 0x3ffe000; 0x3ffe000; 0x6000; 0x6000; 0x2aeaa0; 0x7fffe0;
   0x6aaae0; 0x6000e0; 0x6000e0; 0x6000e0; 0x6000e0; 0x7fffe0; 0x7fffe0; 0x600060;
   0x60; 0x70; 0x70; 0x70; 0x38; 0x1c; 0x1c; 0xc;
   0x0; 0x0; 0x0; 0x0; 0x202000; 0x0; 0x0; 0x0;
   0x7000; 0x6000; 0x3fff000; 0x3ffe000; 0x3fff000; 0x6000; 0x1557550; 0x1fffff8;
   0x1fffff8; 0x1800038; 0x1c00038; 0x183fff8; 0x1c3fff8; 0x1830038; 0x1c30038; 0x1830038;
   0x1c35578; 0x183fff8; 0x1c3fff8; 0x1800038; 0x1c00038; 0x1800038; 0x1fffff8; 0x1fffff8;
   0x1c00038; 0x0; 0x0; 0x0; 0x0; 0x202000; 0x0; 0x0;
   0x0; 0x7000; 0x6000; 0x1557000; 0x3ffe000; 0x3fff000; 0x6000; 0x7000;
   0xfffff8; 0x1fffff8; 0xc20038; 0x1ce0738; 0xc70f38; 0x1c79e38; 0xc3f838; 0x1c1f038;
   0xc1f038; 0x1c7f838; 0xcf3e38; 0x1de1f38; 0xcc07b8; 0x1c00138; 0xc00038; 0x1fffff8;
   0xfffff8; 0x1c00038; 0x0; 0x0; 0x0; 0x0; 0x202000; 0x0;
   0x0; 0x0; 0xe0300; 0xe0300; 0xe0300; 0xe7ff8; 0xe7ff8; 0xe2ba8;
   0xe0300; 0xe0300; 0x1e0300; 0x3efffc; 0x7efffc; 0xee0000; 0x1ce0300; 0x38e0300;
   0x38e5750; 0x10e7ff8; 0xe7ffc; 0xe0300; 0xe0300; 0xe0300; 0xef700; 0xefffc;
   0xe7ffc; 0xe000c; 0xe0000; 0x0; 0x0; 0x0; 0x0; 0x202000;
   0x0; 0x0; 0x0; 0xc0000; 0xc2aa8; 0xc7ff8; 0xc7ff8; 0xc0618;
   0xc0618; 0xc0618; 0xc0618; 0xc7ff8; 0x1c7ff8; 0x7c7558; 0xfc6018; 0x1ec7018;
   0x3cc6018; 0x78c7ff8; 0x10c7ff8; 0xc7ff8; 0xc0618; 0xc0618; 0xc0618; 0xc0618;
   0xcfff8; 0xcfff8; 0xcaaa8; 0xc0000; 0x0; 0x0; 0x0; 0x0;
   0x202000; 0x0; 0x0; 0x0; 0x0; 0xaaa80; 0x1fff80; 0xeab80;
   0x1c0380; 0xc0380; 0x1c0380; 0xc0380; 0x1c0380; 0xc0380; 0x1c0380; 0xc0380;
   0x1c0380; 0xc0380; 0x1c0380; 0xc0380; 0x1c0380; 0xc0380; 0xfc380; 0xfc380;
   0x380; 0x380; 0x380; 0x380; 0x380; 0x0; 0x0; 0x0;
   0x0; 0x202000; 0x0; 0x0; 0x0; 0x0; 0x0; 0xfffff8].
Definition hanzi_data_47 : list N :=
  [0xfffff8; 0xc03000; 0xc03000; 0xc03000; 0xc03000; 0xc03000; 0xc03000; 0xc03000;
   0xc03000; 0xc03000; 0xc03000; 0xfe3000; 0x7e3000; 0x3000; 0x3000; 0x3000;
   0x3000; 0x3000; 0x3000; 0x3fffffc; 0x3fffffc; 0x0; 0x0; 0x0;
   0x0; 0x0; 0x202000; 0x0; 0x0; 0x0; 0x1800; 0x3e00;
   0x1555fc0; 0x1ffc3f0; 0x1ffc070; 0x181c030; 0x181c030; 0x181c030; 0x181c030; 0x181c030;
   0x181c030; 0x181c030; 0x181c030; 0x181c030; 0x181c030; 0x181c030; 0x181f830; 0x181ff30;
   0x1d1dff8; 0x1f9c3f8; 0x1f9c078; 0x1c008; 0x1c000; 0x1c000; 0x1c000; 0x0;
   0x0; 0x0; 0x0; 0x202000; 0x0; 0x0; 0x0; 0x700000;
   0xffe800; 0x7ffff0; 0x2ff0; 0x70; 0x30; 0x3fffff0; 0x3fffff0; 0x70;
   0x30; 0x70; 0x3ffe30; 0x7ffe70; 0x300630; 0x700630; 0x300630; 0x300630;
   0x3b8638; 0x1f8638; 0x38a0638; 0x380061c; 0x380061c; 0x1fffe1c; 0xfffe0e; 0x55500c;
   0x0; 0x0; 0x0; 0x0; 0x202000; 0x0; 0x0; 0x0;
   0x800; 0x1e00; 0x1551fc0; 0x1ff83f0; 0x1ff8070; 0x1839830; 0x1839c30; 0x1839830;
   0x1839c30; 0x1839830; 0x1839c30; 0x1839830; 0x1839c30; 0x1839830; 0x1839c30; 0x1839f30;
   0x1839ff8; 0x1838cf8; 0x1fb8e38; 0xf38600; 0x38700; 0x383c0; 0x381f0; 0x380f8;
   0x38030; 0x0; 0x0; 0x0; 0x0; 0x202000; 0x0; 0x0;
   0x0; 0x0; 0xe00; 0x1ff9fc0; 0x1ff83f8; 0x1818078; 0x1818038; 0x1818038;
   0x1818038; 0x1818038; 0x1818ab8; 0x1819ff8; 0x1819ff8; 0x1818038; 0x1818038; 0x1818038;
   0x1818038; 0x1818038; 0x1819e38; 0x1f99ff8; 0x1f987fc; 0xf1807c; 0x18008; 0x18000;
   0x18000; 0x18000; 0x0; 0x0; 0x0; 0x0; 0x202000; 0x0;
   0x0; 0x0; 0x700; 0x700; 0x7ff00; 0x7ff80; 0x701c0; 0x380e0;
   0x3fffff0; 0x3fffff8; 0x3fffffc; 0x6c; 0x60; 0x3ffc60; 0x3ffc60; 0x300c60;
   0x300c60; 0x300c60; 0x300c70; 0x3f8c70; 0x11f0c70; 0x3000c30; 0x3000c38; 0x3000c38;
   0x3d55c1c; 0x1fffc0e; 0xfff00c; 0x0; 0x0; 0x0; 0x0; 0x202000;
   0x0; 0x0; 0x0; 0x0; 0x2aa8; 0x1ff3ff8; 0x1ff3ab8; 0x1873038;
   0x1833038; 0x1873038; 0x1833ff8; 0x1873ff8; 0x1833038; 0x1873038; 0x1833038; 0x1873ff8;
   0x1833ff8; 0x1871578; 0x1830038; 0x1870638; 0x1ab0e38; 0x1f71c38; 0xf31e38; 0x73ff8;
   0x33bf8; 0x7707c; 0x30008; 0x70000; 0x0; 0x0; 0x0; 0x0;
   0x202000; 0x0; 0x0; 0x0; 0x300; 0x300; 0x1ff0300; 0x1ff0300;
   0x1873ff8; 0x1833ff8; 0x1871750; 0x1830300; 0x1870300; 0x1830300; 0x1877ffc; 0x1837ffc;
   0x1877ffc; 0x1830180; 0x18701c0; 0x1831cc0; 0x18718e0; 0x1833860; 0x1f73070; 0x1f33fb0;
   0xf77ffc; 0x360f8; 0x76008; 0x30000; 0x70000; 0x0; 0x0; 0x0;
   0x0; 0x202000; 0x0; 0x0; 0x0; 0x1800; 0x1e00; 0x1ff9fe0;
   0x1ff83f8; 0x1d78078; 0x1839838; 0x1839838; 0x18b98b8; 0x19f99f8; 0x19b99b8; 0x19b99b8;
   0x1bb9bb8; 0x1b39b38; 0x1b39838; 0x1839c38; 0x1839f38; 0x1839ff8; 0x1838cf8; 0x1fb8e38;
   0x1fb8600; 0xf38700; 0x383c0; 0x381f0; 0x380f8; 0x38038; 0x0; 0x0;
   0x0; 0x0; 0x202000; 0x0; 0x0; 0x0; 0xe000; 0x30e0c0;
   0x3861c0; 0x186380; 0x5d7750; 0xfffff0; 0xfffff0; 0x3800; 0x1c00; 0x3fffffc;
   0x3fffffc; 0x2aeafa8; 0x1c03c0; 0x3801e0; 0xfffff0; 0x3efffbc; 0x7ce039c; 0x20e0380;
   0x75380; 0x27e380; 0x614380; 0x600380; 0x7fff80; 0x3fff00; 0x1ffc00; 0x0;
   0x0; 0x0; 0x0; 0x202000; 0x0; 0x0; 0x0; 0x60;
   0x60; 0x3ff0070; 0x3ff7ff0; 0x3837ff0; 0x3830338; 0x383031c; 0x383030c; 0x3837ffc;
   0x3837ffc; 0x3837ffc; 0x3830300; 0x3830318; 0x3830318; 0x3837f18; 0x3833f18; 0x3830318;
   0x3830318; 0x1f30318; 0x1f36318; 0x1f37fd8; 0x33ffe; 0x301fe; 0x30000; 0x30000;
   0x0; 0x0; 0x0; 0x0; 0x202000; 0x0; 0x0; 0x0;
   0x0; 0x1fffe0; 0x1fffe0; 0xf8000; 0x1c1eff8; 0xe0eff8; 0x79ee00; 0x1fe700;
   0x1f63c0; 0xf860e0; 0x3f07c7c; 0x1007c1c; 0x7ffff0; 0x7ffff0; 0x555550; 0x2aaaa0;
   0x3fffe0; 0x3aaae0; 0x300060; 0x3aa060; 0x33fe060; 0x3800060; 0x1d555e0; 0x1ffffe0;
   0x5ffd00; 0x0; 0x0; 0x0; 0x0; 0x202000; 0x0; 0x0;
   0x0; 0x100; 0x2aaab80; 0x3fbfdf0; 0x3bbac78; 0x31b1c1c; 0x31b0d98; 0x31bfd9c;
   0x31bfd98; 0x31bfd9c; 0x31b0d98; 0x31b1d9c; 0x31bad98; 0x31bfd9c; 0x31aad98; 0x3181d9c;
   0x318cdf8; 0x319ddfc; 0x3198c9c; 0x3d9dcc4; 0x3dbfcc0; 0x15b7c60; 0x1b1e70; 0x1f0438;
   0x18001c; 0x18000c; 0x0; 0x0; 0x0; 0x0; 0x202000; 0x0;
   0x0; 0x0; 0x0; 0x0; 0x3fffff0; 0x3fffff0; 0x70; 0x70;
   0x70; 0x70; 0x70; 0x70; 0x70; 0x70; 0x70; 0x70;
   0x70; 0x30; 0x70; 0x30; 0x30; 0x38; 0x38; 0x18;
   0x1c; 0xe; 0x8; 0x0; 0x0; 0x0; 0x0; 0x202000;
   0x0; 0x0; 0x0; 0x0; 0x3fffff0; 0x3fffff0; 0x2aaaab0; 0x70;
   0x30; 0x7ffe70; 0x7ffe30; 0x7ffe70; 0x600e30; 0x700e70; 0x600e30; 0x700e70;
   0x600e30; 0x700e70; 0x7f8e30; 0x3f0e30; 0xe30; 0x3000e38; 0x3000e38; 0x3000e18;
   0x3800e18; 0x3fffc1c; 0x1fffc0e; 0x55500c; 0x0; 0x0; 0x0; 0x0;
   0x202000; 0x0; 0x0; 0x0; 0x0; 0x0; 0x3fffff0; 0x3fffff0;
   0x30; 0x30; 0x30; 0x30; 0x3ffffb0; 0x3ffffb0; 0x70030; 0x30030;
   0x70030; 0x30030; 0x70030; 0x30030; 0x70030; 0x30038; 0x70038; 0x30018].
Definition hanzi_data_48 : list N :=
  [0x7001c; 0x3001c; 0x7501c; 0x3f80e; 0x1f00c; 0x0; 0x0; 0x0;
   0x0; 0x202000; 0x0; 0x0; 0x0; 0x0; 0x3fffff8; 0x3fffff8;
   0x2aaaab8; 0x4038; 0xc038; 0xc038; 0xe038; 0xc038; 0x1ffffb8; 0x1ffffb8;
   0x1c0e038; 0x1c0e038; 0xc06038; 0x1c06038; 0xc06038; 0xc07038; 0xc03038; 0xc03818;
   0xc01818; 0xe01c1c; 0xe00e1c; 0x7f079c; 0x7f03ce; 0x1f018c; 0x0; 0x0;
   0x0; 0x0; 0x202000; 0x0; 0x0; 0x0; 0x0; 0x2aaaaa0;
   0x3fffff0; 0x3fffff0; 0x70; 0x30; 0x1555570; 0x3ffffb0; 0x3fffff0; 0x3030;
   0x7070; 0x3030; 0xfff030; 0xfff030; 0xfff830; 0xe03830; 0x601830; 0x601838;
   0x601c38; 0x600c38; 0x700e18; 0x700718; 0x7f079c; 0x3f03ce; 0x1f018c; 0x0;
   0x0; 0x0; 0x0; 0x202000; 0x0; 0x0; 0x0; 0x0;
   0x3fffff8; 0x7fffff8; 0x2aaaab8; 0x10038; 0x18038; 0x1c038; 0x18038; 0x1c038;
   0x18038; 0x1ffff38; 0x1ffffb8; 0x1ffffb8; 0x18038; 0x11c038; 0x398038; 0x71c038;
   0xe18018; 0x1c1c018; 0x418018; 0x1c01c; 0x1801c; 0x3ffffdc; 0x3ffffce; 0x4;
   0x0; 0x0; 0x0; 0x0; 0x202000; 0x0; 0x0; 0x0;
   0x0; 0x0; 0x3fffff0; 0x3fffff0; 0x10030; 0x138030; 0x3b8030; 0x738030;
   0xe18030; 0x418030; 0x3ffffb0; 0x3ffffb0; 0x157d530; 0x3c030; 0x7c030; 0x6e030;
   0xee030; 0xc6038; 0x1c7038; 0x383818; 0x701c1c; 0xe00e1c; 0x3c0071c; 0x38003ce;
   0x100018c; 0x0; 0x0; 0x0; 0x0; 0x202000; 0x0; 0x0;
   0x0; 0x0; 0x0; 0x3fffff0; 0x3fffff0; 0x6030; 0x6030; 0x7030;
   0x1ffffb0; 0x1ffffb0; 0xaabab0; 0x71c30; 0x30c30; 0x70e30; 0xfffe30; 0x1ffff30;
   0xabae38; 0x70038; 0x30038; 0x3ffffd8; 0x3ffff98; 0x157555c; 0x3001c; 0x7001c;
   0x3000e; 0x7000c; 0x0; 0x0; 0x0; 0x0; 0x202000; 0x0;
   0x0; 0x0; 0x0; 0x3fffff0; 0x3fffff0; 0x2aaaab0; 0x1800030; 0x181ffb0;
   0x199ffb0; 0x19981b0; 0x19999b0; 0x19999b0; 0x19999b0; 0x19999b8; 0x19999b0; 0x19999b8;
   0x19999b8; 0x19999b8; 0x1999998; 0x1999998; 0x1999998; 0x1882c18; 0x1807c1c; 0x180ee0c;
   0x181c78c; 0x1f383ce; 0x1f10084; 0x0; 0x0; 0x0; 0x0; 0x202000;
   0x0; 0x0; 0x0; 0x0; 0x3fffff8; 0x3fffff8; 0x2aaaab8; 0x71c38;
   0x3e0c38; 0x781c38; 0x2aaaeb8; 0x3fffff8; 0x2aaeeb8; 0x70cc38; 0x38cc38; 0x1fcc38;
   0x1c3cc38; 0x70cc38; 0x3ece38; 0x38fc618; 0x1c1c618; 0xf0c718; 0x23ec318; 0x70fc39c;
   0x301ff8c; 0x3ffd9cc; 0x3ffc0ee; 0x17f0044; 0x0; 0x0; 0x0; 0x0;
   0x202000; 0x0; 0x0; 0x0; 0x0; 0x2aaaaa0; 0x3fffff0; 0x3fffff0;
   0x70; 0xffff30; 0xffff70; 0xc18330; 0xc18370; 0xebab30; 0xffff70; 0xc18330;
   0xc18330; 0xc18330; 0xffff30; 0xffff30; 0x18030; 0xabaa38; 0x1ffff38; 0xffff18;
   0x18018; 0x1801c; 0x7ffffdc; 0x3ffffce; 0x8; 0x0; 0x0; 0x0;
   0x0; 0x202000; 0x0; 0x0; 0x0; 0x0; 0x2aaaaa0; 0x3fffff0;
   0x3fffff0; 0x30; 0x7fff30; 0x755730; 0x600330; 0x7fff30; 0x6aab30; 0x600730;
   0x7fff30; 0x7fff30; 0x30; 0x7fff30; 0x7fff30; 0x1f0030; 0x38038; 0x7fffff8;
   0x3ffffd8; 0x18018; 0x1801c; 0x1801c; 0x1f80e; 0x1f80c; 0x0; 0x0;
   0x0; 0x0; 0x202000; 0x0; 0x0; 0x0; 0x0; 0x3fffff0;
   0x3fffff0; 0x2aaaab0; 0x1c3830; 0x183830; 0x1ffffb0; 0x1ffffb0; 0x1c3830; 0x183830;
   0x3fffff0; 0x3ffffb0; 0x1555530; 0x30; 0x7ffe30; 0x7ffe30; 0x600630; 0x600638;
   0x7ffe18; 0x7ffe18; 0x60061c; 0x60061c; 0x7ffe1c; 0x7ffe0e; 0x60060c; 0x0;
   0x0; 0x0; 0x0; 0x202000; 0x0; 0x0; 0x0; 0x0;
   0x2aaaaa0; 0x3fffff0; 0x3fffff0; 0x1c030; 0xc030; 0xffff30; 0xffff30; 0xe00730;
   0xe00730; 0xffff30; 0xffff30; 0xe00730; 0xe00730; 0xffff30; 0xffff30; 0x18038;
   0x18c38; 0x399c18; 0x718e18; 0xe1871c; 0x1c1839c; 0x38181dc; 0x181f88e; 0x1f000;
   0x0; 0x0; 0x0; 0x0; 0x202000; 0x0; 0x0; 0x0;
   0x0; 0x3fffff0; 0x3fffff0; 0x2aaaab0; 0xc30; 0xaa0c30; 0x3ff0c30; 0x3ab0c30;
   0x3830c30; 0x3837ff0; 0x3837ff0; 0x3ff0e30; 0x3ff1e30; 0x3831f30; 0x3833f30; 0x3836fb8;
   0x3ff6db8; 0x3ff0cf8; 0x3830cf8; 0x3830c58; 0x3830c5c; 0x3ab0c0c; 0x3ff0c0c; 0x3ab0c0e;
   0x3830c04; 0x0; 0x0; 0x0; 0x0; 0x202000; 0x0; 0x0;
   0x0; 0x0; 0x3fffff8; 0x3fffff8; 0x118038; 0x798038; 0xe18038; 0x3fffff8;
   0x3ffffb8; 0x77038; 0xe3838; 0x7c1e38; 0x3f00fb8; 0x3fffff8; 0x6bab78; 0x618318;
   0x7fff38; 0x7fff18; 0x618318; 0x618318; 0x7fff18; 0x7fff1c; 0x1800c; 0x1800c;
   0x1800e; 0x18004; 0x0; 0x0; 0x0; 0x0; 0x202000; 0x0;
   0x0; 0x0; 0x0; 0x3fffff8; 0x3fffff8; 0x2aaaab8; 0x1c61b8; 0xc6338;
   0xc7338; 0xc3238; 0x3fffff8; 0x3fefff8; 0x3160c38; 0x1beccb8; 0x1bbcdb8; 0x1bbccb8;
   0x138cdb8; 0x38ccb8; 0x38ff98; 0x38ff98; 0x7ccc18; 0x6c0c18; 0xce0e1c; 0x1c6060c;
   0x387878c; 0x383c3ce; 0x3018184; 0x0; 0x0; 0x0; 0x0; 0x202000;
   0x0; 0x0; 0x0; 0x0; 0x3fffff0; 0x3fffff0; 0x2aaaab0; 0x1555530;
   0x1ffffb0; 0x155d530; 0x2baa30; 0x7ffe30; 0x600630; 0x7ffe30; 0x6aae30; 0x755630;
   0x7ffe30; 0x700630; 0x7ffe30; 0x7ffe38; 0x3838; 0x3ffc18; 0x381f98; 0x1f7bdc;
   0x7e09c; 0x5ffc1c; 0x3fe3fee; 0x3f007cc; 0x0; 0x0; 0x0; 0x0;
   0x202000; 0x0; 0x0; 0x0; 0x0; 0x3fffff8; 0x3fffff8; 0x2aaaab8].
Definition hanzi_data_49 : list N :=
  [0xc00038; 0xc1fff8; 0xc1fff8; 0xc00038; 0x3ff0038; 0x3feffb8; 0x3ffffb8; 0xc0c1b8;
   0xc4c1b8; 0xc6c1b8; 0xceffb8; 0xccffb8; 0xdc6118; 0xd86318; 0xc07318; 0xc03318;
   0xc0371c; 0xc1f80c; 0xc1ffcc; 0xf80fce; 0x78000c; 0x0; 0x0; 0x0;
   0x0; 0x202000; 0x0; 0x0; 0x0; 0x0; 0x3fffff8; 0x3fffff8;
   0x2aaaab8; 0x38; 0x3ff7fb8; 0x3ff7fb8; 0x6061b8; 0x6661b8; 0x667fb8; 0x777fb8;
   0x3361b8; 0x3361b8; 0x3ffffb8; 0x3ff7fb8; 0x3801b8; 0x7819b8; 0x3839b8; 0x7c3198;
   0x3e7d98; 0x6777fdc; 0x233e3dc; 0x773c1dc; 0x3e0e00e; 0x1c0400c; 0x0; 0x0;
   0x0; 0x0; 0x202000; 0x0; 0x0; 0x0; 0x0; 0x3fffff8;
   0x3fffff8; 0x38; 0x1006338; 0x3e86338; 0x3fffff8; 0xffff8; 0xe6338; 0xe6338;
   0xe7f38; 0x2ae7f38; 0x7fe6338; 0x2ee7f38; 0xc67f38; 0xce6338; 0xc66318; 0xc7ffd8;
   0xc7ffd8; 0xc60018; 0xc7331c; 0xc3638c; 0xc361cc; 0xc380ee; 0xc10044; 0x0;
   0x0; 0x0; 0x0; 0x202000; 0x0; 0x0; 0x0; 0x0;
   0x3000; 0x7000; 0x3000; 0x3800; 0x3800; 0x1c00; 0x1c00; 0x1c00;
   0xe00; 0xf00; 0x80700; 0x1c0700; 0x380380; 0x3801c0; 0x3001c0; 0x7001e0;
   0x6000e0; 0xf40070; 0xffffb8; 0x1fffff8; 0x1c00bf8; 0x1800000; 0x800000; 0x0;
   0x0; 0x0; 0x0; 0x0; 0x202000; 0x0; 0x0; 0x0;
   0x6000; 0x6000; 0x6000; 0x6000; 0xfffff0; 0xfffff0; 0xfffff0; 0x6000;
   0x6000; 0x6000; 0x6000; 0x3fffffc; 0x3fffffc; 0x3fffffc; 0x1c00; 0x60e00;
   0xe0700; 0x1c0300; 0x380380; 0x3801c0; 0x7f40e0; 0xfffff0; 0x1dffff0; 0x1c000f0;
   0x400000; 0x0; 0x0; 0x0; 0x0; 0x202000; 0x0; 0x0;
   0x0; 0x0; 0x2aaaa8; 0x3ffff8; 0x3ffff8; 0x300c00; 0x300c00; 0x300c00;
   0x37fff8; 0x37fff8; 0x300c00; 0x300c00; 0x300c00; 0x700c00; 0x3ffffc; 0x7ffffc;
   0x300700; 0x700700; 0x60c380; 0x271c1c0; 0x66380c0; 0x667d060; 0x2effff0; 0x7dc7ff0;
   0x3dc0030; 0x1800000; 0x0; 0x0; 0x0; 0x0; 0x202000; 0x0;
   0x0; 0x0; 0x0; 0x3fffc0; 0x3fffc0; 0x3aaac0; 0x3001c0; 0x3000c0;
   0x3fffc0; 0x3fffc0; 0x3001c0; 0x3000c0; 0x3fffc0; 0x3fffc0; 0x3555c0; 0x3000c0;
   0x3001c0; 0x3fffffc; 0x3fffffc; 0xe00; 0xe0700; 0x1c0380; 0x7801c0; 0x7feae0;
   0xfffff0; 0x1c02ff0; 0x1800000; 0x0; 0x0; 0x0; 0x0; 0x202000;
   0x0; 0x0; 0x0; 0x1800; 0x23c00; 0xf1e00; 0x3c0780; 0x7fffc0;
   0xffffe0; 0x1e05fe0; 0x801c00; 0x1555d54; 0x3fffffc; 0x3fffffc; 0xe0380; 0x3c03c0;
   0xffffe0; 0x3fffffc; 0x3c0003e; 0x100001c; 0x2aaa80; 0x3fffc0; 0x2aaa80; 0x0;
   0x0; 0x1fffff8; 0x1fffff8; 0x0; 0x0; 0x0; 0x0; 0x0;
   0x202000; 0x0; 0x0; 0x0; 0x1800; 0x23c00; 0xf1e00; 0x3c0780;
   0x7fffc0; 0xffffe0; 0x1c07fe0; 0x1800; 0x1555d54; 0x3fffffc; 0x3fffffc; 0xe0700;
   0x1dc380; 0x38f1e0; 0x1f07ff0; 0x3e60ffc; 0x387c11c; 0x1f008; 0x707f00; 0x380f80;
   0x1f0100; 0xfe000; 0x1ff00; 0x3fe0; 0x7c0; 0x0; 0x0; 0x0;
   0x0; 0x202000; 0x0; 0x0; 0x0; 0x1c00000; 0x3fe0000; 0x7ff954;
   0x184bbf8; 0x1c677fc; 0xcc6000; 0xcce000; 0x3fff800; 0x7fffd54; 0x3019ffc; 0x7019ffc;
   0xaba060; 0x1fff070; 0xaba1b0; 0x1c330; 0xffc338; 0x1ffc718; 0xe1e798; 0x63e7fc;
   0x3736fc; 0x3e3c04; 0x3e1c00; 0xffde00; 0x7e3f400; 0x3006000; 0x0; 0x0;
   0x0; 0x0; 0x202000; 0x0; 0x0; 0x0; 0x180000; 0x180c00;
   0x1ff1dfc; 0x1ff19fc; 0x19819fc; 0x1983800; 0x3ffd000; 0x3ff8000; 0x1980000; 0x1ffbdfc;
   0x1ffbdfc; 0x183030; 0x399f030; 0x19bb0b8; 0xff30d8; 0x7e3198; 0xff3198; 0xdbb188;
   0x199f3cc; 0x11833fc; 0x1e7b7e; 0x2fd04; 0x7ffce00; 0x3ff8600; 0x3fc0400; 0x0;
   0x0; 0x0; 0x0; 0x202000; 0x0; 0x0; 0x0; 0x0;
   0x0; 0xfffff8; 0xfffff8; 0x6000e0; 0x7000e0; 0x7001c0; 0x3001c0; 0x3801c0;
   0x180380; 0x1c0700; 0xe0700; 0xf0e00; 0x70e00; 0x39c00; 0x1f800; 0x1f000;
   0xf000; 0x1fc00; 0x79e00; 0x1f0fc0; 0x7e03e0; 0x7f801fc; 0x3e0003c; 0x100000c;
   0x0; 0x0; 0x0; 0x0; 0x202000; 0x0; 0x0; 0x0;
   0x0; 0x0; 0x555550; 0xfffff8; 0xfffff8; 0x6000e0; 0x7010c0; 0x3038c0;
   0x3071c0; 0x38e180; 0x1dc380; 0xc8300; 0xe0700; 0x60e00; 0x71c00; 0x3b800;
   0x1f800; 0xf000; 0x1fc00; 0x7be00; 0x1f0f80; 0xfe03e0; 0x7f801fc; 0x3e0007c;
   0x100001c; 0x0; 0x0; 0x0; 0x0; 0x202000; 0x0; 0x0;
   0x0; 0x0; 0xaaaa8; 0xffff8; 0x7fff8; 0x70300; 0x60300; 0x70700;
   0x30780; 0x1ff0700; 0x1ff8f80; 0x1c00f80; 0xc00f80; 0xe01d80; 0xe03980; 0x7039c0;
   0x3871c0; 0x3cf1c0; 0x1ce0e0; 0xfc0e0; 0x78070; 0x1fc078; 0x7ff038; 0x7f87f1c;
   0x3e01f0c; 0x1000600; 0x0; 0x0; 0x0; 0x0; 0x202000; 0x0;
   0x0; 0x0; 0xe00; 0xe00; 0xe00; 0xe00; 0x3fffffc; 0x3fffffc;
   0x3fffffc; 0x600; 0x700; 0x700; 0x7fff00; 0x7fff00; 0x700700; 0x380f80;
   0x181d80; 0x1c1980; 0x1e39c0; 0xe70e0; 0x7e0e0; 0x3c070; 0x7f078; 0x3ff838;
   0x1fc3f1e; 0x3f00f88; 0x1c00180; 0x0; 0x0; 0x0; 0x0; 0x202000;
   0x0; 0x0; 0x0; 0x0; 0x0; 0x1ffdffc; 0x1ffdffc; 0x1d5dd54;
   0x1818c00; 0x1c1cc00; 0xc18c18; 0xc18c1c; 0xc38e38; 0xe30670; 0x6306e0; 0x7707c0;
   0x760780; 0x360380; 0x3e0780; 0x1c0780; 0x1c0fc0; 0x1e1dc0; 0x3f1ce0; 0x779870].
Definition hanzi_data_50 : list N :=
  [0xe1e838; 0x1c1f03c; 0x380781e; 0x100100c; 0x0; 0x0; 0x0; 0x0;
   0x202000; 0x0; 0x0; 0x0; 0x700000; 0xff8000; 0x7fffe0; 0x3ffe0;
   0x160; 0x60; 0x60; 0x60; 0x7fffe0; 0x7fffe0; 0x7fffe0; 0x700e60;
   0x300c60; 0x381c60; 0x1c1c60; 0x1c3860; 0xe7070; 0x7e070; 0x7c070; 0x3e030;
   0xff030; 0x3e7c38; 0x1fc1fdc; 0x1e0079c; 0x1000188; 0x0; 0x0; 0x0;
   0x0; 0x202000; 0x0; 0x0; 0x0; 0x107000; 0x1871c0; 0x3871c0;
   0x7070c0; 0xe070e0; 0x3060; 0x3fffff0; 0x3fffff0; 0x1555d70; 0x1800; 0x1c00;
   0x7ffc00; 0x7ffe00; 0x700e00; 0x301f00; 0x383b80; 0x1c73c0; 0xee1c0; 0xfe0f0;
   0x3c078; 0x7e07c; 0x3ef81e; 0x1fc7f0c; 0x3e00f80; 0x3c00700; 0x0; 0x0;
   0x0; 0x0; 0x202000; 0x0; 0x0; 0x0; 0x1c0; 0x180;
   0x1ffc1c0; 0x1ffc180; 0x181bfc0; 0x183bf80; 0x1c301c0; 0x1c30180; 0x1c301c0; 0xc37ffc;
   0xc77ffc; 0xe60380; 0x660380; 0x6e1b80; 0x7c3bb0; 0x3c33b8; 0x3c7398; 0x3c6398;
   0x3c639c; 0x7e638c; 0xf7038c; 0xe38380; 0x3c1e3d0; 0x380e3f0; 0x30061f0; 0x0;
   0x0; 0x0; 0x0; 0x202000; 0x0; 0x0; 0x0; 0x0;
   0xffdff8; 0x1ffdff8; 0xc00c00; 0xe38c70; 0x6f8ef0; 0x7e07c0; 0x380780; 0xfe0fc0;
   0x1ef9ce0; 0x1c3e87c; 0xc018; 0x1ffdffc; 0x1ffdff8; 0x1d5dd54; 0xe18c10; 0x630e78;
   0x7306e0; 0x7707c0; 0x3e0780; 0x1e0fc0; 0x7f1ce0; 0x1f7c878; 0x3c1e03c; 0x100600c;
   0x0; 0x0; 0x0; 0x0; 0x202000; 0x0; 0x0; 0x0;
   0x0; 0x3ffc; 0x3ffc; 0x3ffeeb8; 0x1ffcc38; 0x1838c38; 0x1830c38; 0x1830ff8;
   0x1c30ff8; 0xc30c38; 0xc70c38; 0xc60c38; 0xe60ff8; 0x6e0ff8; 0x7c0ff8; 0x3c0c38;
   0x3c0c38; 0x383c38; 0x3c7ff8; 0x7e0ffe; 0xf70c7c; 0xe78c00; 0x3c3cc00; 0x381ec00;
   0x100cc00; 0x0; 0x0; 0x0; 0x0; 0x202000; 0x0; 0x0;
   0x0; 0x7c0000; 0xfffa00; 0x1ffff8; 0x202bf8; 0x707060; 0x7060e0; 0x3861c0;
   0x186180; 0x3fffffc; 0x3fffffc; 0x380001c; 0x380000c; 0x395555c; 0x2bfffc8; 0x3fffc0;
   0x1c0380; 0x1e0700; 0xe0e00; 0x79c00; 0x1f800; 0x1f800; 0xfff00; 0x1ff1ff0;
   0x3f803fc; 0x1c00018; 0x0; 0x0; 0x0; 0x0; 0x202000; 0x0;
   0x0; 0x0; 0x7000; 0x6000; 0xe000; 0x3fffffc; 0x3fffffc; 0x30c00;
   0x1b0dc0; 0x3b0ce0; 0x730c60; 0xe30c70; 0x1c30c38; 0x1830c18; 0x30c00; 0x2aaaa0;
   0x7ffff0; 0x3aabe0; 0x1c0380; 0xe0700; 0x70f00; 0x3fc00; 0x1f800; 0x3fe00;
   0x7f9ff0; 0x3fc03fc; 0x1c0007c; 0x0; 0x0; 0x0; 0x0; 0x202000;
   0x0; 0x0; 0x0; 0x300; 0x380; 0x1ffc780; 0x3ffcfc0; 0x3ffdce0;
   0x181b870; 0x181f03c; 0x183bffe; 0x1c33ffc; 0x1c30380; 0x1c70380; 0xc70380; 0xe77ffc;
   0xe67ffc; 0x7e0380; 0x7c1380; 0x3c1bb0; 0x383bb8; 0x3c7398; 0x3e6398; 0x7f639c;
   0xe7838e; 0x3c3c380; 0x381e3e0; 0x10041e0; 0x0; 0x0; 0x0; 0x0;
   0x202000; 0x0; 0x0; 0x0; 0x0; 0xaa8aa8; 0x1ffbff8; 0xffbab8;
   0x1c03838; 0xc03838; 0x1c03838; 0xc03838; 0x1ffbff8; 0xffbff8; 0x38; 0x38;
   0x1ffd578; 0x1fffff8; 0x1d5fff8; 0xc18038; 0xe30038; 0xe30038; 0x773ff8; 0x3e3ff8;
   0x1c0038; 0x7f0038; 0x1f7c038; 0x3c1f038; 0x3006038; 0x0; 0x0; 0x0;
   0x0; 0x202000; 0x0; 0x0; 0x0; 0x1c001c0; 0x3fe0980; 0xffd9cc;
   0x3d998; 0xddd8; 0xcdb8; 0xc7f0; 0x1aac180; 0x3ffdffc; 0x1abcffc; 0x183dffc;
   0x183c180; 0x1c7c1c0; 0xc6c1c0; 0xeedffc; 0x6cfffc; 0x7cfffc; 0x3860c0; 0x3860c0;
   0x7c60e0; 0xfc7070; 0xee3870; 0x3c7bc38; 0x383dc3c; 0x1018818; 0x0; 0x0;
   0x0; 0x0; 0x202000; 0x0; 0x0; 0x0; 0x6000; 0x6200;
   0xff67c0; 0xff60f0; 0xc06030; 0xc06030; 0xff67f0; 0xfe67f0; 0xd56570; 0xc06030;
   0xc06030; 0xfffff0; 0xfffff0; 0x6000; 0x3ffff0; 0x7ffff0; 0x7ffff0; 0x3c0380;
   0x1e0700; 0x79e00; 0x3fc00; 0x3fe00; 0x17ffff0; 0x3fe03fc; 0x1f0007c; 0x0;
   0x0; 0x0; 0x0; 0x202000; 0x0; 0x0; 0x0; 0x155540;
   0x3fffc0; 0x1d5740; 0xfff80; 0x7f400; 0x3e3fe0; 0x5555d0; 0x1ff9ff8; 0xe39c70;
   0x7f87e0; 0x7f07e0; 0x1e7defc; 0x1fffffc; 0x1fffff8; 0x180001c; 0x19fff98; 0x11fffd0;
   0x180180; 0x1fffc0; 0x180180; 0x1fffc0; 0x1aab80; 0x15d55d4; 0x3fffffc; 0x1555554;
   0x0; 0x0; 0x0; 0x0; 0x202000; 0x0; 0x0; 0x0;
   0x0; 0x0; 0x0; 0xfffff0; 0xfffff0; 0xc00030; 0xc00030; 0xc00030;
   0xc00030; 0xc00030; 0xc00030; 0xc00030; 0xc00030; 0xc00030; 0xc00030; 0xc00030;
   0xc00030; 0xc00030; 0xc00030; 0xc00030; 0xfffff0; 0xfffff0; 0xc00030; 0xc00030;
   0x0; 0x0; 0x0; 0x0; 0x0; 0x202000; 0x0; 0x0;
   0x0; 0x6000; 0x6000; 0x6000; 0x6000; 0x6000; 0x3fffffc; 0x3fffffc;
   0x6000; 0x6000; 0x6000; 0x6000; 0x6000; 0x557540; 0x7fffe0; 0x7fffe0;
   0x600060; 0x600060; 0x600060; 0x600060; 0x600060; 0x600060; 0x7fffe0; 0x7fffe0;
   0x6aaae0; 0x600060; 0x0; 0x0; 0x0; 0x0; 0x202000; 0x0;
   0x0; 0x0; 0x700; 0x300; 0x380; 0x380; 0x1ffffc0; 0x1ffffc0;
   0x18000e0; 0x18000e0; 0x1800070; 0x1800038; 0x181fffc; 0x181ff9e; 0x1c181cc; 0x1818180;
   0x1c181c0; 0x1818180; 0x1c181c0; 0x1c18180; 0x1c1ffc0; 0xc1ff80; 0x1c001c0; 0xe00180;
   0xf50000; 0xff0000; 0x7f0000; 0x0; 0x0; 0x0; 0x0; 0x202000;
   0x0; 0x0; 0x0; 0x0; 0x7fffe0; 0x7fffe0; 0x6aaae0; 0x600060].
Definition hanzi_data_51 : list N :=
  [0x600060; 0x600060; 0x600060; 0x600060; 0x7fffe0; 0x7fffe0; 0x7000; 0x7000;
   0x3000; 0x1fffffc; 0xfffffc; 0xc03800; 0xc01800; 0xc01c00; 0xe00e00; 0xe00700;
   0xe003c0; 0x7101f0; 0x7f007c; 0x3f0018; 0x0; 0x0; 0x0; 0x0;
   0x202000; 0x0; 0x0; 0x0; 0x0; 0x0; 0x3fffbfc; 0x3fffbf8;
   0x1fffbfc; 0x3830318; 0x183031c; 0x1830318; 0x183031c; 0x1838318; 0x183831c; 0x1838318;
   0x181831c; 0x1818318; 0x181c31c; 0x181c318; 0x1c1c3fc; 0x180c3f8; 0x1c0e15c; 0x1c06018;
   0x1c0701c; 0xc03800; 0xfe1c00; 0xfe0e00; 0x7e0400; 0x0; 0x0; 0x0;
   0x0; 0x202000; 0x0; 0x0; 0x0; 0x0; 0x0; 0x1ffcffc;
   0x1ffcff8; 0x180ce1c; 0x180ce18; 0x180ce1c; 0x180ce18; 0x180ce1c; 0x180ce18; 0x180ce1c;
   0x180ce18; 0x180ce1c; 0x180ce18; 0x180ce1c; 0x180ceb8; 0x180cffc; 0x180cff8; 0x1fcc01c;
   0x1f8c018; 0x50c000; 0xc000; 0xc000; 0xc000; 0xc000; 0x0; 0x0;
   0x0; 0x0; 0x202000; 0x0; 0x0; 0x0; 0x0; 0x0;
   0x7ffff0; 0x7fffe0; 0x600070; 0x600060; 0x600070; 0x600060; 0x600070; 0x600060;
   0x600070; 0x600060; 0x7ffff0; 0x7fffe0; 0x7ffff0; 0x0; 0x0; 0xe0e00;
   0x1e0700; 0x3c0380; 0x7801c0; 0xe000e0; 0x1c00078; 0x380003c; 0x1800018; 0x0;
   0x0; 0x0; 0x0; 0x202000; 0x0; 0x0; 0x0; 0x1c00000;
   0x1c00000; 0x1c1cff8; 0x1c18ff8; 0x1c1cff8; 0x1c18e18; 0x1c1ce18; 0x1c18e18; 0x1c1ce18;
   0x1c18e18; 0x1c1ce18; 0x1c18e18; 0x1c1ce18; 0x1c18e18; 0x1c1ce18; 0x1e18e18; 0x1ffcff8;
   0x1ffcff8; 0x1c7e018; 0x1c0c018; 0x1c00018; 0x1c00000; 0x1c00000; 0x1c00000; 0x1c00000;
   0x0; 0x0; 0x0; 0x0; 0x202000; 0x0; 0x0; 0x0;
   0x0; 0x0; 0xfffff8; 0xfffff8; 0xe01800; 0xe01800; 0xe01c00; 0xe00e00;
   0x600f00; 0x600700; 0x7f83c0; 0x3f81e0; 0x1f00fc; 0x2aaabc; 0x7fffe4; 0x7fffe0;
   0x6000e0; 0x6000e0; 0x6000e0; 0x6000e0; 0x6000e0; 0x6000e0; 0x7fffe0; 0x7fffe0;
   0x6000e0; 0x0; 0x0; 0x0; 0x0; 0x202000; 0x0; 0x0;
   0x0; 0x0; 0x200000; 0x31c7fc; 0x38c3f8; 0x30c7fc; 0x30c318; 0x30c71c;
   0x30c318; 0x30c71c; 0x30e318; 0x30e71c; 0x30e318; 0x70671c; 0x606318; 0x70671c;
   0x606318; 0x6077fc; 0xe033f8; 0xc037fc; 0xc03818; 0x1c0381c; 0x3801c00; 0x7801c00;
   0x3000c00; 0x1000400; 0x0; 0x0; 0x0; 0x0; 0x202000; 0x0;
   0x0; 0x0; 0x0; 0x0; 0x7fffffc; 0x3fffbf8; 0x7fffffc; 0x180318;
   0x18071c; 0x180318; 0x18071c; 0x180318; 0x18071c; 0x180318; 0x18071c; 0x180318;
   0x18071c; 0x180318; 0x1807fc; 0x1803f8; 0x18055c; 0x180018; 0x18001c; 0x180000;
   0x1fc000; 0x1fc000; 0xfc000; 0x0; 0x0; 0x0; 0x0; 0x202000;
   0x0; 0x0; 0x0; 0x0; 0x0; 0x3fffffc; 0x3fffffc; 0x700000;
   0x600000; 0x700000; 0x600000; 0x70fff0; 0x60ffe0; 0x70c070; 0x60c060; 0x70c070;
   0x60c060; 0x70c070; 0x60c060; 0x70fff0; 0x60ffe0; 0x700070; 0x600060; 0x700040;
   0x600000; 0x754000; 0x3f8000; 0x3f8000; 0x0; 0x0; 0x0; 0x0;
   0x202000; 0x0; 0x0; 0x0; 0x1800; 0x3800; 0x1c00; 0x60e00;
   0xf0700; 0x1e0380; 0x3c01c0; 0x7800e0; 0xfff4f0; 0xfffff8; 0x1c5fff0; 0x1800000;
   0x0; 0x7fffe0; 0x7fffe0; 0x7fffe0; 0x7000e0; 0x7000e0; 0x7000e0; 0x7000e0;
   0x7000e0; 0x7fffe0; 0x7fffe0; 0x7aaae0; 0x7000e0; 0x0; 0x0; 0x0;
   0x0; 0x202000; 0x0; 0x0; 0x0; 0x10000; 0x38000; 0x38000;
   0x383f8; 0x387fc; 0x1838318; 0x1c3871c; 0xe38318; 0x73871c; 0x3b8318; 0x1f871c;
   0xf8318; 0x7c71c; 0x3e318; 0x3ff1c; 0x3bb18; 0x387fc; 0x10383f8; 0x703801c;
   0x3038018; 0x303801c; 0x3038000; 0x3ff8000; 0x3ff0000; 0x7c0000; 0x0; 0x0;
   0x0; 0x0; 0x202000; 0x0; 0x0; 0x0; 0x6000; 0x6000;
   0x6000; 0x6000; 0x1fffff0; 0xfffff0; 0x1fffff0; 0xc06030; 0x1c06030; 0xc06030;
   0x1c06030; 0xfffff0; 0x1fffff0; 0xaaeaa0; 0x7040; 0x60e0; 0x71c0; 0x3180;
   0x3f80; 0x1f00; 0x3f00; 0xff80; 0x5fff3f8; 0x3ff80fc; 0x3f0001c; 0x0;
   0x0; 0x0; 0x0; 0x202000; 0x0; 0x0; 0x0; 0x3800;
   0x3800; 0x1800; 0x1800; 0x1c00; 0x3fffffc; 0x3fffffc; 0xe00; 0x600;
   0x700; 0x700; 0x380; 0xffffc0; 0xffffc0; 0xffffe0; 0xe00370; 0xe00378;
   0xe0033c; 0xe0031c; 0xe00300; 0xe00300; 0xffff00; 0xffff00; 0xeaab00; 0xe00300;
   0x0; 0x0; 0x0; 0x0; 0x202000; 0x0; 0x0; 0x0;
   0x0; 0xaaaaa8; 0x1fffff8; 0x1fffff8; 0x38; 0x38; 0x38; 0x3ffc38;
   0x3ffc38; 0x380c38; 0x380c38; 0x380c38; 0x380c38; 0x380c38; 0x380c38; 0x3aac38;
   0x3ffc38; 0x2aa838; 0x38; 0x38; 0x38; 0x38; 0x3fffff8; 0x3fffff8;
   0x0; 0x0; 0x0; 0x0; 0x0; 0x202000; 0x0; 0x0;
   0x0; 0x40000; 0x60000; 0x60000; 0x607f8; 0x607fc; 0x60618; 0x6071c;
   0x60618; 0x6071c; 0x3fffe18; 0x7ffff18; 0x2aeae18; 0x6071c; 0x60618; 0x6071c;
   0x60618; 0x607fc; 0x607f8; 0x6001c; 0x60018; 0x60014; 0x60000; 0x60000;
   0x60000; 0x60000; 0x0; 0x0; 0x0; 0x0; 0x202000; 0x0;
   0x0; 0x0; 0x0; 0x3fffe0; 0x7fffe0; 0x3000e0; 0x7000e0; 0x3000e0;
   0x7555e0; 0x3fffe0; 0x7fffe0; 0x0; 0x0; 0x3fffffc; 0x3fffffc; 0x380;
   0x380; 0x2aab80; 0x7fffc0; 0x3fffc0; 0x300000; 0x380000; 0x380000; 0x380000].
Definition hanzi_data_52 : list N :=
  [0x1c1000; 0x1fe000; 0xfe000; 0x0; 0x0; 0x0; 0x0; 0x202000;
   0x0; 0x0; 0x0; 0x0; 0x0; 0x1fffff8; 0xfffff8; 0x1c00000;
   0xc00000; 0x1c7fff8; 0xc7fff8; 0x1c7fff8; 0xc00000; 0x1c00000; 0xc3ffe0; 0x1c3fff0;
   0xc38060; 0x1c38070; 0xc38060; 0x1c38070; 0xc38060; 0x1c3fff0; 0xc3ffe0; 0x1c00070;
   0xc00060; 0x1fe0000; 0xfc0000; 0x7c0000; 0x0; 0x0; 0x0; 0x0;
   0x202000; 0x0; 0x0; 0x0; 0x0; 0x0; 0xfffc00; 0x1fffaa8;
   0x1fffffc; 0xc033fc; 0xc0731c; 0xe0630c; 0xe0631c; 0x60630c; 0x70e31c; 0x30c30c;
   0x31c31c; 0x39c30c; 0x1d831c; 0x1f830c; 0xf031c; 0x703fc; 0xf83fc; 0x1f800c;
   0x3de01c; 0xf0f80c; 0x1f07c00; 0x3c01e00; 0x1000600; 0x0; 0x0; 0x0;
   0x0; 0x202000; 0x0; 0x0; 0x0; 0x30000; 0x30000; 0x307fc;
   0x303f8; 0x307fc; 0x30318; 0x3ffff18; 0x3fffb18; 0x383071c; 0x3830318; 0x183071c;
   0x1838318; 0x183871c; 0x1818318; 0x181871c; 0x1818318; 0x1c1c7fc; 0x180c3f8; 0x1c0e7fc;
   0x1c0e018; 0x1c0701c; 0xc03800; 0xf43c00; 0xfe1e00; 0x7c0c00; 0x0; 0x0;
   0x0; 0x0; 0x202000; 0x0; 0x0; 0x0; 0x0; 0x0;
   0x15557f8; 0x1fffbf8; 0x1fffff8; 0x1800318; 0x1c00718; 0x1800318; 0x1d80718; 0x19c0318;
   0x1de0718; 0x18e0318; 0x1c70718; 0x1c38318; 0x1c1c718; 0xc0e318; 0x1c077f8; 0xc03bf8;
   0x1c03018; 0xc00018; 0xc00018; 0xe00000; 0xff0000; 0x7e0000; 0x1e0000; 0x0;
   0x0; 0x0; 0x0; 0x202000; 0x0; 0x0; 0x0; 0x0;
   0x2aa000; 0x7fe7fc; 0x3fe7f8; 0x7067fc; 0x306618; 0x70671c; 0x306618; 0x70671c;
   0x306618; 0x70671c; 0x306618; 0x70671c; 0x306618; 0x70671c; 0x306618; 0x7077fc;
   0x3077f8; 0x770755c; 0x2303818; 0x770381c; 0x2301c00; 0x7f01e00; 0x3f00e00; 0x1c00400;
   0x0; 0x0; 0x0; 0x0; 0x202000; 0x0; 0x0; 0x0;
   0x0; 0xaaa000; 0x3fff3fc; 0x3fff3f8; 0xc03fc; 0xc0318; 0xc031c; 0xc0318;
   0xc031c; 0xc0318; 0x7fffb1c; 0x3fffb18; 0x7fffb1c; 0xc0318; 0xc031c; 0xc0318;
   0xc03fc; 0xc03f8; 0xc015c; 0xc0018; 0xc001c; 0xc0000; 0xd4000; 0xfc000;
   0x7c000; 0x0; 0x0; 0x0; 0x0; 0x202000; 0x0; 0x0;
   0x0; 0x1c000; 0x1c000; 0x1c3fc; 0xe3f8; 0x3ffe3fc; 0x3ffe318; 0x155731c;
   0x3b18; 0x1f1c; 0x1f18; 0x1ffe31c; 0xffe318; 0x78031c; 0x3c0318; 0x1f031c;
   0x70318; 0x3c3fc; 0x1c3f8; 0x100e15c; 0x7007018; 0x700381c; 0x3003800; 0x3fff800;
   0x3fff000; 0x1ffc000; 0x0; 0x0; 0x0; 0x0; 0x202000; 0x0;
   0x0; 0x0; 0x1c00; 0xe00; 0xf00; 0x3fff00; 0x7fffc0; 0x3803c0;
   0x1e07f0; 0xf0e78; 0x7dc3c; 0x1f808; 0x1f800; 0x7fe00; 0x1f1fc0; 0x1fc03f8;
   0x7f000fe; 0x3bfffcc; 0x3fffc0; 0x3000c0; 0x3000c0; 0x3000c0; 0x3000c0; 0x3000c0;
   0x3fffc0; 0x3fffc0; 0x3000c0; 0x0; 0x0; 0x0; 0x0; 0x202000;
   0x0; 0x0; 0x0; 0x60000; 0xe0000; 0x70154; 0x303f8; 0x383fc;
   0x38318; 0x41c31c; 0xe0c318; 0xf0e31c; 0x707318; 0x7ff31c; 0x3ffb18; 0x1ffb1c;
   0xe0318; 0xe031c; 0x70318; 0x6783fc; 0xe383f8; 0x1c1c01c; 0x1c0e018; 0x1fff014;
   0x3fff800; 0x387f800; 0x3000800; 0x1000000; 0x0; 0x0; 0x0; 0x0;
   0x202000; 0x0; 0x0; 0x0; 0xc000; 0xe000; 0xf000; 0x1f800;
   0x3bc00; 0x71e00; 0x1e0f00; 0x3c03c0; 0x1f001f0; 0x3fffffc; 0x39fffbc; 0x8;
   0x0; 0x0; 0x7fffc0; 0x3fffc0; 0x7000c0; 0x3000c0; 0x7000c0; 0x3000c0;
   0x7000c0; 0x3fffc0; 0x7fffc0; 0x3aaac0; 0x7000c0; 0x0; 0x0; 0x0;
   0x0; 0x202000; 0x0; 0x0; 0x0; 0x6000; 0x6000; 0x6000;
   0x6000; 0x3fffffc; 0x3fffffc; 0x6000; 0x6000; 0x6000; 0x6000; 0x1fffff0;
   0xfffff0; 0x0; 0x0; 0x555540; 0x7fffe0; 0x7fffe0; 0x6000e0; 0x7000e0;
   0x6000e0; 0x7000e0; 0x6000e0; 0x7fffe0; 0x7fffe0; 0x7000e0; 0x0; 0x0;
   0x0; 0x0; 0x202000; 0x0; 0x0; 0x0; 0x0; 0x7fffe0;
   0x7fffe0; 0x7aaae0; 0x7000e0; 0x7000e0; 0x7000e0; 0x7000e0; 0x7fffe0; 0x7fffe0;
   0x6000; 0x6000; 0x6000; 0xfffff0; 0x1fffff0; 0xc06030; 0x1c06030; 0xc06030;
   0x1c06030; 0xc06030; 0x1d46030; 0xf86030; 0x786030; 0x6000; 0x6000; 0x0;
   0x0; 0x0; 0x0; 0x202000; 0x0; 0x0; 0x0; 0x0;
   0xaaaaa8; 0x1fffff8; 0x1fffff8; 0x1800018; 0x1800018; 0x19fff98; 0x19fff98; 0x1800018;
   0x1800018; 0x1855418; 0x18ffe18; 0x18fff18; 0x18e0218; 0x18e0718; 0x18e0218; 0x18e0718;
   0x18eaa18; 0x18fff18; 0x18aaa18; 0x1800718; 0x1800218; 0x1800018; 0x1f80018; 0x1f80018;
   0x0; 0x0; 0x0; 0x0; 0x202000; 0x0; 0x0; 0x0;
   0x3800; 0x1c00; 0x155e00; 0x7ffe00; 0x7fff80; 0x3803c0; 0x3c01f0; 0x1e0278;
   0xf0738; 0x78e00; 0x3fc00; 0xf800; 0x7c00; 0xaabf80; 0xfffff0; 0xfffffc;
   0xe003fc; 0xe00380; 0xe00380; 0xe00380; 0xe00380; 0xeaab80; 0xffff80; 0xeaab80;
   0xe00380; 0x0; 0x0; 0x0; 0x0; 0x202000; 0x0; 0x0;
   0x0; 0x400000; 0xff8000; 0x7ffff0; 0x2ffe0; 0x170; 0x60; 0x70;
   0x2aaaae0; 0x3fffff0; 0x3ffffe0; 0x70; 0x60; 0x70; 0xfffe70; 0x1fffe70;
   0xeaae30; 0x1c00670; 0xc00630; 0x1c00630; 0xc00638; 0x1c00618; 0xeaae18; 0x1fffe1c;
   0xfffe0e; 0x1c0060c; 0x0; 0x0; 0x0; 0x0; 0x202000; 0x0;
   0x0; 0x0; 0x6000; 0x6000; 0x1557554; 0x3fffffc; 0x3fffffc; 0x6000].
Definition hanzi_data_53 : list N :=
  [0x6000; 0xfffff0; 0xfffff0; 0xc06030; 0xc06030; 0xc06030; 0xc06030; 0xfffff0;
   0xfffff0; 0x60c0; 0x70c0; 0x31c0; 0x3b80; 0x3f00; 0x1f00; 0xff80;
   0x57ff7f0; 0x3ff80fc; 0x3fc001c; 0x0; 0x0; 0x0; 0x0; 0x202000;
   0x0; 0x0; 0x0; 0x60000; 0x60000; 0x603fc; 0x603f8; 0x603fc;
   0x60308; 0x6031c; 0x60308; 0x1fffb1c; 0x3fffb08; 0x3fffb1c; 0x60308; 0x6031c;
   0x60308; 0x6031c; 0x60308; 0x603fc; 0x603f8; 0x6015c; 0x60008; 0x6001c;
   0x2aeaa00; 0x7fffe00; 0x3fffe00; 0x0; 0x0; 0x0; 0x0; 0x0;
   0x202000; 0x0; 0x0; 0x0; 0x7000; 0x3000; 0x3800; 0x3800;
   0x1555d50; 0x1fffff8; 0x1fffff8; 0x1800018; 0x1c00018; 0x1800018; 0x1c7ff18; 0x187fe18;
   0x1c60718; 0x1860618; 0x1c60718; 0x1860618; 0x1c60718; 0x187fe18; 0x1c7ff18; 0x1800618;
   0x1c00718; 0x1800018; 0x1d40018; 0x1fc0018; 0xfc0018; 0x0; 0x0; 0x0;
   0x0; 0x202000; 0x0; 0x0; 0x0; 0x400000; 0xf00000; 0xff03fc;
   0x1ffbf8; 0x7fbfc; 0x60b18; 0x7031c; 0x60318; 0x7031c; 0x60318; 0x3f7031c;
   0x3ffa318; 0x7fff1c; 0x6ff18; 0x7031c; 0x60318; 0x7035c; 0x603f8; 0x70703fc;
   0x7060018; 0x707001c; 0x3060000; 0x3ff0000; 0x3fe0000; 0x540000; 0x0; 0x0;
   0x0; 0x0; 0x202000; 0x0; 0x0; 0x0; 0x0; 0x2aaa800;
   0x3fffffc; 0x3fffffc; 0x703fc; 0x3030c; 0x7030c; 0x3030c; 0x1f030c; 0x3b030c;
   0x77030c; 0xe3030c; 0x1c7030c; 0x183030c; 0x7030c; 0x3030c; 0x703fc; 0x303fc;
   0x7000c; 0x3000c; 0x7000c; 0x30000; 0x70000; 0x30000; 0x70000; 0x0;
   0x0; 0x0; 0x0; 0x202000; 0x0; 0x0; 0x0; 0x0;
   0x2aaa80; 0x7fffc0; 0x3fffc0; 0x7000c0; 0x3000c0; 0x7000c0; 0x3000c0; 0x7fffc0;
   0x3fffc0; 0x7fffc0; 0x0; 0x0; 0x0; 0xfffff0; 0xfffff0; 0xc00070;
   0xc00030; 0xc00070; 0xc00030; 0xc00070; 0xc00030; 0xfffff0; 0xfffff0; 0xc00070;
   0x0; 0x0; 0x0; 0x0; 0x202000; 0x0; 0x0; 0x0;
   0x1001000; 0x3803800; 0x38037fc; 0x1c073f8; 0x1c0e7fc; 0xe0c218; 0x71c71c; 0x398218;
   0x1f871c; 0xc0218; 0xe0718; 0xe0218; 0xe071c; 0xe0218; 0xe071c; 0xe0218;
   0xe07fc; 0xe03f8; 0xe07fc; 0xe0018; 0xe001c; 0xe0000; 0xe0000; 0xe0000;
   0xe0000; 0x0; 0x0; 0x0; 0x0; 0x202000; 0x0; 0x0;
   0x0; 0x0; 0x0; 0xfff154; 0xfff3f8; 0x6003fc; 0x606308; 0x60631c;
   0x606308; 0x60731c; 0x606308; 0x70731c; 0x703308; 0x3fff318; 0x3fff308; 0x380031c;
   0x3800308; 0x18003fc; 0x1bffbf8; 0x1bff81c; 0x1800008; 0x1c00014; 0x1c00000; 0x1c40000;
   0xfc0000; 0x7c0000; 0x0; 0x0; 0x0; 0x0; 0x202000; 0x0;
   0x0; 0x0; 0x0; 0x7fffe0; 0x7fffe0; 0x603800; 0x603800; 0x603800;
   0x3fffffc; 0x3fffffc; 0x601c00; 0x600c00; 0x755f50; 0x7fffe0; 0x7ffff0; 0x300;
   0x380; 0xffffc0; 0xffffe0; 0xe003f0; 0xe003fc; 0xe0039e; 0xe0038c; 0xe00380;
   0xffff80; 0xffff80; 0xe00380; 0x0; 0x0; 0x0; 0x0; 0x202000;
   0x0; 0x0; 0x0; 0x7000; 0x6000; 0xe000; 0x3fffffc; 0x3fffffc;
   0x380380; 0x1e0700; 0xf0e00; 0x7dc00; 0x1f800; 0x1fc00; 0xfff00; 0x1ff0ff0;
   0x3f801fe; 0x3c0007c; 0x7fffe0; 0x7fffe0; 0x6000e0; 0x7000e0; 0x6000e0; 0x7000e0;
   0x6000e0; 0x7fffe0; 0x7fffe0; 0x7000e0; 0x0; 0x0; 0x0; 0x0;
   0x202000; 0x0; 0x0; 0x0; 0x0; 0xaaaaa8; 0x1fffff8; 0x1fffff8;
   0x7000; 0x3800; 0x3800; 0x1800; 0x3fffffc; 0x3fffffc; 0x70700; 0xe0700;
   0x1c0380; 0x3801c0; 0xfffff0; 0x3fffff8; 0x3f001fe; 0x23000cc; 0x3001c0; 0x3000c0;
   0x3001c0; 0x3aaac0; 0x3fffc0; 0x3fffc0; 0x3001c0; 0x0; 0x0; 0x0;
   0x0; 0x202000; 0x0; 0x0; 0x0; 0x60000; 0x60000; 0xf0154;
   0xf83f8; 0x1dc3fc; 0x39c388; 0x70e39c; 0xe37388; 0x3c73f9c; 0x38e1f88; 0x10c0f9c;
   0xc0388; 0x39c; 0x1fffb88; 0x1fffb9c; 0xe00388; 0x6003fc; 0x7003f8; 0x30001c;
   0x380008; 0x1c0014; 0x1c0000; 0xc0000; 0xe0000; 0x40000; 0x0; 0x0;
   0x0; 0x0; 0x202000; 0x0; 0x0; 0x0; 0x70000; 0x260000;
   0x770000; 0xe607f8; 0x1c707fc; 0x3860618; 0x107071c; 0x60618; 0x7ffff1c; 0x3fffe18;
   0x7ffff1c; 0xe0618; 0xf071c; 0xf0618; 0xf071c; 0xf0618; 0x1f87fc; 0x1987f8;
   0x39c01c; 0x30e018; 0x70701c; 0xe03800; 0x3c03e00; 0x3800f00; 0x3000600; 0x0;
   0x0; 0x0; 0x0; 0x202000; 0x0; 0x0; 0x0; 0x1c1800;
   0xc3800; 0x1c39fc; 0xc3bf8; 0x1c3bfc; 0xc3b08; 0x11c3b1c; 0x38c3b08; 0x1dd7b1c;
   0xeffb08; 0x7ffb1c; 0x3c3b08; 0x1c3b1c; 0xc3b08; 0x1c3b1c; 0xc3b08; 0x1c3bfc;
   0xc3bf8; 0x11c395c; 0x30c3808; 0x71df81c; 0x30ff800; 0x3fc7c00; 0x3f81800; 0x800;
   0x0; 0x0; 0x0; 0x0; 0x202000; 0x0; 0x0; 0x0;
   0x10000; 0x38000; 0x70000; 0xe0000; 0x1c01fc; 0x3801f8; 0x30019c; 0x318188;
   0x1819c; 0x18188; 0x1c1999c; 0x1819988; 0x181999c; 0x3819988; 0x301999c; 0x3019988;
   0x7019dfc; 0x60199f8; 0x1c19dfc; 0xc18c08; 0x1c1801c; 0xc18000; 0xff8000; 0xff8000;
   0x7f0000; 0x0; 0x0; 0x0; 0x0; 0x202000; 0x0; 0x0;
   0x0; 0x0; 0x2aaaaa8; 0x3fffffc; 0x3fffffc; 0x1e000; 0xf000; 0x67c00;
   0xf7e00; 0x7c6f80; 0xf863e0; 0x3e061fc; 0x380603c; 0x100601c; 0x6000; 0x7fffe0;
   0x7fffe0; 0x7fffe0; 0x6000e0; 0x7000e0; 0x6000e0; 0x7000e0; 0x6aaae0; 0x7fffe0].
Definition hanzi_data_54 : list N :=
  [0x7fffe0; 0x7000e0; 0x0; 0x0; 0x0; 0x0; 0x202000; 0x0;
   0x0; 0x0; 0x0; 0x0; 0x3fff154; 0x3fff3f8; 0x38c73fc; 0x38c3318;
   0x38c731c; 0x38c3318; 0x38c731c; 0x38c3318; 0x38c731c; 0x38c3318; 0x3fff31c; 0x3fff318;
   0x3fff31c; 0x3803318; 0x73fc; 0x33f8; 0x100701c; 0x7003018; 0x7007014; 0x3003000;
   0x3fff000; 0x3ffe000; 0x7f4000; 0x0; 0x0; 0x0; 0x0; 0x202000;
   0x0; 0x0; 0x0; 0x60000; 0x60000; 0x60154; 0x601f8; 0x3fffdfc;
   0x3fffd88; 0x6019c; 0x60188; 0x1c6199c; 0x1861988; 0x1c6199c; 0x1861988; 0x1c6199c;
   0x1861988; 0x1c6199c; 0x1aeb988; 0x1fff9fc; 0x1fff9f8; 0x1c6001c; 0x60008; 0x7060014;
   0x3060000; 0x3560000; 0x3fe0000; 0x1fc0000; 0x0; 0x0; 0x0; 0x0;
   0x202000; 0x0; 0x0; 0x0; 0x300000; 0x318000; 0x318154; 0x3183f8;
   0x71c3fc; 0x60c308; 0xe0e31c; 0xc06308; 0x1c0731c; 0x3803b08; 0x7555f1c; 0x2fffb08;
   0xfff31c; 0xc38308; 0xc1831c; 0xc18308; 0xc1c3fc; 0xc1c3f8; 0xc1c01c; 0xe0e008;
   0xe07014; 0xe07000; 0x743c00; 0x7e1e00; 0x3c0c00; 0x0; 0x0; 0x0;
   0x0; 0x202000; 0x0; 0x0; 0x0; 0x4000; 0xe000; 0xf000;
   0x1f800; 0x79e00; 0xf0f00; 0x3e37c0; 0xf8f1e0; 0x7f1e0fc; 0x380803c; 0x11fffe4;
   0x3fffe0; 0x1d5540; 0xe0000; 0x70000; 0x2baaa0; 0x7fffe0; 0x7fffe0; 0x7000e0;
   0x7000e0; 0x7000e0; 0x7000e0; 0x7fffe0; 0x7fffe0; 0x7000e0; 0x0; 0x0;
   0x0; 0x0; 0x202000; 0x0; 0x0; 0x0; 0xc00000; 0xf80000;
   0xffc3fc; 0xfe3f8; 0x1e3fc; 0xe318; 0xe31c; 0xe318; 0x155e31c; 0x3ffe318;
   0x3ffe31c; 0x70e318; 0x70631c; 0x706318; 0x70631c; 0x706318; 0x7073fc; 0x7063f8;
   0x70715c; 0x703018; 0x70301c; 0x703800; 0x701c00; 0x701c00; 0x700800; 0x0;
   0x0; 0x0; 0x0; 0x202000; 0x0; 0x0; 0x0; 0x30000;
   0x30000; 0x703fc; 0xe03f8; 0x603fc; 0x3fffb08; 0x7ffff1c; 0x308; 0x31c;
   0x2aa308; 0x7fe31c; 0x3ae308; 0x70e31c; 0x30e308; 0x70e31c; 0x30e308; 0x7063fc;
   0x3063f8; 0x170715c; 0x2307008; 0x770701c; 0x2303800; 0x7701c00; 0x3f00e00; 0x1e00400;
   0x0; 0x0; 0x0; 0x0; 0x202000; 0x0; 0x0; 0x0;
   0x70000; 0x38000; 0x383fc; 0x183fc; 0x31c3fc; 0x30e30c; 0x70e31c; 0xe0730c;
   0x1c0731c; 0x1ffbb0c; 0x3ffff1c; 0x398fb0c; 0x119c31c; 0x18c30c; 0x18c31c; 0x18c30c;
   0x18c3fc; 0x18e3fc; 0x118615c; 0x318700c; 0x718701c; 0x3183800; 0x3f81e00; 0x3f80f00;
   0x1f00700; 0x0; 0x0; 0x0; 0x0; 0x202000; 0x0; 0x0;
   0x0; 0x7000; 0x6000; 0xe000; 0xe000; 0xfffff0; 0xffffe0; 0xc00070;
   0xc00060; 0xc00070; 0xeaaae0; 0xfffff0; 0xffffe0; 0x70; 0x60; 0x1ffff70;
   0xffff70; 0x1d55770; 0xc00330; 0x1c00330; 0xc00338; 0x1c00338; 0xffff18; 0x1ffff1c;
   0xc0030e; 0x1c0030c; 0x0; 0x0; 0x0; 0x0; 0x202000; 0x0;
   0x0; 0x0; 0x60000; 0x60000; 0x603fc; 0x603f8; 0x3fffffc; 0x3fffb18;
   0x3ffff1c; 0x60318; 0x6031c; 0x60318; 0x1fffb1c; 0xfffb18; 0xc0731c; 0xe06318;
   0x60631c; 0x70e318; 0x39c3fc; 0x1b83f8; 0x1f015c; 0xf0018; 0x1fc01c; 0x79e000;
   0x1f0fc00; 0x3e03e00; 0x3000600; 0x0; 0x0; 0x0; 0x0; 0x202000;
   0x0; 0x0; 0x0; 0x1000000; 0x187f800; 0x187f954; 0x18603f8; 0x18603fc;
   0x1860388; 0x186039c; 0x187f388; 0x187f39c; 0x1803388; 0x180339c; 0x1803388; 0x180339c;
   0x18ffb88; 0x187fb9c; 0x18e0388; 0x18603fc; 0x18603f8; 0x186001c; 0x1860008; 0x1860014;
   0x1860000; 0x1875000; 0x183e000; 0x181e000; 0x0; 0x0; 0x0; 0x0;
   0x202000; 0x0; 0x0; 0x0; 0x0; 0x7fffe0; 0x7fffe0; 0x600060;
   0x700060; 0x600060; 0x700060; 0x7fffe0; 0x7fffe0; 0x0; 0x0; 0xfffff0;
   0x1fffff0; 0x6000; 0x7000; 0x7000; 0x3fffffc; 0x3fffffc; 0x1f800; 0x1b800;
   0x79c00; 0xf0f00; 0x7e07f0; 0x3f800fc; 0x1c0001c; 0x0; 0x0; 0x0;
   0x0; 0x202000; 0x0; 0x0; 0x0; 0x60000; 0x60000; 0x60154;
   0x603fc; 0x4603fc; 0xe6638c; 0xc6739c; 0x1c6338c; 0x1c6339c; 0x386338c; 0x3863b9c;
   0x3061b8c; 0x1061f9c; 0xc61b8c; 0x1c6039c; 0xe6038c; 0x7603fc; 0x7003fc; 0x38001c;
   0x1c000c; 0xf0014; 0x7c000; 0x1fc00; 0x7c00; 0x1c00; 0x0; 0x0;
   0x0; 0x0; 0x202000; 0x0; 0x0; 0x0; 0x0; 0x0;
   0x7ffd54; 0x3ffff8; 0x3063fc; 0x306388; 0x38639c; 0x186388; 0x18639c; 0x1f86388;
   0x1fc639c; 0x180e388; 0x1c0f39c; 0xc1f388; 0xc1f39c; 0xe3b388; 0x7733fc; 0x363bf8;
   0x3e181c; 0x1c1c08; 0x7e1c14; 0xff0e00; 0x1e7c700; 0x3c1e380; 0x1004300; 0x0;
   0x0; 0x0; 0x0; 0x202000; 0x0; 0x0; 0x0; 0x1c000;
   0xc000; 0x1c3fc; 0xc3fc; 0xe3fc; 0x3ffe30c; 0x3fff31c; 0x380730c; 0x184731c;
   0x1863b0c; 0x1c61f1c; 0xc61f0c; 0x60b1c; 0xe030c; 0xf031c; 0xf030c; 0x1f03fc;
   0x1b83fc; 0x1b815c; 0x39c00c; 0x71e01c; 0xe0f000; 0x3c07c00; 0x3801e00; 0x1000c00;
   0x0; 0x0; 0x0; 0x0; 0x202000; 0x0; 0x0; 0x0;
   0x6000; 0x6000; 0x6154; 0x61f8; 0x3fff1fc; 0x3fff198; 0x3fff99c; 0x3b33998;
   0x3b39d9c; 0x3b98d98; 0x399cf9c; 0x398c798; 0x19cc59c; 0x18ce198; 0x18c719c; 0x18e3198;
   0x18639fc; 0x1861df8; 0x1870c1c; 0x1838018; 0x1c1c014; 0xc0e000; 0xc0f000; 0xfc6000;
   0x7c0000; 0x0; 0x0; 0x0; 0x0; 0x202000; 0x0; 0x0;
   0x0; 0x100000; 0x1a0000; 0x1ffdfc; 0x1bfdf8; 0x1b819c; 0x198188; 0x19c19c].
Definition hanzi_data_55 : list N :=
  [0x18e188; 0x18719c; 0x186188; 0x18719c; 0x1be188; 0x1ff19c; 0x18ff88; 0x187f9c;
   0x186188; 0x18719c; 0x1861f8; 0x71871fc; 0x2186008; 0x718701c; 0x3186008; 0x3f87400;
   0x3f87e00; 0x1f03c00; 0x0; 0x0; 0x0; 0x0; 0x202000; 0x0;
   0x0; 0x0; 0xc0000; 0xc2000; 0xc6000; 0xc63f8; 0xc77fc; 0x2aee308;
   0x3fff71c; 0x3fff308; 0xc3f1c; 0xc3b08; 0xc1f1c; 0xc0b08; 0xc071c; 0x2aeab08;
   0x7ffff1c; 0x3fffb08; 0xc07fc; 0xc03f8; 0xc001c; 0xc0008; 0xc0000; 0xc0000;
   0xc0000; 0xc0000; 0xc0000; 0x0; 0x0; 0x0; 0x0; 0x202000;
   0x0; 0x0; 0x0; 0x0; 0xfffff0; 0x1fffff0; 0x1800; 0x1c00;
   0xc00; 0x1fffe0; 0x1fffe0; 0x180e00; 0x180e00; 0x180600; 0x3fffffc; 0x3fffffc;
   0x0; 0x0; 0x0; 0x7fffe0; 0x7fffe0; 0x7000e0; 0x6000e0; 0x7000e0;
   0x6000e0; 0x7fffe0; 0x7fffe0; 0x7000e0; 0x0; 0x0; 0x0; 0x0;
   0x202000; 0x0; 0x0; 0x0; 0x0; 0x3fff800; 0x3fffbfc; 0x2eaabf8;
   0x7073fc; 0x607308; 0x70731c; 0x603308; 0x70331c; 0x603308; 0x7fff31c; 0x3fffb08;
   0x7fffb1c; 0x7c0308; 0x7e031c; 0x6f0308; 0x7783fc; 0x63c3f8; 0x71e15c; 0x60f808;
   0x707c1c; 0x601e00; 0x750400; 0x7f0000; 0x3f0000; 0x0; 0x0; 0x0;
   0x0; 0x202000; 0x0; 0x0; 0x0; 0x0; 0x3fff800; 0x3fff954;
   0x3bf8; 0x3bfc; 0x3b08; 0x1ffbb1c; 0x1ffbb08; 0x183bb1c; 0x183bb08; 0x183bb1c;
   0x183bb08; 0x183bb1c; 0x183bb08; 0x1839b1c; 0x1f39b08; 0xf39bfc; 0x39bf8; 0x1039c1c;
   0x3039c08; 0x7039c14; 0x3038e00; 0x3ff8e00; 0x3ff0700; 0x17c0600; 0x0; 0x0;
   0x0; 0x0; 0x202000; 0x0; 0x0; 0x0; 0x0; 0x7fffe0;
   0x7fffe0; 0x6000e0; 0x7000e0; 0x6000e0; 0x7000e0; 0x6000e0; 0x7fffe0; 0x7fffe0;
   0x6000; 0x6000; 0x6000; 0x3fffffc; 0x3fffffc; 0x2abfaa8; 0x3fc00; 0x76e00;
   0xf6700; 0x3c6380; 0x7861f0; 0x3e060f8; 0x3c0603c; 0x1006008; 0x6000; 0x0;
   0x0; 0x0; 0x0; 0x202000; 0x0; 0x0; 0x0; 0x6000;
   0x6000; 0xc06000; 0x1e0e000; 0x71effc; 0x3deff8; 0x1fe700; 0x76300; 0xe6380;
   0x1c61c0; 0x7860f0; 0x3f06078; 0x3c07c3c; 0x3c08; 0x7fffe0; 0x7fffe0; 0x7fffe0;
   0x7000e0; 0x7000e0; 0x7000e0; 0x7000e0; 0x7000e0; 0x7fffe0; 0x7fffe0; 0x7000e0;
   0x0; 0x0; 0x0; 0x0; 0x202000; 0x0; 0x0; 0x0;
   0x0; 0x7fffe0; 0x7fffe0; 0x7000e0; 0x7000e0; 0x7000e0; 0x7000e0; 0x7000e0;
   0x7fffe0; 0x7fffe0; 0x0; 0x0; 0x1fffff8; 0xfffff8; 0x1557550; 0x6000;
   0x7000; 0xffffe0; 0xfffff0; 0x6000; 0x7000; 0x6000; 0x3fffffc; 0x3fffffc;
   0x0; 0x0; 0x0; 0x0; 0x0; 0x202000; 0x0; 0x0;
   0x0; 0xe180; 0xe180; 0xe1c0; 0xe0c0; 0xffffe0; 0xffffe0; 0xe070;
   0xe038; 0xe01c; 0xe000; 0x3fffffc; 0x3fffffc; 0x0; 0x0; 0x7fffc0;
   0x7fffe0; 0x7fffe0; 0x6000e0; 0x7000e0; 0x6000e0; 0x7000e0; 0x6aaae0; 0x7fffe0;
   0x7fffe0; 0x7000e0; 0x0; 0x0; 0x0; 0x0; 0x202000; 0x0;
   0x0; 0x0; 0x70000; 0x70000; 0x70000; 0x70000; 0x703fc; 0xafabf8;
   0x1fffb9c; 0x1fffb88; 0x7039c; 0x70388; 0x7039c; 0x30388; 0x3ffff9c; 0x3ffff88;
   0x7039c; 0xf0388; 0xf83fc; 0x1d83f8; 0x1dc01c; 0x38e008; 0x70701c; 0xe03800;
   0x3c03e00; 0x3800f00; 0x3000600; 0x0; 0x0; 0x0; 0x0; 0x202000;
   0x0; 0x0; 0x0; 0xe0000; 0xe0000; 0xe01fc; 0xe03f8; 0xe03fc;
   0xe0398; 0x3fffb9c; 0x3fffb98; 0x38e3b9c; 0x38e3b98; 0x3863b9c; 0x38e3b98; 0x39f3b9c;
   0x39b3b98; 0x3bb3b9c; 0x3b3bb98; 0x3f1fbfc; 0x3e1fbf8; 0x3c0f95c; 0x3803818; 0x380381c;
   0x3803800; 0x3d03800; 0x1f03800; 0x1f03800; 0x0; 0x0; 0x0; 0x0;
   0x202000; 0x0; 0x0; 0x0; 0x0; 0x0; 0x1fff800; 0x1fffbf8;
   0x303f8; 0x30318; 0x30318; 0x30318; 0x30318; 0x2abab18; 0x7ffff18; 0x3ffff18;
   0xd8318; 0xd8318; 0xdc318; 0xdc318; 0xdc3f8; 0xce3f8; 0xce018; 0xc7018;
   0x70c7800; 0x20c3c00; 0x7fc1e00; 0x3fc0f00; 0x1500600; 0x0; 0x0; 0x0;
   0x0; 0x202000; 0x0; 0x0; 0x0; 0x504000; 0x60c000; 0x71c3fc;
   0x2eaebf8; 0x3fffbfc; 0x3fffb18; 0x71c31c; 0x60c318; 0x71c31c; 0x318; 0x1fff31c;
   0xfff318; 0x78031c; 0x1c0318; 0xe031c; 0x70318; 0x383fc; 0x1c3f8; 0x100e3fc;
   0x3006018; 0x300701c; 0x3003000; 0x3fff000; 0x1ffe000; 0x7f4000; 0x0; 0x0;
   0x0; 0x0; 0x202000; 0x0; 0x0; 0x0; 0x60000; 0x60000;
   0x603fc; 0x603f8; 0x603fc; 0x60318; 0x6031c; 0x3fffb18; 0x7ffff1c; 0x2aeab18;
   0xf031c; 0xf0318; 0xf031c; 0xf0318; 0x1f831c; 0x1b8318; 0x39c3fc; 0x31c3f8;
   0x70e15c; 0x60e018; 0xe3f01c; 0x1c7b800; 0x3cf1c00; 0x38e0f00; 0x3040600; 0x0;
   0x0; 0x0; 0x0; 0x202000; 0x0; 0x0; 0x0; 0x0;
   0x2aaa800; 0x3fff954; 0x3fffbfc; 0x3bfc; 0xc03b8c; 0x1c1fb9c; 0xe3bb8c; 0xe73b9c;
   0x663b8c; 0x7e3b9c; 0x3c3b8c; 0x3c3b9c; 0x383b8c; 0x7c3b9c; 0x6e3b8c; 0xe73bfc;
   0xc33bfc; 0x1c3f81c; 0x81f80c; 0xb814; 0x3800; 0x7fff800; 0x3fff800; 0x0;
   0x0; 0x0; 0x0; 0x0; 0x202000; 0x0; 0x0; 0x0;
   0x0; 0x3fff800; 0x3fff954; 0x2aab9fc; 0xc19fc; 0xc198c; 0xc199c; 0xe198c;
   0x1ffd99c; 0x3ff998c; 0x1ffd99c; 0x18e198c; 0x186199c; 0x186198c; 0x186199c; 0x186198c;
   0x18719fc; 0x18719fc; 0x1c71c1c; 0x1830c0c; 0x1c38c14; 0xc18e00; 0xfdce00; 0xf8e600].
Definition hanzi_data_56 : list N :=
  [0x784400; 0x0; 0x0; 0x0; 0x0; 0x202000; 0x0; 0x0;
   0x0; 0x0; 0x1fff000; 0x1fff154; 0x1aab3f8; 0x1c033fc; 0x18e3308; 0x1c6331c;
   0x18e3308; 0x1c6331c; 0x18e3308; 0x1c6331c; 0x1863308; 0x1c6331c; 0x1863308; 0x1c6331c;
   0x1863308; 0x1c733fc; 0x18333f8; 0x1cb301c; 0x3b8008; 0x79c014; 0xe0e000; 0x1c0fc00;
   0x3803e00; 0x1000c00; 0x0; 0x0; 0x0; 0x0; 0x202000; 0x0;
   0x0; 0x0; 0x0; 0x3fffe0; 0x7fffe0; 0x3000e0; 0x7000e0; 0x3000e0;
   0x7fffe0; 0x3fffe0; 0x0; 0x0; 0xfffff0; 0xffffe0; 0xf55570; 0xe00060;
   0xe07070; 0xe06060; 0xe07070; 0xe06060; 0xe07070; 0xe0b860; 0x7bc50; 0x3f8f00;
   0x1fc07f0; 0x3e001fc; 0x1800078; 0x0; 0x0; 0x0; 0x0; 0x202000;
   0x0; 0x0; 0x0; 0x0; 0x7fffe0; 0x7fffe0; 0x600060; 0x700060;
   0x600060; 0x700060; 0x7fffe0; 0x7fffe0; 0x6000; 0x6000; 0xaaeaa8; 0x1fffff8;
   0x1aafab8; 0x1c07038; 0x180f838; 0x1c1fc38; 0x1879e38; 0x1df0f38; 0x19c07f8; 0x1d801b8;
   0x1800038; 0x1d40038; 0x1f80038; 0xf80038; 0x0; 0x0; 0x0; 0x0;
   0x202000; 0x0; 0x0; 0x0; 0x60000; 0x70000; 0x70000; 0xf83f8;
   0x1dc3fc; 0x38e308; 0x70731c; 0xe03b08; 0x3c03f1c; 0x3aaaf08; 0x17ff71c; 0x3ff308;
   0x70731c; 0x303308; 0x70731c; 0x303308; 0x3f73fc; 0x3f33f8; 0x9473fc; 0x1803008;
   0x180701c; 0x1803000; 0x1fff000; 0xffe000; 0x554000; 0x0; 0x0; 0x0;
   0x0; 0x202000; 0x0; 0x0; 0x0; 0x60000; 0x60000; 0x574000;
   0xffe3f8; 0xfff3f8; 0xc06318; 0xc07318; 0xc06318; 0xe07318; 0xfc6318; 0x7c7318;
   0x6318; 0x7318; 0x3ffe318; 0x3fff318; 0x3800318; 0x38003f8; 0x3aaabf8; 0x1fffc18;
   0x1aaa818; 0x1800000; 0x1800000; 0x1d00000; 0x1f80000; 0xf80000; 0x0; 0x0;
   0x0; 0x0; 0x202000; 0x0; 0x0; 0x0; 0x0; 0x1fff800;
   0x1fff9fc; 0x1aabbfc; 0x1803bfc; 0x1803b8c; 0x1803b9c; 0x1fffb8c; 0x1fffb9c; 0x3b8c;
   0x3bb9c; 0x3bb8c; 0x1c3bb9c; 0x1e3bb8c; 0xfb9b9c; 0x3f9b8c; 0xf9bfc; 0x39bfc;
   0x39d5c; 0x3038c0c; 0x3038c1c; 0x3038e00; 0x3ff0600; 0x3ff0700; 0x1fe0200; 0x0;
   0x0; 0x0; 0x0; 0x202000; 0x0; 0x0; 0x0; 0x0;
   0x0; 0x1fff154; 0x1fff1f8; 0x1c371fc; 0x1833188; 0x1c6319c; 0x1cc3188; 0x1dc319c;
   0xc03188; 0x7fffd9c; 0x3fffd88; 0x1c1319c; 0xc3b188; 0x1c7319c; 0xce3988; 0x1dc19fc;
   0xc019f8; 0x3fff81c; 0x3fff808; 0xc00014; 0xe00000; 0xf60000; 0x7e0000; 0x3c0000;
   0x0; 0x0; 0x0; 0x0; 0x202000; 0x0; 0x0; 0x0;
   0x60000; 0x60000; 0xf0154; 0xf83f8; 0x1dc3fc; 0x39c318; 0x70e31c; 0xe07318;
   0x1c37b1c; 0x7871f18; 0x30e0f1c; 0x40318; 0x55531c; 0xfff318; 0xfff31c; 0x600318;
   0x7003fc; 0x3803f8; 0x1ce01c; 0xfe018; 0x7c014; 0xf0000; 0x1e0000; 0x380000;
   0x100000; 0x0; 0x0; 0x0; 0x0; 0x202000; 0x0; 0x0;
   0x0; 0x180000; 0x186000; 0x1871fc; 0x1831f8; 0x1831dc; 0x183988; 0x3fe199c;
   0x3fe9988; 0x3199d9c; 0x319cd88; 0x318ff9c; 0x398ff88; 0x318619c; 0x3986188; 0x39c319c;
   0x388f988; 0x19dd99c; 0x38d8df8; 0x18dfffc; 0x18fff08; 0x1871f1c; 0x1860000; 0x1f30000;
   0xf38000; 0x510000; 0x0; 0x0; 0x0; 0x0; 0x202000; 0x0;
   0x0; 0x0; 0x0; 0xffffe0; 0x1fffff0; 0xeaaae0; 0x1c06070; 0xc06060;
   0x1cfff70; 0xcfff60; 0x1c06070; 0xc06060; 0x1dffff0; 0xdfffe0; 0x1c00070; 0xc00030;
   0x1cffe70; 0xcffe30; 0x1ce0630; 0xce0630; 0x1ce0630; 0xce0638; 0x1cffe18; 0xcaae18;
   0x1c0061c; 0xfc000e; 0x7c000c; 0x0; 0x0; 0x0; 0x0; 0x202000;
   0x0; 0x0; 0x0; 0x1c00000; 0x3fe0000; 0x7ff954; 0x63f9f8; 0x6319fc;
   0x631988; 0x63199c; 0x631988; 0x63199c; 0x631988; 0x63199c; 0xe31988; 0xc3199c;
   0xc31988; 0xc31d9c; 0xc31988; 0x1cf9dfc; 0x1898df8; 0x1d98c1c; 0x1998c08; 0x3bdce14;
   0x3bfc600; 0x737e700; 0x320c300; 0x200; 0x0; 0x0; 0x0; 0x0;
   0x202000; 0x0; 0x0; 0x0; 0x10e000; 0x18e000; 0x18e1fc; 0x18e1f8;
   0x18e19c; 0x18e188; 0x118ed9c; 0x398ed88; 0x1d9ed9c; 0xfbed88; 0x7bed9c; 0x38ed88;
   0x18ed9c; 0x18ed88; 0x18ed9c; 0x18ed88; 0x18edfc; 0x18edf8; 0x318ec1c; 0x318ec08;
   0x31bec1c; 0x31bfc00; 0x3f8ff00; 0x1f80e00; 0x0; 0x0; 0x0; 0x0;
   0x0; 0x202000; 0x0; 0x0; 0x0; 0x60000; 0x60000; 0x603fc;
   0x603fc; 0x1fff3fc; 0x1fffb0c; 0x1fffb1c; 0x6030c; 0x6031c; 0x6030c; 0x6031c;
   0x3fffb0c; 0x3ffff1c; 0xf030c; 0x1f831c; 0x1f830c; 0x37c3fc; 0x76e3fc; 0x76715c;
   0xe6380c; 0x1c63c1c; 0x3861e00; 0x3060e00; 0x60000; 0x60000; 0x0; 0x0;
   0x0; 0x0; 0x202000; 0x0; 0x0; 0x0; 0x0; 0x0;
   0x7fffffc; 0x3fffbf8; 0x1c003fc; 0xc00308; 0x1c0031c; 0xcff308; 0x1cff31c; 0xcc3308;
   0x1cc331c; 0xcc3308; 0x1cc331c; 0xcc3308; 0x1cc331c; 0xceb308; 0x1cff3fc; 0xcab3f8;
   0x1c0315c; 0xc00008; 0x1c0001c; 0xc00000; 0x1d40000; 0xfe0000; 0x7c0000; 0x0;
   0x0; 0x0; 0x0; 0x202000; 0x0; 0x0; 0x0; 0x3000;
   0x3000; 0x3fe3000; 0x3fe30fc; 0x30c31fc; 0x38cba8c; 0x38dffdc; 0x38dfe8c; 0x18d99dc;
   0x18d988c; 0x19d9ddc; 0x1998c8c; 0x1d9cddc; 0xd8cc8c; 0xd8cfdc; 0xf0fcfc; 0x7079fc;
   0x70f0ac; 0x71f01c; 0xf9b80c; 0xdd9c00; 0x1ce0e00; 0x3870f00; 0x3838300; 0x1010000;
   0x0; 0x0; 0x0; 0x0; 0x202000; 0x0; 0x0; 0x0;
   0x0; 0xaaa800; 0x1fff9fc; 0x1fff9f8; 0x18619fc; 0x1861998; 0x186199c; 0x1861998].
Definition hanzi_data_57 : list N :=
  [0x1fff99c; 0x1fff998; 0x186199c; 0x1861998; 0x186199c; 0x1861998; 0x1d7599c; 0x1fff998;
   0x1fff9fc; 0x18619f8; 0x6015c; 0x60018; 0x6001c; 0x60000; 0x60000; 0x60000;
   0x60000; 0x0; 0x0; 0x0; 0x0; 0x202000; 0x0; 0x0;
   0x0; 0x0; 0x0; 0x3fff954; 0x3fffbfc; 0x1c03fc; 0xe038c; 0x6039c;
   0x7038c; 0x17039c; 0x3f838c; 0x77c39c; 0xe6e38c; 0x1c6739c; 0x3863b8c; 0x7061f9c;
   0x3060f8c; 0x603fc; 0x603fc; 0x6001c; 0x6000c; 0x60014; 0x0; 0x7fffc00;
   0x3fffc00; 0x0; 0x0; 0x0; 0x0; 0x0; 0x202000; 0x0;
   0x0; 0x0; 0xe0000; 0xe0000; 0xe0154; 0xe03f8; 0x3fffbf8; 0x3fffb98;
   0x38e1b9c; 0x38e1b98; 0x38e1b9c; 0x3aebb98; 0x3fffb9c; 0x3aebb98; 0x38e1b9c; 0x38e1b98;
   0x38e1b9c; 0x3fffb98; 0x3fffbfc; 0x3aebbf8; 0x38e181c; 0xe0018; 0xe0014; 0xe0000;
   0xe0000; 0xe0000; 0xe0000; 0x0; 0x0; 0x0; 0x0; 0x202000;
   0x0; 0x0; 0x0; 0x0; 0x1f80000; 0x1fffc00; 0xff9f8; 0x611fc;
   0x1861188; 0x1c6399c; 0xc63188; 0xc6719c; 0xe66188; 0x66619c; 0x666188; 0x46019c;
   0x3fffd88; 0x7fffd9c; 0x601f8; 0x601fc; 0x600a8; 0x6001c; 0x60008; 0x60000;
   0x60000; 0x74000; 0x7e000; 0x3e000; 0x0; 0x0; 0x0; 0x0;
   0x202000; 0x0; 0x0; 0x0; 0x6000; 0xe000; 0x1f000; 0x3f800;
   0x79e00; 0xe0f80; 0x7c07c0; 0x1fffff8; 0x7e7ff7c; 0x380001c; 0x0; 0xff8ff0;
   0xff9ff0; 0xc18c30; 0xc19c30; 0xc18c30; 0xc19c30; 0xc18c30; 0xc19d70; 0xfd8ff0;
   0xfd9ff0; 0x18030; 0x18030; 0x18000; 0x18000; 0x0; 0x0; 0x0;
   0x0; 0x202000; 0x0; 0x0; 0x0; 0x0; 0xaaa000; 0xfff3fc;
   0xfff3f8; 0xc073fc; 0xc03308; 0xc0731c; 0xc03308; 0xfff31c; 0xfff308; 0xc0731c;
   0xc03308; 0xc0731c; 0xc03308; 0xc0731c; 0xfff308; 0xfff3fc; 0xc033f8; 0xc0715c;
   0xc03008; 0xc0701c; 0xc03000; 0x7fffe00; 0x3fffe00; 0x0; 0x0; 0x0;
   0x0; 0x0; 0x202000; 0x0; 0x0; 0x0; 0x0; 0x2aaa800;
   0x3fffdfc; 0x3fff9f8; 0x1c1dfc; 0x80988; 0x1c1d9c; 0xaa8988; 0x1ffdd9c; 0x1aac988;
   0x19cdd9c; 0x188c988; 0x19cdd9c; 0x188c988; 0x19cdd9c; 0x188c988; 0x1fcddfc; 0xe8c9f8;
   0x1c1d5c; 0x80808; 0x1c1c1c; 0x800; 0x3fffc00; 0x3fff800; 0x0; 0x0;
   0x0; 0x0; 0x0; 0x202000; 0x0; 0x0; 0x0; 0xe0000;
   0xe0000; 0x10e1000; 0x18e31fc; 0x18e31fc; 0x18e318c; 0x18e319c; 0x18e318c; 0x18e319c;
   0x1aeb18c; 0x1fff19c; 0xaea18c; 0xe019c; 0x38e198c; 0x38e199c; 0x38e198c; 0x38e19dc;
   0x38e19fc; 0x38e19fc; 0x38e180c; 0x38e181c; 0x3fff800; 0x3fff800; 0x3800000; 0x3800000;
   0x0; 0x0; 0x0; 0x0; 0x202000; 0x0; 0x0; 0x0;
   0x1c000; 0xc000; 0xc154; 0x1ffe3f8; 0x1ffe3fc; 0x1807388; 0x1c0339c; 0x1803b88;
   0x1dfff9c; 0x18fff88; 0x1dc779c; 0x18c3388; 0x1dc739c; 0x18c3388; 0x1dff39c; 0x1cff388;
   0x1fd73fc; 0xf833f8; 0x50701c; 0x2003008; 0x7007014; 0x3003000; 0x3fff000; 0x3ffe000;
   0x0; 0x0; 0x0; 0x0; 0x0; 0x202000; 0x0; 0x0;
   0x0; 0x18000; 0x3c000; 0x1c78000; 0xce00a8; 0xdc01fc; 0xe801f8; 0xe1819c;
   0x618188; 0x71819c; 0xb18188; 0x1f9b19c; 0x1b9b188; 0x19d999c; 0x38d9988; 0x30f999c;
   0x3079988; 0x7079dfc; 0x3038df8; 0x1c81c; 0x181e008; 0x181f014; 0x181b800; 0x1ff9c00;
   0xff8e00; 0x7f0400; 0x0; 0x0; 0x0; 0x0; 0x202000; 0x0;
   0x0; 0x0; 0x60000; 0x60000; 0x60000; 0x603f8; 0x1fff3fc; 0x1fff388;
   0x1c6339c; 0x1863388; 0x1c6339c; 0x1863388; 0x1c6339c; 0x1863388; 0x1c6339c; 0x3ffff88;
   0x7ffff9c; 0xe0388; 0x1f03fc; 0x1f03f8; 0x1b801c; 0x398008; 0x71e000; 0xe0f000;
   0x1c07c00; 0x3801e00; 0x3000400; 0x0; 0x0; 0x0; 0x0; 0x202000;
   0x0; 0x0; 0x0; 0x1c000; 0x1c000; 0x1c550; 0xe3f8; 0x7ffe7fc;
   0x3ffe318; 0x7fff71c; 0x63b18; 0x73f1c; 0x61f18; 0x3ff0f1c; 0x3fe0318; 0x7071c;
   0x60318; 0x7071c; 0x60318; 0x3ff07fc; 0x3fe03f8; 0x7001c; 0x60018; 0x70010;
   0x60000; 0x70000; 0x60000; 0x70000; 0x0; 0x0; 0x0; 0x0;
   0x202000; 0x0; 0x0; 0x0; 0x1000; 0x3e00; 0x1551ffc; 0x1ff81fc;
   0x1ffc184; 0x1818180; 0x1c1c180; 0x1818180; 0x1c1fffc; 0x181bffc; 0x1c1c1c0; 0x18183c0;
   0x1c1c7e0; 0x1818fe0; 0x1c1ddf0; 0x181b9b0; 0x1c1d1b8; 0x1819198; 0x1c1c19c; 0x1ff818e;
   0x1ffc184; 0x1ab8180; 0x1c1c180; 0x818180; 0x180; 0x0; 0x0; 0x0;
   0x0; 0x202000; 0x0; 0x0; 0x0; 0x70000; 0x70000; 0x30150;
   0x383f8; 0x31c3fc; 0x70c318; 0xe0e31c; 0xc06318; 0x1c0731c; 0x3fffb18; 0x3ffff1c;
   0x7003b18; 0x100031c; 0x318; 0x1fff31c; 0xfff318; 0x1c073fc; 0xc033f8; 0x1c073fc;
   0xc03018; 0x1c0701c; 0xc03000; 0x1fff000; 0xfff000; 0x1c07000; 0x0; 0x0;
   0x0; 0x0; 0x202000; 0x0; 0x0; 0x0; 0x60180; 0x60180;
   0x615c0; 0xe7fe0; 0x3e7ff0; 0x7e3870; 0x1e61878; 0x1c61cfc; 0x1861fc8; 0x60f80;
   0x60f80; 0xffc0; 0x3fffdf0; 0x1ffa07e; 0x1c; 0x7fffe0; 0x7fffe0; 0x7000e0;
   0x7000e0; 0x7000e0; 0x7000e0; 0x7000e0; 0x7fffe0; 0x7fffe0; 0x7000e0; 0x0;
   0x0; 0x0; 0x0; 0x202000; 0x0; 0x0; 0x0; 0x4000;
   0x3e000; 0x1fc000; 0x3e0000; 0x1c01fc; 0x1fc; 0x7f99c; 0x7f98c; 0x107019c;
   0x386018c; 0x1cf559c; 0xeefd8c; 0x7ffd9c; 0x3ee18c; 0x1f619c; 0x3e718c; 0x7771fc;
   0x6639fc; 0xe71c1c; 0x1c61e0c; 0x7870f1c; 0x3060780; 0x2070100; 0x7e000; 0x3e000].
Definition hanzi_data_58 : list N :=
  [0x0; 0x0; 0x0; 0x0; 0x202000; 0x0; 0x0; 0x0;
   0x1c1c000; 0xc0c000; 0x1c0c154; 0xc0e3f8; 0x1c063fc; 0xc06388; 0x7fff39c; 0x3fffb88;
   0x1c07b9c; 0xc07f88; 0x1c37f9c; 0xc36f88; 0x1c7779c; 0xc66388; 0x1ce739c; 0xcc6388;
   0x1dc73fc; 0xc063f8; 0x1c0701c; 0xc06008; 0x1c07014; 0xc06000; 0x1d47000; 0xfc6000;
   0x787000; 0x0; 0x0; 0x0; 0x0; 0x202000; 0x0; 0x0;
   0x0; 0x0; 0xaa8aa0; 0x1ff9ff8; 0xeb8eb8; 0x1c19c38; 0xc18c38; 0x1c19c38;
   0xeb8eb8; 0x1ff9ff8; 0xff8ff8; 0x0; 0x0; 0xfff80; 0xfff80; 0xd5780;
   0xc0380; 0xc0380; 0xc0380; 0x10c0180; 0x30c0180; 0x30c01c0; 0x30c00e0; 0x3fc007c;
   0x3fc003c; 0x1f8001c; 0x0; 0x0; 0x0; 0x0; 0x202000; 0x0;
   0x0; 0x0; 0x70000; 0x30000; 0x703fc; 0x303f8; 0x1ff03fc; 0xff0308;
   0x1ff031c; 0x30308; 0x7031c; 0x30308; 0x7ffff1c; 0x3ffff08; 0x557571c; 0x30308;
   0x7031c; 0xb0308; 0x3f03fc; 0xf303f8; 0x1e7015c; 0x3830008; 0x107001c; 0x30000;
   0x70000; 0x30000; 0x70000; 0x0; 0x0; 0x0; 0x0; 0x202000;
   0x0; 0x0; 0x0; 0xe0000; 0xe0000; 0xe0000; 0xe03fc; 0xe07fc;
   0xe030c; 0x7fff71c; 0x3fff30c; 0xe071c; 0xe030c; 0xe071c; 0xe030c; 0xe071c;
   0x1ffe30c; 0x1ffe71c; 0x1aae30c; 0x18067fc; 0x18063fc; 0x180601c; 0x180600c; 0x1806000;
   0x1ffe000; 0x1ffe000; 0x1aae000; 0x1806000; 0x0; 0x0; 0x0; 0x0;
   0x202000; 0x0; 0x0; 0x0; 0x3000; 0x3000; 0x31fc; 0x3f831f8;
   0x3fc319c; 0x38abb88; 0x39fff98; 0x38bbb88; 0x39f319c; 0x38b3988; 0x39f399c; 0x38bb988;
   0x39f199c; 0x38b9988; 0x39f999c; 0x38b9988; 0x39d99fc; 0x38999f8; 0x39d9c1c; 0x3898c08;
   0x3fd8e1c; 0x3f98600; 0x39df700; 0x388f380; 0x7100; 0x0; 0x0; 0x0;
   0x0; 0x202000; 0x0; 0x0; 0x0; 0x1c000; 0x38c000; 0x78c1fc;
   0xe0c3f8; 0xc0c3fc; 0xc388; 0x3ffff9c; 0x3ffff88; 0x3ffff9c; 0xcc388; 0x19cc39c;
   0x18ce388; 0x1dce39c; 0xcc6388; 0xfc639c; 0x6c6388; 0x7c73fc; 0x3c33f8; 0x1c381c;
   0xe3808; 0x71f1c1c; 0x30f8e00; 0x3fdef00; 0x3f84700; 0x1f00300; 0x0; 0x0;
   0x0; 0x0; 0x202000; 0x0; 0x0; 0x0; 0x38000; 0x18000;
   0x1c154; 0xffe3f8; 0xfff3fc; 0xe0f398; 0x70ff9c; 0x39df98; 0x1f8f9c; 0xf0398;
   0x1f039c; 0x3fc398; 0x79f39c; 0x3e07f98; 0x7c11f9c; 0x2078798; 0x1f039c; 0x3803f8;
   0x1003fc; 0x2018; 0x3f01c; 0xfc018; 0x7f0000; 0xf80000; 0x600000; 0x0;
   0x0; 0x0; 0x0; 0x202000; 0x0; 0x0; 0x0; 0x70000;
   0x60000; 0xe0000; 0xe02a8; 0x3fffbfc; 0x3fffbf8; 0x3001b1c; 0x3001b08; 0x3001b1c;
   0x2000b08; 0x3fffb1c; 0x3fffb08; 0x3fffb1c; 0xe0308; 0xe031c; 0xe0308; 0xe031c;
   0xe0308; 0xe03fc; 0xe03f8; 0xe001c; 0xe0008; 0xe001c; 0xfc000; 0x7c000;
   0x0; 0x0; 0x0; 0x0; 0x202000; 0x0; 0x0; 0x0;
   0x606000; 0x60e000; 0x7061fc; 0x3071f8; 0x30719c; 0x383188; 0x11b399c; 0x39b9988;
   0x1dd9d9c; 0xffff88; 0xfcff9c; 0xe0ed88; 0x606198; 0x307188; 0x30319c; 0x183988;
   0x3fdfdfc; 0x3fdfdf8; 0x1c1c1c; 0x8; 0x1c; 0x3fffe00; 0x7ffff00; 0x2aaaa00;
   0x0; 0x0; 0x0; 0x0; 0x0; 0x202000; 0x0; 0x0;
   0x0; 0x0; 0x0; 0x7fff800; 0x3fffff8; 0x1c067fc; 0xc06618; 0x1c0671c;
   0xffe618; 0x1ffe71c; 0xc06618; 0x1c0671c; 0xc06618; 0x1d5671c; 0xffe618; 0x1ffe71c;
   0xc066b8; 0x1c067fc; 0x2c062b8; 0x7ff601c; 0x3fffc18; 0x1c7fc14; 0xc00000; 0x1c00000;
   0xc00000; 0x1c00000; 0x0; 0x0; 0x0; 0x0; 0x202000; 0x0;
   0x0; 0x0; 0x60000; 0x860000; 0x3861bfc; 0x1863bf8; 0x1c6731c; 0xc66308;
   0x66631c; 0x66e308; 0x76c31c; 0x60308; 0x7ffff1c; 0x3fffb08; 0x7ffff1c; 0x398308;
   0x39c31c; 0x38c308; 0x39c35c; 0x38c3f8; 0x38e3fc; 0x238e008; 0x738701c; 0x2383800;
   0x7f01c00; 0x3f00f00; 0x1c00600; 0x0; 0x0; 0x0; 0x0; 0x202000;
   0x0; 0x0; 0x0; 0x70000; 0x60000; 0x60154; 0x3fff9f8; 0x3fffdfc;
   0x3aab988; 0x3001d9c; 0x3701988; 0x3ff1d9c; 0x1fe188; 0x7f19c; 0x33188; 0x3019c;
   0x3830188; 0x3ff019c; 0x2fff988; 0x7fdfc; 0x309f8; 0x3001c; 0x3030008; 0x3030014;
   0x3030000; 0x3ff0000; 0x1ff0000; 0x7c0000; 0x0; 0x0; 0x0; 0x0;
   0x202000; 0x0; 0x0; 0x0; 0x0; 0x2aaa800; 0x3fff954; 0x3fffbf8;
   0x383fc; 0x338388; 0x71c39c; 0xe0e388; 0x1d0f39c; 0x1fffb88; 0x3fffb9c; 0x3020b88;
   0x106039c; 0x60388; 0x6039c; 0x1fff388; 0x1fff3fc; 0xaea3f8; 0x6001c; 0x60008;
   0x60014; 0x60000; 0x7fffc00; 0x3fffc00; 0x0; 0x0; 0x0; 0x0;
   0x0; 0x202000; 0x0; 0x0; 0x0; 0x70000; 0x60000; 0x3fffd54;
   0x3fffdf8; 0x3fffdfc; 0x60188; 0x1fff99c; 0x1fff988; 0x1c7019c; 0x1860188; 0x1fff99c;
   0x1fff988; 0x7199c; 0x61988; 0x3fff99c; 0x3fff988; 0x18701fc; 0x18f81f8; 0x1edc01c;
   0x1fdc008; 0x38e014; 0x707000; 0x1f03c00; 0x3c00e00; 0x3000600; 0x0; 0x0;
   0x0; 0x0; 0x202000; 0x0; 0x0; 0x0; 0x3800000; 0x382a800;
   0x387fdfc; 0x3a7fdf8; 0x3b07198; 0x3b03188; 0x3b0319c; 0x3b3f188; 0x3b7f19c; 0x3b31988;
   0x3b3199c; 0x3b31988; 0x3b31d9c; 0x3b3ad88; 0x3b1ff9c; 0x3b1e788; 0x3b1c5fc; 0x3b0c1f8;
   0x3b0c01c; 0x3806008; 0x380701c; 0x3803800; 0x3901c00; 0x3e00e00; 0x1e00400; 0x0;
   0x0; 0x0; 0x0; 0x202000; 0x0; 0x0; 0x0; 0x6000;
   0x6030; 0x7078; 0x3fff1e0; 0x1fff9c0; 0x1831800; 0x1c71c00; 0xc70e00; 0xc78300].
Definition hanzi_data_59 : list N :=
  [0xf83e0; 0x1dc1fc; 0x38f03c; 0x1f07c1c; 0x3e01e00; 0x1000600; 0x7fffe0; 0x7fffe0;
   0x6000e0; 0x7000e0; 0x6000e0; 0x7000e0; 0x6000e0; 0x7fffe0; 0x7fffe0; 0x7000e0;
   0x0; 0x0; 0x0; 0x0; 0x202000; 0x0; 0x0; 0x0;
   0x1c06000; 0xc06000; 0xe0e154; 0xe0c3fc; 0x71c3fc; 0x3fffb8c; 0x3fffb9c; 0x6038c;
   0x6039c; 0x6038c; 0x157539c; 0x1fff38c; 0x1fff39c; 0x6038c; 0x6039c; 0x6038c;
   0x3fffffc; 0x3fffffc; 0x3fffc1c; 0x6000c; 0x6001c; 0x60000; 0x60000; 0x60000;
   0x60000; 0x0; 0x0; 0x0; 0x0; 0x202000; 0x0; 0x0;
   0x0; 0x60000; 0x60000; 0x1861bfc; 0x1c63bf8; 0x1c633dc; 0xe63398; 0x66739c;
   0x666398; 0x76639c; 0x62398; 0x3ffff98; 0x3ffff98; 0x15f579c; 0xf8398; 0x1f839c;
   0x3ec3f8; 0x36c3fc; 0x766018; 0xe6701c; 0xc63818; 0x1c61c00; 0x7860e00; 0x3060600;
   0x60000; 0x60000; 0x0; 0x0; 0x0; 0x0; 0x202000; 0x0;
   0x0; 0x0; 0x0; 0x1ffbff0; 0x1ffbff0; 0x183b830; 0x183b830; 0x183b830;
   0x183b830; 0x183b830; 0x183b830; 0x1abb830; 0x1ffbff0; 0xaabff8; 0x400330; 0x660338;
   0xc70738; 0x1c30638; 0x1838618; 0x3818e18; 0x701fc18; 0xb818; 0x781c; 0xf00c;
   0x7ffe00c; 0x3ff800e; 0x1500004; 0x0; 0x0; 0x0; 0x0; 0x202000;
   0x0; 0x0; 0x0; 0x70000; 0x60000; 0xe0154; 0xc03f8; 0x7fffbfc;
   0x3fffb88; 0x20439c; 0x70c388; 0xe0e39c; 0x1c06388; 0x380739c; 0x3a03b88; 0x370ff9c;
   0x30c388; 0x31c39c; 0x398388; 0x1f83fc; 0xf03f8; 0xf001c; 0xf0008; 0x3fc014;
   0x79e000; 0x1f07800; 0x3c03e00; 0x3000c00; 0x0; 0x0; 0x0; 0x0;
   0x202000; 0x0; 0x0; 0x0; 0xe0000; 0xe0000; 0xe03fc; 0xe03f8;
   0x3fffbfc; 0x3fffb18; 0xe031c; 0xe0318; 0xe031c; 0xe0318; 0x1fff31c; 0x1fff318;
   0x31c; 0x318; 0x155531c; 0x1fff318; 0x1fff3fc; 0x1c033f8; 0x1c0715c; 0x1c03018;
   0x1c0701c; 0x1c03000; 0x1fff000; 0x1fff000; 0x1c07000; 0x0; 0x0; 0x0;
   0x0; 0x202000; 0x0; 0x0; 0x0; 0x30000; 0x38000; 0x1c000;
   0xffc3f8; 0x1ffe3fc; 0xe0e308; 0x60f31c; 0x71fb08; 0x3b9f1c; 0x1f0b08; 0x1f031c;
   0x1f0308; 0x7fc31c; 0x1f1f308; 0x7c07f1c; 0x3ffffa8; 0x1fff7fc; 0xc033f8; 0x1c0701c;
   0xc03008; 0x1c07000; 0xc03000; 0x1fff000; 0xfff000; 0x1c07000; 0x0; 0x0;
   0x0; 0x0; 0x202000; 0x0; 0x0; 0x0; 0xe0000; 0xe0000;
   0x703fc; 0x703f8; 0x1fff3fc; 0x1fff318; 0x180331c; 0x1803318; 0x180331c; 0x1aab318;
   0x1fff31c; 0x1fff318; 0x180331c; 0x1803318; 0x180331c; 0x1fff318; 0x1fff3fc; 0x1aab3f8;
   0x180315c; 0x1803018; 0x180301c; 0x1fff000; 0x1fff000; 0x1803000; 0x1803000; 0x0;
   0x0; 0x0; 0x0; 0x202000; 0x0; 0x0; 0x0; 0x70000;
   0x60000; 0xe0000; 0x2aeabf8; 0x3fffff8; 0x3ffff88; 0x3839c; 0x18388; 0xe1c39c;
   0x70e388; 0x7ffb9c; 0x3ffb88; 0x19d7b9c; 0x38e0388; 0x1c7839c; 0xe3e388; 0x71f3fc;
   0x383ff8; 0x3c19fc; 0x3e0008; 0x77801c; 0xe3e000; 0x1c0fc00; 0x3803e00; 0x1001c00;
   0x0; 0x0; 0x0; 0x0; 0x202000; 0x0; 0x0; 0x0;
   0xc000; 0xc000; 0xc000; 0xe1f8; 0x3fffdfc; 0x3fffd88; 0x619c; 0x186188;
   0x18619c; 0x186188; 0x19b719c; 0x19b3188; 0x19b319c; 0x199b988; 0x1dd999c; 0xcc9988;
   0x5c9dfc; 0x1c0ff8; 0x3e071c; 0x360708; 0x77031c; 0xe38000; 0x1c1e000; 0x380f000;
   0x1007000; 0x0; 0x0; 0x0; 0x0; 0x202000; 0x0; 0x0;
   0x0; 0x170000; 0x7f0000; 0xf70000; 0x1c60000; 0x3fffff0; 0x3fffff0; 0x3fffff0;
   0x60030; 0x75530; 0x1c6ffb0; 0x1c6ffb0; 0xe60030; 0xe65530; 0x66ffb0; 0x7effb0;
   0x3ec3b0; 0x3cc3b0; 0x1cc3b8; 0x11cffb8; 0x21eff98; 0x71f0398; 0x33b8398; 0x371e01c;
   0x3e0f00e; 0x1c06004; 0x0; 0x0; 0x0; 0x0; 0x202000; 0x0;
   0x0; 0x0; 0x0; 0x2aaa800; 0x3fff800; 0x3fffbf8; 0x3f8; 0x308;
   0xfff31c; 0xffe308; 0xc0731c; 0xc06308; 0xc0731c; 0xc06308; 0xfff31c; 0xffe308;
   0xc0731c; 0xc06308; 0xc073fc; 0xffe3f8; 0xfff01c; 0x8; 0x0; 0x0;
   0x7fffe00; 0x3fffe00; 0x0; 0x0; 0x0; 0x0; 0x0; 0x202000;
   0x0; 0x0; 0x0; 0x186000; 0x186000; 0x187154; 0x1831f8; 0x1831fc;
   0x183988; 0x3ffd99c; 0x3ffd988; 0x3c1d9c; 0x3c1f88; 0x3c1f9c; 0x3e1f88; 0x7e1b9c;
   0x7a1988; 0xdb199c; 0xdb1988; 0x1d999fc; 0x19999f8; 0x319d81c; 0x718f808; 0x2185814;
   0x181800; 0x181800; 0x181800; 0x181800; 0x0; 0x0; 0x0; 0x0;
   0x202000; 0x0; 0x0; 0x0; 0x0; 0x3fff800; 0x3fff954; 0x3aab9f8;
   0x38619fc; 0x3861988; 0x386199c; 0x3861988; 0x3d7599c; 0x3ffd988; 0x3ffd99c; 0x3861988;
   0x386199c; 0x38e1988; 0x39f199c; 0x39b1988; 0x3b399fc; 0x3b199f8; 0x3f1d81c; 0x3e0f808;
   0x3805814; 0x3fff800; 0x3fff800; 0x3aab800; 0x3801800; 0x0; 0x0; 0x0;
   0x0; 0x202000; 0x0; 0x0; 0x0; 0x6000; 0x6000; 0x1fff1fc;
   0x1ffb1fc; 0x18c31fc; 0x18c398c; 0x18c1d9c; 0x18c1d8c; 0x7ffdd9c; 0x3ffdf8c; 0x18c1f9c;
   0x18c1b8c; 0x18c1b9c; 0x18c198c; 0x1ff999c; 0x1ff99fc; 0x18c19fc; 0x18e180c; 0x6181c;
   0x61800; 0x71800; 0x31800; 0x39800; 0x19800; 0x19800; 0x0; 0x0;
   0x0; 0x0; 0x202000; 0x0; 0x0; 0x0; 0x7000; 0x6000;
   0x6000; 0x3fffffc; 0x3fffffc; 0x0; 0x155540; 0x3fffe0; 0x3fffe0; 0x3000e0;
   0x3000e0; 0x3000e0; 0x3fffe0; 0x3fffe0; 0x95dd40; 0x1e0ce00; 0xf1c7c0; 0x3b83e0;
   0x1f03fe; 0xe033c; 0x1c0304; 0xf8fb00; 0x7f0ff80; 0x3c00f80; 0x1000180; 0x0].
Definition hanzi_data_60 : list N :=
  [0x0; 0x0; 0x0; 0x202000; 0x0; 0x0; 0x0; 0x0;
   0x3fff80; 0x3fffc0; 0x3aab80; 0x3801c0; 0x380180; 0x3801c0; 0x380180; 0x3fffc0;
   0x3fff80; 0x155540; 0x0; 0x0; 0x3ff8ff8; 0x3ff9ffc; 0x3818c18; 0x3819c1c;
   0x3818c18; 0x3819c1c; 0x3818c18; 0x3819c1c; 0x3ff8ff8; 0x3ff9ffc; 0x3ab8eb8; 0x3819c1c;
   0x0; 0x0; 0x0; 0x0; 0x202000; 0x0; 0x0; 0x0;
   0x0; 0x3fff800; 0x3fffd54; 0x2bbabf8; 0x1983fc; 0x198388; 0x15dd39c; 0x3fffb88;
   0x3fffb9c; 0x3999b88; 0x3999b9c; 0x3999b88; 0x3999b9c; 0x3999b88; 0x3f9db9c; 0x3f8fb88;
   0x3807bfc; 0x3801bf8; 0x380181c; 0x3801808; 0x3801814; 0x3fff800; 0x3fff800; 0x3801800;
   0x3801800; 0x0; 0x0; 0x0; 0x0; 0x202000; 0x0; 0x0;
   0x0; 0x0; 0x3fff800; 0x3fff800; 0x3aabbfc; 0x3801bfc; 0x3801b8c; 0x3ffdb9c;
   0x3bfdb8c; 0x3801b9c; 0x3801b8c; 0x3bf9b9c; 0x3bf9b8c; 0x3b19b9c; 0x3b19b8c; 0x3b19b9c;
   0x3b19bac; 0x3b19bfc; 0x3bf9bfc; 0x3bf981c; 0x381980c; 0x3819800; 0x3801800; 0x3801800;
   0x1f01800; 0x1f01800; 0x0; 0x0; 0x0; 0x0; 0x202000; 0x0;
   0x0; 0x0; 0x70c000; 0x60c000; 0x70c3fc; 0x60c3f8; 0x70c3fc; 0x60c318;
   0x3fffb1c; 0x3fffb18; 0x70c31c; 0x60c318; 0x70c31c; 0x60c318; 0x70c31c; 0x60c318;
   0x7ffff1c; 0x3ffff18; 0x7fffffc; 0x3f8; 0x71c15c; 0x70e018; 0xe0701c; 0x1c03800;
   0x3803c00; 0x3801e00; 0x1000c00; 0x0; 0x0; 0x0; 0x0; 0x202000;
   0x0; 0x0; 0x0; 0xe0000; 0x60000; 0x578150; 0x1ffc3f8; 0x1ffe3fc;
   0xe07b18; 0x70ff1c; 0x3bcb18; 0x1f831c; 0xf8318; 0x1ff31c; 0xcff18; 0x3ff1b1c;
   0x3ff0318; 0x383c31c; 0x180e318; 0x1c17bfc; 0xe7bbf8; 0x7f03fc; 0x3c0018; 0x1e001c;
   0xf8000; 0x7f000; 0xfc00; 0x1c00; 0x0; 0x0; 0x0; 0x0;
   0x202000; 0x0; 0x0; 0x0; 0x60000; 0x60000; 0x60154; 0x603f8;
   0x1fffbfc; 0xfffb88; 0x6039c; 0x60388; 0x6039c; 0x2aeab88; 0x3ffff9c; 0x3fffb88;
   0x6039c; 0x60388; 0x6039c; 0xaeab88; 0x1fffbfc; 0x1fffbf8; 0x6001c; 0x60008;
   0x60014; 0x60000; 0x7fffe00; 0x3fffe00; 0x0; 0x0; 0x0; 0x0;
   0x0; 0x202000; 0x0; 0x0; 0x0; 0x60000; 0x60000; 0xf0154;
   0xf03f8; 0x1f83fc; 0x39c388; 0x71c39c; 0xe0e388; 0x1c0739c; 0x3fffb88; 0x37fff9c;
   0xb88; 0x398; 0x388; 0xfff39c; 0xfff388; 0xe073fc; 0xe033f8; 0xe0701c;
   0xe03008; 0xe07014; 0xeab000; 0xfff000; 0xfff000; 0xe07000; 0x0; 0x0;
   0x0; 0x0; 0x202000; 0x0; 0x0; 0x0; 0x70300; 0x330300;
   0x770300; 0xe37ff8; 0x1c77ff8; 0x3830300; 0x1070300; 0x30300; 0x3fffffc; 0x3fffffc;
   0x1575554; 0x860000; 0x1c61550; 0xc63ff8; 0xe63ff8; 0x6e3038; 0x7e3038; 0x3c3038;
   0x11c3038; 0x21e3ab8; 0x71f3ff8; 0x33fbff8; 0x373c038; 0x3e0e038; 0x1c04000; 0x0;
   0x0; 0x0; 0x0; 0x202000; 0x0; 0x0; 0x0; 0xc00000;
   0x1fe0000; 0x7ff9fc; 0x3f9f8; 0x19fc; 0xc01988; 0x1fc199c; 0x7f9988; 0x1f999c;
   0x199988; 0x119999c; 0x3999988; 0x1d9999c; 0xf99988; 0x71999c; 0x319988; 0x7199fc;
   0x6199f8; 0x619d5c; 0xe18c08; 0x1dd8c1c; 0x39f8e00; 0x787c600; 0x301c600; 0x600;
   0x0; 0x0; 0x0; 0x0; 0x202000; 0x0; 0x0; 0x0;
   0xe0000; 0xe0000; 0x70154; 0x701f8; 0x15751fc; 0x3fff988; 0x3fff99c; 0x3801988;
   0x380199c; 0x3bf9988; 0x3bf999c; 0x3b19988; 0x3b1999c; 0x3b19988; 0x3b1999c; 0x3b19988;
   0x3b199fc; 0x3bf99f8; 0x3bf981c; 0x3819808; 0x3801814; 0x3801800; 0x3901800; 0x3e01800;
   0x1e01800; 0x0; 0x0; 0x0; 0x0; 0x202000; 0x0; 0x0;
   0x0; 0x70c000; 0x30c000; 0x70c000; 0x3fffffc; 0x7fffffc; 0x2baeb8c; 0x70c39c;
   0x30c38c; 0x40039c; 0xc0338c; 0xe0739c; 0xe0638c; 0x70639c; 0x70e38c; 0x30c39c;
   0x39c3fc; 0x1d83fc; 0xf800c; 0xf001c; 0xf800c; 0x1fc000; 0x78e000; 0x1f07c00;
   0x3c03e00; 0x3000600; 0x0; 0x0; 0x0; 0x0; 0x202000; 0x0;
   0x0; 0x0; 0x0; 0xfff800; 0xfffbfc; 0xe03bf8; 0xe03bfc; 0xe03b18;
   0xfffb1c; 0xfffb18; 0xe03b1c; 0xe03b18; 0xe03b1c; 0xfffb18; 0xfffb1c; 0x33b18;
   0x1873b1c; 0x1c63bb8; 0xfe3bfc; 0x3e3bf8; 0x1c381c; 0x383818; 0x783800; 0xf3b800;
   0x3e7f800; 0x380f800; 0x1001800; 0x0; 0x0; 0x0; 0x0; 0x202000;
   0x0; 0x0; 0x0; 0x0; 0x0; 0x3fffbfc; 0x3fffbf8; 0x3bfc;
   0x3b08; 0x1fffb1c; 0x1ffbb08; 0x1c3b1c; 0x183b08; 0x1c3b1c; 0xffbb08; 0x1ffbb1c;
   0x183b08; 0x1c3b1c; 0x183b08; 0x1c3bfc; 0x1ffbbf8; 0x1fff95c; 0x3808; 0x381c;
   0x2aab800; 0x7fff800; 0x3fff800; 0x0; 0x0; 0x0; 0x0; 0x0;
   0x202000; 0x0; 0x0; 0x0; 0x0; 0x0; 0x3fffd54; 0x3fffdf8;
   0x19c1fc; 0x188188; 0x19c19c; 0x188188; 0x319cd9c; 0x3988d88; 0x199dd9c; 0x1989988;
   0x1d9d99c; 0xd89988; 0xd9f99c; 0xd8b988; 0x79f1fc; 0x1881f8; 0x19c01c; 0x188008;
   0x19c004; 0x188000; 0x7ffff00; 0x3fffe00; 0x0; 0x0; 0x0; 0x0;
   0x0; 0x202000; 0x0; 0x0; 0x0; 0x380000; 0x380800; 0x380dfc;
   0x381cf8; 0x3819fc; 0x383888; 0x17d11dc; 0x3ff8088; 0x3ff81dc; 0x183e88; 0x383fdc;
   0x383a88; 0x7c31dc; 0xec3088; 0xcc31dc; 0xce3088; 0x1c631dc; 0x18730f8; 0x383b1fc;
   0x303b008; 0x101301c; 0xfc00; 0x7ffde00; 0x3ff8e00; 0x3fc0400; 0x0; 0x0;
   0x0; 0x0; 0x202000; 0x0; 0x0; 0x0; 0xc000; 0xc000;
   0x1c1c154; 0x3ffe3f8; 0x1fffffc; 0xc1bb18; 0x1e3831c; 0x730318; 0x3f031c; 0x30f8318].
Definition hanzi_data_61 : list N :=
  [0x31ff31c; 0x3f8fb18; 0x1f0131c; 0x800318; 0x3ffff1c; 0x3ffff18; 0x19c3fc; 0x18c3f8;
   0x18c01c; 0x218e018; 0x718e014; 0x3187000; 0x3f87c00; 0x3f81e00; 0x1f00c00; 0x0;
   0x0; 0x0; 0x0; 0x202000; 0x0; 0x0; 0x0; 0x1c3800;
   0xc3800; 0x11c3950; 0x38c39f8; 0x1fff9fc; 0xfff998; 0x1c399c; 0xc3998; 0x31c399c;
   0x20e3998; 0x75ff99c; 0x3f9f998; 0x1f8399c; 0x60198; 0x6019c; 0x601f8; 0x3fffdfc;
   0x3fffcb8; 0x6001c; 0x60018; 0x60000; 0x60000; 0x60000; 0x60000; 0x60000;
   0x0; 0x0; 0x0; 0x0; 0x202000; 0x0; 0x0; 0x0;
   0xc0000; 0x28c2000; 0x38c33fc; 0x38c33f8; 0x38c33fc; 0x38c3318; 0x38c331c; 0x3fff318;
   0x3fff31c; 0x38318; 0x1831c; 0x1ff8318; 0x3ffc31c; 0x1aae318; 0x1c0731c; 0xc13b18;
   0xe39bfc; 0xe703f8; 0x7e03fc; 0x3c0018; 0x1e001c; 0xf8000; 0x3f000; 0xfc00;
   0x1800; 0x0; 0x0; 0x0; 0x0; 0x202000; 0x0; 0x0;
   0x0; 0x1dc000; 0xcc000; 0x19cc150; 0x38c63f8; 0x1dc73fc; 0xec7388; 0x7c7b9c;
   0x3c7b88; 0x1f7f9c; 0x30feb88; 0x31d739c; 0x31c6388; 0x3fc739c; 0xa06388; 0x6039c;
   0x60388; 0x3fffffc; 0x3fffff8; 0x15757fc; 0x60008; 0x6001c; 0x60000; 0x60000;
   0x60000; 0x60000; 0x0; 0x0; 0x0; 0x0; 0x202000; 0x0;
   0x0; 0x0; 0x60000; 0x60000; 0xf0154; 0xf83f8; 0x1d83fc; 0x39c388;
   0x70e39c; 0x1e07388; 0x3c03f9c; 0x3ffff88; 0x7fef9c; 0x388; 0x39c; 0x388;
   0x1fffb9c; 0x1fffb88; 0x383fc; 0x2183f8; 0x71c01c; 0x60e008; 0xe07014; 0xfe7000;
   0x1fffc00; 0x383f800; 0x1800000; 0x0; 0x0; 0x0; 0x0; 0x202000;
   0x0; 0x0; 0x0; 0x0; 0x3fc000; 0x3fc154; 0x30c1f8; 0x30c1fc;
   0x30e188; 0x30e19c; 0x306188; 0x1f0719c; 0x3f03988; 0x6199c; 0x60188; 0x6019c;
   0x3fffd88; 0x3fffd9c; 0xf8188; 0x1fc1fc; 0x3ec1f8; 0x76e01c; 0xe67008; 0x1c63c1c;
   0x3861e00; 0x1060c00; 0x60000; 0x60000; 0x0; 0x0; 0x0; 0x0;
   0x202000; 0x0; 0x0; 0x0; 0x70000; 0x60000; 0x60154; 0x3fff9f8;
   0x3fffdfc; 0x606188; 0x70c19c; 0x30c188; 0x3dc19c; 0x1f8188; 0x1f019c; 0x7fe188;
   0x7f1fd9c; 0x3c03d88; 0x70c19c; 0x60c188; 0x70c1fc; 0x60c1f8; 0x70c01c; 0x60e008;
   0x707014; 0x607000; 0x703c00; 0x601e00; 0x700400; 0x0; 0x0; 0x0;
   0x0; 0x202000; 0x0; 0x0; 0x0; 0x40000; 0xe0000; 0x601fc;
   0x601f8; 0x3fffdfc; 0x3fffd88; 0x3070d9c; 0x3070d88; 0x3078d9c; 0xf8188; 0x10dc19c;
   0x38cc188; 0x3cce19c; 0xf87188; 0x78799c; 0x387d88; 0x307ffc; 0x3065f8; 0x70615c;
   0xe06008; 0x1cc601c; 0x1cfe000; 0x787e000; 0x300e000; 0x6000; 0x0; 0x0;
   0x0; 0x0; 0x202000; 0x0; 0x0; 0x0; 0x70000; 0x38000;
   0x31c154; 0x71c1fc; 0xe0e1fc; 0xe8718c; 0x1fff99c; 0x3aff98c; 0x10e019c; 0xe618c;
   0xe719c; 0xe318c; 0x1fff19c; 0x1fff98c; 0xe1d9c; 0xe1d8c; 0xe09fc; 0x3fffdfc;
   0x3fffc1c; 0xe000c; 0xe0014; 0xe0000; 0xe0000; 0xe0000; 0xe0000; 0x0;
   0x0; 0x0; 0x0; 0x202000; 0x0; 0x0; 0x0; 0x182000;
   0x186000; 0x1c71fc; 0xc30f8; 0xc31dc; 0x3fc38c8; 0x3fe59dc; 0x306ccc8; 0x307cddc;
   0x303fec8; 0x30a7fdc; 0x38c70c8; 0x31c31dc; 0x39838c8; 0x3b91ddc; 0x3b1fcc8; 0x3f1fffc;
   0x3900ef8; 0x180001c; 0x1818008; 0x181f81c; 0x1807e00; 0x1d01e00; 0xf80000; 0xf00000;
   0x0; 0x0; 0x0; 0x0; 0x202000; 0x0; 0x0; 0x0;
   0x0; 0x0; 0x3fffd54; 0x3fffbf8; 0x603fc; 0x60308; 0x1fffb1c; 0x1fffb08;
   0x6031c; 0x60308; 0x157571c; 0x3ffff08; 0x3ffff1c; 0x30e308; 0x70e31c; 0x30e3f8;
   0x7fffffc; 0x3fffe08; 0x70601c; 0x306000; 0x707000; 0x303800; 0x701c00; 0x300f00;
   0x700600; 0x0; 0x0; 0x0; 0x0; 0x202000; 0x0; 0x0;
   0x0; 0x0; 0x2aaaaa8; 0x3fffffc; 0xbaaaa8; 0x715540; 0x33ffe0; 0x73ffe0;
   0x3380e0; 0x73d5e0; 0x33ffe0; 0x71ffc0; 0x300000; 0x3fffffc; 0x3fffffc; 0x700000;
   0x600000; 0x71ffe0; 0x61ffe0; 0x7180e0; 0x6180e0; 0x71ffe0; 0x61ffe0; 0x7000e0;
   0x7e0000; 0x3e0000; 0x0; 0x0; 0x0; 0x0; 0x202000; 0x0;
   0x0; 0x0; 0x1d0000; 0xdb8000; 0x1dff1fc; 0x198fffc; 0x3187d9c; 0x318618c;
   0x18619c; 0x18618c; 0x7ffff9c; 0x3ffff8c; 0x18619c; 0x398618c; 0x198619c; 0x19a618c;
   0x1dff19c; 0xfbff8c; 0x707ffc; 0x7063fc; 0x30601c; 0x238600c; 0x67c601c; 0x26e6000;
   0x7e76000; 0x3e37e00; 0x1c13c00; 0x0; 0x0; 0x0; 0x0; 0x202000;
   0x0; 0x0; 0x0; 0x70000; 0x60000; 0x70000; 0xaea800; 0x1fff9fc;
   0xfff9f8; 0x7019c; 0x60188; 0x7019c; 0x3fffd88; 0x3fffd9c; 0x198188; 0x19c19c;
   0xd99988; 0x1d9d99c; 0x1999988; 0x199ddfc; 0x398cdf8; 0x318cc1c; 0x318ee08; 0x186414;
   0x187000; 0x187800; 0x1f3c00; 0x1f1800; 0x0; 0x0; 0x0; 0x0;
   0x202000; 0x0; 0x0; 0x0; 0x60000; 0x3061800; 0x3863800; 0x18633f8;
   0x1c677fc; 0xc66308; 0xe6671c; 0xaea308; 0x1fff71c; 0x1fff308; 0x180371c; 0x1803308;
   0x1fff71c; 0x1fff308; 0x1d5771c; 0x1803308; 0x18037fc; 0x1fff3f8; 0x1fff01c; 0x1803008;
   0x1803000; 0x1803000; 0x1803000; 0x1f83000; 0x1f03000; 0x0; 0x0; 0x0;
   0x0; 0x202000; 0x0; 0x0; 0x0; 0x0; 0xaaa800; 0x1fff954;
   0x1fff9fc; 0x18619fc; 0x186198c; 0x1d7599c; 0x1fff98c; 0x1fff99c; 0x186198c; 0x186199c;
   0x186198c; 0x1fff99c; 0x1fff98c; 0x6019c; 0x6018c; 0x1fff9fc; 0x3fff9fc; 0x1fff81c;
   0x6000c; 0x60014; 0x60000; 0x7fffe00; 0x3fffe00; 0x0; 0x0; 0x0].
Definition hanzi_data_62 : list N :=
  [0x0; 0x0; 0x202000; 0x0; 0x0; 0x0; 0x0; 0x1f9fe00;
   0x3f9fe54; 0x319baf8; 0x19999fc; 0x1999888; 0x19999dc; 0x999888; 0xd9ffdc; 0xd9fe88;
   0xd999dc; 0xd99888; 0x19999dc; 0x1999888; 0x319ffdc; 0x319fe88; 0x31999fc; 0x31998f8;
   0x3199c1c; 0x3f98c08; 0x1d98c1c; 0x198600; 0x19c700; 0x19f380; 0x18f100; 0x0;
   0x0; 0x0; 0x0; 0x202000; 0x0; 0x0; 0x0; 0x0;
   0xaa8ff8; 0x1ff9ff8; 0xeb8eb8; 0x1c19c38; 0xc18c38; 0x1c19c38; 0xeb8eb8; 0x1ff9ff8;
   0xaaaaa8; 0x1c7000; 0x386000; 0xf07000; 0x2eafaa8; 0x7fffffc; 0x3fffffc; 0x1f800;
   0x1b800; 0x39c00; 0x70e00; 0x1f0f00; 0x3c03c0; 0x7f801fc; 0x3e000fc; 0x300001c;
   0x0; 0x0; 0x0; 0x0; 0x202000; 0x0; 0x0; 0x0;
   0x38000; 0x3038000; 0x3838154; 0x1bff9fc; 0x1fff9fc; 0xe3818c; 0x73818c; 0x73818c;
   0x3fffd8c; 0x3fffd8c; 0xe018c; 0x7018c; 0xfff18c; 0xfff18c; 0x78f18c; 0x1e798c;
   0x61ffc; 0x3fffffc; 0x3fffe0c; 0x6000c; 0x60004; 0x60000; 0x60000; 0x7c000;
   0x7c000; 0x0; 0x0; 0x0; 0x0; 0x202000; 0x0; 0x0;
   0x0; 0xe0000; 0xe0000; 0x15f5154; 0x3fffbf8; 0x3fffbfc; 0xe0388; 0xe039c;
   0x3fffb88; 0x3fffb9c; 0x3001b88; 0x3001b9c; 0x37ffb88; 0xffe39c; 0x700388; 0x3c039c;
   0xe0388; 0x15f53fc; 0x3fffbf8; 0x7fff81c; 0xe0008; 0xe0014; 0xe0000; 0xe0000;
   0xfc000; 0x7c000; 0x0; 0x0; 0x0; 0x0; 0x202000; 0x0;
   0x0; 0x0; 0xc001c0; 0x1f80180; 0x7fc1c0; 0x3dffc; 0xdffc; 0xc180;
   0x3ffc1c0; 0x3ffdf80; 0x70dffc; 0x30c1fc; 0x70e1c0; 0x306180; 0x7071d0; 0x3039f0;
   0x701070; 0x7fffe0; 0x7fffe0; 0x6000e0; 0x7000e0; 0x6000e0; 0x7000e0; 0x6000e0;
   0x7fffe0; 0x7fffe0; 0x7000e0; 0x0; 0x0; 0x0; 0x0; 0x202000;
   0x0; 0x0; 0x0; 0x1003000; 0x3e03000; 0x1fc3154; 0x3e31f8; 0x631fc;
   0x6bb88; 0x7ffdc; 0x6ff88; 0x631dc; 0x3fe3188; 0x7fe31dc; 0xc63188; 0xc7f1dc;
   0xc6f188; 0xc7ffdc; 0xc63f88; 0xc637fc; 0xc631f8; 0xc6301c; 0xc63008; 0xc73014;
   0xc33000; 0xc33e00; 0xc3be00; 0xc11c00; 0x0; 0x0; 0x0; 0x0;
   0x202000; 0x0; 0x0; 0x0; 0x660000; 0xf60000; 0x1c60000; 0x18603f8;
   0x7fffffc; 0x3ffff08; 0x6031c; 0x60308; 0x1fffb1c; 0x1fffb08; 0x1d75b1c; 0x1861b08;
   0x1861b1c; 0x1fffb08; 0x1fffb1c; 0x1861bf8; 0x1861bfc; 0x1fffaa8; 0x1fff81c; 0x1861808;
   0x1861800; 0x1861800; 0x1861800; 0x1e61800; 0x1e61800; 0x0; 0x0; 0x0;
   0x0; 0x202000; 0x0; 0x0; 0x0; 0x70000; 0x60000; 0xe03fc;
   0x3fffbfc; 0x7ffffdc; 0x38c; 0x1fff39c; 0xfff38c; 0x1c0739c; 0xc0338c; 0x1fff39c;
   0xfff38c; 0x39c; 0xfffb8c; 0x1fffb9c; 0xf003fc; 0x3c03fc; 0xe000c; 0x6001c;
   0x60000; 0x60000; 0x60000; 0x60000; 0x7e000; 0x7c000; 0x0; 0x0;
   0x0; 0x0; 0x202000; 0x0; 0x0; 0x0; 0x0; 0x3fffc00;
   0x7fffd54; 0x2aea9fc; 0x601fc; 0x1fff98c; 0x1fff99c; 0x186198c; 0x186199c; 0x1aeb98c;
   0x1fff99c; 0x186198c; 0x186199c; 0x1aeb98c; 0x1fff99c; 0xaea98c; 0x719fc; 0x339fc;
   0x3701c; 0x3e00c; 0x1e014; 0xff800; 0x1ff7f00; 0x3f80f00; 0x3c00000; 0x0;
   0x0; 0x0; 0x0; 0x202000; 0x0; 0x0; 0x0; 0x1c0;
   0x1c0; 0x1ff81c0; 0x1ffbffc; 0x1c1bffc; 0x181b8c0; 0x1c198e0; 0x1819860; 0x1d59870;
   0x1ff9fb8; 0x1ff8f1c; 0x8; 0x3fffffc; 0x3fffffc; 0x300000; 0x302aa0; 0x307fe0;
   0x306ae0; 0x306060; 0x306060; 0x307fe0; 0x307fe0; 0x300060; 0x3f0060; 0x1f0000;
   0x0; 0x0; 0x0; 0x0; 0x202000; 0x0; 0x0; 0x0;
   0x30000; 0x70000; 0x70154; 0xe01f8; 0x3fffdfc; 0x3fffd88; 0x3fffd9c; 0x188;
   0x1fff19c; 0xfff188; 0x19c; 0x188; 0x1fff19c; 0xfff188; 0x19c; 0x188;
   0x1fff9fc; 0xfff9f8; 0x1c0381c; 0xc03808; 0x1c03814; 0xc03800; 0x1fff800; 0xfff800;
   0x1c03800; 0x0; 0x0; 0x0; 0x0; 0x202000; 0x0; 0x0;
   0x0; 0x70000; 0x38000; 0x39c154; 0x70e1f8; 0xe071fc; 0x1fff988; 0x3fffd9c;
   0x1002988; 0x79c198; 0xe0e188; 0x1c0719c; 0x3813d88; 0x3039f9c; 0x1c588; 0x1ffe19c;
   0xfff188; 0xe07dfc; 0x70fff8; 0x39cc1c; 0x1f8008; 0xf0014; 0x3fc000; 0x1f9fc00;
   0x3e03e00; 0x3000e00; 0x0; 0x0; 0x0; 0x0; 0x202000; 0x0;
   0x0; 0x0; 0x0; 0x1fffff0; 0x1fffff0; 0xaaaab0; 0x70; 0x7fff30;
   0x7fff70; 0x30; 0x3fffff0; 0x3fffff0; 0x41c670; 0xe38630; 0x7f4670; 0x1efe30;
   0x1fc7f30; 0x3e00e30; 0x1000030; 0xffff38; 0xffff38; 0xe00338; 0xe00718; 0xe0031c;
   0xffff1c; 0xffff0e; 0xe0070c; 0x0; 0x0; 0x0; 0x0; 0x202000;
   0x0; 0x0; 0x0; 0x30000; 0x38000; 0x39c154; 0x70c1f8; 0xe0e1fc;
   0xffb188; 0x1fff99c; 0x380f988; 0x100e198; 0x6188; 0x1fff19c; 0x1fff188; 0x157799c;
   0x61d88; 0x6099c; 0x2aea988; 0x3fffdfc; 0x3fffdf8; 0xf001c; 0xf8008; 0x3dc014;
   0x78e000; 0x1f07c00; 0x3c03e00; 0x3000c00; 0x0; 0x0; 0x0; 0x0;
   0x202000; 0x0; 0x0; 0x0; 0xc01000; 0xe0f800; 0x7ff154; 0x3f81fc;
   0x7fc1fc; 0x1f3f98c; 0x1c37d9c; 0x103898c; 0x155d59c; 0x3fffd8c; 0x7fffd9c; 0xee18c;
   0xe719c; 0xaeb18c; 0x1fffd9c; 0x1ffff8c; 0x18e7dfc; 0x18e31fc; 0x18e701c; 0x18e300c;
   0x1ce7014; 0x1ee3000; 0xee7000; 0xe0000; 0xe0000; 0x0; 0x0; 0x0;
   0x0; 0x202000; 0x0; 0x0; 0x0; 0xc000; 0x1c000; 0x3fffff0;
   0x3fffff0; 0x3fffff0; 0x18030; 0xffff30; 0xffff30; 0xe1c030; 0xe18030; 0x3fffff0].
Definition hanzi_data_63 : list N :=
  [0x3fffff0; 0xe1c030; 0xebaa38; 0xffff38; 0xabaa38; 0x1c038; 0xffff38; 0xffff18;
   0xc00318; 0xc0031c; 0xc0031c; 0xffff1c; 0xffff0e; 0xc0030c; 0x0; 0x0;
   0x0; 0x0; 0x202000; 0x0; 0x0; 0x0; 0x60000; 0x60000;
   0xc67154; 0xc661f8; 0xc671fc; 0xc63188; 0xc6319c; 0xe63188; 0xe6719c; 0x1e67988;
   0x1f6d99c; 0x3b6d988; 0x73f9d9c; 0x21e8f88; 0x6059c; 0x60188; 0x1fff9fc; 0x1fff9f8;
   0x6001c; 0x60008; 0x60014; 0x60000; 0x7fffc00; 0x3fffc00; 0x0; 0x0;
   0x0; 0x0; 0x0; 0x202000; 0x0; 0x0; 0x0; 0x0;
   0x3fff800; 0x3fff954; 0x303f8; 0x383fc; 0x38388; 0xfff39c; 0xfff388; 0xe1c39c;
   0xe18388; 0xe1c39c; 0x2eaeb88; 0x7ffff9c; 0x2aaab88; 0x39c; 0xaaa388; 0x1fff3fc;
   0xeab3f8; 0x1c0301c; 0xc03008; 0x1c03014; 0xc03000; 0x1fff000; 0xfff000; 0x1c03000;
   0x0; 0x0; 0x0; 0x0; 0x202000; 0x0; 0x0; 0x0;
   0x60000; 0x60000; 0x3fffd54; 0x3fff9fc; 0x601fc; 0x6018c; 0x1fff19c; 0xfff18c;
   0x6019c; 0x6018c; 0x3fffd9c; 0x3fffd8c; 0x1819c; 0x1c18c; 0x1ffc19c; 0xffe18c;
   0xe1f1fc; 0x71f9fc; 0x3b9e1c; 0x1f0c0c; 0x1f0014; 0x3fc000; 0x1f9f800; 0x3e07e00;
   0x3001c00; 0x0; 0x0; 0x0; 0x0; 0x202000; 0x0; 0x0;
   0x0; 0x0; 0x1fff800; 0x1fff950; 0xaea9f8; 0x601fc; 0x60198; 0x3fffd9c;
   0x3fffd98; 0x19c; 0x198; 0x1fff99c; 0x1fff998; 0x1c0399c; 0x1823998; 0x1c6399c;
   0x1863998; 0x1c639fc; 0x18639f8; 0x1c7381c; 0x1f0018; 0x7b8010; 0xf1c000; 0x1c0f800;
   0x3803e00; 0x1001c00; 0x0; 0x0; 0x0; 0x0; 0x202000; 0x0;
   0x0; 0x0; 0x30c000; 0x30c000; 0x30c154; 0x3fffdfc; 0x3fffdfc; 0x30c18c;
   0x30c19c; 0x18c; 0x3fffd9c; 0x3fffd8c; 0x3000d9c; 0x3020d8c; 0x3070d9c; 0x3018c;
   0x1fff99c; 0x1fff98c; 0x1c301fc; 0xc381fc; 0xc1801c; 0xc1c00c; 0xc0e014; 0xe0f000;
   0x7e7c00; 0x7c1e00; 0x3c0400; 0x0; 0x0; 0x0; 0x0; 0x202000;
   0x0; 0x0; 0x0; 0x60000; 0x861800; 0x1c63bfc; 0xc633f8; 0xe673fc;
   0x66e388; 0x76439c; 0xfffb88; 0x1fffb9c; 0xeabb88; 0x1c43b9c; 0xc63b88; 0x1c73b9c;
   0xc63b88; 0x1c73b9c; 0xc63b88; 0x1c73bfc; 0xc73bf8; 0x1c7395c; 0xc3b808; 0x1dc01c;
   0xf8e000; 0x3e07c00; 0x3803e00; 0x3000400; 0x0; 0x0; 0x0; 0x0;
   0x202000; 0x0; 0x0; 0x0; 0xe0000; 0x60000; 0x1fff000; 0x1fff3f8;
   0x1d573f8; 0x1803318; 0x1d57318; 0x1fff318; 0x1fff318; 0x1803318; 0x1c03318; 0x1fff318;
   0x1fff318; 0x18318; 0x18318; 0x3f98318; 0x7fffff8; 0xffbf8; 0x197f8; 0x3018018;
   0x7018018; 0x3038000; 0x3ff8000; 0x3ff0000; 0x0; 0x0; 0x0; 0x0;
   0x0; 0x202000; 0x0; 0x0; 0x0; 0x1c000; 0x1c000; 0x7fc000;
   0x7fe1fc; 0x7ff1fc; 0x38398c; 0x1c3d9c; 0xffff8c; 0xfffd9c; 0xc6398c; 0xc6399c;
   0xc6398c; 0xc6399c; 0xc6398c; 0xc7399c; 0x3fffd8c; 0x3fffdfc; 0xf81fc; 0x1d81fc;
   0x19c00c; 0x38e01c; 0xf07800; 0x1e03c00; 0x3800f00; 0x1000600; 0x0; 0x0;
   0x0; 0x0; 0x202000; 0x0; 0x0; 0x0; 0x0; 0x2aaa800;
   0x3fbfd54; 0x3bbadf8; 0x31b0dfc; 0x31b0d88; 0x31bfd9c; 0x31bfd88; 0x31bfd9c; 0x31b0d88;
   0x31b0d9c; 0x31bad88; 0x31bfd9c; 0x31aad88; 0x3180d9c; 0x318cd88; 0x319cdfc; 0x3198df8;
   0x3f9cc1c; 0x3fbfc08; 0x15b7c14; 0x1b0e00; 0x1b0400; 0x180000; 0x180000; 0x0;
   0x0; 0x0; 0x0; 0x202000; 0x0; 0x0; 0x0; 0x60000;
   0x60000; 0x3fff954; 0x3fff9f8; 0x701fc; 0x30188; 0x1fff19c; 0x1fff188; 0x1819c;
   0x2aba988; 0x3fffd9c; 0x2bae988; 0x76719c; 0xe67188; 0x1fffd9c; 0x3bfff88; 0x33fedfc;
   0x601f8; 0x157501c; 0x1fff808; 0x1fffc14; 0x60000; 0x60000; 0x60000; 0x60000;
   0x0; 0x0; 0x0; 0x0; 0x202000; 0x0; 0x0; 0x0;
   0x70000; 0x60000; 0x1ff0154; 0x1fe01f8; 0x701fc; 0xaea988; 0x3fff99c; 0x3aab988;
   0x387199c; 0x1e21988; 0x7ff99c; 0xff988; 0x307199c; 0x3fe1988; 0x1fe199c; 0x1988;
   0x3f9dfc; 0x3f99f8; 0x319c1c; 0x318c08; 0x7318c14; 0x231ce00; 0x331e600; 0x3f0f700;
   0x1e07200; 0x0; 0x0; 0x0; 0x0; 0x202000; 0x0; 0x0;
   0x0; 0x6180; 0xe180; 0x1c1c0; 0xffffe0; 0x1fffff0; 0xc070; 0x7ffff8;
   0x7ffffc; 0xc06c; 0xc060; 0x7fffe0; 0xc060; 0xc060; 0x1ffffe0; 0x1ffffe0;
   0x60; 0x555540; 0x7fffe0; 0x7fffe0; 0x600060; 0x600060; 0x600060; 0x7fffe0;
   0x7fffe0; 0x600060; 0x0; 0x0; 0x0; 0x0; 0x202000; 0x0;
   0x0; 0x0; 0x9c000; 0x1dc000; 0x1dc1fc; 0x38e3fc; 0x3063fc; 0x3fff38c;
   0x3fff39c; 0x187b8c; 0x1c7f9c; 0x186f8c; 0x1ffff9c; 0x1ffe78c; 0x1c739c; 0x18638c;
   0x1c739c; 0xbae38c; 0x1fff3fc; 0xbae3fc; 0x1c715c; 0x18600c; 0x1c701c; 0x3ffe000;
   0x3fff000; 0x6000; 0x7000; 0x0; 0x0; 0x0; 0x0; 0x202000;
   0x0; 0x0; 0x0; 0x1000000; 0x307fe00; 0x307fffc; 0x3360efc; 0x3360fcc;
   0x3360e8c; 0x337ffcc; 0x337fe8c; 0x330cfcc; 0x330ce8c; 0x330c7cc; 0x337fe8c; 0x337ffcc;
   0x336de8c; 0x336dfcc; 0x336de8c; 0x336dfdc; 0x336defc; 0x336dffc; 0x306db0c; 0x307db0c;
   0x307db80; 0x301d980; 0x3e0c180; 0x1e0c000; 0x0; 0x0; 0x0; 0x0;
   0x202000; 0x0; 0x0; 0x0; 0x0; 0xfff000; 0x1fff154; 0xc033f8;
   0x1c033fc; 0xfff318; 0x1fff31c; 0xc03318; 0x1c0331c; 0xfff318; 0x1fff31c; 0x318;
   0x318; 0x1fffb18; 0x1fffb1c; 0x1801b18; 0x1801bfc; 0x1fffbf8; 0x1fff81c; 0x1801818;
   0x1801814; 0x1801800; 0x1fff800; 0x1fff800; 0x1801800; 0x0; 0x0; 0x0].
Definition hanzi_data_64 : list N :=
  [0x0; 0x202000; 0x0; 0x0; 0x0; 0x70000; 0x60000; 0xe0154;
   0x3fff9f8; 0x3fff9fc; 0x3803988; 0x380399c; 0x3803988; 0x3fff99c; 0x3fff988; 0x155799c;
   0xcc3988; 0x1dc399c; 0x38c3988; 0x3fff99c; 0x3fff988; 0x15d59fc; 0x1c19f8; 0x1e1c1c;
   0x3e0c08; 0x770c14; 0xe38e00; 0x1c1e700; 0x380ff00; 0x3003200; 0x0; 0x0;
   0x0; 0x0; 0x202000; 0x0; 0x0; 0x0; 0x70000; 0x30000;
   0x30000; 0x383f8; 0x3fffffc; 0x3ffff08; 0x71c31c; 0x60e308; 0xe6731c; 0x1c63b08;
   0x7ffff1c; 0x3ffff08; 0x1c63f1c; 0xc63b08; 0x1fffb1c; 0xfffb08; 0x1c63bfc; 0xc63bf8;
   0x1fff81c; 0xfff808; 0x7063800; 0x2060000; 0x3560000; 0x3fe0000; 0x1fc0000; 0x0;
   0x0; 0x0; 0x0; 0x202000; 0x0; 0x0; 0x0; 0x70000;
   0x60000; 0x1575554; 0x3fffdf8; 0x7fffdfc; 0x318188; 0x71c19c; 0xe06188; 0x1fffd9c;
   0x3fff988; 0x300599c; 0xaaa188; 0x1fff19c; 0xc03188; 0x1c0319c; 0xfff188; 0x1fff1fc;
   0xc031f8; 0x1d5701c; 0xfff008; 0x1d57014; 0xc03000; 0x1c03000; 0xf83000; 0x783000;
   0x0; 0x0; 0x0; 0x0; 0x202000; 0x0; 0x0; 0x0;
   0x30000; 0x70000; 0x70154; 0x1fff9fc; 0x1fffdfc; 0x60618c; 0x70e19c; 0x30c18c;
   0x39c19c; 0x3fffd8c; 0x3fffd9c; 0x3018c; 0x3819c; 0x1818c; 0x7fffd9c; 0x3fffd8c;
   0x7061fc; 0x7071fc; 0x38f81c; 0x3bf00c; 0x1fc014; 0x7f8000; 0x1f7f000; 0x3c0fe00;
   0x1801c00; 0x0; 0x0; 0x0; 0x0; 0x202000; 0x0; 0x0;
   0x0; 0x400000; 0xfe0000; 0x1fff954; 0x6f9fc; 0x601fc; 0x6018c; 0x3fffd9c;
   0x3fffd8c; 0x3fffd9c; 0xe6318c; 0xe6319c; 0x2eebb8c; 0x3ffff9c; 0x3ffff8c; 0xe6319c;
   0xe6318c; 0xe631fc; 0x3fffdfc; 0x3fffc1c; 0x6000c; 0x60004; 0x60000; 0x1fffc00;
   0x1fff800; 0x0; 0x0; 0x0; 0x0; 0x0; 0x202000; 0x0;
   0x0; 0x0; 0x6000; 0x6000; 0x7154; 0x3fff1fc; 0x3fff9fc; 0x3b3b98c;
   0x3b99d9c; 0x3998d8c; 0x19cc19c; 0x18ce18c; 0x18c719c; 0x186398c; 0x1c71d9c; 0x1fb898c;
   0xf1019c; 0x2218c; 0x1c7f9fc; 0x18ef9fc; 0x19cfc1c; 0x388ec0c; 0x360ec14; 0x360ec00;
   0x17fee00; 0x3fc000; 0x1f0000; 0x0; 0x0; 0x0; 0x0; 0x202000;
   0x0; 0x0; 0x0; 0x0; 0x1fff800; 0x1fff954; 0x1aab9f8; 0x18619fc;
   0x1861988; 0x1bfd99c; 0x1bfd988; 0x186199c; 0x1861988; 0x1ffd99c; 0x1bfd988; 0x180199c;
   0x1801988; 0x1bfdd9c; 0x1bfc988; 0x1b0ddfc; 0x1b0cdf8; 0x1b0cc1c; 0x1bfcc08; 0x1bfce14;
   0x180c600; 0x1d00700; 0x1f00380; 0x1f00100; 0x0; 0x0; 0x0; 0x0;
   0x202000; 0x0; 0x0; 0x0; 0xe0000; 0xe0000; 0xe7154; 0xfe61f8;
   0x1fe71fc; 0xe6188; 0xe719c; 0x3fffd88; 0x7fffd98; 0x188; 0x19c; 0xfff188;
   0x1fff19c; 0xc03188; 0x1fff19c; 0xfff188; 0x1c031fc; 0xc031f8; 0x1fff01c; 0xfff008;
   0x1c03014; 0xc03000; 0x1c03000; 0xf83000; 0x783000; 0x0; 0x0; 0x0;
   0x0; 0x202000; 0x0; 0x0; 0x0; 0x0; 0x0; 0x3fffd54;
   0x3fffdf8; 0x701fc; 0x38188; 0x1c19c; 0x303f188; 0x3c37d9c; 0x1e61f88; 0x77159c;
   0x7fb988; 0x7df19c; 0xec7988; 0xde7d9c; 0xdecd88; 0x1dfc5fc; 0x199c1f8; 0x19cf01c;
   0x39c7808; 0x71c1e14; 0x20c0c00; 0xf4000; 0x7e000; 0x3c000; 0x0; 0x0;
   0x0; 0x0; 0x202000; 0x0; 0x0; 0x0; 0x7000; 0x6000;
   0xe000; 0x3fffffc; 0x3fffffc; 0xc0300; 0xe0700; 0x60e00; 0x1575750; 0xfffff0;
   0x1fffff0; 0xc31c30; 0x1c70e30; 0xde0730; 0x1fc03f0; 0xf7feb0; 0x1c7fe30; 0xc60630;
   0x1c60630; 0xc60630; 0x1c7fe30; 0xc2ae30; 0x1c00630; 0xfc0030; 0x7c0030; 0x0;
   0x0; 0x0; 0x0; 0x202000; 0x0; 0x0; 0x0; 0x707000;
   0x306000; 0x7071fc; 0x3061f8; 0x70719c; 0x306188; 0x3fdff9c; 0x3fdff88; 0x707198;
   0x707188; 0xf8f19c; 0xf8f988; 0xf9f99c; 0xb96988; 0x1fd7d9c; 0x1bc6d88; 0x3767dfc;
   0x33667f8; 0x777771c; 0x233e308; 0x71731c; 0x306000; 0x707000; 0x306000; 0x707000;
   0x0; 0x0; 0x0; 0x0; 0x202000; 0x0; 0x0; 0x0;
   0x0; 0x3fffc00; 0x7fffdfc; 0x3aaecf8; 0x1806dfc; 0x1806c88; 0x1bf6ddc; 0x1be2c88;
   0x1b73ddc; 0x1b23c88; 0x1b37ddc; 0x1b26c88; 0x1b36ddc; 0x1b2cc88; 0x1b3cddc; 0x1b2cca8;
   0x1bfcdfc; 0x1beecf8; 0x1837c1c; 0x1822c08; 0x1800c1c; 0x1800c00; 0x1d00c00; 0x1f00c00;
   0xf00c00; 0x0; 0x0; 0x0; 0x0; 0x202000; 0x0; 0x0;
   0x0; 0x70000; 0x70000; 0x60154; 0x3fffdf8; 0x3fffdf8; 0x2aaa988; 0x60c19c;
   0x70e188; 0x70619c; 0x387188; 0x78f19c; 0xfdf988; 0x1cf9d9c; 0x18c0d88; 0x7019c;
   0x60188; 0x7fffdfc; 0x3fffdf8; 0x7fffc1c; 0x60008; 0x70014; 0x60000; 0x70000;
   0x60000; 0x70000; 0x0; 0x0; 0x0; 0x0; 0x202000; 0x0;
   0x0; 0x0; 0x6000; 0x6000; 0x7154; 0x31f8; 0x3fff9fc; 0x3fff988;
   0x3805d9c; 0x3806f88; 0x39ff79c; 0x39ff388; 0x381b99c; 0x3819988; 0x381919c; 0x3bff988;
   0x3bffd9c; 0x3b19988; 0x1b199fc; 0x1b199f8; 0x1b1981c; 0x1bff808; 0x1bff814; 0x1800000;
   0x1c00000; 0xf80000; 0xf80000; 0x0; 0x0; 0x0; 0x0; 0x202000;
   0x0; 0x0; 0x0; 0x60000; 0x60000; 0x18663fc; 0x18623f8; 0x1c733fc;
   0xe63b08; 0x671f1c; 0x1f8b08; 0x7fc31c; 0xf1e308; 0x3c0ff1c; 0x3863f08; 0x1060f1c;
   0x60308; 0x386331c; 0x18633f8; 0x1c71bfc; 0xef1c08; 0x7f1e1c; 0x1b8008; 0x39c000;
   0x70f000; 0x1e07c00; 0x3c01f00; 0x3000600; 0x0; 0x0; 0x0; 0x0;
   0x202000; 0x0; 0x0; 0x0; 0x0; 0xa8a800; 0x3fdfdfc; 0x1a9a9f8;
   0x181c19c; 0xccd988; 0xfcfd9c; 0xf0f188; 0x1f1f19c; 0x3bbb988; 0x31d1d9c; 0xe0f88].
Definition hanzi_data_65 : list N :=
  [0x4059c; 0x3fffd88; 0x3fffd9c; 0x38d8188; 0x18dc5fc; 0x1d8cdf8; 0xd8fc1c; 0xf87008;
   0x71f01c; 0xf9f800; 0x1de9e00; 0x38f8f00; 0x3030300; 0x0; 0x0; 0x0;
   0x0; 0x202000; 0x0; 0x0; 0x0; 0x39c000; 0x398000; 0x39c154;
   0x3981f8; 0x179d5fc; 0x3f9f988; 0x3f9fd9c; 0x398188; 0x39c19c; 0x398188; 0x3f9f99c;
   0x3f9f988; 0x179d19c; 0x398188; 0x39c19c; 0x398188; 0x7f9fdfc; 0x3f9fdf8; 0x39c01c;
   0x398008; 0x39c014; 0x398000; 0x39c000; 0x398000; 0x39c000; 0x0; 0x0;
   0x0; 0x0; 0x202000; 0x0; 0x0; 0x0; 0xe0000; 0xe0000;
   0x70000; 0x1fffbf8; 0x1fffbfc; 0x1863b08; 0x1863b1c; 0x1fffb08; 0x1fffb1c; 0x1863b08;
   0x1863b1c; 0x1aebb08; 0x1fffb1c; 0xbba308; 0x1bc31c; 0x18e3a8; 0x1873fc; 0x2babaa8;
   0x7fffc1c; 0x2baa808; 0x180000; 0x180000; 0x180000; 0x180000; 0x180000; 0x0;
   0x0; 0x0; 0x0; 0x202000; 0x0; 0x0; 0x0; 0x60000;
   0x70000; 0xf81fc; 0x1d81f8; 0x39e1fc; 0xf0f188; 0x1e07d9c; 0x7aabf88; 0x37fe79c;
   0x2ea188; 0x6019c; 0x60188; 0x3fffd9c; 0x3fffd88; 0x6019c; 0x60188; 0x1fff1fc;
   0xfff1f8; 0x1c0315c; 0xc03008; 0x1c0301c; 0xc03000; 0x1fff000; 0xfff000; 0x1c03000;
   0x0; 0x0; 0x0; 0x0; 0x202000; 0x0; 0x0; 0x0;
   0x183800; 0x383800; 0x303954; 0x3038fc; 0x7039fc; 0x3ffba8c; 0x3ffffdc; 0xfe8c;
   0x18639dc; 0x186388c; 0x18639dc; 0x186388c; 0x1c6f9dc; 0xcef88c; 0x1cc3fdc; 0xcc3e8c;
   0xcc39fc; 0xcc38fc; 0xcc381c; 0xec380c; 0x6c3804; 0x603800; 0x7ffb800; 0x3ffbe00;
   0x1c00; 0x0; 0x0; 0x0; 0x0; 0x202000; 0x0; 0x0;
   0x0; 0x60000; 0x60000; 0x1fffd54; 0x3fff9f8; 0x601fc; 0xaea988; 0x1fff99c;
   0x60188; 0x7fffd9c; 0x3fffd88; 0x155559c; 0xaaa188; 0x1fff99c; 0x1aab988; 0x1c4399c;
   0x1863988; 0x1c639fc; 0x18639f8; 0x1c6381c; 0x1863808; 0x15f1014; 0x3bc000; 0x1f1f000;
   0x3c07e00; 0x1001c00; 0x0; 0x0; 0x0; 0x0; 0x202000; 0x0;
   0x0; 0x0; 0x703000; 0x303000; 0x303154; 0x3030fc; 0x1831fc; 0x1feba8c;
   0x1feffdc; 0x186fe8c; 0x18631dc; 0x186308c; 0x18631dc; 0x186b08c; 0x187f1dc; 0x1fefe8c;
   0x1fe3fdc; 0x186328c; 0x18631fc; 0x18630fc; 0x186301c; 0x186300c; 0x1863004; 0x1fe3000;
   0x1fe3000; 0x1ae3e00; 0x1861c00; 0x0; 0x0; 0x0; 0x0; 0x202000;
   0x0; 0x0; 0x0; 0x70000; 0x30000; 0x3870154; 0x1bffbf8; 0x1fffbfc;
   0xeba388; 0x77039c; 0x330388; 0x7ffff9c; 0x3fffb88; 0x7ffff9c; 0x78388; 0x3c39c;
   0x1ffe388; 0x1ffff9c; 0x1c0ff88; 0x1c0ebfc; 0x1ffe3f8; 0x1ffe01c; 0x1c0e008; 0x1c0e014;
   0x1c0e000; 0x1ffe000; 0x1ffe000; 0x1c0e000; 0x0; 0x0; 0x0; 0x0;
   0x202000; 0x0; 0x0; 0x0; 0x6000; 0x6000; 0x1fffff8; 0xfffff8;
   0x1557550; 0x3060e0; 0x3861c0; 0x186380; 0x55d7554; 0x3fffffc; 0x7fffffc; 0x0;
   0x7ffff0; 0x7fffe0; 0x600070; 0x62aa60; 0x67fe70; 0x660660; 0x660670; 0x67fe60;
   0x67fe70; 0x600060; 0x7ffff0; 0x7fffe0; 0x600070; 0x0; 0x0; 0x0;
   0x0; 0x202000; 0x0; 0x0; 0x0; 0x703000; 0x303000; 0x7031fc;
   0x3fffff8; 0x3ffff9c; 0x2babb88; 0x301998; 0x387988; 0x7ff7d9c; 0x3ff6d88; 0x15d6d9c;
   0x18ef88; 0x1dff9c; 0x3fdff88; 0x1fc619c; 0x1806188; 0x1c361fc; 0xcbf9f8; 0xfdfe1c;
   0x786e08; 0x78601c; 0x706000; 0xe06000; 0xc06000; 0x406000; 0x0; 0x0;
   0x0; 0x0; 0x202000; 0x0; 0x0; 0x0; 0xe0000; 0xe0000;
   0xe7154; 0x1fe21fc; 0x1fe71fc; 0xe218c; 0xe719c; 0xe218c; 0x7ffff9c; 0x3ffff8c;
   0x6019c; 0x186198c; 0x186199c; 0x186198c; 0x187199c; 0x18f198c; 0x19f19fc; 0x1bb99fc;
   0x1f1d81c; 0x1a0d80c; 0x1805804; 0x1fff800; 0x1fff800; 0x1800000; 0x1800000; 0x0;
   0x0; 0x0; 0x0; 0x202000; 0x0; 0x0; 0x0; 0x0;
   0x3fff800; 0x3fff954; 0x3333bf8; 0x3333bfc; 0x3333b08; 0x3333b1c; 0x3fffb08; 0x3fffb1c;
   0x38308; 0x1831c; 0xabc308; 0x1ffc31c; 0x1aae308; 0x1c0731c; 0xe1bb08; 0x73dffc;
   0x7f03f8; 0x3e001c; 0x1c0008; 0xf0014; 0x78000; 0x1f000; 0xfc00; 0x1800;
   0x0; 0x0; 0x0; 0x0; 0x202000; 0x0; 0x0; 0x0;
   0x406000; 0xe06000; 0x70e154; 0x70c3f8; 0x39c3fc; 0x180388; 0x3fffb9c; 0x3fffb88;
   0x38e3b9c; 0x38e3b88; 0x3fffb9c; 0x3fffb88; 0x38e3b9c; 0x38e3b88; 0x3fffb9c; 0x3fffb88;
   0xe03fc; 0xe03f8; 0x7fffc1c; 0x3fffc08; 0xe0014; 0xe0000; 0xe0000; 0xe0000;
   0xe0000; 0x0; 0x0; 0x0; 0x0; 0x202000; 0x0; 0x0;
   0x0; 0x180000; 0x180e00; 0x181d54; 0x1839f8; 0x3ffd1fc; 0x3ffc188; 0x199c1dc;
   0x198c188; 0x199c7dc; 0x18cf88; 0x1ffdddc; 0x1ffd988; 0x1d7c1dc; 0x186c188; 0x1c7c1dc;
   0xcec988; 0xecdddc; 0x6ccdf8; 0x7ccdfc; 0x38ec08; 0x7c6e1c; 0xee6608; 0x1e77700;
   0x383b300; 0x1013000; 0x0; 0x0; 0x0; 0x0; 0x202000; 0x0;
   0x0; 0x0; 0x70000; 0x60000; 0x60154; 0x2aea9f8; 0x3fffdfc; 0x3aab988;
   0x3001d9c; 0x3001988; 0x19c; 0x1fff988; 0x1fff99c; 0x60188; 0x6019c; 0x63188;
   0x6319c; 0xfe3188; 0x1fe31fc; 0x631f8; 0x6781c; 0x67808; 0x6f814; 0x7dc00;
   0x7ff8c00; 0x3fe0e00; 0x3f40400; 0x0; 0x0; 0x0; 0x0; 0x202000;
   0x0; 0x0; 0x0; 0x3000; 0x7000; 0x3f86154; 0x3fae9fc; 0x31bfdfc;
   0x39bad8c; 0x19b0d9c; 0x19b0d8c; 0x1dbfd9c; 0xdbfd8c; 0xdb0d9c; 0x9b0d8c; 0x19bfd9c;
   0x39bfd8c; 0x3180d9c; 0x3188d8c; 0x718cdfc; 0x3188dfc; 0x3198c1c; 0x3b9cc0c; 0x3dbfc04;
   0x1b3c00; 0x1b1e00; 0x180000; 0x180000; 0x0; 0x0; 0x0; 0x0].
Definition hanzi_data_66 : list N :=
  [0x202000; 0x0; 0x0; 0x0; 0x70000; 0x30000; 0x1fff9fc; 0x1fff9f8;
   0x1c7019c; 0x1830188; 0x7ffff9c; 0x3ffff88; 0x1c7019c; 0x1830188; 0x1fffd9c; 0x1fff988;
   0x7019c; 0x1830d88; 0x19f5d9c; 0x19bcd88; 0x1975dfc; 0x1b36df8; 0x1b76c1c; 0x1b36c08;
   0x1f77c1c; 0x1a33e00; 0x1872600; 0x1830700; 0x1870200; 0x0; 0x0; 0x0;
   0x0; 0x202000; 0x0; 0x0; 0x0; 0x7000; 0x6000; 0x1fffff0;
   0xfffff0; 0x1c0300; 0xe0700; 0x1fffffc; 0x3fffff8; 0x380601c; 0x3806018; 0x3fffffc;
   0xbfffe0; 0x7060e0; 0x3060e0; 0x7e60e0; 0x3e60e0; 0x6000; 0x7fffe0; 0x7fffe0;
   0x600060; 0x700060; 0x600060; 0x7fffe0; 0x7fffe0; 0x700060; 0x0; 0x0;
   0x0; 0x0; 0x202000; 0x0; 0x0; 0x0; 0x70000; 0x60000;
   0x1575154; 0x3fff9f8; 0x3fff9fc; 0x60e188; 0x70c19c; 0x30c188; 0x3fffd9c; 0x3fff988;
   0x3041d9c; 0x3060988; 0x3061d9c; 0x1fff188; 0x1fff19c; 0x1863188; 0x1c631fc; 0x18631f8;
   0x1c6301c; 0x1863008; 0x1f63014; 0xe63000; 0x60000; 0x60000; 0x60000; 0x0;
   0x0; 0x0; 0x0; 0x202000; 0x0; 0x0; 0x0; 0x710000;
   0x31e000; 0x71fffc; 0x303ef8; 0x7071dc; 0x303088; 0x37471dc; 0x3343088; 0x375ffdc;
   0x337fe88; 0x1f671dc; 0x1b67888; 0x1f7f9dc; 0x170f888; 0x71fddc; 0x79bc88; 0x787ffc;
   0xf836f8; 0xdc771c; 0xcc3308; 0x1cc721c; 0x18e3000; 0x3877000; 0x3033000; 0x1027000;
   0x0; 0x0; 0x0; 0x0; 0x202000; 0x0; 0x0; 0x0;
   0x70000; 0x60000; 0x15f55fc; 0x3fffbf8; 0x3fffffc; 0x3038b88; 0x301df9c; 0x2ffcb88;
   0xffe39c; 0x60f388; 0x71ff9c; 0x3b9b88; 0x1f039c; 0x3f8388; 0xfbe39c; 0x7e0ff88;
   0x3d57f9c; 0xffe3a8; 0xfff3fc; 0xe020a8; 0xe0701c; 0xe02008; 0xfff000; 0xffe000;
   0xe07000; 0x0; 0x0; 0x0; 0x0; 0x202000; 0x0; 0x0;
   0x0; 0x0; 0x1fff800; 0x1fff950; 0x18639f8; 0x1c639fc; 0x1fff988; 0x1fff99c;
   0x1863988; 0x1c6399c; 0x1fff988; 0x1fff99c; 0x60188; 0x6019c; 0x3fff988; 0x3fffd9c;
   0x38609f8; 0x3b61dfc; 0x3a608a8; 0x3ff1c1c; 0x3ffe808; 0x3c7fc00; 0x3800800; 0x3801c00;
   0x3e00800; 0x1e01c00; 0x0; 0x0; 0x0; 0x0; 0x202000; 0x0;
   0x0; 0x0; 0x0; 0x1fff800; 0x1fff950; 0x18639f8; 0x18639fc; 0x1fff998;
   0x1fff99c; 0x1863998; 0x186399c; 0x1aeb998; 0x1fff99c; 0xaaa198; 0x198; 0x3fffd98;
   0x7fffd9c; 0xe3198; 0x10c71fc; 0x3cc31f8; 0x1fc701c; 0x783018; 0x707010; 0xe63000;
   0x1e7f000; 0x783f800; 0x3007000; 0x0; 0x0; 0x0; 0x0; 0x202000;
   0x0; 0x0; 0x0; 0x60000; 0x60000; 0x601fc; 0x3fffdfc; 0x7fffdfc;
   0x6018c; 0x7019c; 0x6018c; 0x3fffd9c; 0x3fff98c; 0x3b1dd9c; 0x3b9998c; 0x3999d9c;
   0x38c198c; 0x3bfdd9c; 0x3ae998c; 0x3861dfc; 0x3aeb9fc; 0x3fffd5c; 0x386180c; 0x3861c1c;
   0x3861800; 0x3861c00; 0x3e61800; 0x1e01c00; 0x0; 0x0; 0x0; 0x0;
   0x202000; 0x0; 0x0; 0x0; 0x1c0100; 0xc0380; 0xe0700; 0x1fffff8;
   0x1fffff8; 0x6000; 0x7fffe0; 0x7fffe0; 0x6000; 0x6000; 0x3fffffc; 0x3fffff8;
   0x3861c0; 0x186180; 0x3fffffc; 0x3fffffc; 0x0; 0x2aaaa0; 0x7fffe0; 0x6000e0;
   0x7000e0; 0x6000e0; 0x7fffe0; 0x7fffe0; 0x7000e0; 0x0; 0x0; 0x0;
   0x0; 0x202000; 0x0; 0x0; 0x0; 0x1801c0; 0x180180; 0x1801c0;
   0x180180; 0x7ffdffe; 0x3ffdffe; 0x1801c0; 0x180180; 0x1801c0; 0x180180; 0x3ffdffc;
   0x3ffdffc; 0x0; 0x0; 0x1ff9ff8; 0x1ff9ff8; 0x1ff9ff8; 0x1819818; 0x1819c18;
   0x1819818; 0x1819c18; 0x1819818; 0x1ff9ff8; 0x1ff9ff8; 0x1819c18; 0x0; 0x0;
   0x0; 0x0; 0x202000; 0x0; 0x0; 0x0; 0x1806000; 0x1806000;
   0x1806154; 0x1b7fef8; 0x1b7fffc; 0x1b06088; 0x1b061dc; 0x1b3fe88; 0x1b3ffdc; 0x1b26688;
   0x1b367dc; 0x1b26688; 0x1b367dc; 0x1b3fe88; 0x1b3ffdc; 0x1b07088; 0x1b1f1fc; 0x1b3f8f8;
   0x1877c1c; 0x1866e08; 0x1806704; 0x1806700; 0x1806300; 0x1f06100; 0x1f06000; 0x0;
   0x0; 0x0; 0x0; 0x202000; 0x0; 0x0; 0x0; 0x1c3800;
   0xc3800; 0x11c3954; 0x38c39f8; 0x1fff9fc; 0x7ff988; 0x1c399c; 0x30c3988; 0x71c399c;
   0x30ff988; 0x3fffd9c; 0x1fa3988; 0x7019c; 0x30188; 0x1fff99c; 0x1aab988; 0x1c039fc;
   0x18039f8; 0x1fff81c; 0x1fff808; 0x1c03814; 0x1803800; 0x1fff800; 0x1fff800; 0x1c03800;
   0x0; 0x0; 0x0; 0x0; 0x202000; 0x0; 0x0; 0x0;
   0x6000; 0xff6000; 0xff71fc; 0xc031f8; 0xc0319c; 0xc03988; 0x7ffdd9c; 0x3ffdd88;
   0x71f9c; 0x31f88; 0x1571f9c; 0x3ff9b88; 0x3ffdd9c; 0x18d988; 0x18fd9c; 0x181988;
   0x7fffdfc; 0x3fff9f8; 0x3c1c1c; 0x3c1808; 0x7e1c1c; 0xe71800; 0x1c3dc00; 0x781f800;
   0x3005c00; 0x0; 0x0; 0x0; 0x0; 0x202000; 0x0; 0x0;
   0x0; 0x580000; 0xd80000; 0x3980154; 0x31801f8; 0x3fffdfc; 0x3fffd88; 0x15d5d9c;
   0x180d88; 0x11ffd9c; 0x33fed88; 0x1b01d9c; 0x1b00d88; 0x1b7fd9c; 0xb7ed88; 0xf66d9c;
   0xf66d88; 0x766dfc; 0x76edf8; 0x277ec1c; 0x6786c08; 0x67c6c14; 0x2ee0600; 0x3c70600;
   0x3c38600; 0x1810400; 0x0; 0x0; 0x0; 0x0; 0x202000; 0x0;
   0x0; 0x0; 0x630000; 0x633000; 0x6331fc; 0x6331fc; 0x3fffd9c; 0x3fffd8c;
   0x63319c; 0x63318c; 0x7f319c; 0x7f318c; 0x319c; 0x2aab18c; 0x3fff19c; 0x2aea18c;
   0x7019c; 0x2aea98c; 0x3fffdfc; 0x2afa9fc; 0x1fc01c; 0x3ee00c; 0x77701c; 0x1e63c00;
   0x7c71f00; 0x3060e00; 0x70000; 0x0; 0x0; 0x0; 0x0; 0x202000;
   0x0; 0x0; 0x0; 0x71c000; 0x70c000; 0x71c154; 0x3fffff8; 0x3fffffc;
   0x70c388; 0x71c39c; 0x238388; 0x3039c; 0x38388; 0x7ffff9c; 0x3ffff88; 0x1c39c].
Definition hanzi_data_67 : list N :=
  [0xc388; 0xe39c; 0x1ffe388; 0x1fff3fc; 0x180fbf8; 0x1c0dc1c; 0x180ce08; 0x1c0cc14;
   0x180c000; 0x1ffc000; 0x1ffc000; 0x1c0c000; 0x0; 0x0; 0x0; 0x0;
   0x202000; 0x0; 0x0; 0x0; 0x70000; 0x60000; 0x60154; 0x1fffbf8;
   0x1fffbf8; 0xe06388; 0x60e39c; 0x60c388; 0x71c39c; 0x3ffff88; 0x7ffff9c; 0x388;
   0x39c; 0x1fff388; 0x1fff39c; 0x1803388; 0x1c033fc; 0x1aab3f8; 0x1fff01c; 0x1803008;
   0x1c03014; 0x1803000; 0x1fff000; 0x1fff000; 0x1c03000; 0x0; 0x0; 0x0;
   0x0; 0x202000; 0x0; 0x0; 0x0; 0x0; 0x1fff800; 0x1fff954;
   0x1801bf8; 0x1801bfc; 0x1fffb88; 0x1fffb9c; 0x1b88; 0x1b9c; 0x3fffb88; 0x3fffb9c;
   0x231b88; 0x639b9c; 0xe1db88; 0x1fffb9c; 0x1affb88; 0xc1ffc; 0xc0ff8; 0x1fffc1c;
   0x1ffec08; 0xc0c14; 0xc0e00; 0x7fff700; 0x3fffb00; 0x1555300; 0x0; 0x0;
   0x0; 0x0; 0x202000; 0x0; 0x0; 0x0; 0x60000; 0x1861800;
   0x1861954; 0x18619fc; 0x18619fc; 0x186198c; 0x1fff99c; 0x1fff98c; 0x19c; 0x18c;
   0x7fffd9c; 0x3fffd8c; 0x7019c; 0x3018c; 0x3fffd9c; 0x3fff98c; 0x3999dfc; 0x39999fc;
   0x3999c1c; 0x399980c; 0x3999c14; 0x3999800; 0x3999c00; 0x3f99800; 0x1d99c00; 0x0;
   0x0; 0x0; 0x0; 0x202000; 0x0; 0x0; 0x0; 0xe000;
   0x6000; 0xffe154; 0x7fe1fc; 0x6071fc; 0x60318c; 0x7ff19c; 0x7ff98c; 0x70019c;
   0x3ffff8c; 0x7ffff9c; 0x3818c; 0x181f19c; 0x3e3bf8c; 0xf71d9c; 0x3fc18c; 0x6ef1fc;
   0x6e3ffc; 0x6f1c1c; 0xcfc00c; 0x1ccf014; 0x38c3c00; 0x70e1f00; 0x20fc200; 0x7c000;
   0x0; 0x0; 0x0; 0x0; 0x202000; 0x0; 0x0; 0x0;
   0x6000; 0x6000; 0x3fffffc; 0x3fffff8; 0x6000; 0xffffe0; 0xfffff0; 0x0;
   0x7fffc0; 0x3fffc0; 0x7000c0; 0x3000c0; 0x7fffc0; 0xc0300; 0xe0700; 0x3fffffc;
   0x3fffffc; 0x0; 0x7fffe0; 0x7fffe0; 0x7000e0; 0x6000e0; 0x7fffe0; 0x7fffe0;
   0x7000e0; 0x0; 0x0; 0x0; 0x0; 0x202000; 0x0; 0x0;
   0x0; 0x0; 0x1fff000; 0x1fff154; 0x18033f8; 0x1c033fc; 0x1fff388; 0x1fff39c;
   0x1803388; 0x1fff39c; 0x1fff388; 0x155739c; 0x6388; 0x3fff39c; 0x3fffb88; 0x30c1f9c;
   0x30e0f88; 0x30e3ffc; 0x39f3bf8; 0x339f81c; 0x3a0b808; 0x3fff814; 0x3fff800; 0x1800000;
   0x1f00000; 0x1f00000; 0x0; 0x0; 0x0; 0x0; 0x202000; 0x0;
   0x0; 0x0; 0x0; 0x1fff800; 0x1fffd54; 0x18619f8; 0x1861dfc; 0x1fff988;
   0x1fffd9c; 0x1861988; 0x1d75d9c; 0x1fff988; 0x1fffd9c; 0x188; 0x1fff19c; 0xfff188;
   0x1c0319c; 0xfff188; 0x1fff1fc; 0xc031f8; 0x1d5701c; 0xfff008; 0x1fff014; 0xc03000;
   0x1c03000; 0xf83000; 0xf03000; 0x0; 0x0; 0x0; 0x0; 0x202000;
   0x0; 0x0; 0x0; 0x60000; 0x60000; 0x1fff000; 0x1fff3f8; 0x1d573fc;
   0x1c03308; 0x1fff31c; 0x1fff308; 0x1c0331c; 0x1c03308; 0x1fff31c; 0x1fff308; 0x31c;
   0x308; 0x3fffb1c; 0x3fffbf8; 0x603fc; 0x602a8; 0x1fff81c; 0x1fff808; 0x60000;
   0x60000; 0x7fffe00; 0x3fffe00; 0x5555400; 0x0; 0x0; 0x0; 0x0;
   0x202000; 0x0; 0x0; 0x0; 0x70000; 0x60000; 0x60154; 0x3fffdfc;
   0x3fffdfc; 0x3000d8c; 0x3001d9c; 0x3fffd8c; 0xfff19c; 0x18c; 0xfff19c; 0xfff18c;
   0xd5719c; 0xc0318c; 0xd5719c; 0xfff18c; 0xd571fc; 0xc031fc; 0xd5701c; 0xfff00c;
   0xfff014; 0x0; 0x7fffe00; 0x3fffe00; 0x1555400; 0x0; 0x0; 0x0;
   0x0; 0x202000; 0x0; 0x0; 0x0; 0x0; 0x2aaa800; 0x3fffc00;
   0x3fffdf8; 0x1dfc; 0xaa8d88; 0x1ffdd9c; 0x188cd88; 0x19cdd9c; 0x1aacd88; 0x1ffdd9c;
   0x188cd88; 0x19cdd9c; 0x1ffcd88; 0x1ffdd9c; 0xc0df8; 0x1c0dfc; 0x1ffeca8; 0x1ffec1c;
   0xc0e08; 0x1c0600; 0xc0600; 0x7fff700; 0x3fff300; 0x200; 0x0; 0x0;
   0x0; 0x0; 0x202000; 0x0; 0x0; 0x0; 0x70000; 0x60000;
   0x70150; 0x3fffdf8; 0x3fffdfc; 0x2bfa988; 0x3fc19c; 0x76e188; 0x1e7719c; 0x3c63d88;
   0x7871f9c; 0x2aaa588; 0xfff19c; 0xeab188; 0xc0319c; 0xfff188; 0xfff1fc; 0xc031f8;
   0xd571fc; 0xfff008; 0xfff01c; 0x0; 0x3fffe00; 0x3fffe00; 0x0; 0x0;
   0x0; 0x0; 0x0; 0x202000; 0x0; 0x0; 0x0; 0x70c000;
   0x30c000; 0x70c1fc; 0x30c1fc; 0x7fffdfc; 0x3fffd8c; 0x70c19c; 0x30c18c; 0x70c19c;
   0x18c; 0x1fff99c; 0x1fff98c; 0x186199c; 0x186198c; 0x186199c; 0x186198c; 0x1fff9fc;
   0x1fff9fc; 0x186195c; 0x186180c; 0x186181c; 0x1aeb800; 0x1fff800; 0x1aab800; 0x1801800;
   0x0; 0x0; 0x0; 0x0; 0x202000; 0x0; 0x0; 0x0;
   0x60000; 0x60000; 0x1fff954; 0x1fff9fc; 0x15751fc; 0x66618c; 0x64619c; 0x3fffd8c;
   0x3fffd9c; 0x60618c; 0x60619c; 0xfff98c; 0x1fff99c; 0xc0398c; 0x1c4399c; 0xc6398c;
   0x1c639fc; 0xc639fc; 0x1c6381c; 0xc7380c; 0x1f1004; 0xfbc000; 0x1e1fc00; 0x7803e00;
   0x3000600; 0x0; 0x0; 0x0; 0x0; 0x202000; 0x0; 0x0;
   0x0; 0x70000; 0x30000; 0x301fc; 0x3fffdf8; 0x3fffddc; 0x38e188; 0x74719c;
   0xe63988; 0x3c71f9c; 0x3ffff88; 0x27ff59c; 0x60188; 0x7019c; 0x1fff988; 0x1fffd9c;
   0x20188; 0x7019c; 0x601f8; 0xfff9fc; 0xaea808; 0x7001c; 0x60008; 0x3fffe00;
   0x3fffe00; 0x0; 0x0; 0x0; 0x0; 0x0; 0x202000; 0x0;
   0x0; 0x0; 0x60000; 0x60000; 0xf81fc; 0x1dc1f8; 0x79f19c; 0xe07988;
   0x7d55f9c; 0x37fef88; 0x7ff19c; 0x800188; 0x193fd9c; 0x19bfd88; 0x19b1d9c; 0x19b0d88;
   0x19bfd9c; 0x19bfd88; 0x19b1dfc; 0x19badf8; 0x19bfc1c; 0x19b0c08; 0x19b1c1c; 0x1830c00;
   0x1835c00; 0x1f3cc00; 0xf1dc00; 0x0; 0x0; 0x0; 0x0; 0x202000].
Definition hanzi_data_68 : list N :=
  [0x0; 0x0; 0x0; 0x470000; 0xc61800; 0xe73954; 0x6631f8; 0x7771fc;
   0x3fffd88; 0x3fffd98; 0x1f8188; 0x3fc19c; 0xf6f188; 0x1e77d9c; 0x3861f88; 0x107059c;
   0x38188; 0x155d59c; 0x3fffd88; 0x3fffdfc; 0x30e1f8; 0x38701c; 0x1cf808; 0x1fe014;
   0x3f8000; 0xfff000; 0x1e0fe00; 0xc01c00; 0x0; 0x0; 0x0; 0x0;
   0x202000; 0x0; 0x0; 0x0; 0x603040; 0x603060; 0x7070e0; 0x38e1c0;
   0x1861c0; 0x1fffff8; 0x1fffff8; 0x1806018; 0x180619c; 0x1806198; 0x7fffc0; 0x2aeae0;
   0x6070; 0x6020; 0x3fffffc; 0x3fffffc; 0x0; 0x2aaaa0; 0x7fffe0; 0x6aaae0;
   0x600060; 0x600060; 0x7fffe0; 0x7fffe0; 0x600060; 0x0; 0x0; 0x0;
   0x0; 0x202000; 0x0; 0x0; 0x0; 0x0; 0x2aaa800; 0x3fffc00;
   0x603f8; 0x703fc; 0xfff308; 0x1fff31c; 0xc03308; 0x1fff31c; 0xeab308; 0x1d5731c;
   0xfff308; 0x1c0331c; 0xeab308; 0x1fff31c; 0x1c3f8; 0xffe3fc; 0xfff2a8; 0x707c1c;
   0x78fe08; 0x3fc600; 0xf8000; 0x1fff400; 0x3f8ff00; 0x3c01f00; 0x0; 0x0;
   0x0; 0x0; 0x202000; 0x0; 0x0; 0x0; 0x70000; 0x60000;
   0x575150; 0xfff1f8; 0x1d571fc; 0xc03188; 0x1fff19c; 0xeab188; 0x1c0319c; 0xfff188;
   0x1fff19c; 0xc03188; 0x1fff19c; 0xfff188; 0x76019c; 0xe60188; 0x3fffdfc; 0x3fffdf8;
   0x3fffdfc; 0xf8008; 0x1dc01c; 0x38e000; 0x1f07800; 0x3c03e00; 0x1001c00; 0x0;
   0x0; 0x0; 0x0; 0x202000; 0x0; 0x0; 0x0; 0x70000;
   0x60000; 0x1fffd54; 0x1fff9fc; 0x701fc; 0xaea98c; 0x1fff99c; 0x6018c; 0x157559c;
   0x3ffff8c; 0x3fffd9c; 0x11c18c; 0x3d719c; 0x1ff98c; 0x77d99c; 0xe1e18c; 0x1fffdfc;
   0x1fffdfc; 0x387141c; 0x32700c; 0xf73804; 0x1c21c00; 0x3870f00; 0x303c600; 0x3c000;
   0x0; 0x0; 0x0; 0x0; 0x202000; 0x0; 0x0; 0x0;
   0x403000; 0xe03000; 0x707154; 0x30e1f8; 0x38c1fc; 0x100188; 0x1fffd98; 0x1fffd88;
   0x10819c; 0x39c188; 0x70e19c; 0xe07988; 0x3c03f9c; 0x3000d88; 0x1fffd9c; 0xfff988;
   0x1cdddfc; 0xc899f8; 0x1cddc1c; 0xc89808; 0x1cddc14; 0xc89800; 0x3ffff00; 0x3ffff00;
   0x0; 0x0; 0x0; 0x0; 0x0; 0x202000; 0x0; 0x0;
   0x0; 0x30c00; 0x3fb8c00; 0x3f99d50; 0x31998f8; 0x319d1fc; 0x31bfe88; 0x31fffdc;
   0x3f86088; 0x3fb6ddc; 0x31b6c88; 0x31b6ddc; 0x31b6c88; 0x31b6ddc; 0x31b6c88; 0x3fb6ddc;
   0x3fbfc88; 0x31bfdfc; 0x31b20f8; 0x31c301c; 0x30c3008; 0x30c1810; 0x30e1800; 0x3061c00;
   0x3e70e00; 0x1e30400; 0x0; 0x0; 0x0; 0x0; 0x202000; 0x0;
   0x0; 0x0; 0x70000; 0x60000; 0xe0154; 0x3fffbf8; 0x3fffffc; 0x3061b88;
   0x3061f9c; 0x1fff388; 0x1fff39c; 0x60388; 0x1fff39c; 0x1fff388; 0x6039c; 0x2aeab88;
   0x3ffff9c; 0x60388; 0x603fc; 0xfff3f8; 0x1fff01c; 0xc03008; 0x1c03014; 0xc03000;
   0x1fff000; 0xfff000; 0x1c03000; 0x0; 0x0; 0x0; 0x0; 0x202000;
   0x0; 0x0; 0x0; 0x70000; 0x30000; 0x70154; 0xfff9fc; 0x1fff9fc;
   0x3018c; 0x7019c; 0x3ffff8c; 0x3ffff9c; 0x30e18c; 0x70719c; 0xe0318c; 0x1fffd9c;
   0x3fffd8c; 0x300159c; 0xaaa98c; 0x1fffdfc; 0x1aaadfc; 0x1dddc1c; 0x1888c0c; 0x1dddc14;
   0x1888c00; 0x7ffff00; 0x3ffff00; 0x0; 0x0; 0x0; 0x0; 0x0;
   0x202000; 0x0; 0x0; 0x0; 0x70e000; 0x30e000; 0x70e1fc; 0x3fffdfc;
   0x7fffdfc; 0x30e18c; 0x77e19c; 0x27218c; 0x1f819c; 0x39c18c; 0x70f19c; 0xe0798c;
   0x7fffd9c; 0x3bfef8c; 0x200059c; 0x1fc; 0xfff9fc; 0xfff80c; 0xc0381c; 0xc03808;
   0xc03800; 0xc03800; 0xfff800; 0xfff800; 0xc03800; 0x0; 0x0; 0x0;
   0x0; 0x202000; 0x0; 0x0; 0x0; 0x0; 0xfff800; 0x7ff9fc;
   0x38e1fc; 0x1ff1fc; 0x1f818c; 0x7dfd9c; 0x60398c; 0x3fdfd9c; 0x1fdfd8c; 0x1c5cd9c;
   0xfcfd8c; 0x70f19c; 0x1f9f98c; 0x39f9f9c; 0x205fc; 0x3fffffc; 0x3fffe0c; 0x1fc01c;
   0x3ae000; 0x777000; 0xe23800; 0x7c71f00; 0x3820f00; 0x70000; 0x0; 0x0;
   0x0; 0x0; 0x202000; 0x0; 0x0; 0x0; 0x60000; 0x60000;
   0x3fffd54; 0x3fff9f8; 0x3fffdfc; 0x30188; 0xfff19c; 0xfff188; 0xc0319c; 0xfff188;
   0xfff19c; 0xc03188; 0xfff19c; 0xeab188; 0xc0319c; 0xfff188; 0xd571fc; 0xc031f8;
   0x7fffe1c; 0x3fffe08; 0x31c014; 0xf0e000; 0x1e07c00; 0x3801e00; 0x1000400; 0x0;
   0x0; 0x0; 0x0; 0x202000; 0x0; 0x0; 0x0; 0x60000;
   0x68000; 0x1f7f154; 0x1f679f8; 0x18619fc; 0x1861988; 0x1f6f99c; 0x1f6f988; 0x186199c;
   0x1861988; 0x1fff99c; 0x1fff988; 0x1fff99c; 0x60188; 0x6019c; 0x1fff988; 0x1fffdfc;
   0xe071f8; 0x70e01c; 0x39c008; 0x1f8014; 0x1f8000; 0x1fff000; 0x3f0fe00; 0x1c01e00;
   0x0; 0x0; 0x0; 0x0; 0x202000; 0x0; 0x0; 0x0;
   0x18000; 0x818000; 0x1dffc00; 0xfff9f8; 0x7181fc; 0x398188; 0x7ffff9c; 0x3ffff88;
   0x43e19c; 0xf8f988; 0x7fff9c; 0x303e788; 0x355e19c; 0x3ffe188; 0x17f019c; 0xaaa9f8;
   0x1fff9fc; 0xc018a8; 0x1c0181c; 0xfff808; 0x1fff800; 0xc01800; 0x1fff800; 0xfff800;
   0x1c01800; 0x0; 0x0; 0x0; 0x0; 0x202000; 0x0; 0x0;
   0x0; 0x0; 0x3fffc00; 0x3fffd54; 0x1fc; 0x1fff1fc; 0xfff18c; 0x1c0319c;
   0xc0318c; 0x1fff19c; 0xfff18c; 0x19c; 0x2aaa98c; 0x3fffd9c; 0x300898c; 0x330dd9c;
   0x339898c; 0x3199dfc; 0x37fe9fc; 0x37ffc1c; 0x306080c; 0x3061c14; 0x3060800; 0x3061c00;
   0x3e60800; 0x1c41c00; 0x0; 0x0; 0x0; 0x0; 0x202000; 0x0;
   0x0; 0x0; 0x606000; 0xe06000; 0x70e1fc; 0x30c1f8; 0x31c1dc; 0x3ffff88;
   0x3ffff9c; 0x202188; 0x70719c; 0x303188; 0x138319c; 0x39b9988; 0x19ddd9c; 0x18ccd88].
Definition hanzi_data_69 : list N :=
  [0x1feff9c; 0xfeff88; 0x6071dc; 0x6031f8; 0x1f0f9fc; 0x1b89808; 0x1999c1c; 0x3edfe00;
   0x3fdff00; 0x30f8e00; 0x7030000; 0x0; 0x0; 0x0; 0x0; 0x202000;
   0x0; 0x0; 0x0; 0x607000; 0x70e000; 0x70e1fc; 0x38c1f8; 0x3fffd9c;
   0x3fffd88; 0x3019c; 0x30188; 0x1fffd9c; 0x1fff988; 0x1819c; 0x18188; 0x7ffff9c;
   0x3ffff88; 0xe19c; 0x6188; 0x1fff1fc; 0x1fff9f8; 0x15d5c1c; 0xc0e08; 0xc0f1c;
   0xc0300; 0x7fffd00; 0x3fff800; 0x0; 0x0; 0x0; 0x0; 0x0;
   0x202000; 0x0; 0x0; 0x0; 0x104000; 0x18c000; 0x7061fc; 0xe071f8;
   0x1c33d9c; 0x38b9f88; 0x31dc59c; 0x38e188; 0x7f719c; 0xfff988; 0x1c1f99c; 0x188;
   0x1fdff9c; 0x1fdff88; 0x181859c; 0x18d8d88; 0x1b9b9fc; 0x1b1b1f8; 0x1c1c01c; 0x1f1f008;
   0x1bdbc1c; 0x18f8e00; 0x1858400; 0x1e1f000; 0x1e1f000; 0x0; 0x0; 0x0;
   0x0; 0x202000; 0x0; 0x0; 0x0; 0x0; 0x1ffcff8; 0x1ffdff8;
   0x1aa8c18; 0x1801c18; 0x1800c18; 0x1ffdff8; 0x1bfcff8; 0x1800000; 0x1800000; 0x1bfbffc;
   0x1bfbffc; 0x1b1bb6c; 0x1b1ba6c; 0x1b1bb6c; 0x1b1ba6c; 0x1b1bffc; 0x1bfbffc; 0x1bfbb6c;
   0x181ba6c; 0x181bb6c; 0x1803a6c; 0x1d03b6c; 0x1f83e6c; 0x1f01f6c; 0x0; 0x0;
   0x0; 0x0; 0x202000; 0x0; 0x0; 0x0; 0x60000; 0x1861800;
   0x1861954; 0x18619f8; 0x18619fc; 0x1fff988; 0x1fff99c; 0x60188; 0x157559c; 0x3fffd88;
   0x3fffd9c; 0x60188; 0x7019c; 0xfff988; 0x1fff99c; 0xc61988; 0x1c719fc; 0xeeb9f8;
   0x1fff9fc; 0xeea808; 0xe7001c; 0x1c60000; 0x3fffe00; 0x3fffe00; 0x7000400; 0x0;
   0x0; 0x0; 0x0; 0x202000; 0x0; 0x0; 0x0; 0x60000;
   0x70000; 0x1fff9fc; 0xfff9fc; 0x1c019fc; 0xc0198c; 0x1fff9cc; 0xfff98c; 0x1c019cc;
   0xeab98c; 0x1fff9cc; 0x3018c; 0x381cc; 0x3ffff8c; 0x3ffffcc; 0x38e1ac; 0x7771fc;
   0xe63cac; 0x7c71f0c; 0x3fffe0c; 0xfff800; 0x60000; 0x70000; 0x60000; 0x70000;
   0x0; 0x0; 0x0; 0x0; 0x202000; 0x0; 0x0; 0x0;
   0x70000; 0x60000; 0x1fffd54; 0x1fff9fc; 0x15751fc; 0x6018c; 0x3fffd9c; 0x3fffd8c;
   0x3575d9c; 0x3038d8c; 0x311cd9c; 0x38e18c; 0x1ff19c; 0x6ff18c; 0xe3c19c; 0xe0e18c;
   0x1fff9fc; 0x3aff9fc; 0x107001c; 0x66600c; 0xe73004; 0x1c63800; 0x1871c00; 0x3878c00;
   0x78000; 0x0; 0x0; 0x0; 0x0; 0x202000; 0x0; 0x0;
   0x0; 0x30000; 0x38600; 0x19f54; 0x2abbcfc; 0x3ffd8fc; 0x2aac0cc; 0xc0dc;
   0xe0cc; 0x1fff6dc; 0x1ffafcc; 0x19d9cdc; 0x1b998cc; 0x1f180dc; 0x3ffe0cc; 0x7fff0dc;
   0x18488cc; 0x19fdcfc; 0x198ccfc; 0x1b0cc1c; 0x3ffce0c; 0x3ffc61c; 0xc00600; 0xc00700;
   0xfc0380; 0x7c0300; 0x0; 0x0; 0x0; 0x0; 0x202000; 0x0;
   0x0; 0x0; 0x60000; 0x60000; 0x1575154; 0x1fff9fc; 0x1fffdfc; 0x3018c;
   0xfff99c; 0xfff98c; 0x1819c; 0x2abab8c; 0x7ffff9c; 0x2baeb8c; 0x60719c; 0xdfb98c;
   0x3dfdd9c; 0x3860f8c; 0x35755fc; 0x1fff9fc; 0x1fff81c; 0x3f800c; 0x77e004; 0xe67000;
   0x1c63c00; 0x860c00; 0x60000; 0x0; 0x0; 0x0; 0x0; 0x202000;
   0x0; 0x0; 0x0; 0x0; 0x3fffe00; 0x3ffff54; 0x6031f8; 0x7ff1fc;
   0x7ff188; 0x60319c; 0x7ff188; 0x7ff19c; 0x2603188; 0x3ffff9c; 0xffff88; 0x60019c;
   0x3feff88; 0x3ffff9c; 0x38d8188; 0x19dc5fc; 0x198cff8; 0xd8fc1c; 0xf07008; 0x70f014;
   0xf9f800; 0x1dd9e00; 0x38f0f00; 0x1060200; 0x0; 0x0; 0x0; 0x0;
   0x202000; 0x0; 0x0; 0x0; 0x30c000; 0x30c000; 0x3ffff54; 0x3fffffc;
   0x175d5fc; 0x30c18c; 0x30f19c; 0x2aab18c; 0x7fff99c; 0x3aa998c; 0x1c01d9c; 0x18a9d8c;
   0x1dfdf9c; 0x1989f8c; 0x1d8df9c; 0x1989b8c; 0x1d8d9fc; 0x19f99fc; 0x1dfd81c; 0x180980c;
   0x1c0d804; 0x1801800; 0x1c01800; 0xf81800; 0xf01800; 0x0; 0x0; 0x0;
   0x0; 0x202000; 0x0; 0x0; 0x0; 0x0; 0xfff800; 0x1fffd54;
   0xc219f8; 0x1c61dfc; 0xeab988; 0x1fffd9c; 0xc31988; 0x1c71d9c; 0xcd9988; 0x1f9dd9c;
   0xd0f988; 0x1d55d9c; 0xfff988; 0x1fffd9c; 0x820188; 0xc76dfc; 0xce6df8; 0x18c6c1c;
   0x3a86608; 0x3606614; 0x3606700; 0x17fe300; 0x3fe000; 0x0; 0x0; 0x0;
   0x0; 0x0; 0x202000; 0x0; 0x0; 0x0; 0x104000; 0x38e000;
   0xf07050; 0x1f03cf8; 0x3bcfffc; 0xfc088; 0x1fc1d8; 0xfdf888; 0x7f77fdc; 0x3ab8e88;
   0x7fc1dc; 0x38f888; 0x1cffdc; 0xfcc88; 0x17c1dc; 0x18f8a8; 0x3fe7ffc; 0x1ff80f8;
   0x1c3e01c; 0xe3f808; 0x7f1804; 0x1e0000; 0x7f000; 0xfe00; 0x1e00; 0x0;
   0x0; 0x0; 0x0; 0x202000; 0x0; 0x0; 0x0; 0x1c00000;
   0x1ffe800; 0x7ff954; 0x18629f8; 0x1c631f8; 0xc66188; 0xe6619c; 0x3fffd88; 0x3fffd9c;
   0x3018d88; 0x301cd9c; 0x1fff988; 0x1fff99c; 0xc188; 0xc19c; 0xffe188; 0xffe1fc;
   0xe0f1f8; 0x71f01c; 0x3bb808; 0x1f1c14; 0x3e0e00; 0x1ffc700; 0x3e3fb00; 0x3c07100;
   0x0; 0x0; 0x0; 0x0; 0x202000; 0x0; 0x0; 0x0;
   0x0; 0x1ff8000; 0x1ffc754; 0xe20df8; 0x7f1dfc; 0x3c1988; 0x70319c; 0x3ff8188;
   0x3ffc19c; 0x3198188; 0x35ddf9c; 0x3ff9f88; 0x3ffd99c; 0x3199988; 0x35dd99c; 0x3ff9988;
   0x3ffd9fc; 0x31999f8; 0x319d81c; 0x3f99808; 0x1d9fc14; 0xee00; 0x7ffc700; 0x3ff8300;
   0x1540200; 0x0; 0x0; 0x0; 0x0; 0x202000; 0x0; 0x0;
   0x0; 0x307000; 0x302000; 0x3071fc; 0x3bfef8; 0x1fffdc; 0x3f86088; 0x7fc71dc;
   0x18ffe88; 0x19fffdc; 0x19e6088; 0x19e71dc; 0x19e6088; 0x1dfffdc; 0x9bfe88; 0x1f019dc;
   0xf01888; 0xf3fdfc; 0xe3f8f8; 0x619c1c; 0xf18c08; 0x1f18e1c; 0x1f98600; 0x39dd700;
   0x30ff380; 0x3047100; 0x0; 0x0; 0x0; 0x0; 0x202000; 0x0].
Definition hanzi_data_70 : list N :=
  [0x0; 0x0; 0x107000; 0x383000; 0x187054; 0x1bfefc; 0x3fbfffc; 0x3f830cc;
   0x35d74cc; 0x30ffecc; 0x37ffecc; 0x1bf26cc; 0x1f736cc; 0x13326cc; 0x3376cc; 0x33fecc;
   0x71fecc; 0x70f8cc; 0x71f8fc; 0x7bbcfc; 0xdb7e0c; 0xd9360c; 0x1dc7704; 0x18c3380;
   0x3867100; 0x3073000; 0x2027000; 0x0; 0x0; 0x0; 0x0; 0x202000;
   0x0; 0x0; 0x0; 0x1c1800; 0xc1800; 0xc39fc; 0xe30f8; 0x7ffffdc;
   0x3fffe88; 0x1f5ddc; 0x1b0c88; 0x1d0ddc; 0x3fc0c88; 0x3fcfddc; 0x2efc88; 0x76cddc;
   0x26cc88; 0x174cddc; 0x3fecc88; 0x7ffcdfc; 0x70cef8; 0x70c61c; 0xf8c608; 0x1d8c61c;
   0x19ce700; 0x38e6300; 0x7077b80; 0x3037900; 0x0; 0x0; 0x0; 0x0;
   0x202000; 0x0; 0x0; 0x0; 0x70000; 0x60000; 0x3fffd50; 0x3fffbf8;
   0x60e3fc; 0x60c398; 0x31c39c; 0x1fffb98; 0x1fffb9c; 0x1861b98; 0x1861b9c; 0x1ae9b98;
   0x1ffdb9c; 0x1861b98; 0x1861b9c; 0x1bf9b98; 0x1bfdbfc; 0x1b09bf8; 0x1b1d81c; 0x1ba9818;
   0x1bfd81c; 0x1809800; 0x1801800; 0x1e01800; 0x1e01800; 0x0; 0x0; 0x0;
   0x0; 0x202000; 0x0; 0x0; 0x0; 0xf00000; 0x1f00000; 0x3b001fc;
   0x13000f8; 0x7fffddc; 0x3fffc88; 0x30cddc; 0x30cc88; 0x337cddc; 0x337cc88; 0x330cddc;
   0x3b0cc88; 0x1bffddc; 0x1bffc88; 0x1b18ddc; 0xf18e88; 0xf7f7fc; 0xeda6f8; 0x6db7fc;
   0x26db608; 0x6719f1c; 0x2f98300; 0x3dde300; 0x3cee380; 0x1840100; 0x0; 0x0;
   0x0; 0x0; 0x202000; 0x0; 0x0; 0x0; 0x19c000; 0x198000;
   0x7fffdfc; 0x3fffdf8; 0x15dd5fc; 0x198188; 0x3fffd9c; 0x3fff988; 0x3999d9c; 0x3fff988;
   0x3fffd9c; 0x3998988; 0x3999d9c; 0x3fff988; 0x1fffd9c; 0xaaa988; 0x1fff9fc; 0x18039f8;
   0x1c039fc; 0x1fff808; 0x1fff81c; 0x1803800; 0x1fff800; 0x1fff800; 0x1c03800; 0x0;
   0x0; 0x0; 0x0; 0x202000; 0x0; 0x0; 0x0; 0x6000;
   0x6000; 0x3fffffc; 0x3fffffc; 0x6000; 0xfffff0; 0xfffff0; 0x0; 0x7fffe0;
   0x7fffe0; 0x600060; 0x6aaae0; 0x7fffe0; 0xe0700; 0x60600; 0x3fffffc; 0x3fffffc;
   0x180; 0x1ffbffc; 0x1ffbff8; 0x1c1b8c0; 0x181b8e0; 0x1ff9870; 0x1ff9f3e; 0x1c19f1c;
   0x0; 0x0; 0x0; 0x0; 0x202000; 0x0; 0x0; 0x0;
   0x0; 0x3fffc00; 0x3fffdfc; 0x1981f8; 0x19819c; 0x1fff988; 0x1fff99c; 0x1999988;
   0x199999c; 0x1999988; 0x1fff99c; 0xaaa988; 0x19c; 0x1fff988; 0x1fff99c; 0x188;
   0x3fffdfc; 0x3fffdf8; 0x6001c; 0x666008; 0xe6301c; 0x1c61800; 0x3861e00; 0x307c600;
   0x7c000; 0x0; 0x0; 0x0; 0x0; 0x202000; 0x0; 0x0;
   0x0; 0x0; 0x3fffc00; 0x3fffc00; 0x603f8; 0x15753fc; 0x1fffb88; 0x1c03b9c;
   0x1fffb88; 0x1fffb9c; 0x1803b88; 0x1fffb9c; 0x1aabb88; 0x1d57b9c; 0x1fffb88; 0x71c39c;
   0xe183f8; 0x7fff7fc; 0x3fffea8; 0x1c35e1c; 0xe70008; 0x7e0000; 0x61f0000; 0x77ff000;
   0x3f8fe00; 0x3e01c00; 0x0; 0x0; 0x0; 0x0; 0x202000; 0x0;
   0x0; 0x0; 0x40; 0xabf860; 0x1fffc60; 0x1abb860; 0x1831c60; 0x1831ae8;
   0x1831ffc; 0x1831bfc; 0x1fffc60; 0x1fbf860; 0x1c60; 0x1860; 0x3fdfffc; 0x3fffbf8;
   0x18dffdc; 0x18c1b88; 0x1dc1f9c; 0xd81b88; 0xfbff9c; 0x73fb88; 0x701ffc; 0xf81bf8;
   0x1de1c1c; 0x38f1808; 0x3031c00; 0x0; 0x0; 0x0; 0x0; 0x202000;
   0x0; 0x0; 0x0; 0x70000; 0x60000; 0x1ff0000; 0x1fe01f8; 0x701fc;
   0x3fffd88; 0x3fffd9c; 0x3030d88; 0x3d31d9c; 0x1ffed88; 0x17fd9c; 0x1830d88; 0x1ff0d9c;
   0xfe0d88; 0x130d9c; 0x332df8; 0x3b33dfc; 0x1b36ea8; 0x1f3661c; 0xf36608; 0xf36700;
   0x330700; 0x7ffff00; 0x3fffb80; 0x100; 0x0; 0x0; 0x0; 0x0;
   0x202000; 0x0; 0x0; 0x0; 0x6000; 0x1ff6000; 0x1ff7150; 0x18339f8;
   0x1831dfc; 0x1ff0f88; 0x1ffe798; 0x1836188; 0x1d7719c; 0x1ff3988; 0x1553d9c; 0x2aabd88;
   0x3ffbf9c; 0x2eabf88; 0x603f9c; 0x3fff988; 0x7fff9fc; 0x6039f8; 0x63381c; 0x663808;
   0x6e381c; 0x603800; 0x743800; 0x783800; 0x783800; 0x0; 0x0; 0x0;
   0x0; 0x202000; 0x0; 0x0; 0x0; 0x30000; 0x30000; 0x15754fc;
   0x3fffef8; 0x7fffedc; 0x60c6c8; 0x60c6dc; 0x60c6c8; 0x171d6dc; 0x3fbfec8; 0x3fffedc;
   0x70e6c8; 0x71e6dc; 0xf3e6c8; 0xfff6dc; 0xfaf6c8; 0x1fcd6fc; 0x1ecdef8; 0x36cdf1c;
   0x366cf08; 0x767cf1c; 0x62c300; 0x60c300; 0x60c380; 0x60c100; 0x0; 0x0;
   0x0; 0x0; 0x202000; 0x0; 0x0; 0x0; 0x19cc00; 0x188c00;
   0x19dd00; 0x1bfe00; 0x1bfffc; 0x2ba8cfc; 0x3fffccc; 0x3bafccc; 0x31870cc; 0x39abacc;
   0x31bfecc; 0x39baecc; 0x31b36cc; 0x39b26cc; 0x39b76cc; 0x39bfecc; 0x39974fc; 0x39830fc;
   0x19fff0c; 0x18fff0c; 0x18c700c; 0x18e3000; 0x1867000; 0x1f33000; 0xf37000; 0x0;
   0x0; 0x0; 0x0; 0x202000; 0x0; 0x0; 0x0; 0x3000;
   0x63000; 0x3fe30fc; 0x3fefef8; 0x31bfedc; 0x19bb0c8; 0x199b0dc; 0x199b0c8; 0x1dfffdc;
   0xdffec8; 0xd870dc; 0xd838c8; 0x19bfcdc; 0x19bfec8; 0x31b1fdc; 0x31b0dc8; 0x31b5cfc;
   0x31bfcf8; 0x31bfc1c; 0x3fb0c08; 0x1db1c1c; 0x1bfc00; 0x1bfc00; 0x1b0c00; 0x1b1c00;
   0x0; 0x0; 0x0; 0x0; 0x202000; 0x0; 0x0; 0x0;
   0x60000; 0x1863800; 0x1c63154; 0xe671f8; 0x17775fc; 0x3fffd88; 0x3fffd9c; 0x3000d88;
   0x3555d9c; 0x2fff988; 0xfff19c; 0xc03188; 0xc0719c; 0xeab188; 0xfff19c; 0x60188;
   0x601fc; 0xaea9f8; 0x1fff81c; 0xaea808; 0x60014; 0x60000; 0x7fffe00; 0x3fffe00;
   0x1555400; 0x0; 0x0; 0x0; 0x0; 0x202000; 0x0; 0x0;
   0x0; 0x60000; 0x2060800; 0x3061d54; 0x30619fc; 0x3061dfc; 0x3fff98c; 0x3fffd9c;
   0x18c; 0x3fbfd9c; 0x3fbf98c; 0x31b9d9c; 0x31b898c; 0x3fbfd9c; 0x3fbf98c; 0x31b9d9c].
Definition hanzi_data_71 : list N :=
  [0x31b898c; 0x31b9dfc; 0x3fbfdfc; 0x3fffc0c; 0x30b8c0c; 0x31f8c14; 0x30f8e00; 0x34fc600;
   0x3cfe600; 0x1c5c600; 0x0; 0x0; 0x0; 0x0; 0x202000; 0x0;
   0x0; 0x0; 0x0; 0x1fdfc00; 0x1fdfd54; 0x16dadf8; 0x16dedfc; 0x16dad88;
   0x16ded9c; 0x12dad88; 0x17dbd9c; 0x12dbd88; 0x70719c; 0xf8f988; 0x1dd9d9c; 0x38e8f88;
   0x105859c; 0x18188; 0x7fffffc; 0x2eaebf8; 0x70601c; 0x38f008; 0x1ff014; 0x3f8000;
   0x1fff000; 0x3e0fe00; 0x1801c00; 0x0; 0x0; 0x0; 0x0; 0x202000;
   0x0; 0x0; 0x0; 0x30000; 0x70000; 0x3fffdfc; 0x3fffdf8; 0x3555d9c;
   0x3038d88; 0x3670d9c; 0x7ec188; 0x3cd99c; 0xdcd988; 0x18fdd9c; 0x3a7cd88; 0x361cd9c;
   0x360f188; 0x17ffd9c; 0x3f8d88; 0x701fc; 0xc619f8; 0x1c7181c; 0xc61808; 0x1c7181c;
   0xc61800; 0x1fff800; 0xfff800; 0x1c00000; 0x0; 0x0; 0x0; 0x0;
   0x202000; 0x0; 0x0; 0x0; 0x0; 0xfff800; 0x1fff9fc; 0xc039fc;
   0x1fff9dc; 0xfff98c; 0x1c039dc; 0xfff98c; 0x1fff9dc; 0x18c; 0x7ffffdc; 0x3ffff8c;
   0x31ddc; 0x3abb98c; 0x3fffddc; 0x38b198c; 0x19b1dfc; 0x19bf9fc; 0x1f3fc1c; 0xf3180c;
   0x77fc1c; 0xf3fe00; 0x1ff1e00; 0x79f0000; 0x3070000; 0x0; 0x0; 0x0;
   0x0; 0x202000; 0x0; 0x0; 0x0; 0x6000; 0x3806000; 0x1c575fc;
   0xc7fff8; 0xe7ffdc; 0x706188; 0x3ffddc; 0x1bfd88; 0x10555d8; 0x3800188; 0x1c7fddc;
   0xe3ad88; 0x770ddc; 0x3b0d88; 0x3ffddc; 0x3fd88; 0x7038dfc; 0x38389f8; 0x181981c;
   0x1c09808; 0xe7d800; 0x73fe00; 0x3c7e00; 0x1e0200; 0xc0000; 0x0; 0x0;
   0x0; 0x0; 0x202000; 0x0; 0x0; 0x0; 0x0; 0x1fffc00;
   0x1fffdfc; 0x1800dfc; 0x1800dfc; 0x1fffd8c; 0x1fffddc; 0xa00d8c; 0x1fffddc; 0xfed8c;
   0x15d4ddc; 0x1ffed8c; 0x1dd6ddc; 0x18c6d8c; 0x1ffeddc; 0x1ffedfc; 0x15d5ffc; 0x3fff60c;
   0x3fff61c; 0x3ac3600; 0x3ff7700; 0x3ffb300; 0x3c03380; 0x3a031c0; 0x1c03180; 0x0;
   0x0; 0x0; 0x0; 0x202000; 0x0; 0x0; 0x0; 0x7000;
   0x2a86000; 0x3fc7154; 0x3abfffc; 0x39ffffc; 0x388618c; 0x39c718c; 0x3abfd8c; 0x3fffd8c;
   0x3ab0d8c; 0x39f5d8c; 0x38bfd8c; 0x39f5d8c; 0x3ab0d8c; 0x3fffd8c; 0x3abfd8c; 0x39c71fc;
   0x38c61fc; 0x38fff0c; 0x38fff0c; 0x38c7000; 0x3866000; 0x3877000; 0x3e36000; 0x1e37000;
   0x0; 0x0; 0x0; 0x0; 0x202000; 0x0; 0x0; 0x0;
   0x18c000; 0x18c000; 0x3dfdd54; 0x1fbccf8; 0x38ddfc; 0x218cc88; 0x7fffddc; 0x3fbfe88;
   0xdfdc; 0x3fe088; 0x7ff1dc; 0x383888; 0x1ffffdc; 0x1fffe88; 0x18619dc; 0x1aeb888;
   0x1fff9fc; 0x18618f8; 0x18619fc; 0x1fff808; 0x1fffc1c; 0x1860c00; 0x1860e00; 0x1e60600;
   0xe40600; 0x0; 0x0; 0x0; 0x0; 0x202000; 0x0; 0x0;
   0x0; 0x101cc00; 0x3808c00; 0x1f1ccfc; 0x3eaefc; 0x1fffdc; 0xeaecc; 0x1dcccc;
   0xc8ccc; 0x1dfccc; 0x3fcfccc; 0x7fdcccc; 0x18c8ccc; 0x1ddfccc; 0x18cfccc; 0x1ddcccc;
   0x18c8ccc; 0x1cdddcc; 0x18ffffc; 0x1cffffc; 0x18ccc0c; 0x1cdce0c; 0x1878600; 0x1c68700;
   0x1870380; 0x1c20100; 0x0; 0x0; 0x0; 0x0; 0x202000; 0x0;
   0x0; 0x0; 0x70000; 0x30000; 0x30154; 0x3fffdfc; 0x3fffdfc; 0xdc98c;
   0x398dd9c; 0x1f8f98c; 0xf0719c; 0xfff98c; 0x7ffff9c; 0x3e03f8c; 0x7ff59c; 0x7ff18c;
   0x60319c; 0x60318c; 0x7ff1fc; 0x2aa1fc; 0x27101c; 0x72300c; 0xe73814; 0x1c21c00;
   0x3870f00; 0x303c600; 0x3c000; 0x0; 0x0; 0x0; 0x0; 0x202000;
   0x0; 0x0; 0x0; 0x70000; 0x60000; 0x3fffd54; 0x3fffdf8; 0x701fc;
   0xaea988; 0x1fff99c; 0x188; 0x1fff99c; 0xfff988; 0x1c0399c; 0xeab988; 0x1fff99c;
   0x606188; 0x70619c; 0x2bae988; 0x7fffffc; 0x2aaa9f8; 0x1fff81c; 0x1fff808; 0x1c03814;
   0x1803800; 0x1fff800; 0x1fff800; 0x1c03800; 0x0; 0x0; 0x0; 0x0;
   0x202000; 0x0; 0x0; 0x0; 0x0; 0xaaa800; 0x1fff9fc; 0x1aeb9fc;
   0x1e659dc; 0x1a6d98c; 0x1b6d99c; 0x1b6998c; 0x197999c; 0x1aeb98c; 0x1fff99c; 0x6018c;
   0x6019c; 0x1fff98c; 0x1fff99c; 0x601fc; 0x601fc; 0x3fffc0c; 0x3fffc1c; 0xc01000;
   0x1ddb800; 0x1999800; 0x3999c00; 0x3338e00; 0x3130400; 0x0; 0x0; 0x0;
   0x0; 0x202000; 0x0; 0x0; 0x0; 0x0; 0x1fdfc00; 0x1fdfdfc;
   0x18d8dfc; 0x1fdfdfc; 0x1fdfd8c; 0x10c0d9c; 0x30f0d8c; 0x3fffd9c; 0x3f9f98c; 0x10419c;
   0x30e18c; 0x30e19c; 0x3fffd8c; 0x3fffd9c; 0x30e1fc; 0x30e1fc; 0x2baea0c; 0x7fffe1c;
   0x3fffe08; 0x39c000; 0xf0f000; 0x1e07c00; 0x3801f00; 0x1000600; 0x0; 0x0;
   0x0; 0x0; 0x202000; 0x0; 0x0; 0x0; 0x603000; 0x707000;
   0x306000; 0x3fffffc; 0x7fffffc; 0xd818c; 0x1fffd8c; 0x1fffd8c; 0x18d9d8c; 0x18c8d8c;
   0x1fcfd8c; 0x1802d8c; 0x1fffd8c; 0x1fffd8c; 0x1d55d8c; 0x1fffdfc; 0x17d55fc; 0x2baaaac;
   0x7ffff0c; 0x2baba0c; 0x383800; 0x387000; 0x38e000; 0x3f0000; 0x1f0000; 0x0;
   0x0; 0x0; 0x0; 0x202000; 0x0; 0x0; 0x0; 0x70000;
   0x60000; 0x3fffd54; 0x3fff9f8; 0x6061fc; 0x70e188; 0x175d59c; 0x3fffd88; 0x7fffd9c;
   0x188; 0x1fff99c; 0x1861988; 0x186199c; 0x1fff988; 0x1d7599c; 0x1861988; 0x1fff9fc;
   0xaea9f8; 0x6001c; 0x1fff808; 0x1fffc14; 0x60000; 0x7fffe00; 0x3fffe00; 0x0;
   0x0; 0x0; 0x0; 0x0; 0x202000; 0x0; 0x0; 0x0;
   0x606000; 0x60e000; 0x70e1fc; 0x38c1f8; 0x1fffdfc; 0x1fff988; 0x1e67d9c; 0x1a66988;
   0x1b6dd9c; 0x19ec988; 0x19e9d9c; 0x1aea988; 0x1fffd9c; 0x188; 0xfff19c; 0xfff188;
   0xf571fc; 0xe031f8; 0xfff1fc; 0xfff008; 0xe0301c; 0xe03000; 0xfff000; 0xfff000;
   0xe03000; 0x0; 0x0; 0x0; 0x0; 0x202000; 0x0; 0x0].
Definition hanzi_data_72 : list N :=
  [0x0; 0xcc000; 0xcc000; 0x1ce3fc; 0x1863f8; 0x3fff3fc; 0x3fff308; 0x1c7b1c;
   0x183f08; 0x3ffff1c; 0x3ffff08; 0x1c771c; 0x183308; 0x3fff31c; 0x3fff308; 0x1c731c;
   0x183308; 0x7fff3fc; 0x3fff3f8; 0x715c; 0xd9b008; 0x199b01c; 0x3bbb800; 0x3331800;
   0x7331c00; 0x3110c00; 0x0; 0x0; 0x0; 0x0; 0x202000; 0x0;
   0x0; 0x0; 0x70000; 0x60000; 0x3fffd54; 0x3fffdf8; 0x701fc; 0x1fff988;
   0x1fff99c; 0x188; 0x3fffd9c; 0x3fffd88; 0x3000d9c; 0x37ffd88; 0x37ffd9c; 0x188;
   0xfff99c; 0xfff988; 0xc039fc; 0xc039f8; 0xfff81c; 0x306008; 0x30c014; 0x38c000;
   0x7fffe00; 0x3fffe00; 0x0; 0x0; 0x0; 0x0; 0x0; 0x202000;
   0x0; 0x0; 0x0; 0xc0000; 0x8df800; 0x1fdfd54; 0x7981f8; 0x139cdfc;
   0x3b0dd88; 0x1f0f99c; 0xeae188; 0x1fff198; 0x3cab988; 0x7801f9c; 0x3ffff88; 0xfff19c;
   0xe03188; 0xe0319c; 0xeab188; 0xfff1fc; 0xaaa1f8; 0x70601c; 0x30e008; 0x38c014;
   0x18c000; 0x3fffe00; 0x3fffe00; 0x0; 0x0; 0x0; 0x0; 0x0;
   0x202000; 0x0; 0x0; 0x0; 0x198000; 0x3999800; 0x1d99954; 0xd9b1f8;
   0xd9b1fc; 0x3fffd88; 0x3fffd98; 0x606188; 0x60e19c; 0x30c188; 0x3fffd9c; 0x3fffd88;
   0x6019c; 0x60188; 0x1fff99c; 0xaea988; 0x601fc; 0x3fffff8; 0x7fffe1c; 0xf0008;
   0x1f8014; 0x39e000; 0x1f0f800; 0x3e03e00; 0x3000c00; 0x0; 0x0; 0x0;
   0x0; 0x202000; 0x0; 0x0; 0x0; 0x0; 0x3fffe00; 0x3fffe54;
   0x2aaaef8; 0x667ffc; 0x266e88; 0x766fdc; 0x226e88; 0x7f7ffdc; 0x3fffe88; 0x3318fdc;
   0x2f5be88; 0x35db7dc; 0x37dbe88; 0x155b7dc; 0xe5b688; 0xe5f7fc; 0xe7f6f8; 0xe7f61c;
   0xa08608; 0x1b0c704; 0x1b0e300; 0x3187300; 0x30c3380; 0x2040100; 0x0; 0x0;
   0x0; 0x0; 0x202000; 0x0; 0x0; 0x0; 0x70000; 0x70000;
   0x1fc154; 0x38e1f8; 0x1f371fc; 0x7c23f88; 0x37fff9c; 0x7ff388; 0xdc5998; 0xcfd988;
   0xc7199c; 0xdfd988; 0xd8d99c; 0xfff988; 0xfff99c; 0x30188; 0x3fffdfc; 0x3abadf8;
   0x399cc1c; 0x3b8cc08; 0x3bfec1c; 0x3abec00; 0x3802c00; 0x3f00c00; 0x1f00c00; 0x0;
   0x0; 0x0; 0x0; 0x202000; 0x0; 0x0; 0x0; 0x1c000;
   0xe000; 0x3fe154; 0x1af1f8; 0x15d79fc; 0x1fffd88; 0x1861f9c; 0x1861988; 0x1fff99c;
   0x1861988; 0x186199c; 0x1fff988; 0x1fff99c; 0x3fffd88; 0x3fffd9c; 0x188; 0x1fff1fc;
   0xfff1f8; 0x1c0301c; 0xfff008; 0x1fff014; 0xc03000; 0x1fff000; 0xfff000; 0x1c03000;
   0x0; 0x0; 0x0; 0x0; 0x202000; 0x0; 0x0; 0x0;
   0x70000; 0x38000; 0x1fffdfc; 0x1fffdf8; 0x1841d9c; 0x1a66d88; 0x1b6dd9c; 0x19ecd88;
   0x1d75d9c; 0x1ffed88; 0x1d7dd9c; 0x19f8d88; 0x1b6dd9c; 0x1a66d88; 0x1867d9c; 0x1820d88;
   0x701fc; 0x3fffdf8; 0x3fffc1c; 0xf8008; 0x1dc01c; 0x38e000; 0x1f07c00; 0x3e03f00;
   0x3000700; 0x0; 0x0; 0x0; 0x0; 0x202000; 0x0; 0x0;
   0x0; 0x606000; 0x606000; 0x606154; 0x3fdfdf8; 0x3fdfdfc; 0xf0f188; 0x1f9f99c;
   0x1fbf988; 0x36d6d9c; 0x3666f88; 0x266659c; 0x606188; 0x1fff99c; 0x1fff988; 0x19c;
   0x188; 0x3fffffc; 0x3fffff8; 0x7101c; 0x663808; 0x1e71c14; 0x1860e00; 0x3870f00;
   0x307c200; 0x3c000; 0x0; 0x0; 0x0; 0x0; 0x202000; 0x0;
   0x0; 0x0; 0x0; 0xff8ff0; 0xff9ff0; 0xc18c30; 0xc19c30; 0xc18c30;
   0xc19c30; 0xff8ff0; 0xff9ff0; 0xe3800; 0x3c3800; 0x3fffffc; 0x3fffffc; 0x70700;
   0x1e03c0; 0x3801e0; 0x1ff9ff8; 0x3ff8ffe; 0x3ff9ffc; 0xc18c30; 0xc19c30; 0xc18c30;
   0xff9ff0; 0xff8ff0; 0xc19c30; 0x0; 0x0; 0x0; 0x0; 0x202000;
   0x0; 0x0; 0x0; 0x0; 0x3fffffc; 0x3fffffc; 0x6000; 0xff67f0;
   0xfe67f0; 0xc76630; 0xc26630; 0xc76770; 0xfe67f0; 0x556550; 0xaaeaa8; 0x1fffff8;
   0xaaeaa8; 0xff67f0; 0xfe67f0; 0xc76630; 0xc26630; 0xc76630; 0xfe67f0; 0xff67f0;
   0x6000; 0x3fffffc; 0x3fffffc; 0x0; 0x0; 0x0; 0x0; 0x0;
   0x202000; 0x0; 0x0; 0x0; 0x0; 0x7fe000; 0x7fe1fc; 0x6061f8;
   0x6061fc; 0x6ae188; 0x7fe19c; 0x188; 0x3fdfd98; 0x3fdfd88; 0x30d8d9c; 0x30d8d88;
   0x30d8d9c; 0x3fdfd88; 0x3fffd9c; 0x60188; 0x3fffdfc; 0x3fffdf8; 0x1f81fc; 0x3fc008;
   0x77f01c; 0x1e63800; 0x7c71f00; 0x3060e00; 0x70000; 0x0; 0x0; 0x0;
   0x0; 0x202000; 0x0; 0x0; 0x0; 0x30000; 0x70000; 0x1fffd54;
   0x1fffdf8; 0x7061fc; 0x30e188; 0x57dd59c; 0x3ffff88; 0x7ffff9c; 0x188; 0x1fff99c;
   0xc01988; 0x1c0199c; 0xfff988; 0x1d5599c; 0xc01988; 0x1fff9fc; 0xaba9f8; 0xc7441c;
   0xce6c08; 0x18c6c14; 0x3e06600; 0x7606700; 0x27fe300; 0x3fc000; 0x0; 0x0;
   0x0; 0x0; 0x202000; 0x0; 0x0; 0x0; 0x303000; 0x383800;
   0x181800; 0x3fbf9fc; 0x7fffdfc; 0xec6d8c; 0x1ceef8c; 0x187c78c; 0x186478c; 0x2aaa98c;
   0x3fffd8c; 0x2aba98c; 0x47318c; 0xe3318c; 0x67318c; 0x6339fc; 0xf77dfc; 0x1fb6cac;
   0x39fce0c; 0x30f870c; 0x70200; 0x30000; 0x7ffff00; 0x3ffff00; 0x0; 0x0;
   0x0; 0x0; 0x0; 0x202000; 0x0; 0x0; 0x0; 0x70000;
   0x20000; 0x1ff0154; 0xaa01f8; 0x15755fc; 0x3fffd88; 0x3fffd9c; 0x1a30d88; 0x1fffd9c;
   0x103ed88; 0x1ff1d9c; 0x1fe0d88; 0x1555d9c; 0x3ffed88; 0xe1d9c; 0x3878d88; 0x1cdfdfc;
   0xfe2df8; 0xfbcc1c; 0xdcec08; 0x1d77e14; 0x3bb8600; 0x719f700; 0x21e3300; 0x1e0300;
   0x0; 0x0; 0x0; 0x0; 0x202000; 0x0; 0x0; 0x0;
   0x70c000; 0x30c000; 0x3fffd54; 0x3fffdfc; 0x70c1fc; 0xaaa98c; 0x1fff99c; 0xc0398c;
   0x1d5799c; 0xfff98c; 0x1c0399c; 0xeab98c; 0x1fff99c; 0xe18c; 0x3fff19c; 0x3fff18c].
Definition hanzi_data_73 : list N :=
  [0x3063dfc; 0x3863ffc; 0x38f3c1c; 0x39fb00c; 0x1b1f014; 0x18ab000; 0x19ff000; 0x1f00000;
   0x1f00000; 0x0; 0x0; 0x0; 0x0; 0x202000; 0x0; 0x0;
   0x0; 0x30000; 0x70000; 0x3fffffc; 0x3fffefc; 0x3000fcc; 0x318ce8c; 0x1fff9cc;
   0xfff88c; 0x18c1cc; 0x18c08c; 0xfff9cc; 0xbae88c; 0x18c1cc; 0x3fffe8c; 0x3ffffcc;
   0x30608c; 0x7771fc; 0xe638fc; 0x1fffe0c; 0x3bfef0c; 0x107060c; 0x60000; 0x3fffe00;
   0x3fffe00; 0x1555400; 0x0; 0x0; 0x0; 0x0; 0x202000; 0x0;
   0x0; 0x0; 0x300000; 0x700000; 0x71fd54; 0x2ebadf8; 0x3ff8dfc; 0x2ab8d88;
   0x18d8ddc; 0x1898d88; 0x1d9fddc; 0xd9fd88; 0x1d40ddc; 0x3fe0d88; 0x7fe0ddc; 0x61fd88;
   0x71fddc; 0x619d88; 0x3fd9dfc; 0x3fd9ff8; 0x719e1c; 0x619e08; 0x71df14; 0x61fa00;
   0x71f800; 0x601800; 0x701800; 0x0; 0x0; 0x0; 0x0; 0x202000;
   0x0; 0x0; 0x0; 0x30c000; 0x30c000; 0x3fffffc; 0x3fffff8; 0x32c19c;
   0x36b188; 0xe319c; 0x1fff988; 0x1fffd9c; 0xaebf88; 0x1ffff9c; 0xe1988; 0x1fff99c;
   0xaeb988; 0x3fff99c; 0x3fff988; 0x19fc; 0xfffdf8; 0x1fffc1c; 0xe03808; 0x7df01c;
   0x1fc000; 0x17ff000; 0x3f8fe00; 0x3c01e00; 0x0; 0x0; 0x0; 0x0;
   0x202000; 0x0; 0x0; 0x0; 0x0; 0x3fff800; 0x3fff954; 0x601f8;
   0x3fffdfc; 0x3fffd88; 0x3060d9c; 0x3f7fd88; 0x3f7fd9c; 0x60188; 0x1f7f19c; 0x60188;
   0x155559c; 0x3fff988; 0x7fffd9c; 0x30188; 0x3fff9fc; 0x3fff9f8; 0x319981c; 0x3199808;
   0x3199814; 0x3199800; 0x3199800; 0x3d99800; 0x1d99800; 0x0; 0x0; 0x0;
   0x0; 0x202000; 0x0; 0x0; 0x0; 0x706000; 0x306000; 0x7fffffc;
   0x3fffff8; 0x70619c; 0x366188; 0x7fffd9c; 0x3fffd88; 0x19c; 0xfff188; 0xfff19c;
   0xe03188; 0xfff19c; 0xfff188; 0x19c; 0x3fffd88; 0x3fffdfc; 0x3800df8; 0x3bfcc1c;
   0x3b0cc08; 0x3b0cc1c; 0x3bfcc00; 0x3bfcc00; 0x3e0cc00; 0x1e00c00; 0x0; 0x0;
   0x0; 0x0; 0x202000; 0x0; 0x0; 0x0; 0x70000; 0x60000;
   0x3fffd54; 0x3fffdfc; 0x1fc; 0xfff18c; 0xd5719c; 0xc0318c; 0xfff19c; 0x18c;
   0x3fffd9c; 0x3fffd8c; 0x3555d9c; 0x3fffd8c; 0x83819c; 0x1c3e18c; 0xf77dfc; 0x3f99fc;
   0x7de01c; 0xfe3c0c; 0x1dbdc14; 0x198e000; 0x79c7c00; 0x10f0e00; 0xf0000; 0x0;
   0x0; 0x0; 0x0; 0x202000; 0x0; 0x0; 0x0; 0x70000;
   0x60000; 0x3fffc00; 0x3fffdfc; 0x701fc; 0x3fffd8c; 0x3fffd9c; 0x3000d8c; 0x3fffd9c;
   0xfff98c; 0xd7599c; 0xfff98c; 0xc7199c; 0xfff98c; 0xfff99c; 0x1fc; 0x3fffffc;
   0x3aeaaac; 0x187301c; 0x1fe380c; 0x7f3800; 0x63c00; 0x157ee00; 0x3ffc780; 0x3ff0300;
   0x0; 0x0; 0x0; 0x0; 0x202000; 0x0; 0x0; 0x0;
   0x30000; 0x70000; 0x3fffdfc; 0x3fffdf8; 0x3555dfc; 0x3066d88; 0x1fffddc; 0x1fff988;
   0x1df99dc; 0xd9ed88; 0x71e7dc; 0x30f988; 0x7ff9dc; 0xdff988; 0x7d55ddc; 0x3000f88;
   0x1fffdfc; 0x1fff9f8; 0x4711fc; 0x663008; 0xe7381c; 0x1c61800; 0x1871c00; 0x187cc00;
   0x3c000; 0x0; 0x0; 0x0; 0x0; 0x202000; 0x0; 0x0;
   0x0; 0x0; 0x1ff8ff8; 0x1ff9ff8; 0x1818c18; 0x1ff9ff8; 0x1ff8ff8; 0x0;
   0xffffe0; 0xfffff0; 0x6060; 0x7ffff0; 0x7fffe0; 0x700070; 0x7fffe0; 0x7ffff0;
   0x6060; 0x1fffff0; 0x1ffffe0; 0x0; 0x1ff8ff8; 0x1ff9ff8; 0x1818c18; 0x1ff9ff8;
   0x1ff8ff8; 0x1819c18; 0x0; 0x0; 0x0; 0x0; 0x202000; 0x0;
   0x0; 0x0; 0x0; 0xff9ff0; 0xff9ff0; 0xc19830; 0xff9ff0; 0xff9ff0;
   0x0; 0x3fffffc; 0x3fffffc; 0x3000; 0x7fffe0; 0x7fffe0; 0x707060; 0x603060;
   0x71f860; 0x6fdc60; 0x7f0fc0; 0x3e003fc; 0x1d5157c; 0xff9ff0; 0x1d59d70; 0xc19830;
   0x1ff9ff0; 0xff9ff0; 0x1c19830; 0x0; 0x0; 0x0; 0x0; 0x202000;
   0x0; 0x0; 0x0; 0x380; 0x380; 0x3fffffc; 0x3ffbffc; 0x700380;
   0x383ff8; 0x5c3ff8; 0xfe0000; 0x1df3ff8; 0x39bbff8; 0x719f818; 0x218b818; 0x183ff8;
   0x182ee8; 0x180c60; 0x1fffffe; 0x1fffffe; 0x1838000; 0x183bff8; 0x183bff8; 0x183b018;
   0x183b018; 0x1ffbff8; 0x1ffbff8; 0x183b018; 0x0; 0x0; 0x0; 0x0;
   0x202000; 0x0; 0x0; 0x0; 0x0; 0xfff800; 0x1fff9fc; 0x601fc;
   0x3fffd9c; 0x3fffd8c; 0x3060d9c; 0x3fefd8c; 0x1f7f59c; 0xaea98c; 0x1fff99c; 0x4318c;
   0xe319c; 0x1fff98c; 0x1fffd9c; 0xc1f8c; 0x1fffffc; 0x1fff9fc; 0xc181c; 0x1fff80c;
   0x1fff81c; 0xc1800; 0x3fff800; 0x3fff800; 0x1800; 0x0; 0x0; 0x0;
   0x0; 0x202000; 0x0; 0x0; 0x0; 0x30000; 0x70000; 0x3fffffc;
   0x3fffff8; 0x1dc; 0x1f9f988; 0x1fdfddc; 0x1898988; 0x1fdfddc; 0x1f9f988; 0x175d5dc;
   0x3fffd88; 0x1fffddc; 0xbae988; 0x1fffddc; 0x30c188; 0x7fffffc; 0x3fffff8; 0x10dc01c;
   0x3ccf808; 0xf87f1c; 0x706e00; 0x1e7f000; 0x383f000; 0x3007000; 0x0; 0x0;
   0x0; 0x0; 0x202000; 0x0; 0x0; 0x0; 0x1c00000; 0x1ffe800;
   0x17ffd54; 0x18319f8; 0x1c739f8; 0xe63188; 0x1fffd9c; 0x1fffd88; 0x199cd9c; 0x1988d88;
   0x1fffd9c; 0x1fffd88; 0x1c3fd9c; 0x83fd88; 0x7ffdd9c; 0x3fffd88; 0x1d78dfc; 0x8bfdf8;
   0x1d9fc1c; 0xb8ec08; 0x1f1cc14; 0x81ec00; 0x1c1fc00; 0xf33e00; 0xf10400; 0x0;
   0x0; 0x0; 0x0; 0x202000; 0x0; 0x0; 0x0; 0x6000;
   0xaaeaa8; 0x1fffff8; 0x2aeaa0; 0x7fffe0; 0x606060; 0x7fffe0; 0x2aaeaa8; 0x3fffffc;
   0x32a8aac; 0x37fdfec; 0x209860; 0x7fdfe0; 0x60600; 0x1fffff8; 0x60600; 0xfffff0;
   0x60600; 0x3fffffc; 0xc0fe00; 0xf387f0; 0x3f03fc; 0x7cff94; 0x3f03f80; 0x3800180;
   0x0; 0x0; 0x0; 0x0; 0x202000; 0x0; 0x0; 0x0].
Definition hanzi_data_74 : list N :=
  [0x30000; 0x3fffe00; 0x3fffefc; 0xfff8fc; 0xfffccc; 0xfff8cc; 0xfffccc; 0x3ffffcc;
   0x3ffffcc; 0x3fdfbcc; 0x3cd8fcc; 0xfdf8cc; 0x5d74cc; 0x3fffecc; 0x1fffecc; 0xfffccc;
   0x1fffcfc; 0x2baeafc; 0x3ffff0c; 0x18ce00c; 0xfc7c0c; 0x383f80; 0x1f7f700; 0x383f800;
   0x3007000; 0x0; 0x0; 0x0; 0x0; 0x202000; 0x0; 0x0;
   0x0; 0x0; 0x0; 0x1fffff8; 0x1fffff8; 0x1c00038; 0x1c00038; 0x1c00038;
   0x1c00038; 0x1c00038; 0x1c00038; 0x1c00038; 0x1c00038; 0x1c00038; 0x1c00038; 0x1c00038;
   0x1c00038; 0x1c00038; 0x1c00038; 0x1c00038; 0x1c00038; 0x1c00038; 0x1fffff8; 0x1fffff8;
   0x1eaaab8; 0x1c00038; 0x0; 0x0; 0x0; 0x0; 0x202000; 0x0;
   0x0; 0x0; 0x0; 0x1fffff8; 0x1fffffc; 0x1aaaab8; 0x180e01c; 0x180e018;
   0x180601c; 0x1806018; 0x180601c; 0x1806018; 0x180701c; 0x1807018; 0x181f01c; 0x181f818;
   0x1839c1c; 0x1871c18; 0x18f0e1c; 0x18e0718; 0x19c079c; 0x1b801d8; 0x180009c; 0x1aaaab8;
   0x1fffffc; 0x1fffff8; 0x180001c; 0x0; 0x0; 0x0; 0x0; 0x202000;
   0x0; 0x0; 0x0; 0x0; 0x0; 0x1fffff8; 0x1fffff8; 0x1fffff8;
   0x1838c18; 0x1c38c18; 0x1838c18; 0x1c38c18; 0x1838e18; 0x1c38e18; 0x1838e18; 0x1c38618;
   0x1838718; 0x1ff0718; 0x1ff0398; 0x1c001f8; 0x18000d8; 0x1c00018; 0x1800018; 0x1fffff8;
   0x1fffff8; 0x1c00018; 0x1800018; 0x0; 0x0; 0x0; 0x0; 0x0;
   0x202000; 0x0; 0x0; 0x0; 0x0; 0x1fffff8; 0x1fffff8; 0x1aaaab8;
   0x1800018; 0x18aaa18; 0x19fff18; 0x18eaa18; 0x1878018; 0x183c018; 0x180e018; 0x1aaea98;
   0x1bfffd8; 0x1aaea98; 0x180e018; 0x180e018; 0x180e018; 0x180e018; 0x180f418; 0x180fc18;
   0x1805c18; 0x1fffff8; 0x1fffff8; 0x1fffff8; 0x1800018; 0x0; 0x0; 0x0;
   0x0; 0x202000; 0x0; 0x0; 0x0; 0x0; 0x1fffff8; 0x1fffffc;
   0x1aaaab8; 0x180001c; 0x1800018; 0x180001c; 0x187fe18; 0x187ff1c; 0x186ae18; 0x186071c;
   0x1860618; 0x186071c; 0x1860618; 0x186071c; 0x187fe18; 0x187ff1c; 0x182aa18; 0x180001c;
   0x1800018; 0x180001c; 0x1fffff8; 0x1fffffc; 0x1aaaab8; 0x180001c; 0x0; 0x0;
   0x0; 0x0; 0x202000; 0x0; 0x0; 0x0; 0x7000; 0x7000;
   0x3000; 0x3800; 0x1fffff8; 0x1fffff8; 0x1c20038; 0x1860038; 0x1c70138; 0x18383b8;
   0x1c3cf38; 0x181fe38; 0x1c0f838; 0x180f038; 0x1c3f038; 0x187b838; 0x1cf1e38; 0x19e0f38;
   0x1cc07b8; 0x18003b8; 0x1c00138; 0x1fffff8; 0x1fffff8; 0x1800038; 0x1c00038; 0x0;
   0x0; 0x0; 0x0; 0x202000; 0x0; 0x0; 0x0; 0x0;
   0x1fffff8; 0x1fffffc; 0x1800018; 0x180601c; 0x1806018; 0x180601c; 0x1806018; 0x1bfffdc;
   0x1bfffd8; 0x1bfffdc; 0x1807018; 0x180701c; 0x180f018; 0x183f81c; 0x1831818; 0x1871c1c;
   0x18e0e18; 0x19c071c; 0x1b803d8; 0x190019c; 0x1800018; 0x1fffffc; 0x1fffff8; 0x180001c;
   0x0; 0x0; 0x0; 0x0; 0x202000; 0x0; 0x0; 0x0;
   0x0; 0x1fffff8; 0x1fffffc; 0x1aaaab8; 0x180701c; 0x1803018; 0x180301c; 0x1803818;
   0x1bfffdc; 0x1bfffd8; 0x1860c1c; 0x1860e18; 0x187071c; 0x1838f18; 0x181fe1c; 0x180f818;
   0x181f01c; 0x187f818; 0x19f1f1c; 0x1bc0fd8; 0x190019c; 0x1aaaab8; 0x1fffffc; 0x1fffff8;
   0x180001c; 0x0; 0x0; 0x0; 0x0; 0x202000; 0x0; 0x0;
   0x0; 0x0; 0x1fffff8; 0x1fffff8; 0x1aaaab8; 0x1818018; 0x1818018; 0x1818018;
   0x1818018; 0x1bfffd8; 0x1bfff98; 0x181c018; 0x181e018; 0x181f018; 0x181b818; 0x1819e18;
   0x1818f18; 0x18187d8; 0x1818198; 0x181f018; 0x181f018; 0x1805018; 0x1800018; 0x1fffff8;
   0x1fffff8; 0x1800018; 0x0; 0x0; 0x0; 0x0; 0x202000; 0x0;
   0x0; 0x0; 0x0; 0x1fffff8; 0x1fffff8; 0x1aaaab8; 0x1c06018; 0x1806018;
   0x1dfffd8; 0x1bfffd8; 0x1dfffd8; 0x18c6398; 0x1dc6398; 0x18c6398; 0x1dc6398; 0x18fff98;
   0x1dfff98; 0x1806018; 0x1d06018; 0x1b06018; 0x1ffe018; 0x1bfe018; 0x1c00018; 0x1fffff8;
   0x1fffff8; 0x1aaaab8; 0x1c00018; 0x0; 0x0; 0x0; 0x0; 0x202000;
   0x0; 0x0; 0x0; 0x0; 0x1fffff8; 0x1fffffc; 0x1aaaab8; 0x1800c1c;
   0x1800e18; 0x195571c; 0x1bfff18; 0x19fff9c; 0x19bb998; 0x19999dc; 0x1998cf8; 0x199cc5c;
   0x198c618; 0x19c671c; 0x1986398; 0x19c31dc; 0x18c3898; 0x18f5c1c; 0x18f8c18; 0x187801c;
   0x1800018; 0x1fffffc; 0x1fffff8; 0x180001c; 0x0; 0x0; 0x0; 0x0;
   0x202000; 0x0; 0x0; 0x0; 0x0; 0x1fffff8; 0x1fffffc; 0x1aaaab8;
   0x180001c; 0x1800018; 0x19fff9c; 0x18fff98; 0x180001c; 0x1800018; 0x1bfffdc; 0x1bfffd8;
   0x1bfffdc; 0x1818c18; 0x1818c1c; 0x1818e18; 0x1f18e1c; 0x1b18618; 0x1bf879c; 0x1bf83f8;
   0x18000dc; 0x1aaaab8; 0x1fffffc; 0x1fffff8; 0x180001c; 0x0; 0x0; 0x0;
   0x0; 0x202000; 0x0; 0x0; 0x0; 0x0; 0x1fffff8; 0x1fffff8;
   0x1aaaab8; 0x1806018; 0x1806018; 0x1806018; 0x1806018; 0x1bfffd8; 0x1bfffd8; 0x195f558;
   0x181f818; 0x183fc18; 0x1876e18; 0x18e6718; 0x19c6398; 0x1b861d8; 0x1b060d8; 0x1906058;
   0x1806018; 0x1806018; 0x1800018; 0x1fffff8; 0x1fffff8; 0x1800018; 0x0; 0x0;
   0x0; 0x0; 0x202000; 0x0; 0x0; 0x0; 0x7000; 0x7000;
   0x3000; 0x3800; 0x1fffff8; 0x1fffff8; 0x1c07038; 0x1c03038; 0x1cff838; 0x1cffc38;
   0x1ce0e38; 0x1c60738; 0x1c71fb8; 0x1c3bdb8; 0x1c1f038; 0x1c1e038; 0x1c3f038; 0x1c73c38;
   0x1c61f38; 0x1c007b8; 0x1c001b8; 0x1fffff8; 0x1fffff8; 0x1c00038; 0x1c00038; 0x0;
   0x0; 0x0; 0x0; 0x202000; 0x0; 0x0; 0x0; 0x0;
   0x1fffff8; 0x1fffffc; 0x1800018; 0x180601c; 0x1806018; 0x1bfffdc; 0x1bfff98; 0x180601c;
   0x1806018; 0x19fff9c; 0x18fff98; 0x180601c; 0x1806018; 0x1bfffdc; 0x1bfffd8; 0x1b8601c].
Definition hanzi_data_75 : list N :=
  [0x1986018; 0x19f601c; 0x18e6018; 0x180601c; 0x1800018; 0x1fffffc; 0x1fffff8; 0x180001c;
   0x0; 0x0; 0x0; 0x0; 0x202000; 0x0; 0x0; 0x0;
   0x0; 0x1fffff8; 0x1fffffc; 0x1802018; 0x180701c; 0x180f818; 0x181fc1c; 0x1838e18;
   0x18f071c; 0x1be03d8; 0x1f801fc; 0x1a20658; 0x187c61c; 0x181f618; 0x1807e1c; 0x18c0e18;
   0x18c061c; 0x18c0618; 0x18ffe1c; 0x18ffc18; 0x185f01c; 0x1aaaab8; 0x1fffffc; 0x1fffff8;
   0x180001c; 0x0; 0x0; 0x0; 0x0; 0x202000; 0x0; 0x0;
   0x0; 0x0; 0x1fffff8; 0x1fffff8; 0x1aaaab8; 0x1840018; 0x18f8018; 0x19fffd8;
   0x1807f98; 0x1806018; 0x1806018; 0x1bfffd8; 0x1bfffd8; 0x181f818; 0x183f818; 0x1877c18;
   0x18e6e18; 0x19c6798; 0x1b863d8; 0x19061d8; 0x1806018; 0x1806018; 0x1800018; 0x1fffff8;
   0x1fffff8; 0x1800018; 0x0; 0x0; 0x0; 0x0; 0x202000; 0x0;
   0x0; 0x0; 0x0; 0x1fffff8; 0x1fffffc; 0x1800018; 0x180e01c; 0x180f018;
   0x181f81c; 0x1839c18; 0x18f2f1c; 0x1bc7398; 0x1f8e1fc; 0x1a0c098; 0x187ff1c; 0x18fff18;
   0x187001c; 0x1830018; 0x183981c; 0x181fc18; 0x180f01c; 0x181e018; 0x183801c; 0x1810018;
   0x1fffffc; 0x1fffff8; 0x180001c; 0x0; 0x0; 0x0; 0x0; 0x202000;
   0x0; 0x0; 0x0; 0x0; 0x1fffff8; 0x1fffff8; 0x1aaaab8; 0x1806018;
   0x1806018; 0x1806018; 0x1aaea98; 0x1bfffd8; 0x1806018; 0x1806018; 0x1806018; 0x18fff18;
   0x18fff18; 0x18c0718; 0x18c0318; 0x18c0718; 0x18eab18; 0x18fff18; 0x18aaa18; 0x1800018;
   0x1800018; 0x1fffff8; 0x1fffff8; 0x1800018; 0x0; 0x0; 0x0; 0x0;
   0x202000; 0x0; 0x0; 0x0; 0x0; 0x1fffff8; 0x1fffff8; 0x1aaaab8;
   0x1800018; 0x18aaa98; 0x19fff98; 0x18aea98; 0x1806018; 0x1806018; 0x1806018; 0x18fff18;
   0x19fff18; 0x1826018; 0x1876018; 0x18e6018; 0x19c6018; 0x1bfff98; 0x1bfffd8; 0x1800018;
   0x1800018; 0x1aaaab8; 0x1fffff8; 0x1fffff8; 0x1800018; 0x0; 0x0; 0x0;
   0x0; 0x202000; 0x0; 0x0; 0x0; 0x0; 0x1fffff8; 0x1fffffc;
   0x1800018; 0x180181c; 0x1801c18; 0x19ffe1c; 0x18fff18; 0x1870fdc; 0x1839dd8; 0x181f8dc;
   0x181f818; 0x19fff1c; 0x1fe0ff8; 0x1b079dc; 0x181f818; 0x183c01c; 0x1800e18; 0x181ff1c;
   0x18fe018; 0x187001c; 0x1800018; 0x1fffffc; 0x1fffff8; 0x180001c; 0x0; 0x0;
   0x0; 0x0; 0x202000; 0x0; 0x0; 0x0; 0x0; 0x1fffff8;
   0x1fffff8; 0x1aaaab8; 0x1803018; 0x1803818; 0x1bfffd8; 0x1bfffd8; 0x1801c18; 0x1800e18;
   0x18fff18; 0x18c0718; 0x18d57d8; 0x18fffd8; 0x18c06d8; 0x18c0618; 0x18ffe18; 0x18c0618;
   0x18c0618; 0x18f8618; 0x1870618; 0x1800018; 0x1fffff8; 0x1fffff8; 0x1800018; 0x0;
   0x0; 0x0; 0x0; 0x202000; 0x0; 0x0; 0x0; 0x0;
   0x1fffff8; 0x1fffffc; 0x1800018; 0x187601c; 0x18e6018; 0x1bfffdc; 0x1bfffd8; 0x180601c;
   0x19fff98; 0x19fff9c; 0x1986198; 0x19fff9c; 0x19fff98; 0x198619c; 0x19aeb98; 0x19fff9c;
   0x1986198; 0x198619c; 0x19f6198; 0x19f619c; 0x1800018; 0x1fffffc; 0x1fffff8; 0x180001c;
   0x0; 0x0; 0x0; 0x0; 0x202000; 0x0; 0x0; 0x0;
   0x0; 0x1fffff8; 0x1fffff8; 0x1aaaab8; 0x1800018; 0x19fff98; 0x19fff98; 0x1803818;
   0x187ff18; 0x187ff18; 0x1861c18; 0x1860818; 0x1bfffd8; 0x1aaaa98; 0x1855518; 0x18fff18;
   0x18c0318; 0x18c0318; 0x18fff18; 0x18fff18; 0x1800018; 0x1800018; 0x1fffff8; 0x1fffff8;
   0x1800018; 0x0; 0x0; 0x0; 0x0; 0x202000; 0x0; 0x0;
   0x0; 0x0; 0x1fffff8; 0x1fffffc; 0x1800018; 0x18fff1c; 0x18fff18; 0x18c031c;
   0x18c0318; 0x18fff1c; 0x18aaa18; 0x195551c; 0x19fff98; 0x19fff9c; 0x1986198; 0x19c619c;
   0x1986198; 0x19c719c; 0x199b998; 0x187fc1c; 0x19e0f98; 0x1bc07dc; 0x1800098; 0x1fffffc;
   0x1fffff8; 0x180001c; 0x0; 0x0; 0x0; 0x0; 0x202000; 0x0;
   0x0; 0x0; 0x0; 0x1fffff8; 0x1fffffc; 0x1802018; 0x18c631c; 0x18e6318;
   0x186761c; 0x19fff98; 0x19fff9c; 0x1801818; 0x1ffffdc; 0x1bfffd8; 0x186071c; 0x18eab98;
   0x1ffffdc; 0x1b306f8; 0x183465c; 0x181e618; 0x18c061c; 0x18eae18; 0x18ffc1c; 0x1800018;
   0x1fffffc; 0x1fffff8; 0x180001c; 0x0; 0x0; 0x0; 0x0; 0x202000;
   0x0; 0x0; 0x0; 0x0; 0x1fffff8; 0x1fffffc; 0x1802018; 0x180601c;
   0x18aea98; 0x19fff9c; 0x1806018; 0x180601c; 0x1bffff8; 0x1ffffdc; 0x1830c18; 0x1811c1c;
   0x19fff18; 0x19fff1c; 0x1806018; 0x1bfffdc; 0x1bfffd8; 0x180601c; 0x1806018; 0x180601c;
   0x1800018; 0x1fffffc; 0x1fffff8; 0x180001c; 0x0; 0x0; 0x0; 0x0;
   0x202000; 0x0; 0x0; 0x0; 0x0; 0x1fffff8; 0x1fffff8; 0x1800018;
   0x1c06018; 0x19fff98; 0x1dfff98; 0x18aea98; 0x1dfff98; 0x1806018; 0x1ffffd8; 0x1aaaa98;
   0x1cfff18; 0x18fff18; 0x1cd5718; 0x18fff18; 0x1cc0318; 0x18fff18; 0x1cfff18; 0x18e8318;
   0x1cf8318; 0x1800018; 0x1fffff8; 0x1fffff8; 0x1c00018; 0x0; 0x0; 0x0;
   0x0; 0x202000; 0x0; 0x0; 0x0; 0x0; 0x1fffff8; 0x1fffff8;
   0x1aaaab8; 0x1986198; 0x1986198; 0x1986198; 0x19fff98; 0x19fff98; 0x1800018; 0x1bfffd8;
   0x1bfffd8; 0x1807018; 0x19fff98; 0x19fff98; 0x1999998; 0x1999998; 0x1999998; 0x1999998;
   0x19b9998; 0x19d9998; 0x1800018; 0x1fffff8; 0x1fffff8; 0x1800018; 0x0; 0x0;
   0x0; 0x0; 0x202000; 0x0; 0x0; 0x0; 0x0; 0x1fffff8;
   0x1fffffc; 0x1800018; 0x19fff9c; 0x19fff98; 0x199999c; 0x1999998; 0x19fff9c; 0x19fff98;
   0x180701c; 0x1aaea98; 0x1bfffdc; 0x1801818; 0x1855c1c; 0x18ffc18; 0x18d5c1c; 0x18c0e18;
   0x186071c; 0x187e398; 0x187e1dc; 0x1800018; 0x1fffffc; 0x1fffff8; 0x180001c; 0x0;
   0x0; 0x0; 0x0; 0x202000; 0x0; 0x0; 0x0; 0x0].
Definition hanzi_data_76 : list N :=
  [0x1fffff8; 0x1fffffc; 0x1808018; 0x1879c1c; 0x18f0e18; 0x1bc07dc; 0x1900098; 0x1bfffdc;
   0x1bfffd8; 0x180301c; 0x19fff98; 0x19fffdc; 0x1998998; 0x199f9dc; 0x1998998; 0x199f9dc;
   0x199f998; 0x19999dc; 0x19fff98; 0x19fffdc; 0x1800018; 0x1fffffc; 0x1fffff8; 0x180001c;
   0x0; 0x0; 0x0; 0x0; 0x202000; 0x0; 0x0; 0x0;
   0x0; 0x1fffff8; 0x1fffffc; 0x1800018; 0x19fff9c; 0x19bbb98; 0x199999c; 0x19fff98;
   0x19fff9c; 0x1bfffd8; 0x1bfffdc; 0x1800018; 0x18fff1c; 0x18c0318; 0x18fff1c; 0x18fff18;
   0x1bcfc1c; 0x18fcf18; 0x1870fdc; 0x18eec18; 0x1b87e1c; 0x1900e18; 0x1fffffc; 0x1fffff8;
   0x180001c; 0x0; 0x0; 0x0; 0x0; 0x202000; 0x0; 0x0;
   0x0; 0x6000; 0x6000; 0x6000; 0x6000; 0x6000; 0x6000; 0x6000;
   0x6000; 0x557550; 0xfffff8; 0x1fffff8; 0x6000; 0x6000; 0x6000; 0x6000;
   0x6000; 0x6000; 0x6000; 0x6000; 0x6000; 0x6000; 0x2aaeaa8; 0x3fffffc;
   0x3fffffc; 0x0; 0x0; 0x0; 0x0; 0x0; 0x202000; 0x0;
   0x0; 0x0; 0xc0; 0xc0; 0x7fff8c0; 0x3fff8c0; 0x7fff8c0; 0x1800c0;
   0x1c00c0; 0x180ffc; 0x1c0ffc; 0x1800c0; 0x1c00c0; 0x1800c0; 0x1c00c0; 0x1800c0;
   0x1c00c0; 0x1808c0; 0x1c0fc0; 0x180fc0; 0x1c07f8; 0x1800fe; 0x1c001c; 0x180000;
   0x1c0000; 0x1fc000; 0xfc000; 0x0; 0x0; 0x0; 0x0; 0x202000;
   0x0; 0x0; 0x0; 0x0; 0x0; 0x7ffff8; 0x7ffff8; 0x3801c0;
   0x1c0380; 0x1f0700; 0x79e00; 0x3fc00; 0x3fe00; 0x7fdfd0; 0x3fe03fe; 0x3f0607c;
   0x6000; 0x6000; 0x2aeaa0; 0x7fffe0; 0x7fffe0; 0x6000; 0x6000; 0x6000;
   0x6000; 0x3fffffc; 0x3fffffc; 0x0; 0x0; 0x0; 0x0; 0x0;
   0x202000; 0x0; 0x0; 0x0; 0x1800; 0x1800; 0x1c00; 0xc00;
   0x3fffffc; 0x3fffffc; 0x3fffffc; 0x20700; 0x70380; 0x60380; 0x701c0; 0x600e0;
   0x15754f0; 0x1fffcf8; 0x1fffcfc; 0x600dc; 0x700c4; 0x600c0; 0x700c0; 0x600c0;
   0x700c0; 0x600c0; 0x3fffec0; 0x3fffec0; 0x15554c0; 0x0; 0x0; 0x0;
   0x0; 0x202000; 0x0; 0x0; 0x0; 0x60; 0xaaa060; 0x3fff060;
   0x3fff060; 0xc0060; 0xc0060; 0xc07fc; 0xc07fe; 0xc07fe; 0xc0060; 0x7fff860;
   0x3fff860; 0x7fff860; 0xc0060; 0xc0060; 0xc0660; 0xc07e0; 0xc03e0; 0xc00fe;
   0xc003c; 0xc0004; 0xc0000; 0xd4000; 0xfc000; 0x7c000; 0x0; 0x0;
   0x0; 0x0; 0x202000; 0x0; 0x0; 0x0; 0x1c060; 0xc060;
   0xc060; 0xe060; 0x3fff060; 0x3fff060; 0x15571fc; 0x3bfc; 0x1ffc; 0xc60;
   0x1fff060; 0xffe060; 0x7c0060; 0x1c0060; 0xf0060; 0x78360; 0x3c7e0; 0xe1f8;
   0x100f07e; 0x300300c; 0x7003804; 0x3003800; 0x3fff800; 0x3fff000; 0x17fc000; 0x0;
   0x0; 0x0; 0x0; 0x202000; 0x0; 0x0; 0x0; 0x4000e0;
   0xf800e0; 0x7f00e0; 0xff8e0; 0x3f8e0; 0x308e0; 0x300e0; 0x307fc; 0x307fc;
   0x300e0; 0x34300e0; 0x3ff00e0; 0x1fffce0; 0x3f8e0; 0x31ce0; 0x300e0; 0x307e0;
   0x30fe0; 0x10301fc; 0x303007c; 0x303001c; 0x3030000; 0x3ff0000; 0x1ff0000; 0x7c0000;
   0x0; 0x0; 0x0; 0x0; 0x202000; 0x0; 0x0; 0x0;
   0x60; 0x60; 0x1fff060; 0x1fff060; 0x60; 0x60; 0x7fc; 0x3fc;
   0x7fffffc; 0x3fff860; 0x1c060; 0xc060; 0xc060; 0xe060; 0x1ffe060; 0x1ffe060;
   0x1fff7e0; 0x1c003e0; 0x1c001fc; 0xc0003c; 0xc00004; 0xe00000; 0xff8000; 0x7f8000;
   0x3f0000; 0x0; 0x0; 0x0; 0x0; 0x202000; 0x0; 0x0;
   0x0; 0x6000; 0x6000; 0x6000; 0x6000; 0x7ffff0; 0x7fffe0; 0x6000;
   0x6000; 0x6000; 0xaaeaa8; 0x1fffff8; 0x1fffff8; 0x6000; 0x6000; 0x6000;
   0xfffff0; 0xfffff0; 0xfffff0; 0x6000; 0x6000; 0x6000; 0x6000; 0x3fffffc;
   0x3fffffc; 0x0; 0x0; 0x0; 0x0; 0x0; 0x202000; 0x0;
   0x0; 0x0; 0xe0; 0xe0; 0x1fff0e0; 0xfff0e0; 0x1c000e0; 0xc000e0;
   0x1c007fc; 0xc007fc; 0x1c007fc; 0xc000e0; 0x1d550e0; 0xfff0e0; 0x1fff0e0; 0xc030e0;
   0x14074e0; 0x37e0; 0x77e0; 0x31f8; 0x300707e; 0x300300c; 0x7007004; 0x3003000;
   0x3fff000; 0x3ffe000; 0xffc000; 0x0; 0x0; 0x0; 0x0; 0x202000;
   0x0; 0x0; 0x0; 0xc0; 0xaaa0e0; 0x1fff0e0; 0x1fff0e0; 0x18070e0;
   0x18030e0; 0x18075f4; 0x1803ffc; 0x1807ffc; 0x18030e0; 0x18070e0; 0x1fff0e0; 0x1fff0e0;
   0x18030e0; 0x18070e0; 0x30e0; 0x7fe0; 0x3fe0; 0x70071fe; 0x300303c; 0x3007004;
   0x3003000; 0x3fff000; 0x1ffe000; 0x0; 0x0; 0x0; 0x0; 0x0;
   0x202000; 0x0; 0x0; 0x0; 0xe0060; 0xe0060; 0xe1060; 0xe3060;
   0xe3060; 0x18e3060; 0x1fe37fc; 0x1fe33fc; 0x19fb7fc; 0x18ff060; 0x18ffc60; 0x18e3e60;
   0x18e3c60; 0x18e3060; 0x18e3060; 0x18e3260; 0x1fe37e0; 0xee33f0; 0x10e307e; 0x300301c;
   0x7003004; 0x3003000; 0x3fff000; 0x3ffe000; 0x554000; 0x0; 0x0; 0x0;
   0x0; 0x202000; 0x0; 0x0; 0x0; 0x400040; 0xe00060; 0x1ff0060;
   0x3ff860; 0xff060; 0xe0060; 0xe0060; 0xe03fc; 0xe07fc; 0xe02e8; 0xe0060;
   0x3fff860; 0x7fff860; 0xe0060; 0xe0060; 0xe0060; 0xe0760; 0xe07e0; 0xe01fc;
   0xe003e; 0xe001c; 0xe0000; 0xe0000; 0xe0000; 0xe0000; 0x0; 0x0;
   0x0; 0x0; 0x202000; 0x0; 0x0; 0x0; 0x1000060; 0x18070e0;
   0x18c70e0; 0x18c70e0; 0x18c70e0; 0x18c70e0; 0x18c75f4; 0x18c77fc; 0x18c77fc; 0x18c70e0;
   0x18c70e0; 0x18c70e0; 0x18c70e0; 0x18c70e0; 0x18c70e0; 0x18c30e0; 0x18c77e0; 0x18c37e0].
Definition hanzi_data_77 : list N :=
  [0x18c3bf8; 0x18c387e; 0x18c1c1c; 0x1881c00; 0x1801c00; 0x1800e00; 0x1800400; 0x0;
   0x0; 0x0; 0x0; 0x202000; 0x0; 0x0; 0x0; 0x600e0;
   0xe00e0; 0xc00e0; 0xc00e0; 0x3fff0e0; 0x3fff0e0; 0x30e0; 0x33fc; 0x37fc;
   0x30e0; 0x30e0; 0x30e0; 0x30e0; 0x30e0; 0x30e0; 0x3ae0; 0x3fe0;
   0x3bf8; 0x187c; 0x181c; 0x1c04; 0xc00; 0xe00; 0xe00; 0x400;
   0x0; 0x0; 0x0; 0x0; 0x202000; 0x0; 0x0; 0x0;
   0x60; 0x3ff860; 0x7ffc60; 0x3aa860; 0x1c0060; 0xe0060; 0x78174; 0x1c3fc;
   0x155f3fc; 0x3fff860; 0x3fff860; 0x3bb8060; 0x3998060; 0x399c060; 0x39cc060; 0x38ce060;
   0x18e7360; 0x1863fe0; 0x1871bfc; 0x183807e; 0x1c1c01c; 0x1c0e000; 0x1d47000; 0xf83800;
   0x781000; 0x0; 0x0; 0x0; 0x0; 0x202000; 0x0; 0x0;
   0x0; 0xc000e0; 0xf800e0; 0xffc0e0; 0xfe0e0; 0x1e0e0; 0xe0e0; 0xe7fc;
   0xe7fc; 0x155e7fc; 0x3ffe0e0; 0x3ffe0e0; 0x70e0e0; 0x7060e0; 0x7060e0; 0x7060e0;
   0x706ee0; 0x707fe0; 0x7063f8; 0x70707e; 0x70301c; 0x703004; 0x703800; 0x701c00;
   0x701c00; 0x700800; 0x0; 0x0; 0x0; 0x0; 0x202000; 0x0;
   0x0; 0x0; 0x60; 0x60; 0x7ffc60; 0x3ffc60; 0x306060; 0x306060;
   0x386574; 0x1863fc; 0x1867fc; 0x1f86060; 0x1fc6060; 0x180e060; 0x1c0f060; 0xc1f060;
   0xc1f060; 0xe3b060; 0x773760; 0x363fe0; 0x3e1bfc; 0x1c1c7c; 0x7e1c1c; 0xff0e00;
   0x1e7c700; 0x3c1e380; 0x1004300; 0x0; 0x0; 0x0; 0x0; 0x202000;
   0x0; 0x0; 0x0; 0x1c0060; 0xc00e0; 0x1c00e0; 0xc00e0; 0x1c00e0;
   0xc00e0; 0x1c77fc; 0xc37fc; 0x1c77fc; 0x3fc30e0; 0x3fc70e0; 0x2ac30e0; 0x1c70e0;
   0xc30e0; 0x1c74e0; 0xc36e0; 0x1c77e0; 0xc33f8; 0x1c707e; 0xc300c; 0x1c7004;
   0xc3000; 0x7fffe00; 0x3fffe00; 0x0; 0x0; 0x0; 0x0; 0x0;
   0x202000; 0x0; 0x0; 0x0; 0x60; 0x1e00060; 0x1fff060; 0x3ff860;
   0x5860; 0x1860; 0x1bfc; 0x1bfc; 0x1fffbfc; 0x1fff860; 0x1c0d860; 0xc0d860;
   0xc1d860; 0xe19860; 0x639860; 0x731a60; 0x771fe0; 0x3e1ff8; 0x1e1c7e; 0x1e0c1c;
   0x7f0c04; 0xf38e00; 0x1e1f700; 0x380ff00; 0x1003200; 0x0; 0x0; 0x0;
   0x0; 0x202000; 0x0; 0x0; 0x0; 0x10060; 0x38060; 0x18060;
   0x1c060; 0x3ffc060; 0x3ffe060; 0x3fff7fc; 0x38033fc; 0x3803ffc; 0x380dc60; 0x181e860;
   0x3838060; 0x1870060; 0x18e0060; 0x1b40060; 0x1b80660; 0x19e07e0; 0x18f83e0; 0x183e1f8;
   0x180f83e; 0x1c0701c; 0x1c00000; 0x1c10000; 0xfe0000; 0x7e0000; 0x0; 0x0;
   0x0; 0x0; 0x202000; 0x0; 0x0; 0x0; 0x60060; 0x60060;
   0x60060; 0x60060; 0x7fffc60; 0x3fff860; 0x603fc; 0x603fc; 0x1c63bfc; 0x1863860;
   0x1c63860; 0x1863860; 0x1c63860; 0x1863860; 0x1c63860; 0x1fffb60; 0x1ffffe0; 0x1aea9f8;
   0x1c6007e; 0x6000c; 0x7060004; 0x3060000; 0x3060000; 0x3fe0000; 0x1fc0000; 0x0;
   0x0; 0x0; 0x0; 0x202000; 0x0; 0x0; 0x0; 0x60060;
   0xe00e0; 0xe00e0; 0xc00e0; 0x400e0; 0x3fffce0; 0x7fffce0; 0x187fc; 0x187fc;
   0x180e0; 0x180e0; 0x1ff80e0; 0x1ffc0e0; 0x18180e0; 0x1c1c0e0; 0x181c0e0; 0x1c1c7e0;
   0x1c0e7e0; 0x1c0e1fc; 0xc0703e; 0x1c0700c; 0xc03800; 0xf61c00; 0xfe0f00; 0x7e0600;
   0x0; 0x0; 0x0; 0x0; 0x202000; 0x0; 0x0; 0x0;
   0x60; 0x388060; 0x318060; 0x318060; 0x71c060; 0x70c060; 0x60c3fc; 0xe0e3fc;
   0x1c073fc; 0x1c03060; 0x3803c60; 0x3fffc60; 0x3fff860; 0xc38060; 0xc18060; 0xc18360;
   0xc1c7e0; 0xc0c1f8; 0xc0c07e; 0xe0e00c; 0xe07004; 0xe07000; 0x743c00; 0x7e1e00;
   0x3c0c00; 0x0; 0x0; 0x0; 0x0; 0x202000; 0x0; 0x0;
   0x0; 0x20200; 0x70600; 0xf0700; 0x1c0380; 0x3c01c0; 0xf000e0; 0x1fffffc;
   0x3fffffc; 0x13fffc8; 0x381800; 0x181c00; 0x180e00; 0x1f87c0; 0xf81f0; 0x7070;
   0x6000; 0x7fffe0; 0x7fffe0; 0x7fffe0; 0x6000; 0x7000; 0x6000; 0x3fffffc;
   0x3fffffc; 0x0; 0x0; 0x0; 0x0; 0x0; 0x202000; 0x0;
   0x0; 0x0; 0x60; 0xfff060; 0x1fff060; 0xeab060; 0x1c17060; 0xc3b060;
   0x1c77174; 0xce33fc; 0x1cc77fc; 0xcc3060; 0x1c47060; 0x2eab860; 0x7fffc60; 0x3fffc60;
   0x1c03060; 0xc03060; 0x1c037e0; 0xc03fe0; 0x1c039fe; 0xc0183e; 0x1c01c04; 0xc00c00;
   0x1c00e00; 0xf80700; 0x780600; 0x0; 0x0; 0x0; 0x0; 0x202000;
   0x0; 0x0; 0x0; 0x1c060; 0xc060; 0xc060; 0xe060; 0x1556060;
   0x3ffe060; 0x3fff3fc; 0x38033fc; 0x18433fc; 0x1863860; 0x1c61c60; 0xc60c60; 0x60860;
   0x60060; 0xf0060; 0xf0260; 0xf07e0; 0x1b81f8; 0x1b807e; 0x39c01c; 0x71e004;
   0xe0f000; 0x1e07c00; 0x3801e00; 0x1000400; 0x0; 0x0; 0x0; 0x0;
   0x202000; 0x0; 0x0; 0x0; 0x60; 0x60; 0x7fffc60; 0x3fffc60;
   0x1c0060; 0xe0060; 0x70174; 0x703fc; 0x1783fc; 0x3fc060; 0x77e060; 0xe6f060;
   0x3c77c60; 0x7861e60; 0x3070c60; 0x60060; 0x707e0; 0x607e0; 0x701fe; 0x6003e;
   0x70004; 0x60000; 0x70000; 0x60000; 0x70000; 0x0; 0x0; 0x0;
   0x0; 0x202000; 0x0; 0x0; 0x0; 0x6000; 0x106080; 0x306180;
   0x386180; 0x3861c0; 0x1860c0; 0x1c61e0; 0x3c63e0; 0x7e67f0; 0xee6730; 0x1c76e38;
   0x383ec1c; 0x301601c; 0x6008; 0x557550; 0xfffff0; 0x1fffff0; 0x6000; 0x6000;
   0x6000; 0x6000; 0x6000; 0x3fffffc; 0x3fffffc; 0x0; 0x0; 0x0;
   0x0; 0x0; 0x202000; 0x0; 0x0; 0x0; 0x30060; 0x30060].
Definition hanzi_data_78 : list N :=
  [0x70060; 0xe0060; 0x60060; 0x3fff860; 0x7fffffc; 0x3fc; 0x7fc; 0x2aa060;
   0x7fe060; 0x3ae060; 0x70e060; 0x30e060; 0x70e060; 0x30e060; 0x706760; 0x3067e0;
   0x17071fc; 0x230703e; 0x770700c; 0x2303800; 0x7701c00; 0x3f00e00; 0x1e00400; 0x0;
   0x0; 0x0; 0x0; 0x202000; 0x0; 0x0; 0x0; 0x18070;
   0x18060; 0x818070; 0x1e18060; 0x1fdbff0; 0x3fbfe0; 0x79570; 0x18060; 0x1018070;
   0x3018060; 0x301bc70; 0x3ffbff0; 0x1ff47f0; 0x6030; 0x6000; 0x6000; 0xfffff0;
   0xfffff0; 0x557550; 0x6000; 0x6000; 0x6000; 0x3fffffc; 0x3fffffc; 0x0;
   0x0; 0x0; 0x0; 0x0; 0x202000; 0x0; 0x0; 0x0;
   0x30060; 0x30060; 0x30060; 0x30060; 0x575060; 0xfff860; 0x1fffbfc; 0xc303fc;
   0x1c303fc; 0xc30060; 0x1c30060; 0xc30060; 0x3fffc60; 0x3fffc60; 0x3fffc60; 0xf8360;
   0xd87e0; 0x1d81f8; 0x19c07e; 0x38e00c; 0x707004; 0xe03800; 0x3c03c00; 0x3800f00;
   0x3000600; 0x0; 0x0; 0x0; 0x0; 0x202000; 0x0; 0x0;
   0x0; 0x500; 0xfff600; 0x1fff738; 0xc06638; 0xe0c738; 0x60c638; 0x71c738;
   0x3b8638; 0x1f0738; 0xe0638; 0x1f8738; 0xfbe638; 0x7f1ff38; 0x3c03600; 0x1006000;
   0x6000; 0x7ffff0; 0x7fffe0; 0x7ffff0; 0x6000; 0x6000; 0x6000; 0x3fffffc;
   0x3fffffc; 0x0; 0x0; 0x0; 0x0; 0x0; 0x202000; 0x0;
   0x0; 0x0; 0x60; 0x60; 0x1fff060; 0x1fff060; 0x1555060; 0x60;
   0x7fc; 0x3fe; 0x7fe; 0x60; 0x3fffc60; 0x3fffc60; 0x38060; 0x38060;
   0x1c060; 0x21c060; 0x70c760; 0x60e7e0; 0xe071f0; 0xc0307e; 0x1fd381c; 0x1fffc00;
   0x39ffc00; 0x3000800; 0x1000000; 0x0; 0x0; 0x0; 0x0; 0x202000;
   0x0; 0x0; 0x0; 0x60; 0x3fff860; 0x3fff860; 0x2aab860; 0xe1860;
   0xe1860; 0xe1bfc; 0xe1bfc; 0x1ffdbfc; 0x1ffd860; 0x1ffd860; 0x18e1860; 0x1861860;
   0x1861860; 0x1861860; 0x1861b60; 0x1871fe0; 0x1830df8; 0x1c31c7e; 0x1838c0c; 0x1c18e04;
   0xc1c600; 0xfde700; 0xf8e300; 0x7c4300; 0x0; 0x0; 0x0; 0x0;
   0x202000; 0x0; 0x0; 0x0; 0x60; 0x1fff0e0; 0x1fff0e0; 0x1aab0e0;
   0x1c030e0; 0x18630e0; 0x1c637fc; 0x18637fc; 0x1c637fc; 0x18630e0; 0x1c630e0; 0x18630e0;
   0x1c630e0; 0x18630e0; 0x1c634e0; 0x18637e0; 0x1c737e0; 0x18331f8; 0x1cb307e; 0x3b800c;
   0x79c004; 0xe0e000; 0x1c07c00; 0x3803e00; 0x1000c00; 0x0; 0x0; 0x0;
   0x0; 0x202000; 0x0; 0x0; 0x0; 0x70060; 0x70060; 0x575060;
   0xfff060; 0xfff060; 0xc03060; 0xc03060; 0xe037fc; 0xe037fc; 0x7c3060; 0x7c3060;
   0x3060; 0x3060; 0x3fff060; 0x3fff060; 0x3800060; 0x1800760; 0x3aaafe0; 0x1bffdfc;
   0x1aaa83e; 0x180000c; 0x1800000; 0x1c00000; 0x1f80000; 0xf80000; 0x0; 0x0;
   0x0; 0x0; 0x202000; 0x0; 0x0; 0x0; 0x30060; 0x30060;
   0x70060; 0xe0060; 0xc0060; 0x3fffc60; 0x3fffffc; 0x2eaebfc; 0x6073fc; 0x606060;
   0x706060; 0x70e060; 0x70c060; 0x30c060; 0x39c060; 0x1b8260; 0x1f87e0; 0xf03f0;
   0xf007e; 0x1f801c; 0x3fc004; 0xf8f000; 0x3f07c00; 0x3c03e00; 0x1000400; 0x0;
   0x0; 0x0; 0x0; 0x202000; 0x0; 0x0; 0x0; 0x60000;
   0x60ff8; 0x70ff8; 0x60618; 0x70718; 0xf0398; 0xf0798; 0xf8e18; 0x1f8c18;
   0x398c18; 0x71cfd8; 0xe0e398; 0x1e07818; 0x3c03c18; 0x1007818; 0x6000; 0x6000;
   0xfffff0; 0xfffff0; 0x6000; 0x6000; 0x6000; 0x3fffffc; 0x3fffffc; 0x0;
   0x0; 0x0; 0x0; 0x0; 0x202000; 0x0; 0x0; 0x0;
   0xe0060; 0xe0060; 0xe0060; 0xe0060; 0x7fff860; 0x3fff860; 0x38e1bfc; 0x38e1bfc;
   0x18e1bfc; 0x18e1860; 0x5f5860; 0x1fff860; 0x1fff860; 0xc0d860; 0xc1d860; 0xe19b60;
   0x719fe0; 0x3b1df8; 0x3f1c7e; 0x1e0c0c; 0x1f0e04; 0x7f8600; 0x1f3f700; 0x3c0f380;
   0x1003100; 0x0; 0x0; 0x0; 0x0; 0x202000; 0x0; 0x0;
   0x0; 0x60060; 0x60060; 0x60060; 0x60060; 0x1fff860; 0x1fff860; 0x1861bfc;
   0x1861bfc; 0x1861bfc; 0x1aeb860; 0x1fff860; 0x1aeb860; 0x1861860; 0x1861860; 0x1861860;
   0x1fffb60; 0x1ffffe0; 0x1aeb9f8; 0x186187e; 0x6000c; 0x60004; 0x60000; 0x60000;
   0x60000; 0x60000; 0x0; 0x0; 0x0; 0x0; 0x202000; 0x0;
   0x0; 0x0; 0x40; 0xffe060; 0xfff060; 0xeae060; 0xc07060; 0xc06060;
   0xc07060; 0xc067fc; 0xfff7fc; 0xffe060; 0xc07060; 0xc06060; 0xc07060; 0xc06060;
   0xc07060; 0xffe060; 0xfff760; 0xc067e0; 0xc071fe; 0xc0603c; 0xc07004; 0xc06000;
   0x7ffff00; 0x3ffff00; 0x0; 0x0; 0x0; 0x0; 0x0; 0x202000;
   0x0; 0x0; 0x0; 0x60; 0xfff060; 0x1fff060; 0xeab060; 0x1c07060;
   0xc03060; 0x1c077fc; 0xc033fc; 0x1c077fc; 0xfff060; 0x1fff060; 0xc03060; 0x1c07060;
   0xc03060; 0x1c07060; 0xc03660; 0x1fff7e0; 0xfff3f8; 0x1fff07e; 0x1c; 0x4;
   0x0; 0x7ffff00; 0x3fffe00; 0x0; 0x0; 0x0; 0x0; 0x0;
   0x202000; 0x0; 0x0; 0x0; 0x70060; 0x70060; 0x60060; 0xe0060;
   0x3fffc60; 0x3fffc60; 0x3001ffc; 0x3000ffc; 0x3007ffc; 0x2006860; 0x6060; 0xe06060;
   0x1f06060; 0x7e6060; 0x1fe060; 0x3e260; 0xe7e0; 0x63f0; 0x100607e; 0x300601c;
   0x3006004; 0x3806000; 0x3ffe000; 0x1ffc000; 0x550000; 0x0; 0x0; 0x0;
   0x0; 0x202000; 0x0; 0x0; 0x0; 0xe07060; 0xe06060; 0xe07060;
   0xe06060; 0xe07060; 0x3fffc60; 0x7fffd74; 0x2eaebfc; 0xe073fc; 0xe06060; 0xe07060;
   0xe06060; 0xe07060; 0xffe060; 0xfff060; 0xe06060; 0xe07760; 0xe067e0; 0xe073fc].
Definition hanzi_data_79 : list N :=
  [0xe0607e; 0xe0701c; 0xffe000; 0xfff000; 0xe06000; 0xe07000; 0x0; 0x0;
   0x0; 0x0; 0x202000; 0x0; 0x0; 0x0; 0x60; 0x2aaa860;
   0x3fffc60; 0x3fffc60; 0x60060; 0x1861860; 0x1c631fc; 0xc633fc; 0xc633fc; 0xe63060;
   0x667060; 0x666060; 0x60060; 0x3fffe60; 0x7fffe60; 0x2aeaa60; 0x603e0; 0x603f0;
   0x600fc; 0x6003c; 0x60004; 0x60000; 0x60000; 0x60000; 0x60000; 0x0;
   0x0; 0x0; 0x0; 0x202000; 0x0; 0x0; 0x0; 0x700e0;
   0x600e0; 0x700e0; 0x600e0; 0x700e0; 0x3fe00e0; 0x3ff07fc; 0x2ae0ffc; 0x70ffc;
   0x600e0; 0x700e0; 0x600e0; 0x700e0; 0x1fff0e0; 0x1fff0e0; 0x18036e0; 0x1c037e0;
   0x18033f8; 0x1c0307e; 0x180301c; 0x1c03004; 0x1aab000; 0x1fff000; 0x1fff000; 0x1c03000;
   0x0; 0x0; 0x0; 0x0; 0x202000; 0x0; 0x0; 0x0;
   0x1c00060; 0x3fe0060; 0x7ff860; 0x63f860; 0x631860; 0x631860; 0x631974; 0x631bfc;
   0x631bfc; 0x631860; 0x631860; 0xe31860; 0xc31860; 0xc31860; 0xc31860; 0xc31860;
   0x1df1f60; 0x1998fe0; 0x1998ffc; 0x1b98c7e; 0x3bdcc1c; 0x33fc600; 0x777e700; 0x260c700;
   0x2000200; 0x0; 0x0; 0x0; 0x0; 0x202000; 0x0; 0x0;
   0x0; 0x60; 0xaaa860; 0x1fff860; 0x1fff860; 0x1801860; 0x1801860; 0x1801bfc;
   0x1fffbfc; 0x1fffbfc; 0x1860; 0x1d860; 0x19860; 0x1c1d860; 0x1e19860; 0x7ddc60;
   0x3f9b60; 0x7dfe0; 0x18df8; 0x101cc7e; 0x3018c0c; 0x301ce04; 0x3018600; 0x3d5c700;
   0x3ff8300; 0x1ff0300; 0x0; 0x0; 0x0; 0x0; 0x202000; 0x0;
   0x0; 0x0; 0x60; 0x60; 0x3fffc60; 0x3fff860; 0x1c0060; 0xe0060;
   0x60574; 0x707fc; 0x1707fc; 0x3f8060; 0x77c060; 0xe6e060; 0x1c67060; 0x3863860;
   0x7061c60; 0x3060c60; 0x60760; 0x607e0; 0x603fc; 0x6007e; 0x6001c; 0x0;
   0x7fffc00; 0x3fffc00; 0x0; 0x0; 0x0; 0x0; 0x0; 0x202000;
   0x0; 0x0; 0x0; 0x60; 0xaaa860; 0x3fff860; 0x3fff860; 0x3801860;
   0x3801860; 0x3801974; 0x3bf9bfc; 0x3bf9bfc; 0x3b19860; 0x3b19860; 0x3b19860; 0x3b19860;
   0x3b19860; 0x3b19860; 0x3b19a60; 0x3bf9fe0; 0x3bf9bf8; 0x381987e; 0x381981c; 0x3801804;
   0x3801800; 0x3801800; 0x1f01800; 0x1f01800; 0x0; 0x0; 0x0; 0x0;
   0x202000; 0x0; 0x0; 0x0; 0x180070; 0x186060; 0x187070; 0x183060;
   0x183070; 0x183860; 0x3fe1974; 0x3fe99fc; 0x319ddfc; 0x319cc60; 0x318ff70; 0x398fe60;
   0x3186070; 0x3986060; 0x39c3070; 0x388f860; 0x19dddf0; 0x38d8fe0; 0x18dfffc; 0x18ffe3e;
   0x1871f0c; 0x1860000; 0x1f30000; 0xf38000; 0x510000; 0x0; 0x0; 0x0;
   0x0; 0x202000; 0x0; 0x0; 0x0; 0x60; 0x60; 0x1fff060;
   0x1fff060; 0x1c37060; 0x1833060; 0x1c673fc; 0x1cc33fc; 0x1dc33fc; 0xc03060; 0x7fffc60;
   0x3fffc60; 0x1c13060; 0xc3b860; 0x1c73860; 0xce3b60; 0x1dc3fe0; 0xc039f8; 0x3fff87e;
   0x3fff80c; 0xc00004; 0xe00000; 0xf40000; 0x7e0000; 0x3c0000; 0x0; 0x0;
   0x0; 0x0; 0x202000; 0x0; 0x0; 0x0; 0x60; 0x60;
   0x7fffc60; 0x3fffc60; 0x1c00060; 0xc00060; 0x1c007fc; 0xcff3fc; 0x1cff7fc; 0xce3060;
   0x1ce3060; 0xce3060; 0x1ce3060; 0xce3060; 0x1ce3060; 0xceb060; 0x1cff760; 0xcab7e0;
   0x1c031fc; 0xc0003e; 0x1c0001c; 0xc00000; 0x1d40000; 0xfe0000; 0x7e0000; 0x0;
   0x0; 0x0; 0x0; 0x202000; 0x0; 0x0; 0x0; 0x1c00060;
   0x3f80060; 0x7ff060; 0xff860; 0xc7860; 0xc3860; 0xc3bfc; 0xc3bfc; 0x1c3bfc;
   0xc3860; 0x3fff860; 0x3fff860; 0x3fff860; 0x183860; 0x183860; 0x183a60; 0x183fe0;
   0x383bf0; 0x3038fc; 0x633383c; 0x6763804; 0x26fb800; 0x3edf800; 0x3ccfc00; 0x1841800;
   0x0; 0x0; 0x0; 0x0; 0x202000; 0x0; 0x0; 0x0;
   0x400060; 0xfe0060; 0x7ff060; 0xff060; 0x7060; 0x3060; 0x3574; 0x37fc;
   0x3fff7fc; 0x3fff060; 0x3fff060; 0x183060; 0x183060; 0x18b060; 0x1ff060; 0x1f3060;
   0x7c3760; 0xf83fe0; 0x3d81bf8; 0x198187c; 0x181c1c; 0x180c00; 0x180c00; 0x180e00;
   0x180400; 0x0; 0x0; 0x0; 0x0; 0x202000; 0x0; 0x0;
   0x0; 0x40060; 0xe0060; 0xf0060; 0xf0060; 0x1b8060; 0x39c060; 0x71e174;
   0xe0e3fc; 0x1c77bfc; 0x3863c60; 0x30e1c60; 0xc0060; 0xfff060; 0x1fff060; 0x1fff060;
   0xe00060; 0x700660; 0x3007e0; 0x3887f8; 0x1dc0fe; 0xfc01c; 0xf0000; 0x1e0000;
   0x380000; 0x100000; 0x0; 0x0; 0x0; 0x0; 0x202000; 0x0;
   0x0; 0x0; 0x400000; 0x7fa000; 0x7ffff0; 0xfff0; 0x6000; 0x6000;
   0x1fffff8; 0x1fffff8; 0x17d75d0; 0x386180; 0x3861c0; 0x2baeba8; 0x3fffffc; 0x3fffffc;
   0x3861c0; 0x386180; 0x3861c0; 0x1fffff8; 0x1fffff8; 0x6000; 0x6000; 0x6000;
   0xfffff0; 0xfffff0; 0x0; 0x0; 0x0; 0x0; 0x0; 0x202000;
   0x0; 0x0; 0x0; 0x70060; 0x60060; 0x60060; 0xe0060; 0x60060;
   0x3fff860; 0x3fff974; 0x3fc; 0x6043fc; 0xe06060; 0xe06060; 0xe0e060; 0x60e060;
   0x60e060; 0x70c060; 0x60c060; 0x71c760; 0x30c7e0; 0x31c3fc; 0x39807e; 0x38401c;
   0x180000; 0x7fffc00; 0x3fffc00; 0x0; 0x0; 0x0; 0x0; 0x0;
   0x202000; 0x0; 0x0; 0x0; 0x21c00; 0xf0c00; 0x3c0c00; 0x2baaea8;
   0x3fffffc; 0x2aaeea8; 0x61c600; 0x78c700; 0x3dc700; 0xfc380; 0x307e1c0; 0x300f8e0;
   0x3ffde78; 0x1ff803c; 0x55601c; 0x6000; 0x6000; 0xffffe0; 0xfffff0; 0x6000;
   0x6000; 0x6000; 0x7fffffc; 0x3fffffc; 0x0; 0x0; 0x0; 0x0;
   0x0; 0x202000; 0x0; 0x0; 0x0; 0x1c060; 0x19c060; 0x79c060].
Definition hanzi_data_80 : list N :=
  [0xe0c060; 0xc1c060; 0xc060; 0x3fffd74; 0x3fffbfc; 0x3fffffc; 0xcc060; 0x19cc060;
   0x18cc060; 0x1dcc060; 0xcce060; 0xfc6060; 0x6c6060; 0x7c7760; 0x3c77e0; 0x1c33fc;
   0xe387e; 0x71f1c1c; 0x30f9c00; 0x3fdee00; 0x3f8c700; 0x1f00600; 0x0; 0x0;
   0x0; 0x0; 0x202000; 0x0; 0x0; 0x0; 0x70060; 0x60060;
   0x3ff0060; 0x3fe0060; 0x3ff0060; 0x60060; 0x707fc; 0x1fffbfc; 0x1fffffc; 0x1801860;
   0x1c01860; 0x1801860; 0x1c01860; 0x1fff860; 0x1fff860; 0x1aabb60; 0x1c01fe0; 0x19f8;
   0x1c7e; 0x1c0c; 0x1c04; 0xc00; 0xe00; 0x600; 0x600; 0x0;
   0x0; 0x0; 0x0; 0x202000; 0x0; 0x0; 0x0; 0x10c300;
   0x38c380; 0xf1c1c0; 0xe0c1c0; 0x3c1c0e0; 0x3ffe0f0; 0x1fffef8; 0x3befc; 0x700fe;
   0x700ec; 0x70e00e0; 0x30e00e0; 0x33c00e0; 0x3f860e0; 0x1f060e0; 0x6000; 0xfffff0;
   0xfffff0; 0x7ffff0; 0x6000; 0x6000; 0x6000; 0x3fffffc; 0x3fffffc; 0x0;
   0x0; 0x0; 0x0; 0x0; 0x202000; 0x0; 0x0; 0x0;
   0x1c00000; 0x18afff8; 0x1cefff8; 0x18e18c0; 0x1ce18c0; 0x18e18c0; 0x1ce5dd4; 0x18efffc;
   0x1cefffc; 0x18e18e0; 0x1ce1860; 0x1801870; 0x1d01878; 0xf8183c; 0x787818; 0x6000;
   0x557550; 0x7fffe0; 0x7ffff0; 0x6000; 0x6000; 0x6000; 0x3fffffc; 0x3fffffc;
   0x0; 0x0; 0x0; 0x0; 0x0; 0x202000; 0x0; 0x0;
   0x0; 0x70; 0x3fff860; 0x3fffc70; 0x3aab860; 0x3801c70; 0x3801860; 0x3bfdd74;
   0x3bfdbfc; 0x3801ffc; 0x3801860; 0x3bf9c70; 0x3bf9860; 0x3b19c70; 0x3b09860; 0x3b19c70;
   0x3b09a60; 0x3b19ff0; 0x3bf9bf0; 0x3bf9cfe; 0x380981e; 0x3801c04; 0x3801800; 0x3d01c00;
   0x3f01800; 0x1f01c00; 0x0; 0x0; 0x0; 0x0; 0x202000; 0x0;
   0x0; 0x0; 0xe0060; 0xe0060; 0x60060; 0x60060; 0x1fff860; 0x1fff860;
   0x1803860; 0x1803bfc; 0x1803bfc; 0x1803860; 0x1fff860; 0x1fff860; 0x1803860; 0x1803860;
   0x1803860; 0x1aab860; 0x1ffff60; 0x1aabbe0; 0x18039fc; 0x180383e; 0x180381c; 0x1fff800;
   0x1fff800; 0x1aab800; 0x1803800; 0x0; 0x0; 0x0; 0x0; 0x202000;
   0x0; 0x0; 0x0; 0x1c060; 0xc060; 0xc060; 0xffe060; 0x7ff060;
   0x607060; 0x70f860; 0x38dffc; 0x1ddffc; 0xf8c60; 0xf0060; 0x1f8060; 0x7de060;
   0xf0f860; 0x7d57f60; 0x3fffe60; 0xfff360; 0xc033e0; 0xc031fc; 0xc0303e; 0xc0301c;
   0xc03000; 0xfff000; 0xfff000; 0xc03000; 0x0; 0x0; 0x0; 0x0;
   0x202000; 0x0; 0x0; 0x0; 0x30060; 0x30060; 0x575060; 0xfff860;
   0xfff860; 0xc30060; 0x1d75460; 0x3fffffc; 0x3fffffc; 0xc30060; 0xd75060; 0xfff860;
   0xfff860; 0x30060; 0x1fff860; 0xfff860; 0x1fffb60; 0x303e0; 0x3fffffc; 0x3fffe3e;
   0x3fffc1c; 0x30000; 0x30000; 0x30000; 0x30000; 0x0; 0x0; 0x0;
   0x0; 0x202000; 0x0; 0x0; 0x0; 0x1800; 0x63c00; 0xe1f00;
   0x1c0780; 0x7fd5c0; 0xfffff0; 0x1e05ff0; 0x4e00c0; 0x7704e0; 0xe30e60; 0xc38c30;
   0x1ffce98; 0x1ffdffc; 0x380f83c; 0x6000; 0x6000; 0x557550; 0xffffe0; 0xfffff0;
   0x6000; 0x6000; 0x6000; 0x3fffffc; 0x3fffffc; 0x0; 0x0; 0x0;
   0x0; 0x0; 0x202000; 0x0; 0x0; 0x0; 0x70060; 0x60060;
   0xe0060; 0x2aea860; 0x3fffc60; 0x3fffc60; 0x383fc; 0x183fc; 0xe1c3fc; 0x60e060;
   0x7ff060; 0x3ff860; 0x19d7860; 0x38e0060; 0x1c78060; 0xe3e360; 0xf1f3e0; 0x383df8;
   0x1c187e; 0x3e000c; 0x778004; 0xe3e000; 0x1c0fc00; 0x3803e00; 0x1001c00; 0x0;
   0x0; 0x0; 0x0; 0x202000; 0x0; 0x0; 0x0; 0x700000;
   0xffe000; 0x5ffff0; 0x2ff0; 0x70; 0x2aaaab0; 0x3fffff0; 0x2aaaab0; 0x70;
   0xfffe30; 0xffff70; 0xe00230; 0xe00770; 0xeaaa30; 0xffff30; 0xabaa30; 0x1c030;
   0x18038; 0x1ffff38; 0xffff18; 0x1c01c; 0x1801c; 0x3ffffdc; 0x3ffffce; 0x4;
   0x0; 0x0; 0x0; 0x0; 0x202000; 0x0; 0x0; 0x0;
   0x70060; 0x870060; 0x1c71c60; 0x1c71860; 0x1c71860; 0xe73860; 0xe73174; 0x6733fc;
   0x7773fc; 0x70060; 0x3fffe60; 0x3fffe60; 0x15df460; 0x18e060; 0x1ce060; 0x18e260;
   0x1c67e0; 0x1863f8; 0x1c707e; 0x618301c; 0x71c3804; 0x6183c00; 0x71c1f00; 0x3f80f80;
   0x1f80100; 0x0; 0x0; 0x0; 0x0; 0x202000; 0x0; 0x0;
   0x0; 0x6000; 0x6000; 0x6000; 0x7fffe0; 0x7ffff0; 0x6000; 0x6000;
   0x6000; 0x1fffffc; 0x1fffff8; 0x1555550; 0xc0180; 0x1c01c0; 0xc0180; 0x15d55d4;
   0x1ffdff8; 0x1ffdffc; 0xc0180; 0x1c01c0; 0xc0180; 0x1c11c0; 0xc1fe0; 0x7fffffc;
   0x3ffe03c; 0x0; 0x0; 0x0; 0x0; 0x0; 0x202000; 0x0;
   0x0; 0x0; 0x60; 0x3fc060; 0x3fc060; 0x30c060; 0x30c060; 0x30e060;
   0x30e174; 0x3063fc; 0x1f073fc; 0x3f03860; 0x61860; 0x60060; 0x60060; 0x3fffc60;
   0x3fffc60; 0xf8060; 0x1fc760; 0x3ec3e0; 0x76e3fc; 0xe6707e; 0x1c63c1c; 0x3861e00;
   0x1060c00; 0x60000; 0x60000; 0x0; 0x0; 0x0; 0x0; 0x202000;
   0x0; 0x0; 0x0; 0x70060; 0x60060; 0x60060; 0x3fff860; 0x3fffc60;
   0x3aab860; 0x3801d74; 0x3f01bfc; 0x3fe1ffc; 0x3fe060; 0x7f060; 0x33060; 0x30060;
   0x3e30060; 0x3ffc060; 0xfffc60; 0x3ff60; 0x303e0; 0x303fc; 0x303007e; 0x303001c;
   0x3030000; 0x3ff0000; 0x1ff0000; 0x7c0000; 0x0; 0x0; 0x0; 0x0;
   0x202000; 0x0; 0x0; 0x0; 0x406060; 0xe06060; 0x60e060; 0x60c060;
   0x31c060; 0x2bae860; 0x3fffd74; 0x3fffbfc; 0x607fc; 0x60060; 0x60060; 0x1fff060;
   0x1fff060; 0x60060; 0x60060; 0x60260; 0x7ffffe0; 0x3ffffe0; 0x7fffcfe; 0x6003e].
Definition hanzi_data_81 : list N :=
  [0x60004; 0x60000; 0x60000; 0x60000; 0x60000; 0x0; 0x0; 0x0;
   0x0; 0x202000; 0x0; 0x0; 0x0; 0x60; 0xfff860; 0xfff860;
   0xc03860; 0xc03860; 0xc03860; 0xfff974; 0xfffbfc; 0xc03ffc; 0xc03860; 0xc03860;
   0xfff860; 0xfff860; 0x33860; 0x1873860; 0x3c63860; 0x1f63f60; 0x7e3be0; 0x1c39f8;
   0x38387e; 0x78381c; 0xf3b800; 0x3e7f800; 0x380f800; 0x1001800; 0x0; 0x0;
   0x0; 0x0; 0x202000; 0x0; 0x0; 0x0; 0xce300; 0x1ce380;
   0x78c1c0; 0xa0c1c0; 0x3ffc0e0; 0xfffee0; 0x1c1fef8; 0xe180fc; 0x7380fe; 0x3f80ec;
   0x11f00e0; 0x30f80e0; 0x31ff0e0; 0x3bc7ee0; 0x1f85ce0; 0xe060e0; 0x6000; 0xfffff0;
   0xfffff0; 0x6000; 0x6000; 0x6000; 0x3fffffc; 0x3fffffc; 0x3fffffc; 0x0;
   0x0; 0x0; 0x0; 0x202000; 0x0; 0x0; 0x0; 0xc00060;
   0x1fe8060; 0x1fff860; 0x3f860; 0x3860; 0x3860; 0x3974; 0x3fffbfc; 0x7fffbfc;
   0x2aab860; 0x3860; 0x3860; 0x1555860; 0x1fff860; 0x1ffd860; 0x180d860; 0x181db60;
   0x180dbe0; 0x181ddfc; 0x180dc7e; 0x1d5dc1c; 0x1ffce00; 0x1ffce00; 0x180c700; 0x181c600;
   0x0; 0x0; 0x0; 0x0; 0x202000; 0x0; 0x0; 0x0;
   0x60; 0x2aaa860; 0x3fffc60; 0x3fffc60; 0x60; 0x60; 0xfff174; 0xfff3fc;
   0xc073fc; 0xc03060; 0xc07060; 0xeab060; 0xfff060; 0xeab060; 0xc07060; 0xc03660;
   0xc077e0; 0xfff3f8; 0xfff0fe; 0x1c; 0x4; 0x0; 0x7ffff00; 0x3ffff00;
   0x0; 0x0; 0x0; 0x0; 0x0; 0x202000; 0x0; 0x0;
   0x0; 0x70; 0x60; 0x3fffc70; 0x3fffc60; 0x38070; 0x31c060; 0x70e3fc;
   0xe0e3fc; 0x1f473fc; 0x1fffc60; 0x3fffc70; 0x3020860; 0x1060070; 0x60060; 0x60070;
   0x1fffa60; 0x1fffbf0; 0x601f0; 0x6007e; 0x6001c; 0x60004; 0x60000; 0x7fffe00;
   0x3fffe00; 0x0; 0x0; 0x0; 0x0; 0x0; 0x202000; 0x0;
   0x0; 0x0; 0x0; 0x3fffe0; 0x3fffe0; 0x3000e0; 0x3fffe0; 0x3fffe0;
   0x3000e0; 0x3aaae0; 0xffffe0; 0x1e060e0; 0xf1e0e0; 0x3b80e0; 0x1f3fe0; 0xfe3fe0;
   0x3f871f0; 0x1806020; 0x7000; 0x7fffe0; 0x7ffff0; 0x6000; 0x7000; 0x6000;
   0x3fffffc; 0x3fffffc; 0x0; 0x0; 0x0; 0x0; 0x0; 0x202000;
   0x0; 0x0; 0x0; 0x60060; 0x60060; 0x70060; 0x60060; 0x70060;
   0x3fff860; 0x3fff974; 0x3801bfc; 0x3801bfc; 0x3aa9860; 0x3bf9860; 0x3bb9860; 0x3b19860;
   0x3b19860; 0x3b19860; 0x3b19860; 0x3b19b60; 0x3bf9be0; 0x3bf9bf8; 0x381987e; 0x381181c;
   0x3801800; 0x3801800; 0x3e01800; 0x1e01800; 0x0; 0x0; 0x0; 0x0;
   0x202000; 0x0; 0x0; 0x0; 0x0; 0x1fffff8; 0x1fffff8; 0xabaea8;
   0x630c40; 0xe30c60; 0x730ce0; 0x330cc0; 0x3b0dc0; 0x1b0d80; 0x130c00; 0x3fffffc;
   0x3fffffc; 0x0; 0x6000; 0x6000; 0xfffff0; 0xfffff0; 0xfffff0; 0x6000;
   0x6000; 0x6000; 0x7fffffc; 0x3fffffc; 0x0; 0x0; 0x0; 0x0;
   0x0; 0x202000; 0x0; 0x0; 0x0; 0x301c0; 0x300c0; 0x301c0;
   0xfffffc; 0x7ffffc; 0xe300c0; 0x63a1c0; 0x63fec0; 0x61effc; 0xe783fc; 0x7fc1dc;
   0x6fce0c0; 0x6c8f1c0; 0x3c078e8; 0x3c070f8; 0x6038; 0x6000; 0xffffe0; 0xfffff0;
   0x6000; 0x6000; 0x6000; 0x3fffffc; 0x3fffffc; 0x0; 0x0; 0x0;
   0x0; 0x0; 0x202000; 0x0; 0x0; 0x0; 0x60; 0x60;
   0x3fffc60; 0x3fffc60; 0x19c060; 0x188060; 0x19c174; 0x1883fc; 0x319cffc; 0x3988c60;
   0x199dc60; 0x1989860; 0x199d860; 0x98b860; 0xd9f060; 0xd8b060; 0xf9f360; 0x1883e0;
   0x19c1fc; 0x18807e; 0x19c01c; 0x188000; 0x7ffff00; 0x3fffe00; 0x0; 0x0;
   0x0; 0x0; 0x0; 0x202000; 0x0; 0x0; 0x0; 0x60060;
   0x60060; 0x70060; 0x2aba860; 0x3fffc60; 0x3fffc60; 0x39c174; 0x70e3fc; 0xe077fc;
   0x3fffc60; 0x7bffe60; 0x2000460; 0x60; 0x3fffc60; 0x3fffc60; 0xc060; 0xc260;
   0xaae3e0; 0x1ffe7f0; 0xeaa0fe; 0xc0001c; 0xc00000; 0xe00000; 0x7f8000; 0x7f0000;
   0x0; 0x0; 0x0; 0x0; 0x202000; 0x0; 0x0; 0x0;
   0x380060; 0x380060; 0x380c60; 0x381c60; 0x381860; 0x383860; 0x3ff9174; 0x3ff83fc;
   0x3ff83fc; 0x383c60; 0x383c60; 0x783060; 0x7c3060; 0xec3060; 0xcc3060; 0xce3060;
   0x1c73360; 0x38333e0; 0x383b1fc; 0x101b07e; 0x701c; 0xf800; 0x7ffdc00; 0x3ff8c00;
   0x1fc0400; 0x0; 0x0; 0x0; 0x0; 0x202000; 0x0; 0x0;
   0x0; 0x60060; 0x60060; 0x1c61860; 0x1c63860; 0x1c63060; 0xc63060; 0xe673fc;
   0x6663fc; 0x7663fc; 0x60060; 0x1fffc60; 0x1fff860; 0x1800060; 0x1800060; 0x1800060;
   0x1fffb60; 0x1ffffe0; 0x1aaa9f8; 0x180007e; 0x180000c; 0x1800004; 0x1fffc00; 0x1fffc00;
   0x1800000; 0x1000000; 0x0; 0x0; 0x0; 0x0; 0x202000; 0x0;
   0x0; 0x0; 0x70060; 0x860860; 0x1c71860; 0x1861860; 0x1c71860; 0x1fff860;
   0x1fffbfc; 0xaaabfc; 0x3fc; 0xaaa860; 0x1fff860; 0xfff860; 0x1c00060; 0xc00060;
   0x1fff860; 0xfffa60; 0x1ffffe0; 0x3bf0; 0x100387e; 0x300381c; 0x3003804; 0x3003800;
   0x3fff000; 0x1fff000; 0x0; 0x0; 0x0; 0x0; 0x0; 0x202000;
   0x0; 0x0; 0x0; 0x30070; 0x30060; 0x70070; 0x60060; 0x3fffc70;
   0x3fffc60; 0x15555fc; 0x3001fc; 0x1b01dfc; 0x1b8f860; 0x199fc70; 0x19d9860; 0x18f9c70;
   0x18f1860; 0x18f1c70; 0x18f1b60; 0x19f9ff0; 0x1b999f8; 0x1f1fc7e; 0x1a0f81c; 0x1805c04;
   0x1fff800; 0x1fffc00; 0x1aaa800; 0x1800000; 0x0; 0x0; 0x0; 0x0;
   0x202000; 0x0; 0x0; 0x0; 0x30060; 0x70060; 0x70060; 0x2aaa860].
Definition hanzi_data_82 : list N :=
  [0x3fffc60; 0x3fffc60; 0x3871d74; 0x3830ffc; 0x3839ffc; 0x38060; 0x1c060; 0x3fffc60;
   0x7fffc60; 0x60e060; 0x706060; 0x707060; 0x307760; 0x39f7e0; 0x1fc3f8; 0xf007e;
   0x7f001c; 0xfb8000; 0x1e1f000; 0x1807c00; 0x1001c00; 0x0; 0x0; 0x0;
   0x0; 0x202000; 0x0; 0x0; 0x0; 0x70060; 0x60060; 0x60060;
   0x2aea860; 0x3fffc60; 0x3aab860; 0x3001d74; 0x3001bfc; 0x1fff7fc; 0xffe060; 0x60;
   0x60; 0x60; 0x3fff860; 0x7fff860; 0x398060; 0x39c360; 0x38c3e0; 0x38c1f8;
   0x38e07e; 0x738701c; 0x2387000; 0x7783c00; 0x3f81e00; 0x1f00600; 0x0; 0x0;
   0x0; 0x0; 0x202000; 0x0; 0x0; 0x0; 0xf00060; 0x1ff8060;
   0x7ffc60; 0x80f860; 0x1c31060; 0xc63060; 0xc673fc; 0xe663fc; 0x7663fc; 0x7ff060;
   0xfff060; 0x7aa060; 0x380060; 0x1e0060; 0xe0060; 0x60360; 0x3ffffe0; 0x3fffdf8;
   0x6007e; 0x6000c; 0x60004; 0x60000; 0x74000; 0x7c000; 0x7c000; 0x0;
   0x0; 0x0; 0x0; 0x202000; 0x0; 0x0; 0x0; 0x60;
   0xfff060; 0x1fff060; 0x803060; 0x1c03060; 0xfff060; 0x1fff060; 0x8033fc; 0x1c033fc;
   0xfff060; 0x1fff060; 0x60; 0x1fff860; 0x1fff860; 0x1fff860; 0x60060; 0x60360;
   0x3ffffe0; 0x7fffdfc; 0x6003e; 0x6001c; 0x60000; 0x60000; 0x60000; 0x60000;
   0x0; 0x0; 0x0; 0x0; 0x202000; 0x0; 0x0; 0x0;
   0x60060; 0xe0060; 0x15d5060; 0x3fff860; 0x3fffc60; 0x1860; 0xffdc60; 0xffdbfc;
   0x601ffc; 0x331860; 0x3f9c60; 0x1e1860; 0x13c1c60; 0x3fff860; 0x1fffc60; 0x18c0c60;
   0x1dc1f60; 0xcc0fe0; 0xdc0dfc; 0xc0c3e; 0x1c060c; 0xc0600; 0x1c0700; 0xf8380;
   0xf0300; 0x0; 0x0; 0x0; 0x0; 0x202000; 0x0; 0x0;
   0x0; 0x60; 0x60; 0x3fffc60; 0x3fffc60; 0x60060; 0x60060; 0x3fff974;
   0x3fffbfc; 0x3861bfc; 0x3861860; 0x3fff860; 0x3fff860; 0x3861860; 0x3861860; 0x3fff860;
   0x3fff860; 0x71760; 0x73fe0; 0x773f8; 0x3e07e; 0x1c01c; 0xfe000; 0x7f7c00;
   0x3f83f00; 0x3c00700; 0x0; 0x0; 0x0; 0x0; 0x202000; 0x0;
   0x0; 0x0; 0x30060; 0x38060; 0x39c060; 0x70c060; 0xe0e060; 0xfeb060;
   0x1fffbfc; 0x382fbfc; 0x100e3fc; 0x6060; 0x1fff060; 0x1fff060; 0x1577860; 0x61c60;
   0x60860; 0x2aeab60; 0x7ffffe0; 0x3fffdf8; 0xf007e; 0x1f800c; 0x3dc004; 0x78e000;
   0x1f07c00; 0x3c03e00; 0x3000c00; 0x0; 0x0; 0x0; 0x0; 0x202000;
   0x0; 0x0; 0x0; 0x1c060; 0xc060; 0x1fc060; 0x3fe060; 0x3d7060;
   0x183060; 0x15d7bfc; 0x3fffffc; 0x3fffffc; 0x3863c60; 0x3863c60; 0x3aeb860; 0x3fff860;
   0x3aeb860; 0x3863860; 0x3863b60; 0x3fffbe0; 0x3fff9f8; 0x386187e; 0x386180c; 0x3861c04;
   0x3860c00; 0x3860e00; 0x3e60e00; 0x1e00600; 0x0; 0x0; 0x0; 0x0;
   0x202000; 0x0; 0x0; 0x0; 0x60; 0x1fff860; 0x1fff860; 0xe00060;
   0x79c060; 0x1fc060; 0x1f0060; 0x3c03fc; 0x1fffbfc; 0x1fff860; 0x1861860; 0x1861860;
   0x1d75860; 0x1fff860; 0x1fff860; 0x1861a60; 0x1861fe0; 0x1fffbf8; 0x1fff87e; 0x186180c;
   0x1861804; 0x1861800; 0x1861800; 0x1f61800; 0x1e61800; 0x0; 0x0; 0x0;
   0x0; 0x202000; 0x0; 0x0; 0x0; 0x60; 0xaaa860; 0x1fff860;
   0x1aeb860; 0x1861860; 0x1861860; 0x1fffbfc; 0x1fffbfc; 0x1fffbfc; 0x1861860; 0x1861860;
   0x1861860; 0x1fff860; 0x1fff860; 0x60060; 0x60360; 0x3ffffe0; 0x3fff9f8; 0x3fff87e;
   0x6000c; 0x60004; 0x60000; 0x7ffff00; 0x3fffe00; 0x0; 0x0; 0x0;
   0x0; 0x0; 0x202000; 0x0; 0x0; 0x0; 0x70060; 0x60060;
   0xe0060; 0xfff060; 0x1fff060; 0xc03060; 0x1c03174; 0xc033fc; 0x1fff3fc; 0xfff060;
   0x1c03060; 0xc03060; 0x1fff060; 0xfff060; 0x1fff060; 0x1863060; 0x3ce3760; 0xec37e0;
   0x7c33f8; 0x38307e; 0x74301c; 0xf3b000; 0x3e7f800; 0x380f800; 0x1001800; 0x0;
   0x0; 0x0; 0x0; 0x202000; 0x0; 0x0; 0x0; 0x5c0070;
   0xec0060; 0x1dc0070; 0x38c0060; 0x3fffc70; 0x3fffc60; 0x15d5d74; 0x180dfc; 0x1c1dfc;
   0x3980c60; 0x39ffc70; 0x19bfc60; 0x1db9c70; 0xdb8c60; 0xdb9c70; 0xfb8c60; 0x798f70;
   0x798fe0; 0x239dff8; 0x639ee7c; 0x67c661c; 0x26e0600; 0x7e70700; 0x3c38380; 0x1810100;
   0x0; 0x0; 0x0; 0x0; 0x202000; 0x0; 0x0; 0x0;
   0x1000070; 0x3e03e30; 0x1ff7e70; 0x3f7a30; 0x713070; 0x303030; 0x7019fc; 0x3319fc;
   0x731dfc; 0x3f37e30; 0x3f37f70; 0x336230; 0x736070; 0x336630; 0x737670; 0x333e30;
   0x733d70; 0x333df0; 0x3ff1df8; 0x3ff387e; 0x7c1c; 0x3ee00; 0x7ffc700; 0x3fe0300;
   0x0; 0x0; 0x0; 0x0; 0x0; 0x202000; 0x0; 0x0;
   0x0; 0x1c00060; 0x3fe0060; 0x1fffc60; 0x3f860; 0x1870060; 0x1863860; 0x1c637fc;
   0xce33fc; 0xcc77fc; 0x6ce060; 0x702060; 0x600060; 0x700060; 0x3fffc60; 0x3fffc60;
   0x600360; 0x7077e0; 0x60e1f8; 0x71c07e; 0x61c00c; 0x718004; 0x600000; 0x710000;
   0x7e0000; 0x3e0000; 0x0; 0x0; 0x0; 0x0; 0x202000; 0x0;
   0x0; 0x0; 0x660060; 0xe60060; 0x3c60060; 0x1860060; 0x7fffc60; 0x3fffc60;
   0x60174; 0x603fc; 0x1fffbfc; 0x3fff860; 0x3fff860; 0x3861860; 0x3861860; 0x3fff860;
   0x3fffc60; 0x3861b60; 0x3861fe0; 0x3fff9f8; 0x3fff87e; 0x386180c; 0x3861804; 0x3861800;
   0x3861800; 0x3e61800; 0x1e61800; 0x0; 0x0; 0x0; 0x0; 0x202000;
   0x0; 0x0; 0x0; 0x60; 0x1fff060; 0x1fff060; 0x1803060; 0x1c03060;
   0x1803060; 0x1c03174; 0x1fff3fc; 0x1fff7fc; 0x60; 0x60; 0x3fff860; 0x3fff860;
   0xe0060; 0xe0060; 0xe0060; 0x15f5760; 0x1fff7e0; 0x1fff3fc; 0xe007e; 0xe001c].
Definition hanzi_data_83 : list N :=
  [0xe0000; 0x3fffc00; 0x3fffc00; 0x0; 0x0; 0x0; 0x0; 0x0;
   0x202000; 0x0; 0x0; 0x0; 0x60070; 0x60020; 0x61070; 0xae3020;
   0x1fe7070; 0xae3020; 0x67174; 0x631fc; 0x7fffdfc; 0x3fffc20; 0x5575470; 0x62020;
   0x1c67070; 0x1c63020; 0x1c63870; 0xe63820; 0xe61df0; 0x760de0; 0x7801fc; 0x3c003e;
   0x1e001c; 0xf8000; 0x3f000; 0xfc00; 0x1c00; 0x0; 0x0; 0x0;
   0x0; 0x202000; 0x0; 0x0; 0x0; 0xc00060; 0xc00060; 0xc1fc60;
   0xc1fc60; 0xc1fc60; 0xc18c60; 0x5d5cd74; 0x3ff8ffc; 0x7ffcffc; 0xc18c60; 0xc1fc60;
   0xcffc60; 0xcdcc60; 0xcd8c60; 0xddcc60; 0xd98c60; 0xd9cf60; 0xc98fe0; 0xc1fff8;
   0xc1fc7e; 0xc00c1c; 0xc00c00; 0xc00000; 0xfc0000; 0x7c0000; 0x0; 0x0;
   0x0; 0x0; 0x202000; 0x0; 0x0; 0x0; 0x60; 0xfff060;
   0xfff060; 0xe03060; 0xe07060; 0xe03060; 0xfff174; 0xfff3fc; 0x7fc; 0xaaa860;
   0x1fff860; 0x1aab860; 0x1c43860; 0x1863860; 0x1c63860; 0x1863860; 0x1c63e60; 0x1863fe0;
   0x1c73ff0; 0x300fe; 0x3bc01c; 0xf1e000; 0x1e0fc00; 0x3803e00; 0x3001c00; 0x0;
   0x0; 0x0; 0x0; 0x202000; 0x0; 0x0; 0x0; 0x60;
   0xfff060; 0xfff060; 0xc03060; 0xc03060; 0xc03060; 0xd57174; 0xfff3fc; 0xfff3fc;
   0x60060; 0x1575460; 0x3fffc60; 0x3fffc60; 0x3831c60; 0x3871c60; 0x38f9c60; 0x39d9f60;
   0x3b9dfe0; 0x3f1fff8; 0x3a0fc7e; 0x3805c1c; 0x3801c00; 0x3801c00; 0x3f01c00; 0x1f01c00;
   0x0; 0x0; 0x0; 0x0; 0x202000; 0x0; 0x0; 0x0;
   0x60060; 0x70060; 0xf0060; 0xf8060; 0x3dc060; 0x78e060; 0x1f373fc; 0x3c73ffc;
   0x38e1ffc; 0x40060; 0x1fff860; 0xfff860; 0x700060; 0x300060; 0x3b0060; 0x1b0260;
   0x667e0; 0xce79f0; 0x1dc7c7c; 0x1806c1c; 0x3606c04; 0x3606e00; 0x7756600; 0x3fe000;
   0x1fc000; 0x0; 0x0; 0x0; 0x0; 0x202000; 0x0; 0x0;
   0x0; 0x5c0070; 0xec0060; 0x1dc0070; 0x38c0060; 0x3fffe70; 0x3fffe60; 0x1c0174;
   0xc01fc; 0x11dfdfc; 0x399fc60; 0x19d8c70; 0x1998c60; 0x1dd8c70; 0xd98c60; 0xf9fc70;
   0x79fc60; 0x79fdf0; 0x3a03e0; 0x3bc1fc; 0x23ffe3e; 0x77e7f0c; 0x2770200; 0x3678000;
   0x3e1c000; 0x1c08000; 0x0; 0x0; 0x0; 0x0; 0x202000; 0x0;
   0x0; 0x0; 0x70060; 0x30060; 0xfff860; 0xfff860; 0xc03860; 0xc03860;
   0xd57bfc; 0xfffbfc; 0xfffbfc; 0x3860; 0x1fff860; 0x1aab860; 0x1c03860; 0x1803860;
   0x1fff860; 0x1fffa60; 0x707e0; 0x603f8; 0x7fffe7e; 0x3fffe0c; 0x70004; 0x60000;
   0x70000; 0x60000; 0x70000; 0x0; 0x0; 0x0; 0x0; 0x202000;
   0x0; 0x0; 0x0; 0x60060; 0x60060; 0x70060; 0x1fff860; 0x1fff860;
   0x1861860; 0x1861974; 0x1fffbfc; 0x1fffbfc; 0x1861860; 0x1861860; 0x1fff860; 0x1fff860;
   0x238060; 0x31c060; 0x30e260; 0x3077e0; 0x3023f8; 0x7fffc7e; 0x3fffc1c; 0x300004;
   0x300000; 0x300000; 0x300000; 0x300000; 0x0; 0x0; 0x0; 0x0;
   0x202000; 0x0; 0x0; 0x0; 0x70060; 0x60060; 0x60060; 0x3fff860;
   0x3fffc60; 0x3000860; 0x3111d74; 0x33b8bfc; 0x71c3fc; 0xe0e060; 0x1c07060; 0x3803860;
   0x1001860; 0x60; 0x1fff060; 0x1fff060; 0x60360; 0x603e0; 0x601f8; 0x6007e;
   0x6001c; 0x60000; 0x3fffc00; 0x3fffc00; 0x0; 0x0; 0x0; 0x0;
   0x0; 0x202000; 0x0; 0x0; 0x0; 0x70060; 0x1860c60; 0x1c71c60;
   0xc63860; 0xe73060; 0x667060; 0x376174; 0x603fc; 0x1fffffc; 0x1fffc60; 0x1fffc60;
   0x1800c60; 0x19fcc60; 0x19fcc60; 0x19dcc60; 0x198cc60; 0x198cf60; 0x198cfe0; 0x19fcff8;
   0x19fcc7e; 0x180cc1c; 0x1808c00; 0x1800c00; 0x1f80c00; 0x1f00c00; 0x0; 0x0;
   0x0; 0x0; 0x202000; 0x0; 0x0; 0x0; 0x70060; 0x60060;
   0x70060; 0xfff860; 0x1fff860; 0xc60060; 0x1c703fc; 0x3fffffc; 0x7fffffc; 0xc60060;
   0x1c70060; 0xfff860; 0x1fff860; 0x60060; 0x1c71c60; 0x1c63b60; 0xff77e0; 0x3fe1f8;
   0x3fc07e; 0x76f00c; 0x1e77c04; 0x3c60e00; 0x3070400; 0x3c000; 0x3c000; 0x0;
   0x0; 0x0; 0x0; 0x202000; 0x0; 0x0; 0x0; 0x70060;
   0x30060; 0x30060; 0x3fffc60; 0x7fffc60; 0x2bae860; 0x70e174; 0x66e3fc; 0xe773fc;
   0x1c63860; 0x7fffe60; 0x3fffe60; 0xc71c60; 0xc61860; 0xfff860; 0xeeb860; 0xc71b60;
   0xc61be0; 0xfffbfc; 0xfff87e; 0x707181c; 0x3060000; 0x3070000; 0x3fe0000; 0x1fc0000;
   0x0; 0x0; 0x0; 0x0; 0x202000; 0x0; 0x0; 0x0;
   0x70070; 0x70060; 0x70070; 0x3fffc60; 0x3fffc70; 0x30060; 0x303fc; 0xfffbfc;
   0xfffbfc; 0xe03860; 0xe03870; 0xfff860; 0xfff870; 0xe03860; 0xf57870; 0xfffa60;
   0xf57bf0; 0xe03be0; 0xfff8fc; 0xfff83c; 0xe0380c; 0xe03800; 0x7fffe00; 0x3fffe00;
   0x0; 0x0; 0x0; 0x0; 0x0; 0x202000; 0x0; 0x0;
   0x0; 0x70; 0xfe0060; 0x1fff070; 0x7f060; 0x60070; 0x60060; 0x3fffd74;
   0x3fff9fc; 0x3fffdfc; 0xc66060; 0xc67070; 0x2eee860; 0x7fffc70; 0x2eee860; 0xc67070;
   0xc66060; 0x1d77370; 0x3fffbe0; 0x3fffdfc; 0x6003e; 0x6001c; 0x60000; 0x1fff800;
   0x1fff800; 0x0; 0x0; 0x0; 0x0; 0x0; 0x202000; 0x0;
   0x0; 0x0; 0x60; 0xfff860; 0x1fff860; 0xc03860; 0x1c03860; 0xfff860;
   0x1fffbfc; 0xc03bfc; 0x1c03bfc; 0xfff860; 0x1fff860; 0xe060; 0x7060; 0x3fff060;
   0x3ffff60; 0x3339fe0; 0x339dff0; 0x398c77e; 0x39ce21c; 0x38c7004; 0x18e3800; 0x1871c00;
   0x1c38e00; 0x1f9c000; 0xf18000; 0x0; 0x0; 0x0; 0x0; 0x202000;
   0x0; 0x0; 0x0; 0x70060; 0x60060; 0x60060; 0x3fff860; 0x3fffc60].
Definition hanzi_data_84 : list N :=
  [0xe02060; 0x607174; 0x6063fc; 0x70e3fc; 0x30c060; 0x5755460; 0x3fffc60; 0x7fffc60;
   0x60; 0x60; 0xfff060; 0xfff360; 0xc033e0; 0xc033fc; 0xc0307e; 0xc0301c;
   0xc03000; 0xfff000; 0xfff000; 0xc03000; 0x0; 0x0; 0x0; 0x0;
   0x202000; 0x0; 0x0; 0x0; 0x180180; 0x180180; 0x15d55d0; 0x1fffff8;
   0x1fffff8; 0x180180; 0x1fff80; 0x1fff80; 0x180180; 0x1aab80; 0x1fff80; 0x180180;
   0x180180; 0x3fffffc; 0x3fffffc; 0x182380; 0x7861c0; 0xe060e0; 0x3dffffc; 0x39fffbe;
   0x100600c; 0x6000; 0x1fffff0; 0xfffff0; 0x0; 0x0; 0x0; 0x0;
   0x0; 0x202000; 0x0; 0x0; 0x0; 0xe0060; 0xe0060; 0x3fffc60;
   0x3fff860; 0x3fffc60; 0xf0060; 0x7f03fc; 0xfbc3fc; 0x3e1fffc; 0x3803860; 0x7fffe60;
   0x3fffe60; 0x7fffc60; 0xc00060; 0x1cff060; 0xcff260; 0x1ce37e0; 0xce33f8; 0x1ce307e;
   0xcff01c; 0x1cff004; 0xc03000; 0x1c00000; 0xfc0000; 0xfc0000; 0x0; 0x0;
   0x0; 0x0; 0x202000; 0x0; 0x0; 0x0; 0x70; 0xfff860;
   0xfff870; 0xc00060; 0xfff070; 0xfff060; 0xc00174; 0xeaa9fc; 0xfff9fc; 0x60;
   0x3fffc70; 0x3fffe60; 0x3575e70; 0x3060e60; 0x3575e70; 0xfff860; 0x1fffb70; 0xc63be0;
   0x1c73bf8; 0xc6387e; 0x1c7381c; 0xf63800; 0xf73800; 0x60000; 0x70000; 0x0;
   0x0; 0x0; 0x0; 0x202000; 0x0; 0x0; 0x0; 0x70;
   0x3fff860; 0x3fffc70; 0x3801860; 0x3801c70; 0x3801860; 0x3fffd74; 0x3fff9fc; 0x1dfc;
   0xc1860; 0x19cdc70; 0x18cd860; 0x19cdc70; 0x18cc860; 0x1ffdc70; 0x1ffcc60; 0x1c0d70;
   0x30c6fe0; 0x31c6df8; 0x30c6e7e; 0x31c6e1c; 0x30c6600; 0x3ffe700; 0x3ffe300; 0x3000300;
   0x0; 0x0; 0x0; 0x0; 0x202000; 0x0; 0x0; 0x0;
   0x206040; 0x7060e0; 0x7061c0; 0x386180; 0x3fffffc; 0x3fffffc; 0x3fffffc; 0x380000c;
   0x3bfffdc; 0x3bfff8c; 0x33801dc; 0x380180; 0x3801c0; 0x3fff80; 0x3fffc0; 0x6000;
   0x6000; 0xffffe0; 0xfffff0; 0x6000; 0x6000; 0x6000; 0x3fffffc; 0x3fffffc;
   0x0; 0x0; 0x0; 0x0; 0x0; 0x202000; 0x0; 0x0;
   0x0; 0xc01c0; 0x1c0180; 0x180380; 0x3fffffc; 0x3fffffc; 0x600e0; 0x1fe1fe0;
   0x1fe1fe0; 0x1ff1fe0; 0x1831860; 0x1c31870; 0x1839830; 0x1c1dc38; 0xe8ef98; 0xf84f1e;
   0x6004; 0x6000; 0xfffff0; 0xfffff0; 0x6000; 0x6000; 0x6000; 0x3fffffc;
   0x3fffffc; 0x0; 0x0; 0x0; 0x0; 0x0; 0x202000; 0x0;
   0x0; 0x0; 0xdc060; 0xcc060; 0x1cc060; 0x38e060; 0x386060; 0x3fff060;
   0x3fff7fc; 0x183bfc; 0x1c7ffc; 0x183e60; 0x1fffc60; 0x1fff060; 0x1c7060; 0x183060;
   0x1c7060; 0xbab660; 0x1fff7e0; 0xbab3f8; 0x1c707e; 0x18301c; 0x1c7004; 0x3fff000;
   0x3fff000; 0x3000; 0x7000; 0x0; 0x0; 0x0; 0x0; 0x202000;
   0x0; 0x0; 0x0; 0x1c0300; 0x1c0300; 0x3fffffc; 0x3fffffc; 0x1c0300;
   0x1c0300; 0x1fff00; 0xaea00; 0x557540; 0x7fffe0; 0x757560; 0x606060; 0x7fffe0;
   0x7fffe0; 0x6000; 0xaaeaa0; 0x1fffff0; 0x6000; 0x6000; 0xffffe0; 0xfffff0;
   0x6000; 0x3fffffc; 0x3fffffc; 0x1555554; 0x0; 0x0; 0x0; 0x0;
   0x202000; 0x0; 0x0; 0x0; 0x30060; 0x70060; 0x70060; 0x3fffc60;
   0x7fffc60; 0x338060; 0x71e174; 0xe073fc; 0x1fffffc; 0x3fffc60; 0x3005c60; 0xaaa060;
   0x1fff060; 0xc03060; 0x1c03060; 0xfff060; 0x1fff360; 0xc033e0; 0x1d571fc; 0xfff07e;
   0x1d5701c; 0xc03000; 0x1d03000; 0xf83000; 0x503000; 0x0; 0x0; 0x0;
   0x0; 0x202000; 0x0; 0x0; 0x0; 0x70; 0x1fdfc60; 0x1fdfc70;
   0x18d8c60; 0x19d8c70; 0x18d8c60; 0x19d8dfc; 0x1fdfdfc; 0x1fdfdfc; 0x18d8c60; 0x19d8c70;
   0x18d8c60; 0x19d8c70; 0x18d8c60; 0x1fdfc70; 0x1fdfc60; 0x18d8d70; 0x18d8fe0; 0x18d87f8;
   0x18d863e; 0x18f871c; 0x1878300; 0x1d7f300; 0x1e7f380; 0x1e25100; 0x0; 0x0;
   0x0; 0x0; 0x202000; 0x0; 0x0; 0x0; 0x70; 0x60;
   0x3fffc70; 0x3fffc60; 0x3860c70; 0x3860c60; 0x3860d74; 0x3aeaffc; 0x3ffeffc; 0x3860c60;
   0x3860c70; 0x3860c60; 0x39fcc70; 0x3bfcc60; 0x3b0cc70; 0x3b0ce60; 0x3b0cff0; 0x3b0cff8;
   0x3bfccfe; 0x3bfcc1c; 0x3800c04; 0x3aaac00; 0x3fffc00; 0x3aaac00; 0x3800c00; 0x0;
   0x0; 0x0; 0x0; 0x202000; 0x0; 0x0; 0x0; 0x1c060;
   0xc060; 0x1fc060; 0x3fe060; 0x3ff060; 0x183060; 0x1c3974; 0x1fffffc; 0x1fffffc;
   0x1861c60; 0x1871860; 0x1861860; 0x1871860; 0x1831860; 0x1fff860; 0x1fffa60; 0x2f87e0;
   0x6f83f8; 0xedc07e; 0x1ccc01c; 0x18cf004; 0x30c7800; 0x35c3c00; 0x3fc0f00; 0x1fc0600;
   0x0; 0x0; 0x0; 0x0; 0x202000; 0x0; 0x0; 0x0;
   0x60060; 0x60060; 0x60060; 0x1fff060; 0x1fff060; 0x60060; 0x60174; 0x2aeabfc;
   0x3fffffc; 0x2aaa860; 0x79c060; 0xe0f060; 0x3c37c60; 0x3039c60; 0xffc060; 0xffe060;
   0x60f360; 0x71fbe0; 0x3b9df8; 0x1f887e; 0xf001c; 0x3fc000; 0x1f9fc00; 0x3e07e00;
   0x3001c00; 0x0; 0x0; 0x0; 0x0; 0x202000; 0x0; 0x0;
   0x0; 0x60; 0x2aaa860; 0x7fff860; 0x3fff860; 0x1c1860; 0xc1860; 0x1ffd974;
   0x1ffdbfc; 0x1ffdbfc; 0xc1860; 0x1c1860; 0x2aeb860; 0x3fffc60; 0x2aab860; 0x1c1c60;
   0xc1860; 0x3ffff60; 0x3ffefe0; 0x3ffcdfc; 0xc0c7e; 0x1c0e1c; 0xc0600; 0x7fff700;
   0x3fff300; 0x200; 0x0; 0x0; 0x0; 0x0; 0x202000; 0x0;
   0x0; 0x0; 0x1000180; 0x1f801c0; 0x1ff7ffc; 0x33ffc; 0x30070; 0x30330;
   0x7ff0738; 0x3ff3ffc; 0x7ff7ffc; 0x638300; 0x63c700; 0x61ffa0; 0x61fffc; 0x61c33c;
   0x61c700; 0x608300; 0x407000; 0x6000; 0xfffff0; 0xfffff0; 0x7000; 0x6000].
Definition hanzi_data_85 : list N :=
  [0x3fffffc; 0x3fffffc; 0x0; 0x0; 0x0; 0x0; 0x0; 0x202000;
   0x0; 0x0; 0x0; 0x30000; 0x383f8; 0x155d7f8; 0x3ffff18; 0x3ffff98;
   0xe198; 0x1ffe1d8; 0xfff0d8; 0x1c0f998; 0xffdf18; 0x1ffdf18; 0xc0c218; 0x1ffc718;
   0xc0c3d8; 0x1c0c1d8; 0xf8c018; 0x78c018; 0x6000; 0xfffff0; 0xffffe0; 0x6000;
   0x6000; 0x3fffffc; 0x3fffffc; 0x1555554; 0x0; 0x0; 0x0; 0x0;
   0x202000; 0x0; 0x0; 0x0; 0x70; 0x3fffe30; 0x3fffe70; 0x2baea30;
   0x18c070; 0x18c030; 0x3fffd74; 0x3fffdfe; 0x398cdfe; 0x398cc30; 0x398cc70; 0x3baec30;
   0x3fffc70; 0x2aaa830; 0x70070; 0x60030; 0x1fffd70; 0x1fffff0; 0x1fffdf0; 0x6007e;
   0x7001c; 0x60000; 0x7ffff00; 0x3fffe00; 0x0; 0x0; 0x0; 0x0;
   0x0; 0x202000; 0x0; 0x0; 0x0; 0x630060; 0x633060; 0x633060;
   0x633060; 0x3fffe60; 0x3fffe60; 0x633174; 0x6333fc; 0x7f33fc; 0x7f3060; 0x3060;
   0xaab060; 0x1fff060; 0xaea060; 0x70060; 0x2aea860; 0x3ffff60; 0x2afabe0; 0x1fc3f8;
   0x3ee07e; 0x77781c; 0x1e63c00; 0x7c71f00; 0x3060600; 0x70000; 0x0; 0x0;
   0x0; 0x0; 0x202000; 0x0; 0x0; 0x0; 0x6070; 0xff6060;
   0xff7070; 0xc03060; 0xc03870; 0xc03860; 0x7ffdd74; 0x3ffddfc; 0x5555ffc; 0x31f60;
   0x31f70; 0x3ff9a60; 0x3ff9870; 0x19d860; 0x18d870; 0x189a60; 0x7ffdbf0; 0x3ffdbf0;
   0x3c18fe; 0x3c183c; 0x6e1804; 0xee1800; 0x1c79800; 0x783d800; 0x300d800; 0x0;
   0x0; 0x0; 0x0; 0x202000; 0x0; 0x0; 0x0; 0x180;
   0xfffd80; 0xfffdc0; 0xe00ce0; 0xe01c60; 0xfffc70; 0xfffc78; 0x3007c; 0x3ffff7e;
   0x3ffff6c; 0x15ff560; 0x3b7060; 0x733c60; 0x1e31e60; 0x3c30760; 0x36260; 0x6000;
   0xaaeaa0; 0xfffff0; 0xaaeaa0; 0x6000; 0x6000; 0x7fffffe; 0x3fffffc; 0x0;
   0x0; 0x0; 0x0; 0x0; 0x202000; 0x0; 0x0; 0x0;
   0x60; 0xfff860; 0x1fff860; 0xc01860; 0x1d55860; 0xfff860; 0x1c01974; 0xc01bfe;
   0x1fffffe; 0xfff860; 0x60; 0x60; 0x3fffc60; 0x3fffc60; 0x71060; 0x63060;
   0x1ff3760; 0x1fe3fe0; 0x1573bfc; 0x6387e; 0x77c1c; 0x6ec00; 0x7ffce00; 0x3ff8700;
   0x3fc0200; 0x0; 0x0; 0x0; 0x0; 0x202000; 0x0; 0x0;
   0x0; 0x70; 0x2aaa860; 0x3fffc70; 0x2afa860; 0x70070; 0x1fff860; 0x1fffd74;
   0x1999bfc; 0x1999ffc; 0x1999860; 0x1999c70; 0x1999860; 0x1d99c70; 0x1d99860; 0x461f70;
   0x603e0; 0x3fffff0; 0x3fffcfc; 0xf003e; 0xf800c; 0x1dc000; 0x39e000; 0x1f0fc00;
   0x7e03f00; 0x3000600; 0x0; 0x0; 0x0; 0x0; 0x202000; 0x0;
   0x0; 0x0; 0x60; 0xfff060; 0x1fff060; 0xc03060; 0x1c03060; 0xfff060;
   0x1fff174; 0xc033fc; 0x1fff3fc; 0xfff060; 0x155d060; 0xe060; 0x3fff060; 0x3fff060;
   0x30c3c60; 0x3860e60; 0x3873760; 0x38f33e0; 0x3b9f3f8; 0x3b0b07e; 0x1fff01c; 0x1bff000;
   0x1c00000; 0x1f80000; 0xf80000; 0x0; 0x0; 0x0; 0x0; 0x202000;
   0x0; 0x0; 0x0; 0x607070; 0x603060; 0x607070; 0x3fffe60; 0x3fffe70;
   0x603060; 0x757174; 0x7ff1fe; 0x7ff1fe; 0x603060; 0x7ff070; 0x7ff060; 0x607070;
   0x603060; 0x7ffff70; 0x3fffe60; 0x131d70; 0x331be0; 0x719dfc; 0xe1d87e; 0xc0dc1c;
   0x401800; 0x3fffc00; 0x3fff800; 0x0; 0x0; 0x0; 0x0; 0x0;
   0x202000; 0x0; 0x0; 0x0; 0x60; 0x3fffc60; 0x3fffc60; 0xc60;
   0x1ffdc60; 0x1ffcc60; 0x1c1dffc; 0x1ffcffc; 0x1ffdffc; 0x180cc60; 0x1ffdc60; 0xaa8c60;
   0x61c60; 0x3ffec60; 0x3fffc60; 0xe38e60; 0x639fe0; 0x3f8df0; 0x7c1c7e; 0xff8c0c;
   0x1c7fc04; 0x2c00; 0x7fffc00; 0x3fffc00; 0x0; 0x0; 0x0; 0x0;
   0x0; 0x202000; 0x0; 0x0; 0x0; 0x0; 0x2aa3ff8; 0x3ff3ff8;
   0x3ab3038; 0x3833038; 0x3833ff8; 0x3833ff8; 0x3833038; 0x3833578; 0x3833ff8; 0x3833ff8;
   0x3830c38; 0x1f31f38; 0xf33ff8; 0x371fc; 0x36018; 0x6000; 0xfffff0; 0xfffff0;
   0x6000; 0x6000; 0x6000; 0x3fffffc; 0x3fffffc; 0x0; 0x0; 0x0;
   0x0; 0x0; 0x202000; 0x0; 0x0; 0x0; 0x18040; 0x818060;
   0x3818060; 0x1dff860; 0x1dffc60; 0xeba860; 0x718060; 0x3983fc; 0x7fffffc; 0x3fffc60;
   0x7fffc60; 0x38060; 0x1e060; 0x1fff860; 0x1fffe60; 0x1c0ee60; 0x1c0e760; 0x1eae3e0;
   0x1ffe1fc; 0x1eae03e; 0x1c0e01c; 0x1c0e000; 0x1ffe000; 0x1ffe000; 0x1c0e000; 0x0;
   0x0; 0x0; 0x0; 0x202000; 0x0; 0x0; 0x0; 0x600380;
   0x600380; 0x603ff8; 0x603ff8; 0x7ffc380; 0x3ff8380; 0x607ffe; 0x622aaa; 0x670380;
   0x662ba8; 0x6e3ff8; 0x6c0380; 0x600380; 0x607f80; 0x7e7ffc; 0x7c62fc; 0x146000;
   0x6000; 0x7ffff0; 0x7fffe0; 0x6000; 0x6000; 0x3fffffc; 0x3fffffc; 0x0;
   0x0; 0x0; 0x0; 0x0; 0x202000; 0x0; 0x0; 0x0;
   0x60; 0x1fff860; 0x1fff860; 0x1999860; 0x1999860; 0x1999860; 0x1ddd974; 0x1fffbfc;
   0x1fffbfc; 0x60; 0x1555460; 0x3fffc60; 0x3fffc60; 0x60060; 0x61860; 0x61a60;
   0x1fe1fe0; 0x1fe1bf8; 0x6187e; 0x6181c; 0x61804; 0x61800; 0x7ffff00; 0x3fffe00;
   0x0; 0x0; 0x0; 0x0; 0x0; 0x202000; 0x0; 0x0;
   0x0; 0x60070; 0x60060; 0x1575070; 0x3fff860; 0x1fff870; 0x30060; 0x1fff974;
   0x1fffbfc; 0x183fc; 0x18060; 0x7fffc70; 0x3fffc60; 0x707070; 0xe07060; 0x1fffc70;
   0x3fffe60; 0x7f06d70; 0x26061e0; 0x7fe1fc; 0x7fe03e; 0x70601c; 0x606000; 0x7fe000;
   0x7fe000; 0x706000; 0x0; 0x0; 0x0; 0x0; 0x202000; 0x0;
   0x0; 0x0; 0x70c070; 0x60c060; 0x3fffc70; 0x3fffc60; 0x3fffc70; 0x64c060].
Definition hanzi_data_86 : list N :=
  [0x76c174; 0x2aea9fc; 0x3fffdfc; 0x2aab860; 0x3070; 0x3060; 0x1fff070; 0xfff060;
   0x70; 0x633060; 0x673170; 0x6333e0; 0x6731fc; 0x63303e; 0x667381c; 0x6633800;
   0x7671c00; 0x3e30e00; 0x1c00400; 0x0; 0x0; 0x0; 0x0; 0x202000;
   0x0; 0x0; 0x0; 0x60; 0xaaa860; 0x1fff860; 0x1bbb860; 0x1999860;
   0x1999860; 0x1999bfc; 0x1fffbfc; 0x1fffbfc; 0x70060; 0x60060; 0x3fffc60; 0x3fffc60;
   0xc060; 0x1c060; 0xaac260; 0xffc7e0; 0xeac3f8; 0xc0e07e; 0xc0e01c; 0xc07004;
   0xe03800; 0xf43c00; 0x7e0e00; 0x7c0400; 0x0; 0x0; 0x0; 0x0;
   0x202000; 0x0; 0x0; 0x0; 0xc060; 0xfde060; 0xfc7c60; 0xcc1c60;
   0xcc1c60; 0xcc0c60; 0xcc5d74; 0xcefdfc; 0x5c6fdfc; 0x3c60c60; 0x7071c60; 0x30c60;
   0x3fffc60; 0x3fefc60; 0x1861c60; 0x18c0c60; 0x1cc1de0; 0xcc8fe0; 0xf9fdfc; 0x787f3e;
   0x701f0c; 0xf80c00; 0x1df1c00; 0x3878c00; 0x3011c00; 0x0; 0x0; 0x0;
   0x0; 0x202000; 0x0; 0x0; 0x0; 0x70060; 0x60060; 0x3fffc60;
   0x3fffc60; 0x3fffc60; 0x59b060; 0xd9f3fc; 0x1999bfc; 0x399dffc; 0x3198e60; 0x19c460;
   0xaaa860; 0x1fffc60; 0xc00060; 0x1c00060; 0xfffb60; 0x1fffbe0; 0x19f8; 0x1fffc7e;
   0x1fffc0c; 0x1800004; 0x1800000; 0x1c00000; 0xfc0000; 0x7c0000; 0x0; 0x0;
   0x0; 0x0; 0x202000; 0x0; 0x0; 0x0; 0x0; 0x3ffdff8;
   0x3ffdff8; 0x199818; 0x19d818; 0x189ff8; 0x3ffdff8; 0x3ffd818; 0x3ffdd58; 0x3c1ff8;
   0x3c1ff8; 0x360618; 0x7370f18; 0x2b3dff8; 0x3f1f9fc; 0xa06018; 0x6000; 0xfffff0;
   0xfffff0; 0x6000; 0x6000; 0x6000; 0x3fffffc; 0x3fffffc; 0x0; 0x0;
   0x0; 0x0; 0x0; 0x202000; 0x0; 0x0; 0x0; 0x60;
   0xfff860; 0x1fff860; 0xc01860; 0x1d55860; 0xfff860; 0x1d55974; 0xc01bfe; 0x1fffbfe;
   0xfff860; 0x60; 0x2a8a860; 0x3fdfc60; 0x3a9a860; 0x31d8c60; 0x3199860; 0x331bf60;
   0x3b1b3e0; 0x3e1e3f8; 0x379f87e; 0x31d9e1c; 0x30d8e00; 0x3018000; 0x3e1e000; 0x1e1e000;
   0x0; 0x0; 0x0; 0x0; 0x202000; 0x0; 0x0; 0x0;
   0x461000; 0xc63bf8; 0xe633f8; 0x666318; 0x776318; 0x3fffb18; 0x3fffb18; 0x383f8;
   0x183f8; 0x183b8; 0x3ffff18; 0x3ffff18; 0x706318; 0xe67318; 0x1c63ff8; 0x3861ff8;
   0x3060f1c; 0xfff318; 0x1fff31c; 0x6030c; 0x6030c; 0x6030c; 0x3ffff4c; 0x3fffbee;
   0x1e4; 0x0; 0x0; 0x0; 0x0; 0x202000; 0x0; 0x0;
   0x0; 0x1830; 0x1ff1830; 0x1ff1c60; 0x1830ee0; 0x1837ffc; 0x1ff7ffc; 0x1ff1190;
   0x1833198; 0x1833198; 0x1ab3198; 0x1ff3ff8; 0x183bff8; 0x181b1c0; 0x181c0e0; 0x1f0e078;
   0xf06038; 0x6010; 0xaaeaa0; 0xfffff0; 0x2aeaa0; 0x6000; 0x6000; 0x3fffffc;
   0x3fffffc; 0x0; 0x0; 0x0; 0x0; 0x0; 0x202000; 0x0;
   0x0; 0x0; 0x706060; 0x306060; 0x706060; 0x3fffe60; 0x7fffe60; 0x306060;
   0x776174; 0x2723fc; 0xfc3fc; 0x3de060; 0x78f060; 0x1e03c60; 0x7ffff60; 0x33fe660;
   0x60; 0x60; 0xfff360; 0xfff3e0; 0xc033f8; 0xc0307e; 0xc0301c; 0xc03000;
   0xfff000; 0xfff000; 0xc03000; 0x0; 0x0; 0x0; 0x0; 0x202000;
   0x0; 0x0; 0x0; 0x70060; 0x60060; 0x60060; 0x3fff860; 0x3fffc60;
   0xc1860; 0xc1d74; 0xfffbfc; 0x1ffdffc; 0x8c1860; 0x3fffc60; 0x3fff860; 0x1cc1c60;
   0xaeb860; 0x1fffc60; 0xc0c60; 0xc1f60; 0x1ffefe0; 0x1ffedfc; 0x1806c3e; 0x1c0661c;
   0x1806600; 0x1ffe700; 0x1ffe300; 0x1c06200; 0x0; 0x0; 0x0; 0x0;
   0x202000; 0x0; 0x0; 0x0; 0x60060; 0xe0060; 0x15f5060; 0x3fff860;
   0x3fff860; 0xe0e060; 0x60c174; 0x70c3fc; 0x7fffffc; 0x3aab860; 0x7061c60; 0x30e1860;
   0xe0060; 0x3fff860; 0x7fffc60; 0x38060; 0x38360; 0x1ff83e0; 0x1ff81fc; 0xc1c03e;
   0x1c1c01c; 0xc0e000; 0xc07800; 0xfc3e00; 0x7c0c00; 0x0; 0x0; 0x0;
   0x0; 0x202000; 0x0; 0x0; 0x0; 0x7000; 0xe000; 0x3fffffc;
   0x3fffff8; 0x380001c; 0x3860618; 0x3fffffc; 0x7fffe0; 0x60600; 0x60600; 0x7fffe0;
   0x7fffe0; 0x60600; 0x3fffffc; 0x3fffffc; 0xe0700; 0x1c6380; 0x7861e0; 0x1fffff8;
   0x3cfff3c; 0x100601c; 0x6000; 0x1fffff8; 0x1fffff8; 0x0; 0x0; 0x0;
   0x0; 0x0; 0x202000; 0x0; 0x0; 0x0; 0x60; 0x3fffc60;
   0x3fffc60; 0x60; 0x1fff060; 0xfff060; 0x1c03174; 0xc033fc; 0x1fff3fc; 0xfff060;
   0x60; 0x2aaa860; 0x3fffc60; 0x3008860; 0x330dc60; 0x3398860; 0x3199f60; 0x37febe0;
   0x37ffff8; 0x306087e; 0x3061c1c; 0x3060800; 0x3061c00; 0x3e60800; 0x1c41c00; 0x0;
   0x0; 0x0; 0x0; 0x202000; 0x0; 0x0; 0x0; 0x60070;
   0x60060; 0x1575470; 0x3fff860; 0x3fffc70; 0x30060; 0xfff3fc; 0xfff3fc; 0xc033fc;
   0xfff060; 0xfff070; 0xc03060; 0xfff070; 0xeab060; 0xc03070; 0xfff060; 0xd57370;
   0xc033e0; 0x7fffffc; 0x3fffe3c; 0x31c01c; 0xf0e000; 0x1e07c00; 0x3801e00; 0x1000400;
   0x0; 0x0; 0x0; 0x0; 0x202000; 0x0; 0x0; 0x0;
   0x60; 0x2aaa860; 0x7fff860; 0x2aab860; 0x1c1860; 0xc1860; 0x3ffd974; 0x3ffdbfc;
   0x380dbfc; 0x380d860; 0x3ffd860; 0x3ffd860; 0x380d860; 0x380d860; 0x3ffdc60; 0x2ba9860;
   0x1c1f60; 0xd98fe0; 0x1ddcff8; 0x198cc7e; 0x39cee1c; 0x3186600; 0x71c6700; 0x1f0300;
   0xf0000; 0x0; 0x0; 0x0; 0x0; 0x202000; 0x0; 0x0;
   0x0; 0x1c06070; 0x1806060; 0x1c07070; 0x181fc60; 0x1c1fc70; 0x1818c60; 0x7fd8d74;
   0x3fdfdfc; 0x5d5fdfc; 0x1818c60; 0x1cddc70; 0x18dfc60; 0x1ddfc70; 0x1998c60; 0x1d9ff70;
   0x1b9ff60; 0x1f1e170; 0x181e1e0; 0x1c1b9f8; 0x1819c7e; 0x1c18f1c; 0x1818780; 0x1d18380].
Definition hanzi_data_87 : list N :=
  [0x1f9e000; 0x71e000; 0x0; 0x0; 0x0; 0x0; 0x202000; 0x0;
   0x0; 0x0; 0x1c0; 0x1ff8180; 0x1ff9ff8; 0x1839ff8; 0x1c39818; 0x1ff9ff8;
   0x1ff9ff8; 0x1839818; 0x1c19ff8; 0x1ff9ff8; 0x1ff8418; 0x1818e18; 0x1c1df18; 0x1f0dff8;
   0x1f0d8fc; 0x6008; 0x6000; 0xfffff0; 0xfffff0; 0x6000; 0x6000; 0x6000;
   0x3fffffc; 0x3fffffc; 0x0; 0x0; 0x0; 0x0; 0x0; 0x202000;
   0x0; 0x0; 0x0; 0x601c0; 0x60180; 0x63ffc; 0x63ffc; 0xffdff8;
   0xffdff8; 0xe61c18; 0xe61ff8; 0xe7dff8; 0xe78ff8; 0xcf1ff8; 0xff0700; 0x6dbbffc;
   0x2c1bffc; 0x6c1c180; 0x3c0e180; 0x38061f0; 0x6000; 0xfffff0; 0xfffff0; 0x6000;
   0x6000; 0x7fffffc; 0x3fffffc; 0x0; 0x0; 0x0; 0x0; 0x0;
   0x202000; 0x0; 0x0; 0x0; 0x60; 0x1fff860; 0x1fffc60; 0x1801860;
   0x1801c60; 0x1aab860; 0x1fffffc; 0xaabbfc; 0x1dddffc; 0xef9860; 0x1e1c60; 0x1eff860;
   0x3ddfc60; 0xc1860; 0x1ddc60; 0xccf60; 0x1ffdfe0; 0xaeecf8; 0x1c7c7e; 0x2aeac0c;
   0x3fffe00; 0x2aea600; 0x1c0700; 0xc0700; 0x1c0200; 0x0; 0x0; 0x0;
   0x0; 0x202000; 0x0; 0x0; 0x0; 0x60; 0xfff060; 0x1fff060;
   0xc03060; 0x1fff060; 0xc03060; 0x1c07174; 0xfff3fc; 0x5553fc; 0x3fff860; 0x3fff860;
   0x3999860; 0x3999860; 0x3fff860; 0x1fff860; 0x800060; 0x1fffb60; 0xeafbe0; 0xf0e3fc;
   0x79c07e; 0x3f801c; 0xf8000; 0x7ff000; 0x3f0fe00; 0x1c01c00; 0x0; 0x0;
   0x0; 0x0; 0x202000; 0x0; 0x0; 0x0; 0x70060; 0x60060;
   0x1fff860; 0x1fff860; 0x706060; 0x30c060; 0x30c174; 0x3fffffc; 0x3fffffc; 0x60;
   0xfff860; 0xfff860; 0xc03860; 0xfff860; 0xfff860; 0xc03860; 0xfffb60; 0xfffbe0;
   0x1dc3f8; 0x18c07e; 0x31cc01c; 0x318e000; 0x35c7c00; 0x3f83e00; 0x1f00e00; 0x0;
   0x0; 0x0; 0x0; 0x202000; 0x0; 0x0; 0x0; 0x0;
   0x1ffbff8; 0x1ffbff8; 0xe23198; 0x773ff8; 0x3e3ff8; 0x7c3198; 0x2bab198; 0x3fffff8;
   0x3babff8; 0x1980180; 0x1983ff8; 0x1183ff8; 0x180180; 0x187fd0; 0x1f3ffc; 0x1f605c;
   0x6000; 0xfffff0; 0xffffe0; 0x6000; 0x6000; 0x7fffffc; 0x3fffffc; 0x0;
   0x0; 0x0; 0x0; 0x0; 0x202000; 0x0; 0x0; 0x0;
   0x310470; 0x318c30; 0x318c70; 0x33ae30; 0x37ff70; 0x318c30; 0x3fd8d74; 0x3fdfdfc;
   0x331fdfc; 0x3318c30; 0x331fc70; 0x331fc30; 0x3318c70; 0x3398c30; 0x31fff70; 0x39fff30;
   0x319f7f0; 0x399b7f0; 0x319b6fc; 0x39b1e3c; 0x19d1604; 0x18ffe00; 0x1fffe00; 0xe60000;
   0x40000; 0x0; 0x0; 0x0; 0x0; 0x202000; 0x0; 0x0;
   0x0; 0x70060; 0x60060; 0x60060; 0x3fffc60; 0x3fffc60; 0xc0c60; 0x1fffd74;
   0x8c0ffc; 0x7dd5ffc; 0x3fffc60; 0x1cc1c60; 0xaeac60; 0x1fffc60; 0xc0c60; 0x1fffc60;
   0x1ffec60; 0x18c7d60; 0x1ffefe0; 0x1fffdfc; 0x18c2e7e; 0x1fff61c; 0x18c2600; 0x18c7700;
   0x1ec2380; 0x1e47100; 0x0; 0x0; 0x0; 0x0; 0x202000; 0x0;
   0x0; 0x0; 0x706060; 0x306060; 0x7fffe60; 0x3fffe60; 0x706060; 0x306060;
   0x7fe174; 0x2ea3fc; 0x15753fc; 0x1fff860; 0x1fffc60; 0x1861860; 0x1c71c60; 0x1fff860;
   0x1fffc60; 0x60260; 0x1ffffe0; 0x1fffff0; 0x700fe; 0xfff83c; 0x1fff804; 0x60000;
   0x7ffff00; 0x3fffe00; 0x5555500; 0x0; 0x0; 0x0; 0x0; 0x202000;
   0x0; 0x0; 0x0; 0x30060; 0x30060; 0x70060; 0x3fffc60; 0x3fffc60;
   0x306060; 0x30e1fc; 0x38c3fc; 0x15dd7fc; 0x1fffc60; 0x1fffc60; 0x18d8c60; 0x199cc60;
   0x1b0ec60; 0x1e07c60; 0x19fef60; 0x19fcfe0; 0x198ccf8; 0x198cc7e; 0x19acc0c; 0x19fcc00;
   0x180cc00; 0x1800c00; 0x1e00c00; 0x1e00c00; 0x0; 0x0; 0x0; 0x0;
   0x202000; 0x0; 0x0; 0x0; 0xe0700; 0xe0300; 0x3fffffc; 0x3fffffc;
   0xe0700; 0x7fffe0; 0x7fffe0; 0x600060; 0x7fffe0; 0x7fffe0; 0x600060; 0x7fffe0;
   0x7fffe0; 0xe00; 0x3fffffc; 0x3fffffc; 0x1c6380; 0x3861e0; 0x1fffff0; 0x3dfffbe;
   0x300601c; 0x6000; 0x1fffff8; 0x1fffff8; 0x0; 0x0; 0x0; 0x0;
   0x0; 0x202000; 0x0; 0x0; 0x0; 0x60; 0x3fffc60; 0x3fffc60;
   0x60060; 0x67060; 0x1fe2060; 0x1fe71fc; 0x623fc; 0x15775fc; 0x3fffc60; 0x3fffc60;
   0x3060; 0x1fff060; 0x3fff060; 0x1860; 0x2aabb60; 0x3fffbe0; 0x3aaa8f8; 0x376d87e;
   0x36ed80c; 0x34cdc00; 0x30ccc00; 0x300ce00; 0x3f00400; 0x1f00000; 0x0; 0x0;
   0x0; 0x0; 0x202000; 0x0; 0x0; 0x0; 0x303070; 0x303030;
   0x303070; 0x3bfe30; 0x7fbff70; 0x3f83030; 0x1c3174; 0xffffc; 0xffffc; 0x58630;
   0x1fdd670; 0x1f9fe30; 0x1c1fe70; 0xe18630; 0x61fe70; 0x71fe30; 0x7031f0; 0x3831f8;
   0x1bff7e; 0x21bff0c; 0x61d7500; 0x60c3000; 0x70c3000; 0x3fc3000; 0x3f83000; 0x0;
   0x0; 0x0; 0x0; 0x202000; 0x0; 0x0; 0x0; 0x70070;
   0x60060; 0x1fffc70; 0x1fffc60; 0x1575470; 0xc63860; 0xe771fc; 0x7661fc; 0x3741fc;
   0x3fffe60; 0x7fffe70; 0x60; 0x1555070; 0x1fff860; 0x1fffc70; 0x1800b60; 0x1bfdff0;
   0x1b0c9f8; 0x1b0dc7e; 0x1bfc80c; 0x19fdc04; 0x1800800; 0x1fffc00; 0x1fff800; 0x1801c00;
   0x0; 0x0; 0x0; 0x0; 0x202000; 0x0; 0x0; 0x0;
   0x70; 0xff9860; 0xffbc70; 0xcc3060; 0x1cd8470; 0x3cd8e60; 0x3cdfdfc; 0x3eed1fc;
   0x766f1fc; 0x2663060; 0x671870; 0x7b9c60; 0x7d8c70; 0x60060; 0x1575470; 0x3fffd60;
   0x3fffff0; 0x1f80f8; 0x3fc07e; 0x76e00c; 0x1e77800; 0x3c61e00; 0x7070e00; 0x2060000;
   0x70000; 0x0; 0x0; 0x0; 0x0; 0x202000; 0x0; 0x0;
   0x0; 0x606060; 0x606060; 0x70e060; 0x38c060; 0x1fffc60; 0x1fffc60; 0x1e67d74].
Definition hanzi_data_88 : list N :=
  [0x1a66ffc; 0x1b6dffc; 0x19ecc60; 0x19edc60; 0x1aeac60; 0x1fffc60; 0x60; 0xfff060;
   0xfff060; 0xf57360; 0xe033e0; 0xfff3f8; 0xfff07c; 0xe0301c; 0xe03000; 0xfff000;
   0xfff000; 0xe03000; 0x0; 0x0; 0x0; 0x0; 0x202000; 0x0;
   0x0; 0x0; 0x30070; 0x30060; 0x1ff0070; 0xff0060; 0x30070; 0x3fffc60;
   0x3fffdfc; 0x1830ffc; 0x1d30ffc; 0x3fec60; 0x11fec70; 0x3030c60; 0x1ff0c70; 0xfe0c60;
   0x330c70; 0x1332d60; 0x1b37df0; 0x1b36ff8; 0x1f3667e; 0xf3e60c; 0xf3c604; 0x330600;
   0x7ffff00; 0x3fffb00; 0x0; 0x0; 0x0; 0x0; 0x0; 0x202000;
   0x0; 0x0; 0x0; 0x706070; 0x706060; 0x30c070; 0x1fff860; 0x1fffc70;
   0x60060; 0x1fff870; 0xfff9fc; 0x701fc; 0x2aea860; 0x3fffc70; 0x2eea860; 0x677070;
   0x666060; 0x7fffe70; 0x3fffe60; 0x3f0; 0xfff3f0; 0xfff0fe; 0xc0301e; 0xc03004;
   0xc03000; 0xfff000; 0xfff000; 0xc03000; 0x0; 0x0; 0x0; 0x0;
   0x202000; 0x0; 0x0; 0x0; 0xdc070; 0xcc8860; 0xcddc70; 0xcc9860;
   0x6df070; 0x2eeb860; 0x3fffffc; 0x3063fc; 0x3861fc; 0x18e060; 0x3fffc70; 0x3fffc60;
   0x30070; 0xaba860; 0x1fff870; 0x30360; 0x15757f0; 0x3fffff8; 0x3fffe7e; 0xf800c;
   0x1dc004; 0x38e000; 0x1f07c00; 0x3e03f00; 0x1800700; 0x0; 0x0; 0x0;
   0x0; 0x202000; 0x0; 0x0; 0x0; 0xf00070; 0x1ffe860; 0x1ff870;
   0xc62860; 0xc67070; 0x666060; 0x76e174; 0x3fffdfc; 0x3fffdfc; 0x1f8060; 0x37c070;
   0x66e060; 0x1e67070; 0x3863860; 0x7fffe70; 0x2fff660; 0x1c633f0; 0xc633f8; 0x1fff07e;
   0xfff00c; 0x1c63004; 0xc63000; 0x1fff000; 0xfff000; 0x1c03000; 0x0; 0x0;
   0x0; 0x0; 0x202000; 0x0; 0x0; 0x0; 0x0; 0x7fffe0;
   0x7fffe0; 0x6c6260; 0x666760; 0x626660; 0x777560; 0x7fffe0; 0x557540; 0x6000;
   0xfffff0; 0x6000; 0x1557554; 0x3fffffc; 0x3fffffc; 0xe38c60; 0x1c35c70; 0x3836c38;
   0x17ffff8; 0x7fffe0; 0x6000; 0x6000; 0x3fffffc; 0x3fffffc; 0x0; 0x0;
   0x0; 0x0; 0x0; 0x202000; 0x0; 0x0; 0x0; 0x303070;
   0x303030; 0x307070; 0x3bfe30; 0x1bff70; 0x2b80030; 0x7fdff74; 0x3f9fffc; 0x19d87fc;
   0x19d8630; 0x19ffe70; 0x19ffe30; 0x1de0070; 0xd9fe30; 0xf1fe70; 0xf0e030; 0xf071f0;
   0x63b1f0; 0x73fffc; 0xf0bf3e; 0xf8310c; 0x1dc3000; 0x38e3000; 0x7073e00; 0x3021c00;
   0x0; 0x0; 0x0; 0x0; 0x202000; 0x0; 0x0; 0x0;
   0x180; 0x7f2ba8; 0x7f3ffc; 0x630180; 0x631ff8; 0x639188; 0x3e1dff8; 0x2aa9ba8;
   0x1ffdff8; 0xeb9ff8; 0xe33ffc; 0x663ffc; 0x7e3198; 0x3e3188; 0x1fffff8; 0x3c3fff8;
   0x1006000; 0x6000; 0xfffff0; 0xfffff0; 0x6000; 0x6000; 0x3fffffc; 0x3fffffc;
   0x0; 0x0; 0x0; 0x0; 0x0; 0x202000; 0x0; 0x0;
   0x0; 0x1c0000; 0x181ff8; 0x3ffdff8; 0x3ffd818; 0xc31818; 0xe31ff8; 0x1775ff8;
   0x3ffe018; 0x3fff558; 0x181ff8; 0x3ffdffc; 0x3ffd838; 0x3ffd87c; 0x181ffe; 0x1c1ff4;
   0x86000; 0x6000; 0xffffe0; 0xfffff0; 0x6000; 0x6000; 0x6000; 0x3fffffc;
   0x3fffffc; 0x0; 0x0; 0x0; 0x0; 0x0; 0x202000; 0x0;
   0x0; 0x0; 0x7000; 0x6000; 0x3fffffc; 0x3fffffc; 0x1d81c0; 0x1980e0;
   0x1ffc670; 0x1ffe638; 0x18f3fc; 0x1fff1f8; 0x15ddce0; 0x18ce70; 0x1ffcffc; 0x18c738;
   0x3ffc380; 0x3ffc1e0; 0xe07c; 0x6018; 0xfffff0; 0xfffff0; 0x6000; 0x6000;
   0x3fffffc; 0x3fffffc; 0x0; 0x0; 0x0; 0x0; 0x0; 0x202000;
   0x0; 0x0; 0x0; 0x300; 0x7f00; 0x3ff7f00; 0x3fe0300; 0x187fffc;
   0x18f800c; 0x1cdbfec; 0xccbae8; 0xdc7770; 0xf8e7b8; 0x785fd0; 0x3078e0; 0x79fffc;
   0xfcbfe8; 0x1cf7070; 0x387bfe0; 0x3037ff0; 0x6000; 0x1fffff0; 0x1fffff8; 0x1557550;
   0x6000; 0x7fffffe; 0x3fffffe; 0x0; 0x0; 0x0; 0x0; 0x0;
   0x202000; 0x0; 0x0; 0x0; 0x38070; 0x30060; 0x3fffe70; 0x3fffe60;
   0x70; 0xfff860; 0xd55974; 0xc019fc; 0xfff9fc; 0x60; 0x3fffe70; 0x3fffe60;
   0x3555670; 0x3fffe60; 0x1838070; 0x1c3e060; 0xf77f70; 0x3f8be0; 0x7df1fc; 0xfe3e3e;
   0x1dbcc0c; 0x398f000; 0x71c7f00; 0x20f8e00; 0xf0000; 0x0; 0x0; 0x0;
   0x0; 0x202000; 0x0; 0x0; 0x0; 0x30070; 0x30060; 0x7fffe70;
   0x3fffe60; 0x70; 0x1f9f860; 0x1fdfdfc; 0x18989fc; 0x1fdfdfc; 0x1f9f860; 0x175f470;
   0x3fffc60; 0x175f470; 0xbae860; 0x1fffc70; 0x30e060; 0x7fffff0; 0x3fffff8; 0x18fc07e;
   0x1ecf80c; 0x7c7f04; 0x786f00; 0x1f7e100; 0x3c3f000; 0x3007000; 0x0; 0x0;
   0x0; 0x0; 0x202000; 0x0; 0x0; 0x0; 0x6000; 0x6000;
   0x6000; 0x6000; 0x6000; 0x6000; 0x6000; 0x6000; 0x1557554; 0x3fffffc;
   0x3fffffc; 0x6000; 0x6000; 0x6000; 0x6000; 0x6000; 0x6000; 0x6000;
   0x6000; 0x6000; 0x6000; 0x1fffff8; 0x1fffff8; 0xaaaaa8; 0x0; 0x0;
   0x0; 0x0; 0x0; 0x202000; 0x0; 0x0; 0x0; 0x0;
   0x7c0000; 0x7ff000; 0xfffe0; 0x7ff8; 0x60f0; 0x6000; 0x6000; 0x6000;
   0x6000; 0x6000; 0x3fffffc; 0x3fffffc; 0x2aaeaa8; 0x6000; 0x6000; 0x6000;
   0x6000; 0x6000; 0x6000; 0x6000; 0x6000; 0x1fffff0; 0x1fffff0; 0x0;
   0x0; 0x0; 0x0; 0x0; 0x202000; 0x0; 0x0; 0x0;
   0x60180; 0x60180; 0x60180; 0x60188; 0x6018c; 0x6019c; 0x60198; 0x601b8;
   0x601f0; 0x3fffdb0; 0x7fffd80; 0x60180; 0x60180; 0x60180; 0x60180; 0x601e0;
   0x601f0; 0x601bc; 0x6019c; 0x60184; 0x60180; 0x60180; 0x3fffd80; 0x3fff980].
Definition hanzi_data_89 : list N :=
  [0x180; 0x0; 0x0; 0x0; 0x0; 0x202000; 0x0; 0x0;
   0x0; 0x6000; 0x6000; 0x3fffffc; 0x3fffffc; 0x1557554; 0x6000; 0x557550;
   0xfffff0; 0x1fffff0; 0x0; 0xfffff0; 0xffffe0; 0xfffff0; 0xc06060; 0xc06070;
   0xc06060; 0xfffff0; 0xfffff0; 0xd55570; 0xc00030; 0x38; 0x38; 0x1c;
   0xe; 0xc; 0x0; 0x0; 0x0; 0x0; 0x202000; 0x0;
   0x0; 0x0; 0x6000; 0x6000; 0x3fffffc; 0x3fffffc; 0x3fffffc; 0x6000;
   0x557550; 0xfffff0; 0xfffff0; 0x0; 0x1fffffc; 0x1fffff8; 0x1d5555c; 0x1800018;
   0x18fff1c; 0x18ffe18; 0xe0700; 0xe0600; 0xe0700; 0xe0300; 0x70e0380; 0x30e03c0;
   0x35e01f0; 0x3fe007e; 0x1fc001c; 0x0; 0x0; 0x0; 0x0; 0x202000;
   0x0; 0x0; 0x0; 0x6000; 0x6000; 0x3fffffc; 0x3fffff8; 0x6000;
   0x6000; 0xfffff0; 0xffffe0; 0x0; 0x0; 0x3fffffc; 0x3fffffc; 0x300000c;
   0x3030c0c; 0x431c40; 0xe30c60; 0x731ce0; 0x330cc0; 0x3b1dc0; 0x1f0d80; 0x31c00;
   0x30c00; 0x7fffffc; 0x3fffffc; 0x0; 0x0; 0x0; 0x0; 0x0;
   0x202000; 0x0; 0x0; 0x0; 0x6000; 0x6000; 0x3fffffc; 0x3fffff8;
   0x6000; 0x6000; 0xffffe0; 0xffffe0; 0x0; 0x2aaaaa8; 0x3fffffc; 0x300000c;
   0x300000c; 0x37fffec; 0x7fffe0; 0x30c00; 0x630c70; 0x630ce0; 0x730cc0; 0x3b0dc0;
   0x1b0d80; 0x30c00; 0x3fffffc; 0x3fffffc; 0x0; 0x0; 0x0; 0x0;
   0x0; 0x202000; 0x0; 0x0; 0x0; 0x6000; 0x6000; 0x3fffffc;
   0x3fffffc; 0x6000; 0xfffff0; 0xfffff0; 0x0; 0x1fffffc; 0x1fffff8; 0x180001c;
   0x1aaaa98; 0x1bfffdc; 0x0; 0x3fffc0; 0x3fffc0; 0x3000c0; 0x3000c0; 0x3fffc0;
   0x3fffc0; 0xe0700; 0x60600; 0x3fffffc; 0x3fffffc; 0x0; 0x0; 0x0;
   0x0; 0x0; 0x202000; 0x0; 0x0; 0x0; 0x1c00; 0x1c00;
   0xc00; 0xe00; 0x155700; 0x7fff00; 0x7fff80; 0x380380; 0x3803c0; 0x1803e0;
   0x1c07f0; 0xe0678; 0xf0e3c; 0x70e18; 0x79c00; 0x3f800; 0x1f000; 0xf000;
   0x1fc00; 0x7be00; 0x1f0f80; 0x7e03e0; 0x7fc01fc; 0x3e0007c; 0x100001c; 0x0;
   0x0; 0x0; 0x0; 0x202000; 0x0; 0x0; 0x0; 0x601c0;
   0x601c0; 0x601c0; 0x600c0; 0x67fc0; 0x63fe0; 0x63fe0; 0x1e3060; 0x3e3870;
   0x3e3870; 0x761870; 0xe618f8; 0x1c61cdc; 0x3860ccc; 0x1860dc8; 0x60f80; 0x60780;
   0x60700; 0x60f80; 0x61f80; 0x7de0; 0x3f8f0; 0x3ffe07c; 0x3ff803e; 0x1c;
   0x0; 0x0; 0x0; 0x0; 0x202000; 0x0; 0x0; 0x0;
   0x1c00; 0xe00; 0x1fff00; 0x3fff80; 0x3fffc0; 0x1e03e0; 0xf0f78; 0x3fc38;
   0x1f810; 0x3fe00; 0x7fdfc0; 0x7fe03fe; 0x3f000fc; 0x7fffec; 0x7fffe0; 0x606060;
   0x706060; 0x6aeae0; 0x7fffe0; 0x606060; 0x706060; 0x606060; 0x7fffe0; 0x7fffe0;
   0x700060; 0x0; 0x0; 0x0; 0x0; 0x202000; 0x0; 0x0;
   0x0; 0x180; 0x180; 0x15555c0; 0x1ffffe0; 0x1fffff0; 0x38; 0x7ffffc;
   0x7fffcc; 0x7001c0; 0x7fffc0; 0x7fffc0; 0x6000c0; 0x7555c0; 0x7fffc0; 0x700;
   0x700; 0x7fff80; 0x3aabe0; 0x1c07f0; 0xf0e38; 0x7fc10; 0x3f800; 0x1fffff0;
   0x3fe07fe; 0x1c0007c; 0x0; 0x0; 0x0; 0x0; 0x202000; 0x0;
   0x0; 0x0; 0x0; 0x3fffff8; 0x3fffffc; 0x6000; 0x7fffe0; 0x7fffe0;
   0x700060; 0x7fffe0; 0x7fffe0; 0x600060; 0x7fffe0; 0x7fffe0; 0x700060; 0x7fffe0;
   0x7fffe0; 0xe00; 0x3fff80; 0x3fffe0; 0x1e07f8; 0xf1e3c; 0x7fc08; 0x3f800;
   0x7fffd0; 0x3fe03fe; 0x3f0007c; 0x0; 0x0; 0x0; 0x0; 0x202000;
   0x0; 0x0; 0x0; 0xe00; 0x2af00; 0x7ffc0; 0x301e0; 0x7ffff0;
   0xfffffc; 0xe1f078; 0xeffe60; 0xee0f60; 0x7fffc0; 0x7000c0; 0x7fffc0; 0x7fffc0;
   0x7aaac0; 0x7fffc0; 0x7000c0; 0x7fffc0; 0xe00; 0x1fff80; 0x1eabe0; 0xf0f7c;
   0x3fe08; 0x5fff00; 0x3ffbffe; 0x3f001fc; 0x0; 0x0; 0x0; 0x0;
   0x202000; 0x0; 0x0; 0x0; 0x1c0300; 0xe0300; 0x3fffffc; 0x3fffffc;
   0x7040; 0x1fab8c0; 0x1fbfcd8; 0x18bafd8; 0x1fbffd8; 0x1fb0cd8; 0x11bfcd8; 0x20b0fd8;
   0x3fbfffc; 0xa2003c; 0x1f0704; 0x7833c0; 0x1f03cfc; 0x9ffe38; 0x1fff80; 0xe0fe0;
   0x79ef0; 0x3f800; 0x1fff40; 0x3ff0ffc; 0x3f0007c; 0x0; 0x0; 0x0;
   0x0; 0x202000; 0x0; 0x0; 0x0; 0x7000; 0x3000; 0x3800;
   0x3800; 0xfffc00; 0xfffe00; 0xffff00; 0xe00700; 0xe00380; 0x6001c0; 0x7005f0;
   0x381e78; 0x3c7c38; 0x1cf810; 0x1fe000; 0xfc000; 0x78000; 0x3c000; 0x1e000;
   0xf800; 0x7c00; 0x1f00; 0x7e0; 0x3f0; 0x60; 0x0; 0x0;
   0x0; 0x0; 0x202000; 0x0; 0x0; 0x0; 0x601c0; 0x601c0;
   0x601c0; 0x600c0; 0x67fc0; 0x67fe0; 0x67560; 0x63070; 0x1e3070; 0x3e3838;
   0x7e381c; 0xf618fc; 0x1e61dec; 0x3861f88; 0x7860f00; 0x3060e00; 0x60700; 0x60700;
   0x60380; 0x603c0; 0x601e0; 0x600f0; 0x6007c; 0x6003c; 0x60008; 0x0;
   0x0; 0x0; 0x0; 0x202000; 0x0; 0x0; 0x0; 0x0;
   0x2aaaa0; 0x7ffff0; 0x7fffe0; 0x600070; 0x600060; 0x7fff70; 0xefff60; 0x607070;
   0xe03860; 0x657870; 0xeff870; 0x67fc70; 0xe60e70; 0xe70770; 0xe31bb0; 0xe3f9b0;
   0xe1e030; 0xc1c030; 0x2c0e038; 0x6c07018; 0x2c03c18; 0x7c01f1c; 0x380070e; 0x3800004;
   0x0; 0x0; 0x0; 0x0; 0x202000; 0x0; 0x0; 0x0;
   0x7000; 0x3800; 0x1ffc00; 0x3ffe00; 0x1fff00; 0xe03c0; 0xf05f0; 0x38e70].
Definition hanzi_data_90 : list N :=
  [0x1fc00; 0x2f800; 0x77e00; 0x38fc0; 0x3ffc7fc; 0x3ffe0f8; 0x1c07810; 0xe03e00;
   0xf06fc0; 0x78e3c0; 0x3dc080; 0xf8000; 0x7e000; 0x1f800; 0x7ff0; 0xff8;
   0x78; 0x0; 0x0; 0x0; 0x0; 0x202000; 0x0; 0x0;
   0x0; 0x7000; 0x6000; 0xe000; 0x3fffffc; 0x3fffffc; 0x38300; 0x18380;
   0x1c380; 0x1ffc1c0; 0x1ffe0c0; 0x1c070e0; 0xc330f0; 0xc738f8; 0xee7cf8; 0x7c6ede;
   0x30e6cc; 0x39c0c4; 0x1f80c0; 0xf00c0; 0xf00c0; 0x1fc0c0; 0x79e0c0; 0x1f07cc0;
   0x3c03ec0; 0x30004c0; 0x0; 0x0; 0x0; 0x0; 0x202000; 0x0;
   0x0; 0x0; 0x1c0060; 0xc0060; 0x1fe0070; 0x1fe0ab0; 0x1c71ff0; 0xc39ff8;
   0xe7f81c; 0x7e180c; 0x3c1bfe; 0x1e1bf8; 0x1f1b18; 0x3bfb18; 0x15ddb18; 0x3fc1b18;
   0x3ff1b18; 0x3879b18; 0x187dbf8; 0x1cefbf8; 0xfc5c18; 0xf81818; 0x7c1c00; 0x1e0c00;
   0xfcfc0; 0x3ef80; 0xc000; 0x0; 0x0; 0x0; 0x0; 0x202000;
   0x0; 0x0; 0x0; 0x1e000; 0x2af800; 0x7fffc0; 0x3c03e0; 0x1f9c40;
   0x3f800; 0x7ff8; 0x73f0; 0x3fffffc; 0x3fffff8; 0x380001c; 0x3bfffd8; 0x3bfffdc;
   0x6000; 0x7fffe0; 0x6aeae0; 0x606060; 0x7fffe0; 0x757560; 0x606060; 0x7fffe0;
   0xe0200; 0x7f07c0; 0x3f001fc; 0x1c0001c; 0x0; 0x0; 0x0; 0x0;
   0x202000; 0x0; 0x0; 0x0; 0x1c0000; 0x1c1ff8; 0x1fe1ff8; 0x3fe1998;
   0x1c71998; 0xc39bb8; 0xeffff8; 0x7e9bb8; 0x781998; 0x1c1998; 0x1f1ff8; 0x3bdff8;
   0x1dc180; 0x7fc2ba8; 0x7fe3ffc; 0x387bffc; 0x387c7c0; 0x1ceefe0; 0x1fc5df0; 0xf839b0;
   0x7811bc; 0x3e019c; 0xfc18c; 0x3e184; 0xc180; 0x0; 0x0; 0x0;
   0x0; 0x202000; 0x0; 0x0; 0x0; 0x6000; 0x6000; 0x6000;
   0x6000; 0x7000; 0x6000; 0x7000; 0x7000; 0x3fffffc; 0x3fffffc; 0xf000;
   0xf000; 0x1f800; 0x1b800; 0x39c00; 0x39c00; 0x71e00; 0xe0e00; 0x1e0700;
   0x3c0380; 0x7803c0; 0xf000e0; 0x3e0007c; 0x3c0003c; 0x1000018; 0x0; 0x0;
   0x0; 0x0; 0x202000; 0x0; 0x0; 0x0; 0x0; 0x0;
   0x1fffff8; 0x1fffff8; 0x1fffff8; 0x6000; 0x7000; 0x6000; 0x7000; 0x6000;
   0x3fffffc; 0x3fffffc; 0x3fffffc; 0xf000; 0x1f800; 0x1b800; 0x39c00; 0x39e00;
   0x70f00; 0xe0780; 0x3c03c0; 0x7801e0; 0x1f000fc; 0x3c0003c; 0x100001c; 0x0;
   0x0; 0x0; 0x0; 0x202000; 0x0; 0x0; 0x0; 0x6000;
   0x6000; 0x6000; 0x6000; 0x7000; 0x6000; 0x7000; 0x3fffffc; 0x3fffffc;
   0x2aafaa8; 0x1f000; 0x1f000; 0x1f800; 0x3b800; 0x39c00; 0x31c00; 0x71e00;
   0xe0e00; 0x1c1f00; 0x3c3f80; 0x7879c0; 0xf0f0e0; 0x3e1e07c; 0x381c03c; 0x100001c;
   0x0; 0x0; 0x0; 0x0; 0x202000; 0x0; 0x0; 0x0;
   0x7000; 0x6000; 0x7000; 0x6000; 0xfffff0; 0xfffff0; 0xfffff0; 0x6000;
   0x7000; 0x6000; 0x7000; 0x6000; 0x3fffffc; 0x3fffffc; 0xf000; 0xf800;
   0x1f800; 0x39c00; 0x79e00; 0xf0f00; 0x1e07c0; 0x7c03e0; 0x7f001fc; 0x3e0003c;
   0x100001c; 0x0; 0x0; 0x0; 0x0; 0x202000; 0x0; 0x0;
   0x0; 0x7000; 0x6000; 0x7000; 0x6000; 0x7ffff0; 0x7ffff0; 0x707000;
   0x606000; 0x707000; 0x606000; 0x707000; 0x607000; 0x3fffffc; 0x3fffffc; 0xf000;
   0x1f800; 0x1f800; 0x39800; 0x71c00; 0xf0e00; 0x1e0780; 0x3c03e0; 0x1f001fc;
   0x3e0007c; 0x380001c; 0x0; 0x0; 0x0; 0x0; 0x202000; 0x0;
   0x0; 0x0; 0x0; 0x7e0000; 0xfffff0; 0xffff0; 0x75f0; 0x6000;
   0x6000; 0x6000; 0x7000; 0x6000; 0x3fffffc; 0x3fffffc; 0x3fffffc; 0xf000;
   0xf800; 0xf800; 0x1dc00; 0x39c00; 0x70e00; 0xf0f00; 0x1e0780; 0x7c03e0;
   0x3f001fc; 0x3e0003c; 0x100001c; 0x0; 0x0; 0x0; 0x0; 0x202000;
   0x0; 0x0; 0x0; 0x7000; 0x6000; 0x7000; 0x6000; 0x7fffe0;
   0x7fffe0; 0x607060; 0x606060; 0x607060; 0x606060; 0x607060; 0x606060; 0x1757574;
   0x3fffffc; 0x3fffffc; 0xf800; 0x1f800; 0x39c00; 0x71e00; 0xf0e00; 0x1e0780;
   0x3c03e0; 0x1f001f8; 0x3e0003c; 0x300001c; 0x0; 0x0; 0x0; 0x0;
   0x202000; 0x0; 0x0; 0x0; 0x7000; 0x3000; 0x3800; 0x3800;
   0x3fffffc; 0x3fffffc; 0x70e00; 0xe0600; 0x1c0700; 0x1c3380; 0x7871c0; 0xf030f0;
   0x7e0307c; 0x3bffffe; 0x13fffcc; 0x383800; 0x301c00; 0x381c00; 0x381c00; 0x380e00;
   0x180700; 0x180380; 0x1d41f0; 0xfc0f8; 0x7c070; 0x0; 0x0; 0x0;
   0x0; 0x202000; 0x0; 0x0; 0x0; 0x7000; 0x6180; 0x71c0;
   0x60c0; 0x70e0; 0xffffe0; 0xfffff0; 0x6070; 0x7038; 0x6038; 0x701c;
   0x6000; 0x3fffffc; 0x3fffffc; 0x155f554; 0xf800; 0x1f800; 0x39c00; 0x71e00;
   0xf0f00; 0x1e0780; 0x7c03e0; 0x1f001fc; 0x3e0003c; 0x300001c; 0x0; 0x0;
   0x0; 0x0; 0x202000; 0x0; 0x0; 0x0; 0x1c000; 0x18080;
   0x1c3c0; 0x18f80; 0x1df00; 0x18800; 0x1c010; 0x180f8; 0x1c1f0; 0x1c780;
   0x1c300; 0xc000; 0x3fffffc; 0x3fffffc; 0x3fffffc; 0xe000; 0x7000; 0x3b000;
   0xfb800; 0x1e1c00; 0x7c1f00; 0xf00780; 0x1c003f0; 0x38000fc; 0x1000018; 0x0;
   0x0; 0x0; 0x0; 0x202000; 0x0; 0x0; 0x0; 0x6000;
   0x6000; 0x1557554; 0x3fffffc; 0x3fffffc; 0x6000; 0x7ffff0; 0x7ffff0; 0x757550;
   0x606000; 0x7ffff0; 0x7ffff0; 0x557570; 0x6030; 0x1fffff0; 0x1fffff8; 0x1d5f550;
   0x180f800; 0x1c1f800; 0xfb9c00; 0x770f00; 0x1e0780; 0x1fc01f8; 0x3f000fc; 0x3c0001c].
Definition hanzi_data_91 : list N :=
  [0x0; 0x0; 0x0; 0x0; 0x202000; 0x0; 0x0; 0x0;
   0x3000; 0x3800; 0x1800; 0x2aabea8; 0x3fffffc; 0x2aeaea8; 0xe0700; 0x1c0380;
   0x3d55c0; 0xfffee0; 0x1efff7c; 0x380003e; 0x300000c; 0xfffff0; 0xfffff0; 0x300;
   0x380; 0x3fff80; 0x3fffc0; 0x380000; 0x180000; 0x180000; 0x1c1000; 0xff000;
   0x7f000; 0x0; 0x0; 0x0; 0x0; 0x202000; 0x0; 0x0;
   0x0; 0x6000; 0x6000; 0x6000; 0x6000; 0x1fffff8; 0x1fffff8; 0x1557550;
   0x3060e0; 0x3861c0; 0x1861c0; 0x1c7180; 0xc6380; 0x47180; 0x3fffffc; 0x3fffffc;
   0xf800; 0x1f800; 0x39800; 0x79c00; 0xf0e00; 0x1e0780; 0x3c03e0; 0x1f001f8;
   0x3e0007c; 0x1000018; 0x0; 0x0; 0x0; 0x0; 0x202000; 0x0;
   0x0; 0x0; 0x6000; 0x6000; 0x7000; 0x3000; 0x3fffffc; 0x3fffffc;
   0x79c00; 0xf0e00; 0x1e07c0; 0xf803e0; 0x7f400fe; 0x38c003c; 0xc0000; 0x3fffffc;
   0x3fffffc; 0xc0080; 0xc01c0; 0xc0380; 0xc0700; 0xc0e00; 0xc0e00; 0xc0c00;
   0xd4000; 0xfe000; 0x7e000; 0x0; 0x0; 0x0; 0x0; 0x202000;
   0x0; 0x0; 0x0; 0x6000; 0x7000; 0x7000; 0x3800; 0x3fffffc;
   0x3fffffc; 0x70e00; 0xe0700; 0x1c07c0; 0x7801e0; 0x3f000fc; 0x3f020fc; 0x17061dc;
   0x3060c0; 0x7061c0; 0x3060c0; 0x7061c0; 0x3060c0; 0x7060c0; 0x3060e0; 0x7060e0;
   0x3060e0; 0x706078; 0x302038; 0x700010; 0x0; 0x0; 0x0; 0x0;
   0x202000; 0x0; 0x0; 0x0; 0x6000; 0x7000; 0x7000; 0x3fffffc;
   0x3fffffc; 0x30e00; 0xf0700; 0x3c0380; 0x7801f0; 0x3fffff8; 0x3fffffc; 0x68;
   0x1c0660; 0xe1e60; 0x77c60; 0x3f060; 0x3c060; 0xff060; 0x1f7c60; 0x3c1e60;
   0x300760; 0x260; 0x1ffffe0; 0xffffe0; 0x0; 0x0; 0x0; 0x0;
   0x0; 0x202000; 0x0; 0x0; 0x0; 0xe00; 0xe00; 0xfff00;
   0x1fff80; 0x1fffc0; 0xe01e0; 0x700f0; 0x38078; 0x7ffff8; 0x7fffe0; 0x706060;
   0x706060; 0x706060; 0x706060; 0x707060; 0x2fafae8; 0x3fffffc; 0x3fffffc; 0x39c00;
   0x70e00; 0x1e0f00; 0x3c03c0; 0x1f001f0; 0x3e0007e; 0x100001c; 0x0; 0x0;
   0x0; 0x0; 0x202000; 0x0; 0x0; 0x0; 0x7000; 0x3000;
   0x3800; 0x3fffffc; 0x3fffffc; 0x2abaea8; 0x70700; 0xe2700; 0x1c63c0; 0x7aebe0;
   0x1fffff0; 0x3faeaf8; 0x3f060dc; 0x3060c8; 0x7fffc0; 0x3aeac0; 0x7060c0; 0x3060c0;
   0x7fffc0; 0x3fffc0; 0x30060c0; 0x3806080; 0x1d5e000; 0x1ffe000; 0xffc000; 0x0;
   0x0; 0x0; 0x0; 0x202000; 0x0; 0x0; 0x0; 0x6000;
   0x6000; 0x1557550; 0x1fffff8; 0x1fffff8; 0xf800; 0x7fc00; 0x1f9e00; 0x7c07f0;
   0xf003f8; 0x1555574; 0x3fffffc; 0x3fffffc; 0x300000; 0x705540; 0x30ffe0; 0x70fff0;
   0x30e060; 0x70e070; 0x30e060; 0x70fff0; 0x30ffe0; 0x700070; 0x3f8060; 0x3f0000;
   0x0; 0x0; 0x0; 0x0; 0x202000; 0x0; 0x0; 0x0;
   0x7000; 0x3800; 0x3800; 0x2aabaa8; 0x3fffffc; 0x3fffffc; 0x70700; 0xe0700;
   0x1c03c0; 0x3801e0; 0xfffff0; 0x3efff3c; 0x380001e; 0x4; 0xfffff0; 0xfffff0;
   0xfffff0; 0x6000; 0x1c6180; 0x3861c0; 0x7060e0; 0xe06070; 0x1c0603c; 0x807e18;
   0x7e00; 0x0; 0x0; 0x0; 0x0; 0x202000; 0x0; 0x0;
   0x0; 0x6000; 0x6000; 0x1fffff0; 0xfffff0; 0x7000; 0x3800; 0x7ffff0;
   0x7fffe0; 0x1c00; 0x2aaaea8; 0x3fffffc; 0x2aeafa8; 0x1c6380; 0x3861c0; 0x7ffff0;
   0x1efff78; 0x7cfff3e; 0x300600c; 0x557550; 0xfffff0; 0xfffff0; 0x6000; 0x6000;
   0x6000; 0x6000; 0x0; 0x0; 0x0; 0x0; 0x202000; 0x0;
   0x0; 0x0; 0x6000; 0x6000; 0x7000; 0x2aabaa8; 0x3fffff8; 0x3fffff8;
   0x1dc00; 0x38c00; 0x70f00; 0x1e0780; 0x7c03c0; 0x3fffff8; 0x3fffffc; 0x13060ec;
   0x7060e0; 0x3060e0; 0x7fffe0; 0x3fffe0; 0x7060e0; 0x3060e0; 0x7060e0; 0x3fffe0;
   0x7fffe0; 0x3000e0; 0x7000e0; 0x0; 0x0; 0x0; 0x0; 0x202000;
   0x0; 0x0; 0x0; 0x7000; 0x3800; 0x3800; 0x3fffffc; 0x3fffffc;
   0x70e00; 0xe0700; 0x1c6380; 0x7861c0; 0xfffff0; 0x7efff7c; 0x380601c; 0x6004;
   0xfffff0; 0xfffff0; 0x2000; 0x6000; 0x2aeaa0; 0x7fffe0; 0x2aeaa0; 0x6000;
   0x6000; 0x3fffffc; 0x3fffff8; 0x0; 0x0; 0x0; 0x0; 0x0;
   0x202000; 0x0; 0x0; 0x0; 0x6000; 0x6000; 0xfffff0; 0xfffff0;
   0x7000; 0x3000; 0x7fffe0; 0x7fffe0; 0x1c00; 0x2aabea8; 0x3fffffc; 0x2aeaea8;
   0x1e0700; 0x3fff80; 0x7fffe0; 0x1e060f8; 0x7c0607e; 0x37fffec; 0x7fffe0; 0x1b800;
   0x7dc00; 0x1e0e00; 0x7c07c0; 0xe003f0; 0xc00070; 0x0; 0x0; 0x0;
   0x0; 0x202000; 0x0; 0x0; 0x0; 0x180; 0x180; 0x3ffdffc;
   0x3ffdffc; 0x18e0180; 0x3860180; 0x1861ff8; 0x1861ff8; 0x1870180; 0x1830180; 0x1839ffc;
   0x181dffc; 0x1f8f180; 0xf86180; 0x7180; 0x6000; 0x3fffffc; 0x3fffffc; 0x1f800;
   0x1b800; 0x79c00; 0xf0f80; 0x1fe07f0; 0x3f800fe; 0x3c0001c; 0x0; 0x0;
   0x0; 0x0; 0x202000; 0x0; 0x0; 0x0; 0x7000; 0x3800;
   0x1557d54; 0x3fffffc; 0x3fffffc; 0xe2780; 0x3c73e0; 0xf838f8; 0x7effe7c; 0x387af88;
   0x387f0; 0x1eee0; 0x67c00; 0x33e00; 0xffcfc0; 0xffe3f8; 0x707878; 0x381e00;
   0x1c77c0; 0xfc180; 0x7c000; 0x1f800; 0x7fc0; 0xff8; 0x70; 0x0;
   0x0; 0x0; 0x0; 0x202000; 0x0; 0x0; 0x0; 0x7000;
   0x7000; 0x3800; 0x3800; 0x3fffffc; 0x3fffffc; 0xe0700; 0x1c6380; 0x7c61c0].
Definition hanzi_data_92 : list N :=
  [0xf060f0; 0x7fffffc; 0x39fffbc; 0x1006004; 0xc6300; 0xc6300; 0xc0300; 0x3fffffc;
   0x3fffffc; 0x15d57d4; 0xc0380; 0xc01c0; 0xc00e0; 0xc00f0; 0xc0078; 0xc0010;
   0x0; 0x0; 0x0; 0x0; 0x202000; 0x0; 0x0; 0x0;
   0x7000; 0x6000; 0x155f554; 0x3fffffc; 0x3fffffc; 0x30c00; 0x3b0ce0; 0x730c60;
   0xe30c70; 0xc30e38; 0x1c30718; 0x83a380; 0x3e1f0; 0xe0f0; 0x7000; 0x7000;
   0x3fffffc; 0x3fffffc; 0x1f800; 0x39c00; 0x79e00; 0xe0f80; 0x1fc07f0; 0x3f800fc;
   0x1c0001c; 0x0; 0x0; 0x0; 0x0; 0x202000; 0x0; 0x0;
   0x0; 0x70300; 0x38300; 0x1ffc31c; 0x3ffc338; 0x1d5f370; 0x1807b70; 0x1c1d320;
   0xe38380; 0x7f03f0; 0x3e0378; 0x1fc31c; 0x3fb0c; 0xfb00; 0x6200; 0x7000;
   0x3fffffc; 0x3fffffc; 0xf000; 0x1f800; 0x39c00; 0x71e00; 0x1e0f80; 0x1fc07f0;
   0x3f000fc; 0x1c0001c; 0x0; 0x0; 0x0; 0x0; 0x202000; 0x0;
   0x0; 0x0; 0x7000; 0x3000; 0x1557d54; 0x3fffffc; 0x3fffffc; 0xe0e00;
   0x1c0780; 0x3fffc0; 0xfffff0; 0x3e003f8; 0x395579c; 0x1fff88; 0x380; 0x380;
   0x1fff80; 0xaab80; 0x380; 0x3fffffc; 0x3fffffc; 0xe0700; 0x1c0380; 0x3a01e0;
   0x7ffff0; 0xe2bfe0; 0x400000; 0x0; 0x0; 0x0; 0x0; 0x202000;
   0x0; 0x0; 0x0; 0xe0710; 0xe0318; 0xe0718; 0xe0318; 0x3fffff8;
   0x3fffbf8; 0x3ffff00; 0xe03a8; 0xe07fc; 0xe03b8; 0xe0730; 0x1fff338; 0x1fff71c;
   0x31c; 0x6008; 0x6000; 0x3fffffc; 0x3fffffc; 0xf000; 0x1f800; 0x79c00;
   0xf0e00; 0x1fe07f0; 0x3f803fc; 0x1c0007c; 0x0; 0x0; 0x0; 0x0;
   0x202000; 0x0; 0x0; 0x0; 0x700000; 0xffe000; 0x7ffff8; 0xe02ff0;
   0x606060; 0x70e0e0; 0x38d9c0; 0x1c3c80; 0xf0f00; 0x78380; 0x11ffc0; 0x387bc0;
   0x701f00; 0xffa780; 0x1fffff0; 0x1806bf0; 0x7000; 0x3fffffc; 0x3fffffc; 0x1f800;
   0x79c00; 0xf0e00; 0x1fc07f0; 0x3f801fc; 0x1c0007c; 0x0; 0x0; 0x0;
   0x0; 0x202000; 0x0; 0x0; 0x0; 0x1c0380; 0xe0700; 0x70600;
   0x1fffff8; 0x1fffff8; 0x19800; 0xfffff0; 0xffffe0; 0xe19c70; 0xeb8e60; 0xff07f0;
   0xe00360; 0xfffff0; 0xe00060; 0xfffff0; 0xffffe0; 0x6000; 0x2aaeaa8; 0x7fffffe;
   0x2aafaa8; 0x1fc00; 0xf9e00; 0x17f0ff0; 0x3f803fe; 0x3c0007c; 0x0; 0x0;
   0x0; 0x0; 0x202000; 0x0; 0x0; 0x0; 0x0; 0x1fffff8;
   0x1fffffc; 0x7000; 0x7fffe0; 0x7fffe0; 0x700060; 0x7fffe0; 0x700060; 0x7fffe0;
   0x7fffe0; 0x600060; 0x7fffe0; 0x3800; 0x1555d54; 0x3fffffc; 0x3fffffc; 0x1e0780;
   0x7e07f0; 0x3f606fe; 0x3c6061c; 0x60700; 0x607c0; 0x603e0; 0x60060; 0x0;
   0x0; 0x0; 0x0; 0x202000; 0x0; 0x0; 0x0; 0x3000;
   0x3800; 0x3fffffc; 0x3fffffc; 0x1575754; 0x1e3b80; 0x7c39e0; 0x3fbfff8; 0x3dffffc;
   0x20e380c; 0x7b800; 0x3fffffc; 0x3fffffc; 0x3800; 0x1f00; 0x3fffc0; 0x7ffff8;
   0x3003fe; 0x75579c; 0x3fff80; 0x755780; 0x300380; 0x7fff80; 0x3fff80; 0x700380;
   0x0; 0x0; 0x0; 0x0; 0x202000; 0x0; 0x0; 0x0;
   0x6000; 0x7000; 0x7ffff0; 0x7fffe0; 0x755570; 0x666260; 0x666670; 0x636e60;
   0x657570; 0x6fff60; 0x657d70; 0x63fc60; 0x676f70; 0x6c63e0; 0x607170; 0x6000;
   0x3fffffc; 0x3fffffc; 0x1f800; 0x3b800; 0x79e00; 0xe0f80; 0x1fc07f0; 0x3f800fc;
   0x3c0001c; 0x0; 0x0; 0x0; 0x0; 0x202000; 0x0; 0x0;
   0x0; 0x6000; 0x6000; 0x6000; 0x2aaeaa8; 0x3fffffc; 0x3fffffc; 0x6000;
   0x3ff6ffc; 0x3ff6ffc; 0x3060c0; 0x1fe67f8; 0x1fe67f8; 0x1866618; 0x1fe67f8; 0x1fe77f8;
   0x186f618; 0x1d7f758; 0x1ff9ff8; 0x39c00; 0x70e00; 0x1e0700; 0x3c03c0; 0x1f801f8;
   0x3e0003c; 0x100001c; 0x0; 0x0; 0x0; 0x0; 0x202000; 0x0;
   0x0; 0x0; 0x3000; 0x3800; 0x1800; 0x1800; 0x1c00; 0xc00;
   0x3fffffc; 0x3fffffc; 0x3fffffc; 0x1c0700; 0x1c0700; 0xe0380; 0xe0180; 0xe01c0;
   0x701c0; 0x387e0; 0x39f80; 0x1fc00; 0x3f000; 0xff800; 0x1f7e00; 0x7c1f80;
   0x1f007fc; 0x1e000fc; 0x800018; 0x0; 0x0; 0x0; 0x0; 0x202000;
   0x0; 0x0; 0x0; 0xc0; 0xc0; 0x1ffe0e0; 0x1ffe0e0; 0x1d5c060;
   0x180cae8; 0x1c1dffc; 0xc19ffc; 0x1c19c70; 0xc38c30; 0xe38c30; 0xe30c38; 0x770e18;
   0x770e18; 0x76063c; 0x3e07f8; 0x1c07e0; 0x1c03c0; 0x3e0780; 0x3e0fc0; 0x779de0;
   0xe3c8f0; 0x3c1f07c; 0x380783e; 0x100300c; 0x0; 0x0; 0x0; 0x0;
   0x202000; 0x0; 0x0; 0x0; 0x60; 0x60; 0x7ff860; 0x3ff860;
   0x30c070; 0x30c2f8; 0x30c7fc; 0x38c7fc; 0x18c630; 0x18c638; 0x3f8c738; 0x3f8c318;
   0x380c718; 0x380e318; 0x180631c; 0x18063b8; 0x18061f0; 0x18061e0; 0x18073c0; 0x18033e0;
   0x1c03b70; 0x1c01878; 0x1d61c3c; 0xfe0e1c; 0x7c040c; 0x0; 0x0; 0x0;
   0x0; 0x202000; 0x0; 0x0; 0x0; 0x60; 0x60; 0x3fff070;
   0x3ffe070; 0xc0070; 0xc02b8; 0xc07fc; 0xc07fc; 0xc0638; 0xc0638; 0x15d5718;
   0x3fff618; 0x7fff71c; 0xc031c; 0xc031c; 0xc03b8; 0xc01f0; 0xc01e0; 0xc03c0;
   0xc07e0; 0xc0ff0; 0xc0e78; 0xc043c; 0xc001c; 0xc000c; 0x0; 0x0;
   0x0; 0x0; 0x202000; 0x0; 0x0; 0x0; 0x1c0060; 0xc0060;
   0x1c6060; 0xc6060; 0x1c6070; 0x18c62b8; 0x3fc67fc; 0x3fc67fc; 0x3bfe730; 0x38fe630;
   0x39dff38; 0x38c7b18; 0x19c6318; 0x38c6318; 0x19c631c; 0x18c63bc; 0x1fc61f0; 0xec61e0;
   0x11c63c0; 0x30067e0; 0x7006f70; 0x300e670; 0x3ffe43c; 0x3ffc01c; 0x1ff800c; 0x0].
Definition hanzi_data_93 : list N :=
  [0x0; 0x0; 0x0; 0x202000; 0x0; 0x0; 0x0; 0xe0;
   0xe0; 0x1ffe060; 0x1ffe060; 0x1c00070; 0xe002e8; 0x700ffc; 0x380ffc; 0x1c0c30;
   0xc0e30; 0x1c0e38; 0x2aea638; 0x7fff618; 0x3fff618; 0x1c071c; 0xc0378; 0x1c03f0;
   0xc01e0; 0x1c07c0; 0xc0fe0; 0x1c1ef0; 0xc0c78; 0x1c003c; 0xfc01e; 0xf8004;
   0x0; 0x0; 0x0; 0x0; 0x202000; 0x0; 0x0; 0x0;
   0x300e0; 0x380e0; 0x18060; 0x18060; 0x1c060; 0x3ffc2e8; 0x1ffe7fc; 0x38067fc;
   0x1807630; 0x3803e30; 0x1803f38; 0x180c318; 0x181c718; 0x1838318; 0x187031c; 0x18e03b8;
   0x19c01f0; 0x18001e0; 0x1c003c0; 0x18007e0; 0x1c00e70; 0xc00470; 0x1d4003c; 0xfe001c;
   0x7e000c; 0x0; 0x0; 0x0; 0x0; 0x202000; 0x0; 0x0;
   0x0; 0x1c0; 0xc0; 0xc0; 0x3ff80c0; 0x3ffc0c0; 0x3818ae8; 0x381dffc;
   0x3819ffc; 0x381d860; 0x3819860; 0x381dc70; 0x3819830; 0x381dc30; 0x3818c38; 0x381cc38;
   0x3818ef0; 0x381c7e0; 0x3818780; 0x381c700; 0x3818f80; 0x3ffddc0; 0x3ff98e0; 0x381d078;
   0x381803c; 0x1c; 0x0; 0x0; 0x0; 0x0; 0x202000; 0x0;
   0x0; 0x0; 0x60; 0x60; 0x1ffe060; 0x1ffe060; 0x1c00070; 0x18002f8;
   0x1c00ffc; 0x1800ffc; 0x1c00e30; 0x1800e38; 0x1d54638; 0x1ffe638; 0x1ffe718; 0x180e718;
   0x140e71c; 0xe33c; 0xe3f0; 0xe1e0; 0x300e3c0; 0x300e3e0; 0x700efe0; 0x300ee70;
   0x3ffe43c; 0x3ffc01e; 0x1ff800c; 0x0; 0x0; 0x0; 0x0; 0x202000;
   0x0; 0x0; 0x0; 0x7000; 0x6000; 0xe000; 0x3fffffc; 0x3fffffc;
   0xe0; 0xe0; 0xe0; 0x5555e0; 0xffffe0; 0x1ffffe0; 0x3800; 0x1c00;
   0x3fffffc; 0x3fffffc; 0x2beaea8; 0x1c0700; 0xe0380; 0x707c0; 0x3bf80; 0x7fc00;
   0x1ff800; 0xfe7fc0; 0x1f00ffc; 0xc00078; 0x0; 0x0; 0x0; 0x0;
   0x202000; 0x0; 0x0; 0x0; 0x70180; 0x70180; 0x70180; 0x30180;
   0x3818c; 0x3819c; 0x7fffdb8; 0x3fffdb0; 0x7fffdf0; 0xe0c1a0; 0x60c180; 0x60e180;
   0x706180; 0x7061c0; 0x7071e0; 0x38f1f0; 0x39e1bc; 0x1f819e; 0x1f018c; 0x3e0180;
   0x7f8180; 0xf3c180; 0x1c1f180; 0x3807d80; 0x1001980; 0x0; 0x0; 0x0;
   0x0; 0x202000; 0x0; 0x0; 0x0; 0xe0; 0xe0; 0x15550e0;
   0x1ffe060; 0x1fff060; 0x18002e8; 0x1c00ffc; 0x1800ffc; 0x1c00670; 0x1800630; 0x1c00630;
   0x1ffe638; 0x1ffe718; 0x1800318; 0x1c0073c; 0x1800378; 0x1c003f0; 0x18003c0; 0x1c007c0;
   0x1800ee0; 0x1d55e70; 0x1fff478; 0x1fff03c; 0x180000c; 0x1c00004; 0x0; 0x0;
   0x0; 0x0; 0x202000; 0x0; 0x0; 0x0; 0x60; 0x60;
   0xfff060; 0xfff060; 0x600070; 0x6062b8; 0x6067fc; 0x6067fc; 0x607730; 0x606638;
   0x707738; 0x703318; 0x3fff318; 0x3fff318; 0x380039c; 0x38003bc; 0x18001f8; 0x1bff9e0;
   0x1bff9c0; 0x18003e0; 0x1c00770; 0x1c00670; 0x1c4023c; 0xfc001c; 0x7c000c; 0x0;
   0x0; 0x0; 0x0; 0x202000; 0x0; 0x0; 0x0; 0x1c000e0;
   0x1f800e0; 0x1ffc060; 0xff060; 0xc7060; 0xc02e8; 0xc07fc; 0xc07fc; 0xc0630;
   0xc0630; 0xc0638; 0x3fffe38; 0x7ffff18; 0x2aea318; 0xc031c; 0xc03f8; 0xc03f0;
   0xc01c0; 0xc07c0; 0xc0fe0; 0xc0ef0; 0xc0c70; 0x3fff03c; 0x3fff01c; 0xc;
   0x0; 0x0; 0x0; 0x0; 0x202000; 0x0; 0x0; 0x0;
   0x60; 0x2aaa060; 0x3fff070; 0x3fff060; 0x618070; 0x6182b8; 0x6187fc; 0x6187fc;
   0x618730; 0x618638; 0x618718; 0x3fffb18; 0x7fffb18; 0x2ebab0c; 0x61c31c; 0x6183b8;
   0x61c1f0; 0x60c1e0; 0x60c3c0; 0x60e7e0; 0x60e770; 0x606270; 0x60703c; 0x60381c;
   0x60100c; 0x0; 0x0; 0x0; 0x0; 0x202000; 0x0; 0x0;
   0x0; 0x70060; 0x60060; 0xe0070; 0x1c0060; 0x15d4070; 0x3ffe2b8; 0x3fff7fc;
   0x38067fc; 0x3807730; 0x3806638; 0x3807738; 0x3806318; 0x3fff318; 0x3ffe318; 0x380739c;
   0x28061bc; 0x71f0; 0x71e0; 0x71c0; 0x33e0; 0x3f70; 0x3a38; 0x1c3c;
   0x1c1c; 0xc0c; 0x0; 0x0; 0x0; 0x0; 0x202000; 0x0;
   0x0; 0x0; 0xe0060; 0xe0060; 0xe0060; 0xe0060; 0x3fff070; 0x3fff2e8;
   0x3fff7fc; 0xe07fc; 0xe0630; 0xe0630; 0x1fff738; 0x1fff618; 0x1c06718; 0xc0e318;
   0xe0c31c; 0x61c3f8; 0x7181f0; 0x3b83c0; 0x1f07c0; 0xe0fe0; 0x1f0e70; 0x7bc470;
   0x1f1f83c; 0x3c07c1c; 0x300180c; 0x0; 0x0; 0x0; 0x0; 0x202000;
   0x0; 0x0; 0x0; 0x60; 0xe00060; 0x1ff0060; 0x3ff060; 0xff070;
   0xc02b8; 0xc07fc; 0xc07fc; 0xc0630; 0xc0638; 0x3ffff38; 0x3fffe18; 0x3ffff18;
   0xe0318; 0x1e031c; 0x1e03bc; 0x1f01f0; 0x3b01e0; 0x3381c0; 0x7183e0; 0xe1c7f0;
   0xe0e670; 0x3c0723c; 0x380381e; 0x100100c; 0x0; 0x0; 0x0; 0x0;
   0x202000; 0x0; 0x0; 0x0; 0xe0060; 0x60060; 0xf0070; 0xf0060;
   0x1f8070; 0x3982b8; 0x71c7fc; 0xe2e7fc; 0x1c77730; 0x38e3e38; 0x11c1f18; 0xc0318;
   0x318; 0xfff318; 0xfff39c; 0xe003b8; 0x7001f0; 0x3001e0; 0x3003c0; 0x3803e0;
   0x1c0770; 0x1c0638; 0xc003c; 0xe001c; 0x40004; 0x0; 0x0; 0x0;
   0x0; 0x202000; 0x0; 0x0; 0x0; 0x60; 0x60; 0x1fff060;
   0x1fff060; 0x1555070; 0x2e8; 0x7fc; 0x7fc; 0x730; 0x630; 0x3ffff30;
   0x3fffb38; 0x1575318; 0x70318; 0x3031c; 0x3383b8; 0x71c1f0; 0xe0c1e0; 0xe0e3c0;
   0xc0e7e0; 0x1fd7770; 0x3fffa78; 0x397f03c; 0x300001e; 0x100000c; 0x0; 0x0;
   0x0; 0x0; 0x202000; 0x0; 0x0; 0x0; 0xe00e0; 0xe00e0;
   0xe0060; 0xe0060; 0x4e0060; 0xeec2e8; 0x1cec7fc; 0x18ee7fc; 0x18e6630; 0x38e6630].
Definition hanzi_data_94 : list N :=
  [0x30e7738; 0x30e3318; 0x10e3718; 0x8e2318; 0x1ce031c; 0xce03b8; 0xee01f0; 0x6001e0;
   0x7803c0; 0x3c07e0; 0x1f0670; 0xf8070; 0x3f03c; 0xf81c; 0x180c; 0x0;
   0x0; 0x0; 0x0; 0x202000; 0x0; 0x0; 0x0; 0x60;
   0x1fff860; 0x1fff870; 0x1830060; 0x1c30070; 0xc302b8; 0x1c307fc; 0xc307fc; 0x1c38730;
   0xc38338; 0xc38738; 0xfff318; 0xfff318; 0xc18318; 0xc1839c; 0xe183bc; 0xe1c1f8;
   0xe1c1e0; 0xe1c1c0; 0xe0c3e0; 0x60c770; 0x60c678; 0x7fffe3c; 0x3fffc1e; 0xc;
   0x0; 0x0; 0x0; 0x0; 0x202000; 0x0; 0x0; 0x0;
   0x1c3060; 0x183060; 0x1c3060; 0x183060; 0x1c3070; 0x1832b8; 0x11c37fc; 0x39833fc;
   0x1dd7730; 0xfbf330; 0x7ff338; 0x383318; 0x1c3318; 0x183398; 0x1c319c; 0x1831bc;
   0x1c31f0; 0x1830e0; 0x11c31c0; 0x31a33e0; 0x71ff770; 0x31bfa38; 0x3fcfa3c; 0x3f8381e;
   0xc; 0x0; 0x0; 0x0; 0x0; 0x202000; 0x0; 0x0;
   0x0; 0xe0; 0x1ffe0e0; 0x1fff060; 0xe00060; 0x708060; 0x3b82e8; 0x1f87fc;
   0xe07fc; 0x3c0630; 0x380630; 0x7ffff30; 0x3fffb38; 0x30e0718; 0x38e0318; 0x1ce031c;
   0xce03b8; 0xce01f0; 0xe01e0; 0xe03c0; 0xe07e0; 0xe0f70; 0xe0470; 0xf403c;
   0xfc01c; 0x7c00c; 0x0; 0x0; 0x0; 0x0; 0x202000; 0x0;
   0x0; 0x0; 0x400000; 0xff8000; 0x7ffff8; 0x2fff8; 0xe03010; 0x603030;
   0x707070; 0x3860e0; 0x18e0c0; 0x1ce1c0; 0xc38c0; 0x1800; 0x1555d54; 0x3fffffc;
   0x3fffffc; 0xc0700; 0xe0380; 0x60380; 0x79fc0; 0x3ff00; 0x7f800; 0x1ffc00;
   0x7e1ff0; 0xf003fc; 0x400078; 0x0; 0x0; 0x0; 0x0; 0x202000;
   0x0; 0x0; 0x0; 0x60; 0x60; 0x1ffe060; 0x1ffe060; 0x70;
   0x2e8; 0x7fc; 0x7fc; 0x630; 0x3fffe30; 0x7ffff38; 0x2bbab38; 0x318718;
   0x318318; 0x31831c; 0x3183b8; 0x3181f0; 0x3181e0; 0x31c3c0; 0x230c7e0; 0x730e770;
   0x330e470; 0x370783c; 0x3f0381c; 0x1f0180c; 0x0; 0x0; 0x0; 0x0;
   0x202000; 0x0; 0x0; 0x0; 0x60060; 0xe0060; 0xc0060; 0xc0060;
   0xc0070; 0x3fff2f8; 0x7fff7fc; 0x387fc; 0x38630; 0x38638; 0x38738; 0x1ff8318;
   0x1ff8318; 0x1838318; 0x1c3831c; 0x1c183b8; 0x1c1c1f0; 0x1c1c1c0; 0x1c1c7c0; 0xc0e7e0;
   0x1c0f670; 0xc07038; 0xf6783c; 0xfe3c1e; 0x7e1804; 0x0; 0x0; 0x0;
   0x0; 0x202000; 0x0; 0x0; 0x0; 0x60; 0x60; 0x1fff060;
   0x1ffe060; 0x70070; 0x702b8; 0x707fc; 0x707fc; 0x70630; 0x2abae38; 0x7ffff18;
   0x3fffe18; 0x1f0718; 0x1b8318; 0x1f831c; 0x1983f8; 0x1dc1f0; 0x18c1e0; 0x1ce3c0;
   0x18e7e0; 0x71c7770; 0x2183a78; 0x7fc1c3c; 0x3f80e1c; 0x1500604; 0x0; 0x0;
   0x0; 0x0; 0x202000; 0x0; 0x0; 0x0; 0x70; 0x60;
   0x3fff070; 0x3fff030; 0x3030; 0xc032b8; 0xc1f7fe; 0xe3b3fe; 0x673338; 0x663338;
   0x7e3318; 0x3c3318; 0x3c331c; 0x3c338c; 0x7c319c; 0x6e319c; 0xe731f8; 0xc3b0f0;
   0x1c3f1e0; 0x81f3e0; 0xb7f0; 0x3638; 0x7fff23c; 0x3fff00e; 0x4; 0x0;
   0x0; 0x0; 0x0; 0x202000; 0x0; 0x0; 0x0; 0x70060;
   0x62060; 0x77860; 0x67060; 0x7e070; 0x6c2b8; 0x707fc; 0x3fff7fc; 0x1fff630;
   0x3830638; 0x1870718; 0x1830618; 0x1830718; 0x18f8318; 0x19f831c; 0x1b983f8; 0x1b1c1f0;
   0x1b1c1e0; 0x1c0c3c0; 0x1c0e7e0; 0x1c07770; 0xc03278; 0xf63c3c; 0xfe1e1c; 0x7e0c04;
   0x0; 0x0; 0x0; 0x0; 0x202000; 0x0; 0x0; 0x0;
   0x11c060; 0x398060; 0x71c070; 0xe18030; 0x1c1c070; 0x80c2b8; 0x3fff7fc; 0x3fff7fc;
   0x1c730; 0xc638; 0x155c718; 0x3ffc318; 0x1ffc318; 0x181c318; 0x1c3c31c; 0xc3e3b8;
   0xe761f0; 0x6e61e0; 0x7c71c0; 0x3c33e0; 0x7c3770; 0xff3a70; 0x1e7dc3c; 0x381fc1c;
   0x300c80c; 0x0; 0x0; 0x0; 0x0; 0x202000; 0x0; 0x0;
   0x0; 0x60; 0x3fff060; 0x3fff070; 0x3aab030; 0x3803070; 0x38032b8; 0x38037fc;
   0x3fff3fc; 0x3fff330; 0x3338; 0x33318; 0x33318; 0x183339c; 0x3e33388; 0xf3319c;
   0x3f399c; 0x1f39f8; 0x338e0; 0x319c0; 0x2031be0; 0x7031ff0; 0x3030d38; 0x3ff0e1c;
   0x3ff060e; 0x1fc0404; 0x0; 0x0; 0x0; 0x0; 0x202000; 0x0;
   0x0; 0x0; 0xe0060; 0xe0060; 0xe0070; 0xe0060; 0xe0070; 0xe02b8;
   0x3fff7fc; 0x3fff3fc; 0x38e3730; 0x38e3330; 0x38e3338; 0x38e3318; 0x38e3318; 0x3fff398;
   0x3fff39c; 0x38e31bc; 0x38e31f8; 0x38e31e0; 0x38e31c0; 0x38e33e0; 0x3df7770; 0x3fff630;
   0x3fff43c; 0x380301c; 0x100300c; 0x0; 0x0; 0x0; 0x0; 0x202000;
   0x0; 0x0; 0x0; 0x60; 0x60; 0x1fff060; 0x1fff060; 0x1c07070;
   0x18032e8; 0x1c077fc; 0x18037fc; 0x1c07630; 0x1fff630; 0x1fff738; 0x1803618; 0x1c07718;
   0x1803318; 0x1c0731c; 0x18033f8; 0x1fff1f0; 0x1fff1c0; 0x1fff3c0; 0x7e0; 0x670;
   0x70; 0x7fffc3c; 0x3fffc1c; 0xc; 0x0; 0x0; 0x0; 0x0;
   0x202000; 0x0; 0x0; 0x0; 0xe0060; 0xe0060; 0xe0060; 0xe0060;
   0x15f5070; 0x3fff2b8; 0x3fff7fc; 0xe07fc; 0xe0730; 0xe0638; 0xe0718; 0x3fffb18;
   0x7fffb18; 0x1e0318; 0x1f039c; 0x3f83b8; 0x7f81f0; 0x6fc1e0; 0xeee3c0; 0x1ce67e0;
   0x3ce7770; 0x38e3e38; 0x30e183c; 0xe001e; 0xe0004; 0x0; 0x0; 0x0;
   0x0; 0x202000; 0x0; 0x0; 0x0; 0x7000; 0x6000; 0x1fffffc;
   0x1fffff8; 0x7000; 0x2aeaa0; 0x7ffff0; 0x606000; 0x607000; 0x3fffffc; 0x3fffffc;
   0x606000; 0x7ffff0; 0x7fffe0; 0x3800; 0x2aabea8; 0x3fffffc; 0x2baaea8; 0x1c0700;
   0xe0780; 0x7ffc0; 0x7f800; 0x7fff40; 0x1f81ffc; 0xc001fc; 0x0; 0x0].
Definition hanzi_data_95 : list N :=
  [0x0; 0x0; 0x202000; 0x0; 0x0; 0x0; 0x7000; 0x6000;
   0x6000; 0x1fffff8; 0x1fffff8; 0x1c0380; 0xc0700; 0xe0700; 0x1575754; 0x3fffffc;
   0x3fffffc; 0x1800; 0x1c00; 0x2aaaea8; 0x3fffffc; 0x3fffffc; 0x1c0700; 0xe0380;
   0x707c0; 0x3bfc0; 0x7fc00; 0x1ff800; 0xff7fd0; 0x1f00ffc; 0x1c0007c; 0x0;
   0x0; 0x0; 0x0; 0x202000; 0x0; 0x0; 0x0; 0x60;
   0x1ffe060; 0x1ffe070; 0x1806060; 0x1826070; 0x18662b8; 0x18e67fc; 0x19c63fc; 0x1986730;
   0x1806338; 0x7fffb18; 0x3fffb18; 0x1c07318; 0x1833398; 0x1c7719c; 0x1ce31bc; 0x1dc31f8;
   0xc830e0; 0x1c031c0; 0x3fff3e0; 0x3fff7f0; 0xc00738; 0xe0023c; 0xfc001e; 0x7c0004;
   0x0; 0x0; 0x0; 0x0; 0x202000; 0x0; 0x0; 0x0;
   0x60070; 0x60060; 0xf0070; 0xf0030; 0x1f8030; 0x39c0b8; 0x70e3fe; 0xe263fe;
   0x1c77b30; 0x3863f38; 0x30c1b18; 0xc0398; 0x555398; 0x1fff188; 0x1fff19c; 0xe0019c;
   0x7001f8; 0x3000f0; 0x39c1e0; 0x1dc3e0; 0xf87f0; 0xe0738; 0x1e021c; 0x18000e;
   0x180004; 0x0; 0x0; 0x0; 0x0; 0x202000; 0x0; 0x0;
   0x0; 0xc0060; 0xc0060; 0xc0060; 0x1ec0060; 0x3ff4070; 0x3fe2e8; 0xdf7fc;
   0xc67fc; 0xc7630; 0xc3630; 0xc7738; 0xc3618; 0x3fff718; 0x3fff318; 0x30f031c;
   0x30f03f8; 0x30f81f0; 0x30d83c0; 0x30dc7c0; 0x38cefe0; 0x3ec7e70; 0x1ec7470; 0xc3c3c;
   0xc181c; 0xc000c; 0x0; 0x0; 0x0; 0x0; 0x202000; 0x0;
   0x0; 0x0; 0x60060; 0x60060; 0x70060; 0x30060; 0x738070; 0x6182f8;
   0xe1c7fc; 0xc0e7fc; 0x1c07630; 0x3fff638; 0x3ffff38; 0x700b318; 0x1000718; 0x318;
   0x1ffe31c; 0x1ffe3b8; 0x1c061f0; 0x18061e0; 0x1c063c0; 0x18067e0; 0x1c06f70; 0x1806470;
   0x1ffe03c; 0x1ffe01c; 0x1c0600c; 0x0; 0x0; 0x0; 0x0; 0x202000;
   0x0; 0x0; 0x0; 0x60; 0xaaa060; 0xfff060; 0xffe060; 0xc07070;
   0xc062e8; 0xc077fc; 0xc067fc; 0xfff730; 0xffe630; 0xc07730; 0xc06338; 0xc07318;
   0xc06318; 0xc0731c; 0xffe3bc; 0xfff1f0; 0xc061e0; 0xc071c0; 0xc063e0; 0xc077e0;
   0xc06270; 0x7fffc3c; 0x3fffc1c; 0x8; 0x0; 0x0; 0x0; 0x0;
   0x202000; 0x0; 0x0; 0x0; 0xc0060; 0xc0060; 0xc0070; 0xc0070;
   0xc0070; 0xc02b8; 0x3fff7fc; 0x3fff7fc; 0xc0638; 0xc0638; 0xc0718; 0xc0318;
   0xc071c; 0xaea31c; 0x1ffe31c; 0x1aae3b8; 0x18061f0; 0x18061e0; 0x18061c0; 0x18063e0;
   0x1806770; 0x1ffee78; 0x1ffe63c; 0x1aae01c; 0x180600c; 0x0; 0x0; 0x0;
   0x0; 0x202000; 0x0; 0x0; 0x0; 0x70; 0xc03030; 0xc17030;
   0xc3b030; 0xc77030; 0xc732b8; 0xc677fe; 0xce33fe; 0xcc7318; 0xec3318; 0xe47318;
   0xe03398; 0x60739c; 0x60338c; 0x70718c; 0x7631bc; 0xf771f8; 0xfbb0e0; 0x1f9f1e0;
   0x1987be0; 0x39c3f70; 0x30e1238; 0x707023c; 0x203800e; 0x10004; 0x0; 0x0;
   0x0; 0x0; 0x202000; 0x0; 0x0; 0x0; 0x1c0060; 0xc0060;
   0x1ce060; 0xce060; 0x1c6070; 0xc62e8; 0x3fff7fc; 0x3fff7fc; 0x1c3630; 0xc3e30;
   0x1c1f38; 0xc1b18; 0x1c1318; 0xc0318; 0x3ffe31c; 0x3ffe3b8; 0x1c01f0; 0xc01c0;
   0x1c07c0; 0xc07e0; 0x1c0670; 0xc0078; 0x7fff83c; 0x3fff81c; 0xc; 0x0;
   0x0; 0x0; 0x0; 0x202000; 0x0; 0x0; 0x0; 0x3c0000;
   0x7ffa00; 0x1ffff0; 0x62b0; 0x6000; 0x2aaeaa8; 0x3fffffc; 0x3fffffc; 0x76e00;
   0x1e6780; 0x7c63e0; 0x3f060f8; 0x3c0787c; 0x1808; 0x1555d54; 0x3fffffc; 0x3fffffc;
   0xe0380; 0xf03c0; 0x79fc0; 0x3ff00; 0xff800; 0x1ff7fc0; 0x3f00ffc; 0x1c001f8;
   0x0; 0x0; 0x0; 0x0; 0x202000; 0x0; 0x0; 0x0;
   0x60; 0x1f9f860; 0x1f9f870; 0x1999830; 0x1999830; 0x19998b8; 0x1999bfc; 0x1999bfc;
   0x1999b30; 0x1999bb8; 0x7fffd98; 0x3fffd98; 0x7fffd98; 0x1999998; 0x19999dc; 0x19998fc;
   0x19d98f8; 0x19998e0; 0x19d99e0; 0x18d99e0; 0x18d9ff0; 0x18d8d38; 0x1ddcc1c; 0x1efee0c;
   0x64e404; 0x0; 0x0; 0x0; 0x0; 0x202000; 0x0; 0x0;
   0x0; 0x404060; 0xc0e060; 0xe1c070; 0x61c060; 0x718070; 0x3082b8; 0x3fff7fc;
   0x3fff7fc; 0x718730; 0x318338; 0x718718; 0x318318; 0x718318; 0x3fffb18; 0x3fffb9c;
   0x3181bc; 0x71c1f8; 0x31c1e0; 0x71c1c0; 0x30c3e0; 0x70e770; 0x307638; 0x707a3c;
   0x303c1e; 0x70180c; 0x0; 0x0; 0x0; 0x0; 0x202000; 0x0;
   0x0; 0x0; 0x198060; 0x198060; 0x198070; 0x198020; 0x3199c70; 0x3999ab8;
   0x199bffc; 0xd9b3fc; 0xd9f330; 0x79e338; 0x198318; 0x198318; 0x79c398; 0xf9e198;
   0x1d9f19c; 0x399bdb8; 0x719ddf0; 0x18c0e0; 0x18c3e0; 0x218e3e0; 0x7187770; 0x2187238;
   0x7583c1c; 0x3f81e0e; 0x1f00c04; 0x0; 0x0; 0x0; 0x0; 0x202000;
   0x0; 0x0; 0x0; 0x1c0100; 0xc0380; 0xe0700; 0xaeaea8; 0x1fffff8;
   0xaaeaa8; 0x6000; 0xfffff0; 0xfffff0; 0x6000; 0x1557554; 0x3fffffc; 0x3fffffc;
   0x1c00; 0x1555d54; 0x3fffffc; 0x3fffffc; 0xe0380; 0xf01c0; 0x78fc0; 0x3ff00;
   0xff800; 0xff7fd0; 0x3f80ffc; 0x1c0017c; 0x0; 0x0; 0x0; 0x0;
   0x202000; 0x0; 0x0; 0x0; 0xe0060; 0xee060; 0xee060; 0xee060;
   0xe6070; 0x1ffe2e8; 0x1fff7fc; 0xe37fc; 0xe3e30; 0xe3e30; 0xe1738; 0x2aeae18;
   0x3ffff18; 0x3fffb18; 0x1f031c; 0x3f83f8; 0x7fc1f0; 0x6ec3c0; 0xeee7c0; 0xce77e0;
   0x3ce7e70; 0x38e3c70; 0x30e1c3c; 0xe081c; 0xe000c; 0x0; 0x0; 0x0;
   0x0; 0x202000; 0x0; 0x0; 0x0; 0xc0060; 0xc0060; 0xc0070;
   0xc0030; 0x7fff870; 0x3fffab8; 0xc07fc; 0xc07fc; 0xc0730; 0xc0638; 0x3fff718].
Definition hanzi_data_96 : list N :=
  [0x3fff318; 0x718; 0x318; 0x155431c; 0x1ffe3b8; 0x1ffe1f0; 0x18061e0; 0x1c061c0;
   0x18063e0; 0x1c06770; 0x1806670; 0x1ffe03c; 0x1ffe01e; 0x1c0600c; 0x0; 0x0;
   0x0; 0x0; 0x202000; 0x0; 0x0; 0x0; 0x70070; 0x60060;
   0xe0070; 0xc0030; 0x7fff870; 0x3fff830; 0x47fc; 0x70c3fc; 0xe0e730; 0x1c06338;
   0x3807318; 0x3a0bb18; 0x370df18; 0x30c398; 0x31c19c; 0x3981b8; 0x1f81f0; 0x1f01e0;
   0xf03e0; 0xf07e0; 0x3f8770; 0x79e238; 0x1f0f03c; 0x3c07c0e; 0x3001804; 0x0;
   0x0; 0x0; 0x0; 0x202000; 0x0; 0x0; 0x0; 0xc00060;
   0x1fe8060; 0x1fff070; 0x3f060; 0x3070; 0x32b8; 0x37fc; 0x3fff3fc; 0x7fff730;
   0x2aab338; 0x3338; 0x3318; 0x1553318; 0x1ffb398; 0x1fff19c; 0x181b1bc; 0x181f1f8;
   0x181b8e0; 0x181d9c0; 0x1819be0; 0x181df70; 0x1ff9e38; 0x1ffcc3c; 0x1818e1c; 0x181c404;
   0x0; 0x0; 0x0; 0x0; 0x202000; 0x0; 0x0; 0x0;
   0x30060; 0x30060; 0x3830070; 0x1830060; 0x1fff070; 0xfff2b8; 0x7307fc; 0x3303fc;
   0x3b0730; 0x3fffb38; 0x7fffb18; 0x2afab18; 0x38318; 0x1c398; 0x1c1f19c; 0xf1f9bc;
   0x7ddff8; 0xfcce0; 0x3c1c0; 0x101c3e0; 0x301c770; 0x301c638; 0x3ffc23c; 0x3ff801e;
   0x1ff0004; 0x0; 0x0; 0x0; 0x0; 0x202000; 0x0; 0x0;
   0x0; 0x60060; 0x60060; 0x3fffc60; 0x3fff860; 0x3fffc70; 0x602b8; 0x1fffffc;
   0x1fffbfc; 0x1860330; 0x1860338; 0x1fff318; 0x1fffb18; 0x63b98; 0x63b98; 0x3fff99c;
   0x3fff9bc; 0x30701f8; 0x38f00e0; 0x1ff81e0; 0x1f981e0; 0x39c3f0; 0x70e338; 0x1e07c1c;
   0x3c03e0e; 0x3000c04; 0x0; 0x0; 0x0; 0x0; 0x202000; 0x0;
   0x0; 0x0; 0x60; 0x2aaa060; 0x3fff070; 0x3fff060; 0x187070; 0x1832b8;
   0x1877fc; 0x1837fc; 0x1ff7630; 0xff3638; 0x1c37738; 0x833718; 0x1c37718; 0x833318;
   0x1d7731c; 0xff33bc; 0x1ff71f8; 0x1831e0; 0x1871c0; 0x1833e0; 0x1877f0; 0x2bab670;
   0x3fff03c; 0x2aaa01e; 0xc; 0x0; 0x0; 0x0; 0x0; 0x202000;
   0x0; 0x0; 0x0; 0x60; 0x2aaa860; 0x3fff870; 0x3fff860; 0x70;
   0x2b8; 0x1fff7fc; 0xfff7fc; 0x1c07630; 0xc07638; 0x1c07718; 0xc07318; 0x1fff718;
   0xfff318; 0x1c0731c; 0xc073b8; 0x1c071f0; 0xfff1e0; 0x1fff1c0; 0x3e0; 0x770;
   0x670; 0x7fff83c; 0x3fff81e; 0xc; 0x0; 0x0; 0x0; 0x0;
   0x202000; 0x0; 0x0; 0x0; 0xc0060; 0xe0060; 0x60070; 0x3fff860;
   0x3fff870; 0x3382b8; 0x71c7fc; 0xe1c7fc; 0x1c0f730; 0x3fffb38; 0x7ffff18; 0x2000b18;
   0x318; 0x3fffb98; 0x3fffb9c; 0xe1b8; 0xe1f0; 0xffe1e0; 0x1fff3c0; 0xc007e0;
   0xc00770; 0xc00638; 0xe0043c; 0x7f801c; 0x7f8004; 0x0; 0x0; 0x0;
   0x0; 0x202000; 0x0; 0x0; 0x0; 0xc0060; 0xe0060; 0x1f0070;
   0x1b0030; 0x3b8070; 0x3182b8; 0xf1c7fc; 0xe0e7fc; 0x3c07730; 0x7fffe38; 0x37fdf18;
   0x318; 0x318; 0x318; 0x1fff39c; 0x1ffe3b8; 0x1c071f0; 0x18061e0; 0x1c071c0;
   0x18063e0; 0x1c07770; 0x1aae278; 0x1fff03c; 0x1ffe01c; 0x1c0700c; 0x0; 0x0;
   0x0; 0x0; 0x202000; 0x0; 0x0; 0x0; 0x60060; 0xe0060;
   0xe0060; 0xc0060; 0x3fff070; 0x3fff2e8; 0x30037fc; 0x36037fc; 0x3fc3630; 0x3f8638;
   0x7f738; 0x62618; 0x70718; 0x2060318; 0x3ff031c; 0x3ffe3b8; 0x1ff9f0; 0x639e0;
   0x703c0; 0x607e0; 0x7070f70; 0x3060e70; 0x357043c; 0x3fe001c; 0x1fc000c; 0x0;
   0x0; 0x0; 0x0; 0x202000; 0x0; 0x0; 0x0; 0x60;
   0x3fff060; 0x3fff070; 0x3aab030; 0x3863030; 0x38632b8; 0x38637fc; 0x38637fc; 0x3d77730;
   0x3fff338; 0x3fff718; 0x3863318; 0x38e3318; 0x38e3318; 0x39f339c; 0x3bb33b8; 0x3b331f0;
   0x3a3b1e0; 0x3e1f1c0; 0x3e0f3e0; 0x3807770; 0x3fff270; 0x3fff03c; 0x3aab01c; 0x380300c;
   0x0; 0x0; 0x0; 0x0; 0x202000; 0x0; 0x0; 0x0;
   0x18070; 0x18060; 0x3fc070; 0x7fc030; 0x7fe070; 0x3862b8; 0x1877fe; 0x3fffbfe;
   0x3ffff30; 0x3f38; 0x7f18; 0x1ff3318; 0x1ff731c; 0x1833388; 0x1c3719c; 0x183319c;
   0x1c371f8; 0xf330f0; 0xf331e0; 0x10333e0; 0x3033ff0; 0x3033f38; 0x3ff1e1c; 0x3ff1c0e;
   0x1fc0c04; 0x0; 0x0; 0x0; 0x0; 0x202000; 0x0; 0x0;
   0x0; 0x6000; 0x6038; 0x15570f8; 0x3fff9e0; 0x1fff980; 0x1c31c00; 0x1c70e00;
   0xe78500; 0xfc1c0; 0x1ce0f0; 0x78f07c; 0x3f03e0c; 0x3c01f04; 0x1e00; 0x1555d54;
   0x3fffffc; 0x3fffffc; 0xc0380; 0xe03c0; 0x7bfc0; 0x3ff00; 0x3ff800; 0x1ff7fc0;
   0x3f00ffc; 0x1c001fc; 0x0; 0x0; 0x0; 0x0; 0x202000; 0x0;
   0x0; 0x0; 0x4c0060; 0xec0060; 0x1dc0070; 0x18c0030; 0x19c0070; 0x3fffab8;
   0x7fffffc; 0xc03fc; 0x1cc730; 0x398c338; 0x19cc318; 0x198c318; 0x1ddd318; 0xdbfb98;
   0xdff99c; 0xf8c1bc; 0x78c1f8; 0x38e0e0; 0x3861c0; 0x23863e0; 0x67c7770; 0x66e3e38;
   0x7e79a3c; 0x3c3c01e; 0x180c004; 0x0; 0x0; 0x0; 0x0; 0x202000;
   0x0; 0x0; 0x0; 0x660000; 0xf60000; 0x1c60000; 0x1860000; 0x3fffff8;
   0x3fffff8; 0x60038; 0xe0038; 0x18ffff8; 0x18fffb8; 0x1ce1c38; 0xce0c38; 0xcc5f78;
   0xccfff8; 0xecd778; 0x6ce338; 0x7c63b8; 0x386f98; 0x33c3e18; 0x61c7818; 0x73ffe1c;
   0x33e879c; 0x37781dc; 0x3e3c00e; 0x1c0c004; 0x0; 0x0; 0x0; 0x0;
   0x202000; 0x0; 0x0; 0x0; 0x60060; 0x60060; 0x60070; 0x60030;
   0x1fff030; 0x1fff2b8; 0x607fe; 0x603fe; 0x60330; 0x60318; 0x3fffb18; 0x3fffb98;
   0x6039c; 0x6018c; 0x6019c; 0x1fff9b8; 0x1fff9f0; 0xaea9e0; 0x603e0; 0x607e0;
   0x60770; 0x60238; 0x7fffe1c; 0x3fffe0e; 0x4; 0x0; 0x0; 0x0].
Definition hanzi_data_97 : list N :=
  [0x0; 0x202000; 0x0; 0x0; 0x0; 0x106000; 0x7060e0; 0x3861c0;
   0x386380; 0x1c6380; 0x3fffff8; 0x3fffffc; 0x3f800; 0x7fe00; 0xe6780; 0x7c63c0;
   0x3f860f8; 0x1c0787c; 0x1c08; 0x3fffffc; 0x3fffffc; 0x15d5754; 0xe0380; 0xf01c0;
   0x7bfc0; 0x3ff00; 0x1ff800; 0x1ff7fc0; 0x3f00ffc; 0xc001fc; 0x0; 0x0;
   0x0; 0x0; 0x202000; 0x0; 0x0; 0x0; 0x60; 0x20;
   0x3fff870; 0x3fff830; 0x398030; 0x398030; 0x3983fe; 0x3983fe; 0x3399f10; 0x3399b18;
   0x1b99b18; 0x1b9bb98; 0x1b9b198; 0x1b9b188; 0x1f9b19c; 0xf9b1b8; 0xf9f1f0; 0x3980e0;
   0x3981c0; 0x3983e0; 0x398770; 0x398030; 0x7fffe38; 0x3fffe1c; 0xc; 0x0;
   0x0; 0x0; 0x0; 0x202000; 0x0; 0x0; 0x0; 0x1c060;
   0xc060; 0x101c060; 0x1ff8060; 0x1fffc70; 0x83fab8; 0x1c307fc; 0xf303fc; 0x7f0330;
   0x31e0338; 0x31ff318; 0x3b8fb18; 0x1f03b18; 0xc00398; 0x3fffd9c; 0x3fffdbc; 0x15dd5f8;
   0x19c0e0; 0x19c1c0; 0x18c3e0; 0x718e3f0; 0x218e338; 0x7587c3c; 0x3f83e1c; 0x1f00c0c;
   0x0; 0x0; 0x0; 0x0; 0x202000; 0x0; 0x0; 0x0;
   0x60; 0xf80060; 0x1ffe060; 0xfe060; 0xe0060; 0xe02e8; 0x607fc; 0x3fff7fc;
   0x7fff730; 0x738630; 0x61c730; 0xe1c338; 0x1c0f718; 0x780fb18; 0x361bb18; 0x6183b8;
   0x6181f0; 0x6181e0; 0x61c1c0; 0x61c3e0; 0x61c770; 0x60e678; 0x60703c; 0x60381c;
   0x601004; 0x0; 0x0; 0x0; 0x0; 0x202000; 0x0; 0x0;
   0x0; 0x7000; 0x6000; 0x3fffffc; 0x3fffffc; 0x1fffffc; 0x30c00; 0x1b0dc0;
   0x3b0cc0; 0x730ce0; 0xe30c70; 0x1c30c38; 0x1830c18; 0x1c10; 0x1c00; 0x3fffffc;
   0x3fffffc; 0x1c0700; 0xe0380; 0xe07c0; 0x73f80; 0x7fc00; 0x3ff000; 0x1fe7fc0;
   0x3e00ffc; 0x1c001fc; 0x0; 0x0; 0x0; 0x0; 0x202000; 0x0;
   0x0; 0x0; 0xe00c0; 0xe00e0; 0x1fff060; 0x1fff060; 0x18e7060; 0x18e3060;
   0x1fff7fe; 0x1fff7fe; 0x18e7630; 0x18e3630; 0x1fff730; 0xaaa338; 0x718; 0x3fffb18;
   0x7fffb1c; 0xc3bc; 0xc1f0; 0x1ffc1e0; 0x1ffe3c0; 0xc007e0; 0x1c00770; 0xc00070;
   0xc0003c; 0xfe001c; 0x7c000c; 0x0; 0x0; 0x0; 0x0; 0x202000;
   0x0; 0x0; 0x0; 0x60; 0x1fff060; 0x1fff060; 0x18e3060; 0x18e3070;
   0x18e32b8; 0x1fff7fc; 0x1fff3fc; 0x1fff730; 0x18e3338; 0x18e3338; 0x18e3318; 0x1fff318;
   0x1fff398; 0xe019c; 0xe01bc; 0x1fff1f0; 0x3fff0e0; 0x1fff1c0; 0xe03e0; 0xe0770;
   0xe0638; 0x7fffa3c; 0x3fff81e; 0xc; 0x0; 0x0; 0x0; 0x0;
   0x202000; 0x0; 0x0; 0x0; 0x70030; 0x2300f0; 0x7771e0; 0xe33880;
   0x1c7181c; 0x3a31c78; 0x3f70e70; 0x13b0e80; 0x1d05c0; 0xf00e0; 0x7f470; 0xfe38;
   0x1e1c; 0x3808; 0x1555d54; 0x3fffffc; 0x3fffffc; 0xe0700; 0xf0380; 0x78fc0;
   0x3ff00; 0xff800; 0xff7fc0; 0x1f80ffc; 0xc001f8; 0x0; 0x0; 0x0;
   0x0; 0x202000; 0x0; 0x0; 0x0; 0x70; 0x3fff860; 0x3fff870;
   0x3803830; 0x3803830; 0x3803ab8; 0x3fffffc; 0x3fffbfc; 0x403b38; 0xf83b18; 0x7ffb18;
   0xffb18; 0x10c7b9c; 0x1fc3b8c; 0x1fff99c; 0xff99c; 0x30c19f8; 0x3fc18f0; 0x1fff9e0;
   0xffbe0; 0x70c1ff0; 0x20c0d38; 0x7fc0e1c; 0x3fc0e0e; 0x1f00404; 0x0; 0x0;
   0x0; 0x0; 0x202000; 0x0; 0x0; 0x0; 0x70060; 0x60060;
   0xe0060; 0xfff060; 0x1fff070; 0xc032b8; 0x1c077fc; 0xc033fc; 0x1fff730; 0xfff338;
   0x1c07338; 0xc03318; 0x1fff318; 0xfff398; 0x1fff19c; 0x18631bc; 0x3ce71f8; 0xec30e0;
   0x7c71c0; 0x3833e0; 0x747770; 0xe7b238; 0x7c7f23c; 0x380f81e; 0x100c; 0x0;
   0x0; 0x0; 0x0; 0x202000; 0x0; 0x0; 0x0; 0x70;
   0x3fbfc20; 0x3fbfc30; 0x31bb830; 0x39b3030; 0x19b30b8; 0x19b31fc; 0x19b31fc; 0x1dbfd98;
   0xdbfd98; 0xdb3198; 0xdb3198; 0x19b319c; 0x19b3888; 0x31bffcc; 0x31bfedc; 0x31b18f8;
   0x31b98f0; 0x31b18e0; 0x3fb89e0; 0x1d98df0; 0x198e38; 0x19861c; 0x19f70c; 0x19f204;
   0x0; 0x0; 0x0; 0x0; 0x202000; 0x0; 0x0; 0x0;
   0x60; 0x1ffe060; 0x1ffe060; 0x1806060; 0x1c06070; 0x18062b8; 0x1ffe7fc; 0x1ffe7fc;
   0x630; 0x630; 0x1fff738; 0x1fff318; 0x1807718; 0x1803318; 0x1fff31c; 0x1fff3bc;
   0x18071f0; 0x18031e0; 0x1fff3c0; 0x1fff7e0; 0x1807fe0; 0x1803670; 0x180743c; 0x1f0301c;
   0x1f0700c; 0x0; 0x0; 0x0; 0x0; 0x202000; 0x0; 0x0;
   0x0; 0x60; 0x2aaa060; 0x3fff070; 0x3fff020; 0x3070; 0x32b8; 0x1ffb7fc;
   0x1ffb3fc; 0x3730; 0x3338; 0x3fff318; 0x3fff318; 0x3fff318; 0x11b3398; 0x39b319c;
   0x1f331bc; 0xf331f8; 0x3330e0; 0x6331c0; 0xe33be0; 0x1d31f70; 0x19b9a38; 0x79f9c3c;
   0x3078c1c; 0x18c04; 0x0; 0x0; 0x0; 0x0; 0x202000; 0x0;
   0x0; 0x0; 0xc04070; 0xe0e060; 0x60c070; 0x70c030; 0x1fff830; 0x1fffab8;
   0x1fffbfe; 0x18603fe; 0x1860338; 0x1aea318; 0x1fff318; 0xaeb318; 0x63b9c; 0x6198c;
   0x3fff99c; 0x3fff9bc; 0x30701f8; 0x30780e0; 0x307c1e0; 0x386e3e0; 0x3f67770; 0x1e63a38;
   0x1e61e3c; 0x60c0e; 0x60004; 0x0; 0x0; 0x0; 0x0; 0x202000;
   0x0; 0x0; 0x0; 0x1c0060; 0xfb8060; 0x1dff070; 0x198fc20; 0x39cfc70;
   0x318e2b8; 0x1ce7fe; 0x18e3fe; 0x7ffff30; 0x3ffff38; 0x18e318; 0x398e398; 0x198e39c;
   0x198e18c; 0x1dfe19c; 0xfbfdb8; 0xf8fdf0; 0x70ede0; 0x70e3e0; 0x238e7e0; 0x67ce770;
   0x26ee238; 0x7e7e01c; 0x3e3fc0e; 0x1c07c04; 0x0; 0x0; 0x0; 0x0;
   0x202000; 0x0; 0x0; 0x0; 0x30060; 0x38060; 0x7fc070; 0xffc060;
   0x70e070; 0x30e2b8; 0x3877fc; 0x1fffffc; 0x1ffff30; 0x18c3338; 0x18c7718; 0x18c3318].
Definition hanzi_data_98 : list N :=
  [0x18c7318; 0x1aeb318; 0x1fff39c; 0xaea3bc; 0xf01f8; 0xf01e0; 0xf01c0; 0xf83e0;
   0x70dc770; 0x30ce678; 0x3fc7a3c; 0x3fc3c1e; 0x1f01c04; 0x0; 0x0; 0x0;
   0x0; 0x202000; 0x0; 0x0; 0x0; 0x60; 0x1fff060; 0x1fff060;
   0x1803060; 0x1c07070; 0x18032b8; 0x1c077fc; 0x1fff7fc; 0x1fff630; 0x638; 0x718;
   0x3fffe18; 0x3ffff18; 0x60318; 0x6031c; 0x603f8; 0x7fffdf0; 0x3fff9e0; 0xf03c0;
   0x1f87e0; 0x3bcf70; 0x71e678; 0x1f0f83c; 0x3c03c1c; 0x3001c04; 0x0; 0x0;
   0x0; 0x0; 0x202000; 0x0; 0x0; 0x0; 0x60; 0x1ffe060;
   0x1fff070; 0x1c06030; 0x1c07030; 0x1c060b8; 0x1fff7fe; 0x1ffe3fc; 0x15f5330; 0xe0318;
   0xe0318; 0x3fffb98; 0x3fffb9c; 0x306198c; 0x306199c; 0x30e19b8; 0x31f19f0; 0x33399e0;
   0x371dbe0; 0x360ffe0; 0x340df70; 0x3001a38; 0x300181c; 0x3f0180e; 0x1f01804; 0x0;
   0x0; 0x0; 0x0; 0x202000; 0x0; 0x0; 0x0; 0x1070;
   0x1ff3860; 0x1ff3070; 0x1807030; 0x1846030; 0x18600b8; 0x1861ffe; 0x1861bfe; 0x1d75f38;
   0x1fffb18; 0x1ffff18; 0x1861b98; 0x18f1d9c; 0x19f198c; 0x19f9d8c; 0x1b7999c; 0x1f6ddf8;
   0x1e6f8f0; 0x1867de0; 0x18619e0; 0x1861ff0; 0x1861938; 0x1f61c1c; 0x1e0180e; 0x1e01c04;
   0x0; 0x0; 0x0; 0x0; 0x202000; 0x0; 0x0; 0x0;
   0x70; 0x2aa20; 0x7fe70; 0x3fbaa30; 0x3ff1c30; 0x31b0830; 0x31b1ffe; 0x31bfbfe;
   0x31bff18; 0x3bb0b98; 0x1b31d98; 0x1b30998; 0x1b35d9c; 0x1b3f988; 0x1f3fdcc; 0xe308d8;
   0xf31cf8; 0xe308f0; 0x67fce0; 0xe3fee0; 0x1f37df0; 0x1bb03b8; 0x39f031c; 0x30f000e;
   0x30f0004; 0x0; 0x0; 0x0; 0x0; 0x202000; 0x0; 0x0;
   0x0; 0x0; 0x3ffc; 0x1fffffc; 0x1ffd830; 0x1c19ff0; 0xc39ff0; 0xe71c30;
   0x661ab0; 0x7e1ff0; 0x3c1830; 0x7f7c30; 0x3e7fffc; 0x3c1ddfc; 0x1800; 0x1c00;
   0x3fffffc; 0x3fffffc; 0x1c0700; 0xe0380; 0xf0fc0; 0x7ffc0; 0xff800; 0xffff40;
   0x3f81ffc; 0x1c001fc; 0x0; 0x0; 0x0; 0x0; 0x202000; 0x0;
   0x0; 0x0; 0x60; 0x1ffe060; 0x1ffe070; 0x1806060; 0x1c06070; 0x1ffe2b8;
   0x1ffe7fc; 0x18067fc; 0x1c06730; 0x1ffe338; 0x1ffe738; 0x318; 0x318; 0x3fff318;
   0x3fff39c; 0x38033bc; 0x38031f8; 0x3fff1e0; 0x3fff1c0; 0x38033e0; 0x3803770; 0x3803670;
   0x3fff03c; 0x3fff01e; 0x380300c; 0x0; 0x0; 0x0; 0x0; 0x202000;
   0x0; 0x0; 0x0; 0x70; 0x3fefc30; 0x7fffc70; 0x3aaec30; 0x180cc30;
   0x180ecb8; 0x1bf6dfc; 0x1be6dfc; 0x1b76d98; 0x1b22d98; 0x1b76d98; 0x1b2ed98; 0x1b7cddc;
   0x1b2cc88; 0x1b7cdcc; 0x1b28cdc; 0x1bfccf8; 0x1befcf0; 0x187fce0; 0x1820de0; 0x1800ff0;
   0x1800db8; 0x1f80d1c; 0x1f00c0c; 0x500c04; 0x0; 0x0; 0x0; 0x0;
   0x202000; 0x0; 0x0; 0x0; 0x70010; 0x30078; 0x3fffdf0; 0x1fffc80;
   0x1c70c1c; 0xc30c3c; 0x1fffc70; 0xfffc20; 0x70eec0; 0x39cee0; 0x1f8770; 0x3f8738;
   0x3fdfb9c; 0x3e03188; 0x1800; 0x2aabea8; 0x3fffffc; 0x2baaea8; 0x1c0780; 0xe0380;
   0x7ffc0; 0xff800; 0x7fffc0; 0x3f80ffc; 0x1c0017c; 0x0; 0x0; 0x0;
   0x0; 0x202000; 0x0; 0x0; 0x0; 0x70070; 0x60030; 0x15f5070;
   0x3fff830; 0x3fffc30; 0x30018b8; 0x3005ffe; 0x2006bfe; 0x1fd7338; 0x1fbf318; 0x19ff318;
   0x19b3b98; 0x19f199c; 0x19b1988; 0x19dfd8c; 0x199fd9c; 0x1ddc1f8; 0x1f980f0; 0x7cc1e0;
   0x18e1e0; 0x71c63f0; 0x2187338; 0x71c391c; 0x3f81c0e; 0x1f00c04; 0x0; 0x0;
   0x0; 0x0; 0x202000; 0x0; 0x0; 0x0; 0x60060; 0x60060;
   0x60070; 0x1fff830; 0x1fff870; 0x602b8; 0x607fc; 0x1fff3fc; 0x1fff330; 0x60338;
   0x60318; 0x3fffb18; 0x3ffff98; 0xf8398; 0x10dc19c; 0x3cce1bc; 0x1fcf9f8; 0x78fee0;
   0x38dde0; 0x70c1e0; 0x74c3f0; 0xeec338; 0x7c7c33c; 0x381e00e; 0x1006004; 0x0;
   0x0; 0x0; 0x0; 0x202000; 0x0; 0x0; 0x0; 0x7070;
   0x3030; 0x1fc7030; 0x3fc3030; 0x3fff030; 0x30bf0b8; 0x31c71fe; 0x38831fe; 0x1987198;
   0x19abb98; 0x19fff98; 0x19aeb98; 0x1d861dc; 0xf16c8c; 0xf36ccc; 0xf36cdc; 0x776cf8;
   0x6666f0; 0x7666e0; 0xf866e0; 0x1d867f0; 0x1dc60b8; 0x38e601c; 0x707780e; 0x3063804;
   0x0; 0x0; 0x0; 0x0; 0x202000; 0x0; 0x0; 0x0;
   0xc0070; 0xc0020; 0x15d5070; 0x3fff830; 0x3fff830; 0x60030; 0x1f07fe; 0x7b83fe;
   0x1f1f330; 0x3c0fb18; 0x1001b18; 0x3fffb18; 0x7ffff18; 0xc00388; 0x1cff19c; 0xcff1b8;
   0x1cc31f0; 0xcc30e0; 0x1cc31c0; 0xcff3e0; 0x1cff770; 0xc03238; 0x1c0303c; 0xfc001e;
   0x7c0004; 0x0; 0x0; 0x0; 0x0; 0x202000; 0x0; 0x0;
   0x0; 0x70070; 0x30060; 0x3fffc70; 0x3fffc30; 0x1575430; 0x300b8; 0x1fffbfe;
   0xfffbfe; 0x1c70338; 0x2ebab18; 0x7ffff18; 0x2ebab98; 0x1c7019c; 0xfff98c; 0x1fff99c;
   0x3019c; 0x731f8; 0x1ff30f0; 0x1ff31e0; 0x379e0; 0x7fbf0; 0x3dd38; 0x7ff8c1c;
   0x3fe0e0e; 0x404; 0x0; 0x0; 0x0; 0x0; 0x202000; 0x0;
   0x0; 0x0; 0xc0070; 0x18e3020; 0x1ce7070; 0xeee030; 0x664030; 0x3fff030;
   0x3fff7fe; 0x303fe; 0x30338; 0x2abab18; 0x7fffb18; 0x2bbab18; 0x71c318; 0xe0e388;
   0x1fff19c; 0x3fff9b8; 0x7607df0; 0x26068e0; 0x7461c0; 0x33c63e0; 0x3146770; 0x300e238;
   0x3ffe03c; 0x1ffc01e; 0xc; 0x0; 0x0; 0x0; 0x0; 0x202000;
   0x0; 0x0; 0x0; 0xf00060; 0x1ffe060; 0x1ff060; 0xc3060; 0x1c7070;
   0x2bab2e8; 0x3fff7fc; 0x2bab7fc; 0x387730; 0x2303630; 0x677f738; 0x3e7fb18; 0x3c1f318;
   0x1800318; 0x1fff39c; 0xffe3f8; 0x1c071f0; 0xc061e0; 0x1fff3c0; 0xffe7e0; 0x1c07670;
   0xc06478; 0x1fff03c; 0xffe01e; 0x1c0700c; 0x0; 0x0; 0x0; 0x0].
Definition hanzi_data_99 : list N :=
  [0x202000; 0x0; 0x0; 0x0; 0x60060; 0x60060; 0x60060; 0x1fff060;
   0x1fff060; 0x602e8; 0x607fe; 0x607fe; 0x7ffff30; 0x3fffa30; 0x70e730; 0x30c318;
   0x318318; 0x1fff318; 0x1fff39c; 0x601b8; 0x601f0; 0x601e0; 0x3fff9c0; 0x3fffbe0;
   0x60770; 0x60230; 0x6003c; 0x6001c; 0x6000c; 0x0; 0x0; 0x0;
   0x0; 0x202000; 0x0; 0x0; 0x0; 0x60060; 0xe0060; 0x1c0070;
   0x3fff860; 0x3fff870; 0x3001830; 0x3001ffc; 0x3aabffc; 0xffe730; 0xeae238; 0xc06718;
   0xc06318; 0xd56318; 0xffe318; 0xffe39c; 0x61bc; 0x1ffe1f8; 0x1ffe1e0; 0x1ffe1c0;
   0x18063e0; 0x1806770; 0x1806670; 0x1ffe43c; 0x1ffe01e; 0x180600c; 0x0; 0x0;
   0x0; 0x0; 0x202000; 0x0; 0x0; 0x0; 0x60060; 0x60060;
   0x1575070; 0x1fff860; 0x1fff870; 0x18e3ab8; 0x18e3ffc; 0x1fffbfc; 0x1ffff30; 0x1863b38;
   0x1863b18; 0x1afbb18; 0x1fffb18; 0x1b8398; 0x19c19c; 0x18e1bc; 0x1879f8; 0x2baa8e0;
   0x7fffdc0; 0x2baabe0; 0x180770; 0x180238; 0x18023c; 0x18001e; 0x180004; 0x0;
   0x0; 0x0; 0x0; 0x202000; 0x0; 0x0; 0x0; 0x60;
   0x1fff860; 0x1fff870; 0x1801820; 0x1861870; 0x1861ab8; 0x1bfdffc; 0x1bfdbfc; 0x1861b30;
   0x1861b38; 0x1ffdb18; 0x1bfdb18; 0x1801b98; 0x1801b98; 0x1bfd99c; 0x1bf99bc; 0x1b0d9f8;
   0x1b098e0; 0x1b0ddc0; 0x1bf8fe0; 0x1bfcf70; 0x1808e38; 0x1d0063c; 0x1f0071e; 0x1f00204;
   0x0; 0x0; 0x0; 0x0; 0x202000; 0x0; 0x0; 0x0;
   0xe0070; 0xe0060; 0x3fff870; 0x3fff830; 0xe0030; 0xaea2b8; 0x1fff7fe; 0xe03fe;
   0x15f5338; 0x3fffb38; 0x7ffff18; 0x318; 0x1fff39c; 0x1ffe38c; 0x1c0719c; 0x1aae19c;
   0x1fff1f8; 0x18060f0; 0x1c071e0; 0x1ffe3e0; 0x1fff770; 0x1806638; 0x1c0723c; 0x1f8600e;
   0xf07004; 0x0; 0x0; 0x0; 0x0; 0x202000; 0x0; 0x0;
   0x0; 0x1c01c0; 0xc0180; 0x1c01c0; 0x3ffdffc; 0x3ffdffc; 0x3e03c0; 0x7f07e0;
   0x6f0fe0; 0xfd9df0; 0x1cdc9b8; 0x79cf1dc; 0x30c618c; 0x1c1dc0; 0x1c00; 0x3fffffc;
   0x3fffffc; 0x3fffffc; 0xe0380; 0xf01c0; 0x79fc0; 0x3ff00; 0xff800; 0x1ff7fc0;
   0x1f80ffc; 0xc001fc; 0x0; 0x0; 0x0; 0x0; 0x202000; 0x0;
   0x0; 0x0; 0x60; 0x1fff060; 0x1fff070; 0x1803060; 0x1c03070; 0x1aab030;
   0x1fff7fc; 0x18037fc; 0x1c03730; 0x1aab238; 0x1fff718; 0xaaa318; 0x183318; 0x183318;
   0x318339c; 0x3dbf3b8; 0x1fff1f0; 0x3ab1e0; 0x1831c0; 0x1833e0; 0x7183770; 0x31a3670;
   0x35ff23c; 0x3fbf01e; 0x1f0300c; 0x0; 0x0; 0x0; 0x0; 0x202000;
   0x0; 0x0; 0x0; 0x70; 0x20; 0x3fffc70; 0x3fffc30; 0x30;
   0xb8; 0x3fc3fc; 0x3fc3fe; 0x136c318; 0x3a6cb18; 0x3b6df98; 0x3a6cb98; 0x3bfdd9c;
   0x3bfc98c; 0x3b6dd8c; 0x3a6c99c; 0x3b6ddf8; 0x3bfc8f0; 0x3bfdde0; 0x38009e0; 0x3801ff0;
   0x3fffb38; 0x3fffc1c; 0x3aaa80e; 0x3800004; 0x0; 0x0; 0x0; 0x0;
   0x202000; 0x0; 0x0; 0x0; 0x0; 0x1ff9ff8; 0x1ff9ff8; 0x1819818;
   0x1d99998; 0x1999998; 0x1d99998; 0x1899998; 0x1dd99d8; 0x19d9bd8; 0x7e07c0; 0xe61ee0;
   0x1c7d87c; 0x181c818; 0x1c00; 0x3fffffc; 0x3fffffc; 0x1c0700; 0xe0380; 0xe07c0;
   0x7ffc0; 0xff800; 0x7fff40; 0x1f81ffc; 0x1c001fc; 0x0; 0x0; 0x0;
   0x0; 0x202000; 0x0; 0x0; 0x0; 0xc04060; 0xc0e060; 0xe1c060;
   0x618060; 0x718070; 0x3882b8; 0x1fff7fc; 0x1fff7fc; 0x18e3730; 0x18e3638; 0x1fff738;
   0x1fff318; 0x18e3318; 0x18e3318; 0x1fff39c; 0x1fff3b8; 0xe01f0; 0xe01e0; 0x7ffffc0;
   0x3ffffe0; 0xe0770; 0xe0230; 0xe003c; 0xe001c; 0xe0004; 0x0; 0x0;
   0x0; 0x0; 0x202000; 0x0; 0x0; 0x0; 0x70060; 0xe0060;
   0xe0060; 0x3fff860; 0x3fff870; 0x3021830; 0x3061ffe; 0x3061bfe; 0x1fff330; 0x1fff330;
   0x1c63338; 0x1863318; 0x1c63318; 0x1fff398; 0x1fff19c; 0x18631b8; 0x1c631f0; 0x18630e0;
   0x1fff1c0; 0x1fff3e0; 0x1c63770; 0x60238; 0x6001c; 0x6000c; 0x60004; 0x0;
   0x0; 0x0; 0x0; 0x202000; 0x0; 0x0; 0x0; 0x70060;
   0x60060; 0x15f5460; 0x3fff860; 0x7fffc70; 0x30; 0xfff7fe; 0xeae3fe; 0xc07730;
   0xffe330; 0xfff338; 0x318; 0x3ffff18; 0x3ffff98; 0x3555d9c; 0x3000db8; 0x3fffdf0;
   0xfff0e0; 0xe01c0; 0xe03e0; 0xe0770; 0xe0238; 0xe001c; 0xfc00c; 0x7c004;
   0x0; 0x0; 0x0; 0x0; 0x202000; 0x0; 0x0; 0x0;
   0x60000; 0x63ff8; 0x73ff8; 0x3ff0e20; 0x3ff87f0; 0xc38780; 0xe7fffc; 0x667ffc;
   0x7c33c0; 0x383be0; 0x7e1370; 0xe7833c; 0x7c3ebcc; 0x300fbc0; 0x1c00; 0x3fffffc;
   0x3fffffc; 0xc0700; 0xe0380; 0x70fc0; 0x7ff00; 0xff000; 0x1ff7fc0; 0x1f00ffc;
   0xc0017c; 0x0; 0x0; 0x0; 0x0; 0x202000; 0x0; 0x0;
   0x0; 0xe0060; 0xe0060; 0x60070; 0x3fff860; 0x3fffc70; 0x602b8; 0x607fc;
   0x2aeabfc; 0x3fffb30; 0x3aabb38; 0x3b1db18; 0x3b19b18; 0x3999b18; 0x3991b98; 0x3ffd99c;
   0x3ae99b8; 0x38619f0; 0x3ae99e0; 0x3ffdbe0; 0x3861be0; 0x3861f70; 0x3861a38; 0x386183c;
   0x3e6181e; 0x1e01804; 0x0; 0x0; 0x0; 0x0; 0x202000; 0x0;
   0x0; 0x0; 0x61c060; 0x60c060; 0x175d060; 0x3fff860; 0x3fff870; 0x60c2e8;
   0x61c7fc; 0x2687fc; 0x70730; 0x30630; 0x7ffff38; 0x3fffb38; 0x18318; 0x18318;
   0x1c39c; 0x1ffe3b8; 0x1fff1f0; 0x180f9e0; 0x181fdc0; 0x180dbe0; 0x181c770; 0x180c278;
   0x1ffc03c; 0x1ffc01e; 0x181c00c; 0x0; 0x0; 0x0; 0x0; 0x202000;
   0x0; 0x0; 0x0; 0x70; 0x3fff860; 0x3fff870; 0x3866030; 0x1866030;
   0x1fe62b8; 0x1fe73fe; 0x6f3fe; 0x7f338; 0x3ffbb18; 0x3fe1f18; 0xb98; 0x1fff39c].
Definition hanzi_data_100 : list N :=
  [0xfff18c; 0x1c0718c; 0xfff1bc; 0x1fff1f8; 0xc030e0; 0x1c071c0; 0xfff3e0; 0x1fff770;
   0xc03238; 0x1c0701c; 0xf8300c; 0xf07004; 0x0; 0x0; 0x0; 0x0;
   0x202000; 0x0; 0x0; 0x0; 0x70070; 0x60020; 0x3fff870; 0x3fff830;
   0x3fff830; 0xe0c030; 0x61c7fc; 0x3183fc; 0x3fffb38; 0x3fffb18; 0x30e1b18; 0x30e1b18;
   0x30e1b98; 0x1fff388; 0x1fff19c; 0x18e31b8; 0x18e71f0; 0x18e30e0; 0x18e71c0; 0x18e33e0;
   0x1fe7770; 0x1ee3238; 0x6e103c; 0xe001e; 0xe000c; 0x0; 0x0; 0x0;
   0x0; 0x202000; 0x0; 0x0; 0x0; 0x40c060; 0xe0c060; 0x71c060;
   0x318060; 0x3fff870; 0x3fffab8; 0xe07fe; 0xaea7fe; 0x1fff630; 0xaea638; 0xe0718;
   0x2aeab18; 0x7ffff18; 0x2aaab08; 0x603bc; 0x601f0; 0x3fff9e0; 0x3fff9c0; 0xf03c0;
   0x1b07e0; 0x3b8670; 0x71c238; 0x1f1f03c; 0x3c07c1c; 0x3001c0c; 0x0; 0x0;
   0x0; 0x0; 0x202000; 0x0; 0x0; 0x0; 0x60; 0x60;
   0x3fff870; 0x3fff820; 0x70070; 0x30030; 0x3fffffc; 0x3bbbbfc; 0x399bb30; 0x399bb38;
   0x399bb18; 0x399bb18; 0x399bb18; 0x3f9bb98; 0x1d5399c; 0x601b8; 0x3fffdf0; 0x3fffce0;
   0xf01c0; 0x1f03e0; 0x1b8770; 0x79c238; 0x1f0f03c; 0x3c07c1e; 0x3001c0c; 0x0;
   0x0; 0x0; 0x0; 0x202000; 0x0; 0x0; 0x0; 0xe06060;
   0xe06060; 0xe06070; 0x3fff860; 0x3fff870; 0xe062b8; 0xe067fc; 0xffe3fc; 0xffe730;
   0xe06338; 0xe06318; 0xffe318; 0xffe318; 0xe0398; 0xe019c; 0x3fff9bc; 0x3fff9f8;
   0x1f00e0; 0x3f81c0; 0x7fc3e0; 0xeee770; 0x1ce7a38; 0x78e3c3c; 0x30e181e; 0xe0004;
   0x0; 0x0; 0x0; 0x0; 0x202000; 0x0; 0x0; 0x0;
   0x70070; 0x30060; 0x30070; 0x1fff830; 0x1fff830; 0x1801ab8; 0x1d55bfe; 0x1fffbfc;
   0x1d55b30; 0x1801b38; 0x1fffb18; 0x1fffb98; 0x39c; 0x188; 0x3fffd9c; 0x3fffd9c;
   0x601f8; 0x600f0; 0x1fff9e0; 0x1fffbe0; 0x607f0; 0x60338; 0x7fffe1c; 0x3fffe0e;
   0x4; 0x0; 0x0; 0x0; 0x0; 0x202000; 0x0; 0x0;
   0x0; 0x70c070; 0x30c060; 0x175d470; 0x3fff830; 0x3fffc30; 0x30c0b8; 0x76c3fc;
   0x603fc; 0x1fff330; 0xfff318; 0x1c63318; 0xc63398; 0x1c6319c; 0xc63188; 0x1d7758c;
   0x3fffd9c; 0x7fffdf8; 0xe00e0; 0x1f01e0; 0x1b83e0; 0x39c770; 0x70e238; 0x1e0701c;
   0x3803c0e; 0x3001c04; 0x0; 0x0; 0x0; 0x0; 0x202000; 0x0;
   0x0; 0x0; 0x60; 0x3fff060; 0x3fff070; 0x38e3060; 0x38e3070; 0x38e32b8;
   0x3fff7fc; 0x3fff3fc; 0x3330; 0x3338; 0x1fff318; 0x1ffbb18; 0x181f398; 0x180bb98;
   0x1fff99c; 0x1ffb9bc; 0x181d9f8; 0x18098e0; 0x1ffd9e0; 0x1ff9be0; 0x181dff0; 0x1808f38;
   0x1ffcc3c; 0x1ff8e1e; 0x181c404; 0x0; 0x0; 0x0; 0x0; 0x202000;
   0x0; 0x0; 0x0; 0xc00070; 0x1ffe860; 0x7ffc70; 0x1c30830; 0xc73870;
   0xe632b8; 0x7673fe; 0x3fffbfe; 0x3ffff30; 0xc338; 0xc318; 0x3ffff98; 0x3fffd9c;
   0xe188; 0x55619c; 0xffe1bc; 0xfff1f8; 0xe0f0e0; 0x71f1e0; 0x3bbbe0; 0x1f1f70;
   0x3e1d38; 0x1ffce1c; 0x3e3f70e; 0x3807204; 0x0; 0x0; 0x0; 0x0;
   0x202000; 0x0; 0x0; 0x0; 0x60; 0xfff060; 0x1fff070; 0xc03030;
   0x1c07070; 0xfff2b8; 0x1fff7fc; 0xc033fc; 0x1d57330; 0xfff338; 0x1fff318; 0x318;
   0x3ffff98; 0x3ffff98; 0x6019c; 0x6619c; 0x671f8; 0x1fe30e0; 0x1fe71c0; 0x67be0;
   0x6ff70; 0x7da38; 0x7ff9c3c; 0x3fe0e0e; 0x1500404; 0x0; 0x0; 0x0;
   0x0; 0x202000; 0x0; 0x0; 0x0; 0x60; 0xaaa060; 0xfff060;
   0xeab060; 0xc07070; 0xc032b8; 0xfff7fc; 0xeab7fc; 0xc07730; 0xc03238; 0xfff718;
   0xfff318; 0x318; 0x318; 0x1fffb9c; 0x1fffbb8; 0x19999f0; 0x19999e0; 0x1999bc0;
   0x1999fe0; 0x1999f70; 0x1999838; 0x7fffe3c; 0x3fffe0e; 0x1555404; 0x0; 0x0;
   0x0; 0x0; 0x202000; 0x0; 0x0; 0x0; 0x0; 0x3fffb80;
   0x3fff9e0; 0x600f8; 0x1fff01c; 0x1fff780; 0x1cc73c0; 0x18e30f8; 0x1c6703c; 0x1863e08;
   0x1df7700; 0x7b83e0; 0x1f1f9fc; 0x380783c; 0x1001c00; 0xe00; 0x3fffffc; 0x3fffffc;
   0x1c0380; 0xe0fc0; 0x7ffc0; 0xff800; 0xff7fd0; 0x3f80ffc; 0x1c0007c; 0x0;
   0x0; 0x0; 0x0; 0x202000; 0x0; 0x0; 0x0; 0x1000070;
   0x1fe0060; 0x1fffc70; 0x83f830; 0x1871070; 0x18632b8; 0x1c677fe; 0xce63fe; 0x646330;
   0xe338; 0x1ffe318; 0x3fff398; 0x1fffb9c; 0x61f98; 0x6119c; 0x3fffdbc; 0x7fffdf8;
   0x600e0; 0x18619e0; 0x1861be0; 0x1861f70; 0x1861a38; 0x1fff83c; 0x1fff80e; 0x1800004;
   0x0; 0x0; 0x0; 0x0; 0x202000; 0x0; 0x0; 0x0;
   0xe0060; 0x60060; 0x1fff070; 0x3fff060; 0x3d57070; 0x3b1b2b8; 0x39fb7fc; 0x38e33fc;
   0x3bf3730; 0x3f3f338; 0x3f5f318; 0x3fff318; 0x1fff318; 0x183318; 0x118339c; 0x39831bc;
   0x1dbf1f8; 0xfbf1e0; 0x7831c0; 0x1833e0; 0x1183770; 0x21bb230; 0x7fff03c; 0x3f8f81c;
   0x150100c; 0x0; 0x0; 0x0; 0x0; 0x202000; 0x0; 0x0;
   0x0; 0xe0060; 0x60060; 0x70070; 0xffe060; 0x1fff070; 0xc062b8; 0x1fff7fc;
   0xffe3fc; 0x1c07730; 0xc06338; 0x1fff318; 0xffe318; 0x1c07318; 0xc06398; 0x1fff19c;
   0xffe1bc; 0x701f8; 0x8ec0e0; 0x1dcd9c0; 0x188dbe0; 0x3e0df70; 0x360ce38; 0x760cc3c;
   0x27fcc1c; 0x3fc00c; 0x0; 0x0; 0x0; 0x0; 0x202000; 0x0;
   0x0; 0x0; 0x461000; 0xe63bf8; 0x6773f8; 0x636318; 0x1fffb18; 0x3fffb18;
   0x157d318; 0x183f8; 0x3fffff8; 0x3ffffb8; 0x175f718; 0xe07318; 0x1c77b18; 0x3831f18;
   0x3030ff8; 0x3fffbf8; 0x3fffb1c; 0x60c308; 0x70e31c; 0x3be30c; 0x1fc30c; 0x7e030c;
   0x1f7f34c; 0x1c0fbee; 0x10019e4; 0x0; 0x0; 0x0; 0x0; 0x202000].
Definition hanzi_data_101 : list N :=
  [0x0; 0x0; 0x0; 0xe0060; 0x18e3060; 0x18e3070; 0x18e3060; 0x18e3070;
   0x1fff2b8; 0x1fff7fc; 0xe03fc; 0x15f5730; 0x3fffb38; 0x7ffff18; 0xe0318; 0xe0318;
   0x1fff318; 0x1fff39c; 0x18e31bc; 0x18e31f8; 0x1aeb1e0; 0x1fff1c0; 0xaea3e0; 0xee0770;
   0x1ce0638; 0x3fffa3c; 0x3fff81c; 0x7000004; 0x0; 0x0; 0x0; 0x0;
   0x202000; 0x0; 0x0; 0x0; 0x30c070; 0x30c060; 0x3fffc70; 0x3fff830;
   0x30c030; 0xbae8b8; 0x1fffbfe; 0x30c3fe; 0x30c338; 0x3ffff18; 0x3ffff18; 0x60398;
   0x1fff19c; 0x1fff18c; 0x1c6319c; 0x1fff1b8; 0x1fff1f0; 0x18631e0; 0x1d777e0; 0x3ffffe0;
   0x7ffff70; 0x1803238; 0x1c0301c; 0x1f8300e; 0x1f03004; 0x0; 0x0; 0x0;
   0x0; 0x202000; 0x0; 0x0; 0x0; 0x70060; 0x60060; 0xe0070;
   0x3fff820; 0x3fff870; 0x30018b8; 0x3001bfc; 0x3fffbfc; 0xfff330; 0x70338; 0x183c318;
   0x3c6e398; 0xf67d98; 0x7f1998; 0x7fc19c; 0x6ce19c; 0xdc7df8; 0xde1ce0; 0x1df81e0;
   0x399e3e0; 0x71cf3f0; 0x30c3d38; 0x1c1c1c; 0xf800e; 0x78004; 0x0; 0x0;
   0x0; 0x0; 0x202000; 0x0; 0x0; 0x0; 0x60060; 0x68060;
   0x3f7f070; 0x3f6f830; 0x3861870; 0x3861830; 0x3f7fffe; 0x3f6fbfe; 0x3861f30; 0x3861b38;
   0x3fffb18; 0x3fffb18; 0x1fff31c; 0x60398; 0x6019c; 0x3fff9b8; 0x1fff9f0; 0xc060e0;
   0xf0e1c0; 0x7bc3e0; 0x3f8770; 0x1f8230; 0x1fff03c; 0x3e0fc1e; 0x3c01c0c; 0x0;
   0x0; 0x0; 0x0; 0x202000; 0x0; 0x0; 0x0; 0x70;
   0x2aaa860; 0x7fff870; 0x2bab830; 0x1c1830; 0xc18b8; 0x3ffdbfe; 0x3ffdbfe; 0x301db30;
   0x300db18; 0x3ffdb18; 0x3ffdb98; 0x301d99c; 0x300d988; 0x3ffd98c; 0x2ba999c; 0x1819f8;
   0xd998f0; 0x199dde0; 0x398cde0; 0x318eff0; 0x3186f38; 0x718671c; 0x1f060e; 0x1f0404;
   0x0; 0x0; 0x0; 0x0; 0x202000; 0x0; 0x0; 0x0;
   0xc0070; 0x1c0030; 0x180030; 0x3ffe030; 0x3fff030; 0x266b8; 0x67dfc; 0x66dfc;
   0x1ff7d98; 0x1ff7998; 0x3b7198; 0x39e198; 0x39f19c; 0x38788c; 0x3fffddc; 0x3ffbefc;
   0x3876f8; 0x3830e0; 0x7c31e0; 0x6c39e0; 0xee1bf0; 0xc71938; 0x3839c1c; 0x301ce0c;
   0x300c404; 0x0; 0x0; 0x0; 0x0; 0x202000; 0x0; 0x0;
   0x0; 0x602060; 0x707060; 0x70e070; 0x38e020; 0x3fffc70; 0x3fffcb8; 0x1cc3fc;
   0x8c3fc; 0x1fffb30; 0x1fffb38; 0x19cc318; 0x3aaeb98; 0x3fffd98; 0x3aae998; 0x19cc19c;
   0x1aae99c; 0x1fff9f8; 0x38e0e0; 0x3cf1e0; 0x68f3e0; 0xfcff70; 0x1c8de38; 0x79cce1c;
   0x308c60e; 0x1cc004; 0x0; 0x0; 0x0; 0x0; 0x202000; 0x0;
   0x0; 0x0; 0x1c00060; 0x1ffe860; 0x7ff870; 0x1862860; 0x1c67070; 0xce62b8;
   0xec67fc; 0x3fffbfc; 0x3fffb30; 0x3019b38; 0x301db18; 0x1fffb18; 0x1fffb98; 0xc398;
   0xc19c; 0xffc1bc; 0xffe1f8; 0xe1e0e0; 0x73f1c0; 0x3733e0; 0x3f3f70; 0x3e1e38;
   0x1ffde3c; 0x3e3fe0e; 0x3807404; 0x0; 0x0; 0x0; 0x0; 0x202000;
   0x0; 0x0; 0x0; 0x70060; 0xe0060; 0xe0070; 0x3fff830; 0x3fff830;
   0x30018b8; 0x3701bfc; 0x3fffbfc; 0x7fe330; 0x6338; 0x6398; 0x1ffe398; 0x1ffe198;
   0x386198; 0x3861dc; 0x38619c; 0x3861f8; 0x3fffcf0; 0x3fffce0; 0x81e0; 0x71c3f0;
   0xe0e338; 0x3c07d1c; 0x7801e0e; 0x3000404; 0x0; 0x0; 0x0; 0x0;
   0x202000; 0x0; 0x0; 0x0; 0x60; 0x3fff860; 0x3fff870; 0x33820;
   0x33870; 0xffbab8; 0xffbffc; 0xcfbfc; 0x1fffb30; 0xfffb38; 0x1c3b18; 0x3e3b18;
   0xe3fb1c; 0x41bb88; 0x3fff99c; 0x3fff99c; 0x701f8; 0x8ec0e0; 0xddd9e0; 0x1c0dbe0;
   0x1e1df70; 0x3e0ce38; 0x375cc3c; 0x37fc81e; 0x3f8004; 0x0; 0x0; 0x0;
   0x0; 0x202000; 0x0; 0x0; 0x0; 0x70; 0x3fff860; 0x3fffc70;
   0x198030; 0x198030; 0x3fff830; 0x3fffbfc; 0x3999bfe; 0x3999b38; 0x3bbbb18; 0x3fffb18;
   0x398; 0xfff19c; 0xfff188; 0x55519c; 0x1b8; 0x3fffdf0; 0x3fff8e0; 0x4621c0;
   0xe663e0; 0x1c67770; 0x1863a30; 0x3861c3c; 0x3078c1c; 0x7800c; 0x0; 0x0;
   0x0; 0x0; 0x202000; 0x0; 0x0; 0x0; 0x60; 0x1fff060;
   0x1fff070; 0x1863060; 0x1863070; 0x1fff2b8; 0x1fff7fc; 0x18633fc; 0x1fff730; 0x1fff338;
   0x78318; 0x61c318; 0x7df318; 0x1ff398; 0xef719c; 0xc3c1bc; 0x1fff1f8; 0x3fff8e0;
   0x70779c0; 0x6663e0; 0xe67770; 0x1c63238; 0x3863c3c; 0x307dc1e; 0x78004; 0x0;
   0x0; 0x0; 0x0; 0x202000; 0x0; 0x0; 0x0; 0x70;
   0x1fff060; 0x1fff070; 0x1803030; 0x1fff030; 0x1aab030; 0x1c077fc; 0x1fff3fc; 0x1fff330;
   0x2aaab38; 0x3fffb18; 0x3119b18; 0x3119b18; 0x3fff988; 0x3fff99c; 0x1b8; 0x1fff9f0;
   0x1fff8e0; 0x1c0e1c0; 0xf1c3e0; 0x7fc770; 0x1f0238; 0x1fff03c; 0x3f1fe0e; 0x3c01c04;
   0x0; 0x0; 0x0; 0x0; 0x202000; 0x0; 0x0; 0x0;
   0x70070; 0x60060; 0x1fff870; 0x1fff830; 0x70c030; 0x3080b8; 0x7fffffc; 0x3fffbfc;
   0x330; 0xaaa338; 0x1fff318; 0x1803398; 0x1d5719c; 0x1fff198; 0x1c0719c; 0x18031b8;
   0x1fff1f0; 0xaea0e0; 0xe01e0; 0x3ffffe0; 0x7ffff70; 0xe0238; 0xe001c; 0xe000e;
   0xe0004; 0x0; 0x0; 0x0; 0x0; 0x202000; 0x0; 0x0;
   0x0; 0x60380; 0x60380; 0x3ff3ff8; 0x3ffaba8; 0x1d5c380; 0xe3fffc; 0x77fffc;
   0x3e0fc0; 0x3c1ff0; 0xffbbb8; 0x7e7f39c; 0x380c388; 0x3fffff0; 0x3fffff0; 0x6030;
   0x7030; 0x1fffff0; 0x1fffff0; 0x1c1c30; 0xc0e38; 0xf7f18; 0x7f818; 0x7ffc1c;
   0x1f87fce; 0x1c007cc; 0x0; 0x0; 0x0; 0x0; 0x202000; 0x0;
   0x0; 0x0; 0x60070; 0xe0020; 0x3fffc70; 0x3fff830; 0x60c030; 0x60c0b8;
   0x71c3fe; 0x2baabfe; 0x3fffb18; 0x3aebb18; 0x3861b18; 0x3ae9b98; 0x3ffdb9c; 0x386198c].
Definition hanzi_data_102 : list N :=
  [0x386199c; 0x3bf99b8; 0x3bf99f0; 0x3b098e0; 0x3b199e0; 0x3bf9be0; 0x3bf9f70; 0x3809a38;
   0x380181c; 0x3e0180e; 0x1e01804; 0x0; 0x0; 0x0; 0x0; 0x202000;
   0x0; 0x0; 0x0; 0x70; 0x3fff820; 0x3fff870; 0xc0030; 0xc6030;
   0x1fc60b8; 0x1fc63fe; 0xc63fe; 0x15d7710; 0x3ffff18; 0x3ffff18; 0x6398; 0x3fff19c;
   0x3fff18c; 0x318c; 0x2aab19c; 0x3fff9f8; 0x3aaa8f0; 0x374d1e0; 0x36c9be0; 0x3cd9f70;
   0x3099a38; 0x3019c1c; 0x3f0080e; 0x1f00004; 0x0; 0x0; 0x0; 0x0;
   0x202000; 0x0; 0x0; 0x0; 0x460060; 0x1c63060; 0xc67070; 0xe6e030;
   0x3fffc70; 0x3fffab8; 0x3001ffc; 0x3001bfc; 0x3ffff30; 0x2ffeb38; 0xc06318; 0xc06318;
   0xffe398; 0xffe198; 0x6019c; 0x601bc; 0x1fff1f0; 0x1aeb0e0; 0x18631c0; 0x18633e0;
   0x1863770; 0x1a63238; 0x1e6303c; 0x26001e; 0x60004; 0x0; 0x0; 0x0;
   0x0; 0x202000; 0x0; 0x0; 0x0; 0x306070; 0x306020; 0x306030;
   0x33fe30; 0x37fe30; 0x3f860b8; 0x7f861fc; 0x19bfdfc; 0x19ffd98; 0x19f6598; 0x19f6598;
   0x1bf6598; 0x1b765dc; 0xb3fccc; 0xf3fccc; 0xf070dc; 0xf0f0f8; 0x61f870; 0x73f860;
   0xf36ce0; 0x1f96df0; 0x19866b8; 0x39c669c; 0x30e620e; 0x2066004; 0x0; 0x0;
   0x0; 0x0; 0x202000; 0x0; 0x0; 0x0; 0x70; 0x1fff820;
   0x1fff870; 0x18b8030; 0x19fb830; 0x1bbb0b8; 0x1d3e3fc; 0x1f3e3fc; 0x1bfff38; 0x18f8b18;
   0x1860318; 0xf0398; 0x3fc19c; 0xf0e188; 0x7ee7d8c; 0x3873d9c; 0x233c5f8; 0x38e0f0;
   0x1de41e0; 0xe781e0; 0x71f3f0; 0x3c2338; 0x1fc01c; 0x3f80e; 0x7004; 0x0;
   0x0; 0x0; 0x0; 0x202000; 0x0; 0x0; 0x0; 0x30c060;
   0x30c060; 0x3fffc70; 0x3fffc20; 0x175d470; 0x30c2b8; 0x5557fc; 0xfffbfc; 0xfffb30;
   0xc03b38; 0xfffb18; 0xfffb18; 0xc03b18; 0xeabb98; 0xfff99c; 0x6019c; 0x701f8;
   0x3fffcf0; 0x3fffde0; 0xf83e0; 0x1dc7f0; 0x39e338; 0x1f0f83c; 0x3e03e0e; 0x1801c04;
   0x0; 0x0; 0x0; 0x0; 0x202000; 0x0; 0x0; 0x0;
   0x70070; 0x20030; 0x3ff0070; 0x3fe0030; 0x70030; 0x3fff830; 0x3fffbfe; 0x3231bfe;
   0x1fffb18; 0x83fb18; 0x1d71b18; 0x1fe1b98; 0x100199c; 0x1fe998c; 0x1ffd99c; 0x9819b8;
   0x19dd9f0; 0x9998e0; 0x7fffde0; 0x3ffebe0; 0x1c1f70; 0x180c38; 0x1c0e1c; 0x1f860e;
   0xf0404; 0x0; 0x0; 0x0; 0x0; 0x202000; 0x0; 0x0;
   0x0; 0x60070; 0x60060; 0x1fff870; 0x1fff830; 0x1575030; 0xc630b8; 0xe673fc;
   0x66e3fc; 0x37c330; 0x3ffff38; 0x3ffff18; 0x398; 0x1555198; 0x1fff998; 0x1fff99c;
   0x18039bc; 0x1bfb9f8; 0x1bbb8e0; 0x1b1b9c0; 0x1bfbbe0; 0x1bfbf70; 0x1803a38; 0x1fff81c;
   0x1fff80c; 0x1803804; 0x0; 0x0; 0x0; 0x0; 0x202000; 0x0;
   0x0; 0x0; 0x60060; 0x60060; 0x70070; 0x3fff830; 0x3fff870; 0x11b90b8;
   0x3b1bbfc; 0x1f0f3fc; 0x70e330; 0xffe338; 0x3fffb18; 0x3c07f98; 0x1fff998; 0xffe198;
   0xc0619c; 0xc0619c; 0xffe1f8; 0xaea0e0; 0x4641c0; 0xe6e3e0; 0x1c677f0; 0x1863b38;
   0x3861c1c; 0x107880e; 0x78004; 0x0; 0x0; 0x0; 0x0; 0x202000;
   0x0; 0x0; 0x0; 0x70070; 0x60060; 0x3fffc70; 0x3fffc30; 0x70030;
   0xaea8b8; 0x1fffffc; 0x3fe; 0x1fffb38; 0xfffb18; 0x1c03b18; 0xeabb98; 0x1fff99c;
   0x60618c; 0x70619c; 0x2baeb9c; 0x7fffff8; 0x2aaaaf0; 0x1fff9e0; 0x1fffbe0; 0x1c03bf0;
   0x1803b38; 0x1fff81c; 0x1fff80e; 0x1c03804; 0x0; 0x0; 0x0; 0x0;
   0x202000; 0x0; 0x0; 0x0; 0x1c0000; 0x181ff8; 0x3ffdff8; 0x3ffd818;
   0xc31818; 0x631ff8; 0x3fffff8; 0x3ffe018; 0x1c1ff8; 0x81ab8; 0x1ffd87c; 0xaa982e;
   0x1c1ff4; 0x81800; 0x1c00; 0x3fffffc; 0x3fffffc; 0x1c0700; 0xe0380; 0x70fc0;
   0x7ffc0; 0xff800; 0xffff40; 0x3f81ffc; 0x1c001fc; 0x0; 0x0; 0x0;
   0x0; 0x202000; 0x0; 0x0; 0x0; 0x70060; 0x70060; 0x3fffc70;
   0x3fffc30; 0x70; 0x1fffab8; 0x1fffbfc; 0x18a9bfc; 0x19fdb30; 0x1909b38; 0x19fdb18;
   0x1801b18; 0x1fff998; 0x1fff998; 0x55519c; 0xfff1bc; 0xc031f8; 0xfff0e0; 0xfff1e0;
   0xc033e0; 0xfff7f0; 0xaaa338; 0x7fffe3c; 0x3fffe0e; 0x1555404; 0x0; 0x0;
   0x0; 0x0; 0x202000; 0x0; 0x0; 0x0; 0x70; 0x1fff060;
   0x1fff070; 0x1993030; 0x1993030; 0x1fff030; 0x1fff3fe; 0x3fc; 0x7ffff38; 0x3fffb18;
   0x318; 0x1fff398; 0x1fff198; 0x1803198; 0x1c0319c; 0x1fff1b8; 0x1fff1f0; 0x30f80e0;
   0x3ddc1e0; 0xf8fbe0; 0x70ff70; 0xe8c838; 0x3dfc01c; 0x387e00e; 0x3006004; 0x0;
   0x0; 0x0; 0x0; 0x202000; 0x0; 0x0; 0x0; 0x70;
   0x1fffc20; 0x1fffc70; 0x18b0830; 0x1bb3830; 0x1b37030; 0x1e3e3fe; 0x1fbe3fe; 0x1bf7f38;
   0x18b2b38; 0xee318; 0xc6398; 0x3fff198; 0x3fff998; 0x1c3d9c; 0xaebfb8; 0x1fffff8;
   0xc30e0; 0x15d71e0; 0x1fff3e0; 0x15d7770; 0xc3238; 0x3fff03c; 0x3fff00e; 0x3004;
   0x0; 0x0; 0x0; 0x0; 0x202000; 0x0; 0x0; 0x0;
   0x70; 0x3fff860; 0x3fff870; 0x60030; 0x3fffc30; 0x3fff8b8; 0x3061ffe; 0x3f7fbfe;
   0x3f7ff38; 0x60318; 0x1f7f318; 0x60398; 0x155559c; 0x3fff988; 0x7fffd8c; 0x3019c;
   0x3fff9f8; 0x3fff8f0; 0x31999e0; 0x3199be0; 0x3199ff0; 0x3199f38; 0x3199a1c; 0x3d9980e;
   0x1d99804; 0x0; 0x0; 0x0; 0x0; 0x202000; 0x0; 0x0;
   0x0; 0x7000; 0x3fc23fc; 0x3fc33fc; 0x324336c; 0x364336c; 0x3adff6c; 0x3fdfffc;
   0x325b3ec; 0x365936c; 0x3259b6c; 0x3fd9bfc; 0x3fd9bfc; 0x71d860; 0x2bacae8; 0x3fedffc;
   0x3fefbfc; 0x330f770; 0x330e330; 0x319e330; 0x31bb330; 0x31d3318; 0x38e3b18; 0x1971ffc;
   0x1e38dee; 0xe10044; 0x0; 0x0; 0x0; 0x0; 0x202000; 0x0].
Definition hanzi_data_103 : list N :=
  [0x0; 0x0; 0x7000; 0x6000; 0x7fffffe; 0x2aaaae8; 0x555570; 0xffffe0;
   0x1555540; 0x7fffe0; 0x7fffe0; 0x600060; 0x7fffe0; 0x2aaaa0; 0xfe31f8; 0xfe31f8;
   0xc7fd18; 0xceb9b8; 0xded9f8; 0xdecd18; 0xf6cd58; 0xf67df8; 0xf77158; 0x6c3f108;
   0x6c3dd0c; 0x3c18fee; 0x3c185e4; 0x0; 0x0; 0x0; 0x0; 0x202000;
   0x0; 0x0; 0x0; 0x70060; 0xe0060; 0x3fffc70; 0x3fff830; 0x1c30;
   0x6188b8; 0x619ffc; 0x3ffebfc; 0x3ffffb0; 0xe38b98; 0xf7dd98; 0x1ffc998; 0x37dfd98;
   0x36dbd98; 0x65bddc; 0x20cfc; 0x170cf8; 0x3b8ce0; 0x1dcde0; 0x6eefe0; 0xc767f0;
   0x1a38638; 0x1ffc71c; 0x33fe30c; 0x3004204; 0x0; 0x0; 0x0; 0x0;
   0x202000; 0x0; 0x0; 0x0; 0x30c070; 0x30c060; 0x3fffc70; 0x3fffc30;
   0x30c030; 0x30c0b8; 0x3fc3fc; 0x3fc3fc; 0x653330; 0x36fbb98; 0x3edbd98; 0x1e9b998;
   0x6db198; 0x69b188; 0x66db1dc; 0x26bbedc; 0x7efbef8; 0x3c030f0; 0x1e0; 0xedb1e0;
   0x1ddbbf0; 0x1999b38; 0x3999c1c; 0x3338e0e; 0x3110404; 0x0; 0x0; 0x0;
   0x0; 0x202000; 0x0; 0x0; 0x0; 0x70; 0x1fff860; 0x1fff870;
   0x60030; 0x3fffc30; 0x3fffcb8; 0x3060ffc; 0x3f6fffc; 0x1f6f730; 0x60398; 0x1f6f998;
   0x60198; 0x3fc719c; 0x3fc6188; 0x30fffcc; 0x30ffedc; 0x3fc70f8; 0x30c70f0; 0x30df9e0;
   0x3ffede0; 0x3fd7df0; 0x30c6638; 0x3fc761c; 0x3fc600e; 0x30c7004; 0x0; 0x0;
   0x0; 0x0; 0x202000; 0x0; 0x0; 0x0; 0x373030; 0xb23030;
   0x1f33030; 0x1b33830; 0x3b7f830; 0x33fac30; 0x33ccffe; 0x3005fe; 0x7ffff98; 0x3ffff98;
   0x337198; 0x33f3d98; 0x13f7ddc; 0x1b3208c; 0x1ff7cdc; 0x1bf3cd8; 0xf370f0; 0xeb28e0;
   0x7f7de0; 0x26321e0; 0x67f73f0; 0x6fffb38; 0x7dffe1c; 0x3ce020c; 0x1860004; 0x0;
   0x0; 0x0; 0x0; 0x202000; 0x0; 0x0; 0x0; 0x0;
   0x0; 0x7ffff0; 0xffffe0; 0x780000; 0x1e0000; 0xf0000; 0x3c000; 0x1e000;
   0x6000; 0x6000; 0x6000; 0x3fffffc; 0x3fffffc; 0x6000; 0x6000; 0x6000;
   0x6000; 0x6000; 0x6000; 0x6000; 0x6000; 0x7500; 0x7f00; 0x7f00;
   0x0; 0x0; 0x0; 0x0; 0x202000; 0x0; 0x0; 0x0;
   0x0; 0x0; 0x7ffff0; 0xfffff0; 0x780000; 0x1e0000; 0xf0000; 0x38000;
   0x1e000; 0xe000; 0x200e000; 0x3e0e000; 0x3ffe000; 0x3ff800; 0x1fff0; 0xeffc;
   0xe07c; 0xe000; 0xe000; 0xe000; 0xe000; 0xe000; 0x7500; 0x7f00;
   0x7f00; 0x0; 0x0; 0x0; 0x0; 0x202000; 0x0; 0x0;
   0x0; 0x0; 0x0; 0xfffff0; 0xffffe0; 0x780000; 0x1e0000; 0xf0000;
   0x38000; 0x1e070; 0xe0f0; 0xe1e0; 0xe3c0; 0xef00; 0xfe00; 0xfc00;
   0x3f000; 0x1fe000; 0x3fee000; 0x7f8e000; 0x380e000; 0xe000; 0xe000; 0xf500;
   0x7f00; 0x7f00; 0x0; 0x0; 0x0; 0x0; 0x202000; 0x0;
   0x0; 0x0; 0x40000; 0x62000; 0x77ffc; 0x67ffc; 0x73c00; 0x61c00;
   0x70f00; 0x60780; 0x70380; 0x60380; 0x70380; 0x67b80; 0x77f80; 0x60ff0;
   0x703fe; 0x603bc; 0x70384; 0x60380; 0x7070380; 0x6060380; 0x7070380; 0x3060380;
   0x35703d0; 0x3fe03f0; 0x1fc01f0; 0x0; 0x0; 0x0; 0x0; 0x202000;
   0x0; 0x0; 0x0; 0x0; 0x7fff8; 0x7fff8; 0x60300; 0x70700;
   0x1ff0300; 0x1ff0380; 0x1800380; 0x18001c0; 0x18000c0; 0x1cffff0; 0xcfff78; 0xf7003c;
   0x73c008; 0x1e000; 0x6000; 0x3fffffc; 0x3fffffc; 0x1557554; 0x6000; 0x6000;
   0x6000; 0x6000; 0x7e00; 0x7e00; 0x0; 0x0; 0x0; 0x0;
   0x202000; 0x0; 0x0; 0x0; 0x0; 0x0; 0x3ffdffc; 0x3ffdffc;
   0x1c01c00; 0xe00e00; 0x700700; 0x380380; 0x1c01c0; 0x180180; 0x1c01c0; 0x2baa180;
   0x7fffdc0; 0x3ffffc0; 0x1c07fc; 0x1801fc; 0x1c01c4; 0x180180; 0x1c01c0; 0x180180;
   0x1c01c0; 0x180180; 0x1c01c0; 0x1f81f8; 0xf8078; 0x0; 0x0; 0x0;
   0x0; 0x202000; 0x0; 0x0; 0x0; 0x7000; 0x7000; 0xe000;
   0x1fffff8; 0x1fffffc; 0x1800018; 0x180001c; 0x1800018; 0x19fffdc; 0x1fff80; 0xf0000;
   0x78000; 0x1e000; 0xe000; 0x3fffffc; 0x3fffffc; 0x3fffffc; 0x6000; 0x6000;
   0x6000; 0x6000; 0x6000; 0x7500; 0x7e00; 0x3e00; 0x0; 0x0;
   0x0; 0x0; 0x202000; 0x0; 0x0; 0x0; 0x1c00; 0x1c00;
   0x1c00; 0x2aaaea8; 0x3fffffc; 0x3fffffc; 0x700; 0x300; 0x7ff380; 0x1fff180;
   0xfff1c0; 0x7800e0; 0x1c00f0; 0xe00f8; 0x600fc; 0x2aeaaee; 0x7fffee4; 0x3fffee0;
   0x600e0; 0x600e0; 0x600e0; 0x600e0; 0x600e0; 0x7e0e0; 0x7e0e0; 0x0;
   0x0; 0x0; 0x0; 0x202000; 0x0; 0x0; 0x0; 0xc0000;
   0xc0000; 0xc1ffc; 0xc0ffc; 0xc0700; 0xc0300; 0x4c4380; 0xecc1c0; 0xccc0e0;
   0xcce0e0; 0x1cc60e0; 0x18c66e0; 0x18c77e0; 0x38c33f0; 0x30c30fc; 0x30c38fc; 0x70c18e4;
   0x30c18e0; 0xc10e0; 0xc00e0; 0xc00e0; 0xc00e0; 0xd40e0; 0xfc0f8; 0x7c078;
   0x0; 0x0; 0x0; 0x0; 0x202000; 0x0; 0x0; 0x0;
   0x700000; 0xfffa00; 0x5ffff0; 0x200bf0; 0x603040; 0x703060; 0x3070e0; 0x3860c0;
   0x1c61c0; 0x0; 0x7fffe0; 0x3fffe0; 0x1e0000; 0x78000; 0x1e000; 0xe000;
   0x3fffffc; 0x3fffffc; 0xe000; 0xe000; 0xe000; 0xe000; 0xe000; 0xfe00;
   0x7e00; 0x0; 0x0; 0x0; 0x0; 0x202000; 0x0; 0x0;
   0x0; 0x6000; 0x6000; 0x1557554; 0x3fffffc; 0x3fffffc; 0x6000; 0x6000;
   0x1fffff8; 0x1fffff8; 0x1800018; 0x1c00018; 0x19fff98; 0x11fff90; 0xf0000; 0x3c000].
Definition hanzi_data_104 : list N :=
  [0xe000; 0x3fffffc; 0x3fffff8; 0x3fffffc; 0x6000; 0x6000; 0x6000; 0x6000;
   0x7f00; 0x7f00; 0x0; 0x0; 0x0; 0x0; 0x202000; 0x0;
   0x0; 0x0; 0x70000; 0x30000; 0x31ffc; 0x38ffc; 0x18e00; 0x3ff8600;
   0x7ffc700; 0xc0e380; 0xc1f1c0; 0xe1f0c0; 0xe1f9c0; 0x63b0c0; 0x7317c0; 0x730fe0;
   0x3701fc; 0x3e00fc; 0x1e01c4; 0x1c00c0; 0x1e01c0; 0x3f00c0; 0x7781c0; 0xe3e0c0;
   0x3e1f1c0; 0x38078f8; 0x1001078; 0x0; 0x0; 0x0; 0x0; 0x202000;
   0x0; 0x0; 0x0; 0x3800; 0xc03800; 0x1e03800; 0xeffff0; 0x7ffff0;
   0x383800; 0x1e3800; 0x2afbaa8; 0x3fffffc; 0x3fffffc; 0x7800; 0x3e00; 0x7fff80;
   0x3fffe0; 0x1f01fc; 0x3c03c; 0x1c00c; 0x3fffff0; 0x3fffff0; 0xc000; 0xc000;
   0xc000; 0xc000; 0xfe00; 0x7c00; 0x0; 0x0; 0x0; 0x0;
   0x202000; 0x0; 0x0; 0x0; 0x0; 0x3fffc0; 0x3fffc0; 0x1e0000;
   0x78000; 0x3e000; 0xe000; 0x1fffff8; 0x1fffff8; 0xe000; 0xe000; 0xe000;
   0x7f00; 0x7e00; 0x1400; 0xffffe0; 0xfffff0; 0xe30c60; 0xe31c70; 0xe30c60;
   0xe31c70; 0xe30c60; 0x3fffffc; 0x3fffffc; 0x0; 0x0; 0x0; 0x0;
   0x0; 0x202000; 0x0; 0x0; 0x0; 0x18000; 0x18000; 0x1dffc;
   0x1ffcffc; 0x1ffee00; 0x1806700; 0x1807300; 0x1803b80; 0x19ffdc0; 0x19ffcc0; 0x1dc68c0;
   0x19860c0; 0x1dc6fc0; 0x1986fe0; 0x1dfe1fc; 0x19fe0fc; 0x1fd60c4; 0xf860c0; 0x5060c0;
   0x60c0; 0x70060c0; 0x30060c0; 0x355e0c0; 0x3ffe0fc; 0x1ffc078; 0x0; 0x0;
   0x0; 0x0; 0x202000; 0x0; 0x0; 0x0; 0x300000; 0x7ffa00;
   0x1ffff0; 0x6bf0; 0x6000; 0x6000; 0x3fffffc; 0x3fffffc; 0x77e00; 0xe6f00;
   0x3c63c0; 0xf861e0; 0x7e5557c; 0x39fff9c; 0x1fffc0; 0x3c000; 0x1e000; 0x2aaeaa8;
   0x3fffffc; 0x2aaeaa8; 0x6000; 0x6000; 0x6000; 0x7f00; 0x7e00; 0x0;
   0x0; 0x0; 0x0; 0x202000; 0x0; 0x0; 0x0; 0x1c00000;
   0x3fe0000; 0x7ffffc; 0x67f7fc; 0x673700; 0x663380; 0x6731c0; 0x6630e0; 0x6730e0;
   0xe630e0; 0xc730e0; 0xc634e0; 0xc737e0; 0xc23bf0; 0xc738fe; 0xc338fc; 0x1df18e4;
   0x19b18e0; 0x19b18e0; 0x1b398e0; 0x3b19ce0; 0x3bfcce0; 0x77fce7c; 0x3608678; 0x1000478;
   0x0; 0x0; 0x0; 0x0; 0x202000; 0x0; 0x0; 0x0;
   0x380; 0xaa8180; 0x1ffd5d4; 0x1abbffc; 0x1c39ffc; 0xe31860; 0x771c30; 0x3e0ef8;
   0x1c07c0; 0x7f1f80; 0x3f7fdf0; 0x380c07c; 0x11fffdc; 0x3fff80; 0x1f0000; 0x3e000;
   0xe000; 0x3fffffc; 0x3fffffc; 0x6000; 0x6000; 0x6000; 0x7500; 0x7e00;
   0x3e00; 0x0; 0x0; 0x0; 0x0; 0x202000; 0x0; 0x0;
   0x0; 0x603040; 0xe070e0; 0x7061c0; 0x38e1c0; 0x3fffffc; 0x3fffff8; 0x3fffffc;
   0x3800018; 0x380001c; 0x39fff98; 0x1fffc0; 0xe0000; 0x7c000; 0x1e000; 0x6000;
   0x3fffffc; 0x3fffffc; 0x6000; 0x6000; 0x6000; 0x6000; 0x6000; 0x7000;
   0x7f00; 0x3f00; 0x0; 0x0; 0x0; 0x0; 0x202000; 0x0;
   0x0; 0x0; 0x60000; 0xe0000; 0x1c07fc; 0x1c07fc; 0x7ffff00; 0x3fffb00;
   0x70380; 0x381c0; 0xe1c0c0; 0x60c0c0; 0x7de0c0; 0x3ff0c0; 0x1ff7c0; 0x38e07e0;
   0x1c703fc; 0xe3c0fc; 0xf1f0c4; 0x7878c0; 0x3c30c0; 0x3e00c0; 0x7f00c0; 0xe3c0c0;
   0x3c1f0c0; 0x3807cfc; 0x1001c78; 0x0; 0x0; 0x0; 0x0; 0x202000;
   0x0; 0x0; 0x0; 0x7000; 0x6000; 0x3fffffc; 0x3fffffc; 0x1fffffc;
   0x30c00; 0x3b0dc0; 0x7b0ce0; 0xf30c60; 0xc30c70; 0x1c30c3c; 0x1830c18; 0x1fffc0;
   0x3fffc0; 0x3fffc0; 0xf8000; 0x3e000; 0x3fffffc; 0x3fffffc; 0x6000; 0x6000;
   0x6000; 0x7500; 0x7f00; 0x3f00; 0x0; 0x0; 0x0; 0x0;
   0x202000; 0x0; 0x0; 0x0; 0x0; 0x3fffffc; 0x3fffffc; 0x2aaeaa8;
   0x7000; 0xe7c00; 0x3f7f00; 0xf863e0; 0x3f061fc; 0x1806038; 0x1006000; 0xaa8180;
   0x1ffc1c0; 0xea8ae8; 0x701ffc; 0x381ae8; 0x1c1c70; 0x3ffec30; 0x3ffee78; 0x1806f8;
   0x1c07c0; 0x180fc0; 0x1c3df0; 0x1f887c; 0xf0018; 0x0; 0x0; 0x0;
   0x0; 0x202000; 0x0; 0x0; 0x0; 0x601c0; 0x601c0; 0x60180;
   0x63ffc; 0x63ffc; 0xffe000; 0xfffff8; 0xeebff8; 0xc61c18; 0xc61818; 0xc75ff8;
   0xc6fff8; 0xc7e000; 0xc79ff8; 0xc71ffc; 0xcf0700; 0xdf03c0; 0xfbbb80; 0x2d9bffc;
   0x2c1c3fc; 0x6c1c1c0; 0x2c0e180; 0x3c071c0; 0x38039f0; 0x18011f0; 0x0; 0x0;
   0x0; 0x0; 0x202000; 0x0; 0x0; 0x0; 0x0; 0xfffff0;
   0x1fffff0; 0xc00030; 0x1c00030; 0xfffff0; 0x1fffff0; 0x2aa830; 0x3ffc30; 0xf0030;
   0x155d530; 0x1ffffb0; 0x155d530; 0x18030; 0x1f030; 0x1ff3fb8; 0x1ff7fb8; 0x701c38;
   0x384c18; 0x3ffff98; 0x3ff9fdc; 0x380c1c; 0x380c0c; 0x3e0f8e; 0x1e0700; 0x0;
   0x0; 0x0; 0x0; 0x202000; 0x0; 0x0; 0x0; 0x1c0300;
   0xc0300; 0x15f5754; 0x3fffffc; 0x3fffffc; 0x4e08c0; 0xe71ce0; 0x7f8ff0; 0x3fc7f8;
   0xfc8f88; 0x1cf1dc0; 0x1eb9e60; 0x3fffff8; 0x303f0f8; 0x11fffc0; 0x3fffc0; 0xf8000;
   0x3e000; 0x3fffffc; 0x3fffffc; 0x1557554; 0x6000; 0x6000; 0x7e00; 0x7e00;
   0x0; 0x0; 0x0; 0x0; 0x202000; 0x0; 0x0; 0x0;
   0x3000080; 0x3f801e0; 0x1fffef0; 0xbfe38; 0x31966dc; 0x39b6688; 0x1b766dc; 0x1b66e88;
   0x1f67efc; 0x7ea8; 0x1ff7efc; 0x1ff7ea8; 0xe076fc; 0x706688; 0x3066dc; 0x3066c8;
   0x7ffe6fc; 0x3ffe6fc; 0x307edc; 0x303e60; 0x300660; 0x300630; 0x300630; 0x3e0618;
   0x1e060c; 0x0; 0x0; 0x0; 0x0; 0x202000; 0x0; 0x0].
Definition hanzi_data_105 : list N :=
  [0x0; 0x0; 0x3fff800; 0x3fffffc; 0x603fc; 0x3ffff80; 0x3fffd80; 0x3060dc0;
   0x3f7fce0; 0x3f7fc60; 0x60060; 0x1f7f060; 0x60360; 0x15557e0; 0x3fffdf8; 0x7fffc7e;
   0x3006e; 0x3fff864; 0x3fff860; 0x3199860; 0x3199860; 0x3199860; 0x3199860; 0x3199874;
   0x3d99878; 0x1d99838; 0x0; 0x0; 0x0; 0x0; 0x202000; 0x0;
   0x0; 0x0; 0x60700; 0x60600; 0x3fffffc; 0x2aeaea8; 0xe07c0; 0xae8ae8;
   0x1ffcff8; 0x638c18; 0x1774ff8; 0x3ffeff8; 0x15d5ff8; 0xae9ff8; 0x1ffdc18; 0xc1ff8;
   0x1c1ff8; 0x1fffc0; 0x3fffc0; 0xf8000; 0x1e000; 0x3fffffc; 0x3fffffc; 0x6000;
   0x6000; 0x7e00; 0x7e00; 0x0; 0x0; 0x0; 0x0; 0x202000;
   0x0; 0x0; 0x0; 0x3000; 0x3000; 0x7000; 0xe000; 0x1fffff8;
   0x1fffff8; 0x1fffff8; 0x1800018; 0x1c00018; 0x1800018; 0x1c00018; 0x0; 0x0;
   0x0; 0x0; 0x0; 0x0; 0x0; 0x0; 0x0; 0x0;
   0x0; 0x0; 0x0; 0x0; 0x0; 0x0; 0x0; 0x0;
   0x202000; 0x0; 0x0; 0x0; 0x7000; 0x6000; 0xe000; 0xe000;
   0x1fffff8; 0x1fffff8; 0x1c00018; 0x1800018; 0x1c00018; 0x800008; 0x1555554; 0x3fffffc;
   0x3fffffc; 0x6000; 0x6000; 0x6000; 0x6000; 0x6000; 0x6000; 0x6000;
   0x6000; 0x6000; 0x7f00; 0x7f00; 0x3f00; 0x0; 0x0; 0x0;
   0x0; 0x202000; 0x0; 0x0; 0x0; 0x7000; 0x7000; 0x6000;
   0xe000; 0x1fffff8; 0x1fffff8; 0x1c00018; 0x1800018; 0x1c001d8; 0x800188; 0x1801c0;
   0x3e0180; 0x1fc1c0; 0x3f980; 0xffc0; 0xf80; 0x1c0; 0x180; 0x1c001c0;
   0x1c00180; 0x1c001c0; 0xc00180; 0xffff80; 0x7fff80; 0x0; 0x0; 0x0;
   0x0; 0x0; 0x202000; 0x0; 0x0; 0x0; 0x3000; 0x7000;
   0x7000; 0x1fffff8; 0x1fffff8; 0x1aaaab8; 0x1801018; 0x1801818; 0x1801c18; 0x1800;
   0x1c00; 0xffff0; 0x1ffff0; 0xc1c00; 0x1c1c00; 0xc0c00; 0x1c0e00; 0xc0e00;
   0x11c0700; 0x30c0380; 0x31c03c0; 0x30c01e0; 0x3fc00f8; 0x3f8003c; 0x1f00018; 0x0;
   0x0; 0x0; 0x0; 0x202000; 0x0; 0x0; 0x0; 0x7000;
   0x7000; 0xe000; 0x1fffff8; 0x1fffffc; 0x1800018; 0x18c001c; 0x19f8018; 0x18ffc1c;
   0xffe0; 0x3ff0; 0x3800; 0x3800; 0x3f83800; 0x3fffc00; 0x2ffffc; 0x7ffc;
   0x380c; 0x1803800; 0x3803800; 0x3803800; 0x3803800; 0x1fff000; 0x1fff000; 0x7fc000;
   0x0; 0x0; 0x0; 0x0; 0x202000; 0x0; 0x0; 0x0;
   0x7000; 0x7000; 0x7000; 0x3fffffc; 0x3fffffc; 0x380001c; 0x380001c; 0x380001c;
   0x3bfffdc; 0x3fffc0; 0x6000; 0x6000; 0x6000; 0x6000; 0x3fffffc; 0x3fffffc;
   0x6000; 0x6000; 0x6000; 0x6000; 0x6000; 0x6000; 0x7500; 0x7f00;
   0x3f00; 0x0; 0x0; 0x0; 0x0; 0x202000; 0x0; 0x0;
   0x0; 0x7000; 0x6000; 0xe000; 0x1fffff8; 0x1fffffc; 0x1aaaab8; 0x184001c;
   0x1860018; 0x186001c; 0x60000; 0x3fffffc; 0x3fffffc; 0x3fffffc; 0x60000; 0x600c0;
   0x601c0; 0x603c0; 0x60380; 0x60700; 0x60e00; 0x60400; 0x60000; 0x75000;
   0x7f000; 0x3f000; 0x0; 0x0; 0x0; 0x0; 0x202000; 0x0;
   0x0; 0x0; 0x3000; 0x7000; 0x7000; 0x1fffff8; 0x1fffff8; 0x1800018;
   0x1c03018; 0x1803818; 0x1c01c18; 0x1c00; 0x3fffffc; 0x3fffffc; 0x3fffffc; 0xc0700;
   0xe0380; 0x60180; 0x707c0; 0x3bf80; 0x1fc00; 0x7f000; 0x1ffc00; 0x7e3f00;
   0x1f80ff0; 0x1e001f8; 0xc00070; 0x0; 0x0; 0x0; 0x0; 0x202000;
   0x0; 0x0; 0x0; 0x7000; 0x7000; 0xe000; 0x1fffff8; 0x1fffffc;
   0x1800018; 0x180601c; 0x1806018; 0x180601c; 0x6000; 0x1557550; 0x3fffff8; 0x3fffffc;
   0x1f800; 0x3fc00; 0x76e00; 0xf6700; 0x1e6380; 0x3c63c0; 0x7860e0; 0x1f060f0;
   0x3c0603c; 0x380601c; 0x6008; 0x6000; 0x0; 0x0; 0x0; 0x0;
   0x202000; 0x0; 0x0; 0x0; 0x7000; 0x7000; 0x7000; 0x1fffff8;
   0x1fffffc; 0x1800018; 0x180001c; 0x1800018; 0x19fffdc; 0x1fff80; 0x0; 0x0;
   0x0; 0x3fffffc; 0x3fffffc; 0x30e00; 0x30600; 0x30600; 0x30700; 0x3030700;
   0x7030380; 0x30303c0; 0x3ff01f0; 0x3ff007c; 0x1fc001c; 0x0; 0x0; 0x0;
   0x0; 0x202000; 0x0; 0x0; 0x0; 0x7000; 0x6000; 0xe000;
   0x3fffff8; 0x3fffffc; 0x3800018; 0x380181c; 0x3801818; 0x1001c14; 0x2aaaea8; 0x3fffffc;
   0x3fffffc; 0x700; 0x1c700; 0x1c700; 0xe380; 0x861c0; 0x1c71c0; 0x3c38e0;
   0x383870; 0x701c78; 0xff8e3c; 0x1ffff1c; 0x1c2fe08; 0x1800000; 0x0; 0x0;
   0x0; 0x0; 0x202000; 0x0; 0x0; 0x0; 0x7000; 0x6000;
   0x6000; 0x1fffff8; 0x1fffff8; 0x1800818; 0x1801c18; 0x1803818; 0x1b8f018; 0x39e000;
   0x1dc600; 0xe8600; 0x7f0670; 0xe70630; 0xc3c630; 0x1c1e638; 0x1c0f638; 0x3807e18;
   0x7183e1c; 0x3380f08; 0x3807c0; 0x3807f8; 0x1ffe7c; 0x1ffe18; 0x7fc00; 0x0;
   0x0; 0x0; 0x0; 0x202000; 0x0; 0x0; 0x0; 0x7000;
   0x6000; 0xe000; 0x1fffff8; 0x1fffff8; 0x1800018; 0x1800018; 0x1800018; 0x1555554;
   0x3fffffc; 0x3fffffc; 0xe00; 0xf00; 0x700; 0x7fff80; 0x7fffc0; 0x7fffe0;
   0x6001f0; 0x6001fc; 0x60019c; 0x60018c; 0x7fff80; 0x7fff80; 0x6aab80; 0x600180;
   0x0; 0x0; 0x0; 0x0; 0x202000; 0x0; 0x0; 0x0;
   0x7000; 0x6000; 0xe000; 0x3fffff8; 0x3fffffc; 0x3800018; 0x380001c; 0x3800018;
   0x39fffdc; 0x1fff80; 0x0; 0x0; 0x0; 0x3fffffc; 0x3fffffc; 0x6000].
Definition hanzi_data_106 : list N :=
  [0x106000; 0x3861c0; 0x7861c0; 0xf060e0; 0x1e06070; 0x1c06038; 0x380741c; 0x7e08;
   0x3e00; 0x0; 0x0; 0x0; 0x0; 0x202000; 0x0; 0x0;
   0x0; 0x7000; 0xe000; 0x155f554; 0x3fffff8; 0x3fffffc; 0x3800018; 0x380001c;
   0x3bfffd8; 0x3fffc0; 0x3000c0; 0x3000c0; 0x3000c0; 0x3fffc0; 0x3fffc0; 0xc0;
   0xc0; 0x7fffc0; 0x7fffc0; 0x7555c0; 0x6000c0; 0x7000c0; 0x6000c0; 0x7fffc0;
   0x7fffc0; 0x7000c0; 0x0; 0x0; 0x0; 0x0; 0x202000; 0x0;
   0x0; 0x0; 0x7000; 0x7000; 0xe000; 0x1fffff8; 0x1fffff8; 0x1800018;
   0x1806018; 0x1806018; 0x1806018; 0x6000; 0x7fffe0; 0x7fffe0; 0x606060; 0x606060;
   0x606060; 0x606060; 0x7fffe0; 0x7fffe0; 0x606060; 0x606060; 0x606060; 0x6aeae0;
   0x7fffe0; 0x7fffe0; 0x600060; 0x0; 0x0; 0x0; 0x0; 0x202000;
   0x0; 0x0; 0x0; 0x7000; 0x7000; 0x6000; 0x1fffff8; 0x1fffffc;
   0x1800018; 0x180001c; 0x1800018; 0x1bfffdc; 0x3fffc0; 0x3fffc0; 0x6000; 0x61c0;
   0x61c0; 0x5561c0; 0x7fe0c0; 0x7fe0c0; 0x61e0; 0x61e0; 0x63e0; 0x6770;
   0x7e38; 0x7fffc3c; 0x3fff01e; 0x3fd000c; 0x0; 0x0; 0x0; 0x0;
   0x202000; 0x0; 0x0; 0x0; 0x7000; 0x6000; 0xe000; 0x3fffffc;
   0x3fffffc; 0x380001c; 0x380019c; 0x380019c; 0xff81dc; 0xff8ac0; 0xffbfc0; 0xc1bae0;
   0xc1b870; 0xc19838; 0xc19cdc; 0xc19dce; 0xf98f84; 0x798f00; 0x18700; 0x3018380;
   0x30183c0; 0x30181e0; 0x3ff80f8; 0x3ff803c; 0x1ff001c; 0x0; 0x0; 0x0;
   0x0; 0x202000; 0x0; 0x0; 0x0; 0x7000; 0x6000; 0xe000;
   0x1fffff8; 0x1fffffc; 0x1800018; 0x180001c; 0x1800018; 0x19fff9c; 0x1fff80; 0x1c0180;
   0x180180; 0x1fff80; 0x1fff80; 0x1fff80; 0x180180; 0x1c0180; 0x1fff80; 0x1fff80;
   0x180180; 0x1c0180; 0x180180; 0x3fffffc; 0x3fffffc; 0x0; 0x0; 0x0;
   0x0; 0x0; 0x202000; 0x0; 0x0; 0x0; 0x7000; 0x7000;
   0xe000; 0xaaeaa8; 0x1fffffc; 0x1fffff8; 0x180001c; 0x1800018; 0x1d5555c; 0x7fffe0;
   0x7fffe0; 0x6000; 0x7000; 0x6000; 0x157540; 0x3fffe0; 0x7fffe0; 0x66000;
   0x1e7000; 0x386000; 0x707000; 0x206000; 0x3fffffc; 0x3fffffc; 0x0; 0x0;
   0x0; 0x0; 0x0; 0x202000; 0x0; 0x0; 0x0; 0x7000;
   0x7000; 0xe000; 0x1fffff8; 0x1fffff8; 0x1800018; 0x180c118; 0x180c398; 0x180c718;
   0xce00; 0xc420; 0xc0e0; 0xc1e0; 0xe380; 0xe100; 0x6000; 0x3fffffc;
   0x3fffffc; 0x13800; 0xfb800; 0x1f1e00; 0xf80f80; 0x1f007f0; 0x1c000f8; 0x1000030;
   0x0; 0x0; 0x0; 0x0; 0x202000; 0x0; 0x0; 0x0;
   0x7000; 0x7000; 0xe000; 0x3fffff8; 0x3fffff8; 0x3800018; 0x3871c18; 0x38f0c18;
   0x1c1c00; 0x80c00; 0x3fffff8; 0x3fffff8; 0x18e00; 0x218e00; 0x718600; 0x398700;
   0x1d8700; 0xf8380; 0x7c1c0; 0x101e1c0; 0x301fce0; 0x301be78; 0x3ff8c3c; 0x3ff8018;
   0x540000; 0x0; 0x0; 0x0; 0x0; 0x202000; 0x0; 0x0;
   0x0; 0x7000; 0x7000; 0xe000; 0x1fffff8; 0x1fffff8; 0x1800018; 0x180601c;
   0x1806018; 0xfffff0; 0xfffff0; 0xf57570; 0xe06030; 0xe06070; 0xfffff0; 0xfffff0;
   0xe06030; 0xe06070; 0xe06030; 0xfffff0; 0xfffff0; 0xe06070; 0x6020; 0x6000;
   0x6000; 0x6000; 0x0; 0x0; 0x0; 0x0; 0x202000; 0x0;
   0x0; 0x0; 0x7000; 0x6000; 0x1fffffc; 0x1fffff8; 0x1fffffc; 0x1801c18;
   0x1801e1c; 0x19fff18; 0x1fff80; 0xe07e0; 0x71ef0; 0x3bc38; 0x1f810; 0x3f800;
   0x1fdf00; 0x3fe0fe0; 0x3fffffe; 0x1bfffbc; 0x3fffc0; 0x380180; 0x3801c0; 0x380180;
   0x3fffc0; 0x3fff80; 0x3801c0; 0x0; 0x0; 0x0; 0x0; 0x202000;
   0x0; 0x0; 0x0; 0x7000; 0x7000; 0x1557550; 0x1fffff8; 0x1fffffc;
   0x1800018; 0x195555c; 0x1bfffd8; 0x3fffc0; 0x0; 0x1fffc0; 0x3fffc0; 0x3801c0;
   0x3800c0; 0x3fffc0; 0x3fffc0; 0x3d55c0; 0x3800c0; 0x3d55c0; 0x3fffc0; 0x1fffc0;
   0x0; 0x3fffffc; 0x3fffffc; 0x0; 0x0; 0x0; 0x0; 0x0;
   0x202000; 0x0; 0x0; 0x0; 0x7000; 0x6000; 0x3fffffc; 0x3fffffc;
   0x3fffffc; 0x380000c; 0x3d5555c; 0x2ffffe8; 0x7fffe0; 0xe0e00; 0x1e0700; 0x380380;
   0x7fffe0; 0xebffe0; 0x406060; 0x6000; 0x557540; 0xffffe0; 0xfffff0; 0x6000;
   0x6000; 0x6000; 0x3fffffc; 0x3fffffc; 0x0; 0x0; 0x0; 0x0;
   0x0; 0x202000; 0x0; 0x0; 0x0; 0x7000; 0x6000; 0x1fffff8;
   0x1fffff8; 0x1fffff8; 0x1801818; 0x1c01c18; 0x2aaaea8; 0x3fffffc; 0x3fffffc; 0x700;
   0x2aab80; 0x7fffc0; 0x6003e0; 0x7003f8; 0x7fffbe; 0x7fff9c; 0x600380; 0x755780;
   0x7fff80; 0x7fff80; 0x600380; 0x700380; 0x7e0380; 0x3e0380; 0x0; 0x0;
   0x0; 0x0; 0x202000; 0x0; 0x0; 0x0; 0x7000; 0x6000;
   0x1fffffc; 0x3fffffc; 0x3fffffc; 0x380001c; 0x380001c; 0x2ffffe8; 0x7fffe0; 0xc060;
   0xc060; 0xc060; 0x7fffe0; 0x3fffe0; 0x700060; 0x300060; 0x700060; 0x3fffe0;
   0x7fffe0; 0xc060; 0xc060; 0xc060; 0x1ffffe0; 0x1ffffe0; 0x1555540; 0x0;
   0x0; 0x0; 0x0; 0x202000; 0x0; 0x0; 0x0; 0x7000;
   0x7000; 0x3fffffc; 0x3fffffc; 0x380001c; 0x380000c; 0x3d5555c; 0xffffe8; 0xfffff0;
   0xc060; 0x1c070; 0x2aea60; 0x7ffe70; 0x3aae60; 0x700670; 0x300660; 0x700670;
   0x3ffe60; 0x7ffe70; 0x1c060; 0x1c070; 0x1c060; 0x1fffff0; 0x1ffffe0; 0x0;
   0x0; 0x0; 0x0; 0x0; 0x202000; 0x0; 0x0; 0x0].
Definition hanzi_data_107 : list N :=
  [0x7000; 0x6000; 0x3fffffc; 0x3fffffc; 0x3fffffc; 0x380600c; 0x380619c; 0x380618c;
   0x61c0; 0xffffc0; 0xffffe0; 0x6070; 0x6078; 0x6030; 0x3fffffc; 0x3fffffc;
   0x38600; 0x38600; 0x38700; 0x3038700; 0x7038380; 0x30381c0; 0x3ff01f0; 0x3ff007c;
   0x1fe001c; 0x0; 0x0; 0x0; 0x0; 0x202000; 0x0; 0x0;
   0x0; 0x7000; 0x7000; 0x7000; 0x1fffff8; 0x1fffff8; 0x1800018; 0x180001c;
   0x1aaaa98; 0x1bfffdc; 0x3800c0; 0x3801c0; 0x3800c0; 0x3fffc0; 0x3fffc0; 0x0;
   0x0; 0xffffe0; 0xffffe0; 0xe00060; 0xe00060; 0xe00060; 0xe00060; 0xffffe0;
   0xffffe0; 0xe00060; 0x0; 0x0; 0x0; 0x0; 0x202000; 0x0;
   0x0; 0x0; 0x7000; 0x7000; 0x3fffffc; 0x3fffffc; 0x3fffffc; 0x388001c;
   0x39cc01c; 0x38c008; 0x71c000; 0x3fffff0; 0x3fffff0; 0x18030; 0x418070; 0xe38030;
   0x739ff0; 0x731ff0; 0x3f1870; 0x1f1830; 0x1f1c30; 0x20e1c38; 0x71f9d38; 0x31fcf98;
   0x379f79c; 0x3f0700e; 0x1c03004; 0x0; 0x0; 0x0; 0x0; 0x202000;
   0x0; 0x0; 0x0; 0x7000; 0x7000; 0x1557554; 0x3fffffc; 0x3fffffc;
   0x380200c; 0x380701c; 0x3ffffec; 0xfffff0; 0x2eaaa0; 0x1c0300; 0xe0700; 0x60700;
   0x3fffffc; 0x3fffffc; 0x6000; 0x6000; 0x6000; 0xfffff0; 0xfffff0; 0x6000;
   0x6000; 0x6000; 0x6000; 0x6000; 0x0; 0x0; 0x0; 0x0;
   0x202000; 0x0; 0x0; 0x0; 0x7000; 0x6000; 0x155f550; 0x1fffff8;
   0x1fffffc; 0x1806018; 0x195755c; 0x1bfffd8; 0x7fffc0; 0x6000; 0xfffff0; 0xffffe0;
   0x6000; 0x2aaeaa8; 0x3fffffc; 0x2aaeaa8; 0x6000; 0x7fffe0; 0x7fffe0; 0x7000e0;
   0x7000e0; 0x7000e0; 0x7fffe0; 0x7fffe0; 0x7000e0; 0x0; 0x0; 0x0;
   0x0; 0x202000; 0x0; 0x0; 0x0; 0x7000; 0x6000; 0x3fffffc;
   0x3fffffc; 0x380001c; 0x380000c; 0x3bfffdc; 0x2baaac8; 0x3801c0; 0x3fffc0; 0x3fffc0;
   0x3800c0; 0x3fffc0; 0x3fffc0; 0x1c00; 0x2aaaea8; 0x3fffffc; 0x2beafa8; 0xe0380;
   0xf0fc0; 0x7ffc0; 0xff800; 0x7f7fc0; 0x1f80ff8; 0x400078; 0x0; 0x0;
   0x0; 0x0; 0x202000; 0x0; 0x0; 0x0; 0x7000; 0x6000;
   0x1fffffc; 0x1fffff8; 0x1fffffc; 0x1886018; 0x19861dc; 0x19c6398; 0xc6300; 0xe6300;
   0x7fffc0; 0x3fffc0; 0x7000c0; 0x3000c0; 0x7fffc0; 0x3fffc0; 0x7000c0; 0x3000c0;
   0x7fffc0; 0x3fffc0; 0x7000c0; 0x3000c0; 0x7000c0; 0x3e00c0; 0x3e00c0; 0x0;
   0x0; 0x0; 0x0; 0x202000; 0x0; 0x0; 0x0; 0x7000;
   0x7000; 0x1fffffc; 0x1fffff8; 0x1fffffc; 0x1800018; 0x180001c; 0x1bfffd8; 0x3fffc0;
   0x3800; 0x703f00; 0x783780; 0x3c71fc; 0xef838; 0xfde00; 0xfcf80; 0x1de3f0;
   0x19f0f8; 0x39fc18; 0x718e00; 0xf1c7c0; 0x3e1c1f8; 0x3c1e07c; 0x200fc08; 0x7c00;
   0x0; 0x0; 0x0; 0x0; 0x202000; 0x0; 0x0; 0x0;
   0x7000; 0xe000; 0x3fffffc; 0x3fffffc; 0x3fffffc; 0x380000c; 0x3d5555c; 0x2ffffe8;
   0xfffff0; 0x60; 0x7fff70; 0x7fff60; 0x70; 0x60; 0x3fffff0; 0x3ffffe0;
   0x41c670; 0xe18630; 0x7b8670; 0x1f0630; 0x1e0638; 0x3d8638; 0x7f1ff1c; 0x3e03f8e;
   0x100070c; 0x0; 0x0; 0x0; 0x0; 0x202000; 0x0; 0x0;
   0x0; 0x7000; 0x6000; 0x1fffffc; 0x1fffff8; 0x1fffffc; 0x1800218; 0x187071c;
   0x18e0798; 0x3c63c0; 0x7061e0; 0x1e0f078; 0xc1f838; 0x79c10; 0xf0f00; 0x3c07c0;
   0xf801e0; 0x3fffff8; 0x3bffffe; 0x13801dc; 0x3800c0; 0x3801c0; 0x3800c0; 0x3fffc0;
   0x3fffc0; 0x3801c0; 0x0; 0x0; 0x0; 0x0; 0x202000; 0x0;
   0x0; 0x0; 0x7000; 0x6000; 0x3fffffc; 0x3fffff8; 0x3fffffc; 0x3860e18;
   0x3870e1c; 0x3fffff8; 0x7fffe0; 0x60e00; 0x70e00; 0x2aaa80; 0x3fffc0; 0x3aaac0;
   0x3070c0; 0x3070c0; 0x3070c0; 0x30b0c0; 0x131f0c0; 0x331b8c0; 0x701dc00; 0x3018f00;
   0x355c7e0; 0x3ff81fc; 0x1ff007c; 0x0; 0x0; 0x0; 0x0; 0x202000;
   0x0; 0x0; 0x0; 0x7000; 0x7000; 0xe000; 0x1fffff8; 0x1fffffc;
   0x1800018; 0x1bd001c; 0x1bffa18; 0x187ffdc; 0x3c0; 0x1c0; 0xaaaac0; 0xffffc0;
   0xaeaac0; 0xe01c0; 0xe00c0; 0xe01c0; 0x3fffffc; 0x3fffffc; 0x20200; 0x1f0780;
   0x3e03e0; 0x1f001f8; 0x3e0003c; 0x1800018; 0x0; 0x0; 0x0; 0x0;
   0x202000; 0x0; 0x0; 0x0; 0x7000; 0x7000; 0x1fffffc; 0x1fffff8;
   0x1fffffc; 0x1800018; 0x180039c; 0x3fffd80; 0x3fffdc0; 0x300e0; 0x300e0; 0xaba8f0;
   0x1fff8f8; 0xeab8fc; 0x1c018fe; 0xc018ec; 0x1fff8e0; 0xfff8e0; 0x1c018e0; 0xc018e0;
   0x1c018e0; 0xeab8e0; 0x1fff8e0; 0xeab8e0; 0x1c018e0; 0x0; 0x0; 0x0;
   0x0; 0x202000; 0x0; 0x0; 0x0; 0x7000; 0x6000; 0x3fffffc;
   0x3fffffc; 0x380401c; 0x380600c; 0x3fffffc; 0xffffe0; 0x6000; 0x2aeaa0; 0x7fffe0;
   0x606000; 0x1757554; 0x3fffffc; 0x1706000; 0x6aeaa0; 0x7fffe0; 0x6000; 0x61c0;
   0xffe1c0; 0xffe1e0; 0x63e0; 0x7ffff78; 0x3fff83e; 0x3ff400c; 0x0; 0x0;
   0x0; 0x0; 0x202000; 0x0; 0x0; 0x0; 0x7000; 0x6000;
   0x155f554; 0x3fffffc; 0x3fffffc; 0x380000c; 0x380019c; 0x180; 0x1ffff80; 0x1ffbf80;
   0x1c30180; 0x1c30180; 0x1c355d4; 0xc37ffc; 0xe77ffc; 0x660380; 0x7e1bb0; 0x3c3bb8;
   0x3c7398; 0x3c6398; 0x7e639c; 0xe7838c; 0x1e3c380; 0x380e3f0; 0x10041e0; 0x0;
   0x0; 0x0; 0x0; 0x202000; 0x0; 0x0; 0x0; 0x7000;
   0x6000; 0x3fffffc; 0x3fffffc; 0x380401c; 0x380600c; 0x3fffffc; 0x7fffe0; 0x7000;
   0x3f800; 0x1f9f00; 0x7c07f0; 0x17555f4; 0x3fffffc; 0x3fffffc; 0x300000; 0x31ffe0].
Definition hanzi_data_108 : list N :=
  [0x30ffe0; 0x31c060; 0x30c060; 0x31ffe0; 0x30ffe0; 0x300060; 0x3f0020; 0x1f0000;
   0x0; 0x0; 0x0; 0x0; 0x202000; 0x0; 0x0; 0x0;
   0x7000; 0x6000; 0x1fffffc; 0x1fffff8; 0x1fffffc; 0x1800018; 0x1bfffdc; 0x1bfffd8;
   0x157540; 0x6000; 0x7fffe0; 0x7fffe0; 0x7060e0; 0x6060e0; 0x7fffe0; 0x7fffe0;
   0x7060e0; 0x6060e0; 0x7fffe0; 0x7fffe0; 0x60600; 0x3f0f80; 0x1fc03f0; 0x3e000fc;
   0x180001c; 0x0; 0x0; 0x0; 0x0; 0x202000; 0x0; 0x0;
   0x0; 0x7000; 0x6000; 0x1fffffc; 0x3fffff8; 0x3fffffc; 0x3801c18; 0x39c7c1c;
   0x38ee618; 0x774760; 0xe38660; 0x1e9f770; 0x1d87e38; 0x3981f1c; 0x31fffc8; 0x1ffffc;
   0x7c; 0x601c; 0x606060; 0x606060; 0x606060; 0x606060; 0x6aeae0; 0x7fffe0;
   0x7fffe0; 0x600000; 0x0; 0x0; 0x0; 0x0; 0x202000; 0x0;
   0x0; 0x0; 0x7000; 0x6000; 0x1fffffc; 0x1fffffc; 0x1fffffc; 0x180001c;
   0x186001c; 0x61ff0; 0xfe1ff0; 0xfe0000; 0x60000; 0x60000; 0xfffffc; 0xfffffc;
   0x608660; 0x73c660; 0x3f0660; 0x1e0660; 0x3f0670; 0x3778630; 0x761e630; 0x300c638;
   0x3fffe1c; 0x3fffc0e; 0x55500c; 0x0; 0x0; 0x0; 0x0; 0x202000;
   0x0; 0x0; 0x0; 0x7000; 0x6000; 0x1fffffc; 0x1fffff8; 0x180001c;
   0x1800018; 0x1bfffdc; 0x1aaaa98; 0x155540; 0x3fffc0; 0x3801c0; 0x3800c0; 0x3fffc0;
   0x3fffc0; 0x0; 0xffffe0; 0xfffff0; 0xe06060; 0xf57570; 0xffffe0; 0xf57570;
   0xe06060; 0xfffff0; 0xffffe0; 0xe00070; 0x0; 0x0; 0x0; 0x0;
   0x202000; 0x0; 0x0; 0x0; 0x7000; 0xe000; 0x3fffffc; 0x3fffff8;
   0x3d5555c; 0x3860308; 0x1060714; 0x60338; 0x1fff738; 0x1fff338; 0x60738; 0x603f8;
   0x607f8; 0x3fffb00; 0x3ffff00; 0x1f03fc; 0x1f87fc; 0x378330; 0x76c730; 0xe6e338;
   0x1c67718; 0x3863f18; 0x3061f1c; 0x60b0c; 0x6070c; 0x0; 0x0; 0x0;
   0x0; 0x202000; 0x0; 0x0; 0x0; 0x7000; 0x6000; 0x3fffffc;
   0x3fffff8; 0x386061c; 0x3860618; 0x3fffffc; 0x7fffe0; 0x60600; 0x60600; 0x7fffe0;
   0x2eaea0; 0x60600; 0x3fffffc; 0x3fffffc; 0xe0700; 0x1c3b80; 0x38f9c0; 0x1f3c0f0;
   0x3c1003c; 0x380071c; 0xff80; 0x7fc00; 0x1f8000; 0x1c0000; 0x0; 0x0;
   0x0; 0x0; 0x202000; 0x0; 0x0; 0x0; 0x7000; 0x6000;
   0x3fffffc; 0x3fffff8; 0x3d5555c; 0x3800018; 0x3ffffdc; 0xbaeac8; 0x7060c0; 0x3fffc0;
   0x7fffc0; 0x3060c0; 0x7fffc0; 0x3fffc0; 0x6000; 0xfffff0; 0x1fffff0; 0xeaeab0;
   0x1c66030; 0xcfe030; 0x1dfffb0; 0xd8afb0; 0x1c00030; 0xf80030; 0xf80030; 0x0;
   0x0; 0x0; 0x0; 0x202000; 0x0; 0x0; 0x0; 0x7000;
   0xe000; 0x3fffffc; 0x3fffff8; 0x380001c; 0x3fff8c8; 0x3fff9dc; 0xe000c0; 0xfff9dc;
   0xeaa8d8; 0xe001d8; 0xfff8f8; 0xfffdf0; 0x2aaaad0; 0x3ffffc0; 0x3800ec0; 0x3ffffe0;
   0x3fffef8; 0x7071fe; 0x38e0cc; 0x1fc1c4; 0xf80c0; 0x7ff1c0; 0x3f8fec0; 0x1c01dc0;
   0x0; 0x0; 0x0; 0x0; 0x202000; 0x0; 0x0; 0x0;
   0x7000; 0x6000; 0x3fffffc; 0x3fffffc; 0x3870c1c; 0x3830c0c; 0x3fffffc; 0x7fffe0;
   0x70c00; 0x7fffc0; 0x7fffc0; 0x7000c0; 0x7fffc0; 0x7fffc0; 0x7000c0; 0x7aaac0;
   0x7fffc0; 0x6000; 0x3fffffc; 0x3fffffc; 0x1f800; 0xf9e00; 0x7f0fd0; 0x3f803fc;
   0x3c0007c; 0x0; 0x0; 0x0; 0x0; 0x202000; 0x0; 0x0;
   0x0; 0x7000; 0x6000; 0x3fffffc; 0x3fffffc; 0x380011c; 0x380e38c; 0x3ffdfdc;
   0xffbfe0; 0xe19870; 0x639db8; 0x370f1c; 0x1e0628; 0x3fffe0; 0xffffc0; 0x7f7fcf0;
   0x380003c; 0x7ffffc; 0x7fffe0; 0x6100; 0x1c6380; 0x7c61c0; 0xf060e0; 0x3c0607c;
   0x1807c38; 0x7c00; 0x0; 0x0; 0x0; 0x0; 0x202000; 0x0;
   0x0; 0x0; 0x7000; 0x6000; 0x3fffffc; 0x3fffff8; 0x380001c; 0x3ffffe8;
   0x3fffffc; 0x3000; 0x3fffc0; 0x3aaac0; 0x3fffc0; 0x3fffc0; 0x3555c0; 0x3fffc0;
   0x3001c0; 0x3fffffc; 0x3fffffc; 0x3801c0; 0x7ffff0; 0x3fffff8; 0x7dc181c; 0x20c1c00;
   0xc0f00; 0xfc3f0; 0x7c1e0; 0x0; 0x0; 0x0; 0x0; 0x202000;
   0x0; 0x0; 0x0; 0x7000; 0x7000; 0x1fffffc; 0x1fffff8; 0x180001c;
   0x1800318; 0x1fff31c; 0xfff318; 0x30318; 0x2ba318; 0x7ff318; 0x6ba3f8; 0x6183f8;
   0x618300; 0x3fffb00; 0x3fffbfc; 0x3fc; 0xffe330; 0x1fff330; 0xc06330; 0x1c07338;
   0xc06318; 0x1fff31c; 0xffe30c; 0x1c0730c; 0x0; 0x0; 0x0; 0x0;
   0x202000; 0x0; 0x0; 0x0; 0x7000; 0x6000; 0x3fffffc; 0x3fffffc;
   0x380001c; 0x3ff9fec; 0x3ffdffc; 0x6318e0; 0x6f19c0; 0x6c1f80; 0x7f5fc0; 0x6ff9f8;
   0x61fc78; 0xf9e00; 0x7f47c0; 0x7f8f1f8; 0x3c03f7c; 0x70fc0; 0x3f000; 0x30fe00;
   0x7c1fc0; 0xf8080; 0x7fc00; 0x7ff0; 0x7f0; 0x0; 0x0; 0x0;
   0x0; 0x202000; 0x0; 0x0; 0x0; 0x7000; 0x7000; 0x1fffffc;
   0x1fffff8; 0x1870e1c; 0x1860e18; 0x1fffffc; 0x7fffe0; 0x70e00; 0x7fffe0; 0x7fffe0;
   0x60e00; 0x3fffffc; 0x3fffffc; 0x1c6700; 0x386380; 0x7061f0; 0x1fffff8; 0x3dfffbe;
   0x26208; 0xf6700; 0x3e63c0; 0x7860f0; 0x207c20; 0x7c00; 0x0; 0x0;
   0x0; 0x0; 0x202000; 0x0; 0x0; 0x0; 0x7000; 0x7000;
   0x1fffffc; 0x1fffff8; 0x180601c; 0x1806018; 0x1fffffc; 0x3fffe0; 0xc39c10; 0xe70e70;
   0x7e07e0; 0x3fffc0; 0x1fffff0; 0x3f801fe; 0x39fff9c; 0x1fff80; 0x180180; 0x1fff80;
   0x1fff80; 0x86080; 0x1c61c0; 0x7860e0; 0xf06078; 0x1c07e38; 0x7c10; 0x0;
   0x0; 0x0; 0x0; 0x202000; 0x0; 0x0; 0x0; 0x7000].
Definition hanzi_data_109 : list N :=
  [0xe000; 0x3fffffc; 0x3fffff8; 0x395555c; 0x3bfffc8; 0x719cc0; 0x2188c0; 0x7fffc0;
   0x2aaa80; 0x3fffffc; 0x3fffffc; 0x0; 0x3fffc0; 0x3fffc0; 0x3000c0; 0x3fffc0;
   0xbfffc0; 0x1e1de00; 0xfb8fe0; 0x1f07fc; 0x3e833c; 0x3fcff00; 0x3e03f80; 0x1000700;
   0x0; 0x0; 0x0; 0x0; 0x202000; 0x0; 0x0; 0x0;
   0xe0000; 0xe0000; 0xe0000; 0xe0000; 0xe0000; 0xe0000; 0x3fffffc; 0x3fffffc;
   0xe0000; 0xe0000; 0xe0040; 0xe00e0; 0xe01c0; 0xe0380; 0xe0780; 0xe0700;
   0xe0f00; 0xe0e00; 0xe0400; 0xe0000; 0xe0000; 0xe0000; 0xff800; 0xff800;
   0x7f000; 0x0; 0x0; 0x0; 0x0; 0x202000; 0x0; 0x0;
   0x0; 0x600000; 0x600000; 0x600000; 0x600800; 0x601ffc; 0x601ffc; 0x7fffc00;
   0x3fffc00; 0x7fffc00; 0x600c10; 0x600c38; 0x608e70; 0x61c6e0; 0x6187c0; 0x638780;
   0x630700; 0x670f80; 0x620f80; 0x601dc0; 0x6038e0; 0x6010f0; 0x600070; 0x75003c;
   0x7e001c; 0x3e0008; 0x0; 0x0; 0x0; 0x0; 0x202000; 0x0;
   0x0; 0x0; 0x7000; 0x6000; 0x7000; 0xfffff0; 0xfffff0; 0xaaeaa0;
   0x7000; 0x6000; 0x1557554; 0x3fffffc; 0x3fffffc; 0xc0000; 0xc0000; 0xc0000;
   0x3fffffc; 0x3fffffc; 0xc0080; 0xc01c0; 0xc0380; 0xc0700; 0xc0f00; 0xc0e00;
   0xfe000; 0xfe000; 0x7e000; 0x0; 0x0; 0x0; 0x0; 0x202000;
   0x0; 0x0; 0x0; 0x0; 0x7fffe0; 0x7fffe0; 0x700000; 0x700000;
   0x7fffc0; 0x7fffc0; 0x700000; 0x700000; 0x7aaaa0; 0x7fffe0; 0xc0000; 0xc0000;
   0xc0000; 0x3fffffc; 0x3fffffc; 0xc0300; 0xc0700; 0xc0f00; 0xc0e00; 0xc1c00;
   0xc0800; 0xfe000; 0xfc000; 0x7c000; 0x0; 0x0; 0x0; 0x0;
   0x202000; 0x0; 0x0; 0x0; 0x0; 0x7ffff0; 0x7ffff0; 0x600030;
   0x700070; 0x600030; 0x7ffff0; 0x7ffff0; 0x1800070; 0x1800030; 0x1fffff0; 0xffffe0;
   0x40000; 0xc0000; 0xc0000; 0x3fffffc; 0x3fffffc; 0xc0180; 0xc0380; 0xc0700;
   0xc0e00; 0xc0c00; 0xc0400; 0xfe000; 0x7e000; 0x0; 0x0; 0x0;
   0x0; 0x202000; 0x0; 0x0; 0x0; 0x7000; 0x3000; 0x1fffff8;
   0x1fffff8; 0x1557d50; 0x3800; 0xfffff0; 0xffffe0; 0x1c00; 0xc00; 0x3fffffc;
   0x3fffffc; 0x15d5754; 0x180700; 0x180700; 0x1ffff80; 0x1ffffc0; 0x1800e0; 0x180ef0;
   0x181c38; 0x18381c; 0x187008; 0x1d1000; 0x1f8000; 0x1f8000; 0x0; 0x0;
   0x0; 0x0; 0x202000; 0x0; 0x0; 0x0; 0xe00180; 0xe00180;
   0xe00180; 0xe00ba8; 0xe03ffc; 0xe03ff8; 0x7ffc180; 0x3ffc180; 0x7ffc180; 0xe03ffc;
   0xe03ffc; 0xe38080; 0xe30180; 0xe30180; 0xe715d4; 0xe63ffc; 0xee3ffc; 0xe40180;
   0xe00180; 0xe00180; 0xe07f80; 0xe07ffe; 0xf407fc; 0xfe000c; 0x7c0000; 0x0;
   0x0; 0x0; 0x0; 0x202000; 0x0; 0x0; 0x0; 0xe00380;
   0xe00380; 0xe00180; 0xe01ff0; 0xe01ff0; 0xe01830; 0x7ffd830; 0x3ffdff0; 0x7ffdff0;
   0xe01830; 0xe11d70; 0xe19ff0; 0xe39d70; 0xe31830; 0xe71ffc; 0xe61ffc; 0xee1ffc;
   0xe41b80; 0xe01bc0; 0xe018e0; 0xe018f0; 0xe01838; 0xe0181c; 0x7e1f88; 0x7c1f00;
   0x0; 0x0; 0x0; 0x0; 0x202000; 0x0; 0x0; 0x0;
   0x601c0; 0x70180; 0x1ff81c0; 0x3ffc180; 0x1c0f1cc; 0xe0b99c; 0x71ddf8; 0x3b81b0;
   0x1f01f0; 0xf81a0; 0x73f1c0; 0x60fd80; 0x7019c0; 0x3fffdc0; 0x3fffdf0; 0x6001f8;
   0x7071fc; 0x60719e; 0x70e1cc; 0x61c180; 0x71c1c0; 0x608180; 0x7001c0; 0x7e0180;
   0x3e01c0; 0x0; 0x0; 0x0; 0x0; 0x202000; 0x0; 0x0;
   0x0; 0xc00000; 0xc0fff8; 0xc0fff8; 0xc0e018; 0xc0e018; 0xc0e018; 0x7fffff8;
   0x3fffff8; 0x7ff0018; 0xc00018; 0xc07fd8; 0xc37fd8; 0xc70018; 0xce0018; 0xccfff8;
   0xccfff8; 0xdc0c18; 0xc86c98; 0xc06cdc; 0xc0ccd8; 0xc0cc7c; 0xc0cc6c; 0xc04c2e;
   0xfc0f8c; 0x7c0780; 0x0; 0x0; 0x0; 0x0; 0x202000; 0x0;
   0x0; 0x0; 0x1c0180; 0xc0380; 0xe0700; 0x3fffffc; 0x3fffffc; 0x19800;
   0xfffff0; 0xfffff0; 0xe19c70; 0xff8e30; 0xff07f0; 0xe001b0; 0xfffff0; 0xe00030;
   0xfffff0; 0xfffff0; 0xc0000; 0x3fffffc; 0x3fffffc; 0xc0180; 0xc07c0; 0xc0f00;
   0xc1e00; 0xfc800; 0x7c000; 0x0; 0x0; 0x0; 0x0; 0x202000;
   0x0; 0x0; 0x0; 0x6000; 0x6000; 0x6000; 0x6000; 0x6000;
   0x6000; 0x6000; 0x3860c0; 0x7060e0; 0x6060e0; 0xe060e0; 0xe06060; 0x1c06070;
   0x1c06030; 0x3806038; 0x3806038; 0x700601c; 0x700600e; 0x700600c; 0x6000; 0x6000;
   0x6000; 0x7500; 0x7f00; 0x3f00; 0x0; 0x0; 0x0; 0x0;
   0x202000; 0x0; 0x0; 0x0; 0x7000; 0x6000; 0x7000; 0x6000;
   0x1070c0; 0x3860c0; 0x7070c0; 0x6060e0; 0xe07070; 0xc06070; 0x1c07030; 0x3806038;
   0x300701c; 0x1006008; 0x707000; 0x706000; 0x387000; 0x1e0000; 0xf0000; 0x7c000;
   0x1f000; 0xfe00; 0x1ffc; 0x3fc; 0x5c; 0x0; 0x0; 0x0;
   0x0; 0x202000; 0x0; 0x0; 0x0; 0x700; 0x300; 0x380;
   0x380; 0x15555c0; 0x3ffffc0; 0x3ffffe0; 0x1806070; 0x1c06078; 0xc06038; 0xe0601c;
   0x406088; 0x1c6380; 0x386180; 0x7061c0; 0xe060e0; 0xe060f0; 0x1c06070; 0x1c06038;
   0x380601c; 0x1006018; 0x6000; 0x7500; 0x7e00; 0x7e00; 0x0; 0x0;
   0x0; 0x0; 0x202000; 0x0; 0x0; 0x0; 0x0; 0x7fff8;
   0x7fff8; 0x60300; 0x70700; 0x1ff0300; 0x1ff0380; 0x1800380; 0x1c001c0; 0x18000c0;
   0x1c040e0; 0xc06078; 0xf8603c; 0x786008; 0xc6180; 0x1c6180; 0x3861c0; 0x3060e0].
Definition hanzi_data_110 : list N :=
  [0x706070; 0xe06078; 0x1c0603c; 0x1c06018; 0x7400; 0x7e00; 0x3c00; 0x0;
   0x0; 0x0; 0x0; 0x202000; 0x0; 0x0; 0x0; 0x7000;
   0x6000; 0x7080; 0x1c6380; 0x3871c0; 0x7060c0; 0xf070e0; 0xe06070; 0x1c07078;
   0x3806038; 0x1007018; 0x6000; 0x7000; 0x6000; 0x3fffffc; 0x3fffffc; 0xf000;
   0xf800; 0x1dc00; 0x39e00; 0xf0f00; 0x3e0780; 0x1fc03f0; 0x3e000fc; 0x1c0001c;
   0x0; 0x0; 0x0; 0x0; 0x202000; 0x0; 0x0; 0x0;
   0x6000; 0x6000; 0x6000; 0x86380; 0x3c61c0; 0x7060c0; 0xf060e0; 0x1c06070;
   0x3c0603c; 0x380601c; 0x1006008; 0x0; 0x6000; 0x6000; 0x6000; 0xfffff0;
   0xfffff0; 0xaaeaa0; 0x6000; 0x6000; 0x6000; 0x6000; 0x7fffffc; 0x3fffffc;
   0x0; 0x0; 0x0; 0x0; 0x0; 0x202000; 0x0; 0x0;
   0x0; 0x6000; 0xe06030; 0xe06070; 0x6060e0; 0x7061c0; 0x3861c0; 0x1c6180;
   0x6080; 0x1fffff0; 0xfffff0; 0x1c00030; 0xc00030; 0x1c7fe30; 0xc7fe30; 0x1c7fe30;
   0xc60630; 0x1c60630; 0xc60630; 0x1c7fe30; 0xc7fe30; 0x1c55630; 0xc00630; 0x1d40030;
   0xfc0030; 0x7c0030; 0x0; 0x0; 0x0; 0x0; 0x202000; 0x0;
   0x0; 0x0; 0x6000; 0x86100; 0x1e6700; 0x386380; 0x7061e0; 0xe060f0;
   0x1c0607c; 0x6030; 0x7000; 0x3000; 0x3fffffc; 0x3fffffc; 0x1dc00; 0x78e00;
   0x1f4780; 0xf863e0; 0x7f061fe; 0x38c633c; 0x1e6384; 0x3861c0; 0x7061e0; 0xe060f0;
   0xc06078; 0x7e00; 0x7c00; 0x0; 0x0; 0x0; 0x0; 0x202000;
   0x0; 0x0; 0x0; 0x6000; 0x7060e0; 0x7061c0; 0x386180; 0x1c6380;
   0x1fffff8; 0x1fffff8; 0x1800018; 0x1800018; 0x1bffff8; 0x1bffff8; 0x2aaa80; 0x0;
   0x0; 0x3fffffc; 0x3fffffc; 0x1e00; 0xe0e00; 0x1e0700; 0x380380; 0x7801c0;
   0x7fe8e0; 0xfffff0; 0x1c0bff0; 0xc00010; 0x0; 0x0; 0x0; 0x0;
   0x202000; 0x0; 0x0; 0x0; 0x7000; 0x7000; 0x7000; 0x7000;
   0x7000; 0x3000; 0x1557554; 0x3fffffc; 0x3fffffc; 0x3000; 0x1f000; 0x1b800;
   0x1f800; 0x19800; 0x1dc00; 0x19c00; 0x1ce00; 0x18e00; 0x701c700; 0x3018380;
   0x701c3c0; 0x30181e0; 0x3ffc0f8; 0x3ff803c; 0x1ff001c; 0x0; 0x0; 0x0;
   0x0; 0x202000; 0x0; 0x0; 0x0; 0x43000; 0xe3000; 0x3c3000;
   0x783000; 0xf03000; 0x403000; 0x3fffffc; 0x3fffffc; 0x3fffffc; 0x3800; 0x1f800;
   0xf800; 0x1d800; 0xd800; 0x1dc00; 0xcc00; 0x1ce00; 0x100ce00; 0x701c700;
   0x300c380; 0x301c1c0; 0x380c0e0; 0x3ffc07c; 0x1ff803c; 0x7d001c; 0x0; 0x0;
   0x0; 0x0; 0x202000; 0x0; 0x0; 0x0; 0x70060; 0x30060;
   0x30060; 0x38060; 0x1ff8060; 0x1ff9ffc; 0x181dffc; 0x180c660; 0x180e760; 0x1806660;
   0x183c760; 0x1870660; 0x1c60770; 0x18e0660; 0x1dc0770; 0x1800630; 0x1c00730; 0xc00630;
   0xd40730; 0xfc0638; 0x77c0718; 0x3000618; 0x3fffe1c; 0x3fffe0e; 0x7ff00c; 0x0;
   0x0; 0x0; 0x0; 0x202000; 0x0; 0x0; 0x0; 0x600;
   0xe00; 0x1c00e00; 0x1fffc00; 0x1fffffc; 0x201ff8; 0x701800; 0x3c3800; 0x1f7000;
   0x383e000; 0x187ff00; 0x1bf9ff8; 0x1fe01f0; 0xe00000; 0x1555554; 0x3fffffc; 0x3fffffc;
   0x30600; 0x30600; 0x30700; 0x1030700; 0x3030380; 0x3d701f0; 0x3ff00fc; 0x1fc001c;
   0x0; 0x0; 0x0; 0x0; 0x202000; 0x0; 0x0; 0x0;
   0x10e00; 0x38e00; 0x1f0e00; 0x1e0e00; 0x180e00; 0x3fffffc; 0x3fffffc; 0x20ce00;
   0x70c600; 0x3cc600; 0x1fc600; 0xc3c600; 0xf0c700; 0x38c700; 0x1fc700; 0x387c300;
   0x1e1c380; 0x78c380; 0x13ec1c0; 0x30fc0c0; 0x703f0e0; 0x300fe70; 0x3ffdc7c; 0x1ff801c;
   0x8; 0x0; 0x0; 0x0; 0x0; 0x202000; 0x0; 0x0;
   0x0; 0x1c0; 0x80; 0x1ffe1c0; 0x1ffe0c0; 0xc01c0; 0xc3ffc; 0xc3ffc;
   0xc00c0; 0xc01c0; 0x1ffc3c0; 0x1ffc7c0; 0xc03c0; 0xc07c0; 0xc03c0; 0xc07c0;
   0xc03e0; 0xc0760; 0x3fff360; 0x3fff770; 0x330; 0x7000738; 0x3000338; 0x3ffff1c;
   0x3fffe0e; 0x555004; 0x0; 0x0; 0x0; 0x0; 0x202000; 0x0;
   0x0; 0x0; 0x1c0060; 0xc0060; 0x1c0060; 0x1e0060; 0x3f0060; 0x739ffc;
   0xe3dffc; 0x1c1e360; 0x7c0f770; 0x161a360; 0x618770; 0x618360; 0x618770; 0x618370;
   0x618770; 0x618330; 0x61c730; 0x60c330; 0x60e738; 0x60e338; 0x1607718; 0x300271c;
   0x3ffff1c; 0x3fffe0e; 0x7ff00c; 0x0; 0x0; 0x0; 0x0; 0x202000;
   0x0; 0x0; 0x0; 0x1c01c0; 0x4c0180; 0xec0380; 0xcc3ffc; 0x1cc7ffc;
   0x18c2aa8; 0xc0000; 0x3ffdff8; 0x3ffdff8; 0xc1818; 0xc1818; 0x3e1818; 0x3e1ff8;
   0x361ff8; 0x360380; 0x360bb0; 0x371fb0; 0x331bb0; 0x333398; 0x233b398; 0x631d39c;
   0x631c38c; 0x7f0e380; 0x3f073e0; 0x14061e0; 0x0; 0x0; 0x0; 0x0;
   0x202000; 0x0; 0x0; 0x0; 0x198070; 0x198030; 0x199870; 0x2b99830;
   0x3fd9870; 0x2ad9830; 0x2d9ffc; 0x379ffe; 0xe799f0; 0xc199b0; 0x18191f0; 0x81b0;
   0x1fff9b0; 0xfff9b0; 0x1d999b0; 0xc999b0; 0x1d999b0; 0xc999b8; 0x3fffd98; 0x3fffd98;
   0x100019c; 0x300019c; 0x3ffff9c; 0x3ffff0c; 0xc; 0x0; 0x0; 0x0;
   0x0; 0x202000; 0x0; 0x0; 0x0; 0x0; 0xaaaaa0; 0xffffe0;
   0xffffe0; 0xc000e0; 0xc000e0; 0xc000e0; 0xc000e0; 0xffffe0; 0xffffe0; 0xffffe0;
   0xe0; 0x60; 0x60; 0x60; 0x60; 0x70; 0x70; 0x70;
   0x30; 0x38; 0x38; 0x1c; 0xc; 0x8; 0x0; 0x0;
   0x0; 0x0; 0x202000; 0x0; 0x0; 0x0; 0x0; 0x0].
Definition hanzi_data_111 : list N :=
  [0x7ffff0; 0x7ffff0; 0x603800; 0x603800; 0x603800; 0x603800; 0x3fffffc; 0x3fffffc;
   0x1757d54; 0x603800; 0x603800; 0x603800; 0x757d50; 0x7ffff0; 0x7ffff0; 0x601c00;
   0x1c00; 0xe00; 0x700; 0x3c0; 0x1f0; 0xf8; 0x38; 0x0;
   0x0; 0x0; 0x0; 0x202000; 0x0; 0x0; 0x0; 0x0;
   0xffffe0; 0xffffe0; 0xffffe0; 0xe000e0; 0xe000e0; 0xe000e0; 0xe000e0; 0xe000e0;
   0xe000e0; 0xffffe0; 0xffffe0; 0x1c0e0; 0x180e0; 0x18060; 0x38060; 0x70070;
   0x70070; 0xe0070; 0x1e0030; 0x3c0038; 0x780038; 0x1f0001c; 0x3c0000e; 0x100000c;
   0x0; 0x0; 0x0; 0x0; 0x202000; 0x0; 0x0; 0x0;
   0x0; 0xaaaaa0; 0x1fffff0; 0xfffff0; 0x1c00070; 0xc00070; 0x1c00070; 0xeaaaf0;
   0x1fffff0; 0xaaeaf0; 0x7070; 0x6070; 0x7070; 0x3fffb0; 0x3ffff0; 0x383030;
   0x383030; 0x383830; 0x1383838; 0x6381c38; 0x7381c18; 0x6380e18; 0x77807dc; 0x3f803ce;
   0x1f000cc; 0x0; 0x0; 0x0; 0x0; 0x202000; 0x0; 0x0;
   0x0; 0x0; 0xaaaaa0; 0xffffe0; 0xeaaae0; 0xe00060; 0xe00060; 0xe00060;
   0xffffe0; 0xffffe0; 0x60; 0xc60; 0xc60; 0x700c60; 0xf80c60; 0x3f0c60;
   0x7ec60; 0x1fc70; 0x3c70; 0x1800c70; 0x1800c30; 0x1800c30; 0x1c00c38; 0x1fffc18;
   0xfff81c; 0x18; 0x0; 0x0; 0x0; 0x0; 0x202000; 0x0;
   0x0; 0x0; 0x0; 0xffffe0; 0xffffe0; 0xe000e0; 0xe000e0; 0xe000e0;
   0xe000e0; 0xeaaae0; 0xffffe0; 0xffffe0; 0xc0060; 0xc0060; 0x1c0470; 0x383e70;
   0x71fc70; 0x73e030; 0x1e30038; 0x3c00018; 0x780001c; 0x300038c; 0x7fc0; 0x1fe00;
   0xff000; 0x1f0000; 0x1c0000; 0x0; 0x0; 0x0; 0x0; 0x202000;
   0x0; 0x0; 0x0; 0x0; 0xfffff0; 0x1fffff0; 0xeaaab0; 0x1c00070;
   0xc00030; 0x1fffff0; 0xfffff0; 0x1c0070; 0x3fe030; 0x7fff0; 0xff30; 0x74e030;
   0xffe030; 0x1fffb0; 0xffb0; 0x1f0e030; 0x3ffe038; 0x1fff78; 0xffd8; 0x300e1dc;
   0x300e01c; 0x3ffe01c; 0x1ffc00e; 0xff000c; 0x0; 0x0; 0x0; 0x0;
   0x202000; 0x0; 0x0; 0x0; 0x0; 0xfffff0; 0x1fffff0; 0xc00030;
   0x1c00070; 0xc00030; 0x1fffff0; 0xfffff0; 0x1fffff0; 0x18030; 0x18070; 0x1818030;
   0x1e3bfb0; 0xe3bfb0; 0x7f9830; 0x1f9830; 0xd9c30; 0x1d8c38; 0x398e38; 0x718718;
   0x1f1879c; 0x3c183dc; 0x101d1dc; 0x1f80e; 0xf000; 0x0; 0x0; 0x0;
   0x0; 0x202000; 0x0; 0x0; 0x0; 0x0; 0x2aaaa0; 0x7ffff0;
   0x6aaae0; 0x600070; 0x600060; 0x755570; 0x7fffe0; 0x7ffff0; 0x60; 0x1555570;
   0x1ffffe0; 0x1fffff0; 0x1800030; 0x1c7ff70; 0x187fe30; 0x1c7ff30; 0x1860638; 0x1c60738;
   0x1c60618; 0x1c7ff1c; 0xc7fe0c; 0xc0070e; 0xfc000c; 0x7c0000; 0x0; 0x0;
   0x0; 0x0; 0x202000; 0x0; 0x0; 0x0; 0x0; 0xfffff0;
   0x1fffff0; 0xeaaab0; 0x1c00070; 0xc00030; 0x1d55570; 0xfffff0; 0x1fffff0; 0x20230;
   0x60770; 0x60330; 0x1860770; 0x1c6ab30; 0xf6ff70; 0x3eab30; 0x1e0730; 0x60330;
   0x60738; 0x3060338; 0x706c718; 0x306fb1c; 0x3fe7f1c; 0x3fe0f8e; 0x1f4030c; 0x0;
   0x0; 0x0; 0x0; 0x202000; 0x0; 0x0; 0x0; 0x0;
   0xfffff0; 0x1fffff0; 0xeaaab0; 0x1c00070; 0xc00030; 0x1fffff0; 0xfffff0; 0x1555570;
   0x30; 0xffff70; 0xfffe30; 0x555530; 0x30; 0x30; 0x3ffffb0; 0x3ffffb0;
   0x7038; 0x183838; 0x381c18; 0x701c18; 0xe80e1c; 0xffff9c; 0x1cfff0e; 0x1c0010c;
   0x0; 0x0; 0x0; 0x0; 0x202000; 0x0; 0x0; 0x0;
   0x0; 0xfffff0; 0x1fffff0; 0xc00030; 0x1c00070; 0xc00030; 0x1fffff0; 0xfffff0;
   0x70; 0x30; 0x7fff70; 0x7ffe30; 0x700770; 0x618630; 0x71c770; 0x618630;
   0x71c730; 0x618638; 0x71c738; 0x62c638; 0xf7018; 0x3e781c; 0xf83f1c; 0x1e00f8e;
   0x180038c; 0x0; 0x0; 0x0; 0x0; 0x202000; 0x0; 0x0;
   0x0; 0x0; 0xaaaaa0; 0x1fffff0; 0xfffff0; 0x1c00070; 0xc00070; 0x1fffff0;
   0xfffff0; 0x55d570; 0x18070; 0x18070; 0x3fffff0; 0x3fffff0; 0x18030; 0x18070;
   0x18030; 0xffff30; 0xffff30; 0xc00738; 0xc00338; 0xc00718; 0xc00318; 0xffff1c;
   0xffff0e; 0xc0070c; 0x0; 0x0; 0x0; 0x0; 0x202000; 0x0;
   0x0; 0x0; 0x0; 0xaaaaa0; 0x1fffff0; 0xeaaab0; 0x1c00070; 0xc00030;
   0x1fffff0; 0xfffff0; 0x1fffff0; 0x18030; 0xc18770; 0xc18630; 0xc18770; 0xc18630;
   0xffff30; 0xfffe30; 0x18030; 0x1818338; 0x1c18338; 0x1818338; 0x1c18318; 0x1818318;
   0x1ffff1c; 0x1ffff0e; 0x1c0000c; 0x0; 0x0; 0x0; 0x0; 0x202000;
   0x0; 0x0; 0x0; 0x0; 0xfffff0; 0x1fffff0; 0xc00030; 0x1c00070;
   0xc00030; 0x1fffff0; 0xfffff0; 0x70; 0x618630; 0x71c670; 0x618630; 0x3ffffb0;
   0x3ffffb0; 0x3ffffb0; 0x618630; 0x71c630; 0x618638; 0x7fc638; 0x7f8638; 0x618;
   0x618; 0x1fffe1c; 0x1fffe0e; 0x8; 0x0; 0x0; 0x0; 0x0;
   0x202000; 0x0; 0x0; 0x0; 0x0; 0xaaaaa0; 0x1fffff0; 0xeaaab0;
   0x1c00070; 0xc00030; 0x1d55570; 0xfffff0; 0x1fffff0; 0x18030; 0x18070; 0x18030;
   0x1ffff70; 0x1ffff30; 0x1c18370; 0x1c18330; 0x1c18330; 0x1ffff30; 0x1ffff38; 0x1c18338;
   0x1c18318; 0x1c18318; 0x1ffff1c; 0x1ffff0e; 0x1c0030c; 0x0; 0x0; 0x0;
   0x0; 0x202000; 0x0; 0x0; 0x0; 0x0; 0xaaaaa0; 0x1fffff0;
   0xeaaab0; 0x1c00070; 0xc00030; 0x1fffff0; 0xfffff0; 0x70; 0x1ffffb0; 0x1fffff0;
   0x83830; 0x3c1c70; 0x7a8e30; 0xfffff0; 0x1c3ff30; 0x81c030; 0x18030; 0xffff38].
Definition hanzi_data_112 : list N :=
  [0xffff38; 0x1c018; 0x18018; 0x3ffffdc; 0x3ffffce; 0xc; 0x0; 0x0;
   0x0; 0x0; 0x202000; 0x0; 0x0; 0x0; 0x0; 0xfffff0;
   0x1fffff0; 0xc00030; 0x1c00070; 0xc00030; 0x1fffff0; 0xfffff0; 0x70; 0x418230;
   0xe18770; 0x618e30; 0x719c70; 0x399c30; 0x3fffff0; 0x3ffffb0; 0x3fffff0; 0xfe038;
   0x1df038; 0x39b838; 0x719e18; 0x1e1879c; 0x7c183dc; 0x301808e; 0x18000; 0x0;
   0x0; 0x0; 0x0; 0x202000; 0x0; 0x0; 0x0; 0x0;
   0x1fffff0; 0x1fffff0; 0x1eaaab0; 0x1c00070; 0x1c00030; 0x1fffff0; 0x1fffff0; 0x701c70;
   0x381c30; 0x181870; 0x1ffffb0; 0x1fffff0; 0x183830; 0x1c3870; 0x183830; 0x15d7d30;
   0x3ffffb0; 0x3fffff8; 0x181838; 0x1c1c18; 0x180e18; 0x1c071c; 0x1803ce; 0x1c018c;
   0x0; 0x0; 0x0; 0x0; 0x202000; 0x0; 0x0; 0x0;
   0x0; 0xfffff0; 0x1fffff0; 0xc00030; 0x1c00070; 0xc00030; 0x1fffff0; 0xfffff0;
   0xc1c70; 0xc0e30; 0x3fff770; 0x3ffe3f0; 0xc1df0; 0xc0c30; 0x1ffee70; 0x1ffe7b0;
   0x1c1c7f0; 0xe186f0; 0x738778; 0x3f0638; 0x1e0718; 0x3f0618; 0x1ffc71c; 0x3e1f60e;
   0x300770c; 0x0; 0x0; 0x0; 0x0; 0x202000; 0x0; 0x0;
   0x0; 0x0; 0xfffff0; 0x1fffff0; 0xeaaab0; 0x1c00070; 0xc00030; 0x1fffff0;
   0xfffff0; 0xc18670; 0xe18e30; 0x719c70; 0x399830; 0xffff70; 0xfffe30; 0xc00770;
   0xeaae30; 0xffff30; 0xc00630; 0xc00738; 0xfffe38; 0xffff18; 0xc00618; 0xc0071c;
   0xfc060e; 0x7c070c; 0x0; 0x0; 0x0; 0x0; 0x202000; 0x0;
   0x0; 0x0; 0x0; 0xfffff0; 0x1fffff0; 0xeaaab0; 0x1c00070; 0xc00030;
   0x1fffff0; 0xfffff0; 0x1c1870; 0xc1830; 0x1fffff0; 0x1ffffb0; 0x1c1870; 0xc1830;
   0x1c1870; 0x3fffff0; 0x3fffff0; 0xc38e30; 0xf70e38; 0x3e0e38; 0x1e0e18; 0x3dee18;
   0x1f1ff1c; 0x3e03f0e; 0x180070c; 0x0; 0x0; 0x0; 0x0; 0x202000;
   0x0; 0x0; 0x0; 0x0; 0xfffff0; 0x1fffff0; 0xc00030; 0x1c00030;
   0xfffff0; 0x1fffff0; 0x30; 0x3ffdfb0; 0x3ffffb0; 0xc019b0; 0xc019b0; 0xdfddb0;
   0xdf8db0; 0xd9cdb0; 0xd899b8; 0xd9d9b8; 0xd8b9b8; 0xdff198; 0xdfb998; 0xc1dd9c;
   0xc00d9c; 0xc0019c; 0xf8018e; 0x780180; 0x0; 0x0; 0x0; 0x0;
   0x202000; 0x0; 0x0; 0x0; 0x0; 0xfffff0; 0x1fffff0; 0xc00030;
   0x1c00070; 0xfffff0; 0x1fffff0; 0x200030; 0x7fff70; 0xfff30; 0x18070; 0xffff30;
   0xffff70; 0xe18330; 0xffff30; 0xffff30; 0x18030; 0x1ffffb8; 0x1ffffb8; 0x18d81b8;
   0x1ddc198; 0x1bffd9c; 0x1f15d9c; 0x1f0018e; 0x1f0018c; 0x0; 0x0; 0x0;
   0x0; 0x202000; 0x0; 0x0; 0x0; 0x0; 0xfffff0; 0x1fffff0;
   0xc00030; 0x1c00070; 0xeaaab0; 0x1fffff0; 0xaaeab0; 0x1c06070; 0xefff30; 0x7fff70;
   0x386030; 0x15f7570; 0x3ffffb0; 0x3fffff0; 0x1e030; 0xfffc30; 0xfffe30; 0xc01ff8;
   0xfffdf8; 0xfffc58; 0xc00c18; 0xfffc1c; 0xfffc0e; 0xc01c0c; 0x0; 0x0;
   0x0; 0x0; 0x202000; 0x0; 0x0; 0x0; 0x0; 0xfffff0;
   0x1fffff0; 0xc00030; 0x1c00070; 0xfffff0; 0x1fffff0; 0x208030; 0x718e70; 0x399c30;
   0x3fffff0; 0x3ffffb0; 0xff070; 0x39bc30; 0x1f19f70; 0x3c1e3b0; 0x7030; 0x3ffffb0;
   0x3fffff8; 0x181838; 0x1e7c18; 0xff818; 0x7ff01c; 0x3f0ff8e; 0x1c01f8c; 0x0;
   0x0; 0x0; 0x0; 0x202000; 0x0; 0x0; 0x0; 0x0;
   0xfffff0; 0x1fffff0; 0xc00030; 0x1c00070; 0xfffff0; 0x1fffff0; 0xc0030; 0xc4e70;
   0xacc730; 0x1fcc3f0; 0xcc9f0; 0xccc70; 0x3fffe30; 0x3fff730; 0xc03b0; 0xcc3f0;
   0x1fce378; 0x1fc6338; 0xce338; 0xde318; 0xfe31c; 0x7ff331c; 0x3fe3b0e; 0x3d0130c;
   0x0; 0x0; 0x0; 0x0; 0x202000; 0x0; 0x0; 0x0;
   0x0; 0xfffff0; 0x1fffff0; 0xc00030; 0x1c00030; 0xfffff0; 0x1fffff0; 0x18c30;
   0x1ffc630; 0x1ffe330; 0x73f0; 0xfffcb0; 0x1c0de30; 0xffc630; 0x1ffc7b0; 0xc0c3f0;
   0x1ffc3f0; 0x38338; 0x1ffc318; 0xeae318; 0x73fb1c; 0x3f3b1c; 0x7f031c; 0x3f3f30e;
   0x380730c; 0x0; 0x0; 0x0; 0x0; 0x202000; 0x0; 0x0;
   0x0; 0x0; 0xfffff0; 0x1fffff0; 0xc00030; 0x1fffff0; 0xfffff0; 0x1555570;
   0x18c6e30; 0x1ccc730; 0xec83b0; 0x3fff5f0; 0x3fffcb0; 0x7f0630; 0xedc730; 0x7ccf7b0;
   0x30f33f0; 0x307f8; 0x3fff378; 0x3fff718; 0xe0e318; 0x77f71c; 0x3f831c; 0x1ff071c;
   0x3e3fb0e; 0x1007704; 0x0; 0x0; 0x0; 0x0; 0x202000; 0x0;
   0x0; 0x0; 0x6000; 0x6000; 0x6000; 0x6000; 0xc06030; 0xc06030;
   0xc06030; 0xc06030; 0xc06030; 0xc06030; 0xc06030; 0xc06030; 0xc06030; 0xc06030;
   0xfffff0; 0xfffff0; 0x6000; 0x6000; 0x6000; 0x6000; 0x6000; 0x6000;
   0x6000; 0x6000; 0x6000; 0x0; 0x0; 0x0; 0x0; 0x202000;
   0x0; 0x0; 0x0; 0x7000; 0x6000; 0x7000; 0x6000; 0x1fffffc;
   0x1fffff8; 0x7000; 0x6000; 0xe07070; 0xe06030; 0xe07070; 0xe06030; 0xe07070;
   0xe06030; 0xe07070; 0xfffff0; 0xfffff0; 0x6000; 0x7000; 0x3006000; 0x7007000;
   0x3006000; 0x3ffe000; 0x3ffe000; 0x1ffc000; 0x0; 0x0; 0x0; 0x0;
   0x202000; 0x0; 0x0; 0x0; 0x6000; 0x6000; 0x6000; 0x6000;
   0x6000; 0x806000; 0x1c06038; 0x1c06038; 0x1c06038; 0x1c06038; 0x1c06038; 0x1c06038;
   0x1c06038; 0x1c06038; 0x1c06038; 0x1c06038; 0x1c06038; 0x1c06038; 0x1c06038; 0x1c06038;
   0x1d57578; 0x1fffff8; 0x1fffff8; 0x1c00000; 0x1c00000; 0x0; 0x0; 0x0;
   0x0; 0x202000; 0x0; 0x0; 0x0; 0x300c0; 0x380c0; 0x380c0].
Definition hanzi_data_113 : list N :=
  [0x180c0; 0x3ffc0c0; 0x3ffc4cc; 0xe4cc; 0x64cc; 0x74cc; 0x3ccc; 0x1ffc4cc;
   0xffc4cc; 0x7004cc; 0x3804cc; 0x1c04cc; 0xe04cc; 0x704cc; 0x384cc; 0x101c5cc;
   0x300c7fc; 0x700e5fc; 0x300e400; 0x3ffe000; 0x3ffc000; 0x17f0000; 0x0; 0x0;
   0x0; 0x0; 0x202000; 0x0; 0x0; 0x0; 0x1c0; 0xaa80c0;
   0x1ffc1c0; 0x1ffc0c0; 0x18005d4; 0x1800cc8; 0x1801ddc; 0x1800cc8; 0x1801ddc; 0x1800cc8;
   0x1ffdddc; 0x1ffccc8; 0x1d5dddc; 0x180ccc8; 0x1dddc; 0xccc8; 0x1dddc; 0xccc8;
   0x101dddc; 0x300cff8; 0x701dff8; 0x300cc00; 0x3ffc000; 0x3ffc000; 0x1ff0000; 0x0;
   0x0; 0x0; 0x0; 0x202000; 0x0; 0x0; 0x0; 0xc0;
   0xc0; 0x3fff0c0; 0x3fff0c0; 0x3fff4c4; 0x3184c8; 0x3184cc; 0x3184c8; 0x3184cc;
   0x3184c8; 0x3184cc; 0x3184c8; 0x3184cc; 0x3184c8; 0x3184cc; 0x3184c8; 0x31c4cc;
   0x31c4c8; 0x331c5cc; 0x230c7f8; 0x730e5fc; 0x2307400; 0x7f07800; 0x3f03c00; 0x1e01800;
   0x0; 0x0; 0x0; 0x0; 0x202000; 0x0; 0x0; 0x0;
   0x1c00c0; 0xc00c0; 0x1c00c0; 0xc00c0; 0x1c0cd0; 0xc0cc8; 0x39c6cd8; 0x38c6cc8;
   0x39c6cd8; 0x38c6cc8; 0x39c6cd8; 0x38c6cc8; 0x39c6cd8; 0x38c6cc8; 0x39c6cd8; 0x38c6cc8;
   0x39c6cd8; 0x38c6cc8; 0x39c6dd8; 0x38c6ff8; 0x39c6df8; 0x3ffec00; 0x3ffe000; 0x3800000;
   0x3800000; 0x0; 0x0; 0x0; 0x0; 0x202000; 0x0; 0x0;
   0x0; 0xc0; 0x180c0; 0x180c0; 0x180c0; 0x3ffc0c0; 0x3ffccc8; 0x1ccdc;
   0xccc8; 0xccdc; 0xccc8; 0xecdc; 0x3ffecc8; 0x1ffecdc; 0x1800cc8; 0x1800cdc;
   0x1800cc8; 0x1955cdc; 0x1bffec8; 0x1fffffc; 0x1800ff8; 0x1c00c04; 0xc00000; 0xf40000;
   0xfc0000; 0x7c0000; 0x0; 0x0; 0x0; 0x0; 0x202000; 0x0;
   0x0; 0x0; 0x6000; 0xc06030; 0xc06070; 0xc06030; 0xc06070; 0xc06030;
   0xfffff0; 0xfffff0; 0x1c00; 0xe00; 0x155f00; 0xffff80; 0x7fffc0; 0x3001e0;
   0x3804f8; 0x1c0e30; 0x1e1c10; 0xf3800; 0x7f000; 0x3e000; 0xf800; 0x3e00;
   0x1ff0; 0x3f8; 0x70; 0x0; 0x0; 0x0; 0x0; 0x202000;
   0x0; 0x0; 0x0; 0x6000; 0xc06030; 0x1c06030; 0xc06030; 0x1c06030;
   0xfffff0; 0x1fffff0; 0x0; 0x0; 0x0; 0xfffff8; 0xfffff8; 0xc00000;
   0xc00000; 0xc00000; 0xfffff0; 0xfffff0; 0x30; 0x70; 0x1000030; 0x7000070;
   0x3000030; 0x3fffff0; 0x1ffffe0; 0x555500; 0x0; 0x0; 0x0; 0x0;
   0x202000; 0x0; 0x0; 0x0; 0x40; 0x3fff060; 0x3fff060; 0x2eaa060;
   0x606464; 0x60626c; 0x60666c; 0x60626c; 0x60766c; 0x60626c; 0x7fff66c; 0x3fff26c;
   0x7fff66c; 0x78026c; 0x7c066c; 0x6e026c; 0x67066c; 0x63826c; 0x61c66c; 0x60e3fc;
   0x607ffc; 0x603a00; 0x7f1000; 0x3e0000; 0x1e0000; 0x0; 0x0; 0x0;
   0x0; 0x202000; 0x0; 0x0; 0x0; 0x0; 0x7ffff0; 0x7ffff0;
   0x606030; 0x607070; 0x606030; 0x7ffff0; 0x7ffff0; 0x70; 0x1800030; 0x1c00070;
   0x1eaaaf0; 0x1ffffe0; 0x3fff80; 0x6000; 0x806000; 0xc06030; 0xc06030; 0xc06030;
   0xc06030; 0xc06030; 0xfffff0; 0xfffff0; 0xeaaaa0; 0xc00000; 0x0; 0x0;
   0x0; 0x0; 0x202000; 0x0; 0x0; 0x0; 0x7000; 0xc06038;
   0xc07038; 0xc06038; 0xfffff8; 0xfffff8; 0x555550; 0x0; 0xffff0; 0xffff0;
   0x70700; 0x30600; 0x30700; 0xff8700; 0xffcf00; 0xe01f80; 0x703f80; 0x387180;
   0x1df1c0; 0xfc0e0; 0xfc0e0; 0x3fe070; 0x1fdfc3c; 0x3e03f1c; 0x300070c; 0x0;
   0x0; 0x0; 0x0; 0x202000; 0x0; 0x0; 0x0; 0xc0;
   0xc0; 0x3fff0c0; 0x3fff0c0; 0x6184cc; 0x6186cc; 0x6186cc; 0x6186cc; 0x6186cc;
   0x6186cc; 0x6186cc; 0x3fff6cc; 0x7fff6cc; 0x6186cc; 0x6186cc; 0x6186cc; 0x6186cc;
   0x6186cc; 0x61c7cc; 0x60c7fc; 0x60e7fc; 0x60e000; 0x607000; 0x603800; 0x601000;
   0x0; 0x0; 0x0; 0x0; 0x202000; 0x0; 0x0; 0x0;
   0xc00c0; 0xc00c0; 0xc00c0; 0xc00c0; 0x3fff0c0; 0x3fff4cc; 0xc04cc; 0xc04cc;
   0xc04cc; 0xc04cc; 0x1fff4cc; 0x1fff4cc; 0x1c0e4cc; 0x1c0c4cc; 0xc1c4cc; 0xe184cc;
   0x7384cc; 0x3b06cc; 0x3f07fc; 0x1e07fc; 0x3f0404; 0x7bc000; 0x1f1f000; 0x3c07c00;
   0x1001800; 0x0; 0x0; 0x0; 0x0; 0x202000; 0x0; 0x0;
   0x0; 0x6000; 0xc06030; 0x1c06030; 0xc06030; 0x1fffff0; 0xfffff0; 0xe000;
   0xf000; 0x1fc00; 0x79e00; 0x1f07c0; 0xf83be0; 0x7f070fc; 0x380e03c; 0xc000;
   0x3fffe0; 0x7ffff0; 0x3aaaa0; 0x1c0000; 0xe0000; 0x70000; 0x38000; 0x3c000;
   0x1e000; 0xc000; 0x0; 0x0; 0x0; 0x0; 0x202000; 0x0;
   0x0; 0x0; 0x20000; 0x70600; 0xe0700; 0x1c0380; 0x7801c0; 0xf000f0;
   0x7fffffc; 0x3bfff9c; 0x13d5d48; 0x381800; 0x181c00; 0x180e00; 0x1c0780; 0x1f83e0;
   0xf81f0; 0x6020; 0xe06070; 0xe06060; 0xe06070; 0xe06060; 0xe06070; 0xe06060;
   0xfffff0; 0xffffe0; 0xe00000; 0x0; 0x0; 0x0; 0x0; 0x202000;
   0x0; 0x0; 0x0; 0x60; 0x60; 0x3fff060; 0x3fff060; 0x3064;
   0xc0326c; 0xc1f76c; 0xe3b26c; 0x67376c; 0x66326c; 0x7e376c; 0x3c326c; 0x38376c;
   0x38326c; 0x7c376c; 0xee326c; 0xe7376c; 0x1c3326c; 0x1c3b76c; 0x81b3fc; 0x37fc;
   0x3200; 0x7fff000; 0x3fff000; 0x0; 0x0; 0x0; 0x0; 0x0;
   0x202000; 0x0; 0x0; 0x0; 0x6000; 0xc06038; 0x1c06038; 0xc06038;
   0x1fffff8; 0xfffff0; 0x1fffff0; 0x0; 0x1fffff8; 0x1fffff8; 0x1d55578; 0x18c0038;
   0x1ce03b8; 0x1870fb8; 0x1c79e38; 0x183f838; 0x1c1f038; 0x183f038; 0x1c7bc38; 0x18e0e38].
Definition hanzi_data_114 : list N :=
  [0x1dc07f8; 0x18803b8; 0x1c00038; 0x1fc0038; 0xfc0038; 0x0; 0x0; 0x0;
   0x0; 0x202000; 0x0; 0x0; 0x0; 0xc0; 0x1ffe0c0; 0x1ffe0c0;
   0x1aae0c0; 0x1c0e4c4; 0x188ecc8; 0x1ccecdc; 0x18cecc8; 0x1ccecdc; 0x18cecc8; 0x1ccecdc;
   0x18cecc8; 0x1ccecdc; 0x18cecc8; 0x1ccecdc; 0x9eacc8; 0x1e0cdc; 0x1e0cc8; 0x11f0cdc;
   0x61b8ff8; 0x71bcff8; 0x219cc00; 0x358f000; 0x3f87800; 0x1d01000; 0x0; 0x0;
   0x0; 0x0; 0x202000; 0x0; 0x0; 0x0; 0x700000; 0x7fa000;
   0x1ffff0; 0x7fe0; 0x7000; 0x3000; 0x3800; 0x3fffffc; 0x3fffffc; 0x70e00;
   0x1f0780; 0x3c03c0; 0x1f861f0; 0x3e0603c; 0x300601c; 0xe06030; 0xe06070; 0xe06030;
   0xe06070; 0xe06030; 0xe06070; 0xeaeab0; 0xfffff0; 0xfffff0; 0xe00000; 0x0;
   0x0; 0x0; 0x0; 0x202000; 0x0; 0x0; 0x0; 0x6000;
   0xc06030; 0xc06030; 0xc06030; 0xd57570; 0xfffff0; 0xfffff0; 0x0; 0x7fffe0;
   0x7fffe0; 0x700060; 0x620060; 0x770660; 0x638e60; 0x71dc60; 0x61f860; 0x60f070;
   0x60f060; 0x63fc70; 0x2639e30; 0x6670f38; 0x2ee03b8; 0x7c4011c; 0x3c0000e; 0x180000c;
   0x0; 0x0; 0x0; 0x0; 0x202000; 0x0; 0x0; 0x0;
   0x7000; 0x3000; 0x157d40; 0x3fffe0; 0x3fffe0; 0x3000e0; 0x301ee0; 0x303ce0;
   0x38f0e0; 0x1ec0e0; 0x1e00e0; 0xe0; 0x1ffffe0; 0x1ffffe0; 0x1800c00; 0x1820c00;
   0x1860c38; 0x1860c38; 0x1c60c38; 0x1860c38; 0x1c7fff8; 0xc7fff8; 0xc75550; 0xfc0000;
   0x7c0000; 0x0; 0x0; 0x0; 0x0; 0x202000; 0x0; 0x0;
   0x0; 0x6000; 0x806020; 0x1c06030; 0xc06030; 0x1c06030; 0xc06030; 0x1fffff0;
   0xfffff0; 0x0; 0xaaaaa0; 0xfffff0; 0xfffff0; 0xe06070; 0xe06030; 0xe06070;
   0xfffff0; 0xfffff0; 0x30; 0x70; 0x800030; 0x3800070; 0x3800070; 0x1fffff0;
   0xffffe0; 0x0; 0x0; 0x0; 0x0; 0x0; 0x202000; 0x0;
   0x0; 0x0; 0x180c0; 0x180c0; 0x1c0c0; 0xc0c0; 0x7ffe4d0; 0x3ffe6d8;
   0x7fff6d8; 0x676d8; 0x73ed8; 0x63ed8; 0x3ff16d8; 0x3fe06d8; 0x706d8; 0x606d8;
   0x706d8; 0x606d8; 0x3ff06d8; 0x3fe06d8; 0x706d8; 0x607f8; 0x707f8; 0x60608;
   0x70000; 0x60000; 0x70000; 0x0; 0x0; 0x0; 0x0; 0x202000;
   0x0; 0x0; 0x0; 0xc0; 0x2aaa0c0; 0x3ffe0c0; 0x3ffe0c0; 0xe0c0;
   0xecc8; 0xecdc; 0xecc8; 0x1ffecdc; 0x1ffecc8; 0x180ecdc; 0x180ecc8; 0x180ecdc;
   0x180ecc8; 0x180ecdc; 0x1ffecc8; 0x1ffecdc; 0xaaecc8; 0xecdc; 0xeff8; 0xeffc;
   0xec08; 0x7ffe000; 0x3ffe000; 0x0; 0x0; 0x0; 0x0; 0x0;
   0x202000; 0x0; 0x0; 0x0; 0x6000; 0xc06030; 0xc06030; 0xc06030;
   0xfffff0; 0xfffff0; 0x555550; 0x0; 0x1555554; 0x3fffffc; 0x3fffffc; 0x300000;
   0x700000; 0x30ffe0; 0x71ffe0; 0x30c0e0; 0x71c0e0; 0x30c0e0; 0x71ffe0; 0x30ffe0;
   0x7155e0; 0x3000e0; 0x700000; 0x3f8000; 0x1f8000; 0x0; 0x0; 0x0;
   0x0; 0x202000; 0x0; 0x0; 0x0; 0x38040; 0x180c0; 0x1c0c0;
   0x1c0c0; 0x3ffc4c4; 0x3ffe6c8; 0x3ffe6dc; 0x38066c8; 0x38076dc; 0x3803ec8; 0x39fd6dc;
   0x39fc6c8; 0x398c6dc; 0x398c6c8; 0x198c6dc; 0x198c6c8; 0x19fc6dc; 0x19fc6c8; 0x19fc6dc;
   0x180c7f8; 0x18007fc; 0x1800600; 0x1c00000; 0xf80000; 0xf80000; 0x0; 0x0;
   0x0; 0x0; 0x202000; 0x0; 0x0; 0x0; 0xc0; 0xffc0c0;
   0xffc0c0; 0xc0c0c0; 0xc0c4d0; 0xc0c6d8; 0xc0c6d8; 0xc0c6d8; 0xffc6d8; 0xffc6d8;
   0xc0c6d8; 0xc0c6d8; 0xc0c6d8; 0xc0c6d8; 0xc0c6d8; 0xffc6d8; 0xffc6d8; 0xc0c6d8;
   0xc0c6d8; 0xc0c7f8; 0xc0c7f8; 0xc0c608; 0x7fff800; 0x3fff800; 0x0; 0x0;
   0x0; 0x0; 0x0; 0x202000; 0x0; 0x0; 0x0; 0x6000;
   0xc06030; 0x1c06030; 0xc06030; 0x1c06030; 0xfffff0; 0x1fffff0; 0x0; 0x0;
   0x0; 0x3fffffc; 0x3fffffc; 0x700; 0x700; 0x380; 0xffff80; 0xffffe0;
   0xeaabf0; 0xc001f8; 0xc001be; 0xc0018c; 0xc00180; 0xffff80; 0xffff80; 0xc00180;
   0x0; 0x0; 0x0; 0x0; 0x202000; 0x0; 0x0; 0x0;
   0x1c00c0; 0xc00c0; 0x1c00c0; 0xc00c0; 0x1c04c4; 0xc0cc8; 0x3ffeccc; 0x3ffecc8;
   0x39c6ccc; 0x38c6cc8; 0x39c6ccc; 0x38c6cc8; 0x39c6ccc; 0x3ffecc8; 0x3ffeccc; 0x3aeecc8;
   0x39c6ccc; 0x38c6cc8; 0x39c6dcc; 0x38c6ff8; 0x39c6dfc; 0x3ffec00; 0x3ffe000; 0x3aae000;
   0x3806000; 0x0; 0x0; 0x0; 0x0; 0x202000; 0x0; 0x0;
   0x0; 0xc0; 0x3ffe0c0; 0x3ffe0c0; 0x38c60c0; 0x38c64c4; 0x38c66c8; 0x38c66dc;
   0x3aee6c8; 0x3ffe6dc; 0x3ffe6c8; 0x38c66dc; 0x38c66c8; 0x38c66dc; 0x38c66c8; 0x3ffe6dc;
   0x3ffe6c8; 0x38c66dc; 0x38c66c8; 0xc06d8; 0xc07f8; 0xc07f8; 0xc0600; 0xc0000;
   0xc0000; 0xc0000; 0x0; 0x0; 0x0; 0x0; 0x202000; 0x0;
   0x0; 0x0; 0x40040; 0xe00c0; 0xf00c0; 0xf00c0; 0x1f80c4; 0x3982c8;
   0x71c7cc; 0xe0e2c8; 0x1c377cc; 0x3863ac8; 0x30e1fcc; 0xc0ac8; 0x5557c8; 0xffe2c8;
   0xfff7cc; 0x6002c8; 0x7007cc; 0x3802c8; 0x1cc7cc; 0xdc3f8; 0xf87f8; 0xe0200;
   0x1c0000; 0x380000; 0x100000; 0x0; 0x0; 0x0; 0x0; 0x202000;
   0x0; 0x0; 0x0; 0x86100; 0x3c6380; 0x7861c0; 0x60e1c0; 0x140c0e0;
   0x3fff8e0; 0x3fffef8; 0x1aefc; 0x380fe; 0x10300ec; 0x30700e0; 0x31e00e0; 0x3fc00e0;
   0x1f860e0; 0x1c06060; 0x6000; 0xe06070; 0xe06070; 0xe06070; 0xe06070; 0xe06070;
   0xfffff0; 0xfffff0; 0xeaaaa0; 0xe00000; 0x0; 0x0; 0x0; 0x0;
   0x202000; 0x0; 0x0; 0x0; 0x300000; 0x3fe000; 0x7fffc0; 0x3fc0].
Definition hanzi_data_115 : list N :=
  [0xc0; 0xc0; 0x1ffffc0; 0x1ffffc0; 0x15d55c0; 0xc00c0; 0xc00c0; 0xc00c0;
   0x15d55d4; 0x3fffffc; 0x3fffffc; 0x6000; 0xc06070; 0xc06030; 0xc06070; 0xc06030;
   0xc06070; 0xeaeab0; 0xfffff0; 0xfffff0; 0xc00000; 0x0; 0x0; 0x0;
   0x0; 0x202000; 0x0; 0x0; 0x0; 0x1c00c0; 0xc00c0; 0x1c00c0;
   0xc00c0; 0x1c0ccc; 0xc0cc8; 0x7fffccc; 0x3fffcc8; 0x1c0ccc; 0xc0cc8; 0x1c0ccc;
   0xc0cc8; 0x1c0ccc; 0xaeacc8; 0x1ffeccc; 0x1aaecc8; 0x180eccc; 0x180ecc8; 0x180edcc;
   0x180eff8; 0x180edfc; 0x1ffec00; 0x1ffe000; 0x1aae000; 0x180e000; 0x0; 0x0;
   0x0; 0x0; 0x202000; 0x0; 0x0; 0x0; 0xc0; 0x1ffe0c0;
   0x1ffe0c0; 0x18060c0; 0x18064c4; 0x1806cc8; 0x1806cdc; 0x1ffecc8; 0x1ffecd8; 0x186cc8;
   0x186cdc; 0x186cc8; 0x15d6cdc; 0x3ffecc8; 0x7ffecdc; 0x386cc8; 0x306cdc; 0x306cc8;
   0x306cdc; 0x306ff8; 0x6706ffc; 0x26e6c00; 0x7eff000; 0x3c3f000; 0x1807000; 0x0;
   0x0; 0x0; 0x0; 0x202000; 0x0; 0x0; 0x0; 0x6000;
   0xc06030; 0x1c06030; 0xc06030; 0x1fffff0; 0xfffff0; 0x1fffff0; 0x0; 0x3fffff0;
   0x3fffff0; 0x3fffff0; 0x30; 0x1ffff30; 0x1ffff30; 0x1ffff30; 0x18030; 0x18030;
   0x3ffffb8; 0x3fffff8; 0x18038; 0x18018; 0x1801c; 0x1801c; 0x1800c; 0x18000;
   0x0; 0x0; 0x0; 0x0; 0x202000; 0x0; 0x0; 0x0;
   0x6000; 0x806020; 0xc06070; 0xc06030; 0xfffff0; 0xfffff0; 0xfffff0; 0x3800;
   0x1c00; 0xaaaea8; 0x1fffff8; 0xaaafa8; 0xe380; 0xe1c0; 0xe0e0; 0xfffff0;
   0xfffff0; 0xe000; 0x18e380; 0x3ce380; 0x78e1e0; 0xe0e0f0; 0x1c0f47c; 0x180fe18;
   0x7c00; 0x0; 0x0; 0x0; 0x0; 0x202000; 0x0; 0x0;
   0x0; 0x6000; 0x1c06038; 0x1c06038; 0x1c06038; 0x1fffff8; 0x1fffff8; 0x1fffff8;
   0x0; 0x300; 0x1fff318; 0x1fff318; 0x1800318; 0x1c00318; 0x1800318; 0x1c00318;
   0x1ffe318; 0x1ffe318; 0x1800318; 0x1c00318; 0x1800380; 0x1c001c0; 0x1fff1c0; 0x1fff1f0;
   0x1800070; 0x1c00020; 0x0; 0x0; 0x0; 0x0; 0x202000; 0x0;
   0x0; 0x0; 0x6000; 0xc06030; 0x1c06030; 0xc06030; 0x1fffff0; 0xfffff0;
   0x1fffff0; 0x800; 0x1ff9fc0; 0x1ff8ff8; 0x1ff8c78; 0x1818c38; 0x1c18c38; 0x1818c38;
   0x1c18c38; 0x1818c38; 0x1c18f38; 0x1818ff8; 0x1c18ffc; 0x1f98e38; 0x1f98700; 0x18380;
   0x183c0; 0x180f8; 0x18070; 0x0; 0x0; 0x0; 0x0; 0x202000;
   0x0; 0x0; 0x0; 0x700c0; 0x300c0; 0x380c0; 0x1ff80c0; 0x1ffc4c4;
   0xc1eecc; 0xe1fecc; 0x73becc; 0x3f3ecc; 0x1e0ecc; 0x1e0ecc; 0x3f0ecc; 0xf3cecc;
   0x3e1fecc; 0x7c37ecc; 0x20f2ecc; 0x3e0ecc; 0x780ecc; 0x300ecc; 0xcffc; 0x7effc;
   0x1f8e00; 0x7c0000; 0x1f00000; 0xc00000; 0x0; 0x0; 0x0; 0x0;
   0x202000; 0x0; 0x0; 0x0; 0x401000; 0xe03860; 0x707070; 0x7060e0;
   0x3861c0; 0x182080; 0x1fffffc; 0x1fffff8; 0x1d5555c; 0x1800018; 0x180601c; 0x1806018;
   0x406000; 0xe06030; 0xe06070; 0xe06030; 0xe06070; 0xe06030; 0xe06070; 0xe06030;
   0xe06070; 0xfffff0; 0xfffff0; 0xeaaaa0; 0xe00000; 0x0; 0x0; 0x0;
   0x0; 0x202000; 0x0; 0x0; 0x0; 0xc0; 0xaaa0c0; 0x1fff0c0;
   0x1ffe0c0; 0xe1c4dc; 0x6384c8; 0x7f04dc; 0x1e04c8; 0x7f04dc; 0x1f3e4c8; 0x7c1f4dc;
   0x30c34c8; 0x1c04d8; 0x3ffe4c8; 0x3ffe4dc; 0x2aea4c8; 0x1c04dc; 0xc04c8; 0x7fff5dc;
   0x3fff7f8; 0x1c07fc; 0xc0400; 0x1c0000; 0xc0000; 0x1c0000; 0x0; 0x0;
   0x0; 0x0; 0x202000; 0x0; 0x0; 0x0; 0x1c040; 0x1c0e0;
   0xc0e0; 0xe0e0; 0x1ffe0e0; 0x1ffe2e8; 0x1fff6ec; 0x1803eec; 0x1803eec; 0x19ffeec;
   0x19ffeec; 0x19866ec; 0x19876ec; 0x19ae6ec; 0x19ff6ec; 0x19866ec; 0x19876ec; 0x19866ec;
   0x19ff6ec; 0x19fe7fc; 0x1c077fc; 0x1c02608; 0x1d40000; 0xfc0000; 0x7c0000; 0x0;
   0x0; 0x0; 0x0; 0x202000; 0x0; 0x0; 0x0; 0x40;
   0x3ffe0e0; 0x3fff0e0; 0x3aaa0e0; 0x30074e4; 0x30026ec; 0x37f76ec; 0x37f26ec; 0x30076ec;
   0x30026ec; 0x33f76ec; 0x33f26ec; 0x33376ec; 0x33326ec; 0x33376ec; 0x33326ec; 0x33776ec;
   0x33f26ec; 0x33f76ec; 0x30327fc; 0x30077fc; 0x3002600; 0x3007000; 0x3f02000; 0x1f07000;
   0x0; 0x0; 0x0; 0x0; 0x202000; 0x0; 0x0; 0x0;
   0x380c0; 0x380c0; 0x7fc0c0; 0xffc0c0; 0x60c4c4; 0x70e6cc; 0x3076cc; 0x3fffecc;
   0x3fffecc; 0x7ecc; 0x66cc; 0x1ff66cc; 0x1ff66cc; 0x18366cc; 0x18766cc; 0x18366cc;
   0x18776cc; 0x1f366cc; 0x1e776cc; 0x337fc; 0x70737fc; 0x3033600; 0x3573800; 0x3fe1800;
   0x1fc1800; 0x0; 0x0; 0x0; 0x0; 0x202000; 0x0; 0x0;
   0x0; 0xc0; 0xc0; 0x3fff0c0; 0x3fff0c0; 0xc0; 0x4c8; 0x1ffe4cc;
   0x1ffe4c8; 0x1c0e4cc; 0x1c0e4c8; 0x1c0e4cc; 0x1c0e4c8; 0x1ffe4cc; 0x1ffe4c8; 0x1c0e4cc;
   0x1c0e4c8; 0x1c0e4cc; 0x1ffe6c8; 0x1ffe7fc; 0x7f8; 0x404; 0x0; 0x7fff000;
   0x3fff000; 0x0; 0x0; 0x0; 0x0; 0x0; 0x202000; 0x0;
   0x0; 0x0; 0xe00c0; 0xe00c0; 0xe00c0; 0x1ffe0c0; 0x1fff4c4; 0xaea6cc;
   0xe06cc; 0xe06cc; 0x7fff6cc; 0x3fffecc; 0x7fff6cc; 0x6006cc; 0x7006cc; 0x3fff6cc;
   0x7fff6cc; 0x2eaa6cc; 0x70c6cc; 0x60c6cc; 0x71c6cc; 0x6387fc; 0x7707fc; 0x600600;
   0x700000; 0x7e0000; 0x3e0000; 0x0; 0x0; 0x0; 0x0; 0x202000;
   0x0; 0x0; 0x0; 0x6000; 0xc06030; 0x1c06030; 0xc06030; 0x1fffff0;
   0xfffff0; 0x1c00000; 0x180fff8; 0x1c6fffc; 0x1860180; 0x1c601c0; 0x1863fc0; 0x1c63fe0;
   0x1863070; 0x1c63870; 0x1861878; 0x1c61dfc; 0x1860f88; 0x1c60f00; 0x1860700; 0x1c00780].
Definition hanzi_data_116 : list N :=
  [0x18003c0; 0x1d401f0; 0xf80078; 0xf80018; 0x0; 0x0; 0x0; 0x0;
   0x202000; 0x0; 0x0; 0x0; 0xe00c0; 0xe00c0; 0xe00c0; 0xe00c0;
   0x3fff4c0; 0x3fff6c8; 0xe06cc; 0x18e66c8; 0x1ce66cc; 0xce66c8; 0xcec6cc; 0x6ec6c8;
   0x4646cc; 0x3fffec8; 0x7fffecc; 0xe06c8; 0x1f06cc; 0x1b06c8; 0x3b87fc; 0x31c7f8;
   0x71e614; 0xe0f000; 0x3c07800; 0x3803c00; 0x3000800; 0x0; 0x0; 0x0;
   0x0; 0x202000; 0x0; 0x0; 0x0; 0x180c0; 0x180c0; 0x10300c0;
   0x1ff00c0; 0x1fff6c4; 0x83f6c8; 0x1c706cc; 0xe606c8; 0x17e06cc; 0x31e06c8; 0x31fc6cc;
   0x3f9f6c8; 0x1f076cc; 0x8006c8; 0x3fffecc; 0x3fffec8; 0x3306cc; 0x3386c8; 0x3187cc;
   0x3187f8; 0x631c7fc; 0x630c600; 0x770f000; 0x3f07800; 0x1f01800; 0x0; 0x0;
   0x0; 0x0; 0x202000; 0x0; 0x0; 0x0; 0x40; 0xf800c0;
   0x1ffe0c0; 0xfe0c0; 0xc04c4; 0xe06cc; 0x606cc; 0x3fff6cc; 0x3fff6cc; 0x7386cc;
   0x6386cc; 0xe1c6cc; 0x1c0e6cc; 0x780fecc; 0x361b6cc; 0x6196cc; 0x6186cc; 0x6186cc;
   0x6186cc; 0x61c7fc; 0x61c7fc; 0x60e600; 0x607000; 0x607800; 0x603000; 0x0;
   0x0; 0x0; 0x0; 0x202000; 0x0; 0x0; 0x0; 0x30040;
   0x380c0; 0x3f80c0; 0x7fc0c0; 0x7fc6c4; 0x38e6cc; 0x1876cc; 0x1fffecc; 0x1fff6cc;
   0x18606cc; 0x1c606cc; 0x3aea6cc; 0x7fff6cc; 0x3fff6cc; 0x1c606cc; 0x18606cc; 0x1fff6cc;
   0x1ffe6cc; 0x1d747cc; 0x8607fc; 0x607fc; 0x60600; 0x60000; 0x7c000; 0x7c000;
   0x0; 0x0; 0x0; 0x0; 0x202000; 0x0; 0x0; 0x0;
   0x7000; 0x6000; 0x155f554; 0x3fffffc; 0x3fffffc; 0x30c00; 0x1b0dc0; 0x3b0cc0;
   0x730ce0; 0xe30c70; 0x1c30c38; 0x3830c38; 0x30c10; 0x20800; 0x6000; 0xc06030;
   0xc06070; 0xc06030; 0xc06070; 0xc06030; 0xc06070; 0xeaeab0; 0xfffff0; 0xeaaaa0;
   0xc00000; 0x0; 0x0; 0x0; 0x0; 0x202000; 0x0; 0x0;
   0x0; 0x600c0; 0xe00c0; 0x1c00c0; 0xc00c0; 0x3fff4c4; 0x3fff6cc; 0x4106cc;
   0x6386cc; 0xe1c6cc; 0x1c0c6cc; 0x1c0e6cc; 0x3a076cc; 0x371f6cc; 0x7386cc; 0x7306cc;
   0x3b06cc; 0x1f06cc; 0x1e06cc; 0x1c06cc; 0x3e07fc; 0x7f07fc; 0xf3c600; 0x3e1f000;
   0x380f800; 0x1003000; 0x0; 0x0; 0x0; 0x0; 0x202000; 0x0;
   0x0; 0x0; 0x1b0060; 0x5b8060; 0xdbf860; 0xd8f860; 0x198c464; 0x198c26c;
   0x118c66c; 0x18c26c; 0x7fffe6c; 0x3fffa6c; 0x18c66c; 0x98c26c; 0x198c66c; 0x1bec26c;
   0x1f7c66c; 0xf3fa6c; 0xf0fe6c; 0x70ca6c; 0x70c66c; 0x230c3fc; 0x678c7fc; 0x27cc008;
   0x3eec000; 0x3c6f800; 0x1827000; 0x0; 0x0; 0x0; 0x0; 0x202000;
   0x0; 0x0; 0x0; 0x100c0; 0x6380c0; 0xe180c0; 0xc1c0c0; 0x1c0c4cc;
   0x38cecc8; 0x70c7ccc; 0x21e3cc8; 0x1f0cc8; 0x3b0cc8; 0x738ccc; 0xe18cc8; 0x1c1cccc;
   0x380ecc8; 0x7fffccc; 0x3fffcc8; 0x1ffdccc; 0x80ccc8; 0x1c0cdcc; 0x80cff8; 0x1c0cdfc;
   0x80cc00; 0x1ffc000; 0xffc000; 0x1c0c000; 0x0; 0x0; 0x0; 0x0;
   0x202000; 0x0; 0x0; 0x0; 0x1c00c0; 0xc20c0; 0x31c60c0; 0x38ce0c0;
   0x1dcc0c0; 0xccc2c8; 0xfd86cc; 0xc06cc; 0x1ffe6cc; 0x1ffe6cc; 0x18066cc; 0x18066cc;
   0x1d566cc; 0x1ffe6cc; 0x1ffe6cc; 0x18066cc; 0x18066cc; 0x1ffe6cc; 0x1ffe6cc; 0x18067fc;
   0x18067fc; 0x1806608; 0x1d06000; 0x1f06000; 0x1f06000; 0x0; 0x0; 0x0;
   0x0; 0x202000; 0x0; 0x0; 0x0; 0x700c0; 0x300c0; 0xff80c0;
   0xff80c0; 0xe1c6cc; 0x61e6cc; 0x73fecc; 0x3f3ecc; 0x1e16cc; 0x3f06cc; 0x1f7c6cc;
   0x3e8fecc; 0x30c7ecc; 0x1ffe6cc; 0x1fff6cc; 0xc06cc; 0x1ffe6cc; 0x1ffe6cc; 0xc06cc;
   0xc07fc; 0x3fff7fc; 0x3fff600; 0xc0000; 0xc0000; 0xc0000; 0x0; 0x0;
   0x0; 0x0; 0x202000; 0x0; 0x0; 0x0; 0x108; 0xaaab8c;
   0x1fffddc; 0xeba8f8; 0xc180f0; 0xc18070; 0xfff8f8; 0xfff8dc; 0xc1c0cc; 0xe0c0c0;
   0xe0c1c0; 0x3ffffc0; 0x3ffffe0; 0x1e0; 0x701f0; 0x1860db8; 0x1871dde; 0x1860d8c;
   0x1871dc0; 0x1860dc0; 0x1871dc0; 0x1fffcc0; 0x1fffcf4; 0x1aaa8f8; 0x1800078; 0x0;
   0x0; 0x0; 0x0; 0x202000; 0x0; 0x0; 0x0; 0x70040;
   0x70060; 0x738060; 0x61c060; 0xe0e064; 0x1fff268; 0x3fff36c; 0x3203268; 0x73836c;
   0xe1c268; 0x1c0e36c; 0x3837268; 0x7033f6c; 0x39268; 0x1ffc36c; 0xffe268; 0xe1f36c;
   0x71ba68; 0x3b9b6c; 0x1f03f8; 0x1f03f8; 0x3f8200; 0x1f9f000; 0x3e0fc00; 0x3801c00;
   0x0; 0x0; 0x0; 0x0; 0x202000; 0x0; 0x0; 0x0;
   0xc0; 0x3fff0c0; 0x3fff0c0; 0x300c0; 0x704c4; 0x306c8; 0xfff6dc; 0xffe6c8;
   0xe386dc; 0xe386c8; 0xe186dc; 0x2ebaec8; 0x7fffedc; 0x2aaaec8; 0x6dc; 0x1ffe6c8;
   0x1ffe6dc; 0x18066c8; 0x1c066dc; 0x18067f8; 0x1c067f8; 0x1806600; 0x1ffe000; 0x1ffe000;
   0x1c06000; 0x0; 0x0; 0x0; 0x0; 0x202000; 0x0; 0x0;
   0x0; 0x6000; 0xc06030; 0x1c06030; 0xc06030; 0x1fffff0; 0xfffff0; 0x7000;
   0xe000; 0x7fffe0; 0x7fffe0; 0x6000e0; 0x6000e0; 0x7fffe0; 0x6aaae0; 0x6000e0;
   0x7fffe0; 0x7fffe0; 0x1c060e0; 0x1f0e0e0; 0x79c0e0; 0x1f80e0; 0xff8e0; 0x7cfff0;
   0x3f00fe0; 0x1c00060; 0x0; 0x0; 0x0; 0x0; 0x202000; 0x0;
   0x0; 0x0; 0x6000; 0xc06030; 0x1c06030; 0xc06030; 0x1fffff0; 0xfffff0;
   0xc000; 0xe0e0; 0xe0e0; 0x3ffe0e0; 0x1fff0e0; 0x18037fc; 0x1c737fc; 0xc638e0;
   0xc71ce0; 0xc718e0; 0xf00e0; 0xf84e0; 0x1d8fe0; 0x1983f8; 0x79c0fe; 0xf0e00c;
   0x1e07c00; 0x3c03e00; 0x1000c00; 0x0; 0x0; 0x0; 0x0; 0x202000;
   0x0; 0x0; 0x0; 0x61c040; 0x618060; 0x61c060; 0x3fff860; 0x7fff864].
Definition hanzi_data_117 : list N :=
  [0x618268; 0x61c76c; 0x208268; 0x3ffff6c; 0x3fffa68; 0x3555f6c; 0x3021a68; 0x3061f6c;
   0x60268; 0x1fff76c; 0x1fff268; 0x1c7076c; 0x1c30268; 0x1c3876c; 0xc183f8; 0xc1c7f8;
   0xc0e200; 0xe47000; 0x7c3800; 0x7c1800; 0x0; 0x0; 0x0; 0x0;
   0x202000; 0x0; 0x0; 0x0; 0xe0040; 0xe0060; 0xe0060; 0x1fff060;
   0x1fff064; 0xe0268; 0x1ce776c; 0xce6268; 0xce676c; 0xeec268; 0x6ec76c; 0x2e4268;
   0x3ffff6c; 0x3fffa68; 0x1f076c; 0x1f8268; 0x3f876c; 0x7ec268; 0xeee76c; 0xce73f8;
   0x3ce7ff8; 0x38e3a00; 0x10e1000; 0xe0000; 0xe0000; 0x0; 0x0; 0x0;
   0x0; 0x202000; 0x0; 0x0; 0x0; 0xc00c0; 0xe00c0; 0xe00c0;
   0x1f00c0; 0x3b86c4; 0x7186c8; 0xf1c6dc; 0x1c0e6c8; 0x3fff6dc; 0x37fbec8; 0x2555edc;
   0x6c8; 0x18606dc; 0x18626c8; 0x1c666dc; 0xcc66c8; 0xcc66dc; 0xecc6c8; 0x6cc6dc;
   0x20c7f8; 0x3007f8; 0x3fffe00; 0x3fff800; 0x0; 0x0; 0x0; 0x0;
   0x0; 0x0; 0x202000; 0x0; 0x0; 0x0; 0xe00c0; 0xc00c0;
   0x1c00c0; 0x3fff0c0; 0x7fff6cc; 0x30036cc; 0x70036cc; 0x33736cc; 0x7386cc; 0xe186cc;
   0x1c1e6cc; 0x380f6cc; 0x10066cc; 0xaaa6cc; 0x1ffe6cc; 0x1ffe6cc; 0x1c06cc; 0xc06cc;
   0x1c07cc; 0xc07fc; 0x1c07fc; 0xc0600; 0x7fff000; 0x3fff000; 0x0; 0x0;
   0x0; 0x0; 0x0; 0x202000; 0x0; 0x0; 0x0; 0x6000;
   0xc06030; 0x1c06030; 0xc06030; 0x1fffff0; 0xfffff0; 0x7000; 0x6000; 0x1fffffc;
   0x1fffff8; 0x180001c; 0x1800018; 0x19fffdc; 0xaaa80; 0x0; 0x1fffff8; 0x1fffffc;
   0x6000; 0x186180; 0x3c61c0; 0x7860e0; 0xe06070; 0x1c0603c; 0x1807e18; 0x3e00;
   0x0; 0x0; 0x0; 0x0; 0x202000; 0x0; 0x0; 0x0;
   0x40; 0x3ffe060; 0x3fff060; 0x3806060; 0x3807464; 0x380626c; 0x3fff66c; 0x3ffe26c;
   0x18766c; 0x18626c; 0x18766c; 0x3ffe26c; 0x7fff66c; 0x18626c; 0x18766c; 0x18326c;
   0x3fff66c; 0x3ffb26c; 0x381f66c; 0x381bbfc; 0x381dffc; 0x3819a00; 0x3ffdc00; 0x3ff8c00;
   0x381cc00; 0x0; 0x0; 0x0; 0x0; 0x202000; 0x0; 0x0;
   0x0; 0xc00c0; 0xc00c0; 0x3fff0c0; 0x3fff0c0; 0x15f56cc; 0xe06cc; 0x7f06cc;
   0xf386cc; 0x1c1f6cc; 0x80e6cc; 0x7fffecc; 0x3fffecc; 0x1c006cc; 0x18006cc; 0x1dfe6cc;
   0x18ee6cc; 0x1dc66cc; 0x18c66cc; 0x1dfe6cc; 0x18fe7fc; 0x1c067fc; 0x1806600; 0x1c00000;
   0x1f80000; 0xf80000; 0x0; 0x0; 0x0; 0x0; 0x202000; 0x0;
   0x0; 0x0; 0x6000; 0xc06030; 0xc06030; 0xc06030; 0xfffff0; 0xfffff0;
   0x6000; 0x6000; 0x1fffff8; 0x1fffff8; 0x1fffff8; 0xc0600; 0xe0300; 0xe0380;
   0x7f0fc0; 0xf39ce0; 0xe1e878; 0xe010; 0x3fffffc; 0x3fffffc; 0x1557554; 0x6000;
   0x6000; 0x6000; 0x6000; 0x0; 0x0; 0x0; 0x0; 0x202000;
   0x0; 0x0; 0x0; 0x6000; 0xc06038; 0x1c06038; 0xc06038; 0x1c06038;
   0xfffff8; 0x1fffff8; 0x1c300; 0x1c380; 0x1ffffc0; 0x1ffffc0; 0x180e0; 0x180f0;
   0xabaaf8; 0xffffde; 0xabaacc; 0x180c0; 0xabaac0; 0xffffc0; 0xabaac0; 0x180c0;
   0x180c0; 0x3ffffc0; 0x3ffffc0; 0xc0; 0x0; 0x0; 0x0; 0x0;
   0x202000; 0x0; 0x0; 0x0; 0x6000; 0xc06030; 0x1c06030; 0xc06030;
   0x1fffff0; 0xfffff0; 0x0; 0x3fffff0; 0x3fffff0; 0x18030; 0x1c030; 0xffff30;
   0xffff30; 0x18030; 0x1c030; 0x1ffffb0; 0x1ffffb0; 0x18038; 0xffff38; 0xffff98;
   0x1c01c; 0x1801c; 0x3ffffdc; 0x3ffffce; 0x3ffffc4; 0x0; 0x0; 0x0;
   0x0; 0x202000; 0x0; 0x0; 0x0; 0xe0060; 0xe0060; 0xe0060;
   0x1fff060; 0x1fff164; 0xe036c; 0xe036c; 0x2aeab6c; 0x3fffb6c; 0x2aaab6c; 0x71c36c;
   0x1e2e36c; 0x3c77f6c; 0x3039b6c; 0xffc36c; 0xffc36c; 0x61f36c; 0x71fb6c; 0x3b9b6c;
   0x1f03fc; 0x1f03fc; 0x3f8300; 0x1fbf000; 0x3e0fc00; 0x3001800; 0x0; 0x0;
   0x0; 0x0; 0x202000; 0x0; 0x0; 0x0; 0x60; 0x3fff060;
   0x3fff060; 0x3003060; 0x3003064; 0x300326c; 0x3fff76c; 0x3fff26c; 0x18376c; 0x398b26c;
   0x399f76c; 0x398b26c; 0x399f76c; 0x398b26c; 0x3fff76c; 0x3ffb26c; 0x18176c; 0x318da6c;
   0x318df6c; 0x318dbfc; 0x318dffc; 0x318da00; 0x3ffdc00; 0x3ffcc00; 0x3000c00; 0x0;
   0x0; 0x0; 0x0; 0x202000; 0x0; 0x0; 0x0; 0x60040;
   0xe00e0; 0x15d50e0; 0x3fff8e0; 0x3fff0e0; 0x2e8; 0x1ffe6ec; 0xffe2ec; 0x1c066ec;
   0xc062ec; 0x1ffe6ec; 0xffe2ec; 0x6ec; 0xffe2ec; 0x1ffe6ec; 0x7002ec; 0x3c06ec;
   0xc02ec; 0x7fffeec; 0x3fffbfc; 0xc07fc; 0xc0208; 0xc0000; 0xfc000; 0x7c000;
   0x0; 0x0; 0x0; 0x0; 0x202000; 0x0; 0x0; 0x0;
   0x6000; 0xc06030; 0x1c06030; 0xc06030; 0x1fffff0; 0xfffff0; 0x1fffff0; 0xf000;
   0x1fc00; 0xf9e00; 0x7f07c0; 0x7f803f8; 0x7efff7e; 0x20fff0c; 0x6000; 0x6000;
   0xfffff0; 0xfffff0; 0x3861c0; 0x186180; 0x1c6380; 0xe6300; 0x3fffffc; 0x3fffffc;
   0x0; 0x0; 0x0; 0x0; 0x0; 0x202000; 0x0; 0x0;
   0x0; 0x60; 0xfff060; 0x1fff060; 0xeaa060; 0x700164; 0x38026c; 0x19c1b6c;
   0x18c1a6c; 0x1cc1b6c; 0x1ecda6c; 0x1fddb6c; 0x1bd9a6c; 0x19d1b6c; 0x18c1a6c; 0x19f1b6c;
   0x1ff9a6c; 0x1e5fb6c; 0x1cc7a6c; 0x1841b6c; 0x1879bfc; 0x1879bfc; 0x1fffa00; 0x1fff800;
   0x1aaa800; 0x1800000; 0x0; 0x0; 0x0; 0x0; 0x202000; 0x0;
   0x0; 0x0; 0x18060c0; 0x1c1e0c0; 0xf7c0c0; 0x3e00c0; 0xff04d4; 0x3e3e6c8;
   0x18ff6dc; 0x606c8; 0x15756d8; 0x3fffec8; 0x7fffedc; 0x186c8; 0x1ffc6dc; 0x1ffe6c8;
   0x1c0f6dc; 0x180fec8; 0x1ffdedc; 0x180c6c8; 0x1c0c6dc; 0x1ffc7e8; 0x1ffc7f8; 0x180c600].
Definition hanzi_data_118 : list N :=
  [0x1c0c000; 0x1f0c000; 0xf0c000; 0x0; 0x0; 0x0; 0x0; 0x202000;
   0x0; 0x0; 0x0; 0x60060; 0x60060; 0x70060; 0x3fff860; 0x7fff864;
   0x2bbaa6c; 0x71c76c; 0xeec26c; 0xcef76c; 0x1ce726c; 0x7ffff6c; 0x3fffe6c; 0x1ce776c;
   0x8e326c; 0x1fff76c; 0xaeb26c; 0x1ce776c; 0x8e326c; 0x1fff76c; 0xfff3fc; 0x70e77fc;
   0x30e0200; 0x30e0000; 0x3fe0000; 0x1fc0000; 0x0; 0x0; 0x0; 0x0;
   0x202000; 0x0; 0x0; 0x0; 0x6000; 0xc06030; 0x1c06030; 0xc06030;
   0x1fffff0; 0xfffff0; 0x1555550; 0x3080c0; 0x3181c0; 0x7180c0; 0x61cffc; 0xe0cffc;
   0x1c0e1c0; 0x38e71e0; 0x7867be0; 0x30736e0; 0x370ff0; 0x338cf8; 0x7185dc; 0xe1c0dc;
   0xc0e1cc; 0x1fee0c0; 0x1fff1c0; 0x383f0c0; 0x10001c0; 0x0; 0x0; 0x0;
   0x0; 0x202000; 0x0; 0x0; 0x0; 0x6000; 0x1c06038; 0x1c06038;
   0x1c06038; 0x1d57578; 0x1fffff8; 0x1fffff8; 0x0; 0x1ff9ff0; 0x1ff9ff0; 0x1c19c30;
   0x1819830; 0x1ff9ff0; 0x1ff9ff0; 0x1ff9ff0; 0x1819838; 0x1c19c30; 0x1ff9ff8; 0x1ff9ff8;
   0x1819818; 0x1c1dc18; 0x180d818; 0x1d0dd1c; 0xf8ef0e; 0xf04704; 0x0; 0x0;
   0x0; 0x0; 0x202000; 0x0; 0x0; 0x0; 0x1406010; 0x1c06038;
   0x1c06038; 0x1c06038; 0x1fffff8; 0xaaaaa8; 0x1c001c0; 0x1fe01c0; 0x7f7ffc; 0x37ffc;
   0x30060; 0x30370; 0x30730; 0x3ff2bb8; 0x3ff7ffc; 0x63aba8; 0x638700; 0x63e300;
   0x61fff4; 0x61bffc; 0x61c77c; 0x60c300; 0x60c700; 0x60e300; 0x604700; 0x0;
   0x0; 0x0; 0x0; 0x202000; 0x0; 0x0; 0x0; 0x6000;
   0xc06030; 0x1c06030; 0xc06030; 0x1fffff0; 0xfffff0; 0x0; 0xaaaaa0; 0x1fffff0;
   0xc00030; 0x1c06030; 0xcaeab0; 0x1dfffb0; 0xcaeab0; 0x1c06030; 0xcfff30; 0x1cfff30;
   0xce0330; 0x1ce0730; 0xcfff30; 0x1c7ff30; 0xc00030; 0x1fffff0; 0xfffff0; 0x1c00030;
   0x0; 0x0; 0x0; 0x0; 0x202000; 0x0; 0x0; 0x0;
   0x6000; 0xc06030; 0x1c06030; 0xc06030; 0x1fffff0; 0xfffff0; 0x770000; 0xe30000;
   0x3fffff0; 0x3fffff0; 0x70030; 0xc6ffb0; 0xc6fff0; 0xe60c30; 0xe65770; 0x6efff0;
   0x7cd770; 0x3c63b8; 0x3c77b8; 0x183f98; 0x71c7c18; 0x33eee18; 0x377c7dc; 0x3e3c0ce;
   0x1c1804c; 0x0; 0x0; 0x0; 0x0; 0x202000; 0x0; 0x0;
   0x0; 0x7000; 0xc06030; 0xc07030; 0xc06030; 0xfffff0; 0xfffff0; 0xfffff0;
   0x600180; 0x600180; 0x603ff8; 0x7fffff8; 0x3ffc180; 0x600180; 0x603ffc; 0x61fffc;
   0x638180; 0x670180; 0x663ff8; 0x6e3ffc; 0x640180; 0x600180; 0x607f80; 0x607ffc;
   0x7e03fc; 0x7c0004; 0x0; 0x0; 0x0; 0x0; 0x202000; 0x0;
   0x0; 0x0; 0x6000; 0xc06038; 0x1c06038; 0xc06038; 0x1fffff8; 0xfffff8;
   0x0; 0x7ffff0; 0x7ffff0; 0x606030; 0x606070; 0x7ffff0; 0x7ffff0; 0x606030;
   0x757570; 0x7ffff0; 0x7ffff0; 0x207a00; 0x71e760; 0xe3c370; 0x1dd8730; 0x39c0338;
   0x39fff1c; 0x30ffe08; 0x7fc00; 0x0; 0x0; 0x0; 0x0; 0x202000;
   0x0; 0x0; 0x0; 0x40; 0x2aaa860; 0x3fff860; 0x2bba860; 0x3b8064;
   0xbba268; 0x1fff66c; 0x1bbb268; 0x199366c; 0x1993268; 0x1dd766c; 0x1fff268; 0x1fff66c;
   0x30268; 0x157566c; 0x3fffa68; 0x3fffe6c; 0x60c268; 0x70e66c; 0x39e3f8; 0x1fc7f8;
   0x3e0200; 0x1ffc000; 0x3c1f800; 0x1007800; 0x0; 0x0; 0x0; 0x0;
   0x202000; 0x0; 0x0; 0x0; 0x40; 0x3fbf060; 0x3fbf060; 0x31b3060;
   0x31b3464; 0x31b326c; 0x3fbf76c; 0x3fbf26c; 0x76c; 0xffe26c; 0x1ffe76c; 0x26c;
   0x76c; 0x3fffa6c; 0x7ffff6c; 0xc26c; 0x155c76c; 0x1ffe26c; 0x1ffe76c; 0xc003fc;
   0xc007fc; 0xe00200; 0xe00000; 0x7e0000; 0x3e0000; 0x0; 0x0; 0x0;
   0x0; 0x202000; 0x0; 0x0; 0x0; 0x60c0c0; 0x60c0c0; 0x60c0c0;
   0x3fff0c0; 0x3fff4c4; 0x60c6cc; 0x75c6dc; 0x7fc6cc; 0x7fc6dc; 0x60c6cc; 0x7fc6dc;
   0x7fc6cc; 0x60c6dc; 0x60c6cc; 0x7fffedc; 0x3fffecc; 0x3476dc; 0x7e66cc; 0x6676dc;
   0xc367fc; 0x1c377fc; 0x816600; 0x3fff000; 0x3ffe000; 0x0; 0x0; 0x0;
   0x0; 0x0; 0x202000; 0x0; 0x0; 0x0; 0x6000; 0xc06030;
   0x1c06030; 0xc06030; 0x1fffff0; 0xfffff0; 0x1b8000; 0x7b8000; 0x1f7d550; 0x3fffff0;
   0x3fffff0; 0x30030; 0x1c37fb0; 0xc37fb0; 0xe70030; 0x677fb0; 0x777fb0; 0x3e61b0;
   0x1e71b0; 0xe61b8; 0x71f7f98; 0x23bab98; 0x779e19c; 0x3f0f00e; 0x1c0600c; 0x0;
   0x0; 0x0; 0x0; 0x202000; 0x0; 0x0; 0x0; 0x360000;
   0xf60780; 0x1e607fc; 0x8600fc; 0x3fff8c4; 0x3fff8c0; 0x1f00c0; 0xb02e8; 0x11f0ffc;
   0x30b8ffc; 0x31dc1e0; 0x3b8e1e0; 0x3fc7bf0; 0xa036f0; 0xe06f0; 0xe00d8; 0x30e38dc;
   0x30e38cc; 0x30e38cc; 0x30e38c4; 0x30e38c0; 0x30e38c0; 0x3fff8c0; 0x3fff8c0; 0x30000c0;
   0x0; 0x0; 0x0; 0x0; 0x202000; 0x0; 0x0; 0x0;
   0xc00040; 0x1ffa0e0; 0x7ff0e0; 0xea0e0; 0xe00e0; 0x3fffae8; 0x7fffeec; 0xe06ec;
   0x6ec6ec; 0x32ec6ec; 0x3eefeec; 0xeeeeec; 0x6ec6ec; 0x22ee6ec; 0x36efeec; 0x3eeceec;
   0x1dfc6ec; 0x3f86ec; 0x7fc7fc; 0xeee7fc; 0x1ce7604; 0x38e3800; 0x70e1c00; 0x20e0800;
   0xe0000; 0x0; 0x0; 0x0; 0x0; 0x202000; 0x0; 0x0;
   0x0; 0x60; 0x3fff060; 0x3fff060; 0x38c3060; 0x38c3164; 0x38c3268; 0x3fff76c;
   0x3fff268; 0x155776c; 0x3268; 0x1fff76c; 0x3ffb268; 0x381f76c; 0x381b268; 0x3fff76c;
   0x3ffb268; 0x381f76c; 0x381ba68; 0x3ffff6c; 0x3ff9bf8; 0x381dffc; 0x3819a00; 0x3ffdc00;
   0x3ff8c00; 0x381cc00; 0x0; 0x0; 0x0; 0x0; 0x202000; 0x0;
   0x0; 0x0; 0x6000; 0xc06038; 0x1c06038; 0xc06038; 0x1fffff8; 0xfffff8].
Definition hanzi_data_119 : list N :=
  [0x10000; 0x31830; 0x31c30; 0x3ff1830; 0x3fffffc; 0x301fffc; 0x1999c30; 0x199d830;
   0x199dc30; 0x98dff0; 0x1c1ff0; 0x3c1830; 0x3c1c30; 0x7e1830; 0x771d70; 0xe39ff0;
   0x1c3dff0; 0x381f830; 0x1005c30; 0x0; 0x0; 0x0; 0x0; 0x202000;
   0x0; 0x0; 0x0; 0x60; 0xfff060; 0x1fff060; 0x863060; 0x1c63164;
   0xfff26c; 0x1fff36c; 0x86326c; 0x1c6336c; 0xfff26c; 0x1fff36c; 0x6026c; 0x6036c;
   0x3fffa6c; 0x3fffb6c; 0x3861a6c; 0x3b61b6c; 0x3a61a6c; 0x3ff1b6c; 0x3fffbfc; 0x3c7dbfc;
   0x3801a00; 0x3801800; 0x3e01800; 0x1e01800; 0x0; 0x0; 0x0; 0x0;
   0x202000; 0x0; 0x0; 0x0; 0xe0060; 0xe0060; 0xe0060; 0x3fff060;
   0x3fff164; 0x2bfa26c; 0x7f836c; 0xefc26c; 0x1cef36c; 0x78e3a6c; 0x3041b6c; 0xffe26c;
   0xffe36c; 0xc0626c; 0xc0636c; 0xffe26c; 0xffe36c; 0xc0626c; 0xffe36c; 0xffe3fc;
   0x3fc; 0x200; 0x3fff800; 0x3fff800; 0x0; 0x0; 0x0; 0x0;
   0x0; 0x202000; 0x0; 0x0; 0x0; 0x71c060; 0x318060; 0x7fff860;
   0x3fff860; 0x71c164; 0x31826c; 0x71c76c; 0x3fffa6c; 0x3ffff6c; 0x38a3a6c; 0x38e3f6c;
   0x38e3a6c; 0x15f576c; 0x3fffa6c; 0x3ffff6c; 0x1f026c; 0x3f876c; 0x3fc26c; 0x6ec76c;
   0xee63fc; 0x1ce7ffc; 0x38e3e00; 0x30e1800; 0xe0000; 0xe0000; 0x0; 0x0;
   0x0; 0x0; 0x202000; 0x0; 0x0; 0x0; 0x6000; 0x1806038;
   0x1c06038; 0x1806038; 0x1fffff8; 0x1fffff8; 0x30060; 0x30060; 0x39ff0; 0xab9ff8;
   0x3ff8018; 0x3bf801c; 0x39dcffe; 0x19ceffc; 0x19ce0c0; 0x9c60c0; 0x1c1ffc; 0x1c0ffc;
   0x3600c0; 0x3600c0; 0x771cc0; 0xe39fc0; 0x3c1c7e0; 0x380f0e0; 0x3006040; 0x0;
   0x0; 0x0; 0x0; 0x202000; 0x0; 0x0; 0x0; 0x6000;
   0x1806018; 0x1c06018; 0x1806018; 0x1fffff8; 0x1fffff8; 0xf000; 0x1f800; 0x7dc00;
   0x3e0f80; 0x1fd57f0; 0x3effffe; 0x385553c; 0xe02aa0; 0xe73ff0; 0xe33030; 0xe73570;
   0xe33ff0; 0xe73070; 0xe33030; 0xe73ff0; 0xe33030; 0xe03070; 0xfc3e30; 0x7c1e70;
   0x0; 0x0; 0x0; 0x0; 0x202000; 0x0; 0x0; 0x0;
   0xc0060; 0x18c6060; 0x1cc6060; 0xcce060; 0x6dc064; 0x3fffa6c; 0x3fffb6c; 0x3f026c;
   0x7f836c; 0xece26c; 0x3cc736c; 0x38c3a6c; 0xf136c; 0x7026c; 0x157536c; 0x3fffa6c;
   0x3fffb6c; 0x60c26c; 0x70e36c; 0x3be3fc; 0x1fc3fc; 0x3e0200; 0x1ffc000; 0x3e3f800;
   0x1807000; 0x0; 0x0; 0x0; 0x0; 0x202000; 0x0; 0x0;
   0x0; 0x406010; 0xc06038; 0x1c06038; 0xeaeab8; 0x1fffff8; 0x6000; 0x6000;
   0x3fffffc; 0x3fffffc; 0x0; 0x7fffc0; 0x3aaac0; 0x7000c0; 0x3fffc0; 0x7fffc0;
   0xaaaaa8; 0x1fffff8; 0x1aaaab8; 0x1cfff18; 0x18fff18; 0x1cc0718; 0x18eab18; 0x1cfff18;
   0x1f80318; 0x1f00018; 0x0; 0x0; 0x0; 0x0; 0x202000; 0x0;
   0x0; 0x0; 0x404060; 0xe0c060; 0x61c060; 0x718060; 0x318464; 0x3fffa6c;
   0x7fffe6c; 0x20c26c; 0x70c66c; 0x30e26c; 0x133666c; 0x3bb226c; 0x19b366c; 0x1fbfa6c;
   0x1fdfe6c; 0xcdaa6c; 0x60c66c; 0x60e26c; 0x1f1666c; 0x3b333fc; 0x33337fc; 0x3fbfa00;
   0x7fffc00; 0x20e0800; 0x40000; 0x0; 0x0; 0x0; 0x0; 0x202000;
   0x0; 0x0; 0x0; 0x6000; 0xc06030; 0x1c06030; 0xc06030; 0x1fffff0;
   0xfffff0; 0x7000; 0xaabaa0; 0xfffff0; 0xe06060; 0xe06070; 0xffffe0; 0xfffff0;
   0xe07060; 0xe07070; 0xffffe0; 0xfffff0; 0x8f800; 0x6cdc00; 0x6ece00; 0x1ffcf00;
   0x38ec3c0; 0x355c1f8; 0x3ffc07c; 0x17d001c; 0x0; 0x0; 0x0; 0x0;
   0x202000; 0x0; 0x0; 0x0; 0xc04040; 0xe0e0c0; 0x71c0c0; 0x3180c0;
   0x3fff8c4; 0x3fffac8; 0x606cc; 0x602c8; 0x1fff6cc; 0x1fff2c8; 0x706cc; 0x302c8;
   0x3fffecc; 0x3fffac8; 0x186cc; 0x182c8; 0x1ffc6cc; 0x1ffe2c8; 0x1ce6cc; 0x1873f8;
   0x1c3ff8; 0x183e00; 0x7fffc00; 0x3ffe000; 0x0; 0x0; 0x0; 0x0;
   0x0; 0x202000; 0x0; 0x0; 0x0; 0x600c0; 0x600c0; 0x1ffe0c0;
   0x1ffe0c0; 0x1c064c4; 0x18066cc; 0x1ffe6cc; 0x18066cc; 0x1d566cc; 0x1ffe6cc; 0x1ffe6cc;
   0x18066cc; 0x1ffe6cc; 0x1ffe6cc; 0xe06cc; 0x3fff6cc; 0x3fff6cc; 0x1f06cc; 0x3f86cc;
   0x7f87fc; 0xefe7fc; 0x1ce7600; 0x78e7c00; 0x30e1800; 0xe0000; 0x0; 0x0;
   0x0; 0x0; 0x202000; 0x0; 0x0; 0x0; 0xc0040; 0x18e3060;
   0x1eef060; 0x6ec060; 0x60064; 0xeec268; 0x1fffe6c; 0x39b3a68; 0x73866c; 0xe1c268;
   0x3e0f66c; 0x3fffa68; 0x3fffe6c; 0xc06268; 0x1c0666c; 0xffe268; 0x1ffe66c; 0xc06268;
   0x1ffe66c; 0xffe3f8; 0x1c067f8; 0xc06200; 0x1c06000; 0xf86000; 0xf06000; 0x0;
   0x0; 0x0; 0x0; 0x202000; 0x0; 0x0; 0x0; 0x60060;
   0xe0060; 0x3fff060; 0x3fff060; 0x61c164; 0x31826c; 0x7fffb6c; 0x3fffa6c; 0x36c;
   0xaaa26c; 0x1fff36c; 0x180326c; 0x1d5736c; 0x1fff26c; 0x1c0736c; 0x180326c; 0x1fff36c;
   0xaea26c; 0xe036c; 0x3fffbfc; 0x7fffffc; 0xe0200; 0xe0000; 0xe0000; 0xe0000;
   0x0; 0x0; 0x0; 0x0; 0x202000; 0x0; 0x0; 0x0;
   0x60180; 0x60180; 0x73ffc; 0x2ab3ff8; 0x3ff15d0; 0x2eb9ff8; 0xc3d5d0; 0xe3e180;
   0x677ffc; 0x3e00c0; 0x3c1fe0; 0x381fe0; 0x7e1870; 0x1e79838; 0x7c3df3c; 0x300cf0c;
   0x6000; 0xc06030; 0xc06070; 0xc06030; 0xc06070; 0xeaeab0; 0xfffff0; 0xfffff0;
   0xc00000; 0x0; 0x0; 0x0; 0x0; 0x202000; 0x0; 0x0;
   0x0; 0x60; 0x3fbf860; 0x3fff860; 0x3030060; 0x31b3964; 0x333626c; 0x363476c;
   0x383826c; 0x3f3e76c; 0x33bfa6c; 0x31b1f6c; 0x202026c; 0xe076c; 0xaea26c; 0x1fff76c;
   0x1aaa26c; 0x180776c; 0x180226c; 0x1fff76c; 0x1aaa3fc; 0x18077fc; 0x1802200; 0x1fff000].
Definition hanzi_data_120 : list N :=
  [0x1ffe000; 0x1807000; 0x0; 0x0; 0x0; 0x0; 0x202000; 0x0;
   0x0; 0x0; 0x604060; 0x60e060; 0x71c060; 0xbaa860; 0x1ffff64; 0x1aeba6c;
   0x1e65f6c; 0x1a6da6c; 0x1b6df6c; 0x1b69a6c; 0x1969f6c; 0x1fffa6c; 0x1ffff6c; 0x26c;
   0xfff76c; 0xffe26c; 0xc0776c; 0xc0226c; 0xfff76c; 0xffe3fc; 0xc077fc; 0xc02200;
   0xfff000; 0xffe000; 0xc07000; 0x0; 0x0; 0x0; 0x0; 0x202000;
   0x0; 0x0; 0x0; 0xc00040; 0x1ff8060; 0x7ff060; 0x18c3060; 0x1cc6764;
   0xcce26c; 0x6cc76c; 0x3fffa6c; 0x7ffff6c; 0x3f826c; 0x7dc76c; 0xece26c; 0x3cc776c;
   0x38c3a6c; 0x3ffff6c; 0x1ffe26c; 0x18c776c; 0x18c626c; 0x1fff76c; 0x1ffe3fc; 0x18c77fc;
   0x18c6200; 0x1fff000; 0x1ffe000; 0x1807000; 0x0; 0x0; 0x0; 0x0;
   0x202000; 0x0; 0x0; 0x0; 0x8c4060; 0x18c6060; 0xcce060; 0xecc060;
   0x7cc164; 0x3fffb6c; 0x3fffb6c; 0x3f836c; 0x7dc36c; 0x1ece36c; 0x7cc7b6c; 0x30c3b6c;
   0xcc636c; 0x2e8636c; 0x3fff36c; 0xc3b36c; 0xdf1b6c; 0xcbaf6c; 0xddeb6c; 0x3fcc3fc;
   0x7fcc3fc; 0xc06300; 0xc07000; 0xc03c00; 0xc01800; 0x0; 0x0; 0x0;
   0x0; 0x202000; 0x0; 0x0; 0x0; 0xc0060; 0xcbf860; 0xfbf860;
   0x798060; 0x3399964; 0x3b0fb6c; 0x1f0f36c; 0xeae36c; 0x1fff36c; 0x3aabb6c; 0x7801f6c;
   0x2ffeb6c; 0xfff36c; 0xc0236c; 0xc0736c; 0xeaa36c; 0xfff36c; 0xaaa36c; 0x70e36c;
   0x30c3fc; 0x31c3fc; 0x398308; 0x7fffc00; 0x3fffc00; 0x0; 0x0; 0x0;
   0x0; 0x0; 0x202000; 0x0; 0x0; 0x0; 0x60c060; 0x60c060;
   0x718060; 0x2bba860; 0x3fff964; 0x1b026c; 0x15f536c; 0x1fff26c; 0x1df736c; 0x19b326c;
   0x1f9f36c; 0x180b26c; 0x1fff36c; 0x1aab26c; 0x1d5736c; 0x1fff26c; 0x175536c; 0x30026c;
   0x7fffb6c; 0x2baabfc; 0x30e3fc; 0x31c200; 0x318000; 0x3e0000; 0x1e0000; 0x0;
   0x0; 0x0; 0x0; 0x202000; 0x0; 0x0; 0x0; 0x1c060;
   0xac060; 0x3fe060; 0x386060; 0x15d7164; 0x3fffa6c; 0x3ffff6c; 0x673a6c; 0x1c3bb6c;
   0x38cfa6c; 0x1187b6c; 0x3fffa6c; 0x3fffb6c; 0x3a6c; 0x1ffdb6c; 0x3a6c; 0x1ffdb6c;
   0x1ff9a6c; 0x1b6c; 0x1ff9bfc; 0x1d5dbfc; 0x1809a00; 0x1ffdc00; 0x1ff8c00; 0x181cc00;
   0x0; 0x0; 0x0; 0x0; 0x202000; 0x0; 0x0; 0x0;
   0x406010; 0xc06038; 0x1c06038; 0xfffff8; 0x1fffff8; 0xe180; 0x1c1c0; 0xffffe0;
   0xfffff0; 0xc0f0; 0x7ffffc; 0xc0de; 0x7fffcc; 0x3fffc0; 0x1c1c0; 0xffffc0;
   0xffffc0; 0xaa0ae0; 0x1ff0ff0; 0x1ab0eb0; 0x1c75c30; 0x183fc30; 0x1c7fc30; 0x1f80030;
   0xf00030; 0x0; 0x0; 0x0; 0x0; 0x202000; 0x0; 0x0;
   0x0; 0x6000; 0x1c06038; 0x1c06038; 0x1fffff8; 0x1fffff8; 0x0; 0x1ffc418;
   0x1ffcf98; 0x1e007f8; 0x733038; 0x3f3018; 0x781ff8; 0x1755ff0; 0x3ffe030; 0x3ffdff0;
   0x1981ff8; 0x1dd819c; 0x1f98188; 0x1fdfffc; 0x19bffc; 0x1dc3c0; 0x1bc7e0; 0x15ffe70;
   0x3fe683c; 0x3f0601c; 0x0; 0x0; 0x0; 0x0; 0x202000; 0x0;
   0x0; 0x0; 0x1006010; 0x1806038; 0x1c06038; 0x1fffff8; 0x1fffff8; 0x380;
   0x3fffffc; 0x3fffffc; 0x1c01c0; 0xae9ff8; 0x1ff9ff8; 0x1ab9838; 0x1999ff8; 0x1999ab8;
   0x1999ff8; 0x1999ff8; 0x1999d78; 0x1999ff8; 0x19d9838; 0x18dbffc; 0x4c3ffc; 0xee0e60;
   0x1c71c78; 0x383f81c; 0x101c008; 0x0; 0x0; 0x0; 0x0; 0x202000;
   0x0; 0x0; 0x0; 0x70c060; 0x20c060; 0x1ffc060; 0x1a2c060; 0x175d164;
   0x32ff96c; 0x17ddd6c; 0x2ec96c; 0x7fffd6c; 0x2fce96c; 0x16fcd6c; 0x327896c; 0x1effd6c;
   0x1eff96c; 0x1e00d6c; 0xefed6c; 0xec7d6c; 0xec2d6c; 0x6ffd6c; 0x2666dfc; 0x6764dfc;
   0x2fec700; 0x6dff600; 0x3983600; 0x38c0000; 0x0; 0x0; 0x0; 0x0;
   0x202000; 0x0; 0x0; 0x0; 0xc060; 0xffe060; 0xfff060; 0x703860;
   0x1fffd64; 0x1801f6c; 0x1fffb6c; 0x1fffb6c; 0x11c3b6c; 0x3fbfb6c; 0x5c3b6c; 0x2bbfb6c;
   0x3f9fb6c; 0xe36c; 0xfff36c; 0x783b6c; 0x3ffff6c; 0x30c1b6c; 0x3061b6c; 0x3fffbfc;
   0x3fff3fc; 0x2ef8300; 0x7cdf000; 0x3fc7e00; 0x3f81c00; 0x0; 0x0; 0x0;
   0x0; 0x202000; 0x0; 0x0; 0x0; 0x1406010; 0x1806038; 0x1c06038;
   0x1fffff8; 0x1fffff8; 0xc0000; 0xc1fd0; 0x1ffcff8; 0x1ffc180; 0x188dffc; 0x19cdffc;
   0x1ffc7e0; 0x1ffdff0; 0x18cd9bc; 0x1ddd1dc; 0x1ffc0c0; 0x5e1ffc; 0xde0ee8; 0x15f0c70;
   0x3fb0678; 0x3fb87f0; 0x219cfc0; 0x618fff0; 0x3f8703c; 0x3f0101c; 0x0; 0x0;
   0x0; 0x0; 0x202000; 0x0; 0x0; 0x0; 0x0; 0x40c080;
   0x1e1c380; 0xe0e1c0; 0x70e1c0; 0x7060e0; 0x3870e0; 0x383860; 0x1c3870; 0xc1838;
   0xe1c38; 0x60e18; 0x70e1c; 0xe1c38; 0x1c1c70; 0x1c3870; 0x387070; 0x3870e0;
   0x70e1c0; 0xe0e1c0; 0xe1c1c0; 0x1c1c380; 0x1c3c380; 0x838300; 0x0; 0x0;
   0x0; 0x0; 0x0; 0x202000; 0x0; 0x0; 0x0; 0x0;
   0x800020; 0x1c04070; 0xc0e060; 0x1c0e070; 0xc0e060; 0x1c0e070; 0xc0e060; 0x1c0e070;
   0xc0e060; 0x1c0e070; 0xc0e060; 0x1c0e070; 0xc0e060; 0x1c0e070; 0xc0e060; 0x1c0e070;
   0xc0e070; 0x1c0e070; 0xc0e038; 0x1c0e038; 0xc0e038; 0x1c0e01c; 0xc0000e; 0x1c0000c;
   0x0; 0x0; 0x0; 0x0; 0x202000; 0x0; 0x0; 0x0;
   0x1c00180; 0x1c18180; 0x1c1c180; 0x1c18180; 0x1c1c180; 0x1c18180; 0x1c1c180; 0x1c78db0;
   0x1cfcdb8; 0x1cd8d98; 0x1dddd98; 0x1d99998; 0x1f9d9dc; 0x1f1b98e; 0x1d1d9c4; 0x1c181c0;
   0x1c1c1c0; 0x1c180c0; 0x1c1c0e0; 0x1c180e0; 0x1c1c070; 0x1c18038; 0x1c1c03c; 0x1c0001c;
   0x1c00008; 0x0; 0x0; 0x0; 0x0; 0x202000; 0x0; 0x0;
   0x0; 0x0; 0x18e381c; 0x1c73838; 0xc71870; 0xe71cf0; 0x638ce0; 0x718c40].
Definition hanzi_data_121 : list N :=
  [0x318e00; 0x39c600; 0x18e600; 0x18c77c; 0x39ce7c; 0x718c60; 0x638c60; 0xe71c60;
   0xc71860; 0x1c63860; 0x18e3060; 0x38c7060; 0x38c20e0; 0x1f8; 0x79c; 0x3ffff1e;
   0x3fffc0c; 0x4; 0x0; 0x0; 0x0; 0x0; 0x202000; 0x0;
   0x0; 0x0; 0x70c180; 0x38e1c0; 0x1c78f0; 0x1e38f0; 0x7c71c0; 0xf1e380;
   0xffffe0; 0xffffe0; 0xe06060; 0xe06060; 0xffffe0; 0xffffe0; 0xe06060; 0xe06060;
   0xffffe0; 0xffffe0; 0x6000; 0x3fffffc; 0x3fffffc; 0x3fe00; 0xf6f00; 0x3e63e0;
   0x7f861fc; 0x3e0603c; 0x1006008; 0x0; 0x0; 0x0; 0x0; 0x202000;
   0x0; 0x0; 0x0; 0x0; 0x0; 0x0; 0x1fffff8; 0x1fffff8;
   0xaaeaa8; 0x7000; 0x6000; 0x7000; 0x6000; 0x7000; 0x6000; 0x7000;
   0x6000; 0x7000; 0x6000; 0x7000; 0x6000; 0x7000; 0x6000; 0x1557554;
   0x3fffffc; 0x3fffffc; 0x0; 0x0; 0x0; 0x0; 0x0; 0x0;
   0x202000; 0x0; 0x0; 0x0; 0x1c00; 0xc00; 0x1c00; 0xc00;
   0xc00; 0x3fffffc; 0x3fffffc; 0x600; 0x700; 0x700; 0x700; 0x380;
   0x1ffff80; 0x1ffff80; 0x381c0; 0x380c0; 0x380e0; 0x38060; 0x38070; 0x38038;
   0x3801c; 0x3800e; 0x3ffffcc; 0x3ffff80; 0x0; 0x0; 0x0; 0x0;
   0x0; 0x202000; 0x0; 0x0; 0x0; 0x0; 0x0; 0x7fff800;
   0x3fffaa8; 0x38ffc; 0x38ffc; 0x180c0; 0x180c0; 0x1c0c0; 0xc0c0; 0xc0c0;
   0x3ffc0c0; 0x3ffe0c0; 0x38000c0; 0x38000c0; 0x38000c0; 0x1800fc0; 0x1800fe0; 0x18007fe;
   0x180003e; 0x1c00000; 0xc00000; 0xff8000; 0xff0000; 0x7f0000; 0x0; 0x0;
   0x0; 0x0; 0x202000; 0x0; 0x0; 0x0; 0x0; 0xaaaaa0;
   0x1ffffe0; 0x1ffffe0; 0x60; 0x60; 0x60; 0x60; 0x7fffe0; 0x7fffe0;
   0x600060; 0x600060; 0x600060; 0x600060; 0x600060; 0x7fffe0; 0x7fffe0; 0x60;
   0x60; 0x60; 0x60; 0x60; 0x1ffffe0; 0x1ffffe0; 0x0; 0x0;
   0x0; 0x0; 0x0; 0x202000; 0x0; 0x0; 0x0; 0x0;
   0x2aa000; 0x3ff000; 0x3ff3fc; 0x3037fc; 0x3032e8; 0x3030e0; 0x3030e0; 0x31f0e0;
   0x31b0e0; 0x33b0e0; 0x3330e0; 0x3730e0; 0x3638e0; 0x3038e0; 0x303ee0; 0x1301fe0;
   0x2301bfc; 0x7301c7e; 0x3301c0c; 0x7300c00; 0x3300e00; 0x3f00700; 0x3f00380; 0x300;
   0x0; 0x0; 0x0; 0x0; 0x202000; 0x0; 0x0; 0x0;
   0x0; 0x0; 0x1fffff8; 0x1fffff8; 0x6000; 0x6000; 0x306180; 0x386180;
   0x1861c0; 0x1860c0; 0x1c60c0; 0x1c60e0; 0x7c61e0; 0x7e63e0; 0xee6770; 0x1c76e30;
   0x3c7ec38; 0x383e01c; 0x101601c; 0x6008; 0x6000; 0x3fffffc; 0x3fffffc; 0x2aaaaa8;
   0x0; 0x0; 0x0; 0x0; 0x0; 0x202000; 0x0; 0x0;
   0x0; 0x180100; 0x1c0380; 0x1c0700; 0xaeaea8; 0x1fffff8; 0x1fffff8; 0x7000;
   0x3000; 0xfffff0; 0xffffe0; 0x1800; 0x1800; 0x3fffffc; 0x3fffffc; 0xe00;
   0x700; 0xffff00; 0xffff80; 0x381c0; 0x380e0; 0x38078; 0x3803e; 0x3ffffdc;
   0x3ffffc0; 0x0; 0x0; 0x0; 0x0; 0x0; 0x202000; 0x0;
   0x0; 0x0; 0xe0000; 0xc0000; 0x1c0ffc; 0x3fffffc; 0x3fff700; 0x60700;
   0x770380; 0xe381c0; 0x1c1c7f0; 0x1fee778; 0x3fffe3e; 0x302ec0c; 0x1644000; 0x6ecffc;
   0x6ecffc; 0x6ec0c0; 0x6ec0c0; 0x6ec0c0; 0x6ec0c0; 0x6eecc0; 0x66e6fc0; 0x26e73fe;
   0x66e387c; 0x3ee1c0c; 0x1c01800; 0x0; 0x0; 0x0; 0x0; 0x202000;
   0x0; 0x0; 0x0; 0x0; 0x0; 0x7ffff0; 0x7ffff0; 0x700000;
   0x600000; 0x700000; 0x600000; 0x700000; 0x600000; 0x7ffff0; 0x7fffe0; 0x7ffff0;
   0x600060; 0x500070; 0x60; 0x70; 0x1000060; 0x7000070; 0x3000060; 0x3000070;
   0x3800060; 0x1ffffe0; 0xffffe0; 0x155500; 0x0; 0x0; 0x0; 0x0;
   0x202000; 0x0; 0x0; 0x0; 0x0; 0x0; 0x7ffff8; 0x7ffff8;
   0x700000; 0x600000; 0x700070; 0x600070; 0x700070; 0x600070; 0x700070; 0x7ffff0;
   0x7ffff0; 0x600070; 0x500070; 0x70; 0x70; 0x3000070; 0x3000070; 0x3800070;
   0x3800070; 0x3800060; 0x1ffffe0; 0xffffc0; 0x0; 0x0; 0x0; 0x0;
   0x0; 0x202000; 0x0; 0x0; 0x0; 0x0; 0x0; 0x7ffff0;
   0x7ffff0; 0x600070; 0x600030; 0x600070; 0x600030; 0x600070; 0x600030; 0x7ffff0;
   0x7ffff0; 0x7ffff0; 0x600030; 0x70; 0x30; 0x70; 0x30; 0x3000070;
   0x3800030; 0x3800070; 0x3800070; 0x1fffff0; 0xffffe0; 0x0; 0x0; 0x0;
   0x0; 0x0; 0x202000; 0x0; 0x0; 0x0; 0x0; 0x0;
   0xfffff0; 0xfffff0; 0xe07030; 0xe06030; 0xe07030; 0xe06030; 0xe07030; 0xe06030;
   0xe07030; 0xfffff0; 0xfffff0; 0xe00030; 0xe00030; 0x30; 0x30; 0x30;
   0x3000030; 0x3800030; 0x3800030; 0x3800070; 0x1fffff0; 0xffffe0; 0x5ffd00; 0x0;
   0x0; 0x0; 0x0; 0x202000; 0x0; 0x0; 0x0; 0x60700;
   0x60600; 0x60700; 0x1fffff8; 0x1fffff8; 0x60600; 0x60700; 0x60600; 0x1575754;
   0x3fffffc; 0x7fffffc; 0xe0300; 0x1c0380; 0x3fffc0; 0xfffff0; 0x1ec03f8; 0x7cc03be;
   0x30eab8c; 0xfff80; 0x4aab80; 0xc00380; 0xc00380; 0xffff80; 0x7fff00; 0x1ff400;
   0x0; 0x0; 0x0; 0x0; 0x202000; 0x0; 0x0; 0x0;
   0x0; 0xff9ff8; 0x1ff9ff8; 0xc19838; 0x1c19838; 0xff9ff8; 0x1ff9ff8; 0x181b038;
   0x1ff9ff8; 0x1ff9ff0; 0x5c0740; 0xe0300; 0xe0700; 0x1fffff8; 0x1fffff8; 0xe0300;
   0xe0700; 0xe0300; 0x3fffffc; 0x3fffffc; 0xf0f00; 0x3e0780; 0x1f803f0; 0x3e000fc].
Definition hanzi_data_122 : list N :=
  [0x1800018; 0x0; 0x0; 0x0; 0x0; 0x202000; 0x0; 0x0;
   0x0; 0x6000; 0x6000; 0x6000; 0x6000; 0x6000; 0xaaeaa0; 0x1fffff0;
   0x1fffff0; 0x1c06030; 0x1c06030; 0x1c06030; 0x1c06030; 0x1c06030; 0x1c06030; 0x1c06030;
   0x1c06030; 0x1c06030; 0x1c06030; 0x1c06030; 0xfe6030; 0xfc6030; 0x6000; 0x6000;
   0x6000; 0x6000; 0x0; 0x0; 0x0; 0x0; 0x202000; 0x0;
   0x0; 0x0; 0x0; 0x1f80000; 0x1fffffc; 0x2ffff8; 0x6578; 0x6000;
   0x6000; 0x6000; 0xfffff0; 0xffffe0; 0xfffff0; 0xe06060; 0xe06070; 0xe06060;
   0xe06070; 0xe06060; 0xe06070; 0xe06060; 0xe06070; 0xfe6060; 0x7e6070; 0x286060;
   0x6000; 0x6000; 0x6000; 0x0; 0x0; 0x0; 0x0; 0x202000;
   0x0; 0x0; 0x0; 0x3000; 0x7000; 0x7000; 0xe000; 0x3fffffc;
   0x3fffffc; 0x6000; 0x6000; 0x6000; 0xaaeaa0; 0xfffff0; 0xffffe0; 0xe06070;
   0xe06060; 0xe06070; 0xe06060; 0xe06070; 0xe06060; 0xe06070; 0xea6060; 0xfe6070;
   0x3e6060; 0x6000; 0x6000; 0x6000; 0x0; 0x0; 0x0; 0x0;
   0x202000; 0x0; 0x0; 0x0; 0x1800; 0x1800; 0x1c00; 0xc00;
   0x3fffffc; 0x3fffffc; 0x1555754; 0x8700; 0x1c300; 0xc380; 0x1c1c0; 0xffffe0;
   0x1fffff0; 0xc0c1f8; 0x1c1c1fc; 0xc0c1de; 0x1c1c1cc; 0xc0c1c0; 0x1c1c1c0; 0xc0c1c0;
   0x1fdc1c0; 0xfcc1c0; 0x1c1c0; 0xc000; 0x1c000; 0x0; 0x0; 0x0;
   0x0; 0x202000; 0x0; 0x0; 0x0; 0xe0380; 0xe0380; 0xe0380;
   0xe0388; 0xe0398; 0x1fff398; 0x1fff398; 0x18e3398; 0x18e3398; 0x18e3398; 0x18e3398;
   0x18e3398; 0x18e3398; 0x18e3398; 0x18e3198; 0x18e3198; 0x18e3180; 0x18e3180; 0x1fe31c0;
   0x1ee30c0; 0x6e30e0; 0xe00e0; 0xe0070; 0xe0038; 0xe0010; 0x0; 0x0;
   0x0; 0x0; 0x202000; 0x0; 0x0; 0x0; 0xc0; 0x7fe0c0;
   0x7fe0c0; 0x60e0c0; 0x60e0c0; 0x60effc; 0x60effc; 0x60eccc; 0x61eccc; 0x63eccc;
   0x67eccc; 0x66eccc; 0x6eeccc; 0x6ceccc; 0x7c6ccc; 0x686ccc; 0x606ccc; 0x606fcc;
   0x26077cc; 0x66070c8; 0x66070c0; 0x26038c0; 0x7e01cc0; 0x3e00ec0; 0xcc0; 0x0;
   0x0; 0x0; 0x0; 0x202000; 0x0; 0x0; 0x0; 0x180;
   0x2aaa980; 0x3fffd80; 0x3fff998; 0x60198; 0x60198; 0x1575198; 0x1fff198; 0x1fff198;
   0x1863198; 0x1863198; 0x1863198; 0x1863198; 0x1863198; 0x1863198; 0x1863198; 0x1863190;
   0x1863180; 0x18631c0; 0x1e630c0; 0x1e630e0; 0x600e0; 0x60070; 0x60038; 0x60010;
   0x0; 0x0; 0x0; 0x0; 0x202000; 0x0; 0x0; 0x0;
   0x300040; 0x7803e0; 0x1f1fc0; 0xffe00; 0x7fc00; 0x1fbf80; 0x7c3ff8; 0x6018f0;
   0x1c00; 0x3fffffc; 0x3fffffc; 0xc700; 0xc700; 0xc380; 0xffffc0; 0xffffe0;
   0xe0c1f8; 0xe0c1be; 0xe0c1dc; 0xe0c180; 0xe0c1c0; 0xfcc180; 0x7cc1c0; 0xc080;
   0xc000; 0x0; 0x0; 0x0; 0x0; 0x202000; 0x0; 0x0;
   0x0; 0xc00c0; 0xc00c0; 0xc00c0; 0xc00c0; 0x3fff0c0; 0x3fffffc; 0xc0ffc;
   0xc0ccc; 0x1ffeccc; 0x1ffeccc; 0x1ffeccc; 0xc0ccc; 0xc0ccc; 0x2aeaccc; 0x7fffccc;
   0x3aeaccc; 0x30c0ccc; 0x30c0ecc; 0x30c0ecc; 0x30c00c8; 0x3ec00c0; 0x1ec00c0; 0x4c00c0;
   0xc00c0; 0xc00c0; 0x0; 0x0; 0x0; 0x0; 0x202000; 0x0;
   0x0; 0x0; 0x40e0; 0x80c0e0; 0x1c0c0e0; 0xe0c0e0; 0xf0c0e0; 0x70c7fc;
   0x3cc7fc; 0x1ec6ec; 0xfc6ec; 0x6c6ec; 0x3fffeec; 0x3fffeec; 0x3fffeec; 0xcc6ec;
   0x1cc6ec; 0x18c6ec; 0x38c6ec; 0x30c7ec; 0x70c7ec; 0x60c0e8; 0xecc0e0; 0x1cfc0e0;
   0x78fe0e0; 0x301e0e0; 0x60e0; 0x0; 0x0; 0x0; 0x0; 0x202000;
   0x0; 0x0; 0x0; 0x180; 0xaa8180; 0x1ffc1c0; 0x1ebbffc; 0x1c19ffc;
   0xe39860; 0x671c70; 0x760ef8; 0x3e07e0; 0x1e0f80; 0x7f3fc0; 0x3e3d8f8; 0x3c1e07c;
   0x6008; 0x7fffe0; 0x7fffe0; 0x606060; 0x606060; 0x606060; 0x606060; 0x606060;
   0x7c6060; 0x7c6060; 0x6000; 0x6000; 0x0; 0x0; 0x0; 0x0;
   0x202000; 0x0; 0x0; 0x0; 0xc00c0; 0xc00c0; 0xc00c0; 0xc00c0;
   0x7fff0c0; 0x3ffe7fc; 0x30c77fc; 0x30c66cc; 0x18c76cc; 0x18c66cc; 0x1fff6cc; 0x1ffe6cc;
   0x1fff6cc; 0x180e6cc; 0x1c1f6cc; 0xe3a6cc; 0x6776cc; 0x7637cc; 0x3e37cc; 0x1c30c8;
   0x3e38c0; 0xff18c0; 0x1e7dcc0; 0x381ecc0; 0x30048c0; 0x0; 0x0; 0x0;
   0x0; 0x202000; 0x0; 0x0; 0x0; 0x1c00c0; 0xc00c0; 0xc00c0;
   0xe00c0; 0xe00c0; 0x1ffeffc; 0x1ffeffc; 0x180eccc; 0x180eccc; 0x180eccc; 0x180eccc;
   0x180eccc; 0x180eccc; 0x1ffeccc; 0x1ffeccc; 0x180eccc; 0x180eccc; 0x180eecc; 0x180eecc;
   0x180e2c8; 0x180e0c0; 0x1ffe0c0; 0x1ffe0c0; 0x1aae0c0; 0x180e0c0; 0x0; 0x0;
   0x0; 0x0; 0x202000; 0x0; 0x0; 0x0; 0xe00c0; 0xe00c0;
   0xe00c0; 0xe00c0; 0xe00c0; 0x3fe0ffc; 0x7fe0ffc; 0xe0ccc; 0xe0ccc; 0xe0ccc;
   0xe0ccc; 0xe0ccc; 0x1ffcccc; 0x1ffcccc; 0x180cccc; 0x180cccc; 0x180cccc; 0x180cecc;
   0x180cecc; 0x180c2c8; 0x180c0c0; 0x1ffc0c0; 0x1ffc0c0; 0x180c0c0; 0x180c0c0; 0x0;
   0x0; 0x0; 0x0; 0x202000; 0x0; 0x0; 0x0; 0x7000;
   0x7000; 0x6000; 0x3fffff8; 0x3fffff8; 0x3800018; 0x3871e1c; 0x3be0f98; 0xfc03e0;
   0x1e060f8; 0xc06070; 0x6000; 0xfffff0; 0xfffff0; 0xc06070; 0xc06070; 0xc06070;
   0xc06070; 0xc06070; 0xc06070; 0xc06070; 0xfc6070; 0x7c6070; 0x6000; 0x6000;
   0x0; 0x0; 0x0; 0x0; 0x202000; 0x0; 0x0; 0x0;
   0xc00c0; 0xcc0c0; 0xcc0c0; 0xcc0c0; 0xcc0c0; 0x3ffeffc; 0x3ffeffc; 0xc6ccc].
Definition hanzi_data_123 : list N :=
  [0xc7ccc; 0xc3ccc; 0xc3ccc; 0xc0ccc; 0x3fffccc; 0x3fffccc; 0x1c0ccc; 0x1e0ccc;
   0x1e0ccc; 0x3e0fcc; 0x7707cc; 0x7380c8; 0xe1c0c0; 0xe0e0c0; 0x3c070c0; 0x3803cc0;
   0x30018c0; 0x0; 0x0; 0x0; 0x0; 0x202000; 0x0; 0x0;
   0x0; 0x0; 0x3fffe0; 0x3fffe0; 0x300000; 0x3fffc0; 0x3fffc0; 0x300000;
   0x300000; 0x3fffe0; 0x3fffe0; 0x0; 0x3fffff8; 0x3fffffc; 0x3806018; 0x380601c;
   0x3fffff8; 0x7fffe0; 0x6060e0; 0x7060e0; 0x6060e0; 0x7060e0; 0x7e60e0; 0x7e60e0;
   0x86000; 0x6000; 0x0; 0x0; 0x0; 0x0; 0x202000; 0x0;
   0x0; 0x0; 0xe000; 0x6000; 0x7fffe0; 0x7fffe0; 0x7fffe0; 0x600060;
   0x755560; 0x7fffe0; 0x7fffe0; 0x600060; 0x755560; 0x7fffe0; 0x7fffe0; 0x6000;
   0x1557550; 0xfffff0; 0x1fffff0; 0xc06030; 0x1c06030; 0xc06030; 0x1c06030; 0xe86030;
   0x1fc6030; 0x286030; 0x6000; 0x0; 0x0; 0x0; 0x0; 0x202000;
   0x0; 0x0; 0x0; 0xc0; 0xc0; 0x1ffe0c0; 0x1ffe0c0; 0x1c0e0c0;
   0x180effc; 0x1c0effc; 0x180eccc; 0x1c0eccc; 0x180eccc; 0x1c0eccc; 0x180eccc; 0x1ffeccc;
   0x1ffeccc; 0xccc; 0xccc; 0x418ccc; 0x618fcc; 0xe1cfcc; 0xc0c2c8; 0x1c0c0c0;
   0x180e0c0; 0x38070c0; 0x38038c0; 0x10030c0; 0x0; 0x0; 0x0; 0x0;
   0x202000; 0x0; 0x0; 0x0; 0x7000; 0x7000; 0x6000; 0x1fffff8;
   0x1fffff8; 0x1c0380; 0x1c0700; 0xe0700; 0x1fffffc; 0x3fffff8; 0x3fffffc; 0x3806018;
   0x380601c; 0x3aaeab8; 0x7fffe0; 0x6aeae0; 0x7060e0; 0x6060e0; 0x7060e0; 0x6060e0;
   0x7460e0; 0x7e60e0; 0x3e60e0; 0x6000; 0x6000; 0x0; 0x0; 0x0;
   0x0; 0x202000; 0x0; 0x0; 0x0; 0x4080c0; 0xc1c0c0; 0xe180c0;
   0x6380c0; 0x7300c0; 0x330ff8; 0x3fffffc; 0x3ffecc8; 0x638cdc; 0x638cc8; 0x638cdc;
   0x638cc8; 0x177dcdc; 0x3fffcc8; 0x7fffcdc; 0x638cc8; 0x618cdc; 0x618fc8; 0x6187dc;
   0x61c2c8; 0x61c0c0; 0x60e0c0; 0x6070c0; 0x6030c0; 0x6010c0; 0x0; 0x0;
   0x0; 0x0; 0x202000; 0x0; 0x0; 0x0; 0x3061c0; 0x3060c0;
   0x3061c0; 0x3fffffc; 0x3fffffc; 0x3060c0; 0x3061c0; 0x3060c0; 0x0; 0x3fffff8;
   0x3fffffc; 0x3806018; 0x380601c; 0x3806018; 0x3fffffc; 0x7fffe0; 0x7060e0; 0x6060e0;
   0x7060e0; 0x6060e0; 0x7460e0; 0x7e60e0; 0x1c60c0; 0x6000; 0x6000; 0x0;
   0x0; 0x0; 0x0; 0x202000; 0x0; 0x0; 0x0; 0xc00c0;
   0xc00c0; 0x3fc00c0; 0x3fc00c0; 0x3fc00c0; 0xc0ff8; 0x15d4ffc; 0x1ffecc8; 0x1ffecdc;
   0x180ecc8; 0x1ccecdc; 0x18cecc8; 0x1ccecdc; 0x18cecc8; 0x1ccecdc; 0x18cecc8; 0x1ccecdc;
   0x18cefc8; 0x1ceeedc; 0x86a0c8; 0x3700c0; 0xf380c0; 0x1c1f0c0; 0x380f8c0; 0x30030c0;
   0x0; 0x0; 0x0; 0x0; 0x202000; 0x0; 0x0; 0x0;
   0x1c040c0; 0xc0e0c0; 0xe1c0c0; 0xe180c0; 0x7180c0; 0xbaa7fc; 0x1fff7fc; 0x1aae6cc;
   0x18076cc; 0x18066cc; 0x18076cc; 0x18066cc; 0x1fff6cc; 0x1ffe6cc; 0x1fff6cc; 0x3986cc;
   0x3986cc; 0x3987cc; 0x39c7cc; 0x38c0c8; 0x738e0c0; 0x23870c0; 0x7f07cc0; 0x3f03cc0;
   0x1f00cc0; 0x0; 0x0; 0x0; 0x0; 0x202000; 0x0; 0x0;
   0x0; 0x6000; 0xe000; 0x1c000; 0x3fffff0; 0x3fffff0; 0x381830; 0x381c30;
   0x381830; 0x3fffff0; 0x3ffffb0; 0x381c30; 0x381830; 0x3ffc30; 0x3ff838; 0x18030;
   0x18038; 0x1ffff38; 0xffff38; 0x1c18318; 0xc18318; 0x1c1831c; 0xc1831c; 0x1f9831c;
   0xf9830e; 0x1800c; 0x0; 0x0; 0x0; 0x0; 0x202000; 0x0;
   0x0; 0x0; 0x300; 0x1ff0300; 0x3ff7ffc; 0x1c37ffc; 0xc70300; 0x630300;
   0x777ff8; 0xe33ff8; 0x1c70300; 0x3832ba8; 0x3877ffc; 0x3eb0180; 0x1ff01c0; 0x2320f0;
   0x7607c; 0xaaeab8; 0xfffff0; 0xffffe0; 0xe06070; 0xe06060; 0xe06070; 0xea6060;
   0xfc6070; 0x86020; 0x6000; 0x0; 0x0; 0x0; 0x0; 0x202000;
   0x0; 0x0; 0x0; 0x60060; 0x60060; 0x60060; 0x3fff060; 0x3fff060;
   0x307fc; 0x1fff7fc; 0x1fff66c; 0x1fff66c; 0x3066c; 0x7fffe6c; 0x3fffe6c; 0x555d66c;
   0xe1866c; 0x1f5c66c; 0x3ffc66c; 0x7ffe66c; 0xe067ec; 0xe7f76c; 0xe63868; 0xee1c60;
   0xec0e60; 0xe00c60; 0xfc0060; 0x7c0060; 0x0; 0x0; 0x0; 0x0;
   0x202000; 0x0; 0x0; 0x0; 0x1980c0; 0x1f80c0; 0x1980c0; 0x39c0c0;
   0x11c0c0; 0x3ffe7fc; 0x3ffe7fc; 0x18f6cc; 0x18f6cc; 0x18fecc; 0x1fffecc; 0x1ffe6cc;
   0x18e6cc; 0x18e6cc; 0x18e6cc; 0xbae6cc; 0x1ffe6cc; 0xbae7cc; 0x18e7cc; 0x18e0c8;
   0x18e0c0; 0x3ffe0c0; 0x3ffe0c0; 0xe0c0; 0xe0c0; 0x0; 0x0; 0x0;
   0x0; 0x202000; 0x0; 0x0; 0x0; 0x206040; 0x7060e0; 0x3861c0;
   0x386180; 0x1fffff8; 0x1fffff8; 0x1800018; 0x1800018; 0x19fff98; 0x19fff98; 0x180180;
   0x180180; 0x1fff80; 0x1fff80; 0xe000; 0xe000; 0xfffff0; 0xffffe0; 0xe0e070;
   0xe0e060; 0xe0e070; 0xe0e060; 0xfce070; 0x3ce060; 0xe000; 0x0; 0x0;
   0x0; 0x0; 0x202000; 0x0; 0x0; 0x0; 0xe0060; 0xe0060;
   0x3fff860; 0x3fff860; 0xe0060; 0xaea3fc; 0x1fff7fc; 0xe026c; 0x7fffe6c; 0x3fffa6c;
   0x155566c; 0xaaa26c; 0x1fff66c; 0x1aab26c; 0x1c4766c; 0x18e326c; 0x1ce766c; 0x18e33ec;
   0x1c6776c; 0x1863068; 0x1175060; 0x7b8060; 0x1f1f060; 0x3807c60; 0x3001c60; 0x0;
   0x0; 0x0; 0x0; 0x202000; 0x0; 0x0; 0x0; 0x60;
   0x3fff860; 0x3fff860; 0x3803860; 0x3803860; 0x3803ffc; 0x3fffffc; 0x3aebe6c; 0x3863e6c;
   0x3863e6c; 0x3863e6c; 0x3bfbe6c; 0x3ffbe6c; 0x3963e6c; 0x3b63e6c; 0x3e63e6c; 0x3e63e6c;
   0x3ffffec; 0x3ffff6c; 0x3803860; 0x3803860; 0x3fff860; 0x3fff860; 0x3803860; 0x3803860].
Definition hanzi_data_124 : list N :=
  [0x0; 0x0; 0x0; 0x0; 0x202000; 0x0; 0x0; 0x0;
   0xc0; 0x3fff0c0; 0x3fff0c0; 0x38030c0; 0x3d570c0; 0x3ffb7fc; 0x3d577fc; 0x38036cc;
   0x3fff6cc; 0x3ffb6cc; 0x30076cc; 0xaaa6cc; 0x1ffe6cc; 0x1aae6cc; 0x18066cc; 0x1ffe6cc;
   0x1ffe6cc; 0x18067cc; 0x1d567cc; 0x1ffe0c8; 0x1d560c0; 0x18060c0; 0x1ffe0c0; 0x1ffe0c0;
   0x18060c0; 0x0; 0x0; 0x0; 0x0; 0x202000; 0x0; 0x0;
   0x0; 0x0; 0x1fffff8; 0x1fffff8; 0x1800018; 0x1bfffd8; 0x1bfffd8; 0x3000c0;
   0x3fffc0; 0x3fffc0; 0x3000c0; 0x3fffc0; 0x2aba80; 0x1c00; 0x3fffffc; 0x3fffffc;
   0x1c6380; 0x7c61e0; 0x3fffff8; 0x3fffffc; 0x3860c8; 0x3861c0; 0x3860c0; 0x3f61c0;
   0x1e60c0; 0x6000; 0x0; 0x0; 0x0; 0x0; 0x202000; 0x0;
   0x0; 0x0; 0xe0; 0x3ffe0e0; 0x3fff0e0; 0x38060e0; 0x38070e0; 0x3ffe7fc;
   0x3fff7fc; 0x66ec; 0x76ec; 0x3ffe6ec; 0x3fff6ec; 0xce66ec; 0x1c676ec; 0x18366ec;
   0x3fff6ec; 0x33fa6ec; 0x1876ec; 0x1837ec; 0x3ffb7ec; 0x3ffb0e8; 0x1838e0; 0x1818e0;
   0x7fffce0; 0x3ffece0; 0x55548e0; 0x0; 0x0; 0x0; 0x0; 0x202000;
   0x0; 0x0; 0x0; 0xc0; 0x2aaa0c0; 0x3fff0c0; 0x2aaa0c0; 0xc0;
   0x1ffe7fc; 0x1ffe7fc; 0x18066cc; 0x1c066cc; 0x18066cc; 0x1ffe6cc; 0xaaa6cc; 0x6cc;
   0x3fff6cc; 0x3fff6cc; 0x30c36cc; 0x30c36cc; 0x30c37cc; 0x3fff7cc; 0x3fff0c8; 0x30c30c0;
   0x30c30c0; 0x3fff0c0; 0x3fff0c0; 0x30030c0; 0x0; 0x0; 0x0; 0x0;
   0x202000; 0x0; 0x0; 0x0; 0xc0; 0x1ffe0c0; 0x1fff0c0; 0x18060c0;
   0x1d570c0; 0x1ffe7fc; 0x18077fc; 0x18064cc; 0x1fff4cc; 0x1ffe4cc; 0x18c64cc; 0x18c64cc;
   0x1cce4cc; 0xccc4cc; 0x6cc4cc; 0x3fffccc; 0x3fffccc; 0x3387cc; 0x3187cc; 0x3180c8;
   0x231c0c0; 0x630e0c0; 0x630f0c0; 0x3f03cc0; 0x3f018c0; 0x0; 0x0; 0x0;
   0x0; 0x202000; 0x0; 0x0; 0x0; 0x60; 0x1ffe060; 0x1d57060;
   0x1806060; 0x1fff060; 0x18063fc; 0x1d577fc; 0x1ffe26c; 0x76c; 0x3fffa6c; 0x3ffff6c;
   0x3111a6c; 0x3111f6c; 0x3fffa6c; 0x3ffff6c; 0x26c; 0x1ffff6c; 0x1eaebec; 0xe0e3ec;
   0x71c068; 0x3f8060; 0x1f0060; 0xfff060; 0x3f0fc60; 0x3c01c60; 0x0; 0x0;
   0x0; 0x0; 0x202000; 0x0; 0x0; 0x0; 0xe0700; 0xe0300;
   0x3fffffc; 0x3fffffc; 0xe0700; 0x7fffe0; 0x7fffe0; 0x600060; 0x7fffe0; 0x7fffe0;
   0x600060; 0x7fffe0; 0x7fffe0; 0xe00; 0x3fffffc; 0x3fffffc; 0x1c63c0; 0x7aeae0;
   0x1fffff8; 0x3baeafe; 0x33060cc; 0x3060c0; 0x3e60c0; 0x3e60c0; 0x6000; 0x0;
   0x0; 0x0; 0x0; 0x202000; 0x0; 0x0; 0x0; 0xc0;
   0x3fff0c0; 0x3fff0c0; 0x3300c0; 0x3300c0; 0x3fff7fc; 0x3fff7fc; 0x33336cc; 0x33336cc;
   0x3fff6cc; 0x3fff6cc; 0x6cc; 0x1ffe6cc; 0x1ffe6cc; 0x15546cc; 0x6cc; 0x3fff6cc;
   0x3fff7cc; 0xc47cc; 0xecc0c8; 0x1cc60c0; 0x38c70c0; 0x70c38c0; 0x20f18c0; 0xf00c0;
   0x0; 0x0; 0x0; 0x0; 0x202000; 0x0; 0x0; 0x0;
   0x60060; 0xe0060; 0x3fff060; 0x3fff060; 0x61c060; 0x3187fc; 0x7fffffc; 0x3fffe6c;
   0x66c; 0xaaa66c; 0x1fff66c; 0x180366c; 0x1d5766c; 0x1fff66c; 0x1c0766c; 0x180366c;
   0x1fff66c; 0xaea7ec; 0xe076c; 0x3fff868; 0x7fffc60; 0xe0060; 0xe0060; 0xe0060;
   0xe0060; 0x0; 0x0; 0x0; 0x0; 0x202000; 0x0; 0x0;
   0x0; 0x3b8060; 0x33bb860; 0x1bbb060; 0x1bbb060; 0xfbe060; 0x3fffbfc; 0x3fffffc;
   0xe0c26c; 0x60c66c; 0x60c26c; 0x3fffe6c; 0x3fffa6c; 0xe066c; 0xe026c; 0x1fff66c;
   0x1fff26c; 0x6066c; 0x3fffbec; 0x7fffb6c; 0x1f0068; 0x3f0060; 0x738060; 0x1f1f060;
   0x7c07c60; 0x3001860; 0x0; 0x0; 0x0; 0x0; 0x202000; 0x0;
   0x0; 0x0; 0xc000c0; 0x1ffe0c0; 0x7ff0c0; 0x1cc60c0; 0xcce0c0; 0xecc7fc;
   0x17dd7fc; 0x3fff4cc; 0x3fff4cc; 0x3f84cc; 0x7dc4cc; 0x1ece4cc; 0x7cc7ccc; 0x30c3ccc;
   0x1fff4cc; 0x1ffe4cc; 0x18c74cc; 0x18c27cc; 0x1fff7cc; 0x1ffe0c8; 0x18c70c0; 0x18c20c0;
   0x1fff0c0; 0x1ffe0c0; 0x18070c0; 0x0; 0x0; 0x0; 0x0; 0x202000;
   0x0; 0x0; 0x0; 0x60060; 0xe0060; 0x3fff060; 0x3fff060; 0xe1c060;
   0x6187fc; 0x7187fc; 0x3fffe6c; 0x7fffe6c; 0x66c; 0x1ffe66c; 0x18c666c; 0x18c666c;
   0x1ffe66c; 0x1dd666c; 0x18c666c; 0x1ffe66c; 0xaea7ec; 0xc076c; 0x3fff068; 0x3fff060;
   0xc0060; 0x7fff860; 0x3fff860; 0x60; 0x0; 0x0; 0x0; 0x0;
   0x202000; 0x0; 0x0; 0x0; 0x718060; 0x318060; 0x3fff860; 0x3fff860;
   0x718060; 0x3183fc; 0x3fffffc; 0x3fffa6c; 0x3001e6c; 0x37fda6c; 0x7fc66c; 0x26c;
   0x3fff66c; 0x2afa26c; 0x183c66c; 0x3e6fa6c; 0x7f166c; 0x7dc3ec; 0x6cfb6c; 0xcf3868;
   0x1dfc060; 0x388e060; 0x79c7c60; 0x20f8860; 0x78060; 0x0; 0x0; 0x0;
   0x0; 0x202000; 0x0; 0x0; 0x0; 0x0; 0x0; 0x1fffff8;
   0x1fffff8; 0x7000; 0x6000; 0x7000; 0x6000; 0x7000; 0x6000; 0x7000;
   0x3fffffc; 0x3fffffc; 0x6000; 0x7000; 0x6000; 0x7000; 0x6000; 0x7000;
   0x6000; 0x7000; 0x6000; 0x7000; 0x6000; 0x7000; 0x0; 0x0;
   0x0; 0x0; 0x202000; 0x0; 0x0; 0x0; 0x0; 0x0;
   0x1fffff8; 0x1fffff8; 0x6000; 0x206060; 0x7060e0; 0x3060c0; 0x3861c0; 0x186180;
   0x1c6380; 0xc6380; 0x6000; 0x3fffffc; 0x3fffffc; 0x2aaeaa8; 0x6000; 0x6000;
   0x6000; 0x6000; 0x6000; 0x6000; 0x6000; 0x6000; 0x6000; 0x0;
   0x0; 0x0; 0x0; 0x202000; 0x0; 0x0; 0x0; 0x300;
   0x380; 0x180; 0x1ffffc0; 0x1ffffc0; 0xaaeae0; 0x1c070; 0xc070; 0x1c03c].
Definition hanzi_data_125 : list N :=
  [0xffffdc; 0x1ffffc8; 0xaaeac0; 0x1c1c0; 0xc0c0; 0x1c1c0; 0xc0c0; 0x155d5d4;
   0x3fffffc; 0x3fffffc; 0xc000; 0x1c000; 0xc000; 0x1c000; 0xc000; 0x1c000;
   0x0; 0x0; 0x0; 0x0; 0x202000; 0x0; 0x0; 0x0;
   0x180180; 0x380380; 0x1c0380; 0xc0700; 0xe0700; 0xaeaaa8; 0x1fffff8; 0x1fffff8;
   0xc0700; 0xc0300; 0xc0700; 0xc0300; 0xc0700; 0x3fffffc; 0x3fffffc; 0x2aeaba8;
   0xc0300; 0xc0380; 0xc0380; 0xc0180; 0xc01c0; 0xc00e0; 0xc0078; 0xc003c;
   0xc0018; 0x0; 0x0; 0x0; 0x0; 0x202000; 0x0; 0x0;
   0x0; 0x6000; 0x6000; 0x6000; 0xffffe0; 0xfffff0; 0x6000; 0x6000;
   0x6000; 0x3fffffc; 0x3fffffc; 0x1c0380; 0x1c0380; 0xc0700; 0xaeaba0; 0xfffff0;
   0xaaeaa0; 0x6000; 0x6000; 0x3fffffc; 0x3fffff8; 0x1557554; 0x6000; 0x6000;
   0x6000; 0x6000; 0x0; 0x0; 0x0; 0x0; 0x202000; 0x0;
   0x0; 0x0; 0x1000; 0x3800; 0x3800; 0x1c00; 0x1e00; 0x80e00;
   0x3c0700; 0x1e0380; 0xf01c0; 0x700e0; 0x7fff0; 0x3fff0; 0x1e1f0; 0xf000;
   0xc7800; 0x1c3c00; 0x1c1e00; 0x380700; 0x7003c0; 0xfe01e0; 0xfffff0; 0x1cffff8;
   0x1c005f0; 0x1800000; 0x0; 0x0; 0x0; 0x0; 0x0; 0x202000;
   0x0; 0x0; 0x0; 0x100; 0x380; 0x1554180; 0x3ffe1c0; 0x1ffe1c0;
   0x38000e0; 0x1800060; 0x1801870; 0x1801c70; 0x1801c38; 0x1800ffc; 0x1800ffc; 0x180075c;
   0x1800300; 0x1800380; 0x1800d80; 0x1c01dc0; 0x18038e0; 0x1c03870; 0x1c03fb8; 0x1c07ffc;
   0xe060fc; 0xff601c; 0x7e2000; 0x0; 0x0; 0x0; 0x0; 0x0;
   0x202000; 0x0; 0x0; 0x0; 0xe0180; 0xe0180; 0xe01c0; 0xe00c0;
   0xe00c0; 0xe00e0; 0x1ffc070; 0x1fff870; 0x1ffdc30; 0x18e0c38; 0x18e0ffc; 0x18e0ffc;
   0x186071c; 0x1860300; 0x1860380; 0x1860dc0; 0x1871dc0; 0x18318e0; 0x1831870; 0x183bfb8;
   0x181fffc; 0x181f0fc; 0x1fcf01c; 0xf87000; 0x502000; 0x0; 0x0; 0x0;
   0x0; 0x202000; 0x0; 0x0; 0x0; 0x6000; 0x6000; 0x46100;
   0x18c6318; 0x18c6318; 0x18e6398; 0x1866198; 0x1a26898; 0x1b36cd8; 0x1bfecf8; 0x19fe7f8;
   0x198e6f8; 0x19c6318; 0x1bc6718; 0x1b66d98; 0x1a26998; 0x1ff7cd8; 0x1fffff8; 0x1c7f9f8;
   0x1806818; 0x1806018; 0x1fffff8; 0x1fffff8; 0x1800000; 0x1800000; 0x0; 0x0;
   0x0; 0x0; 0x202000; 0x0; 0x0; 0x0; 0x6000; 0xe000;
   0x1c000; 0x1c000; 0x3fffff0; 0x3fffff0; 0x1555570; 0x70; 0x70; 0x70;
   0x70; 0x70; 0x70; 0x70; 0x70; 0x30; 0x70; 0x30;
   0x30; 0x38; 0x38; 0x18; 0x1c; 0xe; 0xc; 0x0;
   0x0; 0x0; 0x0; 0x202000; 0x0; 0x0; 0x0; 0xe000;
   0xc000; 0x1c000; 0x3fffff0; 0x3fffff0; 0x2aaaab0; 0xc30; 0xe30; 0xe30;
   0xe00e30; 0x1f00e30; 0x7e0e30; 0x1fce30; 0x3fe38; 0xfe30; 0x1e38; 0xe38;
   0xe38; 0x3800e38; 0x3800e18; 0x1800e1c; 0x1800e1c; 0x1fffc1c; 0xfffc0e; 0x55500c;
   0x0; 0x0; 0x0; 0x0; 0x202000; 0x0; 0x0; 0x0;
   0xe000; 0xe000; 0x1c000; 0x8000; 0x3fffff0; 0x3fffff0; 0x18030; 0x18030;
   0x18030; 0x18030; 0x18030; 0x18030; 0x1ffff30; 0x1ffff30; 0x18030; 0x18030;
   0x18030; 0x18038; 0x18038; 0x18038; 0x18018; 0x18018; 0x3ffffdc; 0x3ffffcc;
   0xc; 0x0; 0x0; 0x0; 0x0; 0x202000; 0x0; 0x0;
   0x0; 0x6000; 0xe000; 0x1c000; 0x2abeaa8; 0x3fffff8; 0x3fffff8; 0x18038;
   0x18038; 0x18038; 0x18038; 0x3ffffb8; 0x3ffffb8; 0x3ffffb8; 0x3c038; 0x3c038;
   0x3e038; 0x7e038; 0xe6038; 0x1c7018; 0x383818; 0x781c1c; 0xf00e1c; 0x3e0079c;
   0x38003ce; 0x1000184; 0x0; 0x0; 0x0; 0x0; 0x202000; 0x0;
   0x0; 0x0; 0xe000; 0xe000; 0xc000; 0x3fffff8; 0x3fffff8; 0x38;
   0x60538; 0x60338; 0x60738; 0x60338; 0x1860738; 0x3c60338; 0xf6ff38; 0x7eff38;
   0x1e0738; 0xe0338; 0x60738; 0x60338; 0x1060718; 0x3060318; 0x706c71c; 0x306fb1c;
   0x3fe7f1c; 0x3fe0f8e; 0x174010c; 0x0; 0x0; 0x0; 0x0; 0x202000;
   0x0; 0x0; 0x0; 0xe000; 0xe000; 0x1c000; 0x2abeaa0; 0x3fffff0;
   0x3fffff0; 0x18030; 0x18030; 0x18030; 0x18030; 0x3ffffb0; 0x3ffffb8; 0x3ffffb0;
   0x7e038; 0xff038; 0xdb038; 0x1db838; 0x399c38; 0x719e18; 0xe18f18; 0x3c187dc;
   0x38181dc; 0x10180dc; 0x1800e; 0x18004; 0x0; 0x0; 0x0; 0x0;
   0x202000; 0x0; 0x0; 0x0; 0x6000; 0xe000; 0x155d550; 0x3fffff0;
   0x3fffff0; 0x18030; 0x1c030; 0x18030; 0x1ffffb0; 0x1ffffb0; 0x1c030; 0x18030;
   0x55d530; 0xffff30; 0x7fff30; 0x700e30; 0x381c30; 0x1c3838; 0x1e7038; 0x7e018;
   0x7e018; 0xff818; 0x1ff7f1c; 0x3f80fcc; 0x1c001cc; 0x0; 0x0; 0x0;
   0x0; 0x202000; 0x0; 0x0; 0x0; 0xe000; 0xe000; 0x1c000;
   0x3fffff0; 0x3fffff0; 0x30; 0x30; 0x7fff30; 0x7fff30; 0x380030; 0x1e3c30;
   0x7f830; 0x3e030; 0xafaab8; 0x3fffff8; 0x1abaab8; 0x1c18038; 0xe18038; 0x718018;
   0x218018; 0x1801c; 0x1801c; 0x1801c; 0x1fc0e; 0x1fc0c; 0x0; 0x0;
   0x0; 0x0; 0x202000; 0x0; 0x0; 0x0; 0xe000; 0xe000;
   0x1c000; 0x3fffff0; 0x3fffff0; 0x18030; 0x18030; 0x38030; 0x1fffe30; 0xfffe30;
   0x1c00630; 0xc00630; 0x1c00630; 0xeaae30; 0x1fffe30; 0xeaae38; 0x1c00738; 0x638;
   0x718; 0x318; 0x318; 0x39c; 0x39c; 0x1ce; 0x1cc; 0x0].
Definition hanzi_data_126 : list N :=
  [0x0; 0x0; 0x0; 0x202000; 0x0; 0x0; 0x0; 0xe000;
   0xe000; 0x1c000; 0x3fffff0; 0x3fffff0; 0x30; 0x30; 0xaaaa30; 0x1ffff30;
   0xabaa30; 0x1c030; 0x18030; 0x1c030; 0x3ffffb0; 0x3fffff0; 0x6c030; 0x6c038;
   0x6e038; 0x67038; 0x67018; 0x3063818; 0x3061e18; 0x3fe0f9c; 0x3fe03ce; 0x17401cc;
   0x0; 0x0; 0x0; 0x0; 0x202000; 0x0; 0x0; 0x0;
   0x6000; 0xe000; 0x1c000; 0x3fffff0; 0x3fffff0; 0x2030; 0xe030; 0x6030;
   0x1ffffb0; 0x1ffffb0; 0x3830; 0x31830; 0x71c30; 0x30e30; 0x1ffff30; 0xfffe38;
   0x70038; 0x30038; 0x1575518; 0x3ffff98; 0x3ffffdc; 0x3001c; 0x7001c; 0x3000e;
   0x7000c; 0x0; 0x0; 0x0; 0x0; 0x202000; 0x0; 0x0;
   0x0; 0xe000; 0xe000; 0x1c000; 0x2abeaa0; 0x3fffff0; 0x3fffff0; 0x30;
   0x400030; 0x1c0e030; 0xc0c3b0; 0xc0c330; 0xe0c330; 0x61c730; 0x618630; 0x718e30;
   0x338e38; 0x3b8c38; 0x180c38; 0x1c0c18; 0xc0018; 0xe0018; 0x2aeaa98; 0x7ffffdc;
   0x3ffffce; 0xc; 0x0; 0x0; 0x0; 0x0; 0x202000; 0x0;
   0x0; 0x0; 0xc000; 0xe000; 0x1c000; 0x3fffff0; 0x3fffff0; 0x30;
   0x7c0030; 0xfffe30; 0x17ff30; 0x70630; 0x70730; 0x60630; 0x70730; 0x1fffe38;
   0x1ffff30; 0xe0638; 0xe0738; 0xc0638; 0x1dc718; 0x31d8618; 0x319c71c; 0x33b7e1c;
   0x3f73f1c; 0x3e6070e; 0x1c0010c; 0x0; 0x0; 0x0; 0x0; 0x202000;
   0x0; 0x0; 0x0; 0xe000; 0xe000; 0x155d550; 0x3fffff0; 0x3fffff0;
   0x1c30; 0x1c30; 0xfffe30; 0xffff30; 0xc00730; 0xc003b0; 0xc3fff0; 0xc7fff0;
   0xc306b8; 0xc70630; 0xc30638; 0xe7fe38; 0xebfe38; 0x17c0618; 0x3380618; 0x700061c;
   0x300061c; 0x3fffe1c; 0x1fffc0e; 0x55500c; 0x0; 0x0; 0x0; 0x0;
   0x202000; 0x0; 0x0; 0x0; 0x6000; 0xe000; 0x1c000; 0x3fffff0;
   0x3fffff0; 0x2aaaab0; 0x1c030; 0xc030; 0x1c030; 0x1ffc030; 0x1ffc030; 0xaac030;
   0x1c030; 0xc030; 0x1c030; 0xffff30; 0xffff38; 0xe00338; 0xe00738; 0xe00318;
   0xe0071c; 0xeaab1c; 0xffff1c; 0xeaab0e; 0xc0070c; 0x0; 0x0; 0x0;
   0x0; 0x202000; 0x0; 0x0; 0x0; 0xe000; 0xc000; 0x1c000;
   0x3fffff0; 0x3fffff0; 0x2aaaab0; 0x10070; 0x30030; 0x30070; 0x30030; 0x1fffe70;
   0x1fffe30; 0x1c30670; 0x1830630; 0x1c30670; 0x1830630; 0x1fffe30; 0x1fffe30; 0x1c30630;
   0x1830638; 0x1c30638; 0x1830618; 0x1fffe1c; 0x1fffe0c; 0x1c00608; 0x0; 0x0;
   0x0; 0x0; 0x202000; 0x0; 0x0; 0x0; 0xe000; 0xe000;
   0x155d550; 0x3fffff0; 0x3fffff0; 0x1c030; 0x1c030; 0xffff30; 0xffff30; 0xc1c030;
   0xc1c030; 0x3ffffb0; 0x7fffff0; 0xc1c030; 0xc1c030; 0xeaeab0; 0xffffb0; 0xabeab8;
   0x3e038; 0x7e018; 0xf7018; 0x1e3c18; 0x1fc1f1c; 0x3f007cc; 0x1c001cc; 0x0;
   0x0; 0x0; 0x0; 0x202000; 0x0; 0x0; 0x0; 0xe000;
   0xe000; 0x1c000; 0x3fffff8; 0x3fffff8; 0x838; 0x601838; 0x601c38; 0x601c38;
   0x600e38; 0x3ffe638; 0x3ffe738; 0x600738; 0x6087b8; 0x61c7f8; 0x6186b8; 0x638638;
   0x630638; 0x670618; 0x620618; 0x600618; 0x600618; 0x74061c; 0x7e060c; 0x7e060c;
   0x0; 0x0; 0x0; 0x0; 0x202000; 0x0; 0x0; 0x0;
   0x6000; 0xe000; 0x155d550; 0x3fffff0; 0x3fffff0; 0x42030; 0xe3030; 0x1c3030;
   0x383030; 0x1ffffb0; 0x1ffffb0; 0x33830; 0x33830; 0xe31830; 0x631830; 0x731838;
   0x3b1c38; 0x1f0c38; 0x1f0c18; 0x2070e18; 0x703c71c; 0x303e38c; 0x3ff73cc; 0x3fe20ee;
   0x1fc0040; 0x0; 0x0; 0x0; 0x0; 0x202000; 0x0; 0x0;
   0x0; 0x6000; 0xe000; 0x1c000; 0x3fffff8; 0x3fffff8; 0x8038; 0x19ce38;
   0x38c638; 0x70c738; 0xe0c338; 0x3ffffb8; 0x3ffffb8; 0x7138; 0x7038; 0x7ff038;
   0x7ff838; 0x7ffc38; 0x383c38; 0x3cfe18; 0x1fe718; 0xfc7dc; 0xfc1fc; 0xfdf0dc;
   0x3f07e0e; 0x1c01c0c; 0x0; 0x0; 0x0; 0x0; 0x202000; 0x0;
   0x0; 0x0; 0xe000; 0xc000; 0x1c000; 0x3fffff0; 0x3fffff0; 0x100030;
   0x701c30; 0x383830; 0x1c3030; 0x1ffffb0; 0x1ffffb0; 0x18038; 0x18030; 0x18038;
   0x1ffff38; 0x1ffff38; 0x18038; 0x18038; 0x3ffffd8; 0x3ffff98; 0x3ffffdc; 0x1801c;
   0x1801c; 0x1800e; 0x1800c; 0x0; 0x0; 0x0; 0x0; 0x202000;
   0x0; 0x0; 0x0; 0xe000; 0xe000; 0x1c000; 0x3fffff0; 0x3fffff0;
   0x18030; 0x18030; 0xffff30; 0xffff30; 0x18030; 0x18030; 0x2abaab8; 0x3fffff0;
   0x38; 0x180038; 0x180038; 0x3ffffb8; 0x2baaab8; 0x180e18; 0x181c18; 0x18381c;
   0x18301c; 0x18000c; 0x1f800e; 0x1f8004; 0x0; 0x0; 0x0; 0x0;
   0x202000; 0x0; 0x0; 0x0; 0x6000; 0xe000; 0xc000; 0x3fffff8;
   0x3fffff8; 0x38; 0xc1c38; 0xc0c38; 0xc0e38; 0xc0e38; 0x3fff738; 0x3fff7b8;
   0x1e07b8; 0x3f07f8; 0x3f07f8; 0x3d8678; 0x6dc738; 0xecc638; 0x1cce718; 0x38c7618;
   0x70c3f1c; 0x20c161c; 0xc071c; 0xc060e; 0xc0704; 0x0; 0x0; 0x0;
   0x0; 0x202000; 0x0; 0x0; 0x0; 0xe000; 0xe000; 0x155d550;
   0x3fffff0; 0x3fffff0; 0x381830; 0x381830; 0x381830; 0x3fffff0; 0x3ffffb0; 0x381830;
   0x381830; 0x3ff830; 0x3ff830; 0x30; 0x6aaab0; 0xffffb8; 0x6aaeb8; 0x781c38;
   0x3c3818; 0x1ff018; 0x3e018; 0x7fff1c; 0x3fc3fce; 0x3c001cc; 0x0; 0x0;
   0x0; 0x0; 0x202000; 0x0; 0x0; 0x0; 0xe000; 0xc000;
   0x1c000; 0x3fffff8; 0x3fffff8; 0x38; 0x71cc38; 0x618c38; 0x71ce38; 0x318638].
Definition hanzi_data_127 : list N :=
  [0x79cf38; 0xf99f38; 0x1ddfbb8; 0x38fb3b8; 0x307e1f8; 0x180b8; 0x1ffff98; 0xffff98;
   0x1ffff98; 0x18018; 0x1c01c; 0x1800c; 0x3ffffec; 0x3ffffee; 0x4; 0x0;
   0x0; 0x0; 0x0; 0x202000; 0x0; 0x0; 0x0; 0xc000;
   0xc000; 0x3fffff0; 0x3fffff8; 0x3fffff8; 0x38; 0x1f01fb8; 0x1ffbfb8; 0x1fdd38;
   0x180c38; 0x180e38; 0x180638; 0x1ffbf38; 0x1ffbfb8; 0x1818b8; 0x181938; 0x181998;
   0x180d98; 0x3ffcf18; 0x3ffcf18; 0xf1c; 0x3f1c; 0x7ffffdc; 0x3ffe1ee; 0x3fd004c;
   0x0; 0x0; 0x0; 0x0; 0x202000; 0x0; 0x0; 0x0;
   0x6000; 0xe000; 0x3fffff8; 0x3fffff8; 0x1c038; 0xc038; 0xffff38; 0xffff38;
   0x1c038; 0x3fffff8; 0x3fffff8; 0x1038; 0x1e3c38; 0xf86f38; 0x1e077f8; 0x8038b8;
   0x3ffc18; 0x3aae18; 0x1c1f98; 0xe39d8; 0x7f01c; 0x3e00c; 0x7f7f0c; 0x3f80fee;
   0x3c001c4; 0x0; 0x0; 0x0; 0x0; 0x202000; 0x0; 0x0;
   0x0; 0xe000; 0xe000; 0x1c000; 0x3fffff0; 0x3fffff0; 0x18030; 0x1c070;
   0xffff30; 0x1ffff70; 0xc18330; 0x1ffff70; 0xffff30; 0x1c18770; 0xc18330; 0x1ffff30;
   0xffff30; 0xc7030; 0xc3e38; 0x7fffff8; 0x3fffff8; 0x15d5558; 0xc0018; 0xc001c;
   0xc000e; 0xc000c; 0x0; 0x0; 0x0; 0x0; 0x202000; 0x0;
   0x0; 0x0; 0xe000; 0xe000; 0x3fffff8; 0x3fffff8; 0x3fffff8; 0x6038;
   0x7038; 0x3ffffb8; 0x3fffff8; 0x381838; 0x319c38; 0x618e38; 0x1ffff38; 0x3ffffb8;
   0x7e187f8; 0x26baef8; 0x7ffe18; 0x618618; 0x618618; 0x7ffe18; 0x77ffe1c; 0x301860c;
   0x301800c; 0x3ff800e; 0x1ff0004; 0x0; 0x0; 0x0; 0x0; 0x202000;
   0x0; 0x0; 0x0; 0xc000; 0xc000; 0x1c000; 0x3fffff0; 0x3fffff0;
   0x30; 0x381830; 0x381830; 0x381830; 0x3ffffb0; 0x3fffff0; 0x381830; 0x381830;
   0x381830; 0x381830; 0x3ff830; 0x3ff830; 0x38; 0x640338; 0xe63318; 0x1c67318;
   0x18e6398; 0x38c71dc; 0x30c61ce; 0x104508c; 0x0; 0x0; 0x0; 0x0;
   0x202000; 0x0; 0x0; 0x0; 0xe000; 0xe000; 0x3fffff0; 0x3fffff0;
   0x3fffff0; 0x1c030; 0xffff30; 0xffffb0; 0xe1c030; 0xe1c030; 0x7fffff0; 0x3ebeab8;
   0xe1c030; 0xffffb8; 0xffffb8; 0x81c138; 0x1c1c7b8; 0xf3ce38; 0x7fec18; 0xff818;
   0x7ddf1c; 0x1f1c7fc; 0x3c1c1dc; 0x200fc0e; 0xfc0c; 0x0; 0x0; 0x0;
   0x0; 0x202000; 0x0; 0x0; 0x0; 0xe000; 0xc000; 0x3fffff0;
   0x3fffff0; 0x155d570; 0x18030; 0xffff30; 0xebaa30; 0x1f5d570; 0x3fffff0; 0x1f5d570;
   0xe18030; 0xffff30; 0x18030; 0xffffb0; 0xffffb8; 0xc1c3b8; 0xffffb8; 0xffff98;
   0xc18398; 0xffff9c; 0xebab9c; 0xc1c39c; 0xfd838e; 0xf9c38c; 0x0; 0x0;
   0x0; 0x0; 0x202000; 0x0; 0x0; 0x0; 0xe000; 0xe000;
   0x155d550; 0x3fffff0; 0x3fffff0; 0x181830; 0x15d5d70; 0x3fffff0; 0x3fffff0; 0x181830;
   0x1ffc30; 0x1ff830; 0x30; 0x7ffe30; 0x7ffe30; 0x600630; 0x600638; 0x7ffe38;
   0x7ffe38; 0x38618; 0x70718; 0xe0398; 0x7c03dc; 0x3f801cc; 0x1c0008c; 0x0;
   0x0; 0x0; 0x0; 0x202000; 0x0; 0x0; 0x0; 0x7000;
   0xe000; 0x7fffff0; 0x3fffff0; 0x7fffff0; 0x30; 0x3ffe730; 0x3ffe330; 0x15d4730;
   0xc0330; 0x1ffc730; 0x1ffdf30; 0x180df30; 0x18cc330; 0x19cc730; 0x18cc330; 0x19cc730;
   0x18cc338; 0x18cd718; 0x8ebf18; 0x761f18; 0xf7831c; 0x1c3c11c; 0x380f00e; 0x100700c;
   0x0; 0x0; 0x0; 0x0; 0x202000; 0x0; 0x0; 0x0;
   0xe000; 0xe000; 0x155d550; 0x3fffff0; 0x3fffff0; 0x18030; 0x55bc30; 0xfdbf30;
   0x1fd8730; 0xc18330; 0x1c18330; 0xfdbf30; 0x1fdbf30; 0xc18330; 0x1c18330; 0xebab30;
   0x1ffff30; 0xabea38; 0x3c038; 0x7e018; 0xe7018; 0x3c3c1c; 0x1f81f1c; 0x3e007ee;
   0x30001c4; 0x0; 0x0; 0x0; 0x0; 0x202000; 0x0; 0x0;
   0x0; 0xe000; 0xe000; 0x3fffff0; 0x3fffff0; 0x3fffff0; 0xe030; 0xffff30;
   0xffff30; 0xc1c330; 0xc18330; 0xffff30; 0xffff30; 0xc1c330; 0xc0c330; 0xffff30;
   0xffff30; 0x31e038; 0x3be038; 0xdb7018; 0xab3018; 0x1ff3c1c; 0x38f1e1c; 0x7570fdc;
   0x3ff03ee; 0x1fe00c0; 0x0; 0x0; 0x0; 0x0; 0x202000; 0x0;
   0x0; 0x0; 0xe000; 0xc000; 0x3fffff0; 0x3fffff8; 0x3fffff8; 0x181c38;
   0x1c1838; 0x3ffffb8; 0x3fffff8; 0x63038; 0xffff38; 0xffff38; 0xc63038; 0x2eebab8;
   0x7fffff8; 0xc63038; 0xc63018; 0xffff98; 0xffff98; 0x1e3c18; 0x3e3e1c; 0xf6370c;
   0x1e633cc; 0x18630ce; 0x1063044; 0x0; 0x0; 0x0; 0x0; 0x202000;
   0x0; 0x0; 0x0; 0xe000; 0xc000; 0x3fffff8; 0x3fffff8; 0x1555578;
   0xc38; 0x3fc1c38; 0x3fcffb8; 0x18cffb8; 0x18cc1b8; 0xccd5b8; 0xccffb8; 0x6cffb8;
   0xecc1b8; 0x1ccffb8; 0x18cffb8; 0x18c5598; 0x38c3198; 0x30c7198; 0x38c6198; 0x1fcf19c;
   0xecff8c; 0xdcfcc; 0xc808e; 0xc0004; 0x0; 0x0; 0x0; 0x0;
   0x202000; 0x0; 0x0; 0x0; 0xc000; 0x1c000; 0x155d550; 0x3fffff0;
   0x3fffff0; 0x18030; 0xfdbf70; 0xfdbf30; 0xc18370; 0xc18330; 0xfdbf70; 0xe98330;
   0xc18370; 0xffff30; 0xffff30; 0x18030; 0x7fffb0; 0xffffb0; 0x701c38; 0x383838;
   0x1ff018; 0x7e018; 0x7ffc1c; 0x3fc3fce; 0x1c007cc; 0x0; 0x0; 0x0;
   0x0; 0x202000; 0x0; 0x0; 0x0; 0x6000; 0xe000; 0x3fffff0;
   0x3fffff0; 0x181c30; 0x181830; 0x3fffff0; 0x2babab0; 0x1d5c30; 0x1ff830; 0x1c030;
   0xffff30; 0xffff30; 0xe18338; 0xffff30; 0xffff38; 0x1c038; 0xffffb8; 0x1ffff98;
   0x18018; 0xffff1c; 0x1801c; 0x155d55c; 0x3ffffce; 0x155554c; 0x0; 0x0].
Definition hanzi_data_128 : list N :=
  [0x0; 0x0; 0x202000; 0x0; 0x0; 0x0; 0x7000; 0xe000;
   0x3fffff8; 0x3fffff8; 0x3fffff8; 0x1c0c38; 0x1c5d78; 0xcfff8; 0x15cfff8; 0x3fe0c38;
   0x7feffb8; 0xc7ffb8; 0x1c71c18; 0xc78c38; 0xcdffd8; 0xecffd8; 0x7c0718; 0x78ff18;
   0x787f18; 0x30e318; 0x78639c; 0xfc618c; 0x1cf61cc; 0x387fcee; 0x3013c4c; 0x0;
   0x0; 0x0; 0x0; 0x202000; 0x0; 0x0; 0x0; 0x6000;
   0xe000; 0x3fffff8; 0x3fffff8; 0x1555d78; 0x1c38; 0x3fdfff8; 0x3fdfff8; 0x18d5578;
   0x18cffb8; 0x1ccffb8; 0xccc1b8; 0x6cffb8; 0xecffb8; 0x1cc0038; 0x18cffb8; 0x30cff98;
   0x30c3818; 0x30dd818; 0x38dffd8; 0x1fc1fdc; 0xec180c; 0xc180c; 0xc1f0e; 0xc0f04;
   0x0; 0x0; 0x0; 0x0; 0x202000; 0x0; 0x0; 0x0;
   0x6000; 0xe000; 0x3fffff8; 0x3fffff8; 0x38; 0x1ff7fb8; 0x1ff7ff8; 0x1866338;
   0x1dc6738; 0x1f86638; 0x1fc7c38; 0x18fefb8; 0x1c7e1b8; 0xf7838; 0x7c3e38; 0x3fb8fb8;
   0x3c1f1d8; 0xc3e18; 0x70e18; 0x23e018; 0x707e1c; 0x3e0e0c; 0xff00c; 0xff8e;
   0x1f04; 0x0; 0x0; 0x0; 0x0; 0x202000; 0x0; 0x0;
   0x0; 0xc000; 0xc000; 0x3fffff0; 0x3fffff0; 0x1555570; 0xaaaa30; 0xffff30;
   0xc18330; 0xd5d730; 0xffff30; 0xc1c330; 0xc18330; 0xffff30; 0xc3830; 0xc3830;
   0x1ffffb0; 0x1ffffb8; 0xc3838; 0x15d7d58; 0x3ffffd8; 0x3ffffdc; 0x3e381c; 0x781f1c;
   0x3e00fce; 0x1c00180; 0x0; 0x0; 0x0; 0x0; 0x202000; 0x0;
   0x0; 0x0; 0xe000; 0xc000; 0x3fffff8; 0x3fffff8; 0x38; 0xffff38;
   0xffff38; 0xebab38; 0xffff38; 0xc18338; 0xffff38; 0x18038; 0x1ffff38; 0xabaa38;
   0x3fffff8; 0x3fffff8; 0x3c3c18; 0xf99f98; 0x3c1c7d8; 0x2ffff98; 0x1ffff1c; 0x1800c;
   0x7ffffcc; 0x3ffffee; 0x4; 0x0; 0x0; 0x0; 0x0; 0x202000;
   0x0; 0x0; 0x0; 0xe000; 0xe000; 0x3fffff8; 0x3fffff8; 0x618;
   0x2aa0618; 0x3ff7f18; 0x3983f98; 0x39c3198; 0x38cffd8; 0x18efff8; 0x1e7cd98; 0x1e3cd98;
   0x36ff98; 0x36ff98; 0x3fecd98; 0x3ffcd98; 0x33ff98; 0x31ffd8; 0x3ffcc98; 0x7ffccdc;
   0x30cccc; 0x30cccc; 0x30fc6e; 0x307064; 0x0; 0x0; 0x0; 0x0;
   0x202000; 0x0; 0x0; 0x0; 0xe000; 0xc000; 0x3fffff8; 0x3fffff8;
   0x1c038; 0x2abaab8; 0x3fffff8; 0x38; 0xffff38; 0xc00338; 0xcff338; 0xcc3338;
   0xcff338; 0xc00338; 0xffff38; 0x38; 0x1ffff18; 0xaaaa18; 0x3ffffd8; 0x3ffffd8;
   0x11881c; 0x799e0c; 0x1f187cc; 0x381f3ce; 0x101f004; 0x0; 0x0; 0x0;
   0x0; 0x202000; 0x0; 0x0; 0x0; 0x0; 0x0; 0x7f8;
   0x7f8; 0x300; 0x380; 0x1c0; 0xc0; 0xe0; 0xff0; 0xff0;
   0xe10; 0x600; 0x638; 0x730; 0x330; 0x3f0; 0x3e0; 0x1c0;
   0x3e0; 0x1ff0; 0x3fffe78; 0x3fff83c; 0x3ff8018; 0x0; 0x0; 0x0;
   0x0; 0x0; 0x202000; 0x0; 0x0; 0x0; 0x1c00000; 0x3f80000;
   0x1fff3fc; 0xff9fc; 0xc79c0; 0xc00c0; 0xc00e0; 0xc2060; 0xc3070; 0x3fc32b8;
   0x3fc33fc; 0xc33a8; 0xc3300; 0xc3380; 0xc339c; 0xc3198; 0xc31f8; 0x2aeb1f0;
   0x3fff0f0; 0x3fff0e0; 0x3f0; 0xff0; 0x7ffff3c; 0x3fff81e; 0xc; 0x0;
   0x0; 0x0; 0x0; 0x202000; 0x0; 0x0; 0x0; 0x1c00000;
   0x1fe0000; 0x1fffbfc; 0xffbfc; 0xe0180; 0xe01c0; 0xe00c0; 0xe00e0; 0xe0070;
   0x1fff0b0; 0x1fff7fc; 0xe03f8; 0xe0300; 0xe0308; 0xe039c; 0xe0198; 0xe0198;
   0x3fff9f8; 0x3fff9f0; 0xe0; 0x3f0; 0xff0; 0x7ffff3c; 0x3fff81e; 0x155000c;
   0x0; 0x0; 0x0; 0x0; 0x202000; 0x0; 0x0; 0x0;
   0x30000; 0x30000; 0xfffbfc; 0xfff9fc; 0xc301c0; 0xc300c0; 0x3fffee0; 0x3fffe60;
   0xc30070; 0xc301f8; 0xfffbfc; 0xababa8; 0x30180; 0x1fff980; 0x1fffd9c; 0x30198;
   0x301f8; 0x3fffef0; 0x3fffef0; 0x300e0; 0x301f0; 0x20fb8; 0x7ffff1c; 0x3fff81e;
   0xc; 0x0; 0x0; 0x0; 0x0; 0x202000; 0x0; 0x0;
   0x0; 0x140100; 0x1c0380; 0x1c0380; 0x1c0380; 0x1c0380; 0x1c0380; 0x1c0380;
   0x1c0380; 0x1c0380; 0x1c0380; 0x3fffffc; 0x3fffffc; 0x1c0380; 0x1c0380; 0x1c0380;
   0x1c0180; 0x1c01c0; 0x1c01c0; 0x1c01c0; 0x1c00e0; 0x1c00f0; 0x1c0070; 0x1c0078;
   0x1c003c; 0x1c0018; 0x0; 0x0; 0x0; 0x0; 0x202000; 0x0;
   0x0; 0x0; 0x1c0180; 0x180180; 0x1c0180; 0x180180; 0x1c0180; 0x180180;
   0x15d55d4; 0x3fffffc; 0x3fffffc; 0x180180; 0x1c0180; 0x180180; 0x1c0180; 0x180180;
   0x1c0180; 0x180180; 0x1c0180; 0x180180; 0x1c0180; 0x180180; 0x1fff80; 0x1fff80;
   0x1fff80; 0x180180; 0x1c0180; 0x0; 0x0; 0x0; 0x0; 0x202000;
   0x0; 0x0; 0x0; 0x0; 0x0; 0x1fffff8; 0x1fffff8; 0xc0700;
   0xc0300; 0xc0700; 0xc0300; 0xc0700; 0xc0300; 0xc0700; 0x3fffffc; 0x3fffffc;
   0x3fffffc; 0xc0700; 0xc0300; 0xc0300; 0xc0380; 0xc0180; 0xc01c0; 0xc01e0;
   0xc00e0; 0xc0078; 0xc003c; 0xc0018; 0x0; 0x0; 0x0; 0x0;
   0x202000; 0x0; 0x0; 0x0; 0x3000; 0x3800; 0x71c00; 0xe0e00;
   0x1c0780; 0x3803c0; 0x7ffdf0; 0xfffff8; 0x1c15ff0; 0x8c0200; 0xc0700; 0xc0300;
   0xc0700; 0x3fffffc; 0x3fffffc; 0x2aeaba8; 0xc0300; 0xc0380; 0xc0380; 0xc01c0;
   0xc01c0; 0xc00e0; 0xc007c; 0xc003c; 0xc0008; 0x0; 0x0; 0x0;
   0x0; 0x202000; 0x0; 0x0; 0x0; 0x0; 0x7ffff0; 0x7ffff0;
   0x600030; 0x700070; 0x600030; 0x7ffff0; 0x7ffff0; 0x800070; 0x3800030; 0x1c00070].
Definition hanzi_data_129 : list N :=
  [0x1ffffe0; 0xffffc0; 0x280; 0xc0380; 0xc0380; 0x3fffffc; 0x3fffffc; 0x3fffffc;
   0xc0180; 0xc01c0; 0xc00e0; 0xc0070; 0xc003c; 0xc0018; 0x0; 0x0;
   0x0; 0x0; 0x202000; 0x0; 0x0; 0x0; 0x7000; 0x7000;
   0x6000; 0x3fffffc; 0x3fffffc; 0x20e00; 0xf0f00; 0x1c0380; 0x3801c0; 0x7fffe0;
   0xfffff0; 0xc000a0; 0x4e0700; 0xe0300; 0xe0700; 0x3fffffc; 0x3fffffc; 0x2aeaba8;
   0xe0300; 0xe0380; 0xe01c0; 0xe00e0; 0xe00f8; 0xe003c; 0xe001c; 0x0;
   0x0; 0x0; 0x0; 0x202000; 0x0; 0x0; 0x0; 0x0;
   0xfffff8; 0x1fffff8; 0x6000; 0x6000; 0xaaeaa0; 0xfffff0; 0x6000; 0x6000;
   0x2aaeaa8; 0x3fffffc; 0x2aaaaa8; 0xc0700; 0xc0300; 0xc0700; 0x3fffffc; 0x3fffffc;
   0x2aeaba8; 0xc0380; 0xc0380; 0xc01c0; 0xc00e0; 0xc007c; 0xc003c; 0xc000c;
   0x0; 0x0; 0x0; 0x0; 0x202000; 0x0; 0x0; 0x0;
   0x6000; 0x6000; 0xfffff0; 0xfffff0; 0x6000; 0x6000; 0x3fffffc; 0x3fffffc;
   0x1555f54; 0x1e0700; 0x3c0380; 0xffffe0; 0x1ffffe0; 0x1c002e0; 0xc0700; 0xc0600;
   0x15d5754; 0x3fffffc; 0x3fffffc; 0xc0300; 0xc0380; 0xc0380; 0xc01e0; 0xc00f8;
   0xc0070; 0x0; 0x0; 0x0; 0x0; 0x202000; 0x0; 0x0;
   0x0; 0x6000; 0x7000; 0x1f800; 0x39c00; 0xf0f00; 0x3e0780; 0x1fffff0;
   0x7e2aafe; 0x380001c; 0x3fffc0; 0x3fffc0; 0x3000c0; 0x3000c0; 0x3fffc0; 0x3fffc0;
   0xc0600; 0xc0700; 0x3fffffc; 0x3fffffc; 0xc0300; 0xc0300; 0xc0380; 0xc01f0;
   0xc00fc; 0xc0018; 0x0; 0x0; 0x0; 0x0; 0x202000; 0x0;
   0x0; 0x0; 0x7000; 0x6000; 0x155f554; 0x3fffffc; 0x3fffffc; 0x30c00;
   0x3b0ce0; 0x730c60; 0xe30c70; 0xc30e38; 0x1c30718; 0x83e380; 0x3e1f0; 0xc26e0;
   0xc0700; 0xc0600; 0x3fffffc; 0x3fffffc; 0x15d5754; 0xc0300; 0xc0380; 0xc01c0;
   0xc01f0; 0xc007c; 0xc0018; 0x0; 0x0; 0x0; 0x0; 0x202000;
   0x0; 0x0; 0x0; 0xc1310; 0xe3338; 0x63330; 0x3fe1b20; 0x3ff7ff8;
   0x183bff8; 0x1c7f318; 0xe7e7d8; 0x7cff58; 0x782b78; 0x7c7b78; 0xfe2338; 0x7c7ff18;
   0x383bb18; 0xc0700; 0xe0300; 0x15f5754; 0x3fffffc; 0x3fffffc; 0xe0300; 0xe0380;
   0xe01c0; 0xe01f0; 0xe0078; 0xe0018; 0x0; 0x0; 0x0; 0x0;
   0x202000; 0x0; 0x0; 0x0; 0x3000; 0xe3000; 0x1f3000; 0x783000;
   0x707000; 0x3000; 0x7000; 0x3fef000; 0x3fffff4; 0x2ffffc; 0x71fc; 0x6000;
   0xe000; 0xe000; 0xc000; 0xc000; 0x1c000; 0x18000; 0x1038000; 0x3030000;
   0x7070000; 0x30e0000; 0x3fc0000; 0x3f80000; 0x1f00000; 0x0; 0x0; 0x0;
   0x0; 0x202000; 0x0; 0x0; 0x0; 0x130000; 0x7b0000; 0xf30000;
   0x1c30000; 0x830000; 0x3fffffc; 0x3fffffc; 0x30000; 0x70000; 0x30000; 0x70000;
   0x77ff8; 0x77ff8; 0x60300; 0x60300; 0x60300; 0xe0300; 0xe0300; 0x70c0300;
   0x61ce300; 0x71cff00; 0x3383fe0; 0x37807fc; 0x3f00038; 0x1e00000; 0x0; 0x0;
   0x0; 0x0; 0x202000; 0x0; 0x0; 0x0; 0x380600; 0xf80608;
   0x1b8073c; 0x33803f8; 0x33801f0; 0x3fffbe0; 0x7fffff0; 0x2baae38; 0x30041e; 0x3000cc;
   0x3551c0; 0x37f0c0; 0x37fffc; 0x318ffc; 0x31c1c0; 0x3186f0; 0x71c7d8; 0x318ed8;
   0x71cddc; 0x26f8ccc; 0x76ff1cc; 0x263f8c0; 0x3e051c0; 0x3c000f8; 0x1c00070; 0x0;
   0x0; 0x0; 0x0; 0x202000; 0x0; 0x0; 0x0; 0x0;
   0x0; 0x7ffff0; 0x7ffff0; 0x600000; 0x600000; 0x600000; 0x600000; 0x7fffe0;
   0x7fffe0; 0x60; 0x60; 0x70; 0x60; 0x1fffff0; 0xfffff0; 0xc00000;
   0xe00000; 0xe00000; 0xe00000; 0x600000; 0x600000; 0x7fe000; 0x3fc000; 0x1fc000;
   0x0; 0x0; 0x0; 0x0; 0x202000; 0x0; 0x0; 0x0;
   0xe00000; 0xe07ff8; 0xe07ff8; 0xe06000; 0xe06000; 0xe06000; 0xe06000; 0xe07ff0;
   0xe07ff0; 0xe02ab0; 0xe00030; 0xe00038; 0xe00038; 0xe07ff8; 0xe07ff8; 0xe06aa8;
   0xe06000; 0xe06000; 0xe07000; 0xe06000; 0xe07000; 0xe03000; 0xe03fc0; 0xe03f80;
   0xe01f80; 0x0; 0x0; 0x0; 0x0; 0x202000; 0x0; 0x0;
   0x0; 0x30c00; 0x30c00; 0x30c00; 0xabaea8; 0xfffff8; 0xfffff8; 0xc30c00;
   0xc30c00; 0xc30c00; 0xfffff0; 0xfffff0; 0x30c30; 0x30c30; 0x30c38; 0x3fffff8;
   0x3fffff8; 0x3fffff8; 0x3830600; 0x3830700; 0x1830380; 0x1fb03c0; 0x1f301e0; 0x5300f8;
   0x3003c; 0x30018; 0x0; 0x0; 0x0; 0x0; 0x202000; 0x0;
   0x0; 0x0; 0x0; 0xe0aa8; 0xe0ffc; 0xe0ffc; 0x60e00; 0x60e00;
   0x70e00; 0x70e00; 0x70ff8; 0x30ff8; 0x30018; 0x238018; 0x33801c; 0x31800c;
   0x71cffc; 0xe1cffc; 0xe1c600; 0xc0e600; 0x1c0e700; 0x1c0e600; 0x1ff7700; 0x3fffb00;
   0x387f3f8; 0x30013f8; 0x10001f8; 0x0; 0x0; 0x0; 0x0; 0x202000;
   0x0; 0x0; 0x0; 0xc0000; 0xc03fc; 0xc53fc; 0xc33a8; 0xc7300;
   0x38c3300; 0x1fc7300; 0x1fe33f8; 0x19ff3fc; 0x18ff008; 0x18dfc1c; 0x18c3e0c; 0x18c7c1c;
   0x18c33fc; 0x18c73fc; 0x18c3300; 0x1fc7300; 0xec3380; 0x10c7300; 0x6003380; 0x7007180;
   0x3007180; 0x3fff1d4; 0x3ffe1f8; 0x5500f8; 0x0; 0x0; 0x0; 0x0;
   0x202000; 0x0; 0x0; 0x0; 0x180180; 0x180380; 0x1c0380; 0xc0700;
   0xfffff8; 0xfffff8; 0xd57550; 0xc06000; 0xc06000; 0xeaeaa0; 0xffffe0; 0xffffe0;
   0x6070; 0x6070; 0x1557570; 0x3fffff0; 0x1fffff0; 0x1807800; 0x1807c00; 0x1806f00;
   0x1c067c0; 0xfc61e0; 0xfc60fc; 0x286038; 0x6000; 0x0; 0x0; 0x0].
Definition hanzi_data_130 : list N :=
  [0x0; 0x202000; 0x0; 0x0; 0x0; 0x4000; 0x80e3f8; 0x1c0e7f8;
   0xc0e300; 0xe0e700; 0x70e300; 0x38e700; 0x1ce3f8; 0xfe7f0; 0x6e038; 0x7fffc38;
   0x3fff838; 0x7fffc18; 0xce2b8; 0x1ce7f8; 0x18e3a8; 0x38e700; 0x30e300; 0x70e300;
   0x60e300; 0xece300; 0x1cfe380; 0x787e390; 0x300f1f8; 0x61f0; 0x0; 0x0;
   0x0; 0x0; 0x202000; 0x0; 0x0; 0x0; 0x40000; 0xe03fc;
   0x18e33fc; 0x18e33a8; 0x18e3300; 0x18e3300; 0x18e3300; 0x1fff3f8; 0x1fff3fc; 0xe0008;
   0xe001c; 0xe000c; 0x1fff81c; 0x1fffbfc; 0x1c073fc; 0xc0e300; 0x61c300; 0x738300;
   0x3f0300; 0x1e0380; 0x1f0180; 0x7f8180; 0x1f1f1d4; 0x3c0f9f8; 0x30018f8; 0x0;
   0x0; 0x0; 0x0; 0x202000; 0x0; 0x0; 0x0; 0x1c000;
   0xc3fc; 0xc3fc; 0xe3a8; 0x3ffe300; 0x3ffe300; 0x18c7300; 0x18c33f8; 0x1cc3bfc;
   0xc1808; 0x4c581c; 0xece00c; 0xcce01c; 0xcc63fc; 0x1cc63fc; 0x18c6300; 0x18c7300;
   0x38c3380; 0x30c3b80; 0x30c1b80; 0x10c1180; 0xc0180; 0xd41d4; 0xf81f8; 0x780f8;
   0x0; 0x0; 0x0; 0x0; 0x202000; 0x0; 0x0; 0x0;
   0x70000; 0x603fc; 0xe03fc; 0xe03a8; 0x3ffff00; 0x3fffb00; 0x3ffff00; 0x303f8;
   0x4383fc; 0xe18008; 0xf1c01c; 0x70e00c; 0x3d701c; 0x1ffbfc; 0x1ff3fc; 0xe0300;
   0x670300; 0x638380; 0xe1c380; 0xc0e380; 0x1c07180; 0x3fff980; 0x3fff9d4; 0x30039f8;
   0x10000f8; 0x0; 0x0; 0x0; 0x0; 0x202000; 0x0; 0x0;
   0x0; 0x1c00000; 0x3fe03fc; 0x7ff3fc; 0x67f3a8; 0x673300; 0x663300; 0x673300;
   0x6633fc; 0x6733fc; 0xe6300c; 0xc7301c; 0xc6300c; 0xc7301c; 0xc23bfc; 0xc73bfc;
   0xc33b80; 0x1df1b00; 0x19b1b80; 0x19b1b80; 0x1b39b80; 0x3b19d80; 0x3bfcd80; 0x77fcfd4;
   0x3608ff8; 0x10004f8; 0x0; 0x0; 0x0; 0x0; 0x202000; 0x0;
   0x0; 0x0; 0x0; 0x3fff3fc; 0x3fff7fc; 0x3aba3a8; 0x1830700; 0x3830300;
   0x1838700; 0x18383fc; 0x181c7fc; 0x180e00c; 0x1f8f01c; 0xf8380c; 0x101c; 0x7fc;
   0x1fff7fc; 0x1ffe300; 0x1807700; 0x1806300; 0x1807700; 0x1806300; 0x1807300; 0x1aae300;
   0x1fff3d0; 0x1ffe3f8; 0x18071f0; 0x0; 0x0; 0x0; 0x0; 0x202000;
   0x0; 0x0; 0x0; 0x180; 0xaa8180; 0x1ffdffc; 0x1c1bffc; 0xc31d74;
   0xe31870; 0x770c70; 0x3e0ff8; 0x3e0fc0; 0xffbfc0; 0x7f3d9fc; 0x380c03c; 0x7fffe4;
   0x3fffe0; 0x700000; 0x3fffc0; 0x7fffc0; 0xe0; 0x555560; 0xffffe0; 0xfffff0;
   0xe00000; 0x600000; 0x7f8000; 0x3f8000; 0x0; 0x0; 0x0; 0x0;
   0x202000; 0x0; 0x0; 0x0; 0x0; 0x2aa3fc; 0x1fff3fc; 0xfff3a8;
   0x700300; 0x380300; 0x3c0300; 0x1e03fc; 0x3f03fc; 0xfbc00c; 0x3f1f01c; 0x3807c0c;
   0x300181c; 0x3fc; 0x1fff3fc; 0x1fff380; 0xe0300; 0xe0380; 0xe0380; 0xe0380;
   0xe0180; 0xe0180; 0x7fffdd0; 0x3fffdf8; 0xf8; 0x0; 0x0; 0x0;
   0x0; 0x202000; 0x0; 0x0; 0x0; 0x0; 0x2aaabfc; 0x7fffbfc;
   0x3fffb00; 0xc06300; 0xc06300; 0xc06300; 0xffe3f8; 0xffe3fc; 0xc06008; 0xc0601c;
   0xc06008; 0xffe01c; 0xffe3fc; 0xffe3fc; 0xc06300; 0xc06300; 0x2c06300; 0x7ff6300;
   0x3ffff80; 0xc7ff80; 0xc00380; 0xc001c0; 0xc001f8; 0xc000f8; 0x0; 0x0;
   0x0; 0x0; 0x202000; 0x0; 0x0; 0x0; 0x7000; 0x6000;
   0x3fffffc; 0x3fffffc; 0x3fffffc; 0x130cc0; 0x7b0dc0; 0xe30ce0; 0x1e30c70; 0x1830c38;
   0x1830c10; 0x2aaaa0; 0x7fffe0; 0x300000; 0x700000; 0x3fffe0; 0x7fffe0; 0x60;
   0x1555570; 0xfffff0; 0xd55550; 0xe00000; 0xe00000; 0x7f8000; 0x7f8000; 0x0;
   0x0; 0x0; 0x0; 0x202000; 0x0; 0x0; 0x0; 0x0;
   0x1ff9ff8; 0x1ffdffc; 0x1801800; 0x1801c00; 0x1801800; 0x1ff9ff8; 0x1ff9ff8; 0x38038;
   0x38038; 0x18018; 0xab8ab8; 0x1ff9ff8; 0x1aa9aa8; 0x1811810; 0x18f98f8; 0x1be1fe0;
   0x1981980; 0x1f81f00; 0x1be0fe0; 0x1cfdcfc; 0x1c18c1c; 0x1c00f40; 0xfe0fc0; 0x7c07c0;
   0x0; 0x0; 0x0; 0x0; 0x202000; 0x0; 0x0; 0x0;
   0x70000; 0x603fc; 0xe03fc; 0x3fffba8; 0x3fffb00; 0x300; 0x300; 0x1fff3fc;
   0x1fff3fc; 0x180300c; 0x1c0301c; 0x180300c; 0x1c0301c; 0x1fff3fc; 0x1fff3fc; 0xe0380;
   0x4e4300; 0xeee380; 0x1ce7380; 0x18e3380; 0x38e3980; 0x30e1980; 0x30f59d4; 0xfc1f8;
   0x7c0f8; 0x0; 0x0; 0x0; 0x0; 0x202000; 0x0; 0x0;
   0x0; 0x0; 0x3f9f9fc; 0x3fdfdfc; 0x3998980; 0x39d9d80; 0x3998980; 0x39d9d80;
   0x3b9a9f8; 0x3fdfdf8; 0x3b9a8ac; 0x39d9c1c; 0x399880c; 0x39d9d5c; 0x39989fc; 0x3fdfdfc;
   0x3f9f980; 0x39d9d80; 0x3898d80; 0x38d8dc0; 0x38d8d80; 0x38d8fc0; 0x38d86c0; 0x387d7c0;
   0x3e7e3f8; 0x1e4e278; 0x0; 0x0; 0x0; 0x0; 0x202000; 0x0;
   0x0; 0x0; 0x404000; 0xe0e3fc; 0x60c3fc; 0x71c3a8; 0x718300; 0x388300;
   0x1fffb00; 0x1fffbfc; 0x18e3bfc; 0x18e380c; 0x1fff81c; 0x1fff80c; 0x18e381c; 0x18e3bfc;
   0x1fffbfc; 0x1fffb80; 0xe0300; 0xe0380; 0x7ffff80; 0x3ffff80; 0xe0180; 0xe0180;
   0xe01d4; 0xe01f8; 0xe00f8; 0x0; 0x0; 0x0; 0x0; 0x202000;
   0x0; 0x0; 0x0; 0x0; 0xaaa2a8; 0xfff7fc; 0xeaa3fc; 0xc07700;
   0xc02200; 0xfff700; 0xffe2a8; 0xfff7fc; 0xe03f8; 0x15f501c; 0x1fff00c; 0x1fff01c;
   0x18e32ac; 0x18e37fc; 0x18e33fc; 0x1fff700; 0x1fff300; 0x4e0300; 0xee0300; 0x1ce0300;
   0x1ee0380; 0x3ffffd0; 0x33ff9f8; 0x70001f0; 0x0; 0x0; 0x0; 0x0;
   0x202000; 0x0; 0x0; 0x0; 0x0; 0x3f801fc; 0x3fffffc; 0x3abffa8;
   0x30061c0; 0x3006180; 0x30071c0; 0x3abfda8; 0x3fbfdfc; 0x3fb0dfc; 0x1b0c0c; 0x1b0c0c].
Definition hanzi_data_131 : list N :=
  [0x1b0c0c; 0x2bb0cac; 0x3fffdfc; 0x3abfdaa; 0x3030d80; 0x3030d80; 0x3030d80; 0x3030d80;
   0x303fdc0; 0x383fd80; 0x383fdd4; 0x1fb0cfc; 0x1f0047c; 0x0; 0x0; 0x0;
   0x0; 0x202000; 0x0; 0x0; 0x0; 0x180; 0xff0180; 0xff3ffc;
   0xc33ffc; 0xc30180; 0xc31ff8; 0xc31ff8; 0xc38000; 0x1c3bffc; 0x3c1fffc; 0x7c1f55c;
   0xbffc; 0x1ffc000; 0x1ffdff8; 0x1c31ff8; 0xc31800; 0xe71ff0; 0x661ff8; 0x7e0018;
   0x3c1ff8; 0x3c1ff8; 0xff1800; 0x1e7dc00; 0x3c1ef80; 0x1006780; 0x0; 0x0;
   0x0; 0x0; 0x202000; 0x0; 0x0; 0x0; 0x0; 0x0;
   0xfffff0; 0xfffff0; 0xf55550; 0xe00000; 0xe00000; 0xe00000; 0xe00000; 0xe00000;
   0xe00000; 0xffffe0; 0xfffff0; 0xe00000; 0xe00000; 0xe00000; 0xe00000; 0xe00000;
   0xe00000; 0xe00000; 0xf55550; 0xfffff8; 0xfffff8; 0xe00000; 0x600000; 0x0;
   0x0; 0x0; 0x0; 0x202000; 0x0; 0x0; 0x0; 0x700;
   0x300; 0x1fff700; 0x1ffe318; 0x1fff718; 0x1800318; 0x1800718; 0x1800318; 0x1800718;
   0x1800318; 0x1800718; 0x1ffe318; 0x1ffe718; 0x1800318; 0x1800718; 0x1800318; 0x1800318;
   0x1800380; 0x1800380; 0x1800180; 0x1fff1c0; 0x1fff0e0; 0x1fff0f0; 0x1800078; 0x1800030;
   0x0; 0x0; 0x0; 0x0; 0x202000; 0x0; 0x0; 0x0;
   0x6000; 0xc06020; 0xe06070; 0xe06060; 0x7060e0; 0x3060c0; 0x3861c0; 0x186180;
   0x106000; 0xaaeaa0; 0xfffff0; 0xfffff0; 0xc00000; 0xc00000; 0xc00000; 0xeaaaa0;
   0xffffe0; 0xffffe0; 0xc00000; 0xc00000; 0xc00000; 0xeaaaa0; 0xfffff8; 0xfffff8;
   0xc00000; 0x0; 0x0; 0x0; 0x0; 0x202000; 0x0; 0x0;
   0x0; 0x0; 0x2aaaa0; 0x7ffff0; 0x7ffff0; 0x700000; 0x300000; 0x7fffe0;
   0x3fffe0; 0x700000; 0x300000; 0x3fffffc; 0x3fffffc; 0x406000; 0xe0e060; 0xf0e1f0;
   0x39e3c0; 0x1de780; 0xffa00; 0xf7f00; 0x1e6f80; 0x7c63f0; 0x1f060fc; 0x3e06018;
   0x1807e00; 0x7e00; 0x0; 0x0; 0x0; 0x0; 0x202000; 0x0;
   0x0; 0x0; 0x700; 0x300; 0x3fff00; 0x3fff80; 0x180180; 0x1aab80;
   0x1fffc0; 0xeaa80; 0xc0000; 0x3fffffc; 0x3fffffc; 0x3c00; 0xe03fc0; 0xf073f8;
   0x7cf87c; 0xfde08; 0x1fc7c0; 0x19e3f8; 0x39f878; 0x71be00; 0x1e18fc0; 0x3c183f0;
   0x381d47c; 0xf808; 0x7c00; 0x0; 0x0; 0x0; 0x0; 0x202000;
   0x0; 0x0; 0x0; 0x1801c0; 0x180180; 0x3ffdffc; 0x3ffdffc; 0x1801c0;
   0x180180; 0x1ffdff8; 0xba8ba8; 0x1801c0; 0x3ffdffc; 0x3ffdffc; 0x180180; 0x1801c0;
   0x0; 0x7ffff0; 0x7ffff0; 0x600000; 0x600000; 0x7fffe0; 0x7fffe0; 0x600000;
   0x600000; 0x7ffff0; 0x7ffff0; 0x600000; 0x0; 0x0; 0x0; 0x0;
   0x202000; 0x0; 0x0; 0x0; 0x700; 0x300; 0x1fff00; 0x1fff80;
   0x1c0180; 0x1fff80; 0x1fffc0; 0xc0000; 0x3fffffc; 0x3fffffc; 0x1555554; 0x181830;
   0x195830; 0x11bfc30; 0x3d97d70; 0xf86ff0; 0x7975f0; 0x3bfc30; 0x1ffc30; 0x186030;
   0x719f030; 0x21bb9f0; 0x3ff1df8; 0x3fa0e38; 0x1500418; 0x0; 0x0; 0x0;
   0x0; 0x202000; 0x0; 0x0; 0x0; 0x300; 0x3fff80; 0x1fff80;
   0x180180; 0x1fffc0; 0x1eaa80; 0x3fffffc; 0x3fffffc; 0x170990; 0x3b8db8; 0x5fcdf0;
   0xe70ba8; 0x1ffdffc; 0x18fc3e0; 0x17f1ff0; 0xed89b8; 0x1ccc19c; 0xc0300; 0x15d5754;
   0x3fffffc; 0x7fffffc; 0xc0380; 0xc01c0; 0xc00f8; 0xc0078; 0x0; 0x0;
   0x0; 0x0; 0x202000; 0x0; 0x0; 0x0; 0x630000; 0x630ffc;
   0x7ffeffc; 0x2ebac00; 0x6f8c00; 0x198ff8; 0x3ffcff8; 0x3ffec00; 0x38ec00; 0x1fffffc;
   0x1fffffc; 0xbac600; 0x1ffc600; 0x38c600; 0x3ffdffc; 0x3ffdffc; 0x55c610; 0x1ffc638;
   0x1ffc670; 0xe386e0; 0x7f0640; 0x3e0600; 0x1ff0600; 0x3e3f7c0; 0x300e3c0; 0x0;
   0x0; 0x0; 0x0; 0x202000; 0x0; 0x0; 0x0; 0x40000;
   0xe0000; 0xf8000; 0x3e000; 0x1fc00; 0x3f00; 0x1fe0; 0x803c0; 0x3c0040;
   0x1e0000; 0x78000; 0x3e000; 0x1fc00; 0x3f00; 0x601fc0; 0xe00380; 0x780000;
   0x3c0000; 0x1f0000; 0xf8000; 0x3f000; 0xfe00; 0x3fc0; 0x7e0; 0x1c0;
   0x0; 0x0; 0x0; 0x0; 0x202000; 0x0; 0x0; 0x0;
   0x0; 0x1c00000; 0x1e0fffc; 0xf0fffc; 0x7c3860; 0x1e3860; 0xf3860; 0x23860;
   0x3803860; 0x3803860; 0x1e1fffc; 0xf0fffc; 0x7dfffc; 0x1e3860; 0xf3860; 0x3023860;
   0x7003860; 0x3803860; 0x1c03870; 0xe03830; 0x783838; 0x3c3838; 0x1f381c; 0x7b80e;
   0x1380c; 0x0; 0x0; 0x0; 0x0; 0x202000; 0x0; 0x0;
   0x0; 0x0; 0x1c02aa0; 0x1e07ff0; 0xf07ff0; 0x786070; 0x1e61b0; 0xf63f0;
   0x26330; 0x3806770; 0x1c06630; 0x1e06670; 0xf06030; 0x79fffc; 0x1ffffc; 0xf6070;
   0x3006030; 0x3806030; 0x3806030; 0x1c06030; 0xe06038; 0x706038; 0x386018; 0x1f7c1c;
   0xf7c0c; 0x3140c; 0x0; 0x0; 0x0; 0x0; 0x202000; 0x0;
   0x0; 0x0; 0x7000; 0x6000; 0xe000; 0x1fffff8; 0x1fffff8; 0x1c0300;
   0x1c0700; 0xe0600; 0x3fffff0; 0x3fffff0; 0x3fffff0; 0x1e0030; 0x7f030; 0xff30;
   0x701f30; 0x3c0030; 0x1fc030; 0x83f838; 0x1c0ff38; 0xf00e18; 0x7c0018; 0x1f8018;
   0x7fc1c; 0xff8e; 0x1f8c; 0x0; 0x0; 0x0; 0x0; 0x202000;
   0x0; 0x0; 0x0; 0x118000; 0x398000; 0xf18000; 0xe38000; 0x818000;
   0x3fffffc; 0x7fffffc; 0x38000; 0x330000; 0x1b0ff8; 0x1f0ff8; 0xc78e18; 0x67fe18;
   0x36ee18; 0x13f0e18; 0x38e0ff8; 0x1cf8ff8; 0xefe000; 0xfce000; 0x3c1a00; 0x21c1ffc;
   0x23f03fc; 0x777e01c; 0x3e0f800; 0x1c07000; 0x0; 0x0; 0x0; 0x0].
Definition hanzi_data_132 : list N :=
  [0x202000; 0x0; 0x0; 0x0; 0x4000; 0x1c0fe00; 0x1e07ffc; 0xf003fc;
   0x7c4100; 0x3ee388; 0xf6318; 0x6638; 0x1803670; 0x3803a60; 0x1e00700; 0xf00300;
   0x7cfffc; 0x1efffc; 0xefffc; 0xf80; 0x7001fc0; 0x3803be0; 0x1c07770; 0xe06338;
   0x70471c; 0x3c030e; 0x1f0704; 0xf8300; 0x30700; 0x0; 0x0; 0x0;
   0x0; 0x202000; 0x0; 0x0; 0x0; 0x700; 0x1c00300; 0xe0ff00;
   0x78ff00; 0x3c0700; 0xefff8; 0x4fff8; 0x380c318; 0x1c0c318; 0xe03f18; 0x783ff8;
   0x3e43f8; 0xec318; 0x380ff18; 0x1c07e18; 0xc02a98; 0xf03f98; 0x383b98; 0x11e3198;
   0x30f3198; 0x70731dc; 0x30031cc; 0x3fff0cc; 0x3fff0ee; 0x554044; 0x0; 0x0;
   0x0; 0x0; 0x202000; 0x0; 0x0; 0x0; 0x6060; 0x806060;
   0x1c06060; 0xe06060; 0x706060; 0x386060; 0x3ffffc; 0xffffc; 0x1047060; 0x380f0e0;
   0x1c0f1f0; 0xe1f1f0; 0x73fb70; 0x3b7b78; 0x3f7d78; 0x30c6c68; 0x3006c6c; 0x380666e;
   0x1c06664; 0xe06264; 0xf06060; 0x386060; 0x1c6060; 0xf6060; 0x66060; 0x0;
   0x0; 0x0; 0x0; 0x202000; 0x0; 0x0; 0x0; 0x300;
   0x1800300; 0x1e1fffc; 0xf0fffc; 0x795754; 0x1e0300; 0xf5750; 0xfff8; 0x380fff8;
   0x1800000; 0x1e07ff8; 0xf07ff8; 0x7c6018; 0x1e6018; 0xe6018; 0x7ff8; 0x7007ff8;
   0x3803860; 0x1c01860; 0xe018e0; 0x71dcc0; 0x39ff80; 0x1f7ffc; 0xf80fc; 0x30004;
   0x0; 0x0; 0x0; 0x0; 0x202000; 0x0; 0x0; 0x0;
   0x300; 0x1800300; 0x1c1fffc; 0xe0fff8; 0x783060; 0x3c38e0; 0x1ffffc; 0x5fffc;
   0x3800000; 0x1c02aa0; 0x1e07ff0; 0xf06030; 0x7c7570; 0x1e7ff0; 0xe6030; 0x3006030;
   0x7007ff0; 0x3800300; 0x1c00700; 0xe0fffc; 0x71fffc; 0x3c0300; 0x1f0700; 0x70300;
   0x700; 0x0; 0x0; 0x0; 0x0; 0x202000; 0x0; 0x0;
   0x0; 0x0; 0x1c0fff8; 0x1e0fff8; 0xf0e038; 0x78fff8; 0x3cfff8; 0xfe038;
   0x6fff8; 0x380fff8; 0x3800300; 0x1e1fffc; 0xf1fffc; 0x7c0000; 0x1e7ff0; 0xe7ff0;
   0x6030; 0x7007570; 0x3807ff0; 0x1c05750; 0xe03330; 0x707730; 0x386338; 0x1fe71c;
   0xf03c8; 0x303c0; 0x0; 0x0; 0x0; 0x0; 0x202000; 0x0;
   0x0; 0x0; 0x0; 0x38000; 0x3c000; 0x1e000; 0xf000; 0x3c00;
   0x1f00; 0x40f80; 0xe0380; 0x70000; 0x3c000; 0x1e000; 0xf000; 0x7800;
   0x7e00; 0x6f80; 0x67c0; 0x6180; 0x6000; 0x6000; 0x6000; 0x6000;
   0x6000; 0x6000; 0x6000; 0x0; 0x0; 0x0; 0x0; 0x202000;
   0x0; 0x0; 0x0; 0x70180; 0x60180; 0xe01c0; 0xc00e0; 0x1555478;
   0x3fffc3c; 0x3ffff1c; 0x18380; 0x1c1c0; 0x180e0; 0x155c0f0; 0x1ffc0f8; 0x1ffc0fc;
   0x1c1c0fe; 0x1c1c0ec; 0xc0c0e0; 0x1c0e0e0; 0xc0e0e0; 0x1c070e0; 0xc070e0; 0xc078e0;
   0xe038e0; 0xff1ce0; 0x7e0ee0; 0x3e04e0; 0x0; 0x0; 0x0; 0x0;
   0x202000; 0x0; 0x0; 0x0; 0x180; 0x3ff1c0; 0x3ff0e0; 0x3830e0;
   0x387078; 0x38303c; 0x38719c; 0x383980; 0x3f03dc0; 0x3f01ee0; 0xff0; 0x2f8;
   0x1fffefc; 0xfffefe; 0xe018ec; 0x6038e0; 0x7070e0; 0x38e0e0; 0x1de0e0; 0xfc0e0;
   0x7c0e0; 0x3fe0e0; 0x1fcfce0; 0x3f03fe0; 0x1c007e0; 0x0; 0x0; 0x0;
   0x0; 0x202000; 0x0; 0x0; 0x0; 0xc0; 0x18e0; 0x3ff1870;
   0x3ff1838; 0x39c183c; 0x398180e; 0x39cd9cc; 0x398f8c0; 0x39c7fe0; 0x38c1b70; 0x39c1870;
   0x38c1838; 0x38c187c; 0x38c183e; 0x38c1874; 0x38ed830; 0x18ff870; 0x3867830; 0x1871c70;
   0x1830830; 0x1838070; 0x181c030; 0x1f9e070; 0xf8f030; 0xf02070; 0x0; 0x0;
   0x0; 0x0; 0x202000; 0x0; 0x0; 0x0; 0x701c0; 0x601c0;
   0x700e0; 0x60070; 0x3fffc78; 0x3fff83c; 0x1871d9c; 0x1861980; 0x1c71dc0; 0xc618e0;
   0x575c70; 0xfff878; 0xfffc7c; 0xe0787e; 0x60dc6c; 0x60cc60; 0x71dc60; 0x3b8c60;
   0x1f0c60; 0xe0e60; 0x1f0e60; 0x3b8660; 0x1f1f760; 0x3e0fb60; 0x1001260; 0x0;
   0x0; 0x0; 0x0; 0x202000; 0x0; 0x0; 0x0; 0x18180;
   0x381c0; 0x700e0; 0x600e0; 0xe0078; 0x3fffc3c; 0x3fffd1c; 0x2aea980; 0x701c0;
   0x600e0; 0x700f0; 0x600f8; 0x700fc; 0x1fff8fe; 0x1fff8ec; 0x600e4; 0x700e0;
   0x600e0; 0x700e0; 0x600e0; 0x700e0; 0x600e0; 0x7fffee0; 0x3fffee0; 0xe0;
   0x0; 0x0; 0x0; 0x0; 0x202000; 0x0; 0x0; 0x0;
   0x180; 0x1c0; 0x3fffce0; 0x3fff8e0; 0xe0078; 0xe003c; 0xe011c; 0xe0180;
   0xe01c0; 0xe30e0; 0xe30f0; 0xae30f8; 0x1fe30fc; 0x1fe30fe; 0xe30ec; 0xe30e4;
   0xe30e0; 0xe30e0; 0xe30e0; 0xe30e0; 0xe30e0; 0xe30e0; 0x7fffee0; 0x3fffee0;
   0xe0; 0x0; 0x0; 0x0; 0x0; 0x202000; 0x0; 0x0;
   0x0; 0x180; 0xaaa1c0; 0xfff1e0; 0xfff0e0; 0xe07078; 0xe0303c; 0xe0711c;
   0xe03380; 0xfff1c0; 0xfff0e0; 0xe070f0; 0xe030f8; 0xe070fc; 0xe030fe; 0xe070ec;
   0xfff0e0; 0xfff0e0; 0xe030e0; 0xe070e0; 0xe030e0; 0xe070e0; 0xe030e0; 0x7fffee0;
   0x3fffee0; 0xe0; 0x0; 0x0; 0x0; 0x0; 0x202000; 0x0;
   0x0; 0x0; 0x180; 0x2aa980; 0x1fffdc0; 0xfff8e0; 0x700078; 0x38003c;
   0x1c011c; 0xe0380; 0x1fc1c0; 0xfbe0e0; 0x1f0fcf0; 0x3803ef8; 0x1001cfc; 0xfe;
   0x1fffcec; 0x1fff8e0; 0x700e0; 0x600e0; 0x700e0; 0x600e0; 0x700e0; 0x600e0;
   0x7fffee0; 0x3fffee0; 0xe0; 0x0; 0x0; 0x0; 0x0; 0x202000;
   0x0; 0x0; 0x0; 0x70180; 0x601c0; 0x701e0; 0xaea8e0; 0x1fff878;
   0x1fff83c; 0x7011c; 0x60380; 0x701c0; 0x3fffee0; 0x7fffef0; 0x6000f8; 0x7000fc].
Definition hanzi_data_133 : list N :=
  [0x2eaa8fe; 0x3fffeec; 0x3fffee0; 0x7030e0; 0x6030e0; 0x7070e0; 0x60e0e0; 0x71c0e0;
   0x6080e0; 0x7100e0; 0x3e00e0; 0x3e00e0; 0x0; 0x0; 0x0; 0x0;
   0x202000; 0x0; 0x0; 0x0; 0x6180; 0x61c0; 0x71e0; 0x30f0;
   0x1fff878; 0x1fff83c; 0x1d55d9c; 0x1800f80; 0x1800fc0; 0x18ffee0; 0x18ffaf0; 0x18c18f8;
   0x18c18fc; 0x18ff8fe; 0x18ff8ec; 0x18c18e0; 0x1cc18e0; 0x18c18e0; 0x1cff8e0; 0x18ff8e0;
   0x1c018e0; 0xc008e0; 0xd400e0; 0xfe00e0; 0x7c00e0; 0x0; 0x0; 0x0;
   0x0; 0x202000; 0x0; 0x0; 0x0; 0x180; 0xfff9c0; 0xfff9e0;
   0xc018e0; 0xc01878; 0xc0183c; 0xfff91c; 0xfffb80; 0xc019c0; 0xc018e0; 0xc018f0;
   0xfff8f8; 0xfff8fc; 0x318fe; 0x18718ec; 0x3c618e4; 0xf618e0; 0x7e18e0; 0x1c18e0;
   0x1818e0; 0x7818e0; 0xf398e0; 0x3e3f8e0; 0x380fce0; 0x10018e0; 0x0; 0x0;
   0x0; 0x0; 0x202000; 0x0; 0x0; 0x0; 0x1c06180; 0xc061c0;
   0xe0e1e0; 0xe0c0e0; 0x71c078; 0x3fff83c; 0x3fffd1c; 0x60380; 0x601c0; 0x600e0;
   0x15750f0; 0x1fff8f8; 0x1fff8fc; 0x600fe; 0x600ec; 0x600e0; 0x3fffce0; 0x3fffee0;
   0x3fffce0; 0x600e0; 0x600e0; 0x600e0; 0x600e0; 0x600e0; 0x600e0; 0x0;
   0x0; 0x0; 0x0; 0x202000; 0x0; 0x0; 0x0; 0x180;
   0x1c0; 0x1fffce0; 0x1fffce0; 0x1800c78; 0x1800c3c; 0x1800f9c; 0x19fcd80; 0x19fcdc0;
   0x198cce0; 0x198cc70; 0x198cc78; 0x198cc7c; 0x198cc6c; 0x198cc64; 0x19acc60; 0x19fcc60;
   0x18a8c60; 0x1800c60; 0x1800c60; 0x1800c60; 0x1fffc60; 0x1fffc60; 0x1800c60; 0x1800c60;
   0x0; 0x0; 0x0; 0x0; 0x202000; 0x0; 0x0; 0x0;
   0x70180; 0x30180; 0x701c0; 0xfff8e0; 0x1fffc78; 0xc3003c; 0x1c7011c; 0x3ffff80;
   0x7ffffc0; 0xc300e0; 0x1c700f0; 0xfff8f8; 0x1fffcfc; 0x300fe; 0x15754ec; 0x1fffce0;
   0x1fffce0; 0x300e0; 0x15754e0; 0x3fffee0; 0x3fffee0; 0x300e0; 0x700e0; 0x300e0;
   0x700e0; 0x0; 0x0; 0x0; 0x0; 0x202000; 0x0; 0x0;
   0x0; 0x10180; 0x381c0; 0x1c0e0; 0x60e070; 0x787078; 0x3e381c; 0xfff8c;
   0x33bd80; 0x71c1c0; 0xe0f0e0; 0x1fffc70; 0x3fffe78; 0x301d47c; 0x100e06e; 0xfff064;
   0xfff860; 0x707c60; 0x38ee60; 0x3dc660; 0xf8060; 0xf8060; 0x3fe060; 0x1fdfc60;
   0x3e03f60; 0x3800660; 0x0; 0x0; 0x0; 0x0; 0x202000; 0x0;
   0x0; 0x0; 0x60180; 0x701c0; 0x700e0; 0xf8070; 0x1dc038; 0x38e09e;
   0x70738c; 0x1e03dc0; 0x7ffffc0; 0x37ff6e0; 0x575070; 0x60078; 0x7007e; 0x2aeaa6e;
   0x3fffe64; 0x2aeaa60; 0x471060; 0x663060; 0xe73860; 0x1c61860; 0x1871c60; 0x3860e60;
   0x3070660; 0x3e060; 0x3e060; 0x0; 0x0; 0x0; 0x0; 0x202000;
   0x0; 0x0; 0x0; 0x70180; 0x601c0; 0x700e0; 0x60070; 0x1fffc38;
   0x1fff81e; 0x7038c; 0x60180; 0x701c0; 0x3fffee0; 0x7fffe70; 0x60078; 0x6007c;
   0x6386e; 0x61864; 0x1fe1860; 0x1fe1860; 0x61860; 0x63c60; 0x63c60; 0x67c60;
   0x6ee60; 0x7ffc760; 0x3ff8360; 0x3fc0360; 0x0; 0x0; 0x0; 0x0;
   0x202000; 0x0; 0x0; 0x0; 0x300c0; 0x300e0; 0x30070; 0x1fffe30;
   0x1fffe3c; 0xabaa1c; 0x431dcc; 0xe318c0; 0x7318e0; 0x333860; 0x333070; 0x31078;
   0x3ffff7c; 0x3fffe6c; 0x7c064; 0xfc060; 0x1f6060; 0x3b7060; 0x733860; 0xe31c60;
   0x3c30f60; 0x3830760; 0x1030160; 0x30060; 0x30060; 0x0; 0x0; 0x0;
   0x0; 0x202000; 0x0; 0x0; 0x0; 0x180; 0xfff9c0; 0x1fff9e0;
   0xc038f0; 0x1d57878; 0xfff81c; 0x1d5798c; 0xc03980; 0x1fff9c0; 0xfff8e0; 0xf0;
   0x2aaa8f8; 0x3fffcfc; 0x2baa8ee; 0x3000ec; 0x2baaae0; 0x3fffee0; 0x3fffee0; 0x3030e0;
   0x3070e0; 0x30e0e0; 0x30c0e0; 0x30c0e0; 0x3f00e0; 0x1e00e0; 0x0; 0x0;
   0x0; 0x0; 0x202000; 0x0; 0x0; 0x0; 0x19c080; 0x18c1c0;
   0x19c0e0; 0x18c070; 0x159d478; 0x3f8fc3c; 0x3f9fd9c; 0x18c180; 0x19c1c0; 0x18c0e0;
   0x3f9fc70; 0x3f8fc78; 0x159d47c; 0x18c07e; 0x19c06c; 0x18c060; 0x7f9fe60; 0x3f8fe60;
   0x19c060; 0x18c060; 0x19c060; 0x18c060; 0x19c060; 0x18c060; 0x19c060; 0x0;
   0x0; 0x0; 0x0; 0x202000; 0x0; 0x0; 0x0; 0x60180;
   0x601c0; 0x630e0; 0x63070; 0x1fe3038; 0x1fe301e; 0x6338c; 0x63180; 0x631c0;
   0x3fffee0; 0x7fffe70; 0x60078; 0x6387c; 0x6386e; 0x1563864; 0x1fe3860; 0x1fe1860;
   0x63860; 0x63c60; 0x67c60; 0x6ec60; 0x7ee60; 0x7ffc760; 0x3ff0760; 0x3fc0360;
   0x0; 0x0; 0x0; 0x0; 0x202000; 0x0; 0x0; 0x0;
   0x60180; 0x601c0; 0x700e0; 0x3fffce0; 0x3fffc70; 0x30038; 0x1f839e; 0x7de18c;
   0x1f0f9c0; 0x1c03ee0; 0x1801c70; 0x3fffe70; 0x7ffff7c; 0xc0007c; 0xc5506c; 0xc7f864;
   0xc75860; 0xc61860; 0xc61860; 0xc7f860; 0xc7f860; 0xc01860; 0xc01860; 0xfe0060;
   0x7c0060; 0x0; 0x0; 0x0; 0x0; 0x202000; 0x0; 0x0;
   0x0; 0x700c0; 0x38608e0; 0x1871c70; 0x1c63830; 0xc7303c; 0x66701c; 0x7771cc;
   0x600c0; 0x1fffce0; 0x1fffc60; 0x1fffc70; 0x1800c78; 0x19fcc7c; 0x19fcc6c; 0x19dcc64;
   0x198cc60; 0x198cc60; 0x198cc60; 0x19fcc60; 0x19fcc60; 0x180cc60; 0x1808c60; 0x1800c60;
   0x1f80c60; 0x1f00c60; 0x0; 0x0; 0x0; 0x0; 0x202000; 0x0;
   0x0; 0x0; 0x1c40; 0xce0; 0x3f80c70; 0x3fbfe38; 0x31bfe1c; 0x318660e;
   0x31867c4; 0x31863e0; 0x3186070; 0x31bff30; 0x31bff78; 0x3186038; 0x318607e; 0x318663e;
   0x31be674; 0x31be630; 0x3186670; 0x3186630; 0x3186670; 0x3d86630; 0x1dff670; 0x1fffb0;
   0x187f70; 0x180030; 0x180070; 0x0; 0x0; 0x0; 0x0; 0x202000].
Definition hanzi_data_134 : list N :=
  [0x0; 0x0; 0x0; 0x70180; 0x30180; 0x381c0; 0xfff8e0; 0x1fffc78;
   0xc0183c; 0x1d55d1c; 0xfffb80; 0x1d55dc0; 0xc018e0; 0x1fffcf0; 0xfff8f0; 0xfc;
   0xfc; 0x3fffcec; 0x3fffce0; 0x700e0; 0x600e0; 0x1fffce0; 0xfff8e0; 0x700e0;
   0x600e0; 0x3fffee0; 0x3fffee0; 0xe0; 0x0; 0x0; 0x0; 0x0;
   0x202000; 0x0; 0x0; 0x0; 0x4000c0; 0xfe00e0; 0x7ffc70; 0xffc70;
   0xc0c38; 0xc0c1c; 0x3fffdcc; 0x3fffcc0; 0xe0ce0; 0xe0c60; 0xe0c70; 0x1ffec78;
   0x1ffec7c; 0x1806c6c; 0x1d56c64; 0x1ffec60; 0x1d56c60; 0x1806e60; 0x1ffe660; 0x1ffe660;
   0x1c06660; 0x1806660; 0x1ffe760; 0x1ffe360; 0x1c06360; 0x0; 0x0; 0x0;
   0x0; 0x202000; 0x0; 0x0; 0x0; 0xc00180; 0x1fe01c0; 0x1fffee0;
   0x82fc70; 0x1c30878; 0xc3181c; 0xc7198c; 0x663980; 0x7071c0; 0x1fff0e0; 0x1fff870;
   0x61c78; 0x70e7c; 0x6047e; 0x7ffff6c; 0x3fffe60; 0x7ffff60; 0x1860860; 0x1870c60;
   0x1860c60; 0x1870c60; 0x1860c60; 0x1fffc60; 0x1fffc60; 0x1800060; 0x0; 0x0;
   0x0; 0x0; 0x202000; 0x0; 0x0; 0x0; 0x383040; 0x3830e0;
   0x19b370; 0x19b238; 0x19b31c; 0x2b9b20e; 0x7fdb3c4; 0x3fdfee0; 0x18dff70; 0x18c0030;
   0x19f5578; 0x19fff38; 0x1dfff7e; 0xd8003e; 0xd9fe74; 0xf0fe30; 0xf1c670; 0x708630;
   0x77c670; 0x73c630; 0xf9c670; 0x1dcc730; 0x38e4770; 0x38703b0; 0x3030170; 0x0;
   0x0; 0x0; 0x0; 0x202000; 0x0; 0x0; 0x0; 0x303040;
   0x3030e0; 0x31b370; 0x19b338; 0x19b31c; 0x3f9b30e; 0x7fdf7c4; 0x18dffe0; 0x18fff70;
   0x18e0030; 0x19fff78; 0x199ff38; 0x1d8007e; 0xd9ff3e; 0xd9ff74; 0xf03030; 0x71ff70;
   0x71fe30; 0x703070; 0xf03030; 0xfbff70; 0x1dbff30; 0x39c0070; 0x30e0030; 0x2060070;
   0x0; 0x0; 0x0; 0x0; 0x202000; 0x0; 0x0; 0x0;
   0x701c0; 0x601c0; 0x7fffee0; 0x3fffe70; 0x70038; 0x3001c; 0x1ffff8c; 0x1fffd84;
   0x199ddc0; 0x1988ce0; 0x199dc70; 0x1fffc70; 0x1fffc78; 0x7c; 0x7fffe7e; 0x3fffe64;
   0x30060; 0x830060; 0x1c76c60; 0x18e6c60; 0x1906660; 0x3206660; 0x7756760; 0x23fe260;
   0x1fc060; 0x0; 0x0; 0x0; 0x0; 0x202000; 0x0; 0x0;
   0x0; 0x3030c0; 0x3838e0; 0x19fe70; 0x19fe30; 0x198638; 0x2b9861c; 0x7fdffcc;
   0x3fdfec0; 0x18d86e0; 0x18dae60; 0x19ffe70; 0x19e1878; 0x1de307c; 0xdbff6c; 0xf3ff74;
   0xf00c60; 0x701c70; 0x61fc60; 0x71fc70; 0xf18c60; 0xf9cc70; 0x1d88660; 0x39dc770;
   0x38ef3e0; 0x3047170; 0x0; 0x0; 0x0; 0x0; 0x202000; 0x0;
   0x0; 0x0; 0x303060; 0x303060; 0x313370; 0x393338; 0x19331c; 0x3f9330e;
   0x7f9ffc4; 0x199ffe0; 0x19c0070; 0x19dff30; 0x19fff38; 0x19e183c; 0x1dc5c3e; 0xf0ee3e;
   0xf07f34; 0xf1bb30; 0xf31c30; 0x63ffb0; 0x77ff30; 0xf2b230; 0x1f9b730; 0x19bb330;
   0x39f31b0; 0x70e3d30; 0x2061c30; 0x0; 0x0; 0x0; 0x0; 0x202000;
   0x0; 0x0; 0x0; 0x0; 0x800; 0x1c00; 0x3800; 0xf000;
   0x1e000; 0x3c000; 0x30200; 0x10700; 0x600700; 0xe00730; 0xe00730; 0x1c00730;
   0x1c00738; 0x1800738; 0x3800738; 0x3800718; 0x3380718; 0x738071c; 0x338070c; 0x18070c;
   0x180700; 0x1fff00; 0xffe00; 0x7f400; 0x0; 0x0; 0x0; 0x0;
   0x202000; 0x0; 0x0; 0x0; 0x380; 0x380; 0x380; 0x380;
   0x380; 0x1b80; 0x3bb0; 0x33b0; 0x73b8; 0x2398; 0x398; 0x39c;
   0x38c; 0x380; 0x380; 0x380; 0x380; 0x380; 0x380; 0x380;
   0x380; 0x380; 0x380; 0x380; 0x380; 0x0; 0x0; 0x0;
   0x0; 0x202000; 0x0; 0x0; 0x0; 0x400; 0xe00; 0xe03c00;
   0xe07800; 0x71f000; 0x39c000; 0x388400; 0x1c0600; 0x1e0770; 0x2e0630; 0x770730;
   0xe38630; 0x1c1c738; 0x1c0e638; 0x180771c; 0x3803e1c; 0x3001f1c; 0x3000f0c; 0x13007c0;
   0x3007e0; 0x3007f8; 0x38063e; 0x1ffe1c; 0x1ffe00; 0xffc00; 0x0; 0x0;
   0x0; 0x0; 0x202000; 0x0; 0x0; 0x0; 0xe0; 0xe0;
   0x5550e0; 0x1fff8e0; 0x1fff9e0; 0xe003e8; 0x7003fc; 0x3802ec; 0x1c06ec; 0xe06ec;
   0x700ec; 0x380ec; 0x3c0e4; 0x1c0e0; 0xe0e0; 0x60e0; 0x10070e0; 0x30038e0;
   0x3001ce0; 0x3000ce0; 0x3001ce0; 0x3801ce0; 0x1fffce0; 0xfff0e0; 0xe0; 0x0;
   0x0; 0x0; 0x0; 0x202000; 0x0; 0x0; 0x0; 0xe0;
   0xe0; 0x3fff8e0; 0x3fff8e0; 0x3fff8e0; 0x38383e0; 0x38387f8; 0x38386f8; 0x18386fc;
   0x3838eec; 0x18184ec; 0x18180ec; 0x18180ec; 0x18180e0; 0x181c0e0; 0x180c0e0; 0x180c0e0;
   0x180e0e0; 0x1c060e0; 0x18070e0; 0x1c078e0; 0xc038e0; 0xf61ee0; 0xfe0ee0; 0x7e04e0;
   0x0; 0x0; 0x0; 0x0; 0x202000; 0x0; 0x0; 0x0;
   0x0; 0x7ffff0; 0x7ffff0; 0x600000; 0x700000; 0x600000; 0x7fffe0; 0x7fffe0;
   0x60; 0x800060; 0x1800060; 0x1c00060; 0x1ffffe0; 0xffffc0; 0x1000; 0x3800;
   0x7073f0; 0xe0e3b0; 0xc1c3b0; 0x1c983b8; 0x1d88398; 0x3980398; 0x39fff1c; 0x1fff08;
   0x55400; 0x0; 0x0; 0x0; 0x0; 0x202000; 0x0; 0x0;
   0x0; 0x0; 0xaaaaa8; 0xfffff8; 0xfffff8; 0xc06000; 0xe061c0; 0xe071c0;
   0xe030e0; 0xe03870; 0xe01c30; 0x601e00; 0x600f00; 0x7f07c0; 0x3e01f8; 0x3878;
   0x603000; 0x607370; 0xe0e330; 0x1c1c330; 0x1c88338; 0x1b80318; 0x3b80318; 0x31fff1c;
   0x1fff08; 0x7fc00; 0x0; 0x0; 0x0; 0x0; 0x202000; 0x0;
   0x0; 0x0; 0xc000e0; 0x1f800e0; 0x1fff0e0; 0xff0e0; 0xc11e0; 0xc03e8;
   0xc03fc; 0xc02ec; 0xc06ec; 0xc06ec; 0x15d50ec; 0x3fff8ee; 0x7fff8e4; 0xc00e0].
Definition hanzi_data_135 : list N :=
  [0xc00e0; 0xc00e0; 0xc00e0; 0xc00e0; 0xc00e0; 0xc00e0; 0xc00e0; 0xc00e0;
   0xc00e0; 0xc00e0; 0xc00e0; 0x0; 0x0; 0x0; 0x0; 0x202000;
   0x0; 0x0; 0x0; 0x7000; 0x3000; 0x7000; 0x3000; 0xfff000;
   0xfff000; 0x7000; 0x3000; 0x7000; 0x3000; 0x3fffffc; 0x3fffffc; 0x1800;
   0x7800; 0xf000; 0x21c300; 0x73c770; 0xe10330; 0x1c00730; 0x1880338; 0x3980718;
   0x398031c; 0x31fff0c; 0x1ffe00; 0x7f400; 0x0; 0x0; 0x0; 0x0;
   0x202000; 0x0; 0x0; 0x0; 0x0; 0x2aaaaa8; 0x3fffffc; 0x3fffff8;
   0x7000; 0x3e000; 0xff000; 0x3e6000; 0x787000; 0xe06000; 0x407000; 0x6000;
   0x7000; 0x3800; 0x707900; 0x6073e0; 0xe0e3f0; 0xc1c3b0; 0x1c1c3b0; 0x1b803b8;
   0x3980398; 0x3980398; 0x11fff1c; 0xfff00; 0x55400; 0x0; 0x0; 0x0;
   0x0; 0x202000; 0x0; 0x0; 0x0; 0x170000; 0x3f0000; 0xf70000;
   0x1c70000; 0x1870000; 0x3fffffc; 0x3fffffc; 0x60000; 0x70000; 0x60180; 0x60380;
   0x60700; 0x606c0; 0xe0ec8; 0xe7cd8; 0xec0d8; 0xdc0d8; 0xd80d8; 0x61db0dc;
   0x61ba0cc; 0x73b70cc; 0x63830ce; 0x7703fc0; 0x3e03fc0; 0x1c00000; 0x0; 0x0;
   0x0; 0x0; 0x202000; 0x0; 0x0; 0x0; 0x7000e0; 0x3000e0;
   0x7000e0; 0x3000e0; 0x7001e0; 0x3003e8; 0x7fff3fc; 0x3fff2ec; 0x7006ec; 0x3006ec;
   0x7000ec; 0x30e0ec; 0x70c0e4; 0x31c0e0; 0x7180e0; 0x3380e0; 0x7300e0; 0x3300e0;
   0x7100e0; 0x3000e0; 0x7000e0; 0x3000e0; 0x7000e0; 0x3f80e0; 0x1f00e0; 0x0;
   0x0; 0x0; 0x0; 0x202000; 0x0; 0x0; 0x0; 0x6000;
   0x6000; 0x6000; 0x6000; 0x3fffffc; 0x3fffffc; 0x6000; 0x6000; 0x6000;
   0x6000; 0x1fffff0; 0xfffff0; 0x1fffff0; 0x1800; 0x7c00; 0xe000; 0x71c370;
   0xe38330; 0xe10330; 0xc80338; 0x1d80318; 0x398031c; 0x39fff1c; 0x1fff08; 0x7fc00;
   0x0; 0x0; 0x0; 0x0; 0x202000; 0x0; 0x0; 0x0;
   0x7000; 0x6000; 0xe000; 0x3fffffc; 0x3fffffc; 0xc0; 0xc0; 0xc0;
   0xc0; 0xc0; 0x1ffffc0; 0xffffc0; 0x1ffffc0; 0x2000; 0x7000; 0xe000;
   0xe1c370; 0xc18330; 0x1c18330; 0x1980338; 0x3b8031c; 0x338031c; 0x11fff0c; 0x1ffe00;
   0x0; 0x0; 0x0; 0x0; 0x0; 0x202000; 0x0; 0x0;
   0x0; 0x30060; 0x70060; 0xe0060; 0xe0060; 0x1c0160; 0x2aaa9e8; 0x7ffff7c;
   0x3ffff6c; 0x676c; 0x666c; 0x606c; 0x606c; 0x6064; 0x6060; 0x6060;
   0x6060; 0x6060; 0x6060; 0x6060; 0x6060; 0x6060; 0x3ffe060; 0x3ffe060;
   0x60; 0x60; 0x0; 0x0; 0x0; 0x0; 0x202000; 0x0;
   0x0; 0x0; 0x0; 0xfffff0; 0xfffff0; 0xaabaa0; 0x1800; 0x1800;
   0x1c00; 0x3fffffc; 0x3fffffc; 0xe0700; 0x1c0780; 0x383b80; 0x7839e0; 0xe038f0;
   0x7d838fc; 0x3b9f99e; 0x31b9cc; 0x73b9c0; 0xe338c0; 0xe338e0; 0x1c73870; 0x823820;
   0x3800; 0x1f00; 0x1f00; 0x0; 0x0; 0x0; 0x0; 0x202000;
   0x0; 0x0; 0x0; 0x7000; 0x6000; 0xe000; 0x3fffffc; 0x3fffffc;
   0x1c0380; 0xe0700; 0x70e00; 0x3dc00; 0x1f800; 0x1fc00; 0xfff80; 0x1ff07f0;
   0x3f830fc; 0x1c0781c; 0xe000; 0x31c720; 0x718660; 0xe10770; 0xc80630; 0x1dc0738;
   0x398061c; 0x71fff1c; 0xffe08; 0x5f400; 0x0; 0x0; 0x0; 0x0;
   0x202000; 0x0; 0x0; 0x0; 0x6000; 0x6000; 0x6000; 0xfffff0;
   0xfffff0; 0xeaeab0; 0xc06030; 0xc06030; 0xc06030; 0xc06030; 0xfffff0; 0xfffff0;
   0x6000; 0x6000; 0x7000; 0x7a00; 0x70f770; 0xe1c330; 0x1c18730; 0x1d80338;
   0x398071c; 0x398031c; 0x11fff0c; 0xffe00; 0x7f400; 0x0; 0x0; 0x0;
   0x0; 0x202000; 0x0; 0x0; 0x0; 0x60060; 0x60060; 0x60060;
   0x60060; 0x60160; 0x3fff9e8; 0x3ffff7c; 0x3aebb6c; 0x3861f6c; 0x3861e6c; 0x3861c6c;
   0x386186c; 0x3861c64; 0x3861860; 0x3fffc60; 0x3fff860; 0x3861c60; 0x60860; 0x60060;
   0x60060; 0x60060; 0x60060; 0x60060; 0x60060; 0x60060; 0x0; 0x0;
   0x0; 0x0; 0x202000; 0x0; 0x0; 0x0; 0x1c0e0; 0xc0e0;
   0xe0e0; 0xe0e0; 0x3fff3e0; 0x3fff3e8; 0x15f77fc; 0xe3ee8; 0xe1efc; 0xe08ec;
   0xe00ec; 0xe00ec; 0x7fffce4; 0x3fffce0; 0x55f54e0; 0xe00e0; 0xe00e0; 0xe00e0;
   0xe00e0; 0xe00e0; 0xe00e0; 0xe00e0; 0xe00e0; 0xe00e0; 0xe00e0; 0x0;
   0x0; 0x0; 0x0; 0x202000; 0x0; 0x0; 0x0; 0x18060;
   0x318060; 0x718060; 0xe18060; 0x1c18160; 0x8181e8; 0x3ffff7c; 0x3fffb6c; 0x3ffff6c;
   0x1866c; 0x5c06c; 0xcc06e; 0xdc064; 0xcc060; 0xcc060; 0xce060; 0xc6060;
   0xc6060; 0x10c7060; 0x30c3860; 0x30c3860; 0x30c1c60; 0x3fc0f60; 0x1fc0660; 0x1700060;
   0x0; 0x0; 0x0; 0x0; 0x202000; 0x0; 0x0; 0x0;
   0x1040e0; 0x38c0e0; 0x30c0e0; 0x30c0e0; 0x70e1e0; 0x6063e8; 0x6073fc; 0xe032ec;
   0x1c036ec; 0x1803aec; 0x7871cec; 0x3030cee; 0x10388e4; 0x380e0; 0x1c0e0; 0x39c0e0;
   0x71c0e0; 0x60e0e0; 0xe060e0; 0xc070e0; 0x1fc70e0; 0x1fff8e0; 0x39ff8e0; 0x38008e0;
   0x10000e0; 0x0; 0x0; 0x0; 0x0; 0x202000; 0x0; 0x0;
   0x0; 0x30060; 0x30060; 0x30060; 0x30060; 0xfff960; 0xfff9e8; 0xfffb7c;
   0xc3036c; 0xc3076c; 0xc3066c; 0xc3006c; 0xc3006e; 0x7fffe64; 0x3fffe60; 0x7fffe60;
   0xf8060; 0xd8060; 0xd8060; 0x1dc060; 0x38e060; 0x707060; 0xe03860; 0x3e03c60;
   0x3800e60; 0x3000660; 0x0; 0x0; 0x0; 0x0; 0x202000; 0x0].
Definition hanzi_data_136 : list N :=
  [0x0; 0x0; 0x300e0; 0x300e0; 0x700e0; 0xe00e0; 0xe01e0; 0x3fffbe8;
   0x3fffffc; 0x2aeaee8; 0x706fc; 0x60eec; 0x700ec; 0x1e00ec; 0x7f00e6; 0xf600e0;
   0x1e700e0; 0x38600e0; 0x30700e0; 0x600e0; 0x700e0; 0x600e0; 0x700e0; 0x600e0;
   0x700e0; 0x600e0; 0x700e0; 0x0; 0x0; 0x0; 0x0; 0x202000;
   0x0; 0x0; 0x0; 0x700e0; 0x600e0; 0x700e0; 0x600e0; 0x3fffde0;
   0x3ffffe8; 0x3fffffc; 0x603ec; 0x706ec; 0x606ec; 0x1fff8ec; 0x1fff8ec; 0xc030e4;
   0xe070e0; 0x6060e0; 0x70e0e0; 0x39c0e0; 0x3b80e0; 0x1f80e0; 0xf00e0; 0x1fc0e0;
   0x3de0e0; 0x1f0fce0; 0x3e03ee0; 0x30006e0; 0x0; 0x0; 0x0; 0x0;
   0x202000; 0x0; 0x0; 0x0; 0x600e0; 0x600e0; 0x600e0; 0x600e0;
   0x600e0; 0x3fffbe8; 0x3fffffc; 0x3061ee8; 0x3061efc; 0x3061cec; 0x30718ec; 0xe00ec;
   0xf00e4; 0xf00e0; 0xf00e0; 0xf00e0; 0xf80e0; 0xd80e0; 0x70dc0e0; 0x70ce0e0;
   0x70cf0e0; 0x30c78e0; 0x3fc3ce0; 0x3fc1ee0; 0x1f004e0; 0x0; 0x0; 0x0;
   0x0; 0x202000; 0x0; 0x0; 0x0; 0x70060; 0x60060; 0x70060;
   0x60060; 0x3fffd60; 0x3fffde8; 0x7036c; 0x6036c; 0x1c71f6c; 0x1861a6c; 0x1c7186c;
   0x186186c; 0x1c71864; 0x1861860; 0x1c71860; 0x1fff860; 0x1fff860; 0x1aea860; 0x1c70060;
   0x60060; 0x7070060; 0x3060060; 0x7070060; 0x3fe0060; 0x1fc0060; 0x0; 0x0;
   0x0; 0x0; 0x202000; 0x0; 0x0; 0x0; 0x7000; 0xf000;
   0x1fc00; 0x39e00; 0xf0f00; 0x3e33c0; 0x1f871f0; 0x3e0e07e; 0x3c0c01c; 0x1aaaa0;
   0x3fffe0; 0x3aaaa0; 0x1c0000; 0xe0800; 0x71c00; 0x3b800; 0x707370; 0xe0e330;
   0x1c1c330; 0x1880338; 0x3980318; 0x398031c; 0x71fff0c; 0xfff08; 0x0; 0x0;
   0x0; 0x0; 0x0; 0x202000; 0x0; 0x0; 0x0; 0xe0;
   0x1fffce0; 0x1fffce0; 0xc380e0; 0x1c381e0; 0xc383e8; 0x1c383fc; 0xc382ec; 0xc186ec;
   0xc186ec; 0xc180ec; 0xfff8ee; 0xfff8e4; 0xe180e0; 0xe1c0e0; 0xe1c0e0; 0xe1c0e0;
   0xe0c0e0; 0xe0c0e0; 0xe0c0e0; 0x60c0e0; 0x60e0e0; 0x7fffee0; 0x3fffee0; 0xe0;
   0x0; 0x0; 0x0; 0x0; 0x202000; 0x0; 0x0; 0x0;
   0x1c0e0; 0xc0e0; 0xc0e0; 0xe0e0; 0x61e0; 0x3ffe3e8; 0x3fff3fc; 0x38036ec;
   0x1843eec; 0x1863aec; 0x1c61cec; 0xc60eee; 0x608e4; 0x600e0; 0xf00e0; 0xf00e0;
   0xf00e0; 0x1f80e0; 0x1b80e0; 0x39c0e0; 0x71e0e0; 0xe0f0e0; 0x1e07ce0; 0x3801ee0;
   0x10004e0; 0x0; 0x0; 0x0; 0x0; 0x202000; 0x0; 0x0;
   0x0; 0xc000e0; 0x1f800e0; 0xffc0e0; 0xff0e0; 0x71e0; 0x33e8; 0x33fc;
   0x33ec; 0x36ec; 0x3fff6ec; 0x7fff0ec; 0x3830ee; 0x3830e4; 0x3838e0; 0x3830e0;
   0x3838e0; 0x3838e0; 0x3838e0; 0x3818e0; 0x3818e0; 0x381ce0; 0x380ee0; 0x380ee0;
   0x3806e0; 0x3804e0; 0x0; 0x0; 0x0; 0x0; 0x202000; 0x0;
   0x0; 0x0; 0x700; 0x300; 0x380; 0xffffc0; 0xffffc0; 0xc638e0;
   0xc71c70; 0xc30e38; 0xc38f1c; 0xe18700; 0xe1c3c0; 0xe0e1e0; 0x6070f0; 0x7e3820;
   0x7e1c00; 0xa2800; 0x407390; 0xe0e3b0; 0xc1c3b8; 0x1c98398; 0x198039c; 0x398038c;
   0x31fff0c; 0xfff08; 0x7fc00; 0x0; 0x0; 0x0; 0x0; 0x202000;
   0x0; 0x0; 0x0; 0xe060; 0x6060; 0x7060; 0x3fff060; 0x7fff160;
   0x39e8; 0x1dfc; 0xffff6c; 0xfff76c; 0x36c; 0x16c; 0x7ffc6e; 0x7ffc64;
   0x600060; 0x600060; 0x600060; 0x600060; 0x600060; 0x600060; 0x2e00060; 0x6e00060;
   0x2e00060; 0x6c00060; 0x3c00060; 0x3800060; 0x0; 0x0; 0x0; 0x0;
   0x202000; 0x0; 0x0; 0x0; 0x20600; 0x70e00; 0xe0700; 0x1c0380;
   0x3c01c0; 0xf000e0; 0x1fffff8; 0x39fffbc; 0x31fffdc; 0x181800; 0x1c1c00; 0x180e00;
   0x1c0700; 0xc0380; 0xf81f0; 0x790f0; 0x7800; 0x30e320; 0x71e770; 0xe18330;
   0x1dc8738; 0x38c0318; 0x79fff1c; 0x10ffe0c; 0x7fc00; 0x0; 0x0; 0x0;
   0x0; 0x202000; 0x0; 0x0; 0x0; 0xe0; 0xe0; 0x3fffce0;
   0x3fffce0; 0xe01e0; 0x603e8; 0x703fc; 0x386ec; 0xf86ec; 0x1fc6ec; 0x3fc0ec;
   0x73e0ee; 0xe770e4; 0x1c338e0; 0x3871ce0; 0x3030ee0; 0x10704e0; 0x300e0; 0x700e0;
   0x300e0; 0x700e0; 0x300e0; 0x700e0; 0x300e0; 0x700e0; 0x0; 0x0;
   0x0; 0x0; 0x202000; 0x0; 0x0; 0x0; 0x6000; 0x6000;
   0x7000; 0x6000; 0x3fffffc; 0x3fffffc; 0x1f000; 0x1b800; 0x39c00; 0x70c00;
   0xf1f00; 0x3e3f80; 0xfcf3e0; 0x3f1e0f8; 0x3c1c07c; 0x3808; 0x707370; 0xe0e330;
   0xc1c330; 0xc98338; 0x1f80338; 0x3b80318; 0x39fff1c; 0x1fff08; 0x55400; 0x0;
   0x0; 0x0; 0x0; 0x202000; 0x0; 0x0; 0x0; 0xe0700;
   0xe0300; 0x60300; 0x60380; 0x70380; 0xe0380; 0xf07c0; 0x1f0fc0; 0x1f9dc0;
   0x3bb8e0; 0x71d8f0; 0xe0e078; 0x3c0703c; 0x3803018; 0x1001000; 0x203800; 0x70f370;
   0xe0e330; 0x1c1c330; 0x1db8338; 0x1b80338; 0x3b80318; 0x31fff1c; 0x1fff08; 0x55400;
   0x0; 0x0; 0x0; 0x0; 0x202000; 0x0; 0x0; 0x0;
   0x60; 0x60; 0x1fff860; 0xfff860; 0x30160; 0x303e8; 0x3037c; 0x3026c;
   0x3066c; 0x2abaa6c; 0x7fffe6c; 0x3fffe6e; 0xd8064; 0xd8060; 0xdc060; 0xdc060;
   0xdc060; 0xce060; 0xce060; 0xc7060; 0x70c7860; 0x20c3c60; 0x7fc1e60; 0x3fc0f60;
   0x1500660; 0x0; 0x0; 0x0; 0x0; 0x202000; 0x0; 0x0;
   0x0; 0x60; 0x60; 0x3fffc60; 0x3fff860; 0x1d60; 0xc019e8; 0xc1ddfc;
   0xe1db6c; 0x739f6c; 0x371a6c; 0x371c6c; 0x3e186e; 0x1c1c64; 0x3c1860; 0x3e1c60].
Definition hanzi_data_137 : list N :=
  [0x761860; 0x671c60; 0xe39860; 0x1c1dc60; 0x80f860; 0x5c60; 0x1860; 0x7fffc60;
   0x3fff860; 0x60; 0x0; 0x0; 0x0; 0x0; 0x202000; 0x0;
   0x0; 0x0; 0x40e0; 0x8060e0; 0x1c060e0; 0xe060e0; 0xf061e0; 0x7863e8;
   0x3c67fc; 0x1e66ec; 0xf66ec; 0x262ec; 0x3fffcec; 0x3fffcee; 0x3fffce4; 0xc60e0;
   0x1c60e0; 0x1860e0; 0x1860e0; 0x3860e0; 0x7060e0; 0x7060e0; 0xec60e0; 0x1cfe0e0;
   0x7c7f0e0; 0x300f0e0; 0x30e0; 0x0; 0x0; 0x0; 0x0; 0x202000;
   0x0; 0x0; 0x0; 0xe00e0; 0x600e0; 0xf00e0; 0xf80e0; 0x1f81e0;
   0x39c3e8; 0x70e7fc; 0xe076ec; 0x1c07eec; 0x3aabeec; 0x3fffcec; 0x7fe4ee; 0x7060e4;
   0x6060e0; 0x7060e0; 0x3060e0; 0x7f60e0; 0x3e60e0; 0x9460e0; 0x38060e0; 0x18060e0;
   0x18060e0; 0x1ffe0e0; 0xffe0e0; 0x5500e0; 0x0; 0x0; 0x0; 0x0;
   0x202000; 0x0; 0x0; 0x0; 0x60; 0x1fff860; 0x1fff860; 0x1aba860;
   0x1818160; 0x18183e8; 0x1c1c37c; 0x181c36c; 0x1c0e76c; 0x1c0e26c; 0x1fc786c; 0xf83c6c;
   0x1864; 0x60; 0x1fff860; 0x1fff860; 0x1c03860; 0x1803860; 0x1c03860; 0x1803860;
   0x1c03860; 0x1aab860; 0x1fff860; 0x1fff860; 0x1c03860; 0x0; 0x0; 0x0;
   0x0; 0x202000; 0x0; 0x0; 0x0; 0x1c060; 0xc060; 0xc060;
   0xe060; 0x7ffe1e0; 0x3ffe368; 0x7fff37c; 0x3336c; 0x33b6c; 0x31a6c; 0x3ff1c6c;
   0x3ff086c; 0x30064; 0x30060; 0x30060; 0x30060; 0x3ff0060; 0x3ff0060; 0x30060;
   0x30060; 0x30060; 0x30060; 0x30060; 0x30060; 0x30060; 0x0; 0x0;
   0x0; 0x0; 0x202000; 0x0; 0x0; 0x0; 0x300; 0x380;
   0x380; 0x3ffff80; 0x3ffffc0; 0x38e0; 0x38e0; 0xfff870; 0xfff838; 0x383c;
   0x3818; 0x1fff800; 0x1fff800; 0x3800; 0x3800; 0x3800; 0x407910; 0x60e330;
   0xe1c330; 0xc18330; 0x1f00338; 0x3b80318; 0x39fff1c; 0x31fff08; 0x7fc00; 0x0;
   0x0; 0x0; 0x0; 0x202000; 0x0; 0x0; 0x0; 0x60060;
   0x60060; 0x60060; 0x60060; 0x1fff960; 0xfff9e8; 0x1fff9ec; 0xc61b6c; 0x1c61b6c;
   0xc61b6c; 0x1c6196c; 0xc6186e; 0x1c61864; 0x3fffe60; 0x7fffe60; 0xf0060; 0xf0060;
   0xf8060; 0x1d8060; 0x39c060; 0x71e060; 0xe07860; 0x1e07c60; 0x3801f60; 0x3000660;
   0x0; 0x0; 0x0; 0x0; 0x202000; 0x0; 0x0; 0x0;
   0x180; 0x180; 0x1ffc1c0; 0x1fffffc; 0x1c1bffc; 0xc39860; 0xe31c70; 0x670c30;
   0x760c78; 0x3e0ef0; 0x1c07c0; 0x3e0f80; 0xf7dfe0; 0x3e3c8f8; 0x3c0d07c; 0x3808;
   0x40f700; 0x71e660; 0xe18770; 0xc80630; 0x1dc0738; 0x38c0638; 0x70fff1c; 0x30ffe08;
   0x7fc00; 0x0; 0x0; 0x0; 0x0; 0x202000; 0x0; 0x0;
   0x0; 0xe0; 0xe0; 0x3fffce0; 0x3fff8e0; 0xe01e0; 0xe03e8; 0xe03fc;
   0xe03ec; 0xe06ec; 0xe36ec; 0xe30ec; 0x2ae30ee; 0x3fe30e4; 0x3fe30e0; 0xe30e0;
   0xe30e0; 0xe30e0; 0xe30e0; 0xe30e0; 0xe30e0; 0xe30e0; 0xe30e0; 0x7fffee0;
   0x3fffee0; 0xe0; 0x0; 0x0; 0x0; 0x0; 0x202000; 0x0;
   0x0; 0x0; 0xe00e0; 0xe00e0; 0xe00e0; 0x600e0; 0x701e0; 0x3fff3e8;
   0x3fff7f8; 0x38036e8; 0x38036fc; 0x38036ec; 0x38030ec; 0x38030ec; 0x38030e4; 0x3fff0e0;
   0x3fff0e0; 0x38030e0; 0x38030e0; 0x38030e0; 0x38030e0; 0x38030e0; 0x38030e0; 0x3fff0e0;
   0x3fff0e0; 0x3aab0e0; 0x38030e0; 0x0; 0x0; 0x0; 0x0; 0x202000;
   0x0; 0x0; 0x0; 0x70060; 0x30060; 0x38060; 0x38060; 0x3fffd60;
   0x3fffde8; 0x1c37c; 0xee36c; 0xe776c; 0xe726c; 0x3fff86c; 0x3fffc6c; 0x3fffe6c;
   0x38e3e60; 0x38e3660; 0x38e3060; 0x38e3060; 0x38e3060; 0x38e3060; 0x3ee3060; 0x1ee3060;
   0xe0060; 0xe0060; 0xe0060; 0xe0060; 0x0; 0x0; 0x0; 0x0;
   0x202000; 0x0; 0x0; 0x0; 0x60060; 0x60060; 0x60060; 0x60060;
   0x60160; 0x601e8; 0x7ffff7c; 0x3ffff6c; 0x6076c; 0x6066c; 0x6006c; 0x6006c;
   0x60064; 0x1fff860; 0x1fff860; 0x1aab860; 0x1c03860; 0x1803860; 0x1c03860; 0x1803860;
   0x1c03860; 0x1803860; 0x1fff860; 0x1fff860; 0x1c03860; 0x0; 0x0; 0x0;
   0x0; 0x202000; 0x0; 0x0; 0x0; 0x60; 0x60; 0xfff060;
   0xfff060; 0xc03160; 0xc033e8; 0xc0337c; 0xc0336c; 0xc0366c; 0xfff66c; 0xfff06c;
   0xc0306c; 0xc03064; 0xc03060; 0xc03060; 0xc03060; 0xfff060; 0xfff060; 0xfff060;
   0x60; 0x60; 0x60; 0x3fffc60; 0x3fffc60; 0x60; 0x0; 0x0;
   0x0; 0x0; 0x202000; 0x0; 0x0; 0x0; 0x70060; 0x70060;
   0x70060; 0xf8060; 0x1dc1e0; 0x18e3e8; 0x78f37c; 0x70736c; 0x1e3bf6c; 0x3c71e6c;
   0x3860f6c; 0x6006e; 0x555064; 0xfff860; 0xfff860; 0x700060; 0x780060; 0x380060;
   0x1c6060; 0xee060; 0x7c060; 0x78060; 0xf0060; 0x1c0060; 0x180060; 0x0;
   0x0; 0x0; 0x0; 0x202000; 0x0; 0x0; 0x0; 0x0;
   0x7ffff0; 0x7ffff0; 0x606030; 0x606070; 0x606030; 0x7ffff0; 0x7ffff0; 0x757570;
   0x606030; 0x606070; 0x6aeab0; 0x7ffff0; 0x7ffff0; 0x1800; 0x7800; 0x71f770;
   0xe3c330; 0x1c18730; 0x1c80338; 0x1dc0718; 0x398031c; 0x31fff1c; 0xffe08; 0x55400;
   0x0; 0x0; 0x0; 0x0; 0x202000; 0x0; 0x0; 0x0;
   0x1800; 0x21c00; 0xf0f00; 0x1c0780; 0x7801c0; 0x7ffff0; 0x1fffff0; 0xc00000;
   0x7fffc0; 0x3fffe0; 0x7555e0; 0x3000e0; 0x7000e0; 0x3aaae0; 0x7fffe0; 0x2aaaa0;
   0x3c00; 0xf280; 0xe1e3f0; 0xc183b0; 0x1d803b8; 0x3980398; 0x39fff1c; 0x31fff0c;
   0x7fc00; 0x0; 0x0; 0x0; 0x0; 0x202000; 0x0; 0x0].
Definition hanzi_data_138 : list N :=
  [0x0; 0x700e0; 0x380e0; 0x380e0; 0x180e0; 0x31c1e0; 0x70e3e8; 0x6063fc;
   0xe073ec; 0x1c037ec; 0x3fffeec; 0x3fffcec; 0x30038ee; 0x10000e4; 0xe0; 0xfff0e0;
   0xfff0e0; 0xc030e0; 0xc030e0; 0xc030e0; 0xc030e0; 0xc030e0; 0xc030e0; 0xfff0e0;
   0xfff0e0; 0xc030e0; 0x0; 0x0; 0x0; 0x0; 0x202000; 0x0;
   0x0; 0x0; 0x600; 0x700; 0x7ff80; 0x7ff80; 0x701c0; 0x380e0;
   0x7ffff8; 0x7ffffc; 0x755558; 0x700000; 0x7fffe0; 0x7fffe0; 0x700000; 0x700000;
   0x7ffff0; 0x7fffe0; 0x3000; 0x607000; 0xe0e3f0; 0xc8c3b8; 0x1d9c3b8; 0x3988398;
   0x31fff1c; 0x11fff08; 0x7fc00; 0x0; 0x0; 0x0; 0x0; 0x202000;
   0x0; 0x0; 0x0; 0x60; 0x2aaa860; 0x3fffc60; 0x3fffc60; 0x60160;
   0x18639e8; 0x1c631ec; 0xc6336c; 0xc6736c; 0xe6626c; 0x66706c; 0x66606e; 0x60064;
   0x3fffe60; 0x7fffe60; 0x2aeaa60; 0x60060; 0x60060; 0x60060; 0x60060; 0x60060;
   0x60060; 0x60060; 0x60060; 0x60060; 0x0; 0x0; 0x0; 0x0;
   0x202000; 0x0; 0x0; 0x0; 0x60060; 0x62060; 0x67060; 0x67060;
   0x67160; 0x633e8; 0x3fff37c; 0x3fffb6c; 0x61f6c; 0x61e6c; 0x61c6c; 0x60c6e;
   0x60064; 0x1fff860; 0x1fff860; 0xaea860; 0x60060; 0x60060; 0x60060; 0x60060;
   0x60060; 0x60060; 0x3fffe60; 0x3fffe60; 0x60; 0x0; 0x0; 0x0;
   0x0; 0x202000; 0x0; 0x0; 0x0; 0x180; 0x180; 0x1ff95c0;
   0xffbfe0; 0x1c1bff0; 0xc1b870; 0x1c19838; 0xe99c5c; 0xf98cec; 0x298fc0; 0x1018780;
   0x3018380; 0x30181c0; 0x3ff80f0; 0x1ff187c; 0x3818; 0x60f700; 0x61c360; 0xe18770;
   0xc80338; 0x1dc0738; 0x398031c; 0x39fff1c; 0xffe08; 0x7fc00; 0x0; 0x0;
   0x0; 0x0; 0x202000; 0x0; 0x0; 0x0; 0x60; 0x1fff860;
   0x1fff860; 0x1aab860; 0x1801960; 0x18019e8; 0x1801b7c; 0x1fffb6c; 0x1ffff6c; 0x1a6c;
   0x1d86c; 0x1986e; 0x1c1d864; 0x1e19860; 0x7dd860; 0x1f9860; 0x7dc60; 0x19860;
   0x101dc60; 0x3018c60; 0x701cc60; 0x3018e60; 0x3ff8660; 0x3ff8660; 0x1ff0460; 0x0;
   0x0; 0x0; 0x0; 0x202000; 0x0; 0x0; 0x0; 0xe0;
   0xaaa8e0; 0x1fff8e0; 0xeae8e0; 0xe061e0; 0x70c3e8; 0x79c3fc; 0x3f83ec; 0x1f07ec;
   0x1f86ec; 0xfff0ec; 0x7f0feee; 0x3c43ce4; 0x600e0; 0x600e0; 0x600e0; 0x1fffce0;
   0x1fff8e0; 0x600e0; 0x600e0; 0x600e0; 0x600e0; 0x7fffee0; 0x3fffee0; 0xe0;
   0x0; 0x0; 0x0; 0x0; 0x202000; 0x0; 0x0; 0x0;
   0x1cc060; 0x18c060; 0x1cc060; 0x18c060; 0x1fffd60; 0x1fffde8; 0x19cc1ec; 0x198c36c;
   0x19cc36c; 0x1ffff6c; 0x1fffc6c; 0x18cc6e; 0x1ccc66; 0x18cc60; 0x3fffc60; 0x3fffe60;
   0x35dd460; 0x318e060; 0x31c6060; 0x3986060; 0x1fc7060; 0x1f83860; 0x1c1c60; 0x180e60;
   0x1c0660; 0x0; 0x0; 0x0; 0x0; 0x202000; 0x0; 0x0;
   0x0; 0x60060; 0x60060; 0x60060; 0x60060; 0x1575160; 0x1fffbe8; 0x1fffb7c;
   0x6036c; 0x6076c; 0x6066c; 0x6026c; 0x2aea86e; 0x3fffc66; 0x3fffc60; 0x70060;
   0x38060; 0x31c060; 0x30c060; 0x70e060; 0xe06060; 0x1c07060; 0x1fff860; 0x1fffc60;
   0x3803860; 0x1000060; 0x0; 0x0; 0x0; 0x0; 0x202000; 0x0;
   0x0; 0x0; 0x60060; 0x260060; 0x760060; 0xe60060; 0x1c60160; 0x8601e8;
   0x6036c; 0x3fffb6c; 0x3ffff6c; 0xf826c; 0x1f806c; 0x1f806c; 0x1fc064; 0x36c060;
   0x76e060; 0x666060; 0xe67060; 0xc63860; 0x1c63c60; 0x3861c60; 0x7060e60; 0x3060460;
   0x60060; 0x60060; 0x60060; 0x0; 0x0; 0x0; 0x0; 0x202000;
   0x0; 0x0; 0x0; 0x1c0300; 0x1c0300; 0x1c0700; 0xe0e00; 0x70c00;
   0x2baea0; 0x7fffe0; 0x7fffe0; 0x7000e0; 0x7000e0; 0x7000e0; 0x7000e0; 0x7fffe0;
   0x7fffe0; 0x3000; 0x7800; 0x60f710; 0xe1c330; 0x1c38730; 0x1810338; 0x3980718;
   0x338031c; 0x31fff1c; 0x1fff08; 0xffc00; 0x0; 0x0; 0x0; 0x0;
   0x202000; 0x0; 0x0; 0x0; 0xe00000; 0xe00000; 0xe01ffc; 0x2eabffc;
   0x3fffc00; 0x3ffec08; 0xe00c1c; 0xe08e38; 0xe1c7f0; 0xe383e0; 0xe707c0; 0xe20fc0;
   0xe01fe0; 0xe01cf0; 0xfc087c; 0x783018; 0x407000; 0xe0e3b0; 0xc1c3f0; 0x1c983b8;
   0x1d88398; 0x3980398; 0x39fff1c; 0xfff08; 0x7fc00; 0x0; 0x0; 0x0;
   0x0; 0x202000; 0x0; 0x0; 0x0; 0x60; 0xaaa860; 0x1fffc60;
   0xfffc60; 0x707160; 0x70e3e8; 0x3dc37c; 0xf836c; 0xf876c; 0x3fe26c; 0x1f9fc6c;
   0x3e23e6c; 0x1070464; 0x60060; 0x1fff860; 0xfff860; 0x70060; 0x60060; 0x3fffe60;
   0x3fffe60; 0x3fffe60; 0x60060; 0x70060; 0x60060; 0x70060; 0x0; 0x0;
   0x0; 0x0; 0x202000; 0x0; 0x0; 0x0; 0x700100; 0xfe8380;
   0x7ffdc0; 0x3fce0; 0x700e0; 0x300f0; 0x15754fc; 0x3fffefe; 0x3ffffec; 0x300e0;
   0x700e0; 0x300e0; 0x15754e0; 0x1fffce0; 0x1fffce0; 0x20a0; 0x407000; 0x61e320;
   0xe3c770; 0x1c10330; 0x1d80738; 0x3980338; 0x71fff1c; 0x31ffe08; 0x7fc00; 0x0;
   0x0; 0x0; 0x0; 0x202000; 0x0; 0x0; 0x0; 0xc0e0;
   0xc0e0; 0xe0e0; 0xe1e0; 0x3fff3e0; 0x3fff3e8; 0x3fffffc; 0x3803ee8; 0x3801eec;
   0x38ffeec; 0x39ffcec; 0x38838ee; 0x39c38e4; 0x38ab8e0; 0x39ff8e0; 0x38838e0; 0x19c38e0;
   0x18838e0; 0x19ff8e0; 0x18ff8e0; 0x1c038e0; 0x1c000e0; 0x1f600e0; 0xfe00e0; 0x7c00e0;
   0x0; 0x0; 0x0; 0x0; 0x202000; 0x0; 0x0; 0x0;
   0x60060; 0x60060; 0x60060; 0xaea860; 0x1fff960; 0x1fff9e8; 0x6037c; 0x6036c;
   0x6076c; 0x3fffe6c; 0x7fffe6c; 0x60006e; 0x700064; 0x2eaa860; 0x3fffc60; 0x3fffc60].
Definition hanzi_data_139 : list N :=
  [0x702060; 0x607060; 0x70f060; 0x60e060; 0x71c060; 0x608060; 0x710060; 0x7e0060;
   0x3e0060; 0x0; 0x0; 0x0; 0x0; 0x202000; 0x0; 0x0;
   0x0; 0x7000; 0x6000; 0xe000; 0x3fffffc; 0x3fffffc; 0x30c00; 0x130c40;
   0x3b0cc0; 0x730cc0; 0xe30ce0; 0x1c30c70; 0x1830c38; 0x1830c10; 0x30c00; 0x3000;
   0x607280; 0x60f3f0; 0xe0e3b0; 0x1c1c3b0; 0x1c983b8; 0x1980398; 0x3980398; 0x39fff1c;
   0x1fff08; 0x7fc00; 0x0; 0x0; 0x0; 0x0; 0x202000; 0x0;
   0x0; 0x0; 0x70070; 0x860060; 0x1c71c70; 0x1c63860; 0xc739f0; 0xe631e8;
   0x6771fc; 0x6663ec; 0x77637c; 0x6036c; 0x7fffe7c; 0x3fffe6c; 0x55dd474; 0x18c060;
   0x18c070; 0x18c060; 0x18c070; 0x18e060; 0x1186070; 0x6186060; 0x7187070; 0x6183860;
   0x7f81c70; 0x3f80f60; 0x1f00670; 0x0; 0x0; 0x0; 0x0; 0x202000;
   0x0; 0x0; 0x0; 0x0; 0x7fe000; 0x7feffc; 0x60effc; 0x70e0c0;
   0x60e0c0; 0x73e0c0; 0x67e0c0; 0x7e60c0; 0x6c6ec0; 0x6707ff0; 0x66039fe; 0x7701c3c;
   0x3e00e00; 0x1c07400; 0xe300; 0x71c770; 0xe18330; 0x1c38730; 0x1880338; 0x3980718;
   0x318031c; 0x71fff1c; 0xffe08; 0x55400; 0x0; 0x0; 0x0; 0x0;
   0x202000; 0x0; 0x0; 0x0; 0xe0; 0x2aaa8e0; 0x3fffce0; 0x3fff8e0;
   0x1e0; 0x3e8; 0x1fff3fc; 0xfff2ec; 0x1d576ec; 0xc036ec; 0x1c030ec; 0xc030ec;
   0x1fff0e4; 0xfff0e0; 0x1c030e0; 0xc030e0; 0x1c030e0; 0xfff0e0; 0x1fff0e0; 0xe0;
   0xe0; 0x3fffce0; 0x7fffce0; 0x2aaa8e0; 0xe0; 0x0; 0x0; 0x0;
   0x0; 0x202000; 0x0; 0x0; 0x0; 0x60; 0x60; 0x3fffc60;
   0x3fffc60; 0x19c160; 0x1981e8; 0x19c37c; 0x3fffb68; 0x3fffb6c; 0x3999a6c; 0x399986c;
   0x399986c; 0x3999864; 0x3999860; 0x3f9d860; 0x3f8d860; 0x3d07860; 0x3803860; 0x3801860;
   0x3801860; 0x3801860; 0x3fff860; 0x3fff860; 0x3aab860; 0x3801860; 0x0; 0x0;
   0x0; 0x0; 0x202000; 0x0; 0x0; 0x0; 0x70060; 0x60060;
   0xe0060; 0xc0060; 0x7fff960; 0x3fff9e8; 0x437c; 0x70c36c; 0xe0e76c; 0x1c0766c;
   0x1c0706c; 0x3a0b86c; 0x370dc64; 0x30c060; 0x31c060; 0x398060; 0x1f8060; 0xf0060;
   0xf0060; 0x1f0060; 0x3f8060; 0xf9e060; 0x1f0f060; 0x3c03c60; 0x3001860; 0x0;
   0x0; 0x0; 0x0; 0x202000; 0x0; 0x0; 0x0; 0x1c0;
   0x1c0; 0x1ff81c0; 0x1ffbffc; 0x1d7bffc; 0x1c3bae8; 0x1c39870; 0x1c39830; 0x1c39c78;
   0x1c38ff8; 0x1c387c0; 0x1eb8f80; 0x1ffbdc0; 0xaa98f8; 0x307c; 0x7008; 0x60f110;
   0xe0e3b0; 0x1c1c3b0; 0x1c883b8; 0x1d80398; 0x398039c; 0x19fff1c; 0xfff08; 0x55400;
   0x0; 0x0; 0x0; 0x0; 0x202000; 0x0; 0x0; 0x0;
   0x180180; 0x180380; 0x1c0700; 0xe0600; 0x1fffff8; 0x1fffff8; 0x6000; 0x6000;
   0x7ffff0; 0x7fffe0; 0x6000; 0x6000; 0x1557554; 0x3fffffc; 0x3fffffc; 0x3800;
   0xf500; 0x71e660; 0xf3c770; 0xe00630; 0x1dc0738; 0x38c0618; 0x38fff1c; 0xffe08;
   0x7fc00; 0x0; 0x0; 0x0; 0x0; 0x202000; 0x0; 0x0;
   0x0; 0x6000; 0x6000; 0x7ffff0; 0x7fffe0; 0x6000; 0x6000; 0x1fffffc;
   0x1fffff8; 0x6000; 0x6000; 0xfffff0; 0xfffff0; 0x6000; 0x6000; 0x3fffffc;
   0x3fffffc; 0x3000; 0x607320; 0xe1e770; 0xe18370; 0x1d88730; 0x3980338; 0x39fff1c;
   0xffe08; 0x55400; 0x0; 0x0; 0x0; 0x0; 0x202000; 0x0;
   0x0; 0x0; 0x1c0; 0x180; 0x1fffffc; 0x1fffffc; 0x18601c0; 0x1860180;
   0x1861ff8; 0x1860ff8; 0x1c701c0; 0x1830180; 0x1c39ffc; 0x1c1dffc; 0x1fde1c0; 0xf86180;
   0x1c0; 0x3800; 0x607100; 0xe0e3b0; 0xc1c3b0; 0x1c983b8; 0x1d80398; 0x3980398;
   0x19fff1c; 0xfff08; 0x55400; 0x0; 0x0; 0x0; 0x0; 0x202000;
   0x0; 0x0; 0x0; 0xc060; 0xc060; 0xc060; 0xe060; 0x3fffd60;
   0x3fffde8; 0x61fc; 0x186368; 0x18637c; 0x18636c; 0x19b716c; 0x19b306c; 0x19b306c;
   0x199b860; 0x1dd9860; 0xcc9860; 0x5c9c60; 0x1c0e60; 0x3e0760; 0x360760; 0x770360;
   0xe38060; 0x1c1e060; 0x380f060; 0x1007060; 0x0; 0x0; 0x0; 0x0;
   0x202000; 0x0; 0x0; 0x0; 0x6000; 0x6010; 0x7078; 0x3fff1e0;
   0x1fffbc0; 0x1c31900; 0x1c31c00; 0xe38e00; 0x478500; 0x783c0; 0xfc1f8; 0x1ce03c;
   0x78781c; 0x3f03e00; 0x1c01f00; 0x3200; 0xf000; 0x71e660; 0x73c770; 0xe10630;
   0x1d80738; 0x3980638; 0x39fff1c; 0xffe08; 0x7fc00; 0x0; 0x0; 0x0;
   0x0; 0x202000; 0x0; 0x0; 0x0; 0x70060; 0x70060; 0x70060;
   0x30060; 0x30160; 0x1fff9e8; 0x1ffff7c; 0x1998b6c; 0x1999f6c; 0x1998a6c; 0x1999c6c;
   0x199886e; 0x1999c64; 0x1998860; 0x1999c60; 0x1998860; 0x1999c60; 0x1998860; 0x1999c60;
   0x1998860; 0x1999c60; 0x1998860; 0x7ffff60; 0x3fffe60; 0x60; 0x0; 0x0;
   0x0; 0x0; 0x202000; 0x0; 0x0; 0x0; 0x0; 0x1fffff8;
   0x1fffff8; 0x6000; 0x7000; 0xfffff0; 0xfffff0; 0xc30c30; 0xc30c70; 0xc30c30;
   0xc30c70; 0xc30c30; 0xfb0c70; 0xfb0c30; 0x502070; 0x7200; 0x70e760; 0xe1c360;
   0xc1c770; 0x1c88330; 0x19c0738; 0x3980318; 0x31fff1c; 0xffe00; 0x55400; 0x0;
   0x0; 0x0; 0x0; 0x202000; 0x0; 0x0; 0x0; 0x60;
   0xfff860; 0xfff860; 0xc03860; 0xc03960; 0xc03be8; 0xfffb7c; 0xfffb6c; 0xc03f6c;
   0xc03e6c; 0xc0386c; 0xfff86c; 0xfff864; 0x33860; 0x1873860; 0x3c63860; 0x1f63860;
   0x7e3860; 0x1c3860; 0x383860; 0x7c3860; 0xf3b860; 0x3e7f860; 0x380f860; 0x1001860;
   0x0; 0x0; 0x0; 0x0; 0x202000; 0x0; 0x0; 0x0].
Definition hanzi_data_group_0 : list (list N) :=
  [hanzi_data_0; hanzi_data_1; hanzi_data_2; hanzi_data_3;
   hanzi_data_4; hanzi_data_5; hanzi_data_6; hanzi_data_7;
   hanzi_data_8; hanzi_data_9; hanzi_data_10; hanzi_data_11;
   hanzi_data_12; hanzi_data_13; hanzi_data_14; hanzi_data_15;
   hanzi_data_16; hanzi_data_17; hanzi_data_18; hanzi_data_19;
   hanzi_data_20; hanzi_data_21; hanzi_data_22; hanzi_data_23;
   hanzi_data_24; hanzi_data_25; hanzi_data_26; hanzi_data_27;
   hanzi_data_28; hanzi_data_29; hanzi_data_30; hanzi_data_31;
   hanzi_data_32; hanzi_data_33; hanzi_data_34; hanzi_data_35;
   hanzi_data_36; hanzi_data_37; hanzi_data_38; hanzi_data_39;
   hanzi_data_40; hanzi_data_41; hanzi_data_42; hanzi_data_43;
   hanzi_data_44; hanzi_data_45; hanzi_data_46; hanzi_data_47;
   hanzi_data_48; hanzi_data_49; hanzi_data_50; hanzi_data_51;
   hanzi_data_52; hanzi_data_53; hanzi_data_54; hanzi_data_55;
   hanzi_data_56; hanzi_data_57; hanzi_data_58; hanzi_data_59;
   hanzi_data_60; hanzi_data_61; hanzi_data_62; hanzi_data_63;
   hanzi_data_64; hanzi_data_65; hanzi_data_66; hanzi_data_67;
   hanzi_data_68; hanzi_data_69; hanzi_data_70; hanzi_data_71;
   hanzi_data_72; hanzi_data_73; hanzi_data_74; hanzi_data_75;
   hanzi_data_76; hanzi_data_77; hanzi_data_78; hanzi_data_79;
   hanzi_data_80; hanzi_data_81; hanzi_data_82; hanzi_data_83;
   hanzi_data_84; hanzi_data_85; hanzi_data_86; hanzi_data_87;
   hanzi_data_88; hanzi_data_89; hanzi_data_90; hanzi_data_91;
   hanzi_data_92; hanzi_data_93; hanzi_data_94; hanzi_data_95;
   hanzi_data_96; hanzi_data_97; hanzi_data_98; hanzi_data_99;
   hanzi_data_100; hanzi_data_101; hanzi_data_102; hanzi_data_103;
   hanzi_data_104; hanzi_data_105; hanzi_data_106; hanzi_data_107;
   hanzi_data_108; hanzi_data_109; hanzi_data_110; hanzi_data_111;
   hanzi_data_112; hanzi_data_113; hanzi_data_114; hanzi_data_115;
   hanzi_data_116; hanzi_data_117; hanzi_data_118; hanzi_data_119;
   hanzi_data_120; hanzi_data_121; hanzi_data_122; hanzi_data_123;
   hanzi_data_124; hanzi_data_125; hanzi_data_126; hanzi_data_127;
   hanzi_data_128; hanzi_data_129; hanzi_data_130; hanzi_data_131;
   hanzi_data_132; hanzi_data_133; hanzi_data_134; hanzi_data_135;
   hanzi_data_136; hanzi_data_137; hanzi_data_138; hanzi_data_139].
