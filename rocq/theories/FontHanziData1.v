(** GENERATED by tools/gen_fonts.py from /repo/src/fonts/hanzi.rs -- do not edit.
    DATA (src/fonts/hanzi.rs:17024-67287), words 71680 to 143359. *)
From Verif Require Import Prim FontDefs.

Definition hanzi_data_140 : list N :=
  [0x0; 0xffffe0; 0xfffff0; 0xe06060; 0xe06070; 0xeaea60; 0xefff70; 0xe07060;
   0xe1f870; 0xe39860; 0xe71e70; 0xee0760; 0xe40170; 0xffffe0; 0xfffff0; 0x2000;
   0x707720; 0xe0e360; 0xe1c770; 0x1cb8330; 0x1d80738; 0x3980318; 0x11fff1c; 0xffe08;
   0x55400; 0x0; 0x0; 0x0; 0x0; 0x202000; 0x0; 0x0;
   0x0; 0x380e0; 0x180e0; 0x1c0e0; 0xffc0e0; 0xffe1e0; 0xe0f3e8; 0x70fffc;
   0x39dee8; 0x1f8eec; 0xf06ec; 0xf00ec; 0x1f80ee; 0x7de0e4; 0x1f0f8e0; 0x7c03fe0;
   0x3fffee0; 0xfff0e0; 0xc030e0; 0xc030e0; 0xc030e0; 0xc030e0; 0xeab0e0; 0xfff0e0;
   0xfff0e0; 0xc030e0; 0x0; 0x0; 0x0; 0x0; 0x202000; 0x0;
   0x0; 0x0; 0x60; 0x3fff860; 0x3fffc60; 0x3aab860; 0x3801d60; 0x38019e8;
   0x3bfdd6c; 0x3bfdb6c; 0x3801f6c; 0x3801a6c; 0x3bf9c6c; 0x3bf986c; 0x3b19c64; 0x3b09860;
   0x3b19c60; 0x3b09860; 0x3b19c60; 0x3bf9860; 0x3bf9c60; 0x3809860; 0x3801c60; 0x3801860;
   0x3d01c60; 0x3f01860; 0x1f01c60; 0x0; 0x0; 0x0; 0x0; 0x202000;
   0x0; 0x0; 0x0; 0xc00060; 0x1f80060; 0x1fff060; 0xff860; 0x61160;
   0x601e8; 0x6037c; 0x6036c; 0x7ffff6c; 0x3fffe6c; 0x557546c; 0x6006c; 0x60064;
   0x60060; 0x1575060; 0x1fff060; 0x1fff060; 0x1803060; 0x1c03060; 0x1803060; 0x1c03060;
   0x1803060; 0x1fff060; 0x1fff060; 0x1c03060; 0x0; 0x0; 0x0; 0x0;
   0x202000; 0x0; 0x0; 0x0; 0x60700; 0x60600; 0x60700; 0xfffff0;
   0xfffff0; 0xaeaea0; 0x60700; 0x60600; 0x1575754; 0x3fffffc; 0x3fffffc; 0xc0380;
   0x1c01c0; 0x7818e0; 0x1f018f0; 0x3cc18bc; 0x399d99c; 0x3999c0; 0x7398c0; 0x6318e0;
   0xe31870; 0xc31820; 0x1800; 0x1f00; 0x1f00; 0x0; 0x0; 0x0;
   0x0; 0x202000; 0x0; 0x0; 0x0; 0x7000; 0x7000; 0x157540;
   0x3fffc0; 0x7555c0; 0x3000c0; 0x7fffc0; 0x3fffc0; 0x7000c0; 0x3000c0; 0x7fffc0;
   0x3fffc0; 0x7000c0; 0x3000c0; 0x7fffc0; 0x3fffc0; 0x407000; 0xe0e3b0; 0xe1c3b0;
   0x1c983b8; 0x1d88398; 0x3980398; 0x11fff1c; 0xfff08; 0x55400; 0x0; 0x0;
   0x0; 0x0; 0x202000; 0x0; 0x0; 0x0; 0x60060; 0x60060;
   0xf0060; 0xf8060; 0x1f8160; 0x39c3f8; 0x70e378; 0xe07378; 0x1c07f7c; 0x3bffc6c;
   0x37ffe6c; 0x6c; 0x6c; 0x60; 0xfff060; 0xfff060; 0xc03060; 0xc03060;
   0xc03060; 0xc03060; 0xc03060; 0xeab060; 0xfff060; 0xfff060; 0xc03060; 0x0;
   0x0; 0x0; 0x0; 0x202000; 0x0; 0x0; 0x0; 0x0;
   0x3fffe0; 0x3fffe0; 0x3000e0; 0x3fffe0; 0x3fffe0; 0x3000e0; 0x3aaae0; 0x1ffffe0;
   0x1e060e0; 0x70e0e0; 0x3bc0e0; 0x1ff0e0; 0x3e7fe0; 0x7fc1ff0; 0x3e020e0; 0x1007000;
   0x20e620; 0x71c770; 0xe38630; 0x1d90730; 0x1980638; 0x39fff1c; 0x10ffe08; 0x7fc00;
   0x0; 0x0; 0x0; 0x0; 0x202000; 0x0; 0x0; 0x0;
   0x0; 0x1fffff8; 0x1fffff8; 0xabaea8; 0x39c00; 0xe38c60; 0x739c60; 0x738ce0;
   0x339dc0; 0x3b8dc0; 0x139c40; 0x38c00; 0x3fffffc; 0x3fffffc; 0x3000; 0x203800;
   0x7073f0; 0xe0e3b0; 0xc1c3b0; 0x1c983b8; 0x1d803b8; 0x3980398; 0x39fff1c; 0x1fff08;
   0x55400; 0x0; 0x0; 0x0; 0x0; 0x202000; 0x0; 0x0;
   0x0; 0x380070; 0x380060; 0x39fe70; 0x39fe60; 0x39ff70; 0x3801ec; 0x3fe01fc;
   0x3fe01ec; 0x318017c; 0x339fe6c; 0x319ff7c; 0x3981866; 0x3181c74; 0x398d860; 0x398dc70;
   0x398cc60; 0x39dcc70; 0x38d8e60; 0x18df670; 0x18fff60; 0x18f1f70; 0x1860060; 0x1f70070;
   0xf30060; 0x730070; 0x0; 0x0; 0x0; 0x0; 0x202000; 0x0;
   0x0; 0x0; 0xe0; 0x3fff8e0; 0x3fffce0; 0x2aab8e0; 0xc1de0; 0x6c1be8;
   0xcc1ffc; 0x18c1bec; 0x18c1fec; 0xc1eec; 0x3fffcec; 0x3fff8ee; 0x1c1ce6; 0x1e18e0;
   0x1e1ce0; 0x360ce0; 0x361ce0; 0x360ce0; 0x770ce0; 0x638ce0; 0xc38ee0; 0x1c1c6e0;
   0x380e7e0; 0x78073e0; 0x30033e0; 0x0; 0x0; 0x0; 0x0; 0x202000;
   0x0; 0x0; 0x0; 0x60060; 0x1861860; 0x1861860; 0x1861860; 0x1861960;
   0x1861b68; 0x1fffb7c; 0x1fffb6c; 0x76c; 0x66c; 0x1fff86c; 0x1fff86c; 0x1d55064;
   0x1800060; 0x1c00060; 0x1800860; 0x1fff860; 0x1fff860; 0x1860; 0x1860; 0x7001860;
   0x3001860; 0x3fff860; 0x3fff860; 0x554060; 0x0; 0x0; 0x0; 0x0;
   0x202000; 0x0; 0x0; 0x0; 0x1000060; 0x3000060; 0x337fc60; 0x332ac60;
   0x3370d60; 0x3326de8; 0x3376dec; 0x3326dec; 0x3376d6c; 0x3326f6c; 0x3376d6c; 0x3326c6c;
   0x3376c64; 0x3326c60; 0x3376c60; 0x3326c60; 0x3376c60; 0x3326c60; 0x3377c60; 0x300b060;
   0x301f060; 0x3039860; 0x3071c60; 0x3f60e60; 0x1f40660; 0x0; 0x0; 0x0;
   0x0; 0x202000; 0x0; 0x0; 0x0; 0x10070; 0x38060; 0x30070;
   0x70060; 0x3ffff70; 0x3ffffe8; 0x15555fc; 0x3001ec; 0x1b81f7c; 0x1986f6c; 0x19cfd7c;
   0x18dcc6c; 0x18f9c74; 0x18f0c60; 0x1871c70; 0x18f0c60; 0x19f9c70; 0x1b9cc60; 0x1f0fc70;
   0x1a06c60; 0x1805c70; 0x1fffc60; 0x1fffc70; 0x1aaa860; 0x1800070; 0x0; 0x0;
   0x0; 0x0; 0x202000; 0x0; 0x0; 0x0; 0x60; 0x2aaa860;
   0x3fffc60; 0x3fffc60; 0x3818d60; 0x3838de8; 0x381cf7c; 0xfffb6c; 0x1ffff6c; 0xe66c;
   0xe606c; 0xe606c; 0xe7064; 0x1fff860; 0x1fff860; 0xaea860; 0xe0060; 0xe0060;
   0x7fffe60; 0x3fffe60; 0xe0060; 0xe0060; 0xe0060; 0xe0060; 0xe0060; 0x0;
   0x0; 0x0; 0x0; 0x202000; 0x0; 0x0; 0x0; 0x0;
   0x3fffe0; 0x1ffff0; 0xf0e00; 0x7ff00; 0x3e000; 0xfffff0; 0xffffe0; 0xe06070;
   0xffffe0; 0xfffff0; 0xe06060; 0xfffff0; 0xffffe0; 0xe06070; 0xe86060; 0x7c7070].
Definition hanzi_data_141 : list N :=
  [0x83800; 0x71f360; 0xe3c370; 0x1d10330; 0x1b80338; 0x3bd571c; 0x31fff0c; 0xffc00;
   0x0; 0x0; 0x0; 0x0; 0x202000; 0x0; 0x0; 0x0;
   0x60; 0xaaa860; 0x1fffc60; 0x1aaac60; 0x1860d60; 0x1860de8; 0x1860d6c; 0x1860f6c;
   0x1ffef6c; 0x1ffee6c; 0x1870c6c; 0x18f0c6c; 0x19f8c64; 0x1bf8c60; 0x1b6cc60; 0x1e6ec60;
   0x1e67c60; 0x1862c60; 0x1860c60; 0x1860c60; 0x1860c60; 0x1aaac60; 0x1fffc60; 0x1fffc60;
   0x1800c60; 0x0; 0x0; 0x0; 0x0; 0x202000; 0x0; 0x0;
   0x0; 0xe00e0; 0x30e38e0; 0x38e38e0; 0x18e70e0; 0x1ce71e0; 0xeee3e8; 0x4e43fc;
   0xe03e8; 0x1fff6ec; 0x1fff6ec; 0x18030ec; 0x18030ec; 0x1fff0e4; 0x1fff0e0; 0x1d570e0;
   0x18030e0; 0x18030e0; 0x1fff0e0; 0x1fff0e0; 0x18030e0; 0x18030e0; 0x18030e0; 0x1d030e0;
   0x1f830e0; 0xf030e0; 0x0; 0x0; 0x0; 0x0; 0x202000; 0x0;
   0x0; 0x0; 0xe000; 0xf000; 0x1fc00; 0xf8f00; 0x7e07c0; 0x3fffff8;
   0x3cfff7c; 0x6008; 0x1557550; 0x1fffff8; 0x1557550; 0x1e6380; 0x7861e0; 0xe060f0;
   0x1c07c7c; 0x803c18; 0x7800; 0x6063b0; 0xe0e3b0; 0xc9c3b8; 0x1d98398; 0x1980398;
   0x39fff1c; 0x8fff08; 0x55400; 0x0; 0x0; 0x0; 0x0; 0x202000;
   0x0; 0x0; 0x0; 0x5c0070; 0xf80060; 0x1dc0070; 0x3980060; 0x11c0170;
   0x3fffde8; 0x7fffdfc; 0x1801ec; 0x18037c; 0x1999b6c; 0x199997c; 0x1999866; 0x1d99874;
   0xdffe60; 0xfffe70; 0x799860; 0x799c70; 0x318860; 0x399c70; 0x23d8c60; 0x67f8c70;
   0x26e0e60; 0x3678770; 0x3e3c260; 0x1c18070; 0x0; 0x0; 0x0; 0x0;
   0x202000; 0x0; 0x0; 0x0; 0x700000; 0xffe800; 0x1ffff8; 0x106bf0;
   0x3861c0; 0x186180; 0x1c6380; 0x3fffffc; 0x3fffffc; 0x2abfea8; 0x76e00; 0xe6780;
   0x7c63c0; 0xf060f8; 0x7e0607e; 0x380381c; 0x7c00; 0x38e660; 0xf1c770; 0xe08670;
   0x1d80730; 0x3980638; 0x71d571c; 0x10ffe08; 0x7fc00; 0x0; 0x0; 0x0;
   0x0; 0x202000; 0x0; 0x0; 0x0; 0x603060; 0x603060; 0x707060;
   0x38e060; 0x15d5560; 0x1fffde8; 0x1ffff7c; 0x1830368; 0x187076c; 0x1fffa6c; 0x1fffc6c;
   0xabac6c; 0x71c64; 0x30c60; 0x3fffc60; 0x3fffe60; 0x187c060; 0x183c060; 0x1877060;
   0x1833860; 0x1f73c60; 0xf30e60; 0x570760; 0x30260; 0x70060; 0x0; 0x0;
   0x0; 0x0; 0x202000; 0x0; 0x0; 0x0; 0xe0; 0x1fff8e0;
   0x1fff8e0; 0x18038e0; 0x1c039e0; 0x1fffbe8; 0x1fffbfc; 0x1803ee8; 0x1c03efc; 0x1fffeec;
   0x1fff8ec; 0xec; 0x1fff8ec; 0x1fff8e0; 0x1fff8e0; 0x600e0; 0x600e0; 0x3fffee0;
   0x7fffee0; 0x2aea8e0; 0x600e0; 0x600e0; 0x600e0; 0x600e0; 0x600e0; 0x0;
   0x0; 0x0; 0x0; 0x202000; 0x0; 0x0; 0x0; 0x60;
   0xfff060; 0xfff060; 0xc03060; 0xc03160; 0xc033e8; 0xfff36c; 0xfff36c; 0x76c;
   0x66c; 0x1fff86c; 0x1fff86c; 0x1861864; 0x1861860; 0x1861860; 0x1aeb860; 0x1fff860;
   0xaab860; 0x1860; 0x1001860; 0x7001860; 0x3001860; 0x3fff860; 0x3fff860; 0x554060;
   0x0; 0x0; 0x0; 0x0; 0x202000; 0x0; 0x0; 0x0;
   0xc060; 0xe060; 0x6060; 0x3ffe060; 0x3fff160; 0x39e8; 0x1dec; 0xaaaf6c;
   0x1fffb6c; 0x1ebb26c; 0x1c7306c; 0xce306c; 0x1cc3064; 0x3fffe60; 0x7fffe60; 0xc1b860;
   0xc71860; 0xce1860; 0xc41860; 0x3fff860; 0x3fffc60; 0xe00060; 0x600060; 0x7e0060;
   0x3c0060; 0x0; 0x0; 0x0; 0x0; 0x202000; 0x0; 0x0;
   0x0; 0x60060; 0x60060; 0x60060; 0x3fffc60; 0x3fffd60; 0x601e8; 0x601ec;
   0x3ffff6c; 0x3ffff6c; 0x3aaad6c; 0x3000c6c; 0x37ffc6e; 0x7ff064; 0x380060; 0x1c0060;
   0xe0060; 0x1575460; 0x3fffc60; 0x7fffc60; 0x60060; 0x60060; 0x60060; 0x60060;
   0x7e060; 0x7c060; 0x0; 0x0; 0x0; 0x0; 0x202000; 0x0;
   0x0; 0x0; 0x60060; 0x60060; 0x60060; 0x3fffc60; 0x3fffd60; 0x2aea9e8;
   0x601fc; 0xaeab6c; 0x1fffb6c; 0x1fffa6c; 0x186186c; 0x186186e; 0x1861864; 0x1fff860;
   0x1fff860; 0xf8060; 0x1fc060; 0x3ec060; 0x76e060; 0xe67060; 0x1c63860; 0x3861e60;
   0x7860e60; 0x2060060; 0x60060; 0x0; 0x0; 0x0; 0x0; 0x202000;
   0x0; 0x0; 0x0; 0x30060; 0x138060; 0x39c060; 0x70e060; 0xe07160;
   0x1fff9e8; 0x3fffd6c; 0x3902b6c; 0x79c36c; 0xf0e36c; 0x1c0796c; 0x380bc6c; 0x3039e64;
   0x1c460; 0x1ffe060; 0xfff060; 0xe07c60; 0x70fe60; 0x39c660; 0x1f8060; 0xf0060;
   0x3fc060; 0x1fdfc60; 0x3e07e60; 0x3001e60; 0x0; 0x0; 0x0; 0x0;
   0x202000; 0x0; 0x0; 0x0; 0x60; 0x1fff860; 0x1fff860; 0x1861860;
   0x1861960; 0x18619e8; 0x1fffb7c; 0x1fffb6c; 0x1d75f6c; 0x1861e6c; 0x186186c; 0x1aeb86e;
   0x1fff864; 0xaea860; 0x60060; 0x60060; 0x1fffc60; 0x3fffc60; 0x1fffc60; 0x60060;
   0x60060; 0x60060; 0x7ffff60; 0x3fffe60; 0x60; 0x0; 0x0; 0x0;
   0x0; 0x202000; 0x0; 0x0; 0x0; 0x60; 0x3fff860; 0x3fffc60;
   0x38060; 0x38160; 0x381e8; 0xfffb7c; 0xfffb6c; 0xc1c76c; 0xe1c66c; 0xe1c06c;
   0x2eae86c; 0x7fffc64; 0x2aaa860; 0x60; 0xaaa860; 0x1fff860; 0xeab860; 0x1c03860;
   0xc03860; 0x1c03860; 0xc03860; 0x1fff860; 0xfff860; 0x1c03860; 0x0; 0x0;
   0x0; 0x0; 0x202000; 0x0; 0x0; 0x0; 0x30100; 0x30380;
   0x381c0; 0x3ff86e0; 0x3ffc6f0; 0xe0e670; 0xe1f678; 0x63f67c; 0x73366c; 0x3f0660;
   0x1e0660; 0x1e0660; 0x7f0660; 0xf3e660; 0x7e1f060; 0x3803060; 0x407800; 0x60f320;
   0xe1c370; 0x1cb8330; 0x1f90330; 0x3b80338; 0x71fff1c; 0x31fff08; 0x7fc00; 0x0;
   0x0; 0x0; 0x0; 0x202000; 0x0; 0x0; 0x0; 0x700e0].
Definition hanzi_data_142 : list N :=
  [0x600e0; 0x600e0; 0xfff0e0; 0x1fff1e0; 0xc033e8; 0x1c033fc; 0xc032e8; 0x1fff6fc;
   0xfff6ec; 0x1c030ec; 0xc030ec; 0x1fff0ec; 0xfff0e0; 0x15770e0; 0x18e30e0; 0x3ce30e0;
   0xec30e0; 0x7c30e0; 0x3830e0; 0x7430e0; 0xe7b8e0; 0x7c7f8e0; 0x380f8e0; 0x10018e0;
   0x0; 0x0; 0x0; 0x0; 0x202000; 0x0; 0x0; 0x0;
   0x6000; 0x6000; 0xfffff0; 0xffffe0; 0xe06070; 0xe06060; 0xfffff0; 0xffffe0;
   0x6000; 0xfffff0; 0x1fffff0; 0xc06030; 0x1c06030; 0xfffff0; 0x1fffff0; 0x6000;
   0x7000; 0x207820; 0x71f760; 0xe38370; 0x1dd0730; 0x3980338; 0x39fff1c; 0xfff08;
   0x7fc00; 0x0; 0x0; 0x0; 0x0; 0x202000; 0x0; 0x0;
   0x0; 0x6060e0; 0xe060e0; 0x70e0e0; 0x70c0e0; 0x31c1e0; 0xbaabe8; 0x1fffbfc;
   0x1aabee8; 0x1c03efc; 0x1803eec; 0x1c038ec; 0x18038ec; 0x1fff8ec; 0x1fff8e0; 0x15dd0e0;
   0x1980e0; 0x19c0e0; 0x18c0e0; 0x18c0e0; 0x18e0e0; 0x71870e0; 0x21870e0; 0x3f83ce0;
   0x3f81ee0; 0x1f006e0; 0x0; 0x0; 0x0; 0x0; 0x202000; 0x0;
   0x0; 0x0; 0x6300; 0x6380; 0x15571c0; 0x3fff8c0; 0x1fffce0; 0x1861cf0;
   0x1c60ef8; 0x8626fc; 0x7670ec; 0xe630e0; 0x1c638e0; 0x18618e0; 0x3861ce0; 0x18688e0;
   0x7c0e0; 0x2b0e0; 0x407100; 0xe0e3b0; 0xc1c3f0; 0x1c983b8; 0x1f08398; 0x3b80398;
   0x31fff1c; 0x1fff08; 0x55400; 0x0; 0x0; 0x0; 0x0; 0x202000;
   0x0; 0x0; 0x0; 0x6000; 0x6000; 0x3fffffc; 0x3fffffc; 0x6000;
   0xfffff0; 0xfffff0; 0x0; 0x1fffffc; 0x1fffff8; 0x180001c; 0x187fe18; 0x187ff1c;
   0x60600; 0x3060700; 0x3ae13e0; 0x1fe71fc; 0xa86038; 0x60e3f0; 0xe8c3b0; 0x1d803b8;
   0x1980398; 0x19fff1c; 0x8fff0c; 0x55400; 0x0; 0x0; 0x0; 0x0;
   0x202000; 0x0; 0x0; 0x0; 0x0; 0x3fffc0; 0x3fffc0; 0x3000c0;
   0x3fffc0; 0x3fffc0; 0x3001c0; 0x3fffc0; 0x3fffc0; 0x3000c0; 0x17555d4; 0x3fffffc;
   0x55d5f54; 0x1c0780; 0x7fd1c0; 0xfffff0; 0x1c05ff0; 0x807000; 0x71f760; 0xe1c670;
   0x1dd8730; 0x38c0638; 0x78fff1c; 0x10ffe08; 0x55400; 0x0; 0x0; 0x0;
   0x0; 0x202000; 0x0; 0x0; 0x0; 0x4070; 0x3ffc060; 0x3ffcc70;
   0x3aecc60; 0x186cd70; 0x18ecde8; 0x1cccdfc; 0xeccdec; 0x78cf7c; 0x38cf6c; 0x7ccd7c;
   0xfecc64; 0x7cfcc74; 0x382c060; 0x74070; 0x60060; 0x1575470; 0x1fffc60; 0x1fffc70;
   0x60060; 0x70070; 0x60060; 0x7fffe70; 0x3fffe60; 0x70; 0x0; 0x0;
   0x0; 0x0; 0x202000; 0x0; 0x0; 0x0; 0x70; 0x3ff8e60;
   0x3ff9c70; 0x3003860; 0x3007070; 0x30320e8; 0x3070dfc; 0x3060dec; 0x37fed7c; 0x37fef6c;
   0x3184d74; 0x318ec64; 0x31dcc74; 0x30f8c60; 0x30f0c70; 0x3060c60; 0x30f0c70; 0x31b8c60;
   0x339cc70; 0x330ec60; 0x3107c70; 0x3002c60; 0x3000c70; 0x3f80c60; 0x1f00c70; 0x0;
   0x0; 0x0; 0x0; 0x202000; 0x0; 0x0; 0x0; 0x70060;
   0x70060; 0x70060; 0x2aea860; 0x3fffd60; 0x3aaade8; 0x3001f7c; 0x3000f6c; 0x1fff76c;
   0xfff26c; 0x55506c; 0x6c; 0x64; 0x3fffc60; 0x3fffc60; 0x60060; 0x461060;
   0xe63060; 0x1c63060; 0x1863860; 0x3861c60; 0x3060e60; 0x3060460; 0x7e060; 0x7c060;
   0x0; 0x0; 0x0; 0x0; 0x202000; 0x0; 0x0; 0x0;
   0x39c060; 0x398060; 0x39c060; 0x398060; 0x179d560; 0x3f9fde8; 0x3f9ff7c; 0x39836c;
   0x39c36c; 0x39826c; 0x3f9fc6c; 0x3f9f86c; 0x179d464; 0x398060; 0x39c060; 0x398060;
   0x7f9fe60; 0x3f9fe60; 0x39c060; 0x398060; 0x39c060; 0x398060; 0x39c060; 0x398060;
   0x39c060; 0x0; 0x0; 0x0; 0x0; 0x202000; 0x0; 0x0;
   0x0; 0x31c00; 0x30c00; 0x3ff1ffc; 0x3ff0ff8; 0x1571d54; 0x30c00; 0x1ff1ff8;
   0x1ff0ff8; 0x1ff1ff8; 0x30c00; 0x1571d54; 0x3ff0ffc; 0x3ff1ffc; 0x30c00; 0x31c00;
   0x3000; 0x707720; 0x60e360; 0xe1c770; 0xcb8330; 0x1d80738; 0x3980318; 0x71fff1c;
   0xffe08; 0x55400; 0x0; 0x0; 0x0; 0x0; 0x202000; 0x0;
   0x0; 0x0; 0x70060; 0x60060; 0x60060; 0x3fffc60; 0x3fffd60; 0x2aaa9e8;
   0x70e37c; 0x30636c; 0x30776c; 0x38726c; 0x78f06c; 0x1fdf86c; 0x3cf9c64; 0x10c0c60;
   0x70060; 0x60060; 0x7fffe60; 0x3fffe60; 0x1575460; 0x60060; 0x70060; 0x60060;
   0x70060; 0x60060; 0x70060; 0x0; 0x0; 0x0; 0x0; 0x202000;
   0x0; 0x0; 0x0; 0xc00060; 0xfe8060; 0x7ff860; 0x6b860; 0x60160;
   0x3fffde8; 0x3fffd6c; 0x1f836c; 0x3fc36c; 0xf6e36c; 0x1e67d6c; 0x3861e6c; 0x3040c64;
   0xfff060; 0x7ff060; 0x380060; 0x1e0060; 0x60060; 0x3fffe60; 0x3fffe60; 0x60060;
   0x60060; 0x60060; 0x7e060; 0x7c060; 0x0; 0x0; 0x0; 0x0;
   0x202000; 0x0; 0x0; 0x0; 0x60060; 0x60060; 0x60060; 0x1fff860;
   0x1fff960; 0x601e8; 0x6037c; 0x2aeab68; 0x3ffff6c; 0x3fffc6c; 0xe0706c; 0x60e06c;
   0x70c064; 0x1fff860; 0x1fffc60; 0xaea860; 0x60060; 0x60060; 0x3fffe60; 0x3fffe60;
   0x60060; 0x60060; 0x60060; 0x60060; 0x60060; 0x0; 0x0; 0x0;
   0x0; 0x202000; 0x0; 0x0; 0x0; 0x70060; 0x60060; 0x3ff0060;
   0x3fe0060; 0x1570160; 0x601e8; 0x1fff96c; 0xfffb6c; 0x1d55b6c; 0xc01b6c; 0x1fffb6c;
   0xfff86c; 0x1d55864; 0xc01860; 0x1fff860; 0xfff860; 0x1575060; 0x60060; 0x7fffe60;
   0x3fffe60; 0x5575460; 0x60060; 0x70060; 0x60060; 0x70060; 0x0; 0x0;
   0x0; 0x0; 0x202000; 0x0; 0x0; 0x0; 0x70070; 0x30060;
   0x3fffe70; 0x3fffe60; 0x701f0; 0xaba9e8; 0x1fffdfc; 0x3036c; 0x157557c; 0x3fffe6c;
   0x7ffff7c; 0x6e; 0x1fffc74; 0xfff860; 0x1c01c70; 0xeab860; 0x1fffc70; 0xc01860].
Definition hanzi_data_143 : list N :=
  [0x1c01c70; 0xfff860; 0x1fffc70; 0xc01860; 0x1c01c70; 0xf81860; 0x781c70; 0x0;
   0x0; 0x0; 0x0; 0x202000; 0x0; 0x0; 0x0; 0x60;
   0x1fff860; 0x1fffc60; 0x1aab860; 0x1861d60; 0x18619e8; 0x1bfdd6c; 0x1bfdb6c; 0x1861f6c;
   0x1861b6c; 0x1ffdd6c; 0x1bff86c; 0x1801c64; 0x1801860; 0x1bfdc60; 0x1bfcc60; 0x1b0dc60;
   0x1b0cc60; 0x1b0cc60; 0x1bfcc60; 0x1bfce60; 0x180c660; 0x1d00760; 0x1f00360; 0x1f00360;
   0x0; 0x0; 0x0; 0x0; 0x202000; 0x0; 0x0; 0x0;
   0x30060; 0x30060; 0x3fffe60; 0x3fffe60; 0x1555560; 0x1e8; 0xfffb7c; 0xeabb6c;
   0xc01b6c; 0xc01a6c; 0xfff86c; 0xfff86e; 0x64; 0xfffc60; 0xfffc60; 0x380060;
   0x1f0060; 0x60060; 0x7ffff60; 0x3ffff60; 0x70060; 0x60060; 0x70060; 0x7e060;
   0x3e060; 0x0; 0x0; 0x0; 0x0; 0x202000; 0x0; 0x0;
   0x0; 0x70060; 0x70060; 0x60060; 0x3fffc60; 0x3fffd60; 0x3e8; 0x36c;
   0xfff36c; 0x1fff76c; 0xc0366c; 0x1c0366c; 0xc0306c; 0x1c03064; 0xfff060; 0x1fff060;
   0x60060; 0x467060; 0xe67060; 0xc63060; 0x1863860; 0x1861c60; 0x3860e60; 0x3074c60;
   0x7c060; 0x7c060; 0x0; 0x0; 0x0; 0x0; 0x202000; 0x0;
   0x0; 0x0; 0x70070; 0x60060; 0x1575470; 0x3fffc60; 0x3fffd70; 0x3000de8;
   0x3001dfc; 0x2003b6c; 0x1fd737c; 0x1fffb6c; 0x19ff97c; 0x18f986e; 0x19d9c74; 0x18d8c60;
   0x19db670; 0x18df660; 0x1dde270; 0x1ecc060; 0x5ce070; 0xc6060; 0x71c7070; 0x30c3860;
   0x31c1c70; 0x3f80e60; 0x1f00670; 0x0; 0x0; 0x0; 0x0; 0x202000;
   0x0; 0x0; 0x0; 0x1c0380; 0x180380; 0x1fffff8; 0x1fffff8; 0x15d57d0;
   0x180380; 0x1fff80; 0x1aab80; 0x1c0380; 0x1fff80; 0x1fff80; 0x180380; 0x3fffffc;
   0x3fffffc; 0x1c1380; 0x3839c0; 0xf0f0f0; 0x3f0ee78; 0x3b9cfde; 0x700ecc; 0x6c0ee0;
   0xec0e60; 0x1cf5e78; 0x87fc30; 0x7fc00; 0x0; 0x0; 0x0; 0x0;
   0x202000; 0x0; 0x0; 0x0; 0x18c000; 0x3cc000; 0xf0c000; 0x2eaeaa8;
   0x3fffffc; 0x2abaaa8; 0x61c000; 0x619ff0; 0x739ff0; 0x331830; 0x3f1c30; 0x1e1ff0;
   0x31e1550; 0x30f2000; 0x33fbff4; 0x3f9fffc; 0x1f0d05c; 0x7800; 0x61f370; 0xe1c330;
   0x1d98338; 0x1980338; 0x39d571c; 0x38fff08; 0x7fc00; 0x0; 0x0; 0x0;
   0x0; 0x202000; 0x0; 0x0; 0x0; 0x60060; 0x60060; 0x1c67060;
   0x1c63060; 0xc63160; 0x6639e8; 0x771f7c; 0x1f036c; 0x7f876c; 0xf1e26c; 0x1e0fc6c;
   0x3863c6e; 0x1071864; 0x860060; 0x1c77060; 0xc73060; 0xe73860; 0x671860; 0x7f1c60;
   0xf8860; 0x1dc060; 0x78e060; 0x1f07c60; 0x3c03e60; 0x1000660; 0x0; 0x0;
   0x0; 0x0; 0x202000; 0x0; 0x0; 0x0; 0x60; 0xfff060;
   0x1fff060; 0xc03060; 0x1c03160; 0xfff3e8; 0x1fff37c; 0xc0336c; 0x1c0376c; 0xeab66c;
   0x1fff06c; 0xe06e; 0x6064; 0x2aaf060; 0x3fff060; 0x3bbb860; 0x3999c60; 0x399ce60;
   0x19cc660; 0x18c6060; 0x18e7060; 0x1863860; 0x1c71c60; 0xfb8060; 0xf98060; 0x0;
   0x0; 0x0; 0x0; 0x202000; 0x0; 0x0; 0x0; 0x70;
   0x3fffc60; 0x3fffc70; 0x3800c60; 0x3b0dd70; 0x3988de8; 0x3999dfc; 0x3898d6c; 0x3ffff7c;
   0x3ffef6c; 0x3871d7c; 0x3860c64; 0x3861c74; 0x3ffec60; 0x3fffc70; 0x3818c60; 0x381dc70;
   0x3818c60; 0x3bfdc70; 0x3bf8c60; 0x3801c70; 0x3800c60; 0x3d01c70; 0x3f00c60; 0x1f01c70;
   0x0; 0x0; 0x0; 0x0; 0x202000; 0x0; 0x0; 0x0;
   0x60; 0x3fdfe60; 0x3fdfe60; 0x1808060; 0x180c5e0; 0xcccfe8; 0xfcfd6c; 0xf0736c;
   0xf0f36c; 0xf9fa6c; 0x1dd9c6c; 0x38e0e66; 0x1040466; 0x3fffe60; 0x3fffe60; 0x18cc060;
   0x19cc460; 0x198ee60; 0xd87c60; 0xf87860; 0x707060; 0xf8f860; 0x3ddde60; 0x78f8f60;
   0x3060760; 0x0; 0x0; 0x0; 0x0; 0x202000; 0x0; 0x0;
   0x0; 0xe060; 0x6060; 0x7060; 0x3fff060; 0x3fff160; 0x3b3b9e8; 0x3999f6c;
   0x398cf6c; 0x19cc76c; 0x18c626c; 0x18c706c; 0x186386e; 0x1c71c64; 0x1fb8c60; 0xf10060;
   0x30060; 0xc76c60; 0x18e6c60; 0x18c6c60; 0x38c6e60; 0x3706660; 0x3206660; 0x17fe760;
   0x3fe060; 0x154060; 0x0; 0x0; 0x0; 0x0; 0x202000; 0x0;
   0x0; 0x0; 0x1c00060; 0x3ffe860; 0x7ff860; 0x61860; 0x61960; 0x2aeb9e8;
   0x3fffb6c; 0x2aebb6c; 0x1c1f6c; 0x2181a6c; 0x339d86c; 0x3f1fc6c; 0x3e07c64; 0x800060;
   0x1fff860; 0x1fff860; 0x1c01860; 0x1801860; 0x1fff860; 0x1fff860; 0x1c01860; 0x1801860;
   0x1fff860; 0x1fff860; 0x1c01860; 0x0; 0x0; 0x0; 0x0; 0x202000;
   0x0; 0x0; 0x0; 0x71c060; 0x30c060; 0x71c060; 0x2bae860; 0x3fff960;
   0x3fff9e8; 0x71c16c; 0x30c36c; 0x71c36c; 0x3fffa6c; 0x7fffc6c; 0x64; 0x64;
   0x1fff060; 0x1fff060; 0x1c03060; 0x1c07060; 0x1fff060; 0x1fff060; 0x1c03060; 0x1c07060;
   0x1c03060; 0x1fff060; 0x1fff060; 0x1c07060; 0x0; 0x0; 0x0; 0x0;
   0x202000; 0x0; 0x0; 0x0; 0x70060; 0x3860860; 0x1871c60; 0x1c63860;
   0xc77160; 0x6671e8; 0x7761ec; 0x6236c; 0x1ffff6c; 0x1fffe6c; 0x1d55c6c; 0x1800c64;
   0x19fcc64; 0x19fcc60; 0x19dcc60; 0x198cc60; 0x198cc60; 0x198cc60; 0x19fcc60; 0x19fcc60;
   0x180cc60; 0x1808c60; 0x1800c60; 0x1f80c60; 0x1f00c60; 0x0; 0x0; 0x0;
   0x0; 0x202000; 0x0; 0x0; 0x0; 0xc4060; 0xce060; 0x1c6060;
   0x186060; 0x1871e0; 0x3fff9ec; 0x3fffb6c; 0xc3b6c; 0x1c3d6c; 0xc3e6c; 0x1fff76c;
   0x1fff26e; 0x1c3064; 0xc3060; 0x1c3060; 0xaeb060; 0x1fff060; 0x1fff060; 0x1c3060;
   0xc3060; 0x1c3060; 0x3fff060; 0x3fff060; 0x3060; 0x3060; 0x0; 0x0;
   0x0; 0x0; 0x202000; 0x0; 0x0; 0x0; 0x7000; 0x6000].
Definition hanzi_data_144 : list N :=
  [0x3fffffc; 0x3fffff8; 0x7000; 0xfffff0; 0xfffff0; 0xe06030; 0xfffff0; 0xfffff0;
   0xe07070; 0xfffff0; 0xfffff0; 0x1c6000; 0x7d7000; 0xfffff8; 0x3fffffc; 0x1803800;
   0x70f3b0; 0xe1c3b0; 0x1d983b8; 0x1980398; 0x39d571c; 0x38fff08; 0x7fc00; 0x0;
   0x0; 0x0; 0x0; 0x202000; 0x0; 0x0; 0x0; 0x70060;
   0x60060; 0xe0060; 0x2aea860; 0x3fffd60; 0x3fff9e8; 0xc1dec; 0xc1b6c; 0xc1f6c;
   0x2ac1a6c; 0x3fc1c6c; 0x2ac186e; 0xc1c64; 0xc1860; 0xc1c60; 0x1fffc60; 0x1fffc60;
   0x180ec60; 0x180fc60; 0x180ec60; 0x180ee60; 0x1ffee60; 0x1ffe760; 0x1aae760; 0x180e660;
   0x0; 0x0; 0x0; 0x0; 0x202000; 0x0; 0x0; 0x0;
   0xe0; 0xfff0e0; 0x1fff0e0; 0xc030e0; 0x1c031e0; 0xfff3e8; 0x1fff3fc; 0xc032e8;
   0x1d576fc; 0xfff6ec; 0x1fff0ec; 0xc030ec; 0x1d570e4; 0xfff0e0; 0x1fff0e0; 0xc030e0;
   0x1c030e0; 0x3fffee0; 0x7fffee0; 0x20c0e0; 0x71e0e0; 0xe0f0e0; 0x1c078e0; 0x3803ee0;
   0x1001ce0; 0x0; 0x0; 0x0; 0x0; 0x202000; 0x0; 0x0;
   0x0; 0x38070; 0x138060; 0x79e070; 0x70f060; 0xff79f0; 0x1fff9e8; 0x187f9fc;
   0x1836c; 0x3ffff7c; 0x3fffe6c; 0x38607c; 0x70706e; 0x1e63c74; 0x3c71e60; 0x383c770;
   0x38fa60; 0x3c7c70; 0xf0860; 0x1c7e070; 0xe0f860; 0x7c3870; 0x1f0060; 0x7f070;
   0xfc60; 0x1870; 0x0; 0x0; 0x0; 0x0; 0x202000; 0x0;
   0x0; 0x0; 0x180; 0x2aaa9c0; 0x3fffcf0; 0x2aea878; 0x601bc; 0x63188;
   0x631c0; 0x1fe30e0; 0x1fe3070; 0x63078; 0x6307c; 0x63068; 0x63060; 0x2aeba60;
   0x3ffff60; 0x2aaaa60; 0x7000; 0xe200; 0xe1c370; 0xc1c338; 0x1d98338; 0x1b80318;
   0x39fff1c; 0x1fff08; 0x55400; 0x0; 0x0; 0x0; 0x0; 0x202000;
   0x0; 0x0; 0x0; 0x1c00; 0xe00; 0x3fff80; 0x1eabe0; 0x1f0ff0;
   0x7be38; 0x1f818; 0x3fff80; 0x7ff0ffe; 0x3e000fc; 0x7fffe4; 0x606060; 0x757560;
   0x7fffe0; 0x757560; 0x606060; 0x7fffe0; 0x2aaaa0; 0x607760; 0xe0e760; 0x1c9c770;
   0x1988738; 0x39fff1c; 0x30ffe08; 0x55000; 0x0; 0x0; 0x0; 0x0;
   0x202000; 0x0; 0x0; 0x0; 0x60; 0x3fffc60; 0x3fffc60; 0x2aaac60;
   0x1c0de0; 0xc0de8; 0x1ffedec; 0x1ffef6c; 0x5c0f6c; 0xcccf6c; 0xdd8c6c; 0x6d8c6e;
   0x15d4c64; 0x3ffec60; 0x15d5c60; 0x1e0c60; 0x770c60; 0x630c60; 0x1c3cc60; 0x181ec60;
   0x180ec60; 0xc60; 0x7fffc60; 0x3fffc60; 0x60; 0x0; 0x0; 0x0;
   0x0; 0x202000; 0x0; 0x0; 0x0; 0x1003070; 0x3c03860; 0x3fc1870;
   0x7ffe60; 0x1fff70; 0xcbaec; 0x1c1dfc; 0xc2dec; 0x15c6dfc; 0x3fc6d6c; 0x7fc667c;
   0x8eee6c; 0x1dfff74; 0x8ffe60; 0x1cc6070; 0x8c6060; 0x1cfe070; 0x8ff860; 0x1cc7f70;
   0x8e6e60; 0x1c66070; 0x866060; 0x1c76070; 0x836060; 0x1c26070; 0x0; 0x0;
   0x0; 0x0; 0x202000; 0x0; 0x0; 0x0; 0x4040e0; 0xe0e0e0;
   0x60c0e0; 0x61c0e0; 0x71c1e0; 0x3883e8; 0x1fffbfc; 0x1fffaec; 0x18e3eec; 0x18e3eec;
   0x1fff8ec; 0x1fff8ec; 0x18e38e4; 0x18e38e0; 0x1fff8e0; 0x1fff8e0; 0xe00e0; 0xe00e0;
   0x7fffce0; 0x3fffce0; 0xe00e0; 0xe00e0; 0xe00e0; 0xe00e0; 0xe00e0; 0x0;
   0x0; 0x0; 0x0; 0x202000; 0x0; 0x0; 0x0; 0x60;
   0x1fff060; 0x1fff060; 0xc63060; 0x5c63560; 0x3ffffe8; 0x7d77ffc; 0xc63b68; 0xfffb6c;
   0xfffb6c; 0x16c; 0xfff86c; 0xfff864; 0xc01860; 0xc41860; 0xc61860; 0xc71860;
   0xc61860; 0xc71860; 0xc31860; 0x1b8060; 0x7de060; 0x1f0fc60; 0x3803f60; 0x3000660;
   0x0; 0x0; 0x0; 0x0; 0x202000; 0x0; 0x0; 0x0;
   0x18060; 0x18060; 0x3fffc60; 0x3fffc60; 0xc160; 0xaae3e8; 0x1fff37c; 0xbabb6c;
   0x1c3e6c; 0x3fffe6c; 0x3ffee6c; 0x6e; 0x1fff064; 0xfff060; 0x1c03060; 0xc03060;
   0x1fff060; 0xeab060; 0x1c03060; 0xfff060; 0x1fff060; 0xc03060; 0x1c03060; 0xf83060;
   0xf03060; 0x0; 0x0; 0x0; 0x0; 0x202000; 0x0; 0x0;
   0x0; 0x180; 0xaa8180; 0x1ffc180; 0x1aac180; 0x1c1dffc; 0x180dffc; 0x1ffc1c0;
   0x1aac1c0; 0x1c1c7e0; 0x180cfe0; 0x1ffddb0; 0x1aad9b8; 0x1c1d19c; 0x180c18c; 0x1ffc184;
   0x1ffe180; 0x407000; 0xe0e330; 0x1c1c730; 0x1c98338; 0x39c0718; 0x398031c; 0x11fff1c;
   0xffe08; 0x55400; 0x0; 0x0; 0x0; 0x0; 0x202000; 0x0;
   0x0; 0x0; 0x60060; 0x1861860; 0x1861860; 0x1861860; 0x1861960; 0x18619e8;
   0x1fffb6c; 0x1fffb6c; 0x36c; 0x26c; 0x7fffc6c; 0x3fffc6e; 0x70064; 0x30060;
   0x3fffc60; 0x3fff860; 0x3999c60; 0x3999860; 0x3999c60; 0x3999860; 0x3999c60; 0x3999860;
   0x3999c60; 0x3f99860; 0x1d99c60; 0x0; 0x0; 0x0; 0x0; 0x202000;
   0x0; 0x0; 0x0; 0x70060; 0x30060; 0x30060; 0x1fff860; 0x1fff960;
   0x18039e8; 0x1d57b7c; 0x1fffb6c; 0x1d57f6c; 0x1803e6c; 0x1fff86c; 0x1fff86c; 0x1555064;
   0x60; 0x3fffc60; 0x3fffc60; 0x60060; 0x60060; 0x1fff860; 0x1fff860; 0x60060;
   0x60060; 0x7fffe60; 0x3fffe60; 0x1555460; 0x0; 0x0; 0x0; 0x0;
   0x202000; 0x0; 0x0; 0x0; 0xe0700; 0xe0300; 0x3fffffc; 0x3fffffc;
   0xe1f00; 0xe1b00; 0x3fffffc; 0x3fffffc; 0x1555754; 0x380; 0x7fffc0; 0x7fffe0;
   0x7003f0; 0x6003be; 0x75579c; 0x7fff80; 0x7fff80; 0xf800; 0x71e770; 0xe38370;
   0x1d90730; 0x3980338; 0x39fff1c; 0x30ffe0c; 0x7fc00; 0x0; 0x0; 0x0;
   0x0; 0x202000; 0x0; 0x0; 0x0; 0x60; 0x1fff860; 0x1fff860;
   0x1801860; 0x1c01960; 0x1fff9e8; 0x1fffb7c; 0x1801b6c; 0x1c01f6c; 0x1fffe6c; 0x1fff86c;
   0x6306c; 0x63064; 0x2aeb860; 0x3fffc60; 0x2aebc60; 0x60e60; 0x60660; 0x1fffc60].
Definition hanzi_data_145 : list N :=
  [0x1fff860; 0x60060; 0x60060; 0x7fffe60; 0x3fffe60; 0x5555460; 0x0; 0x0;
   0x0; 0x0; 0x202000; 0x0; 0x0; 0x0; 0x700060; 0x31e060;
   0x71fe60; 0x303e60; 0x7071e0; 0x3031e8; 0x374717c; 0x3343368; 0x375ff6c; 0x337fe6c;
   0x1f6706c; 0x1b6786e; 0x1f77864; 0x170f860; 0x71fc60; 0x79bc60; 0x797c60; 0xf83660;
   0xdc7760; 0xcc3360; 0x1cc7260; 0x18e3060; 0x3877060; 0x3033060; 0x1027060; 0x0;
   0x0; 0x0; 0x0; 0x202000; 0x0; 0x0; 0x0; 0xc0c00;
   0xc1fe0; 0xc07fc; 0xc0180; 0x38dc180; 0x18ccba8; 0x1ccdffc; 0xccebe8; 0xdc67c0;
   0x1e27e0; 0x371df0; 0x3709b8; 0x7389bc; 0xe1c19e; 0x7c1f18c; 0x3806180; 0x3980;
   0x607280; 0xe0e3f0; 0xc9c3b0; 0x1d9c3b8; 0x3980398; 0x39fff1c; 0xfff08; 0x55400;
   0x0; 0x0; 0x0; 0x0; 0x202000; 0x0; 0x0; 0x0;
   0x70060; 0x70060; 0x70060; 0x3fffc60; 0x3fffd60; 0x3800de8; 0x3800dec; 0x3ffff6c;
   0x7ff36c; 0x36c; 0xfff16c; 0xfff06c; 0xf5706c; 0xe03060; 0xf57060; 0xfff060;
   0xf57060; 0xe03060; 0xf57060; 0xfff060; 0x555060; 0x60; 0x3fffe60; 0x3fffe60;
   0x1555460; 0x0; 0x0; 0x0; 0x0; 0x202000; 0x0; 0x0;
   0x0; 0x1c0; 0x1fe18c0; 0x1fe7cf0; 0xe038; 0x401c; 0x188; 0x3ff1dc0;
   0x3ff7ce0; 0x607070; 0x600078; 0x60407c; 0x60e06c; 0x607060; 0x603860; 0x601c60;
   0x7e0c60; 0x7c3060; 0x7000; 0x61e3f0; 0xebc3b0; 0x1d983b8; 0x1980398; 0x39fff1c;
   0x1fff0c; 0x7fc00; 0x0; 0x0; 0x0; 0x0; 0x202000; 0x0;
   0x0; 0x0; 0xc000; 0xf000; 0x3fc00; 0xf8e00; 0x7e07c0; 0x3fffff8;
   0x3c7fe7c; 0x2a0000c; 0xe73ff0; 0xe33ab0; 0xe73ff0; 0xe33ff0; 0xe73070; 0xe33ff0;
   0xe73570; 0xe83a30; 0x783c70; 0x283020; 0x60f620; 0xe3c660; 0x1cd8670; 0x18c0638;
   0x39ffe1c; 0x30ffe08; 0x7fc00; 0x0; 0x0; 0x0; 0x0; 0x202000;
   0x0; 0x0; 0x0; 0x60060; 0x60060; 0xf0060; 0x1f8060; 0x79e160;
   0xe079e8; 0x7d57ffc; 0x3ffefec; 0x7ff76c; 0x80036c; 0x193fd6c; 0x19bfc6e; 0x19b0c64;
   0x19b0c60; 0x19bfc60; 0x19bfc60; 0x19b0c60; 0x19bac60; 0x19bfc60; 0x19b0c60; 0x1930c60;
   0x1830c60; 0x1830c60; 0x1f3cc60; 0xf1cc60; 0x0; 0x0; 0x0; 0x0;
   0x202000; 0x0; 0x0; 0x0; 0x60000; 0x63ff8; 0x73ff8; 0x3ff3018;
   0x3ff3018; 0xc3bff8; 0xc7fff8; 0xe6c318; 0x66fff8; 0x6c7ff8; 0x7c5758; 0x382618;
   0x7c6618; 0xee6ff8; 0x7c7fffc; 0x383b838; 0x7800; 0x20f220; 0x71c770; 0xe18670;
   0x1dc0730; 0x18c0638; 0x39fff1c; 0x10ffe08; 0x7fc00; 0x0; 0x0; 0x0;
   0x0; 0x202000; 0x0; 0x0; 0x0; 0xe060; 0xe060; 0x7060;
   0x3fff060; 0x3fff960; 0x19e8; 0x1fffdec; 0xffffec; 0x1c0336c; 0xeab36c; 0x1fff16c;
   0xc0306e; 0x1d57064; 0xfff060; 0x155d060; 0xc060; 0x1fff060; 0xfff860; 0x70fc60;
   0x39ce60; 0x1f8460; 0x1f8060; 0x1fff060; 0x3f0fe60; 0x3c01e60; 0x0; 0x0;
   0x0; 0x0; 0x202000; 0x0; 0x0; 0x0; 0x7000; 0xe000;
   0x1fffff0; 0xfffff0; 0x1c0300; 0xe0700; 0x3fffffc; 0x3fffffc; 0x0; 0x3fffe0;
   0x7fffe0; 0x3000e0; 0x7555e0; 0x3fffe0; 0x7000e0; 0x3000e0; 0x7fffe0; 0x2aba80;
   0x607720; 0xe1e660; 0xc5c770; 0x1cc0638; 0x38c071c; 0x8ffe18; 0x7fc00; 0x0;
   0x0; 0x0; 0x0; 0x202000; 0x0; 0x0; 0x0; 0x60;
   0x2aaa860; 0x3fffc60; 0x2afa860; 0x70160; 0x301e8; 0x3ffff6c; 0x3ffff68; 0x35ddf6c;
   0x3188e6c; 0x319dc6c; 0x31a8c64; 0x31fdc64; 0x31a8c60; 0x319dc60; 0x3188c60; 0x31fdc60;
   0x31f8c60; 0x31ddc60; 0x3188c60; 0x319dc60; 0x3baac60; 0x3fffc60; 0x3aaac60; 0x3001c60;
   0x0; 0x0; 0x0; 0x0; 0x202000; 0x0; 0x0; 0x0;
   0x30060; 0x30060; 0x70060; 0x3fffc60; 0x3fffd60; 0x2eae9e8; 0x60637c; 0x70e36c;
   0x30c76c; 0x2baea6c; 0x7fffe6c; 0x2aaaa6c; 0x64; 0xfff860; 0x1fff860; 0xc03860;
   0x1c03860; 0xeab860; 0x1fff860; 0xeab860; 0x1c03860; 0xc03860; 0x1fff860; 0xfff860;
   0x1c03860; 0x0; 0x0; 0x0; 0x0; 0x202000; 0x0; 0x0;
   0x0; 0x60; 0x1fbf860; 0x1fff860; 0x18b9860; 0x19f9960; 0x18b9be8; 0x1fffb7c;
   0x1fbfb68; 0x77c; 0xfff66c; 0xfff06c; 0x6c; 0x6c; 0x3fffc60; 0x7fffc60;
   0xe060; 0x556060; 0xffe060; 0x1fff060; 0xc00060; 0xc00060; 0xe00060; 0x710060;
   0x7f8060; 0x3f0060; 0x0; 0x0; 0x0; 0x0; 0x202000; 0x0;
   0x0; 0x0; 0x0; 0x3fffe0; 0x7fffe0; 0x3060e0; 0x7fffe0; 0x3fffe0;
   0x7060e0; 0x3fffe0; 0x7fffe0; 0x6000; 0x1fffff8; 0xfffff8; 0x1c76038; 0xcfeab8;
   0x1dfffb8; 0xd000b8; 0x1f03838; 0x70f838; 0x61e370; 0xe38330; 0x1d90330; 0x3980338;
   0x39fff1c; 0x30fff08; 0x7fc00; 0x0; 0x0; 0x0; 0x0; 0x202000;
   0x0; 0x0; 0x0; 0x330000; 0x7b0000; 0xe30000; 0x3fffff0; 0x3fffff0;
   0x30030; 0x1c7ffb0; 0xc6ffb0; 0xe60030; 0x667fb0; 0x7e7fb0; 0x3c61b8; 0x71c6198;
   0x31e6b98; 0x33f7f9c; 0x3f3800c; 0x1e1100c; 0x3288; 0x6073b0; 0xe8e3b0; 0x1d9c3b8;
   0x1988398; 0x39c031c; 0x1fff0c; 0x7fe00; 0x0; 0x0; 0x0; 0x0;
   0x202000; 0x0; 0x0; 0x0; 0xe0; 0xfff8e0; 0x1fff8e0; 0xc018e0;
   0x1c019e0; 0xc01be8; 0x1fffbfc; 0xeabbec; 0x1c01eec; 0xc01eec; 0x1fff8ec; 0xfff8ee;
   0xe4; 0xe0; 0x1fffce0; 0x1fffce0; 0x19dcce0; 0x1888ce0; 0x19dcce0; 0x1888ce0;
   0x19dcce0; 0x1888ce0; 0x7ffffe0; 0x3ffffe0; 0xe0; 0x0; 0x0; 0x0;
   0x0; 0x202000; 0x0; 0x0; 0x0; 0x60; 0xaaa860; 0x1fff860].
Definition hanzi_data_146 : list N :=
  [0x1bbb860; 0x1999960; 0x19999e8; 0x199997c; 0x1fffb68; 0x1fffb6c; 0x7026c; 0x6016c;
   0x3fffc6c; 0x3fffc64; 0xc060; 0x1c060; 0xaac060; 0xffc060; 0xeac060; 0xc0e060;
   0xc0e060; 0xc07060; 0xe03860; 0xf43c60; 0x7e0e60; 0x7c0460; 0x0; 0x0;
   0x0; 0x0; 0x202000; 0x0; 0x0; 0x0; 0x70060; 0x30060;
   0x1fffc60; 0x1fffc60; 0x701e0; 0x6331e8; 0x75736c; 0x3ffff6c; 0x3ffff6c; 0x60306c;
   0x70706c; 0xaaa86e; 0xfffc64; 0xeaa860; 0xc01c60; 0xc30860; 0xc71c60; 0xc30860;
   0xc71c60; 0xc30860; 0x1f9460; 0x79e060; 0x1f0fc60; 0x3803f60; 0x3000660; 0x0;
   0x0; 0x0; 0x0; 0x202000; 0x0; 0x0; 0x0; 0x70060;
   0x20060; 0xfff860; 0xfff860; 0xc71960; 0xc219e8; 0xfff9ec; 0xfffb6c; 0x7036c;
   0x3fffe6c; 0x3fffe6c; 0x6e; 0x1fff864; 0xfff860; 0x1c01860; 0xc61860; 0x1c71860;
   0xc61860; 0x1c71860; 0xc31860; 0x1cf9860; 0x3dc060; 0x1f0f860; 0x1c03e60; 0x1001e60;
   0x0; 0x0; 0x0; 0x0; 0x202000; 0x0; 0x0; 0x0;
   0x60060; 0x60060; 0x70060; 0x1fff860; 0x1fffd60; 0x18619e8; 0x1c71f7c; 0x1aebb6c;
   0x1ffff6c; 0x1871a6c; 0x1c71c6c; 0x183186c; 0x1fffc64; 0x1fff860; 0x678060; 0x678060;
   0xe7c060; 0x1b6c060; 0x1f6e060; 0x3fee060; 0x3167060; 0x2063860; 0x3561e60; 0x3fe0f60;
   0x1540660; 0x0; 0x0; 0x0; 0x0; 0x202000; 0x0; 0x0;
   0x0; 0x70070; 0x30060; 0x1fffc70; 0x1fffc60; 0x70170; 0xfff9e8; 0x1fff9fc;
   0x3036c; 0x157557c; 0x3fffe6c; 0x157d47c; 0x19e06e; 0x3d7c74; 0xffc60; 0x77dc70;
   0xe0f060; 0x1fffe70; 0x3fffe60; 0x3030470; 0x333060; 0xf33870; 0xc31c60; 0x1c30f70;
   0x383c660; 0x3c070; 0x0; 0x0; 0x0; 0x0; 0x202000; 0x0;
   0x0; 0x0; 0x18060; 0x818060; 0x1dff860; 0xfff860; 0x718160; 0x2bba9e8;
   0x3ffff78; 0x2afab68; 0xc3c37c; 0xfcf26c; 0x1ffe6c; 0x180ee6c; 0x1ffe064; 0x1ffe060;
   0x60; 0xfff860; 0xfff860; 0xc01860; 0xfff860; 0xfff860; 0xc01860; 0xc01860;
   0xfff860; 0xeab860; 0xc01860; 0x0; 0x0; 0x0; 0x0; 0x202000;
   0x0; 0x0; 0x0; 0x0; 0x1fffff0; 0x1fffff0; 0x1c030; 0x55d530;
   0xffff30; 0xe00330; 0xeaab30; 0xffff30; 0xe00330; 0xffff30; 0xffff38; 0x19c430;
   0x398e38; 0xf1c7b8; 0x1e1fbf8; 0x80f098; 0x8018; 0xe1cd98; 0xc38d98; 0x1d70ddc;
   0x3b00ccc; 0x13d5cec; 0x1ffc4e; 0xff00c; 0x0; 0x0; 0x0; 0x0;
   0x202000; 0x0; 0x0; 0x0; 0x1000060; 0x1f80060; 0x1fffc60; 0xbfc60;
   0x1830560; 0x1c319e8; 0xc71bec; 0xe63b6c; 0x66336c; 0x60306c; 0x155c06c; 0x1fff86e;
   0x1fc7c64; 0x1801860; 0x1801c60; 0x1801860; 0x1fdfc60; 0x1fdf860; 0x1801c60; 0x1801860;
   0x1801c60; 0x1aab860; 0x1fffc60; 0x1aab860; 0x1801c60; 0x0; 0x0; 0x0;
   0x0; 0x202000; 0x0; 0x0; 0x0; 0x1c0100; 0xe0380; 0xe0700;
   0x3fffffc; 0x3fffffc; 0xe0180; 0x4709c0; 0xe318e0; 0x71dc70; 0x3feff8; 0x1fc7f8;
   0x6c0b80; 0xe71de0; 0xc39870; 0x1fffffc; 0x3affbf8; 0x1401000; 0x607230; 0xe0e770;
   0xc8c338; 0x1dcc718; 0x39c0318; 0x11fff1c; 0xfff08; 0x7fc00; 0x0; 0x0;
   0x0; 0x0; 0x202000; 0x0; 0x0; 0x0; 0x701070; 0x303060;
   0x387070; 0x18e060; 0x3fffe70; 0x3fffee0; 0x1cc1fc; 0xcc1ec; 0x1ffff7c; 0xffff6c;
   0x1dcc37c; 0x2aeea6c; 0x7fffe76; 0x2aeea60; 0x1dcc070; 0xaee860; 0x1fffc70; 0x1ce060;
   0x3cf070; 0x6cf860; 0xfcdc70; 0x1ccce60; 0x79cc770; 0x30cc360; 0x1cc070; 0x0;
   0x0; 0x0; 0x0; 0x202000; 0x0; 0x0; 0x0; 0x306060;
   0x306060; 0x7fffe60; 0x3fffe60; 0x306160; 0x3361e8; 0x701ec; 0x3ffff6c; 0x3ffff6c;
   0x3b6c; 0x386c; 0x386c; 0x1fff864; 0x1fff860; 0x60; 0x633060; 0x673060;
   0x633060; 0x673060; 0x633860; 0x2671860; 0x2631860; 0x3671c60; 0x3e30f60; 0x1c70660;
   0x0; 0x0; 0x0; 0x0; 0x202000; 0x0; 0x0; 0x0;
   0xe0060; 0x60060; 0x3fffc60; 0x3fffc60; 0x1575560; 0x303e8; 0xfff36c; 0xfff36c;
   0xc0376c; 0xfff26c; 0xfff26c; 0xc0306c; 0xfff064; 0xeab060; 0xc03060; 0xfff060;
   0xd57060; 0xc03060; 0x7fffe60; 0x7fffe60; 0x70c060; 0xf0f060; 0x1c07c60; 0x3801e60;
   0x1000460; 0x0; 0x0; 0x0; 0x0; 0x202000; 0x0; 0x0;
   0x0; 0x60; 0x3fffe60; 0x3fffe60; 0x601860; 0x7ff9e0; 0x7ff9e8; 0x70196c;
   0x7ffb6c; 0x7ffb6c; 0x2e0186c; 0x3ffff6c; 0x6ffe66; 0x700064; 0x1fefe60; 0x1ffff60;
   0x18cc060; 0x18cc260; 0xc8ee60; 0xd87c60; 0x783860; 0x707860; 0xf8fc60; 0x1dece60;
   0x38f07e0; 0x3030160; 0x0; 0x0; 0x0; 0x0; 0x202000; 0x0;
   0x0; 0x0; 0x60700; 0x60600; 0x3fffffc; 0x3fffffc; 0x60700; 0x7fffe0;
   0x7fffe0; 0x6000e0; 0x7fffe0; 0x7fffe0; 0x7000e0; 0x7fffe0; 0x7fffe0; 0xe00;
   0x3fffffc; 0x3fffffc; 0x1c3bc0; 0x3839e0; 0x1f63978; 0x3ccfbbe; 0x11df9cc; 0x39b8c0;
   0x71b8f0; 0x213e60; 0x1e00; 0x0; 0x0; 0x0; 0x0; 0x202000;
   0x0; 0x0; 0x0; 0x0; 0x1fffff0; 0x1fffff0; 0xc1830; 0xffffb0;
   0xffffb0; 0xc7830; 0x6030; 0x1fffff0; 0x3830; 0x7ffc30; 0x7fff30; 0x701ff0;
   0x6aacb0; 0x7ffc30; 0x30; 0x1fffff0; 0x1fffff0; 0x607310; 0xe0e3b0; 0x1d9c3b0;
   0x19883b8; 0x39c039c; 0x1fff0c; 0x7fc00; 0x0; 0x0; 0x0; 0x0;
   0x202000; 0x0; 0x0; 0x0; 0x60; 0xfff860; 0x1fff860; 0xc01860;
   0x1fff960; 0xc019e8; 0x1d55b6c; 0xfffb6c; 0x36c; 0x3fffc6c; 0x3fffc6c; 0x398cc66;
   0x398cc64; 0x3fffc60; 0x3fffc60; 0x800060; 0x1fffe60; 0xfffe60; 0xf07060; 0x78e060].
Definition hanzi_data_147 : list N :=
  [0x1fc060; 0xf8060; 0x1fffc60; 0x3f0fe60; 0x3c01e60; 0x0; 0x0; 0x0;
   0x0; 0x202000; 0x0; 0x0; 0x0; 0x180070; 0x1b0460; 0x1b0670;
   0x2bb8c60; 0x3ff9df0; 0x2bb99e8; 0x18d9fc; 0x1883ec; 0x7ffc37c; 0x3ffc16c; 0x5555f7c;
   0x1e66; 0x1ff9d74; 0x1ff9860; 0x1839870; 0x1839860; 0x1839870; 0x1839860; 0x1ff9870;
   0x1ff9860; 0x183fc70; 0xee60; 0x7ffc770; 0x3ff8260; 0x70; 0x0; 0x0;
   0x0; 0x0; 0x202000; 0x0; 0x0; 0x0; 0x1c0180; 0xba8ba8;
   0x1ffdffc; 0x180180; 0x1ff9ff8; 0x1ff8ff8; 0x15d55d4; 0x3ffdffc; 0x15d55d4; 0x180180;
   0x7ffff0; 0x6aaaa0; 0x600000; 0x7fffe0; 0x755540; 0x600000; 0x7ffff0; 0x2aaaa0;
   0x407310; 0xe0e330; 0x1d9c330; 0x1988338; 0x39d571c; 0x30fff18; 0x7fc00; 0x0;
   0x0; 0x0; 0x0; 0x202000; 0x0; 0x0; 0x0; 0x70;
   0x2aa0060; 0x3fefe70; 0x3feee60; 0x60c6f0; 0x6cc6e8; 0x6cfffc; 0x6cffec; 0x64c7fc;
   0x66c7ec; 0x66c77c; 0x3fefe6e; 0x3fefe74; 0x300660; 0x704670; 0x786660; 0x78c670;
   0x78c660; 0x7df670; 0x26fbe60; 0x6679e70; 0x2630660; 0x3638270; 0x3e1c060; 0x1c0c070;
   0x0; 0x0; 0x0; 0x0; 0x202000; 0x0; 0x0; 0x0;
   0x306060; 0x306060; 0x1757460; 0x3fffe60; 0x1757560; 0x3061e8; 0x3fe36c; 0x3fe368;
   0x157536c; 0x1fffa6c; 0x1d7586c; 0x1c61864; 0x1d75864; 0x1fff860; 0x1575060; 0x60060;
   0x3fffc60; 0x2aea860; 0x70060; 0x1fff860; 0x1fffc60; 0x60060; 0x7fffe60; 0x3fffe60;
   0x5555460; 0x0; 0x0; 0x0; 0x0; 0x202000; 0x0; 0x0;
   0x0; 0x1c0380; 0xf80380; 0x1dc57d4; 0x3987ffc; 0x11c7ffc; 0x2bab398; 0x3ffdbb0;
   0x2be9bb0; 0x1c7ffc; 0x3c7ffc; 0x3c07c0; 0x6e0fc0; 0x671fe0; 0xe3bbb0; 0x1c3f3bc;
   0x381e38c; 0x100f384; 0x407000; 0xe0e3f0; 0xc1c3b0; 0x1d9c3b8; 0x3988398; 0x39d571c;
   0x1fff08; 0x7fc00; 0x0; 0x0; 0x0; 0x0; 0x202000; 0x0;
   0x0; 0x0; 0x600000; 0x603ff8; 0x607ff8; 0x602038; 0x3fffff8; 0x3ffbff8;
   0x3ff8038; 0x603ff8; 0x673fd8; 0x660018; 0x6efff8; 0x6c2eb8; 0x7c36d8; 0x6066d8;
   0x60667c; 0x7c46ee; 0x7c0784; 0x3280; 0x60f3b0; 0xe0c3b0; 0x1d9c3b8; 0x1980398;
   0x39d571c; 0xfff08; 0x55400; 0x0; 0x0; 0x0; 0x0; 0x202000;
   0x0; 0x0; 0x0; 0x70060; 0x60060; 0x60060; 0x3fffc60; 0x3fffd60;
   0xe0de8; 0x1ffedec; 0x8e0f6c; 0x7ffff6c; 0x3ffff6c; 0x1ce0c6c; 0xaeac64; 0x1ffec64;
   0xe0c60; 0x1fffc60; 0x1fffc60; 0x18e3c60; 0x1fffe60; 0x1df7660; 0x18e3660; 0x1fff760;
   0x18e3360; 0x18e3360; 0x1ee33e0; 0x1e43160; 0x0; 0x0; 0x0; 0x0;
   0x202000; 0x0; 0x0; 0x0; 0x70070; 0x70060; 0x1575470; 0x3fffc60;
   0x15f5c70; 0xe0cec; 0x1ffedfc; 0xffedec; 0x1860d7c; 0x2aeaf6c; 0x3fffd74; 0x2860c64;
   0x1860c74; 0xffec60; 0x1ffec70; 0x62c60; 0x3ce7c70; 0xeeee60; 0x7ec670; 0x378660;
   0xf7f670; 0x3c67e60; 0x3861770; 0x2078360; 0x78170; 0x0; 0x0; 0x0;
   0x0; 0x202000; 0x0; 0x0; 0x0; 0x41300; 0xe3318; 0x63b70;
   0x2ae1b60; 0x3ff0b60; 0x2eb3ff8; 0xc3fff8; 0xe7a318; 0x67ff58; 0x6eab58; 0x7c7f78;
   0x382b78; 0x7c7378; 0xee2318; 0x3c7ff18; 0x383bb18; 0x7010; 0x20f200; 0x71c370;
   0xe98330; 0x1d80330; 0x3980338; 0x31fff1c; 0x1fff08; 0x55400; 0x0; 0x0;
   0x0; 0x0; 0x202000; 0x0; 0x0; 0x0; 0x707060; 0x70e060;
   0x30e060; 0xbae860; 0x1fffd60; 0x1820de8; 0x1f77dec; 0x1b26f6c; 0x19fcf6c; 0x18acf6c;
   0x1870d6c; 0x1fffc66; 0x1555466; 0x60; 0xfff860; 0xfff860; 0xc03860; 0xc03860;
   0xfff860; 0xeab860; 0xc03860; 0xeab860; 0xfff860; 0xc03860; 0xc03860; 0x0;
   0x0; 0x0; 0x0; 0x202000; 0x0; 0x0; 0x0; 0x46060;
   0xe6060; 0x1c7060; 0x1c3060; 0x3fff1e0; 0x3fff9e8; 0x15d7f6c; 0xc3f6c; 0x1ffff6c;
   0x1ffff6c; 0x1c3f6c; 0xc3a6e; 0x3fff864; 0x3fff860; 0x1c3860; 0xc3860; 0x3fff860;
   0x3fff860; 0x3860; 0xcd9860; 0x1ddd860; 0x3999860; 0x3198c60; 0x3318e60; 0x3118660;
   0x0; 0x0; 0x0; 0x0; 0x202000; 0x0; 0x0; 0x0;
   0xc0060; 0x8dfc60; 0xfdfc60; 0x798060; 0x139dd60; 0x3b8fde8; 0x1f0736c; 0xeaf36c;
   0x1fffb6c; 0x3ca9c6c; 0x7800f6c; 0x2fffe6e; 0xfff864; 0xe03860; 0xe03860; 0xe03860;
   0xfff860; 0xfff860; 0x706060; 0x306060; 0x386060; 0x18e060; 0x3fffe60; 0x3fffe60;
   0x60; 0x0; 0x0; 0x0; 0x0; 0x202000; 0x0; 0x0;
   0x0; 0x6000; 0xaaeaa8; 0x1fffffc; 0x6000; 0xffffe0; 0xffffe0; 0x7fffc0;
   0x3fffc0; 0x7000c0; 0x3fffc0; 0x575740; 0x60600; 0x3fffffc; 0x2aaaaa8; 0x7fffe0;
   0x7fffe0; 0x6000e0; 0x7fffe0; 0x7fffe0; 0x20fa20; 0xf5e760; 0x1ec8670; 0x3cc073c;
   0x30ffe1c; 0x107fc00; 0x0; 0x0; 0x0; 0x0; 0x202000; 0x0;
   0x0; 0x0; 0x60180; 0x60380; 0x77ffc; 0x2ab2aa8; 0x3ff1ff8; 0x2eb9ff8;
   0xe3d838; 0xe3dff8; 0x77f550; 0x365ff8; 0x3e3ff8; 0x1c0f80; 0x3c7ff4; 0x7e3ffc;
   0xf78194; 0x3c3e180; 0x380c1f0; 0x20a0; 0x607330; 0xe0c330; 0x1d9c338; 0x1988318;
   0x39d571c; 0x1fff08; 0x7fc00; 0x0; 0x0; 0x0; 0x0; 0x202000;
   0x0; 0x0; 0x0; 0x30060; 0x70060; 0x1fffc60; 0x1fffc60; 0x7071e0;
   0x3061e8; 0x17df5ec; 0x3ffffec; 0x555576c; 0x36c; 0x1fffc6c; 0x182186e; 0x1c71c64;
   0x1fff860; 0x1d75c60; 0x1821860; 0x1fffc60; 0x1fff860; 0x70060; 0x1fffc60; 0x1fffc60;
   0x60060; 0x7ffff60; 0x3fffe60; 0x60; 0x0; 0x0; 0x0; 0x0;
   0x202000; 0x0; 0x0; 0x0; 0x60000; 0x61ff8; 0x71ff8; 0x2ab0e00].
Definition hanzi_data_148 : list N :=
  [0x7ff5754; 0x2ebbffc; 0xc3dd7c; 0xc3d838; 0xe7fff8; 0x665838; 0x7e1ff8; 0x3c1ff8;
   0x3c1c38; 0x7e3e38; 0x1e7fffc; 0x3c3d8fc; 0x340fc00; 0x6073b0; 0xe0e3b0; 0xc8c3b8;
   0x1d9c398; 0x3988398; 0x19fff9c; 0xfff08; 0x7fe00; 0x0; 0x0; 0x0;
   0x0; 0x202000; 0x0; 0x0; 0x0; 0x1c0000; 0x1c1f80; 0x15d1ffc;
   0x1ff81b8; 0x1ffc180; 0x181bffc; 0x1fffffc; 0x1ff8180; 0x181c180; 0x1819ff8; 0x1ffdff8;
   0x1ff9818; 0x181d818; 0x1ab9818; 0x1ffdff8; 0x1ab8ab8; 0x101fc18; 0x207800; 0x71e760;
   0xe08370; 0x1d80730; 0x3980338; 0x71d571c; 0x20ffe0c; 0x7fc00; 0x0; 0x0;
   0x0; 0x0; 0x202000; 0x0; 0x0; 0x0; 0x60; 0xfff860;
   0x1fff860; 0xc01860; 0x1fff960; 0xfffbe8; 0x1c01b7c; 0xfffb68; 0x1ffff6c; 0x3026c;
   0x3fffe6c; 0x3fffe6e; 0x64; 0xfff860; 0xfff860; 0xc01860; 0xc01860; 0xfff860;
   0xfff860; 0x272060; 0x777060; 0xe73860; 0x1c71e60; 0x387cf60; 0x103c060; 0x0;
   0x0; 0x0; 0x0; 0x202000; 0x0; 0x0; 0x0; 0x30070;
   0x38060; 0x18070; 0x3fffe60; 0x7fffff0; 0x118c9e8; 0x3b8fdfc; 0xf07b6c; 0x70737c;
   0xfffb6c; 0x7fffe7c; 0x3e03f66; 0x27ff674; 0x7ff060; 0x603070; 0x603060; 0x7ff070;
   0x2ea060; 0x671070; 0xe63860; 0x1c71c70; 0x1860c60; 0x3870f70; 0x107e660; 0x3c070;
   0x0; 0x0; 0x0; 0x0; 0x202000; 0x0; 0x0; 0x0;
   0x707070; 0x206060; 0x707070; 0x3fdfc60; 0x3fdfdf0; 0xf071e8; 0x1f8f9fc; 0x1b9f9ec;
   0x37d7f7c; 0x32e6e6c; 0x76747c; 0x20206e; 0x3fffc74; 0x3fffc60; 0x1870070; 0x1863060;
   0x873070; 0xfe3860; 0xff3870; 0x63860; 0x77c70; 0x6ec60; 0x7ffce70; 0x3ff8660;
   0x1540670; 0x0; 0x0; 0x0; 0x0; 0x202000; 0x0; 0x0;
   0x0; 0xc070; 0x2ae060; 0x7ff070; 0x383860; 0x181df0; 0x3ffffe8; 0x7fffffc;
   0x6309ec; 0x1c1dd7c; 0x38ceb6c; 0x11c7c7c; 0x3ffe864; 0x7fffc74; 0x860; 0x1ffdc70;
   0xc60; 0x1ffdc70; 0x1ffcc60; 0xc70; 0x1ffec60; 0x1d5ec70; 0x180e660; 0x1ffe670;
   0x1ffe760; 0x180e270; 0x0; 0x0; 0x0; 0x0; 0x202000; 0x0;
   0x0; 0x0; 0x5c0070; 0xf80060; 0x1d80070; 0x3fffc60; 0x3fffd70; 0x180de8;
   0x19d5dfc; 0x19ffdec; 0x1d80f7c; 0xf2af6c; 0xf7fc7c; 0x722c66; 0x2763c74; 0x6722e60;
   0x67ff670; 0x3dea660; 0x3c90770; 0x83a060; 0xc73670; 0x18e3660; 0x1b43670; 0x3303360;
   0x7357370; 0x3ff260; 0x1fc070; 0x0; 0x0; 0x0; 0x0; 0x202000;
   0x0; 0x0; 0x0; 0x70e060; 0x30e060; 0x7fffc60; 0x3fffc60; 0x70e160;
   0x1fe83e8; 0x1fffb7c; 0x6036c; 0x7ffff6c; 0x3fffe6c; 0x6006c; 0x1fff86e; 0x1d75864;
   0x1861860; 0x1fff860; 0x1861860; 0x1d75860; 0x1fff860; 0x60060; 0x2aea860; 0x3fffc60;
   0x60060; 0x7fffe60; 0x3fffe60; 0x60; 0x0; 0x0; 0x0; 0x0;
   0x202000; 0x0; 0x0; 0x0; 0x1830; 0x3fe1830; 0x3fefc30; 0x331fc30;
   0x330ce70; 0x318e6f8; 0x31877fc; 0x3adfebc; 0x1cfffbc; 0x5b7bc; 0x79b63c; 0x69b634;
   0x3fdfe34; 0x3fdbe30; 0x17db630; 0x67b630; 0x65f630; 0x3fdfe30; 0x7fdfe30; 0x61b230;
   0x61b730; 0x61b330; 0x61b330; 0x61f3b0; 0x61c130; 0x0; 0x0; 0x0;
   0x0; 0x202000; 0x0; 0x0; 0x0; 0x70060; 0x38060; 0x1fffc60;
   0x1fffc60; 0x1d55d60; 0x1b66de8; 0x1b6ddec; 0x19ecf6c; 0x1d7df6c; 0x1ffef6c; 0x1d75d6c;
   0x19f8c6e; 0x1b6dc64; 0x1a66c60; 0x1847c60; 0x1860c60; 0x70060; 0x3fffe60; 0x3fffe60;
   0xf8060; 0x1dc060; 0x38e060; 0x1f07c60; 0x3e03e60; 0x3000660; 0x0; 0x0;
   0x0; 0x0; 0x202000; 0x0; 0x0; 0x0; 0x700060; 0x63fe60;
   0x71fe60; 0x60c860; 0x3fc7dfc; 0x3fc71fc; 0x77fe70; 0xf3fef0; 0xfb71f0; 0xfb7bf8;
   0x1fd7d78; 0x1ee6e78; 0x376676c; 0x367636c; 0x2727964; 0x603860; 0x703060; 0x207800;
   0x71e760; 0xe38670; 0x1dd0770; 0x3980638; 0x71fff1c; 0x30ffe08; 0x7fc00; 0x0;
   0x0; 0x0; 0x0; 0x202000; 0x0; 0x0; 0x0; 0x386010;
   0x386038; 0x3fffff0; 0x3fffee0; 0x386000; 0x2aaaa00; 0x3ffff1c; 0x18c078; 0x1c4070;
   0x1fffe00; 0x1dd7640; 0x18ce6e0; 0x19df670; 0x1bfb630; 0x1e73e38; 0x1831e18; 0x1f3061c;
   0xe02608; 0x40f420; 0xe3c660; 0x1d90770; 0x1980630; 0x39d5738; 0x31ffe1c; 0x7fc00;
   0x0; 0x0; 0x0; 0x0; 0x202000; 0x0; 0x0; 0x0;
   0x303070; 0x183030; 0x1f83070; 0x1f9fe30; 0x1cdfff0; 0xce30f8; 0xc631fc; 0x3febbbc;
   0x3fdfffc; 0x30db2bc; 0x36db67c; 0x36db23c; 0x36db674; 0x36dfe30; 0x36dfe70; 0x36c3830;
   0x36c7c70; 0x32cfc30; 0x33df670; 0x31b630; 0xf03770; 0x1d83330; 0x39c3170; 0x30f3030;
   0x1063070; 0x0; 0x0; 0x0; 0x0; 0x202000; 0x0; 0x0;
   0x0; 0x38070; 0x38060; 0x3ffff70; 0x3fffe60; 0x70; 0x1fffce8; 0x1fffdfc;
   0x18aadec; 0x1dfef7c; 0x1986f6c; 0x1dfed7c; 0x1800c6e; 0x1fffc74; 0xaaa860; 0xfffc70;
   0xfff860; 0x70; 0x3fffe60; 0x3ffff70; 0x231060; 0x773870; 0x1e31c60; 0x3870f70;
   0x303e360; 0x3e070; 0x0; 0x0; 0x0; 0x0; 0x202000; 0x0;
   0x0; 0x0; 0x70; 0x1fff860; 0x1fffc70; 0x60060; 0x3fffd70; 0x3fffde8;
   0x3060dfc; 0x3fefdec; 0x3fefd7c; 0x6036c; 0x1fef97c; 0x6006c; 0x1555474; 0x3fffc60;
   0x1575470; 0x38060; 0x3fffc70; 0x3fff860; 0x3999c70; 0x3999860; 0x3999c70; 0x3999860;
   0x3999c70; 0x3f99860; 0x1d99c70; 0x0; 0x0; 0x0; 0x0; 0x202000;
   0x0; 0x0; 0x0; 0x70c060; 0x30c060; 0x7fffc60; 0x3fffc60; 0x70c160;
   0x3fff9e8; 0x3fffdfc; 0x3198b68; 0x35ddf6c; 0x3fffb6c; 0x6c; 0x3fffc6c; 0x7fffc64;
   0x3000c60; 0x7fffc60; 0x2fff860; 0xc03060; 0xfff060; 0xfff060; 0xc03060; 0xfff060].
Definition hanzi_data_149 : list N :=
  [0xc03060; 0xfff060; 0xfff060; 0xc03060; 0x0; 0x0; 0x0; 0x0;
   0x202000; 0x0; 0x0; 0x0; 0x1c01c0; 0xc0080; 0xc7ffc; 0x3fefffc;
   0x3fec1c0; 0x386cff8; 0x1b7cff8; 0x1b30000; 0x309ffc; 0x389ffc; 0x78d80c; 0x6cfffc;
   0xee7550; 0x1c73ff8; 0x787eff8; 0x3098c18; 0x1c0ff8; 0x9b0ff8; 0x1fb6610; 0x1b36630;
   0x3836770; 0x3c36fa0; 0x7c37ffc; 0xff203c; 0x7f0000; 0x0; 0x0; 0x0;
   0x0; 0x202000; 0x0; 0x0; 0x0; 0xc00c0; 0x1fe0180; 0x1ffbffc;
   0xeffffc; 0x7c0670; 0x7efaee8; 0x3fffffc; 0xff0000; 0x181ff8; 0x3ffd818; 0x1555ff8;
   0x1ff9ab8; 0x1d59ff8; 0x1999ff8; 0x1998180; 0x189bffc; 0x1ed95d4; 0x1ef0180; 0x383f900;
   0xe0f3b0; 0xd8e3b0; 0x1d843b8; 0x19fff1c; 0x39fff0c; 0x55400; 0x0; 0x0;
   0x0; 0x0; 0x202000; 0x0; 0x0; 0x0; 0x11c00; 0x70c00;
   0x1f1c00; 0x3c1c00; 0x301c00; 0x2001c00; 0x3ffdc00; 0x3fffffc; 0x5fffc; 0x40382c;
   0xe03800; 0x703800; 0x783000; 0x383000; 0x1e7000; 0xf6000; 0x7e000; 0x3e000;
   0x101f000; 0x303fc00; 0x3079f00; 0x38f0fc0; 0x3ff03f8; 0x1fc00f8; 0x1f00010; 0x0;
   0x0; 0x0; 0x0; 0x202000; 0x0; 0x0; 0x0; 0x18c000;
   0x3cc000; 0x70c000; 0xe0c000; 0xc1c000; 0x3fffff0; 0x3fffff0; 0x2abaab0; 0x1c070;
   0x418030; 0x1c18070; 0xe18030; 0x718070; 0x738030; 0x3b8070; 0x1b0030; 0x1f0030;
   0xf0030; 0x1070030; 0x60f8038; 0x70fe018; 0x31cf818; 0x3787c1c; 0x3f00e0e; 0x1e0060c;
   0x0; 0x0; 0x0; 0x0; 0x202000; 0x0; 0x0; 0x0;
   0x11800; 0x7b800; 0x1f1800; 0x3c3800; 0x103800; 0xfeb800; 0xfffff8; 0x3fff8;
   0x3050; 0x3000; 0x3d07000; 0x3fffa00; 0x3fffffc; 0x6ffc; 0xe06004; 0x70e000;
   0x38c000; 0x1fc000; 0x10fc000; 0x303c000; 0x707f000; 0x30f7e00; 0x3fe1ff0; 0x3f803e0;
   0x1f00060; 0x0; 0x0; 0x0; 0x0; 0x202000; 0x0; 0x0;
   0x0; 0x118000; 0x398000; 0xf18000; 0x1e38000; 0x838000; 0x3fffff0; 0x3fffff0;
   0x38030; 0x30070; 0x1c30030; 0x1c30070; 0xe30030; 0xe70070; 0x633ff0; 0x777ff0;
   0x3e0030; 0x1e0070; 0xe0030; 0x10f0030; 0x20f8038; 0x71fc038; 0x339e018; 0x3f8f81c;
   0x3f03c0e; 0x1c0180c; 0x0; 0x0; 0x0; 0x0; 0x202000; 0x0;
   0x0; 0x0; 0x118000; 0x398000; 0xf18000; 0xe18000; 0xc18000; 0x3fffff0;
   0x3fffff0; 0x38030; 0x38030; 0x1c38030; 0x1c30030; 0xe300f0; 0xe303f0; 0x6307b0;
   0x770f30; 0x3e1c30; 0x1f1830; 0xe0030; 0x10f0038; 0x30f8038; 0x31fc018; 0x319e018;
   0x3f8f81c; 0x3f03c0e; 0x1c0180c; 0x0; 0x0; 0x0; 0x0; 0x202000;
   0x0; 0x0; 0x0; 0x1c000; 0x398000; 0x718000; 0x1e18000; 0xc18000;
   0x3fffffc; 0x3fffffc; 0x18000; 0x18180; 0xc38180; 0xc38180; 0xe38180; 0x730180;
   0x733ffc; 0x373ffc; 0x3b0180; 0x1f0180; 0xe0180; 0x30f01c0; 0x30f80c0; 0x71fc0e0;
   0x31de060; 0x378f078; 0x3f0383c; 0x1e01018; 0x0; 0x0; 0x0; 0x0;
   0x202000; 0x0; 0x0; 0x0; 0x138000; 0x3b8000; 0xf38000; 0xe38ffc;
   0x1c38ffc; 0x38c00; 0x3430e00; 0x3ffae08; 0x1fff61c; 0x3f638; 0x1c70770; 0xc303e0;
   0xc703e0; 0xe703c0; 0x7703c0; 0x3603c0; 0x3e07c0; 0x1e0ee0; 0x11e0e70; 0x30f0c38;
   0x31f843c; 0x33bc00e; 0x3f9f00c; 0x1f06000; 0x1e00000; 0x0; 0x0; 0x0;
   0x0; 0x202000; 0x0; 0x0; 0x0; 0x198000; 0x398000; 0xf18000;
   0x1e38000; 0x1d5d550; 0x3fffff0; 0x3fffff0; 0x38030; 0x38030; 0xc38030; 0xc31ff0;
   0xe31ff0; 0x671830; 0x731830; 0x771830; 0x3e1830; 0x1e1830; 0xe1838; 0x70e1c38;
   0x30f0fb8; 0x31fcf98; 0x339e018; 0x3f8f01c; 0x3f0780e; 0x1c0100c; 0x0; 0x0;
   0x0; 0x0; 0x202000; 0x0; 0x0; 0x0; 0x39000; 0x33be00;
   0x737ff0; 0xe383fc; 0x1c30318; 0x1830300; 0x830300; 0x30300; 0x3fffffc; 0x3fffffc;
   0x70300; 0x830300; 0x1c70300; 0xe66300; 0x777f00; 0x763ff8; 0x3e03fc; 0x1e033c;
   0x10f0300; 0x20f8300; 0x71fc300; 0x338f300; 0x3787b50; 0x3f033f8; 0x1e001f0; 0x0;
   0x0; 0x0; 0x0; 0x202000; 0x0; 0x0; 0x0; 0x138000;
   0x7b8000; 0xf30000; 0x1c38000; 0x3fffffc; 0x3fffffc; 0x3fffffc; 0x30000; 0x431c60;
   0xc31860; 0xc71c60; 0xe31860; 0xe71c60; 0x66fffc; 0x77fffc; 0x361860; 0x3e1c60;
   0x1e1860; 0x31c1c70; 0x20e1830; 0x71f1c30; 0x33b9838; 0x379dc1c; 0x3f0e008; 0x1e04000;
   0x0; 0x0; 0x0; 0x0; 0x202000; 0x0; 0x0; 0x0;
   0x118700; 0x398318; 0x718718; 0xe18318; 0x1c18718; 0x838318; 0x18718; 0x3ff8318;
   0x3fffff8; 0xbfbf8; 0x1c38700; 0xc38300; 0xe30700; 0x6303a8; 0x7707fc; 0x3f03fc;
   0x1f0718; 0xe0318; 0x10f0718; 0x20f8318; 0x71fc718; 0x31ce318; 0x3787f1c; 0x3f0330e;
   0x1e01704; 0x0; 0x0; 0x0; 0x0; 0x202000; 0x0; 0x0;
   0x0; 0x138000; 0x7b8000; 0x1f38000; 0x1c38000; 0x3fffffc; 0x3fffffc; 0x3fffffc;
   0x38000; 0x1c31550; 0xc31ff0; 0xc31ff0; 0xe31830; 0x671830; 0x771830; 0x771830;
   0x3e1ff0; 0x1e1ff0; 0xe0000; 0x30e0000; 0x30f3e00; 0x71ffff0; 0x339e3fc; 0x378f01c;
   0x3f07800; 0x1e01000; 0x0; 0x0; 0x0; 0x0; 0x202000; 0x0;
   0x0; 0x0; 0xe0100; 0x4e0380; 0x6e0380; 0xce07c0; 0x1cc07c0; 0x18c0ee0;
   0xc1c70; 0x3ec3838; 0x3fff03c; 0x3fb01e; 0xc1ffc; 0x18c1ff0; 0x1dc1c30; 0xcc1830;
   0xdc1c30; 0xf80c30; 0x781c30; 0x380fb0; 0x13807b0; 0x23c3030; 0x73e3030; 0x37f3030;
   0x3f7fd70; 0x3e39ff0; 0x1c01fc0; 0x0; 0x0; 0x0; 0x0; 0x202000;
   0x0; 0x0; 0x0; 0xe0180; 0x6e0180; 0xee0180; 0xce0180; 0x1cc0180].
Definition hanzi_data_150 : list N :=
  [0x18c3f80; 0xc7f80; 0x38c0180; 0x3ff4180; 0x3fc180; 0x10dc180; 0x38c0180; 0x19c3ffc;
   0x1983ff8; 0x1dc301c; 0xf83018; 0x78301c; 0x783018; 0x38301c; 0x63c3018; 0x63e301c;
   0x27f3ff8; 0x3e7fffc; 0x3e1b018; 0x1c01014; 0x0; 0x0; 0x0; 0x0;
   0x202000; 0x0; 0x0; 0x0; 0x760000; 0xf60000; 0x1c60000; 0x1860000;
   0x3fffff0; 0x3fffff0; 0x60430; 0x60c30; 0x61c30; 0x18efc30; 0x1cefc30; 0xce0c30;
   0xcc1c30; 0xedfff8; 0x6dfff0; 0x6c0c38; 0x7c7db8; 0x3ccdb8; 0x21dddd8; 0x61d8cd8;
   0x73e9cfc; 0x2370c1c; 0x377dc1c; 0x3e1cf0e; 0x1c0c704; 0x0; 0x0; 0x0;
   0x0; 0x202000; 0x0; 0x0; 0x0; 0x0; 0x2aaaaa8; 0x3fffffc;
   0x2aaeaa8; 0x557540; 0x7fffe0; 0x600060; 0x7fffe0; 0x7fffe0; 0x600060; 0x7fffe0;
   0x7fffe0; 0x600060; 0x7fffe0; 0x575d40; 0xe0c00; 0x3ffff50; 0x3fffffc; 0x703d7c;
   0x3c7000; 0x11fe000; 0x203e000; 0x71fffc0; 0x3fe0ff8; 0x1f80078; 0x0; 0x0;
   0x0; 0x0; 0x202000; 0x0; 0x0; 0x0; 0x60380; 0x660380;
   0xe60380; 0x1c67ffc; 0x3867ffc; 0x18e0380; 0xe0380; 0x3fe3ff8; 0x7fffff8; 0xff018;
   0x10c3558; 0x38c3ff8; 0x1cc3558; 0xcc3018; 0xdc3ff8; 0xfc3ff8; 0x7c17d0; 0x380380;
   0x23c7ffe; 0x63e7ffe; 0x67f57d4; 0x2778380; 0x7f3c380; 0x3e0e380; 0x1c04380; 0x0;
   0x0; 0x0; 0x0; 0x202000; 0x0; 0x0; 0x0; 0xe1830;
   0x6e1830; 0xee1830; 0xce7ffc; 0x1cc7ffc; 0x18c1830; 0xc1ff0; 0x3ec1ff0; 0x3ffd830;
   0x3f9830; 0xc1ff0; 0x18c1ff0; 0x19c1830; 0x18c1830; 0xdcfffc; 0xf8fffe; 0x781d18;
   0x381b98; 0x3831d8; 0x63c30d8; 0x73e10d8; 0x27f7ff8; 0x3e7fff8; 0x3e18000; 0x1c00000;
   0x0; 0x0; 0x0; 0x0; 0x202000; 0x0; 0x0; 0x0;
   0x70000; 0x263ff8; 0x773ff8; 0xe63018; 0x1c63018; 0x1c63ff8; 0x863ff8; 0x60000;
   0x3fffffc; 0x3fffffc; 0xe1838; 0x8e1838; 0x1ce1ff8; 0xce1ff8; 0xcc1838; 0xec1838;
   0x7c1ff8; 0x3c1ab8; 0x13c1838; 0x23c7eb8; 0x33e7ffc; 0x33f1afc; 0x3f79804; 0x1e19800;
   0x1c09800; 0x0; 0x0; 0x0; 0x0; 0x202000; 0x0; 0x0;
   0x0; 0xc0000; 0x4e67fc; 0xec77fc; 0xcc3d80; 0x1cc9dcc; 0x38dd8dc; 0xcf8f8;
   0x3ac3860; 0x3ffb070; 0xff3038; 0x11d7ffc; 0x38c7fec; 0x19c0304; 0x1980300; 0xdc0300;
   0xf8fffc; 0x78fffc; 0x780380; 0x2380780; 0x63c0f80; 0x67e3dc0; 0x66f38e0; 0x7e7f078;
   0x3e1c03c; 0x1c08018; 0x0; 0x0; 0x0; 0x0; 0x202000; 0x0;
   0x0; 0x0; 0x4c0000; 0x6c0ffc; 0xcc0ffc; 0x1cc0c20; 0x18cfc70; 0x38cfe20;
   0xcc570; 0x3eccff0; 0x7ffcd70; 0xfeeb0; 0x19ce7f8; 0x188e398; 0x19c6f9c; 0x1d87dee;
   0xd87864; 0xf87ff8; 0x787ff8; 0x386498; 0x3864d8; 0x2386498; 0x77c64d8; 0x36efc98;
   0x3e7fffc; 0x3e38ffc; 0x1c1001c; 0x0; 0x0; 0x0; 0x0; 0x202000;
   0x0; 0x0; 0x0; 0xc0000; 0xc7ff8; 0x6c7ff8; 0xcc6018; 0x1cc7558;
   0x38c7ff8; 0xc7558; 0x3ac6018; 0x3fffff8; 0xfffff8; 0x11d0700; 0x38c0230; 0x19c0730;
   0x1987ff8; 0x1dc7ff8; 0xf8020c; 0x78070e; 0x787ff0; 0x2387ff0; 0x6380200; 0x77c0700;
   0x36f6a00; 0x3e7fffc; 0x3e38bf8; 0x1c00004; 0x0; 0x0; 0x0; 0x0;
   0x202000; 0x0; 0x0; 0x0; 0x70300; 0x360300; 0xf75750; 0x1c67ff8;
   0x1c77ff8; 0x860300; 0x1575754; 0x3fffffc; 0x3fffffc; 0x606e0; 0x1c60e60; 0x1c6fff0;
   0xc6fff0; 0xee0c38; 0x6e5d7c; 0x6e7ffc; 0x7c0c30; 0x3c0c30; 0x11c7ff0; 0x31c2eb0;
   0x31e0c30; 0x33ffff0; 0x3f7fff0; 0x3e1c030; 0x1c08010; 0x0; 0x0; 0x0;
   0x0; 0x202000; 0x0; 0x0; 0x0; 0xc0000; 0x4cfffc; 0xecfffc;
   0xcc0cc0; 0x1cccccc; 0x18ceccc; 0xc6cd8; 0x3ec6cd8; 0x3ff7cf0; 0x3f2cc0; 0x1cfffc;
   0x39cfffc; 0x19c0000; 0x1980000; 0x1d87ff8; 0xd86ab8; 0xf87018; 0x786ab8; 0x707ff8;
   0x2386ab8; 0x77c7018; 0x36e6ab8; 0x3e7fff8; 0x3e36018; 0x1c07018; 0x0; 0x0;
   0x0; 0x0; 0x202000; 0x0; 0x0; 0x0; 0xc0180; 0x4e0380;
   0xec5754; 0xccfffc; 0x1ccfffc; 0x18cc00c; 0xcfffc; 0x3fc3ff0; 0x7ff8300; 0xf8300;
   0x11c7ff8; 0x38c7ff8; 0x19c6318; 0x1986318; 0x1dc7ff8; 0xf87ff8; 0x786318; 0x786318;
   0x387ff8; 0x2382aa8; 0x77c1cc0; 0x37e18e0; 0x3f77078; 0x3e3e03e; 0x1c1201c; 0x0;
   0x0; 0x0; 0x0; 0x202000; 0x0; 0x0; 0x0; 0x1c0000;
   0x78fefc; 0xfcfffc; 0xd8c488; 0x19cdddc; 0x398d8b0; 0x18f1e0; 0x3f8fcf8; 0x7ffdfdc;
   0x1fc088; 0x1184700; 0x3180f80; 0x3983ef0; 0x1b8fa3c; 0x1f8e71c; 0xf083c0; 0xf01cfc;
   0x700e38; 0x7067c0; 0x23871f8; 0x67c3c78; 0x26e0f00; 0x3e787f0; 0x3c380fc; 0x181001c;
   0x0; 0x0; 0x0; 0x0; 0x202000; 0x0; 0x0; 0x0;
   0x1c0000; 0x6cfffc; 0xdcfffc; 0x1d8c588; 0x19cdddc; 0x198d9b0; 0x1cf1f0; 0x3f8fff8;
   0x7ffcfdc; 0x3fc1a0; 0x1180660; 0x3980e60; 0x198fff0; 0x198aeb8; 0x1d80e3c; 0xf87ffe;
   0x787ffc; 0x700e30; 0x387ff0; 0x6387ff0; 0x77c0e30; 0x36eaeb0; 0x3e7fff0; 0x3c38030;
   0x1810010; 0x0; 0x0; 0x0; 0x0; 0x202000; 0x0; 0x0;
   0x0; 0x70700; 0x3e0300; 0x77fff8; 0xe6fff8; 0xc60700; 0x2aeaba8; 0x3fffffc;
   0x2aeaaa8; 0x6fff8; 0xc6fff8; 0x1c6c718; 0xcefff8; 0xced758; 0xecebb8; 0x6cfff8;
   0x6c18c0; 0x7cfffc; 0x3cfff8; 0x3c18c0; 0x19fffc; 0x73d5554; 0x33e0ce0; 0x3773c70;
   0x3e3b038; 0x1c11018; 0x0; 0x0; 0x0; 0x0; 0x202000; 0x0;
   0x0; 0x0; 0x7000; 0x6000; 0xe000; 0xe000; 0x7fffe0; 0x7fffe0;
   0x755560; 0x600060; 0x600060; 0x600060; 0x600060; 0x6aaae0; 0x7fffe0; 0x7fffe0;
   0x600060; 0x200060; 0x70; 0x70; 0x70; 0x30; 0x38; 0x38].
Definition hanzi_data_151 : list N :=
  [0x1c; 0xe; 0xc; 0x0; 0x0; 0x0; 0x0; 0x202000;
   0x0; 0x0; 0x0; 0x7000; 0x6000; 0x55f550; 0xfffff0; 0xfffff0;
   0xc00030; 0xc00070; 0xc00030; 0xfffff0; 0xfffff0; 0x1c0070; 0x183830; 0x1c7870;
   0x19e030; 0x1dc130; 0x180fb0; 0x1c1e30; 0x2183838; 0x3ff5018; 0x3ffff98; 0x1dffdc;
   0x1800dc; 0x1c000c; 0x180008; 0x1c0000; 0x0; 0x0; 0x0; 0x0;
   0x202000; 0x0; 0x0; 0x0; 0x7000; 0xe000; 0x55f550; 0xfffff0;
   0xfffff0; 0xc00070; 0xc00070; 0xc00070; 0xfffff0; 0xfffff0; 0x555570; 0x98070;
   0x7dc070; 0x718030; 0x3fffff0; 0x3ffffb0; 0x1c030; 0x3e030; 0x7e038; 0x66038;
   0x1e7018; 0x3c3c18; 0x1f01f1c; 0x3e007ce; 0x10001cc; 0x0; 0x0; 0x0;
   0x0; 0x202000; 0x0; 0x0; 0x0; 0x7000; 0x6000; 0x55f550;
   0xfffff0; 0x1fffff0; 0xc00030; 0x1c00070; 0xfffff0; 0x1fffff0; 0x8030; 0x1c070;
   0x18030; 0x155d570; 0x1ffffb0; 0x1ffffb0; 0x3030; 0x557030; 0xfff838; 0xfff838;
   0x601838; 0x601c18; 0x600e1c; 0x70079c; 0x3f03ce; 0x1f01cc; 0x0; 0x0;
   0x0; 0x0; 0x202000; 0x0; 0x0; 0x0; 0x1001000; 0x1e01e00;
   0x1ff3ff0; 0x3f87f8; 0x78058; 0x18018; 0x18018; 0x18ff8; 0x19ff8; 0x3ff8c18;
   0x7ff9c18; 0x618c18; 0x619c18; 0x618ff8; 0x61dff8; 0x618018; 0x61c018; 0x61c018;
   0x61c018; 0x60c018; 0x60e01c; 0x60e00c; 0x60700c; 0x60380e; 0x603004; 0x0;
   0x0; 0x0; 0x0; 0x202000; 0x0; 0x0; 0x0; 0x7000;
   0xe000; 0xe000; 0xffffe0; 0x1fffff0; 0xc00060; 0x1c00070; 0xeaaae0; 0x1fffff0;
   0xffffe0; 0x70; 0xaaaaf0; 0x1fffff0; 0x1aebbb0; 0x18e31f0; 0x18e31b0; 0x18e31b0;
   0x1ffffb0; 0x1ffffb8; 0x18e31b8; 0x18e319c; 0x18e319c; 0x18e319c; 0x1ee318e; 0x1e00184;
   0x0; 0x0; 0x0; 0x0; 0x202000; 0x0; 0x0; 0x0;
   0x6000; 0xe000; 0x155d550; 0xffffe0; 0x1d55570; 0xc00060; 0x1c00070; 0xeaaae0;
   0x1fffff0; 0xaaaae0; 0x1c070; 0xc060; 0x3ffc070; 0x3ffc060; 0x1c070; 0xc030;
   0x1ffff70; 0xffff30; 0x1c00330; 0xc00338; 0x1c00318; 0xc00318; 0x1ffff1c; 0xffff0e;
   0x1c0030c; 0x0; 0x0; 0x0; 0x0; 0x202000; 0x0; 0x0;
   0x0; 0x6000; 0xe000; 0x55d550; 0xfffff0; 0x1fffff0; 0xc00030; 0x1c00070;
   0xeaaab0; 0x1fffff0; 0xaaaab0; 0x70; 0x30; 0x1ffff70; 0x1ffff30; 0x1800370;
   0x1800330; 0x19ff330; 0x19ab330; 0x1983338; 0x1983338; 0x19ff318; 0x19ff318; 0x180331c;
   0x1f0030e; 0x1f0030c; 0x0; 0x0; 0x0; 0x0; 0x202000; 0x0;
   0x0; 0x0; 0x7000; 0x7000; 0x1fffff0; 0xfffff0; 0x1c00030; 0x800030;
   0x1fffff0; 0xfffff0; 0x7030; 0x2ab830; 0x7ffe30; 0x3807b8; 0x1f3db0; 0x7f038;
   0x1f038; 0x7bfb8; 0xffcff8; 0xfff098; 0xf07e18; 0x786f98; 0x1fe31c; 0xfc00c;
   0x1fd0c; 0x3fee; 0x5e4; 0x0; 0x0; 0x0; 0x0; 0x202000;
   0x0; 0x0; 0x0; 0x7000; 0x7000; 0x6000; 0xfffff0; 0xfffff0;
   0xc00030; 0xc00070; 0xc00030; 0xfffff0; 0xfffff0; 0xc070; 0x1c030; 0x38070;
   0x3ffffb0; 0x3fffff0; 0x81e030; 0x1c3f830; 0xe31e38; 0x7f1ff8; 0x1e0ff8; 0x1c1c5c;
   0x3a0c1c; 0x1f3fc0c; 0x3e0fe0c; 0x3000400; 0x0; 0x0; 0x0; 0x0;
   0x202000; 0x0; 0x0; 0x0; 0x7000; 0x6000; 0x55f550; 0xfffff0;
   0xfffff0; 0xc00030; 0xc00070; 0xc00030; 0xfffff0; 0xfffff0; 0x70; 0x1ff7fb0;
   0x1ff7ff0; 0x1806030; 0x1c66330; 0x18e6330; 0x1dc6630; 0x1986c30; 0x1f07438; 0x1fc7e38;
   0x1df6fd8; 0x18361d8; 0x1c1605c; 0x1f87c0c; 0xf07c0c; 0x0; 0x0; 0x0;
   0x0; 0x202000; 0x0; 0x0; 0x0; 0xe000; 0xe000; 0x1fffff0;
   0xfffff0; 0x1c00070; 0xc00030; 0x1fffff0; 0xfffff0; 0x555470; 0x7ffe30; 0x600770;
   0x600230; 0x7fff70; 0x2aaa30; 0xffffb0; 0xffffb0; 0xc1c3b0; 0xc183b8; 0xffffb8;
   0xffff98; 0x300039c; 0x300039c; 0x3ffff1c; 0x1ffff0e; 0x555404; 0x0; 0x0;
   0x0; 0x0; 0x202000; 0x0; 0x0; 0x0; 0x7000; 0xe000;
   0x55f550; 0xfffff0; 0x1fffff0; 0xc00070; 0x1c00070; 0xfffff0; 0x1fffff0; 0x66070;
   0x67070; 0x1fe7ff0; 0x1fe7ff0; 0x66030; 0x67070; 0x1fe7fb0; 0x1fe7fb0; 0x66030;
   0x67038; 0x3fe7fb8; 0x3fe7fd8; 0x66018; 0x6701c; 0x6600e; 0x6700c; 0x0;
   0x0; 0x0; 0x0; 0x202000; 0x0; 0x0; 0x0; 0x6000;
   0xe000; 0x1fffff0; 0xffffe0; 0x1c00070; 0xc00060; 0x1fffff0; 0xffffe0; 0x18070;
   0xc18860; 0xe1cc70; 0x71ce60; 0x37c770; 0x3ee060; 0x787c70; 0x1e19fb0; 0x1c18770;
   0x418c30; 0x61ce30; 0x73c638; 0x3fe318; 0xe7818; 0x7c3f1c; 0x3f00f8c; 0x1c00388;
   0x0; 0x0; 0x0; 0x0; 0x202000; 0x0; 0x0; 0x0;
   0x700000; 0xff8000; 0x3ffff0; 0xfff0; 0x6050; 0x6000; 0x6000; 0x6000;
   0x1fffff0; 0x1fffff0; 0x6000; 0x6000; 0x6000; 0x6000; 0x3fffffc; 0x3fffffc;
   0x6000; 0x6000; 0x6000; 0x6000; 0x6000; 0x6000; 0x7500; 0x7f80;
   0x3f00; 0x0; 0x0; 0x0; 0x0; 0x202000; 0x0; 0x0;
   0x0; 0x380; 0x380; 0x380; 0x380; 0x380; 0x3ff8; 0x3ffc;
   0x3ff8; 0x380; 0x380; 0x380; 0x380; 0x3f80; 0x3fe0; 0x7fc;
   0x3f8; 0x398; 0x380; 0x380; 0x380; 0x380; 0x380; 0x1f8;
   0x1f0; 0xf0; 0x0; 0x0; 0x0; 0x0; 0x202000; 0x0;
   0x0; 0x0; 0x70000; 0x70000; 0x70000; 0x70000; 0x70000; 0x2afaaa8].
Definition hanzi_data_152 : list N :=
  [0x3fffffc; 0x3fffffc; 0x7c000; 0x7e000; 0x77000; 0x73800; 0x73c00; 0x71e00;
   0x70f00; 0x70780; 0x703c0; 0x701e0; 0x700f0; 0x7003c; 0x7001c; 0x70008;
   0x7f800; 0x3f800; 0x1f000; 0x0; 0x0; 0x0; 0x0; 0x202000;
   0x0; 0x0; 0x0; 0x181c0; 0x18180; 0x181c0; 0x18180; 0x181c0;
   0x18ba8; 0x19ffc; 0x18ffc; 0x181c0; 0x18180; 0x181c0; 0x18180; 0x19fc0;
   0x19fe0; 0x183fc; 0x181bc; 0x181c4; 0x1018180; 0x70181c0; 0x3018180; 0x30181c0;
   0x3018180; 0x3ff81c0; 0x1ff81f8; 0xf0; 0x0; 0x0; 0x0; 0x0;
   0x202000; 0x0; 0x0; 0x0; 0x701c0; 0x30180; 0x701c0; 0x30180;
   0x701c0; 0x30ba8; 0x71ffc; 0x31ffc; 0xf01c0; 0x1f0180; 0x7f01c0; 0xf31980;
   0x1e71fc0; 0x3c30fe0; 0x78701fc; 0x301bc; 0x701c4; 0x30180; 0x701c0; 0x30180;
   0x701c0; 0x30180; 0x701d0; 0x301f0; 0x700f0; 0x0; 0x0; 0x0;
   0x0; 0x202000; 0x0; 0x0; 0x0; 0xe0; 0xe0; 0x18c0e0;
   0x38c0e0; 0x38c0e0; 0x38e2e8; 0x38e7fc; 0x38e7fc; 0x30e0e0; 0x30e0e0; 0x3060e0;
   0x3060e0; 0x7067e0; 0x3067f0; 0x7071fe; 0x6070fe; 0x6070e4; 0xe030e0; 0xe038e0;
   0xc038e0; 0x1c01ce0; 0x3801ce0; 0x3801ee0; 0x3800ef8; 0x1000478; 0x0; 0x0;
   0x0; 0x0; 0x202000; 0x0; 0x0; 0x0; 0xc0; 0xc0;
   0x7fff0c0; 0x3fff0c0; 0x7fff0c0; 0x380ae8; 0x380ffc; 0x380ffc; 0x3800c0; 0x3800c0;
   0x3800c0; 0x3808c0; 0x380fc0; 0x380fe0; 0x3801fc; 0x3800fc; 0x3800c4; 0x3800c0;
   0x3800c0; 0x3800c0; 0x3800c0; 0x3800c0; 0x3fc0fc; 0x3f80f8; 0x1f8078; 0x0;
   0x0; 0x0; 0x0; 0x202000; 0x0; 0x0; 0x0; 0xe0;
   0xe0; 0x3ffce0; 0x3ff8e0; 0x30e0e0; 0x38e2e8; 0x18e7fc; 0x18e3fc; 0x1860e0;
   0x1860e0; 0x1fc60e0; 0x1fc60e0; 0x18067e0; 0x18067e0; 0x18071fe; 0x18030fc; 0x18070e4;
   0x18030e0; 0x1c038e0; 0x18038e0; 0x1c01ce0; 0xc00ce0; 0xf40e74; 0xfe077c; 0x7e067c;
   0x0; 0x0; 0x0; 0x0; 0x202000; 0x0; 0x0; 0x0;
   0x4000e0; 0xf800e0; 0xff00e0; 0xff8e0; 0x7f0e0; 0x602e8; 0x607fc; 0x607fc;
   0x600e0; 0x600e0; 0x3d600e0; 0x3ff80e0; 0x7fffe0; 0x6ffe0; 0x601fe; 0x600fc;
   0x600e4; 0x600e0; 0x10600e0; 0x30600e0; 0x70600e0; 0x30600e0; 0x3fe00f4; 0x3fe00fc;
   0x154007c; 0x0; 0x0; 0x0; 0x0; 0x202000; 0x0; 0x0;
   0x0; 0xe0; 0xe0; 0x15550e0; 0x3fff0e0; 0x3fff0e0; 0xe02e8; 0xe07fc;
   0xe07fc; 0xe00e0; 0xe00e0; 0xe00e0; 0xe00e0; 0xe07e0; 0xe0fe0; 0xe01fe;
   0xe00fc; 0xe00e4; 0xe00e0; 0xe00e0; 0xe00e0; 0xe00e0; 0x3fff8e0; 0x7fffcf4;
   0xf8; 0x78; 0x0; 0x0; 0x0; 0x0; 0x202000; 0x0;
   0x0; 0x0; 0x1c0; 0xc0; 0x3fff1c0; 0x3ffe0c0; 0x1c01c0; 0xc0ae8;
   0x1c1ffc; 0xc0ffc; 0x1c01c0; 0xc00c0; 0x1c01c0; 0x3fff0c0; 0x7ffffc0; 0xc0fe0;
   0x1c07fe; 0xc00fe; 0x1c01c4; 0xc00c0; 0x1c01c0; 0xc00c0; 0x1c01c0; 0xc00c0;
   0x1c01d4; 0xc00f8; 0x1c0078; 0x0; 0x0; 0x0; 0x0; 0x202000;
   0x0; 0x0; 0x0; 0xe0; 0xe0; 0x1fff0e0; 0x1fff0e0; 0x1d570e0;
   0x1c037fc; 0x1c077fc; 0x1c030e0; 0x1c070e0; 0x1c030e0; 0x1c070e0; 0x1c030e0; 0x1c077e0;
   0x1c037e0; 0x1c077fc; 0x1c030fe; 0x1c070e4; 0x1c030e0; 0x1c070e0; 0x1eab0e0; 0x1fff0e0;
   0x1fff0e0; 0x1c070e0; 0x1c030f8; 0x78; 0x0; 0x0; 0x0; 0x0;
   0x202000; 0x0; 0x0; 0x0; 0xe0; 0x1f800e0; 0x1fff0e0; 0xff0e0;
   0xc50e0; 0xc02e8; 0xc07fc; 0xc03fc; 0xc00e0; 0xc00e0; 0x15d50e0; 0x3fff8e0;
   0x7ffffe0; 0xc03f0; 0xc01fe; 0xc00fc; 0xc00e4; 0xc00e0; 0xc00e0; 0xc00e0;
   0xc00e0; 0xc00e0; 0xc0074; 0xc007c; 0xc007c; 0x0; 0x0; 0x0;
   0x0; 0x202000; 0x0; 0x0; 0x0; 0x1c060; 0x18060; 0x1c060;
   0x18060; 0x1c060; 0x18060; 0x7ffffc; 0x7ffbfc; 0x71c060; 0x61c060; 0x71c060;
   0x70c860; 0x71ff60; 0x70fbe0; 0x71e1fe; 0x77e07e; 0x7fe064; 0x6c6060; 0x707060;
   0x603060; 0x7603860; 0x3601c60; 0x3e01e74; 0x3e00f78; 0x1c0027c; 0x0; 0x0;
   0x0; 0x0; 0x202000; 0x0; 0x0; 0x0; 0x40060; 0xe0060;
   0xc0060; 0xc0060; 0x3fff060; 0x3fff2e8; 0x15573fc; 0x33fc; 0x3060; 0x3060;
   0x3060; 0x3060; 0x3360; 0x33e0; 0x31fc; 0x387c; 0x3864; 0x3860;
   0x1860; 0x1860; 0x1c60; 0xc60; 0xe74; 0xe7c; 0x67c; 0x0;
   0x0; 0x0; 0x0; 0x202000; 0x0; 0x0; 0x0; 0x1070;
   0x1ff1820; 0x1ff3070; 0x1803020; 0x1807070; 0x180e8a8; 0x1801dfc; 0x1800dfc; 0x1801c70;
   0x1800c20; 0x1801c70; 0x1800c20; 0x1801df0; 0x1800df8; 0x1801c7e; 0x1800c2e; 0x1801c70;
   0x1800c20; 0x1801c70; 0x1800c20; 0x1801c70; 0x1800c20; 0x1d01c70; 0x1f80c3c; 0x1f01c3c;
   0x0; 0x0; 0x0; 0x0; 0x202000; 0x0; 0x0; 0x0;
   0xc0; 0xc0; 0x15550c0; 0x1fff0c0; 0x1fff0c0; 0x1800ffc; 0x1c00ffc; 0x1800ae8;
   0x1c000c0; 0x18000c0; 0x1c000c0; 0x1fff0c0; 0x1ffffc0; 0x1800fe0; 0x1c003fc; 0x18000fc;
   0x1c000c4; 0x18000c0; 0x1c000c0; 0x18000c0; 0x1d550c0; 0x1fff8c0; 0x1fff8d0; 0x18000f8;
   0x1c00078; 0x0; 0x0; 0x0; 0x0; 0x202000; 0x0; 0x0;
   0x0; 0x60; 0x3ff860; 0xfffc60; 0x3aa860; 0x1c0060; 0xe02e8; 0x787fc;
   0x3c7fc; 0x155f060; 0x3fff860; 0x3fff860; 0x3b18060; 0x3b9c7e0; 0x398c7e0; 0x39ce1fe;
   0x38c707c; 0x18e3864; 0x1861c60; 0x1870c60; 0x1838060; 0x1c1c060; 0x1c0e060; 0x1d47074].
Definition hanzi_data_153 : list N :=
  [0xf83c7c; 0x78187c; 0x0; 0x0; 0x0; 0x0; 0x202000; 0x0;
   0x0; 0x0; 0x60; 0x1fff860; 0x1fff860; 0x1830060; 0x1c30060; 0xc302e8;
   0x1c307fc; 0xc383fc; 0x1c38060; 0xc38060; 0xc18060; 0xfff860; 0xfffbe0; 0xc183e0;
   0xc1c1fe; 0xe1807c; 0xe1c064; 0xe0c060; 0xe1c060; 0xe0c060; 0x60c060; 0x60e060;
   0x7fffc74; 0x3fffc78; 0x7c; 0x0; 0x0; 0x0; 0x0; 0x202000;
   0x0; 0x0; 0x0; 0x3000e0; 0x3180e0; 0x31c0e0; 0x31c0e0; 0x71c0e0;
   0x60e2e8; 0xe0e7fc; 0xe067fc; 0x1c070e0; 0x38038e0; 0x7d55ce0; 0x3fff8e0; 0xfff4e0;
   0xc387e0; 0xc187fc; 0xc180fc; 0xc1c0e4; 0xc1c0e0; 0xc0c0e0; 0xe0e0e0; 0xe070e0;
   0xe070e0; 0x743cf4; 0x7e1ef8; 0x3e0c78; 0x0; 0x0; 0x0; 0x0;
   0x202000; 0x0; 0x0; 0x0; 0x1c00e0; 0xc00e0; 0x1c00e0; 0xc00e0;
   0x1c00e0; 0xc02e8; 0x1c77fc; 0xc37fc; 0x1c70e0; 0x3fc30e0; 0x3fc70e0; 0x2ac30e0;
   0x1c77e0; 0xc37e0; 0x1c71fe; 0xc30fc; 0x1c70e4; 0xc30e0; 0x1c70e0; 0xc30e0;
   0x1c70e0; 0xc30e0; 0x7fffee0; 0x3fffe7c; 0x7c; 0x0; 0x0; 0x0;
   0x0; 0x202000; 0x0; 0x0; 0x0; 0x380e0; 0x3380e0; 0x7380e0;
   0xe380e0; 0x1c380e0; 0x8382e8; 0x3fffffc; 0x3fffffc; 0x3fff8e0; 0x180e0; 0xd80e0;
   0xd80e0; 0xdc7e0; 0xdc7e0; 0xdc1fe; 0xcc0fc; 0xce0e4; 0xce0e0; 0x10c70e0;
   0x30c70e0; 0x70c38e0; 0x30c38e0; 0x3fc1c74; 0x3fc0e7c; 0x150047c; 0x0; 0x0;
   0x0; 0x0; 0x202000; 0x0; 0x0; 0x0; 0x60; 0x1e00060;
   0x1fff060; 0x3ff860; 0x7860; 0x3ae8; 0x3bfc; 0x3bfc; 0x1fff860; 0x1fff860;
   0x1c0f860; 0xc0f860; 0xc1db60; 0xe19be0; 0x6399fe; 0x73187c; 0x771c64; 0x3e1860;
   0x1e1c60; 0x1e0c60; 0x7f0c60; 0xf38e60; 0x1e1f774; 0x3c0f77c; 0x3003238; 0x0;
   0x0; 0x0; 0x0; 0x202000; 0x0; 0x0; 0x0; 0xe00e0;
   0xe00e0; 0xe00e0; 0xe00e0; 0xe00e0; 0x1fff2e8; 0x1fff7fc; 0xe07fc; 0xe00e0;
   0xe00e0; 0x600e0; 0x600e0; 0x3ffffe0; 0x3ffffe0; 0x15f51fc; 0xf00fc; 0x1f00e4;
   0x1b80e0; 0x39c0e0; 0x31c0e0; 0x70e0e0; 0xe0f0e0; 0x3c07cf4; 0x3801ef8; 0x1000c78;
   0x0; 0x0; 0x0; 0x0; 0x202000; 0x0; 0x0; 0x0;
   0x1c30e0; 0x1c38e0; 0x1c38e0; 0x1c38e0; 0x1c38e0; 0x1c3ae8; 0x11c3ffc; 0x39c3ffc;
   0x1dd78e0; 0xfff8e0; 0x7ff8e0; 0x3c38e0; 0x1c3fe0; 0x1c3ff0; 0x1c39fe; 0x1c38fc;
   0x1c38e4; 0x1c38e0; 0x11c38e0; 0x31c38e0; 0x71ff8e0; 0x31ff8e0; 0x3fcfcf4; 0x3f838fc;
   0x7c; 0x0; 0x0; 0x0; 0x0; 0x202000; 0x0; 0x0;
   0x0; 0x400060; 0xf80060; 0x1fff060; 0xff860; 0xc3860; 0xc3ae8; 0xc3bfc;
   0xc3bfc; 0xc3860; 0xc3860; 0x3fff860; 0x3fff860; 0x15d7f60; 0x1c3be0; 0x1c39fe;
   0x18387c; 0x183864; 0x183860; 0x1383860; 0x2303860; 0x7333860; 0x373f860; 0x3e1f874;
   0x3e0387c; 0x1c0087c; 0x0; 0x0; 0x0; 0x0; 0x202000; 0x0;
   0x0; 0x0; 0x60; 0x3fff860; 0x3fff860; 0x3860; 0x3860; 0x3ae8;
   0x1ffbbfc; 0x1ffbbfc; 0x183b860; 0x183b860; 0x183b860; 0x183b860; 0x183bb60; 0x183bbe0;
   0x18399fc; 0x1f3b87c; 0xf39864; 0x39860; 0x1039860; 0x3039860; 0x7039c60; 0x3038c60;
   0x3ff8e74; 0x3ff0678; 0x1540478; 0x0; 0x0; 0x0; 0x0; 0x202000;
   0x0; 0x0; 0x0; 0x70060; 0x60060; 0x70060; 0x60060; 0x3fffc60;
   0x3fffee8; 0x703fc; 0x603fc; 0x1c71860; 0x1861860; 0x1c71860; 0x1861860; 0x1c71be0;
   0x1861bf0; 0x1c719fe; 0x1fff87e; 0x1fff864; 0x1aea860; 0x1c70060; 0x60060; 0x7070060;
   0x3060060; 0x3060074; 0x3fe007c; 0x1fc003c; 0x0; 0x0; 0x0; 0x0;
   0x202000; 0x0; 0x0; 0x0; 0x1c0e0; 0x1980e0; 0x3980e0; 0x7180e0;
   0xe180e0; 0x4182e8; 0x3d187fc; 0x3ffe7fc; 0x1fff8e0; 0x3b8e0; 0x4300e0; 0xc300e0;
   0xe307e0; 0xe307e0; 0x7701fe; 0x3e00fc; 0x1e00e4; 0xe00e0; 0x30f00e0; 0x60f80e0;
   0x71fc0e0; 0x338f0e0; 0x3f87cf4; 0x3f018f8; 0x1c00078; 0x0; 0x0; 0x0;
   0x0; 0x202000; 0x0; 0x0; 0x0; 0x0; 0x3fffc0; 0x7fffc0;
   0x3c0000; 0xf0000; 0x78000; 0x1de000; 0x118e3fc; 0x39c63fc; 0x1dbff80; 0xfffd80;
   0x786180; 0x3061c0; 0x37fec0; 0x77fec0; 0x6060e0; 0x606060; 0xefff70; 0x1cfff70;
   0x3806038; 0x780601c; 0x300600c; 0x7f00; 0x7e00; 0x1e00; 0x0; 0x0;
   0x0; 0x0; 0x202000; 0x0; 0x0; 0x0; 0x600e0; 0x600e0;
   0x600e0; 0x600e0; 0x3fffce0; 0x3fffae8; 0x15757fc; 0x603fc; 0x600e0; 0x600e0;
   0x1fff8e0; 0x1fff8e0; 0x1c077e0; 0xe067e0; 0xe061fe; 0x70e0fc; 0x71c0e4; 0x3b80e0;
   0x1f80e0; 0xf00e0; 0x1fc0e0; 0x3fe0e0; 0x1f0fce0; 0x3e03e7c; 0x3000c7c; 0x0;
   0x0; 0x0; 0x0; 0x202000; 0x0; 0x0; 0x0; 0x30060;
   0x30060; 0x70060; 0xe0060; 0xc0060; 0x3fffae8; 0x3fffbfc; 0x2ababfc; 0x70060;
   0x30060; 0x70060; 0xf0060; 0x3f0360; 0xfb03e0; 0x1e701fe; 0x83007e; 0x70064;
   0x30060; 0x70060; 0x30060; 0x70060; 0x30060; 0x70074; 0x3007c; 0x7003c;
   0x0; 0x0; 0x0; 0x0; 0x202000; 0x0; 0x0; 0x0;
   0x600e0; 0x600e0; 0x600e0; 0x600e0; 0x4600e0; 0xe6e2e8; 0x1c667fc; 0x18667fc;
   0x18670e0; 0x38670e0; 0x30670e0; 0x30630e0; 0x1063fe0; 0x8607e0; 0x1c601fe; 0xc600fc;
   0xe600e4; 0x6000e0; 0x7800e0; 0x3c00e0; 0x1f00e0; 0x780e0; 0x3f8e0; 0xfcfc;
   0x1878; 0x0; 0x0; 0x0; 0x0; 0x202000; 0x0; 0x0;
   0x0; 0x700e0; 0x300e0; 0x700e0; 0x300e0; 0x5750e0; 0xfffae8; 0xfffffc].
Definition hanzi_data_154 : list N :=
  [0xc307fc; 0xc700e0; 0xc300e0; 0xc700e0; 0xc300e0; 0x1d757e0; 0x3fffff0; 0x7fffdfe;
   0xf00fe; 0xf80e4; 0xf80e0; 0x1dc0e0; 0x38e0e0; 0x70f0e0; 0xf078e0; 0x3e03ce0;
   0x3801ef8; 0x3000478; 0x0; 0x0; 0x0; 0x0; 0x202000; 0x0;
   0x0; 0x0; 0x60; 0xaaa860; 0x1fff860; 0x1fff860; 0x1863860; 0x1863ae8;
   0x1863bfc; 0x1863bfc; 0x1863860; 0x1863860; 0x1863860; 0x1863860; 0x1ffff60; 0x1fffbe0;
   0x18039fe; 0x180387c; 0x3864; 0x3860; 0x1003860; 0x7003860; 0x7003860; 0x3003860;
   0x3fff060; 0x1fff078; 0x78; 0x0; 0x0; 0x0; 0x0; 0x202000;
   0x0; 0x0; 0x0; 0x70; 0x18060; 0x1f070; 0x3fe7c60; 0x3fe1c70;
   0x3860ce8; 0x3861dfc; 0x3860dfc; 0x3861c70; 0x3860c60; 0x3861c70; 0x3860c60; 0x3861df0;
   0x3860ff8; 0x3861c7c; 0x3860c7c; 0x3871c74; 0x386ec60; 0x1f6fc70; 0x1f63e60; 0x560470;
   0x60060; 0x60074; 0x6007c; 0x6003c; 0x0; 0x0; 0x0; 0x0;
   0x202000; 0x0; 0x0; 0x0; 0x60; 0xfff060; 0x1fff060; 0xe00060;
   0x700060; 0x39c2e8; 0x1fc7fc; 0xf03fc; 0x3c0060; 0x380060; 0x7fff860; 0x3fff860;
   0x38e0760; 0x18e07e0; 0x1ce01fe; 0xce007e; 0xee0064; 0xe0060; 0xe0060; 0xe0060;
   0xe0060; 0xe0060; 0xe0074; 0x7e07c; 0x7c07c; 0x0; 0x0; 0x0;
   0x0; 0x202000; 0x0; 0x0; 0x0; 0x60; 0xe00060; 0x1ffc060;
   0x7ff860; 0x637860; 0x631ae8; 0x631ffc; 0x631bfc; 0x631860; 0x631860; 0x631860;
   0xe31860; 0xe31f60; 0xe31be0; 0xc31dfe; 0xc3187c; 0xc31c64; 0xc30c60; 0x1c30c60;
   0x1830c60; 0x1830c60; 0x3830e60; 0x3030674; 0x303077c; 0x103003c; 0x0; 0x0;
   0x0; 0x0; 0x202000; 0x0; 0x0; 0x0; 0xe0; 0xe0;
   0x3fffce0; 0x3fff8e0; 0x15d50e0; 0xc02e8; 0xe07fc; 0x607fc; 0x1700e0; 0x3f80e0;
   0x77c0e0; 0xe6e0e0; 0x1c677e0; 0x3863fe0; 0x7061dfe; 0x20608fc; 0x600e4; 0x600e0;
   0x600e0; 0x600e0; 0x600e0; 0x600e0; 0x600e0; 0x600f8; 0x60078; 0x0;
   0x0; 0x0; 0x0; 0x202000; 0x0; 0x0; 0x0; 0xe0;
   0x3fe0e0; 0x3fe0e0; 0x3060e0; 0x3060e0; 0x3062e8; 0x3077fc; 0x3077fc; 0x3f038e0;
   0x3f03ce0; 0x1ce0; 0xe0; 0x1ffffe0; 0xfffbf0; 0xe039fe; 0x6030fc; 0x7070e4;
   0x38e0e0; 0x1dc0e0; 0xf80e0; 0xf80e0; 0x3fe0e0; 0x1fdfcf4; 0x3e03efc; 0x1c0067c;
   0x0; 0x0; 0x0; 0x0; 0x202000; 0x0; 0x0; 0x0;
   0x7000e0; 0x7000e0; 0x7040e0; 0x71e0e0; 0x77c0e0; 0x7702e8; 0x7607fc; 0x7007fc;
   0x7000e0; 0x7030e0; 0x71f0e0; 0x73c0e0; 0x7387e0; 0x7007e0; 0x7001fe; 0x3f000fc;
   0x7ffc0e4; 0x7ff8e0; 0x71f8e0; 0x7000e0; 0x7000e0; 0x7000e0; 0x7000f4; 0x7000fc;
   0x700078; 0x0; 0x0; 0x0; 0x0; 0x202000; 0x0; 0x0;
   0x0; 0x380e0; 0x300e0; 0x700e0; 0x600e0; 0x600e0; 0x3fffae8; 0x7fffffc;
   0x7fc; 0xe0; 0x2aa0e0; 0x7fe0e0; 0x3ae0e0; 0x70e7e0; 0x30e7e0; 0x70e1fe;
   0x30e0fe; 0x7060e4; 0x3060e0; 0x7060e0; 0x23070e0; 0x77070e0; 0x23038e0; 0x7701cf4;
   0x3e00efc; 0x1e0047c; 0x0; 0x0; 0x0; 0x0; 0x202000; 0x0;
   0x0; 0x0; 0x1c000c0; 0x1f800c0; 0x1fff0c0; 0xfe0c0; 0x70c0; 0x6ae8;
   0x7ffc; 0x6ffc; 0x70c0; 0x3ffe0c0; 0x7fff0c0; 0x3060c0; 0x307fc0; 0x306fe0;
   0x3071fe; 0x3070fc; 0x3070c4; 0x3030c0; 0x3030c0; 0x3038c0; 0x3038c0; 0x3018c0;
   0x301cd0; 0x300cf8; 0x300878; 0x0; 0x0; 0x0; 0x0; 0x202000;
   0x0; 0x0; 0x0; 0x60; 0x60; 0x1fff860; 0xfff860; 0x30060;
   0x302e8; 0x307fc; 0x303fc; 0x30060; 0x2aba860; 0x7fffc60; 0x3fffc60; 0xd8760;
   0xd87f0; 0xdc1fe; 0xdc07e; 0xdc064; 0xce060; 0xce060; 0xc7060; 0x70c7860;
   0x20c3860; 0x7fc1e74; 0x3fc0f7c; 0x150063c; 0x0; 0x0; 0x0; 0x0;
   0x202000; 0x0; 0x0; 0x0; 0x301870; 0x301830; 0x301870; 0x301830;
   0x301870; 0x1fc18b8; 0x1fd5dfc; 0x1b9fffc; 0x1b1fe70; 0x1b99830; 0x1999870; 0x1999830;
   0x19999f0; 0x19999f8; 0x199987c; 0x199983c; 0x19d9c70; 0x18d8c30; 0x1dd8c70; 0xef8c30;
   0x7458e70; 0x3018630; 0x3ff8770; 0x3ff83bc; 0x155013c; 0x0; 0x0; 0x0;
   0x0; 0x202000; 0x0; 0x0; 0x0; 0x70060; 0x70060; 0x70060;
   0x1fff860; 0x1fffc60; 0x382e8; 0x183fc; 0x183fc; 0x7fffc60; 0x3fffc60; 0x155d460;
   0xe060; 0x6360; 0xffe3e0; 0x1fff1fe; 0xe0007c; 0x700064; 0x380060; 0x1ce060;
   0xfe060; 0x7c060; 0xf0060; 0x3c0074; 0x38007c; 0x10007c; 0x0; 0x0;
   0x0; 0x0; 0x202000; 0x0; 0x0; 0x0; 0xe0; 0xe0;
   0x3fff8e0; 0x3fff8e0; 0x38e0; 0xc03ae8; 0xc1fffc; 0xe3bbfc; 0x6738e0; 0x6738e0;
   0x7e38e0; 0x3c38e0; 0x1c3fe0; 0x3c3ff0; 0x7c39fe; 0x6e38fc; 0xe738e4; 0xc3b8e0;
   0x1c3f8e0; 0x81f8e0; 0xb8e0; 0x38e0; 0x7fff8f4; 0x3fff8fc; 0x7c; 0x0;
   0x0; 0x0; 0x0; 0x202000; 0x0; 0x0; 0x0; 0x60060;
   0x60060; 0xf0060; 0xf8060; 0x1dc060; 0x39c2e8; 0x70e3fc; 0xe073fc; 0x1c03860;
   0x3801e60; 0x3006e60; 0x206460; 0x7063e0; 0x7863f0; 0x1f61fe; 0xfe07e; 0x1e064;
   0xe060; 0x6060; 0x3806060; 0x3806060; 0x3806060; 0x1ffe074; 0x1ffe07c; 0x7c;
   0x0; 0x0; 0x0; 0x0; 0x202000; 0x0; 0x0; 0x0;
   0xe00e0; 0x600e0; 0xf00e0; 0xf80e0; 0x1f80e0; 0x39c2e8; 0x70e7fc; 0xe0f7fc;
   0x1c078e0; 0x7aabce0; 0x37ffce0; 0x7fe0e0; 0x6067e0; 0x6067e0; 0x7061fe; 0x6060fc;
   0x7f60e4; 0x3e60e0; 0x19460e0; 0x38060e0; 0x18060e0; 0x18060e0; 0x1ffe0f4; 0xffe0fc].
Definition hanzi_data_155 : list N :=
  [0x550078; 0x0; 0x0; 0x0; 0x0; 0x202000; 0x0; 0x0;
   0x0; 0x600e0; 0x600e0; 0xe00e0; 0x1c00e0; 0x15d50e0; 0x3fff2e8; 0x3fff7fc;
   0x38077fc; 0x38070e0; 0x38070e0; 0x38070e0; 0x38070e0; 0x3fff7e0; 0x3fff7e0; 0x38071fc;
   0x28030fc; 0x70e4; 0x30e0; 0x30e0; 0x38e0; 0x18e0; 0x18e0; 0x1cf4;
   0xef8; 0x478; 0x0; 0x0; 0x0; 0x0; 0x202000; 0x0;
   0x0; 0x0; 0xe0; 0x1fff0e0; 0x1fff0e0; 0x1c030e0; 0x1c030e0; 0xc032e8;
   0x1c037fc; 0xfe37fc; 0x7e30e0; 0x30e0; 0x3fff0e0; 0x3fff0e0; 0x181f7e0; 0x1c1b7e0;
   0x1c331fe; 0xe330fc; 0xe730e4; 0x6e30e0; 0x7c30e0; 0x3830e0; 0x7c30e0; 0xfe30e0;
   0x3e7b0e0; 0x383f0fc; 0x101b07c; 0x0; 0x0; 0x0; 0x0; 0x202000;
   0x0; 0x0; 0x0; 0x70; 0x2aaa860; 0x3fffc70; 0x3fffc60; 0x60070;
   0x1863ae8; 0x1c633fc; 0xc633fc; 0xc67070; 0xe66060; 0x667070; 0x666060; 0x601f0;
   0x3fffff0; 0x7fffffe; 0x2aea87e; 0x60074; 0x60060; 0x60070; 0x60060; 0x60070;
   0x60060; 0x60074; 0x6007c; 0x6003c; 0x0; 0x0; 0x0; 0x0;
   0x202000; 0x0; 0x0; 0x0; 0x60060; 0x60060; 0x60060; 0x60060;
   0x3fff860; 0x3fffae8; 0x3861bfc; 0x1861bfc; 0x1c61860; 0xc61860; 0xd75860; 0x1fff860;
   0x1fffbe0; 0xc0fbf0; 0xe0d9fe; 0x61d87e; 0x719c64; 0x3b9c60; 0x1f1c60; 0xe0c60;
   0x1f0e60; 0x7b8e60; 0x1f1f774; 0x3c0fb7c; 0x100123c; 0x0; 0x0; 0x0;
   0x0; 0x202000; 0x0; 0x0; 0x0; 0x70060; 0x38060; 0x38060;
   0x18060; 0x31c060; 0x70e2e8; 0xe063fc; 0xe073fc; 0x1c03060; 0x3fff860; 0x3fffc60;
   0x3003860; 0x1000360; 0x3f0; 0xfff1fe; 0xfff07e; 0xc03064; 0xc03060; 0xc03060;
   0xc03060; 0xc03060; 0xc03060; 0xfff070; 0xfff07c; 0xc0307c; 0x0; 0x0;
   0x0; 0x0; 0x202000; 0x0; 0x0; 0x0; 0xe0e0; 0xe0e0;
   0x60e0; 0xaae0e0; 0x3fff0e0; 0x3fffae8; 0x1801bfc; 0x1801ffc; 0x19ffee0; 0x18ffce0;
   0x19c38e0; 0x18c38e0; 0x19c3be0; 0x18c3be0; 0x19ff9fe; 0x18ff8fe; 0x1f838e4; 0xf838e0;
   0x5038e0; 0x30038e0; 0x70038e0; 0x30038e0; 0x35570e0; 0x3fff07c; 0x1ffe07c; 0x0;
   0x0; 0x0; 0x0; 0x202000; 0x0; 0x0; 0x0; 0xc00060;
   0xf80060; 0x1ffc060; 0xff860; 0xdf860; 0xc3ae8; 0xc3bfc; 0xc3bfc; 0x1c3860;
   0xc3860; 0x3fff860; 0x3fff860; 0x1c3b60; 0x183bf0; 0x1839fe; 0x18387e; 0x183864;
   0x383860; 0x303860; 0x2323860; 0x7763860; 0x26fb860; 0x3edf874; 0x3ccf878; 0x1c0187c;
   0x0; 0x0; 0x0; 0x0; 0x202000; 0x0; 0x0; 0x0;
   0xe00e0; 0xe00e0; 0xe00e0; 0xe00e0; 0x3fff8e0; 0x3fffae8; 0x3fffffc; 0xe07fc;
   0xe00e0; 0xe00e0; 0xe00e0; 0x3fff8e0; 0x3ffffe0; 0x1f07f0; 0x1f81fe; 0x3f80fe;
   0x7fc0e4; 0xeee0e0; 0x1ee70e0; 0x1ce38e0; 0x78e1ce0; 0x30e0ee0; 0xe04e0; 0xe00f8;
   0xe0078; 0x0; 0x0; 0x0; 0x0; 0x202000; 0x0; 0x0;
   0x0; 0x600e0; 0x600e0; 0x600e0; 0x600e0; 0x3fff8e0; 0x3fffae8; 0x3d77ffc;
   0x3863bfc; 0x38638e0; 0x38638e0; 0x3fff8e0; 0x3fff8e0; 0x3863fe0; 0x3863ff0; 0x38639fe;
   0x3aeb8fc; 0x3fff8e4; 0x3aeb8e0; 0x18638e0; 0x600e0; 0x600e0; 0x600e0; 0x600f4;
   0x6007c; 0x6007c; 0x0; 0x0; 0x0; 0x0; 0x202000; 0x0;
   0x0; 0x0; 0x60; 0x60; 0x3fff860; 0x3fff860; 0x38e3860; 0x38e3ae8;
   0x38e3bfc; 0x3aebbfc; 0x3fff860; 0x3fff860; 0x38e3860; 0x38e3860; 0x38e3f60; 0x3aebbe0;
   0x3fff9fc; 0x3fff87c; 0x38e3864; 0xe0060; 0xe0060; 0xe0060; 0xe0060; 0xe0060;
   0xe0074; 0xe0078; 0xe0078; 0x0; 0x0; 0x0; 0x0; 0x202000;
   0x0; 0x0; 0x0; 0xe00e0; 0xe00e0; 0xe00e0; 0xe00e0; 0xe00e0;
   0xe02e8; 0x3fffffc; 0x3fffbfc; 0x35f58e0; 0x30e18e0; 0x30e18e0; 0x30e18e0; 0x30e1fe0;
   0x3fffff0; 0x3fff9fe; 0x3aeb8fe; 0x30e18e4; 0x30e18e0; 0x30e18e0; 0x30e18e0; 0x30e18e0;
   0x3fff8e0; 0x3fff8e0; 0x30018fc; 0x300187c; 0x0; 0x0; 0x0; 0x0;
   0x202000; 0x0; 0x0; 0x0; 0x60; 0x1fff860; 0x1fff860; 0x1801860;
   0x1c01860; 0x1801ae8; 0x1c01ffc; 0x1fffbfc; 0x1fff860; 0xe1860; 0xc1860; 0xc1860;
   0x15d5b60; 0x3fffbe0; 0x3fff9fe; 0xc187c; 0x1c1864; 0x1c1860; 0x1c1860; 0x3181860;
   0x7381860; 0x3339860; 0x3f3fc74; 0x3e0fc7c; 0x1c01c7c; 0x0; 0x0; 0x0;
   0x0; 0x202000; 0x0; 0x0; 0x0; 0x1cc060; 0x18c060; 0x1cc060;
   0x18c060; 0x1fffc60; 0x1fffce8; 0x19cc1fc; 0x198c1fc; 0x19cc060; 0x1fffc60; 0x1fffc60;
   0x18cc60; 0x1ccde0; 0x18cff8; 0x3fffe7c; 0x3fffe6c; 0x35dd464; 0x318e060; 0x31c6060;
   0x3986060; 0x3fc7060; 0x1d83860; 0x1c1c74; 0x180e7c; 0x1c063c; 0x0; 0x0;
   0x0; 0x0; 0x202000; 0x0; 0x0; 0x0; 0x180c0; 0x180c0;
   0x1c0c0; 0xc0c0; 0x7ffe0c0; 0x3ffe2e8; 0x7fff7fc; 0x63ffc; 0x738c0; 0x61cc0;
   0x3ff18c0; 0x3fe00c0; 0x707c0; 0x607e0; 0x701fc; 0x600fc; 0x3ff00c4; 0x3fe00c0;
   0x700c0; 0x600c0; 0x700c0; 0x600c0; 0x700d4; 0x600f8; 0x70078; 0x0;
   0x0; 0x0; 0x0; 0x202000; 0x0; 0x0; 0x0; 0x600e0;
   0xe00e0; 0xe00e0; 0xc00e0; 0x1c00e0; 0x3fffae8; 0x3fffffc; 0xc07fc; 0xc00e0;
   0xc00e0; 0xc00e0; 0xc00e0; 0xc07e0; 0x1fff7f0; 0x1fff1fe; 0xc00fc; 0xc00e4;
   0xc00e0; 0xc00e0; 0xc00e0; 0xc00e0; 0xc00e0; 0x7fffce0; 0x3fff8fc; 0x7c;
   0x0; 0x0; 0x0; 0x0; 0x202000; 0x0; 0x0; 0x0;
   0xe0; 0xe0; 0x1fff0e0; 0xfff0e0; 0x1c030e0; 0xc032e8; 0x1c037fc; 0xc037fc].
Definition hanzi_data_156 : list N :=
  [0x1c030e0; 0xfff0e0; 0x1fff0e0; 0xc030e0; 0x1c037e0; 0xc037e0; 0x1c031fe; 0xc030fc;
   0x1fff0e4; 0xfff0e0; 0x1fff0e0; 0xe0; 0xe0; 0xe0; 0x3fffcf4; 0x3fffcf8;
   0x78; 0x0; 0x0; 0x0; 0x0; 0x202000; 0x0; 0x0;
   0x0; 0xc000e0; 0x1fc00e0; 0x7ff0e0; 0xff0e0; 0x70e0; 0x72e8; 0x77fc;
   0x77fc; 0x3fff0e0; 0x3fff0e0; 0x3fff0e0; 0x1870e0; 0x1877e0; 0x1837e0; 0x1ff1fe;
   0x1f30fe; 0x7c30e4; 0xf830e0; 0x3f830e0; 0x19838e0; 0x11818e0; 0x1818e0; 0x181cf4;
   0x180e78; 0x180c78; 0x0; 0x0; 0x0; 0x0; 0x202000; 0x0;
   0x0; 0x0; 0x60; 0x60; 0x1fff060; 0x1fff060; 0x1c13060; 0x1c332e8;
   0x1c733fc; 0x1ce33fc; 0x1dc3060; 0xc03060; 0x7fffc60; 0x3fffc60; 0x1c133e0; 0xc3bbf0;
   0x1c739fe; 0xce387e; 0xcc1864; 0xc01860; 0x3fff860; 0x3fff860; 0xc00060; 0xe00060;
   0xf40074; 0x7e007c; 0x3c003c; 0x0; 0x0; 0x0; 0x0; 0x202000;
   0x0; 0x0; 0x0; 0x700e0; 0x600e0; 0x700e0; 0x600e0; 0x700e0;
   0x3fe02e8; 0x3ff07fc; 0x2ae07fc; 0x700e0; 0x600e0; 0x700e0; 0x600e0; 0x15757e0;
   0x1fff7f0; 0x1fff1fe; 0x18030fe; 0x18030e4; 0x18030e0; 0x18030e0; 0x18030e0; 0x18030e0;
   0x1fff0e0; 0x1fff0e0; 0x1aab0f8; 0x1803078; 0x0; 0x0; 0x0; 0x0;
   0x202000; 0x0; 0x0; 0x0; 0x700e0; 0x600e0; 0x600e0; 0xe00e0;
   0x600e0; 0x3fffae8; 0x3fffffc; 0x3fc; 0x6040e0; 0xe060e0; 0xe060e0; 0xe0e0e0;
   0x60c7e0; 0x60c3e0; 0x70c1fc; 0x60c0fc; 0x71c0e4; 0x3180e0; 0x31c0e0; 0x3980e0;
   0x3980e0; 0x1800e0; 0x7fffce0; 0x3fffcf8; 0x78; 0x0; 0x0; 0x0;
   0x0; 0x202000; 0x0; 0x0; 0x0; 0xc1c060; 0xc0c060; 0xc0c060;
   0xc0e060; 0xc06060; 0xc072e8; 0x7fff3fc; 0x3ffbbfc; 0xc07c60; 0xc03c60; 0xc37e60;
   0xc33660; 0xc77760; 0xc633e0; 0xce71fe; 0xcc307c; 0xdc7064; 0xc03060; 0xc07060;
   0xc03060; 0xc07060; 0xc03060; 0xd47060; 0xfc3078; 0x7c7078; 0x0; 0x0;
   0x0; 0x0; 0x202000; 0x0; 0x0; 0x0; 0x600e0; 0x8600e0;
   0x18618e0; 0x18638e0; 0x1c670e0; 0xc672e8; 0x6677fc; 0x6623fc; 0x15750e0; 0x3fff8e0;
   0x3fff8e0; 0x600e0; 0x607e0; 0x607f0; 0x601fe; 0x3fffcfe; 0x7fffce4; 0x600e0;
   0x600e0; 0x600e0; 0x600e0; 0x600e0; 0x600e0; 0x600fc; 0x6007c; 0x0;
   0x0; 0x0; 0x0; 0x202000; 0x0; 0x0; 0x0; 0xe00e0;
   0xe00e0; 0x600e0; 0x600e0; 0x700e0; 0x1fff2e8; 0x1fff7fc; 0x18037fc; 0x18030e0;
   0x18030e0; 0x18030e0; 0x18030e0; 0x18037e0; 0x1fff7e0; 0x1fff1fe; 0x18030fc; 0x18030e4;
   0x18030e0; 0x18030e0; 0x18030e0; 0x18030e0; 0x1fff0e0; 0x1fff0e0; 0x1aab0fc; 0x1803078;
   0x0; 0x0; 0x0; 0x0; 0x202000; 0x0; 0x0; 0x0;
   0x70060; 0x70060; 0x70060; 0xf8060; 0x1dc060; 0x18e2e8; 0x7873fc; 0xf03bfc;
   0x1e3bc60; 0x3c70e60; 0x10e0660; 0x60060; 0x5553e0; 0xfffbe0; 0xfff9fe; 0x70007c;
   0x780064; 0x380060; 0x1c6060; 0xee060; 0x7c060; 0x78060; 0xf0074; 0x1c0078;
   0x8003c; 0x0; 0x0; 0x0; 0x0; 0x202000; 0x0; 0x0;
   0x0; 0xe0; 0x1fff0e0; 0x1fff0e0; 0x18030e0; 0x1c070e0; 0x18032e8; 0x1c077fc;
   0x18033fc; 0x1fff0e0; 0x1fff0e0; 0x15750e0; 0x600e0; 0x707e0; 0x2aeaff0; 0x3fff9fe;
   0x3aba8fe; 0x18700e4; 0x18300e0; 0x18380e0; 0x18380e0; 0x181c0e0; 0x180e0e0; 0x1c078e0;
   0xf83cfc; 0xf81c7c; 0x0; 0x0; 0x0; 0x0; 0x202000; 0x0;
   0x0; 0x0; 0xe0; 0x2aaa0e0; 0x3fff0e0; 0x3fff0e0; 0x30e0; 0x32e8;
   0x37fc; 0x37fc; 0xfff0e0; 0xfff0e0; 0xc030e0; 0xc030e0; 0xc037e0; 0xc037f0;
   0xc031fe; 0xfff0fc; 0xfff0e4; 0x30e0; 0x30e0; 0x30e0; 0x30e0; 0x30e0;
   0x3fff0f4; 0x3fff0fc; 0x78; 0x0; 0x0; 0x0; 0x0; 0x202000;
   0x0; 0x0; 0x0; 0xe0; 0xe0; 0x7fffce0; 0x3fff8e0; 0x300e0;
   0x382e8; 0x187fc; 0x187fc; 0x1c0e0; 0xc0e0; 0xe0e0; 0x1ffe0e0; 0x1fff7e0;
   0x1807ff8; 0x18079fe; 0x1807cfc; 0x1806ee4; 0x18066e0; 0x18064e0; 0x18060e0; 0x18060e0;
   0x1ffe0e0; 0x1ffe0f4; 0x1aae0f8; 0x1806078; 0x0; 0x0; 0x0; 0x0;
   0x202000; 0x0; 0x0; 0x0; 0x11c0e0; 0x38c0e0; 0xf1c0e0; 0x1c0c0e0;
   0x181c0e0; 0x3fffbfc; 0x7fffffc; 0xc2e8; 0xc0e0; 0xc0e0; 0x1ffc0e0; 0xffc0e0;
   0x1c0e7e0; 0xc0e7e0; 0xe1e1fe; 0x63e0fc; 0x7370e4; 0x3730e0; 0x3e30e0; 0x1e38e0;
   0x3e1ce0; 0x7f1ce0; 0x1f7cee0; 0x3c1e7f8; 0x3004478; 0x0; 0x0; 0x0;
   0x0; 0x202000; 0x0; 0x0; 0x0; 0xc060; 0xe060; 0x6060;
   0x6060; 0x3fff060; 0x3fffaea; 0xc3bfe; 0xe1ffe; 0xe5e60; 0x1ce6c60; 0x1fe7060;
   0x1be6060; 0x1dff360; 0x18ffbe0; 0x1ce7dfe; 0x18e6c7e; 0x1ce7064; 0xee6060; 0x1fe7060;
   0x2e6060; 0x7047060; 0x3006060; 0x3557074; 0x3ffe07c; 0x1ffc07c; 0x0; 0x0;
   0x0; 0x0; 0x202000; 0x0; 0x0; 0x0; 0x300070; 0x303060;
   0x303070; 0x303060; 0x303870; 0x3018e8; 0x3ff1dfc; 0x3fe8dfc; 0x331cc70; 0x338ce60;
   0x338ff70; 0x3b8fe60; 0x31861f0; 0x39831f0; 0x398b1fe; 0x398f87e; 0x19ddc74; 0x3998c60;
   0x19df670; 0x18dff60; 0x18f1f70; 0x1860060; 0x1f70074; 0xf3803c; 0x71001c; 0x0;
   0x0; 0x0; 0x0; 0x202000; 0x0; 0x0; 0x0; 0xc060;
   0xe060; 0xe060; 0x6060; 0x3fff060; 0x3fff3fc; 0x3fffbfc; 0x3801ae8; 0x3801c60;
   0x38aae60; 0x18ff460; 0x18eb060; 0x18c33e0; 0x18c33f0; 0x18c31fe; 0x18c307e; 0x18d7064;
   0x18ff060; 0x1cff060; 0x1803060; 0x1c01060; 0x1c00060; 0x1d40074; 0xfe007c; 0x7c003c].
Definition hanzi_data_157 : list N :=
  [0x0; 0x0; 0x0; 0x0; 0x202000; 0x0; 0x0; 0x0;
   0x60060; 0x60060; 0x1061060; 0x1863860; 0x1863860; 0x1863ae8; 0x1863bfc; 0x1863bfc;
   0x1863860; 0x1aeb860; 0x1fff860; 0x1fff860; 0x603e0; 0x3861bf0; 0x38619fe; 0x386187e;
   0x3861864; 0x3861860; 0x3861860; 0x3861860; 0x3861860; 0x3fff860; 0x3fff874; 0x380007c;
   0x380007c; 0x0; 0x0; 0x0; 0x0; 0x202000; 0x0; 0x0;
   0x0; 0x70060; 0x38060; 0x38060; 0x31c060; 0x70e060; 0xe062e8; 0x1fffbfc;
   0x1fffbfc; 0x3805860; 0x30c060; 0x70c060; 0x30c060; 0x70c360; 0x3ffffe0; 0x3fffdfc;
   0x30c07c; 0x70c064; 0x30e060; 0x706060; 0x306060; 0x707060; 0x303860; 0x703c74;
   0x301e7c; 0x700c3c; 0x0; 0x0; 0x0; 0x0; 0x202000; 0x0;
   0x0; 0x0; 0x60; 0x1fff860; 0x1fff860; 0x1aba860; 0x1838060; 0x18382e8;
   0x181c7fc; 0x181c3fc; 0x1c1c060; 0x1c0e060; 0x1fc7860; 0xf83c60; 0x1be0; 0x3f0;
   0x1fff1fe; 0x1fff07e; 0x1c03064; 0x1803060; 0x1c03060; 0x1803060; 0x1c03060; 0x1aab060;
   0x1fff060; 0x1fff07c; 0x1c0307c; 0x0; 0x0; 0x0; 0x0; 0x202000;
   0x0; 0x0; 0x0; 0x400; 0x2aaaf80; 0x3fffffc; 0x3ffe0fc; 0x1c01c4;
   0x1c00c0; 0x15d41c0; 0x3ffe0c0; 0x3ffeffc; 0x1c0ffc; 0x1c01c0; 0x1c00c0; 0x3ffe1c0;
   0x3ffe0c0; 0x1c0ffc; 0x1c0ffc; 0x1c0ffc; 0x3fff0e0; 0x7fff0e0; 0x1c00e0; 0x1c0070;
   0x1c0038; 0x1c003c; 0x1c001c; 0x1c0018; 0x0; 0x0; 0x0; 0x0;
   0x202000; 0x0; 0x0; 0x0; 0x60; 0xc03860; 0xc03860; 0xc0f860;
   0xc1f860; 0xc3bae8; 0xc33bfc; 0xe33bfc; 0xe73860; 0xe63860; 0xee3860; 0x623860;
   0x603be0; 0x603bf0; 0x7039fe; 0xf2387e; 0xf7b864; 0x1fbf860; 0x1d9f860; 0x39c7860;
   0x39c3c60; 0x30e0860; 0x7070060; 0x203807c; 0x1007c; 0x0; 0x0; 0x0;
   0x0; 0x202000; 0x0; 0x0; 0x0; 0x1c060; 0x38c060; 0x78c060;
   0xe0c060; 0xc0c060; 0xc060; 0x7fffffc; 0x3fffffc; 0x55dd460; 0xcc060; 0x19cc060;
   0x18ce060; 0x1dce760; 0xcc67e0; 0xfc67fe; 0x6c607e; 0x3c7064; 0x3c3060; 0x1c3860;
   0xe1860; 0x71f1c60; 0x30fce60; 0x3fde760; 0x3f843fc; 0x150017c; 0x0; 0x0;
   0x0; 0x0; 0x202000; 0x0; 0x0; 0x0; 0x38060; 0x38060;
   0x18060; 0x3fffc60; 0x3fffc60; 0xc2e8; 0xc3fc; 0xaebfc; 0xffc60; 0xffc60;
   0xe7060; 0xe3260; 0xe3be0; 0x1fffbf8; 0x1fff8fe; 0xe006e; 0x4e6060; 0xee6060;
   0x1ce7060; 0x18e3860; 0x38e1c60; 0x30e0e60; 0x70f4e74; 0xfc07c; 0x7c03c; 0x0;
   0x0; 0x0; 0x0; 0x202000; 0x0; 0x0; 0x0; 0x300c0;
   0x300c0; 0x300c0; 0x300c0; 0x1ff00c0; 0x1ff02e8; 0x307fc; 0x307fc; 0x300c0;
   0x300c0; 0x15750c0; 0x3fff8c0; 0x3ffffc0; 0x307e0; 0x301fc; 0x1b00fc; 0x7b00c4;
   0xf300c0; 0x1e300c0; 0x18300c0; 0x300c0; 0x300c0; 0x300d0; 0x300f8; 0x30078;
   0x0; 0x0; 0x0; 0x0; 0x202000; 0x0; 0x0; 0x0;
   0x60; 0x60; 0x3fff860; 0x3fff860; 0x3861860; 0x3861ae8; 0x3861bfc; 0x3861bfc;
   0x3fff860; 0x3fff860; 0x3861860; 0x3861860; 0x3861be0; 0x3861bf0; 0x3fff9fe; 0x3fff87e;
   0x3d75864; 0x3861860; 0x3861c60; 0x3860c60; 0x3860c60; 0x3860e60; 0x3860674; 0x3f6077c;
   0x1f4027c; 0x0; 0x0; 0x0; 0x0; 0x202000; 0x0; 0x0;
   0x0; 0x604060; 0xe06060; 0x70e060; 0x30c060; 0x31c060; 0x388060; 0x1fffbfc;
   0x1fffbfc; 0x1555060; 0x60; 0x60; 0x60; 0x760; 0xaaa3e0; 0xfff1fe;
   0xfff07e; 0x64; 0x60; 0x60; 0x60; 0x60; 0x3fffc60; 0x3fffc60;
   0x2aaa87c; 0x7c; 0x0; 0x0; 0x0; 0x0; 0x202000; 0x0;
   0x0; 0x0; 0x700e0; 0xe00e0; 0xe00e0; 0xc00e0; 0x3fff8e0; 0x3fffae8;
   0x3003bfc; 0x3003bfc; 0x30038e0; 0x20028e0; 0x3fff8e0; 0x3fff8e0; 0x3ffffe0; 0xc03e0;
   0xc01fc; 0xc00fc; 0xc00e4; 0xc00e0; 0xc00e0; 0xc00e0; 0xc00e0; 0xc00e0;
   0xc00f4; 0xfc0fc; 0x7c07c; 0x0; 0x0; 0x0; 0x0; 0x202000;
   0x0; 0x0; 0x0; 0x60060; 0x662060; 0xe67060; 0x1c63060; 0x1873060;
   0x33ae8; 0x3fffffc; 0x3fffffc; 0x157dc60; 0x18060; 0x1c060; 0x1ffc060; 0x1ffc360;
   0xc0e3e0; 0xe1f1fe; 0x63f07c; 0x733864; 0x3f3860; 0x1e1c60; 0x1e0e60; 0x3f0760;
   0xf38260; 0x1f1f074; 0x3c0f878; 0x300307c; 0x0; 0x0; 0x0; 0x0;
   0x202000; 0x0; 0x0; 0x0; 0xe0; 0xaaa8e0; 0x1fff8e0; 0xfff8e0;
   0xe0e0e0; 0x71c2e8; 0x3b87fc; 0x1f07fc; 0x1f00e0; 0x7fe0e0; 0x7f1fce0; 0x3c23ce0;
   0x3060fe0; 0x603f8; 0x1fff1fe; 0xfff0fc; 0x600e0; 0x600e0; 0x7fffce0; 0x3fffce0;
   0x7fffce0; 0x600e0; 0x600f4; 0x60078; 0x60078; 0x0; 0x0; 0x0;
   0x0; 0x202000; 0x0; 0x0; 0x0; 0xc00060; 0x1f80060; 0x1fff060;
   0xff860; 0x61060; 0x602e8; 0x607fc; 0x603fc; 0x7fffc60; 0x3fff860; 0x5575060;
   0x60060; 0x60760; 0x607f0; 0x15751fe; 0x1fff07c; 0x1fff064; 0x1803060; 0x1c03060;
   0x1803060; 0x1c03060; 0x1803060; 0x1fff060; 0x1fff07c; 0x1c0307c; 0x0; 0x0;
   0x0; 0x0; 0x202000; 0x0; 0x0; 0x0; 0x180060; 0xd80060;
   0x1d80060; 0x3980060; 0x7180060; 0x1802e8; 0x3fffffc; 0x3fffbfc; 0x180060; 0x380060;
   0x380060; 0x3aa860; 0x3ffb60; 0x3ffbf0; 0x30c1fe; 0x30c07c; 0x30c064; 0x30c060;
   0x270c060; 0x67ec060; 0x77ff060; 0x363fc60; 0x3e07c74; 0x3c0007c; 0x1c0003c; 0x0;
   0x0; 0x0; 0x0; 0x202000; 0x0; 0x0; 0x0; 0xe00e0;
   0xe00e0; 0xe00e0; 0xe00e0; 0x3fff8e0; 0x3fffae8; 0xe03fc; 0xe03fc; 0xe00e0].
Definition hanzi_data_158 : list N :=
  [0xe00e0; 0x1fff0e0; 0x1fff0e0; 0x7e0; 0x3e0; 0x15551fc; 0x1fff0fc; 0x1fff0e4;
   0x1c030e0; 0x1c070e0; 0x1c030e0; 0x1c070e0; 0x1c030e0; 0x1fff0f4; 0x1fff078; 0x1c07078;
   0x0; 0x0; 0x0; 0x0; 0x202000; 0x0; 0x0; 0x0;
   0x60; 0xfff060; 0x1fff060; 0xeaa060; 0x700060; 0x3c02e8; 0xe03fc; 0x10e03fc;
   0x38ffc60; 0x1cefc60; 0xfec060; 0x3ec060; 0x36e360; 0x3663e0; 0x7671fe; 0xe6307c;
   0x1c63864; 0x3861c60; 0x3060e60; 0x6c460; 0x7c060; 0x8060; 0x3fffe70; 0x3fffe78;
   0x1555478; 0x0; 0x0; 0x0; 0x0; 0x202000; 0x0; 0x0;
   0x0; 0x70c060; 0x30e060; 0x70e060; 0x30e060; 0x70e060; 0x30e2e8; 0x3fffffc;
   0x3fffbfc; 0x70e060; 0x30e060; 0x70e060; 0x30e060; 0x70e3e0; 0x30e3f0; 0x7fffdfe;
   0x3fffc7e; 0x7fffc64; 0x60; 0x70c060; 0x70e060; 0xe07060; 0x1c03860; 0x3c01c60;
   0x3800e7c; 0x100047c; 0x0; 0x0; 0x0; 0x0; 0x202000; 0x0;
   0x0; 0x0; 0xe000; 0x30e0c0; 0x3861c0; 0x186380; 0x5d7750; 0xfffff0;
   0xfffff0; 0x1800; 0x3fffffc; 0x3fffffc; 0x15f5754; 0xe0380; 0x3ffdc0; 0xf0fff0;
   0x7e0607c; 0x3bfffdc; 0x33fffc4; 0x6000; 0x557550; 0xfffff8; 0x1557550; 0x6000;
   0x6000; 0x7e00; 0x7e00; 0x0; 0x0; 0x0; 0x0; 0x202000;
   0x0; 0x0; 0x0; 0x60060; 0x60060; 0xf0060; 0xf8060; 0x1dc060;
   0x38c2e8; 0x70f7fc; 0x1e073fc; 0x7c03c60; 0x3fffe60; 0x2fff460; 0xaea060; 0x60360;
   0x603e0; 0x601fc; 0xfff87c; 0x1fff864; 0x60060; 0x60060; 0x60060; 0x60060;
   0x60060; 0x7fffc74; 0x3fffc7c; 0x7c; 0x0; 0x0; 0x0; 0x0;
   0x202000; 0x0; 0x0; 0x0; 0x10040e0; 0x39ce0e0; 0x1cc70e0; 0xce30e0;
   0xe73df4; 0x631ffc; 0xe73ffc; 0x1ce70e0; 0x39c60e0; 0x318e0e0; 0x10f44e0; 0x307e0;
   0x1ff87f0; 0x3ffc0fe; 0x3d5e0fc; 0x18070e4; 0x1c13ce0; 0xe39ce0; 0x7700e0; 0x3e00e0;
   0x1e00e0; 0xf80e0; 0x3fcfc; 0xfef8; 0x1c10; 0x0; 0x0; 0x0;
   0x0; 0x202000; 0x0; 0x0; 0x0; 0x30060; 0x30060; 0x3830060;
   0x1bff860; 0x1fff860; 0xe302e8; 0x7303fc; 0x3b03fc; 0x7fffc60; 0x3fffc60; 0xf0060;
   0x78060; 0x1ffc3e0; 0x1ffe3f0; 0x1fdfe; 0xfe7e; 0xcf64; 0xffe260; 0xffe060;
   0xc00060; 0xc00060; 0xe00060; 0x600074; 0x7f807c; 0x7f007c; 0x0; 0x0;
   0x0; 0x0; 0x202000; 0x0; 0x0; 0x0; 0x404060; 0xc06060;
   0xe0e060; 0x60c060; 0x71c060; 0x3082e8; 0x3fffbfc; 0x3fffbfc; 0x71c060; 0x30c060;
   0x71c060; 0x30c060; 0x71c3e0; 0x3fffff0; 0x3fffdfe; 0x30c07e; 0x70c064; 0x30c060;
   0x70e060; 0x30e060; 0x707060; 0x303060; 0x703c74; 0x301e7c; 0x700c3c; 0x0;
   0x0; 0x0; 0x0; 0x202000; 0x0; 0x0; 0x0; 0x70060;
   0x30060; 0x70060; 0xaba860; 0x1fffc60; 0x1abbae8; 0x1c71ffc; 0x1871bfc; 0x1fffc60;
   0x1fff860; 0x1c71c60; 0x1861860; 0x1d75fe0; 0x1fffbe0; 0x1fffdfe; 0x8e187c; 0x1ce0064;
   0xec0060; 0x7c0060; 0x23c0060; 0x61f0060; 0x23be060; 0x771fe70; 0x3f03c7c; 0x1c0043c;
   0x0; 0x0; 0x0; 0x0; 0x202000; 0x0; 0x0; 0x0;
   0x600e0; 0x600e0; 0xf00e0; 0xf00e0; 0x1f80e0; 0x39c2e8; 0x71c7fc; 0xe0e7fc;
   0x1c070e0; 0x3fff8e0; 0x37ffce0; 0x8e0; 0x7e0; 0x7e0; 0xfff1fc; 0xfff0fc;
   0xe070e4; 0xe030e0; 0xe070e0; 0xe030e0; 0xe070e0; 0xeab0e0; 0xfff0f4; 0xfff0f8;
   0xe07078; 0x0; 0x0; 0x0; 0x0; 0x202000; 0x0; 0x0;
   0x0; 0xe000; 0xf800; 0x7fc00; 0xf0f80; 0x7d57f0; 0x7fffffe; 0x3c5551c;
   0x2aaa80; 0x3fffc0; 0x3000c0; 0x3555c0; 0x3fffc0; 0x100000; 0x7ffea0; 0x17fff0;
   0x6000; 0x1fffff0; 0xfffff0; 0x6000; 0x3fffffc; 0x3fffffc; 0x6000; 0x6000;
   0x7e00; 0x7e00; 0x0; 0x0; 0x0; 0x0; 0x202000; 0x0;
   0x0; 0x0; 0x60060; 0x60060; 0x60060; 0xaea860; 0x1fff860; 0x1fffae8;
   0x603fc; 0x603fc; 0x60060; 0x3fffc60; 0x7fffc60; 0x600060; 0x6003e0; 0x2eaabf0;
   0x3fffdfe; 0x3fff87e; 0x604064; 0x606060; 0x60e060; 0x60c060; 0x61c060; 0x608060;
   0x700060; 0x7e007c; 0x3e007c; 0x0; 0x0; 0x0; 0x0; 0x202000;
   0x0; 0x0; 0x0; 0x600e0; 0x600e0; 0x600e0; 0x600e0; 0x1fff8e0;
   0x1fffae8; 0x607fc; 0x603fc; 0x600e0; 0x2aea8e0; 0x3fffce0; 0x3fff8e0; 0x607e0;
   0x607e0; 0x601fc; 0xaea8fc; 0x1fff8e4; 0x1fff8e0; 0x600e0; 0x600e0; 0x600e0;
   0x600e0; 0x7fffe74; 0x3fffe7c; 0x7c; 0x0; 0x0; 0x0; 0x0;
   0x202000; 0x0; 0x0; 0x0; 0x70e0; 0x30e0; 0xf070e0; 0xfe30e0;
   0x1ff0e0; 0x3f2e8; 0x70077fc; 0x30037fc; 0x30070e0; 0x3ffe0e0; 0x1ffe0e0; 0xe0;
   0x7e0; 0x1fff7f0; 0x1fff1fe; 0x18030fe; 0x18070e4; 0x1fff0e0; 0x1fff0e0; 0x18030e0;
   0x18070e0; 0x18030e0; 0x1fff0e0; 0x1fff0fc; 0x1807078; 0x0; 0x0; 0x0;
   0x0; 0x202000; 0x0; 0x0; 0x0; 0x180; 0xaa8180; 0x1ffdffc;
   0x1ae9ffc; 0x1860180; 0x1861ff8; 0x1871ff8; 0x1830180; 0x1c39ffc; 0x1f9dffc; 0xf0e180;
   0x3e0180; 0x7fffe0; 0x2ffe0; 0x6000; 0xfffff0; 0x1fffff0; 0x6000; 0x1557554;
   0x3fffffc; 0x3fffffc; 0x6000; 0x6000; 0x7e00; 0x7e00; 0x0; 0x0;
   0x0; 0x0; 0x202000; 0x0; 0x0; 0x0; 0x70060; 0x60060;
   0x60060; 0x2aea860; 0x3fffc60; 0x3fffae8; 0x3051ffc; 0x3031bfc; 0x3039c60; 0x38060;
   0x555d460; 0x3fffc60; 0x7fffc60; 0x60e7e0; 0x70e7f8; 0x7060fe; 0x70707c; 0x39f060;
   0x1fc060; 0x1f0060; 0x7f0060; 0xff8060; 0x1e1f060; 0x380fc7c; 0x100187c; 0x0].
Definition hanzi_data_159 : list N :=
  [0x0; 0x0; 0x0; 0x202000; 0x0; 0x0; 0x0; 0x70060;
   0x60060; 0x70060; 0x2aba860; 0x3fffc60; 0x3fffffc; 0x39c3fc; 0x70e2e8; 0xe07060;
   0x3fff860; 0x7bffe60; 0x2000c60; 0x360; 0x3fffbe0; 0x3fffdfc; 0xc07e; 0xe06c;
   0xaae060; 0x1ffe060; 0xeaa060; 0xc00060; 0xc00060; 0xe00074; 0x7f807c; 0x7f003c;
   0x0; 0x0; 0x0; 0x0; 0x202000; 0x0; 0x0; 0x0;
   0x1cc060; 0x18c060; 0x1cc060; 0x118c060; 0x39ccc60; 0x198cee8; 0x1dcdffc; 0xd8fbfc;
   0xfcf060; 0x78f060; 0x1cc060; 0x18c260; 0x3cc3e0; 0x78e3f8; 0x1fcf07e; 0x3d8fc6e;
   0x79cdf64; 0x318e660; 0x1c6060; 0x2186060; 0x71c7060; 0x2183860; 0x7fc1e60; 0x3f80f7c;
   0x1f0067c; 0x0; 0x0; 0x0; 0x0; 0x202000; 0x0; 0x0;
   0x0; 0x38060; 0x30060; 0x70060; 0x3fffc60; 0x3fffc60; 0x3aaace8; 0x3800dfc;
   0x3b80dfc; 0x3ff0c60; 0xfe060; 0x1f860; 0x18860; 0x183e0; 0x3e183f0; 0x3ffc1fe;
   0x3ffe7e; 0x1fc64; 0x18060; 0x18060; 0x3018060; 0x3018060; 0x3818060; 0x1ff8074;
   0x1ff807c; 0x55003c; 0x0; 0x0; 0x0; 0x0; 0x202000; 0x0;
   0x0; 0x0; 0x70060; 0x60060; 0xe0060; 0x3fffc60; 0x3fffc60; 0x3000ee8;
   0x3108ffc; 0x339cffc; 0x70e060; 0xe07060; 0x1c03c60; 0x1801a60; 0x5553e0; 0xfffbf8;
   0x7ff87e; 0xe006c; 0x70060; 0x3c060; 0x101e060; 0x3007060; 0x3003060; 0x3003860;
   0x3fff860; 0x1fff07c; 0x7c; 0x0; 0x0; 0x0; 0x0; 0x202000;
   0x0; 0x0; 0x0; 0x701c0; 0x30180; 0x5745d4; 0x7feffc; 0x7ffffc;
   0x630180; 0x63efc0; 0x63eff8; 0x6781fc; 0x2efc180; 0x6cce1c0; 0x3c879f8; 0x3c031f0;
   0x7ffa80; 0x1ffff0; 0x6000; 0x1fffff0; 0xfffff0; 0x6000; 0x3fffffc; 0x3fffffc;
   0x6000; 0x6000; 0x7e00; 0x7e00; 0x0; 0x0; 0x0; 0x0;
   0x202000; 0x0; 0x0; 0x0; 0x7000; 0x6000; 0x3fffffc; 0x3fffffc;
   0x1575d54; 0x130cc0; 0x7b0cc0; 0xf30ce0; 0x1e30c70; 0x3830c38; 0x1830c18; 0x3b0c00;
   0x7fffe0; 0x2ffe0; 0x6000; 0xfffff0; 0x1fffff0; 0x6000; 0x6000; 0x3fffffc;
   0x3fffffc; 0x6000; 0x6000; 0x7e00; 0x7e00; 0x0; 0x0; 0x0;
   0x0; 0x202000; 0x0; 0x0; 0x0; 0x400070; 0xe00860; 0xe01c70;
   0xe01860; 0xe01870; 0x3ffb8e8; 0x7ffb1fc; 0xe001fc; 0xe00070; 0xe38060; 0xe73e70;
   0xe63fe0; 0xee31f0; 0xec30fc; 0xfc307c; 0xe03064; 0xe03070; 0xe03060; 0xfc3070;
   0x7c3860; 0x7c70; 0x3ce60; 0x7ff877c; 0x3fe027c; 0x3c; 0x0; 0x0;
   0x0; 0x0; 0x202000; 0x0; 0x0; 0x0; 0x380070; 0x380860;
   0x381c70; 0x381860; 0x383870; 0x3830e8; 0x15d11fc; 0x3ff81fc; 0x3ff8070; 0x183e60;
   0x383e70; 0x383a60; 0x7c31f0; 0xec31f8; 0xcc30fc; 0xce307c; 0x1c63074; 0x1873060;
   0x383b070; 0x303b060; 0x1017070; 0xf860; 0x7ffde74; 0x3ff8e7c; 0x1fc043c; 0x0;
   0x0; 0x0; 0x0; 0x202000; 0x0; 0x0; 0x0; 0x60060;
   0x60060; 0x60060; 0x60060; 0x3fff860; 0x3fffae8; 0x603fc; 0xc633fc; 0xc67060;
   0xe66060; 0x666060; 0x66e060; 0x766360; 0x3ffffe0; 0x3fffdfe; 0x2afa87c; 0x1f0064;
   0x1b0060; 0x3b8060; 0x39c060; 0x71e060; 0xe0f060; 0x3c07c60; 0x3803e7c; 0x1000c7c;
   0x0; 0x0; 0x0; 0x0; 0x202000; 0x0; 0x0; 0x0;
   0x1c060; 0xc060; 0x101c060; 0x1ff8060; 0x1fffc60; 0x83fae8; 0x1c303fc; 0xe303fc;
   0x7f0060; 0x11e0060; 0x31ff060; 0x3b9fe60; 0x1f07be0; 0xe003f0; 0x3fffc7c; 0x3fffc7c;
   0x15dd464; 0x18c060; 0x19c060; 0x18c060; 0x318e060; 0x3187060; 0x3587c74; 0x3f83e7c;
   0x1f00c3c; 0x0; 0x0; 0x0; 0x0; 0x202000; 0x0; 0x0;
   0x0; 0x600e0; 0x600e0; 0x18638e0; 0x18630e0; 0x1c630e0; 0xc672e8; 0xc677fc;
   0xe667fc; 0x6660e0; 0x600e0; 0x1fff8e0; 0x1fff8e0; 0x18007e0; 0x18007f0; 0x18001fe;
   0x1fff8fe; 0x1fff8e4; 0x1aaa8e0; 0x18000e0; 0x18000e0; 0x18000e0; 0x1fffce0; 0x1fffcf4;
   0x1800078; 0x180007c; 0x0; 0x0; 0x0; 0x0; 0x202000; 0x0;
   0x0; 0x0; 0x60; 0xf80060; 0x1fff860; 0xff860; 0x70060; 0x302e8;
   0x303fc; 0x3fffffc; 0x3fffc60; 0x39c060; 0x70c060; 0x70e260; 0x1e073e0; 0x3e0bbf8;
   0x7b0fefe; 0x30ec7c; 0x30e064; 0x30e060; 0x306060; 0x306060; 0x307060; 0x303060;
   0x303c74; 0x301e7c; 0x300c3c; 0x0; 0x0; 0x0; 0x0; 0x202000;
   0x0; 0x0; 0x0; 0x1c070; 0xc060; 0x3fe070; 0x3fe060; 0x3d7070;
   0x183aea; 0x1c1ffe; 0xfffffe; 0x1fffe70; 0xc30060; 0x1c70070; 0xc30260; 0x7fffff0;
   0x3fffff8; 0x1c7007e; 0xc3006e; 0x1fff874; 0xfff860; 0x1d75070; 0x830060; 0x70070;
   0x30060; 0x71074; 0x3e07c; 0x3e03c; 0x0; 0x0; 0x0; 0x0;
   0x202000; 0x0; 0x0; 0x0; 0x30060; 0x30060; 0x70060; 0x3fffc60;
   0x3fffc60; 0x6062e8; 0x7063fc; 0x30e3fc; 0x39c060; 0x1f8060; 0x1f0060; 0x7fe060;
   0x7f9fde0; 0x3803ff8; 0x70607e; 0x30607c; 0x706064; 0x306060; 0x706060; 0x306060;
   0x707060; 0x303860; 0x701c7c; 0x300e7c; 0x70043c; 0x0; 0x0; 0x0;
   0x0; 0x202000; 0x0; 0x0; 0x0; 0x70; 0x2aaa860; 0x3fffc70;
   0x3fffc60; 0x3818c70; 0x3818ce8; 0x381cdfc; 0xfff9fc; 0xfff870; 0xe060; 0xe6070;
   0xe6060; 0xe7170; 0x1fffbf0; 0x1fff9fe; 0xaea87e; 0xe0074; 0xe0060; 0x7fffe70;
   0x3fffe60; 0xe0070; 0xe0060; 0xe0074; 0xe007c; 0xe003c; 0x0; 0x0;
   0x0; 0x0; 0x202000; 0x0; 0x0; 0x0; 0x60; 0xaaa860;
   0x1fff860; 0xeaa860; 0x1c00060; 0xeaa2e8; 0x1fff3fc; 0xeaa3fc; 0x1c00060; 0xc00060].
Definition hanzi_data_160 : list N :=
  [0x1fff860; 0xfff860; 0x7003e0; 0x6003f0; 0x7fffdfe; 0x3fffc7e; 0x5755464; 0x603060;
   0x70f060; 0x60e060; 0x71c060; 0x608060; 0x7e0074; 0x3e007c; 0x14003c; 0x0;
   0x0; 0x0; 0x0; 0x202000; 0x0; 0x0; 0x0; 0x10060;
   0x38060; 0x39c060; 0x30e060; 0x707060; 0xffbae8; 0x1fffffc; 0x380fbfc; 0x1807060;
   0x3060; 0x1fff860; 0x1fff860; 0x1575de0; 0x30ff0; 0x705fe; 0x2abaa7e; 0x7ffff64;
   0x3fffe60; 0x78060; 0xf8060; 0x1de060; 0x38f060; 0x1f07c74; 0x3e01f7c; 0x380063c;
   0x0; 0x0; 0x0; 0x0; 0x202000; 0x0; 0x0; 0x0;
   0x70; 0x1f9fe30; 0x3f9fe70; 0x319ba30; 0x3999870; 0x19998b8; 0x19999fc; 0x19999fc;
   0x1d9fe70; 0xd9fe30; 0xd99870; 0xd99830; 0x19999f0; 0x19999f8; 0x319fe7e; 0x319fe3c;
   0x3199874; 0x3198830; 0x3199c70; 0x3f98c30; 0x1d98e70; 0x198630; 0x198774; 0x19f3bc;
   0x18f11c; 0x0; 0x0; 0x0; 0x0; 0x202000; 0x0; 0x0;
   0x0; 0x70060; 0x60060; 0x71060; 0xe63060; 0xe73060; 0x6632e8; 0x6733fc;
   0x663bfc; 0xf77860; 0x1f6f860; 0x3bfdc60; 0x31f8f60; 0x71f8fe0; 0x20e07f8; 0x7047e;
   0xaea86c; 0x1fffc64; 0x1fff860; 0x70060; 0x60060; 0x70060; 0x60060; 0x7ffff74;
   0x3fffe7c; 0x7c; 0x0; 0x0; 0x0; 0x0; 0x202000; 0x0;
   0x0; 0x0; 0x60; 0x3fff860; 0x3fff860; 0x2aab860; 0x3860; 0x3ae8;
   0x1fffbfc; 0x1ffbbfc; 0x3860; 0x3860; 0x3fff860; 0x3fff860; 0x15dfb60; 0x119bbe0;
   0x399b9fe; 0x1f9b87c; 0xf19864; 0x319860; 0x719860; 0xe19860; 0x1d19c60; 0x1df8c60;
   0x79f8c70; 0x303ce78; 0x18478; 0x0; 0x0; 0x0; 0x0; 0x202000;
   0x0; 0x0; 0x0; 0x30030; 0x2300f8; 0x7331e0; 0xe33880; 0x1c31c1c;
   0x3a30e78; 0x77307b0; 0x3b0080; 0x1e00e0; 0xf8070; 0x1fc38; 0x203e1c; 0x7ff50c;
   0xfffe0; 0x7540; 0xaaeaa0; 0x1fffff0; 0xaaeaa0; 0x6000; 0x3fffffc; 0x3fffffc;
   0x6000; 0x6000; 0x7e00; 0x7e00; 0x0; 0x0; 0x0; 0x0;
   0x202000; 0x0; 0x0; 0x0; 0x60; 0xfff060; 0xfff060; 0xc03060;
   0xc03060; 0xc032e8; 0xfff3fc; 0xfff3fc; 0x60; 0x60; 0x1fff860; 0x1fff860;
   0x1861be0; 0x1861bf0; 0x18619fe; 0x1aeb87e; 0x1fff864; 0xaab860; 0x1860; 0x1001860;
   0x7001860; 0x3001860; 0x3fff874; 0x3fff87c; 0x55403c; 0x0; 0x0; 0x0;
   0x0; 0x202000; 0x0; 0x0; 0x0; 0x1000070; 0x3e07e60; 0x1fffe70;
   0x3f6060; 0x317070; 0x3031fc; 0x3031fc; 0x3038e8; 0x301870; 0x3fefc60; 0x3fefe70;
   0x30c060; 0x30c1f0; 0x30e5f8; 0x306c7c; 0x306c6c; 0x307c70; 0x3ff7860; 0x3ff3870;
   0x3060; 0x7870; 0x3fc60; 0x7ffce74; 0x3ff077c; 0x150023c; 0x0; 0x0;
   0x0; 0x0; 0x202000; 0x0; 0x0; 0x0; 0x1c060; 0xc060;
   0x1fc060; 0x3fe060; 0x3d7060; 0x1832e8; 0x1c3ffc; 0x1fffffc; 0x1fffe60; 0x1861c60;
   0x1861860; 0x1861860; 0x1871be0; 0x1aebbe0; 0x1fff9fe; 0x1fff87c; 0xf0064; 0xf8060;
   0xd8060; 0x20dc060; 0x60ce060; 0x60cf060; 0x7fc7c74; 0x3fc1f7c; 0x150063c; 0x0;
   0x0; 0x0; 0x0; 0x202000; 0x0; 0x0; 0x0; 0x60;
   0x3fff860; 0x3fffc60; 0x38060; 0x18060; 0x182e8; 0xfffbfc; 0xfffbfc; 0xc1c060;
   0xe0c060; 0xe0c060; 0x2eae860; 0x7ffffe0; 0x2aaabf0; 0x1fe; 0xaaa87e; 0x1fff864;
   0xeab860; 0x1c03860; 0xc03860; 0x1c03860; 0xc03860; 0x1fff874; 0xfff87c; 0x1c0383c;
   0x0; 0x0; 0x0; 0x0; 0x202000; 0x0; 0x0; 0x0;
   0x60; 0xfff860; 0xfff860; 0xc38060; 0xc38060; 0xc382e8; 0x3fffffc; 0x3fffffc;
   0xc1c060; 0xc1c060; 0xd5d060; 0xfff860; 0xfffbe0; 0x63e0; 0x71fe; 0x1fff87c;
   0x1fffc64; 0x1807e60; 0x1c06f60; 0x1806660; 0x1c06060; 0x1806060; 0x1ffe074; 0x1ffe078;
   0x1c0603c; 0x0; 0x0; 0x0; 0x0; 0x202000; 0x0; 0x0;
   0x0; 0x60; 0xfff860; 0x1fff860; 0xe00060; 0x78c060; 0x1fe2e8; 0x1f03fc;
   0x3c03fc; 0x1fffc60; 0x1fff860; 0x1861c60; 0x1861860; 0x1ffffe0; 0x1fffbf0; 0x1fffdfe;
   0x186187e; 0x1861c64; 0x1fff860; 0x1fffc60; 0x1861860; 0x1861c60; 0x1861860; 0x1861c60;
   0x1e6187c; 0x1e61c7c; 0x0; 0x0; 0x0; 0x0; 0x202000; 0x0;
   0x0; 0x0; 0x60; 0x2aaa860; 0x3fffc60; 0x3aaac60; 0x3861c60; 0x3860ffc;
   0x3861ffc; 0x3860ee8; 0x3fffc60; 0x3ffec60; 0x3871c60; 0x38f0c60; 0x39f9fe0; 0x3b78fe0;
   0x3f6ddfc; 0x3e6ec7e; 0x3c67c64; 0x3862c60; 0x3861c60; 0x3860c60; 0x3861c60; 0x3aaac60;
   0x3fffc60; 0x3fffc7c; 0x3801c7c; 0x0; 0x0; 0x0; 0x0; 0x202000;
   0x0; 0x0; 0x0; 0x60; 0xfff060; 0x1fff060; 0xeab060; 0x1c03060;
   0xc032e8; 0x1c033fc; 0xc033fc; 0x1fff060; 0xfff060; 0x1575060; 0x60060; 0x60360;
   0x633f0; 0x3fe31fe; 0x3fe307e; 0x1563064; 0x63860; 0x63860; 0x67860; 0x6fc60;
   0x7cc60; 0x7ff8e60; 0x3ff077c; 0x150067c; 0x0; 0x0; 0x0; 0x0;
   0x202000; 0x0; 0x0; 0x0; 0x1c00060; 0x1fe0060; 0x1fffc60; 0x83fc60;
   0x3870060; 0x1863ae8; 0x1c633fc; 0xce33fc; 0xec7060; 0x6c6060; 0x700060; 0x600060;
   0x7003e0; 0x3fffff0; 0x7fffdfe; 0x60207e; 0x707064; 0x606060; 0x70e060; 0x61c060;
   0x71c060; 0x608060; 0x750074; 0x7e007c; 0x3e007c; 0x0; 0x0; 0x0;
   0x0; 0x202000; 0x0; 0x0; 0x0; 0x3800070; 0x383fc20; 0x383fc70;
   0x39b0c20; 0x39b0c70; 0x39b0ca8; 0x39b0dfc; 0x39b0dfc; 0x39bfc70; 0x39bfc20; 0x3983070;
   0x39831a0; 0x39831f0; 0x39bfefc; 0x39bfe7c; 0x39b3024; 0x39b3070; 0x39b3820; 0x39b1870;
   0x3831820; 0x3831c70; 0x3830c20; 0x3838e70; 0x3f1e73c; 0x1f1e33c; 0x0; 0x0].
Definition hanzi_data_161 : list N :=
  [0x0; 0x0; 0x202000; 0x0; 0x0; 0x0; 0xe0; 0x1fff0e0;
   0x1fff0e0; 0x18030e0; 0x18070e0; 0x1fff2e8; 0x1fff7fc; 0x18037fc; 0x18070e0; 0x1fff0e0;
   0x1fff0e0; 0xe0; 0x1fff7e0; 0x1fff7e0; 0x1fff1fc; 0xe00fc; 0xe00e4; 0x3fffce0;
   0x3fffce0; 0x2aea8e0; 0xe00e0; 0xe00e0; 0xe00f4; 0xe00f8; 0xe0078; 0x0;
   0x0; 0x0; 0x0; 0x202000; 0x0; 0x0; 0x0; 0xe0060;
   0x30e1860; 0x38e3860; 0x18e7060; 0x1ce7060; 0xeee2e8; 0x4e47fc; 0xe03f8; 0x1fff060;
   0x1fff060; 0x1803060; 0x1803060; 0x1fff760; 0x1fff3e0; 0x1d571fe; 0x180307c; 0x1803064;
   0x1fff060; 0x1fff060; 0x1803060; 0x1803060; 0x1803060; 0x1d03074; 0x1f83078; 0xf03078;
   0x0; 0x0; 0x0; 0x0; 0x202000; 0x0; 0x0; 0x0;
   0xe0; 0x1fff0e0; 0x1fff0e0; 0x18030e0; 0x18030e0; 0x18032e8; 0x1fff7fc; 0x1aab3fc;
   0x18030e0; 0x18030e0; 0x1fff0e0; 0x1fff0e0; 0x607e0; 0xe07f0; 0xe01fe; 0x3fff8fe;
   0x3fff8e4; 0x2aea8e0; 0xe00e0; 0xe00e0; 0xe00e0; 0xe00e0; 0x7fffee0; 0x3fffefc;
   0x78; 0x0; 0x0; 0x0; 0x0; 0x202000; 0x0; 0x0;
   0x0; 0xe0; 0x1ffe0e0; 0x1fff0e0; 0x18060e0; 0x1c070e0; 0x18062e8; 0x1fff7fc;
   0x1ffe7fc; 0xe0; 0xe0; 0x3fff0e0; 0x3fff0e0; 0x38037e0; 0x38037e0; 0x3fff1fe;
   0x3fff0fc; 0x38030e4; 0x38030e0; 0x3fff0e0; 0x3fff0e0; 0x38030e0; 0x38030e0; 0x38030e0;
   0x1f030f8; 0x1f03078; 0x0; 0x0; 0x0; 0x0; 0x202000; 0x0;
   0x0; 0x0; 0x600e0; 0xf600e0; 0x1e600e0; 0x18600e0; 0x3fffce0; 0x3fffee8;
   0x607fc; 0x603fc; 0x3fff8e0; 0x3fff8e0; 0x3fff8e0; 0x38618e0; 0x3861fe0; 0x3fffff0;
   0x3fff9fe; 0x38618fe; 0x38618e4; 0x3aeb8e0; 0x3fff8e0; 0x3aeb8e0; 0x38618e0; 0x38618e0;
   0x38618e0; 0x3e618fc; 0x1e6187c; 0x0; 0x0; 0x0; 0x0; 0x202000;
   0x0; 0x0; 0x0; 0x30c060; 0x30c060; 0x30c060; 0x3fffc60; 0x3fffc60;
   0x30c3fc; 0x30c3fc; 0x2e8; 0x3fffc60; 0x3fffc60; 0x3000c60; 0x3020c60; 0x3070de0;
   0x303f8; 0x1fff8fe; 0x1fff87c; 0x1c30060; 0xc38060; 0xc18060; 0xc1c060; 0xc0e060;
   0xe0f060; 0x7e7c74; 0x7c1e7c; 0x3c043c; 0x0; 0x0; 0x0; 0x0;
   0x202000; 0x0; 0x0; 0x0; 0x60; 0xfff060; 0xfff060; 0xe03060;
   0xe07060; 0xe032e8; 0xfff7fc; 0xfff3fc; 0x60; 0xaaa860; 0x1fff860; 0x1aab860;
   0x1c03f60; 0x1863be0; 0x1c639fc; 0x186387e; 0x1c63864; 0x1863860; 0x1c73860; 0x83b860;
   0x7bc060; 0xf1e060; 0x1e07c74; 0x3803e7c; 0x300047c; 0x0; 0x0; 0x0;
   0x0; 0x202000; 0x0; 0x0; 0x0; 0x60060; 0x70060; 0x70060;
   0xf8060; 0x1dc060; 0x38e2e8; 0x7073fc; 0x1e03bfc; 0x7fffc60; 0x3bfee60; 0x2154460;
   0x60; 0x18303e0; 0x1821bf0; 0x1c731fe; 0xc6307e; 0xe63064; 0x663060; 0x767060;
   0x302060; 0x300060; 0x180060; 0x3fffc74; 0x3fffc7c; 0x3c; 0x0; 0x0;
   0x0; 0x0; 0x202000; 0x0; 0x0; 0x0; 0x1c060; 0x1c060;
   0x7fc060; 0xffe060; 0x757060; 0x383ae8; 0x1c1ffc; 0xfffffc; 0xfffc60; 0xc63860;
   0xc63860; 0xc63860; 0xc63b60; 0xc63be0; 0xc739fe; 0x3fffe7c; 0x3fffe60; 0xf8060;
   0x1dc060; 0x19c060; 0x78f060; 0xf07860; 0x1e03c74; 0x3800f78; 0x3000678; 0x0;
   0x0; 0x0; 0x0; 0x202000; 0x0; 0x0; 0x0; 0x70060;
   0x38060; 0xfff860; 0xfff860; 0xd57860; 0xe0bae8; 0xe1fbfc; 0xe7bbfc; 0x673860;
   0x6c3860; 0x7c3860; 0x3860; 0x3fffbe0; 0x3fffbf8; 0x30001fe; 0x300c07e; 0x319cc64;
   0x398cc60; 0x399cc60; 0x398cc60; 0x19ffc60; 0x19ffc60; 0x1d80074; 0x1f8007c; 0xf8007c;
   0x0; 0x0; 0x0; 0x0; 0x202000; 0x0; 0x0; 0x0;
   0x70060; 0x30060; 0x1575460; 0x3fff860; 0x3fffc60; 0x382e8; 0x1fffbfc; 0x1fffbfc;
   0x1c060; 0xc060; 0x7fffe60; 0x3fffe60; 0x7773e0; 0xe63bf8; 0x1d75c7e; 0x3ffee6e;
   0x37fe760; 0x60060; 0x1fffc60; 0x1fff860; 0x1575460; 0x60060; 0x70060; 0x6007c;
   0x7007c; 0x0; 0x0; 0x0; 0x0; 0x202000; 0x0; 0x0;
   0x0; 0x70060; 0x60060; 0xe0060; 0x1fff860; 0x1fff860; 0x1801ae8; 0x1801bfc;
   0x1801bfc; 0x1fff860; 0x1fff860; 0x1555860; 0x6c1860; 0x1ec1b60; 0x18c1bf0; 0x3fff9fe;
   0x3fff87c; 0x15d5c64; 0x1e1860; 0x1e1c60; 0x3e0c60; 0x770e60; 0xe38660; 0x3c1e774;
   0x380f378; 0x1007238; 0x0; 0x0; 0x0; 0x0; 0x202000; 0x0;
   0x0; 0x0; 0x700e0; 0x700e0; 0x700e0; 0x1fff8e0; 0x1fff8e0; 0x1861ae8;
   0x1861ffc; 0x1fffbfc; 0x1fff8e0; 0x18618e0; 0x18618e0; 0x18618e0; 0x1ffffe0; 0x1fffff0;
   0x1bc1fe; 0x19e0fe; 0x18f8e4; 0x2babae0; 0x7fffee0; 0x3fffee0; 0x1800e0; 0x1800e0;
   0x1800e0; 0x1800fc; 0x18007c; 0x0; 0x0; 0x0; 0x0; 0x202000;
   0x0; 0x0; 0x0; 0x60; 0x3fff860; 0x3fff860; 0x3801860; 0x3801860;
   0x3801ae8; 0x3fffbfc; 0x3fffbfc; 0x15d5860; 0xc1860; 0x1c1860; 0x3fff860; 0x7fffbe0;
   0xc1bf0; 0x1c19fe; 0xc187e; 0x3fffc64; 0x3fffc60; 0x380fc60; 0x380ec60; 0x380ec60;
   0x380ee60; 0x3ffe774; 0x3ffe77c; 0x380e23c; 0x0; 0x0; 0x0; 0x0;
   0x202000; 0x0; 0x0; 0x0; 0x1000070; 0x182aa60; 0x19ffe70; 0x19aba60;
   0x1983070; 0x19898e8; 0x1999dfc; 0x19b8dfc; 0x19bfc70; 0x19bfe60; 0x19e1e70; 0x19a61e0;
   0x19861f0; 0x19860fc; 0x19ffe7c; 0x19bfe64; 0x1986070; 0x1986060; 0x1906070; 0x1866060;
   0x187fc70; 0x181fe60; 0x1f81f74; 0x1f8007c; 0x3c; 0x0; 0x0; 0x0;
   0x0; 0x202000; 0x0; 0x0; 0x0; 0xe0; 0x3fff8e0; 0x3fffce0;
   0x18e0; 0x1c1ce0; 0xc1ae8; 0x1ffdffc; 0x1ffdbfc; 0x15d5ce0; 0xc18e0; 0x1c1ce0].
Definition hanzi_data_162 : list N :=
  [0x3fff8e0; 0x3ffffe0; 0x1bf8; 0x1c1dfe; 0xc08fe; 0x15d5ce0; 0x3ffece0; 0x3ffece0;
   0xc0ce0; 0x1c0ee0; 0xc0ee0; 0x7fff7e0; 0x3fff77c; 0x27c; 0x0; 0x0;
   0x0; 0x0; 0x202000; 0x0; 0x0; 0x0; 0x400070; 0xff8060;
   0xfff870; 0x6b860; 0x60070; 0x600e8; 0x3fffdfc; 0x3fffdfc; 0x1f77470; 0xe62060;
   0xe67070; 0x2eea860; 0x7fffdf0; 0x3ffffe0; 0xe671fe; 0xe6207c; 0x1f77474; 0x3fffc60;
   0x3fffc70; 0x60060; 0x60070; 0x60060; 0x1fff874; 0x1fff878; 0x38; 0x0;
   0x0; 0x0; 0x0; 0x202000; 0x0; 0x0; 0x0; 0x60060;
   0x60060; 0x3fffc60; 0x3fffc60; 0x1575460; 0x602e8; 0x1fffbfc; 0x1fffbfc; 0x1c60060;
   0x3aea860; 0x7fffc60; 0x3aeaa60; 0x1c603e0; 0x1fffbf8; 0x1fff87e; 0x6086e; 0x63860;
   0x1fe3860; 0x1fe1860; 0x63860; 0x67c60; 0x6ec60; 0x557ce60; 0x3ff877c; 0x3fc037c;
   0x0; 0x0; 0x0; 0x0; 0x202000; 0x0; 0x0; 0x0;
   0x70060; 0x70060; 0x70060; 0x2aba860; 0x3fffc60; 0x3fffee8; 0x39c3fc; 0x70e3fc;
   0xf07060; 0x1e03860; 0x7fffe60; 0x33fee60; 0x760; 0x3f0; 0x1fffdfe; 0x1fff87e;
   0x1575464; 0x60060; 0x667060; 0xc63860; 0x1c61860; 0x3861c60; 0x3060e60; 0x307c47c;
   0x7c078; 0x0; 0x0; 0x0; 0x0; 0x202000; 0x0; 0x0;
   0x0; 0x60060; 0x70060; 0xf0060; 0xf8060; 0x3dc060; 0x78e2e8; 0x1f373fc;
   0x3c73ffc; 0x30e1c60; 0x40060; 0x1fff860; 0xfff860; 0x700360; 0x3003e0; 0x3b01fc;
   0x1b007c; 0x66064; 0xce7860; 0x1dc7c60; 0x1806c60; 0x3606c60; 0x3606e60; 0x7756774;
   0x3fe07c; 0x1fc03c; 0x0; 0x0; 0x0; 0x0; 0x202000; 0x0;
   0x0; 0x0; 0x70060; 0x60060; 0x60060; 0x3fff860; 0x3fffc60; 0x2aaaae8;
   0x60c3fc; 0x60e3fc; 0x706060; 0x306060; 0xf9f060; 0x1dbb860; 0x39d1fe0; 0x10c1ff8;
   0x609fe; 0x6007e; 0x7fffc64; 0x3fffc60; 0x7fffc60; 0x60060; 0x60060; 0x60060;
   0x60074; 0x6007c; 0x6003c; 0x0; 0x0; 0x0; 0x0; 0x202000;
   0x0; 0x0; 0x0; 0x180070; 0x19e060; 0x19fc70; 0x183e60; 0x1fc0e70;
   0x3fc0ee8; 0x35c0ffc; 0x30caffc; 0x1bffe70; 0x1b6ee60; 0x1f7ee70; 0xf2ee60; 0xb0e7f0;
   0x30eff8; 0x30e67c; 0x38e67c; 0x78e674; 0x78e660; 0x78e670; 0xcce660; 0xcce770;
   0x18ee360; 0x386e374; 0x303e33c; 0x102401c; 0x0; 0x0; 0x0; 0x0;
   0x202000; 0x0; 0x0; 0x0; 0x70060; 0x60060; 0xe0060; 0x2aea860;
   0x7fffc60; 0x3fffee8; 0xc1ffc; 0xc0ffc; 0xc1c60; 0x2ac0c60; 0x3fc1c60; 0x2ac0e60;
   0xc1fe0; 0xc0ff8; 0xc1c7e; 0x1ffec6c; 0x1ffec60; 0x1806c60; 0x1806c60; 0x1806e60;
   0x1806660; 0x1ffe660; 0x1ffe774; 0x1aae37c; 0x180627c; 0x0; 0x0; 0x0;
   0x0; 0x202000; 0x0; 0x0; 0x0; 0x70; 0xa8a860; 0x1fdfc70;
   0x1a9a860; 0x181c070; 0xcccce8; 0xfcfdfc; 0xf8f1fc; 0x1f1f070; 0x1f9b860; 0x39f1c70;
   0xe0e60; 0x5f0; 0x3fffff8; 0x3fffe7c; 0x38d807c; 0x18dc474; 0x1d8ce60; 0xd8fc70;
   0xf87060; 0x71f070; 0xf9f860; 0x1de9e70; 0x38f87fc; 0x303033c; 0x0; 0x0;
   0x0; 0x0; 0x202000; 0x0; 0x0; 0x0; 0xc00060; 0x1fe8060;
   0x7ffc60; 0x80b860; 0x1c71860; 0xc63aea; 0xc633fe; 0x6663fe; 0x3fffc60; 0x3fffc60;
   0x3000c60; 0x3000e60; 0x3000fe0; 0xfffbf8; 0xfff8fe; 0xe0706e; 0x706060; 0x30e060;
   0x39c060; 0x1f8060; 0xf0060; 0x3fc060; 0x1fdfc60; 0x3e03e7c; 0x3c00c7c; 0x0;
   0x0; 0x0; 0x0; 0x202000; 0x0; 0x0; 0x0; 0x70060;
   0x60060; 0x3ff0060; 0x3fe0060; 0x1570060; 0x602e8; 0x1fffbfc; 0xfffbfc; 0x1d55860;
   0xc01860; 0x1fff860; 0xfff860; 0x1d55be0; 0xc01bf0; 0x1fff9fe; 0xfff87c; 0x1575064;
   0x60060; 0x7fffe60; 0x3fffe60; 0x5575460; 0x60060; 0x70074; 0x6007c; 0x7007c;
   0x0; 0x0; 0x0; 0x0; 0x202000; 0x0; 0x0; 0x0;
   0x70070; 0x60060; 0x60070; 0x1fff860; 0x1fff870; 0x6062e8; 0x6063fc; 0x60e3fc;
   0x70c070; 0x30c060; 0x57d5470; 0x3fffc60; 0x7fffdf0; 0x3f0; 0x1fe; 0xfff07e;
   0x1fff074; 0xc03060; 0x1c03070; 0xc03060; 0x1c03070; 0xc03060; 0x1fff074; 0xfff07c;
   0x1c0301c; 0x0; 0x0; 0x0; 0x0; 0x202000; 0x0; 0x0;
   0x0; 0x306040; 0x7060e0; 0x3861c0; 0x186180; 0x3fffffc; 0x3fffff8; 0x380001c;
   0x3bfff98; 0x3bfffdc; 0x380180; 0x3fffc0; 0x3fff80; 0x300000; 0x7fffa0; 0x7fff0;
   0x6000; 0x1fffff8; 0xfffff8; 0x6000; 0x2aaeaa8; 0x3fffffc; 0x6000; 0x6000;
   0x7f00; 0x7f00; 0x0; 0x0; 0x0; 0x0; 0x202000; 0x0;
   0x0; 0x0; 0xc0060; 0xc0060; 0xc0060; 0x3fff860; 0x3fff860; 0x602e8;
   0x1f03fc; 0x7b83fc; 0x1f1f060; 0x3c0f860; 0x1001860; 0x3fffc60; 0x7ffff60; 0xc003f0;
   0xc551fe; 0xcff07e; 0xcf7064; 0xce3060; 0xce3060; 0xceb060; 0xcff060; 0xc2b060;
   0xc03074; 0xf8007c; 0x78003c; 0x0; 0x0; 0x0; 0x0; 0x202000;
   0x0; 0x0; 0x0; 0x7070; 0x3060; 0x3070; 0x3860; 0x3fffc70;
   0x3fffce8; 0x3806dfc; 0x3806ffc; 0x39ff770; 0x39ff260; 0x3819870; 0x3819860; 0x38181f0;
   0x3bffdf8; 0x3bffc7c; 0x3b1987c; 0x1b19874; 0x1b19860; 0x1b19870; 0x1bff860; 0x1bff870;
   0x1800060; 0x1c00074; 0xf8007c; 0xf8003c; 0x0; 0x0; 0x0; 0x0;
   0x202000; 0x0; 0x0; 0x0; 0x18060; 0x38060; 0x1c060; 0xffc060;
   0xffc060; 0xe0e2e8; 0x7077fc; 0x3037fc; 0x383c60; 0x181c60; 0x138c60; 0xabe060;
   0x1fc7be0; 0x1a81bf0; 0x18019fe; 0x180187e; 0x1fff864; 0x1fbf860; 0x1801860; 0x1801860;
   0x1801860; 0x1aab860; 0x1fff874; 0x1aab87c; 0x1801878; 0x0; 0x0; 0x0].
Definition hanzi_data_163 : list N :=
  [0x0; 0x202000; 0x0; 0x0; 0x0; 0x3180e0; 0x3180e0; 0x3180e0;
   0x3180e0; 0x171d0e0; 0x3f1fae8; 0x3f1fffc; 0x3183fc; 0x3180e0; 0x3180e0; 0x3f1f8e0;
   0x3f1f8e0; 0x3187e0; 0x3187e0; 0x3181fc; 0x3180fc; 0x7f1fce4; 0x3f1f8e0; 0x3180e0;
   0x3180e0; 0x3180e0; 0x3180e0; 0x3180f4; 0x3180f8; 0x318078; 0x0; 0x0;
   0x0; 0x0; 0x202000; 0x0; 0x0; 0x0; 0x30070; 0x30060;
   0x70070; 0x3fffe60; 0x3fffe70; 0xe8; 0xc61fc; 0xc61fc; 0x1fe7070; 0x3fe3060;
   0x3871870; 0x18b1860; 0x19b1df0; 0x1b39ff0; 0xf7df7c; 0xe6fa7c; 0x6c5874; 0x6c1860;
   0x7c1870; 0x381860; 0x7c1870; 0xee1860; 0x1c79870; 0x383d83c; 0x100d83c; 0x0;
   0x0; 0x0; 0x0; 0x202000; 0x0; 0x0; 0x0; 0x60;
   0x3fffc60; 0x3fffc60; 0x3800c60; 0x3801c60; 0x3800ee8; 0x3fffffc; 0x3fffffc; 0x1c60;
   0xc0c60; 0x18c7c60; 0x18c6c60; 0x18c7de0; 0x18c6ff0; 0x1ffedfe; 0x1ffec7e; 0xc0c64;
   0x30c6c60; 0x30c6c60; 0x30c6e60; 0x30c6660; 0x30c6660; 0x3ffe774; 0x3ffe37c; 0x300023c;
   0x0; 0x0; 0x0; 0x0; 0x202000; 0x0; 0x0; 0x0;
   0x600e0; 0x600e0; 0x18660e0; 0x1c620e0; 0xc730e0; 0x663ae8; 0x671ffc; 0xf03fc;
   0x7f80e0; 0xf9c0e0; 0x1e0f8e0; 0x38638e0; 0x1061fe0; 0x8607f0; 0x18671fe; 0x1c630fe;
   0xc630e4; 0xe638e0; 0x6f1ce0; 0xf80e0; 0x3dc0e0; 0x78e0e0; 0x1f07ce0; 0x3c03efc;
   0x3000c7c; 0x0; 0x0; 0x0; 0x0; 0x202000; 0x0; 0x0;
   0x0; 0x70060; 0x70060; 0x60060; 0x3fff860; 0x3fffc60; 0x2e8; 0x3fc;
   0xfff3fc; 0x1fff060; 0xc03060; 0x1c03060; 0xc03060; 0x1c03360; 0xfff3e0; 0x1fff1fe;
   0x6007c; 0x467064; 0xe67060; 0xc63060; 0x1863860; 0x1861c60; 0x3860e60; 0x3074c74;
   0x7c07c; 0x7c07c; 0x0; 0x0; 0x0; 0x0; 0x202000; 0x0;
   0x0; 0x0; 0x60; 0xaaa860; 0x3fffc60; 0x3aaac60; 0x3800c60; 0x3988ee8;
   0x1b9cffc; 0x70e3fc; 0xe07060; 0x1c03860; 0x1871c60; 0x860860; 0x703e0; 0x3fffff0;
   0x3fffcfc; 0xf807c; 0x1fc064; 0x3ec060; 0x77e060; 0xe67060; 0x1c73c60; 0x3861e60;
   0x3070660; 0x6007c; 0x7007c; 0x0; 0x0; 0x0; 0x0; 0x202000;
   0x0; 0x0; 0x0; 0x1c00370; 0x1860330; 0x1c67ff8; 0x1867ff8; 0x1c6031c;
   0x186fffc; 0x1c65754; 0x1862ba8; 0x1c67ff8; 0x1866318; 0x1c06318; 0x1f07b18; 0x1f01318;
   0x3ffaa0; 0x7ffe0; 0x6000; 0x1fffff0; 0xfffff0; 0x6000; 0x3fffffc; 0x3fffffc;
   0x6000; 0x6000; 0x7e00; 0x7e00; 0x0; 0x0; 0x0; 0x0;
   0x202000; 0x0; 0x0; 0x0; 0x30060; 0x30060; 0x70060; 0x3fff860;
   0x3fff860; 0x6062e8; 0x7063fc; 0x30c3fc; 0x39c060; 0x3fffc60; 0x3fffc60; 0x30060;
   0x381e0; 0x183f0; 0x7fffffe; 0x3fffe7e; 0x706064; 0x707060; 0x30f060; 0x3bf060;
   0x1f8060; 0x7f8060; 0x1f7f070; 0x3c0fe7c; 0x1801c3c; 0x0; 0x0; 0x0;
   0x0; 0x202000; 0x0; 0x0; 0x0; 0x70060; 0x60060; 0x60060;
   0x3fffc60; 0x3fffc60; 0x3000ffc; 0x3101ffc; 0x33b8ee8; 0x71c060; 0xe0e060; 0x1c07060;
   0x3803860; 0x1001b60; 0xaaabe0; 0x1fff9fc; 0x1fff87e; 0x60064; 0x60060; 0x60060;
   0x60060; 0x60060; 0x60060; 0x7fffe74; 0x3fffe7c; 0x3c; 0x0; 0x0;
   0x0; 0x0; 0x202000; 0x0; 0x0; 0x0; 0xc4060; 0xce060;
   0x1c6060; 0x186060; 0x187060; 0x3fff2ea; 0x3fffbfe; 0x183aea; 0x1c3c60; 0x183e60;
   0x1fff760; 0x1fff660; 0x1c33e0; 0x1833e0; 0x1c31fe; 0xbab07e; 0x1fff064; 0x1fff060;
   0x1c3060; 0x183060; 0x1c3060; 0x3fff060; 0x3fff074; 0x307c; 0x307c; 0x0;
   0x0; 0x0; 0x0; 0x202000; 0x0; 0x0; 0x0; 0x70060;
   0x30060; 0x30060; 0x3fffc60; 0x7fffc60; 0x2bbeaea; 0x30e3fe; 0x76e3fe; 0xe67060;
   0x1c63860; 0x7fffe60; 0x3fffe60; 0x1c63fe0; 0xc63bf0; 0x1fff9fe; 0xeeb87e; 0x1c63864;
   0xc63860; 0x1fff860; 0xfff860; 0x7063860; 0x2060060; 0x3060074; 0x3fe007c; 0x1fc003c;
   0x0; 0x0; 0x0; 0x0; 0x202000; 0x0; 0x0; 0x0;
   0x71c060; 0x30c060; 0x71c060; 0x2bae860; 0x3fff860; 0x3fffae8; 0x71c3fc; 0x30c3fc;
   0x71c060; 0x3fffc60; 0x7fffc60; 0x60; 0x360; 0x1ffe3e0; 0x1fff1fe; 0x180607c;
   0x1c07064; 0x1ffe060; 0x1fff060; 0x1806060; 0x1c07060; 0x1806060; 0x1fff074; 0x1ffe07c;
   0x1c0703c; 0x0; 0x0; 0x0; 0x0; 0x202000; 0x0; 0x0;
   0x0; 0x6060; 0x6060; 0x7060; 0x3060; 0x3fff060; 0x3fffae8; 0x3001ffc;
   0x3038ffc; 0x3339f60; 0x333be60; 0x31bb060; 0x39bb060; 0x30fb3e0; 0x3fffff0; 0x3fffdfe;
   0x387c07e; 0x38fc064; 0x39fe060; 0x1bbf060; 0x1b3b860; 0x1839e60; 0x1838e60; 0x1d78474;
   0xfb807c; 0xf8003c; 0x0; 0x0; 0x0; 0x0; 0x202000; 0x0;
   0x0; 0x0; 0x60; 0xaaa860; 0x1fffc60; 0x1fff860; 0x30060; 0x302e8;
   0x383fc; 0x3fffffc; 0x3fffe60; 0x2baea60; 0x70e060; 0x606060; 0xe1f3e0; 0x1c1bbf0;
   0x7819ffe; 0x3e99e7e; 0xcdb464; 0xcdb860; 0x1999860; 0x3999860; 0x3198c60; 0x3198e60;
   0x18074; 0x1e07c; 0x1e03c; 0x0; 0x0; 0x0; 0x0; 0x202000;
   0x0; 0x0; 0x0; 0x70060; 0x60060; 0x15f5460; 0x3fffc60; 0x3fffc60;
   0x3800ee8; 0x3801ffc; 0x3aaaffc; 0x3fffc60; 0x2aaac60; 0x1c60; 0x1ffec60; 0x1fffde0;
   0x180edf8; 0x180fc7c; 0x1ffec6c; 0x1d5ec60; 0x180ec60; 0x1d5ee60; 0x1ffee60; 0x1d5e660;
   0x180e760; 0x180e774; 0x1f8e3f8; 0xf0e038; 0x0; 0x0; 0x0; 0x0;
   0x202000; 0x0; 0x0; 0x0; 0x1000100; 0x3e09bc0; 0x1fed9fc; 0x7ed87c;
   0x61dc64; 0x618c60; 0x618c60; 0x2eb8ee8; 0x3ff07fc; 0x3ffaffc; 0x61ff60; 0x61fe60].
Definition hanzi_data_164 : list N :=
  [0x619860; 0x619ae8; 0x7ff9ffc; 0x3ff8bfc; 0x61dc70; 0x618c30; 0x61cc30; 0x608c30;
   0x61c638; 0x60c618; 0x60f71c; 0x7c230e; 0x7c000c; 0x0; 0x0; 0x0;
   0x0; 0x202000; 0x0; 0x0; 0x0; 0x38070; 0x38060; 0xff8070;
   0xff8060; 0x38070; 0x3fffce8; 0x3fffdfc; 0x1818dfc; 0x1ffcc70; 0xbfec60; 0x181ec70;
   0x1838c60; 0x1ff0df0; 0xff8; 0x60c7e; 0x60c6c; 0x1ffec70; 0x1ffee60; 0x1870670;
   0x1830660; 0x1c30670; 0x1838760; 0x1c1e774; 0xf8fbfc; 0xf8713c; 0x0; 0x0;
   0x0; 0x0; 0x202000; 0x0; 0x0; 0x0; 0x60; 0x3fffc60;
   0x3fffc60; 0x3800c60; 0x3801c60; 0x3800ee8; 0x3fffffc; 0x3aeaffc; 0x3861c60; 0x3860c60;
   0x3861c60; 0x3bfcc60; 0x3bfdfe0; 0x39e0ff8; 0x3b61cfc; 0x3a60c6c; 0x3a61c60; 0x3ffec60;
   0x3fffc60; 0x3800c60; 0x3801c60; 0x3fffc60; 0x3fffc74; 0x3800c7c; 0x3801c3c; 0x0;
   0x0; 0x0; 0x0; 0x202000; 0x0; 0x0; 0x0; 0x18070;
   0x3fb8c20; 0x3f99c70; 0x3199820; 0x319d870; 0x19bfea8; 0x19bfffc; 0x19861fc; 0x1d87070;
   0xd86020; 0xd87070; 0x19861a0; 0x19ffff0; 0x39bfef8; 0x318707c; 0x318702c; 0x318f070;
   0x318f820; 0x3d9d870; 0x3fb9820; 0x1db1c70; 0x1b0e20; 0x1b0770; 0x1803bc; 0x18013c;
   0x0; 0x0; 0x0; 0x0; 0x202000; 0x0; 0x0; 0x0;
   0x604060; 0xe06060; 0x70e060; 0x31c060; 0x31c060; 0x3882e8; 0x1fffffc; 0x1fffbfc;
   0x1863860; 0x1863860; 0x1fff860; 0x1fff860; 0x1863be0; 0x1863bf0; 0x1fff9fe; 0x1fff87e;
   0x60064; 0x60060; 0x7fffc60; 0x3fffc60; 0x60060; 0x60060; 0x60074; 0x6007c;
   0x6003c; 0x0; 0x0; 0x0; 0x0; 0x202000; 0x0; 0x0;
   0x0; 0x10070; 0x138020; 0x39c070; 0x70e020; 0xff7870; 0x1fff8a8; 0x183f9fc;
   0x181fc; 0x3fffe70; 0x3fffe20; 0x38e070; 0x707020; 0xe639f0; 0x3c71ff0; 0x383cffe;
   0x38fa3c; 0x1c7874; 0xf0020; 0x1c7e070; 0xe0f820; 0x7c3070; 0x3f0020; 0x7f070;
   0x1f83c; 0x183c; 0x0; 0x0; 0x0; 0x0; 0x202000; 0x0;
   0x0; 0x0; 0x60; 0x1fff060; 0x1fff060; 0x1c63860; 0x5c61c60; 0x3fffee8;
   0x7d75ffc; 0xc619fc; 0xfff860; 0xfff860; 0x60; 0xfff9e0; 0x1fffbf0; 0xc018fc;
   0x1c7187c; 0xc71864; 0x1c71860; 0xc71860; 0x1c71860; 0xc31860; 0x1fc060; 0x7de060;
   0x1f0fc7c; 0x3c03f7c; 0x100063c; 0x0; 0x0; 0x0; 0x0; 0x202000;
   0x0; 0x0; 0x0; 0x6070; 0x6060; 0xffe070; 0x7fe060; 0x607070;
   0x6ab2e8; 0x7ff3fc; 0x6003fc; 0x700070; 0x3fffe60; 0x7fffe70; 0x38060; 0x181f1f0;
   0x3e3bff8; 0xf71e7e; 0x3fc06c; 0x6ef074; 0x6e3e60; 0x6f0c70; 0xcfc060; 0x1ccf070;
   0x38c3c60; 0x70e1f70; 0x20fc27c; 0x7c03c; 0x0; 0x0; 0x0; 0x0;
   0x202000; 0x0; 0x0; 0x0; 0x60070; 0x70060; 0xf8070; 0x1dc060;
   0x78f070; 0xe078e8; 0x7d55ffc; 0x37ffffc; 0x7ff070; 0x800060; 0x193fc70; 0x19bfc60;
   0x19b0df0; 0x19b0df0; 0x19bfdfe; 0x19bfc7e; 0x19b0c74; 0x19bac60; 0x19bfc70; 0x19b0c60;
   0x1930c70; 0x1830c60; 0x1834c74; 0x1f3cc7c; 0xf1cc3c; 0x0; 0x0; 0x0;
   0x0; 0x202000; 0x0; 0x0; 0x0; 0xc0060; 0xcffc60; 0x1fffc60;
   0x798060; 0x1398860; 0x3b9fee8; 0x1f0fbfc; 0xf0e3fc; 0xe07060; 0x1e03860; 0x7fffc60;
   0x3ffee60; 0x70760; 0x603e0; 0x701fe; 0x3fffc7c; 0x3fffc64; 0xf0060; 0x1f8060;
   0x398060; 0x71e060; 0xe0f060; 0x1c07c74; 0x1801e7c; 0x1000c3c; 0x0; 0x0;
   0x0; 0x0; 0x202000; 0x0; 0x0; 0x0; 0x60; 0xfff060;
   0x1fff060; 0xf00060; 0x7dc060; 0x1f82e8; 0x15f57fc; 0x3fffbfc; 0x3df5460; 0x18d8060;
   0x1cde060; 0xcc7060; 0xfbfe0; 0x38bf8; 0x601fe; 0x6007e; 0x3fffc64; 0x3fffc60;
   0x1fc060; 0x3ee060; 0xf6f060; 0x1e63860; 0x7c61e60; 0x3060c7c; 0x6007c; 0x0;
   0x0; 0x0; 0x0; 0x202000; 0x0; 0x0; 0x0; 0x60060;
   0x60060; 0x1575460; 0x3fffc60; 0x3fffc60; 0x302e8; 0x1fffbfc; 0x1fffbfc; 0x18060;
   0x18060; 0x3fffc60; 0x3fffe60; 0x3073e0; 0x7ff1f8; 0x1fffc7c; 0x3c61e6c; 0x3070e64;
   0xfff860; 0xfff860; 0x38060; 0x1dc060; 0x78e060; 0x1f07060; 0x3c03e7c; 0x1000c7c;
   0x0; 0x0; 0x0; 0x0; 0x202000; 0x0; 0x0; 0x0;
   0x70060; 0x60060; 0x60060; 0x3fffc60; 0x3fffc60; 0x3000ee8; 0x3001ffc; 0x3fffffc;
   0xfff060; 0x60; 0xfff060; 0xfff860; 0xd57be0; 0xc03be0; 0xd579fe; 0xfff87c;
   0xd57864; 0xc03860; 0xd57860; 0xfff860; 0x555060; 0x60; 0x3fffe74; 0x3fffe7c;
   0x155543c; 0x0; 0x0; 0x0; 0x0; 0x202000; 0x0; 0x0;
   0x0; 0x70c060; 0x60c060; 0x70c060; 0x60c060; 0x3fffc60; 0x3fffee8; 0x70c3fc;
   0x60c3fc; 0x70c060; 0x208060; 0x1fff860; 0x1fff860; 0x1d75be0; 0x1861bf0; 0x18619fe;
   0x186187e; 0x1fff864; 0x1fff860; 0x1861860; 0x1861860; 0x1861860; 0x1aeb860; 0x1fff874;
   0x1aab87c; 0x180183c; 0x0; 0x0; 0x0; 0x0; 0x202000; 0x0;
   0x0; 0x0; 0x60; 0xfff860; 0x1fff860; 0xc03860; 0x1d57860; 0xfffaea;
   0x1c03bfe; 0xc03bfe; 0x1fff860; 0xfff860; 0x60; 0x60; 0x3ffffe0; 0x3fffff0;
   0x611fe; 0x6307e; 0x1fe3064; 0xfe3860; 0x1563860; 0x63860; 0x67c60; 0x6ec60;
   0x7ffce74; 0x3ff877c; 0x3fc023c; 0x0; 0x0; 0x0; 0x0; 0x202000;
   0x0; 0x0; 0x0; 0xc00060; 0xfe0060; 0x7ff860; 0x7f060; 0x60060;
   0x602e8; 0x3fffffc; 0x3fffffc; 0x1575460; 0x60060; 0x6c060; 0x1f6f860; 0x1f67b60;
   0x1861be0; 0x18619fe; 0x186187c; 0x1f6f864; 0x1f6f860; 0x1861860; 0x1861860; 0x1861860;
   0x1aeb860; 0x1fff874; 0x1fff878; 0x1801838; 0x0; 0x0; 0x0; 0x0].
Definition hanzi_data_165 : list N :=
  [0x202000; 0x0; 0x0; 0x0; 0x607060; 0x603060; 0x607060; 0x3fffe60;
   0x3fffe60; 0x6032e8; 0x7573fc; 0x7ff3fc; 0x757060; 0x603060; 0x7ff060; 0x7ff060;
   0x6073e0; 0x6033f0; 0x7fffffe; 0x3fffe7c; 0x331c64; 0x331860; 0x619c60; 0xe19860;
   0x1c0dc60; 0x1860; 0x3fffc74; 0x3fff87c; 0x3c; 0x0; 0x0; 0x0;
   0x0; 0x202000; 0x0; 0x0; 0x0; 0xe0; 0xffe0e0; 0x1fff0e0;
   0xc060e0; 0x1c070e0; 0xeae7fc; 0x1fff7fc; 0xaaa2e8; 0xe0; 0x3fff8e0; 0x7fffce0;
   0xc060e0; 0x1d577e0; 0xffe7e0; 0x1d571fe; 0xc060fc; 0x1fff0e4; 0xffe0e0; 0x1c070e0;
   0x2e060e0; 0x7fffce0; 0x2fffce0; 0x1c004f4; 0xc000f8; 0x1c00078; 0x0; 0x0;
   0x0; 0x0; 0x202000; 0x0; 0x0; 0x0; 0x700e0; 0x600e0;
   0xe00e0; 0x1fff8e0; 0x1fff8e0; 0xe062e8; 0x6067fc; 0x60e3fc; 0x70c0e0; 0x3fffce0;
   0x3fffce0; 0xe0; 0x7e0; 0xfff3e0; 0x1fff1fc; 0xc030fc; 0x1c030e4; 0xeab0e0;
   0x1fff0e0; 0xc030e0; 0x1c030e0; 0xc030e0; 0x1fff0f4; 0xfff078; 0x1c03078; 0x0;
   0x0; 0x0; 0x0; 0x202000; 0x0; 0x0; 0x0; 0x70;
   0x3fffc60; 0x3fffc70; 0xc60; 0x1ffcc70; 0xffcce8; 0x1c0cdfc; 0xffcdfc; 0x1ffcc70;
   0xc0cc60; 0x1ffcc70; 0xffcc60; 0x60df0; 0x3ffedf8; 0x3fffc7c; 0xe38c7c; 0x71cc74;
   0x3f8c60; 0x7e0c70; 0xff8c60; 0x1c7ec70; 0x802c60; 0x7fffc74; 0x3fffc7c; 0x3c;
   0x0; 0x0; 0x0; 0x0; 0x202000; 0x0; 0x0; 0x0;
   0x70; 0x1fffc60; 0x1fffc70; 0x1800c60; 0x1801c70; 0x1fffee8; 0x1fffffc; 0xffc;
   0x1c70; 0x1fffc60; 0x1fffc70; 0x638c60; 0xe1dff0; 0xe0cff0; 0x1fffdfe; 0x3afec7e;
   0xc0c74; 0xc0c60; 0x1fffe70; 0x1ffee60; 0xc0670; 0xc0660; 0x7ffff74; 0x3fffbfc;
   0x555513c; 0x0; 0x0; 0x0; 0x0; 0x202000; 0x0; 0x0;
   0x0; 0x60060; 0x1861860; 0x1861860; 0x1861860; 0x1861860; 0x1861ae8; 0x1fffbfc;
   0x1fffbfc; 0x60; 0x60; 0x7fffc60; 0x3fffc60; 0x703e0; 0x303f0; 0x3fffdfe;
   0x3fff87e; 0x3999c64; 0x3999860; 0x3999c60; 0x3999860; 0x3999c60; 0x3999860; 0x3999c74;
   0x3f9987c; 0x1d99c3c; 0x0; 0x0; 0x0; 0x0; 0x202000; 0x0;
   0x0; 0x0; 0x1c3860; 0xc3860; 0x11c3860; 0x38c3860; 0x1fff860; 0x7ffae8;
   0x1c3bfc; 0x20c3ae8; 0x71c3860; 0x30ff860; 0x3fffc60; 0x1fa3860; 0x70360; 0x303e0;
   0x1fff9fe; 0x1eab87c; 0x1c03864; 0x1c03860; 0x1fff860; 0x1fff860; 0x1c03860; 0x1c03860;
   0x1fff860; 0x1fff87c; 0x1c0387c; 0x0; 0x0; 0x0; 0x0; 0x202000;
   0x0; 0x0; 0x0; 0x700070; 0x31e060; 0x71fe70; 0x303e60; 0x707070;
   0x3030e8; 0x77471fc; 0x33431fc; 0x375fe70; 0x337fe60; 0x1767070; 0x1b67860; 0x1f7f9f0;
   0x170f9f8; 0x71fc7e; 0x79bc6e; 0x787e70; 0xd83660; 0xdc7770; 0xdc3360; 0x1cc7370;
   0x18e3060; 0x3877070; 0x307303c; 0x102703c; 0x0; 0x0; 0x0; 0x0;
   0x202000; 0x0; 0x0; 0x0; 0x60; 0x1fff060; 0x1fff060; 0x1803060;
   0x1c03060; 0x1fff2e8; 0x1fff3fc; 0x18033fc; 0x1fff060; 0x1fff060; 0x1557060; 0x6060;
   0x3fff3e0; 0x3fffbe0; 0x30c1dfc; 0x30e0e7c; 0x30e3c64; 0x39f3860; 0x339f860; 0x3a0b860;
   0x3fff860; 0x3bff860; 0x1800074; 0x1f00078; 0x1f00078; 0x0; 0x0; 0x0;
   0x0; 0x202000; 0x0; 0x0; 0x0; 0x630060; 0x631860; 0x631860;
   0x631860; 0x3fffe60; 0x3fffee8; 0x631bfc; 0x631bfc; 0x7f1860; 0x7f1860; 0x1860;
   0xaab860; 0x1fffbe0; 0xababe0; 0x701fe; 0x2abaa7c; 0x3fffe64; 0x2afaa60; 0x1fc060;
   0x3be060; 0x777060; 0xe33860; 0x3c71f74; 0x183067c; 0x107003c; 0x0; 0x0;
   0x0; 0x0; 0x202000; 0x0; 0x0; 0x0; 0x7070; 0x2aa2060;
   0x3fffc70; 0x3bbfc60; 0x3307070; 0x33020e8; 0x339fdfc; 0x319fdfc; 0x3187070; 0x398a860;
   0x19dfc70; 0x1eea860; 0x1e771f0; 0x21f8; 0x7007c; 0x7006c; 0x3fffe74; 0x3fffe60;
   0xf8070; 0xf8060; 0x1dc070; 0x38e060; 0x1f07c74; 0x3e03f7c; 0x300063c; 0x0;
   0x0; 0x0; 0x0; 0x202000; 0x0; 0x0; 0x0; 0xc00060;
   0x1ffe860; 0x7ffc60; 0x1c30860; 0xc33860; 0xe232e8; 0x7773fc; 0x3fffbfc; 0x3fffc60;
   0xc060; 0xc060; 0x3fffc60; 0x3fffe60; 0xe3e0; 0x5563fc; 0xffe07e; 0xd5f07c;
   0xe0f060; 0x71f060; 0x3bb860; 0x1f1c60; 0x3e1c60; 0x1ffcf60; 0x3e3f7fc; 0x380737c;
   0x0; 0x0; 0x0; 0x0; 0x202000; 0x0; 0x0; 0x0;
   0x70; 0x3faaa60; 0x7ffff70; 0x30bae60; 0x31d8c70; 0x1898ce8; 0x19d8dfc; 0x89fdfc;
   0xddfc70; 0xc98c60; 0xdd8c70; 0x1898c60; 0x19dddf0; 0x389fdf8; 0x31dfc7e; 0x3098c6c;
   0x31d8c74; 0x30b8c60; 0x3dffc70; 0x3e9ff60; 0x1dd8770; 0x98060; 0x1d8074; 0x9803c;
   0x1d801c; 0x0; 0x0; 0x0; 0x0; 0x202000; 0x0; 0x0;
   0x0; 0x70060; 0x60060; 0x70060; 0x3fffc60; 0x3fffc60; 0x2bfaae8; 0x3fc3fc;
   0x76e3fc; 0x1e77060; 0x3c63c60; 0x7871e60; 0x2aaa460; 0xfff360; 0xeab3e0; 0xc031fe;
   0xfff07c; 0xfff064; 0xc03060; 0xd57060; 0xfff060; 0x555060; 0x60; 0x3fffe70;
   0x3fffe78; 0x78; 0x0; 0x0; 0x0; 0x0; 0x202000; 0x0;
   0x0; 0x0; 0x18c070; 0x18cc60; 0x1ccc70; 0x3fccc60; 0x3fccc70; 0x6cc60;
   0x37cdfc; 0x73cdfc; 0x1e0cc70; 0x80c860; 0x70; 0xfff860; 0xfff970; 0xc019f0;
   0xc719fe; 0xc3187c; 0xc31870; 0xc31860; 0xc31870; 0xc79860; 0x7c070; 0x607e060;
   0x756fc70; 0x3fe3f7c; 0x154063c; 0x0; 0x0; 0x0; 0x0; 0x202000;
   0x0; 0x0; 0x0; 0xe0; 0xfff8e0; 0xfff8e0; 0xc038e0; 0xc038e0;
   0xeabae8; 0xfffffc; 0xeabffc; 0xc038e0; 0xc038e0; 0xfff8e0; 0xfff8e0; 0x7e0].
Definition hanzi_data_166 : list N :=
  [0x7e0; 0x1fffdfe; 0x1fff8fc; 0x199dce4; 0x18888e0; 0x199dce0; 0x18888e0; 0x199dce0;
   0x18888e0; 0x7fffff4; 0x3fffef8; 0x78; 0x0; 0x0; 0x0; 0x0;
   0x202000; 0x0; 0x0; 0x0; 0x180070; 0x181860; 0x1c1c70; 0xc0c60;
   0x1fdfc70; 0x3fdfee8; 0x3fe07fc; 0x30607fc; 0x337ff70; 0x1b3fc60; 0x1b23070; 0x303060;
   0x3031f0; 0x31fff8; 0x31ff7e; 0x38306c; 0x783070; 0x783060; 0x7d3070; 0xcdf060;
   0x1cff070; 0x1867860; 0x3871870; 0x303803c; 0x101003c; 0x0; 0x0; 0x0;
   0x0; 0x202000; 0x0; 0x0; 0x0; 0x18060; 0x1c060; 0x7fc060;
   0x3fe060; 0x387060; 0x183ae8; 0x1fffffc; 0x1aebbfc; 0x1863860; 0x1863860; 0x1fff860;
   0xafa060; 0x1d8360; 0x20dc3e0; 0x75cf1fe; 0x3f83c7c; 0x1f19f64; 0xfc260; 0x3f0060;
   0x380060; 0x1f860; 0x7e060; 0x3f0070; 0x780078; 0x600078; 0x0; 0x0;
   0x0; 0x0; 0x202000; 0x0; 0x0; 0x0; 0x470; 0x1ff8e60;
   0x1ff9c70; 0x1803860; 0x181b070; 0x1818ce8; 0x1bfcdfc; 0x1baece8; 0x19dfc70; 0x18dbc60;
   0x1871c70; 0x18f8de0; 0x19dcdf0; 0x1f8fcfe; 0x1f07c7e; 0x1bfec60; 0x1bfec70; 0x1b06c60;
   0x1b06c70; 0x1b06c60; 0x1bfec70; 0x1b06c60; 0x1906c74; 0x1e00c3c; 0x1e00c3c; 0x0;
   0x0; 0x0; 0x0; 0x202000; 0x0; 0x0; 0x0; 0x460060;
   0x1c63860; 0xc63060; 0xe67060; 0x766060; 0x3fffee8; 0x3fffffc; 0x1f83fc; 0x3fc060;
   0xf6e060; 0x1e67c60; 0x3861c60; 0x1070be0; 0x383f0; 0x155d5fe; 0x3fffc7c; 0x3fffc64;
   0x70e060; 0x307060; 0x38f060; 0x1fc060; 0x3f0060; 0x1fff060; 0x3e0fc7c; 0x1801c7c;
   0x0; 0x0; 0x0; 0x0; 0x202000; 0x0; 0x0; 0x0;
   0x1c19070; 0xc31c60; 0xe73870; 0x663060; 0x3fffe70; 0x3fffee8; 0x3d55ffc; 0x3800ffc;
   0x3fffe70; 0x2fffa60; 0x757870; 0x603860; 0x6739f0; 0x6339f8; 0x67387c; 0x63387c;
   0x633874; 0x6f3860; 0x6fb870; 0xf8060; 0x70fc070; 0x30ef060; 0x3fe7c74; 0x3fc1f7c;
   0x63c; 0x0; 0x0; 0x0; 0x0; 0x202000; 0x0; 0x0;
   0x0; 0xc00070; 0x1ff8060; 0x7ffc70; 0xcbc60; 0x3fc0c70; 0x3fc0ce8; 0xc0dfc;
   0xaeace8; 0x3ffec70; 0x3086c60; 0x30c6c70; 0xffec60; 0x15f6df0; 0x30c6ff8; 0x3fc6c7c;
   0x1f86c6c; 0x7e6c74; 0x7e6e60; 0x666e70; 0x666660; 0x2677670; 0x2633760; 0x663b774;
   0x3e1db7c; 0x1c0903c; 0x0; 0x0; 0x0; 0x0; 0x202000; 0x0;
   0x0; 0x0; 0xe0; 0x3fff8e0; 0x3fff8e0; 0x38038e0; 0x38038e0; 0x3aabae8;
   0x3fffffc; 0xaabbfc; 0x6338e0; 0x6338e0; 0x3fff8e0; 0x3fff8e0; 0x631fe0; 0x633be0;
   0x6319fc; 0x3fff8fc; 0x7fff8e4; 0x31998e0; 0x1f99ce0; 0xf18ce0; 0x718ce0; 0xf98ee0;
   0x1dfc7f4; 0x387e778; 0x300c278; 0x0; 0x0; 0x0; 0x0; 0x202000;
   0x0; 0x0; 0x0; 0x760060; 0xf60060; 0x1c60060; 0x3fffc60; 0x3fffc60;
   0x602e8; 0x1fffbfc; 0x1fffbfc; 0x1861860; 0x1aeb860; 0x1fff860; 0x1861a60; 0x1fffbe0;
   0x1fffbf8; 0x186187e; 0x1b0186e; 0x5755460; 0x3fffe60; 0x7fffe60; 0x303060; 0x707060;
   0x30e060; 0x71c060; 0x3e007c; 0x3e0078; 0x0; 0x0; 0x0; 0x0;
   0x202000; 0x0; 0x0; 0x0; 0x70070; 0xe0060; 0x3fffc70; 0x3fffc60;
   0x157d470; 0x23c0e8; 0x70f1fc; 0x3ff9fc; 0x5ff870; 0xe38060; 0x1c1f070; 0x3fffc60;
   0x37ffdf0; 0x30007e0; 0x1fff9fe; 0x1fff87c; 0x1861874; 0x1861860; 0x1fff870; 0x1fff860;
   0x1861870; 0x1861860; 0x1fff874; 0x1fff878; 0x1801838; 0x0; 0x0; 0x0;
   0x0; 0x202000; 0x0; 0x0; 0x0; 0x60060; 0x60060; 0x15f5060;
   0x3fff860; 0x175f460; 0x60c0e8; 0x70c1fc; 0x30c1fc; 0x3fffc60; 0x3fffc60; 0x3071c60;
   0x3060c60; 0x601e0; 0x3fffbf0; 0x3fffcfc; 0x1807c; 0x1c064; 0xffc060; 0xffc060;
   0xc0c060; 0xc0e060; 0xc06060; 0xe07874; 0xfe3e7c; 0x7c0c3c; 0x0; 0x0;
   0x0; 0x0; 0x202000; 0x0; 0x0; 0x0; 0x606070; 0x70e060;
   0x70e070; 0x38c060; 0x3fffc70; 0x3fffce8; 0x301fc; 0x301fc; 0x1fff870; 0x1fff860;
   0x18070; 0x18060; 0x3fffdf0; 0x3fffdf0; 0xe0fe; 0x607c; 0x1fff074; 0x1fff860;
   0x15d5c70; 0xc0e60; 0xc0f70; 0xc0760; 0x3fffd74; 0x3fff878; 0x38; 0x0;
   0x0; 0x0; 0x0; 0x202000; 0x0; 0x0; 0x0; 0x60;
   0xfffc60; 0x1fffc60; 0xe39860; 0x773060; 0x3e62e8; 0x3de3fc; 0xf83fc; 0x1f8060;
   0x7fe060; 0x7fffe60; 0x3831e60; 0x1fffbe0; 0xfffbf8; 0x1c719fe; 0xc3187e; 0x1c71864;
   0xfff860; 0x1fff860; 0x630060; 0xe70060; 0x1c30060; 0x1fffe60; 0x3bffe7c; 0x300007c;
   0x0; 0x0; 0x0; 0x0; 0x202000; 0x0; 0x0; 0x0;
   0x701070; 0x303820; 0x307070; 0x18e020; 0x3fffe70; 0x3fffea8; 0x1cc1fc; 0xcc1fc;
   0x1fffc70; 0xfff820; 0x1dcc070; 0x2aeea20; 0x7fffff0; 0x2aeebf8; 0x1dcc07e; 0xaee82c;
   0x1fffc70; 0x1ce020; 0x3cf070; 0x6cf820; 0xfcdc70; 0x1ccce20; 0x79cc774; 0x30cc33c;
   0x1cc01c; 0x0; 0x0; 0x0; 0x0; 0x202000; 0x0; 0x0;
   0x0; 0x60060; 0x68060; 0x1f7f060; 0x1f67860; 0x1861860; 0x1861ae8; 0x1f6fbfc;
   0x1f6fbfc; 0x1861860; 0x1861860; 0x1fff860; 0x1fffa60; 0x15753e0; 0x603f0; 0x6007c;
   0x1fff86c; 0x1fffc64; 0xe07060; 0x70e060; 0x39c060; 0x1f8060; 0x1f8060; 0x1fff074;
   0x3f0fe78; 0x1c01e38; 0x0; 0x0; 0x0; 0x0; 0x202000; 0x0;
   0x0; 0x0; 0x30060; 0x30060; 0x70060; 0x3fffc60; 0x3fffc60; 0x2ea;
   0xfff3fe; 0xfff3fe; 0xc03060; 0xc03060; 0xfff060; 0xfff060; 0x1e0; 0x1fffff8;
   0x1fffdfe; 0x1800c7e; 0x1bfdc64; 0x1bfcc60; 0x1b0dc60; 0x1b0cc60; 0x1bfdc60; 0x1bfcc60;
   0x1801c74; 0x1e00c7c; 0x1e01c3c; 0x0; 0x0; 0x0; 0x0; 0x202000].
Definition hanzi_data_167 : list N :=
  [0x0; 0x0; 0x0; 0x38470; 0x3f98c20; 0x3f99c70; 0x3199820; 0x318d870;
   0x31bfea8; 0x31ffffc; 0x3f820fc; 0x3fb7670; 0x31b2620; 0x31b7670; 0x31b2620; 0x31b77f0;
   0x31b27f0; 0x3fb767c; 0x3fbfe3c; 0x31bfe74; 0x30b3020; 0x31c3070; 0x30c3820; 0x30c1c70;
   0x30e0c20; 0x3060e74; 0x3e3063c; 0x1e3001c; 0x0; 0x0; 0x0; 0x0;
   0x202000; 0x0; 0x0; 0x0; 0x60; 0xfff860; 0x7ff860; 0x38e060;
   0x1ff060; 0x1f82e8; 0x7dfffc; 0x603bfc; 0x3fdfc60; 0x3fdfc60; 0x1cdcc60; 0xfcfe60;
   0x7077f0; 0x1f9fbfc; 0x39f9e7e; 0x60464; 0x3fffe60; 0x3fffe60; 0x1fc060; 0x1ec060;
   0x777060; 0xe63860; 0x7c71f60; 0x3860e7c; 0x7007c; 0x0; 0x0; 0x0;
   0x0; 0x202000; 0x0; 0x0; 0x0; 0x70; 0x1fdfe60; 0x1fdfe70;
   0x1818060; 0x181c070; 0x18180e8; 0x1fdfdfc; 0x1fdfdfc; 0xc0c70; 0xc0c60; 0xc0470;
   0x3fffe60; 0x3fffff0; 0x38181f8; 0x30d867c; 0x3998c6c; 0x3b9dc74; 0x3d1e860; 0x1f1f870;
   0x1bebe60; 0x19fcf70; 0x182c360; 0x1c0c070; 0x1f8f87c; 0xf0783c; 0x0; 0x0;
   0x0; 0x0; 0x202000; 0x0; 0x0; 0x0; 0x70060; 0x60060;
   0x60060; 0x3fff860; 0x3fffc60; 0xc1ae8; 0xc1ffc; 0xfffbfc; 0x1ffdc60; 0x8c1860;
   0x3fffc60; 0x3fff860; 0x1cc1fe0; 0xaebbf8; 0x1fffdfe; 0xaeac7e; 0xc1c64; 0x1ffec60;
   0x1ffec60; 0x1806c60; 0x1c06660; 0x1806660; 0x1ffe774; 0x1ffe37c; 0x1c0623c; 0x0;
   0x0; 0x0; 0x0; 0x202000; 0x0; 0x0; 0x0; 0x3030;
   0xfc3030; 0xfc3030; 0xccfe30; 0xcdfe30; 0xcc86b8; 0xcdd7fc; 0xcc9efc; 0x1cff630;
   0x386b630; 0x107f630; 0xaaae30; 0x1ffff30; 0x1aeaef0; 0x1cdd7f8; 0xcc9e7e; 0xddf63e;
   0xf8b630; 0x79f730; 0x708630; 0x71c730; 0xf88330; 0x1dfd330; 0x38ff3bc; 0x106711c;
   0x0; 0x0; 0x0; 0x0; 0x202000; 0x0; 0x0; 0x0;
   0x706060; 0x306060; 0x706060; 0x3fffe60; 0x3fffe60; 0x3062e8; 0x7663fc; 0x2723fc;
   0xf8060; 0x1dc060; 0x78f060; 0xe07b60; 0x7ffffe0; 0x3bfeff8; 0x47c; 0x6c;
   0xfff064; 0xfff060; 0xc03060; 0xc03060; 0xc03060; 0xc03060; 0xfff074; 0xfff07c;
   0xc0307c; 0x0; 0x0; 0x0; 0x0; 0x202000; 0x0; 0x0;
   0x0; 0x7000; 0xe000; 0x1fffffc; 0x1fffff8; 0x186061c; 0x1860618; 0x1fffffc;
   0x2eaea0; 0x575740; 0x7fffe0; 0x60600; 0x3fffffc; 0x3fffffc; 0xc0380; 0x3ff5c0;
   0xf3fee0; 0x3e0607c; 0x3bffffc; 0x13fffc4; 0x6000; 0xfffff0; 0xaaeaa0; 0x6000;
   0x7e00; 0x7c00; 0x0; 0x0; 0x0; 0x0; 0x202000; 0x0;
   0x0; 0x0; 0x67070; 0xe3060; 0xc3070; 0x3fff860; 0x3fff870; 0xc3ce8;
   0x1fffffc; 0xfffffc; 0xc3c70; 0xfff860; 0x1fff870; 0xc3860; 0x3fff9f0; 0x3fffbf8;
   0x38fc; 0x3ffc7c; 0x1ffc74; 0x18e060; 0x3fce070; 0x3a86060; 0x3807070; 0x3803860;
   0x1803c74; 0x1f80e7c; 0xf8063c; 0x0; 0x0; 0x0; 0x0; 0x202000;
   0x0; 0x0; 0x0; 0x706070; 0x306060; 0x706070; 0x3fffe60; 0x3fffe70;
   0x3260e8; 0x7761fc; 0x3761fc; 0xf8070; 0x1dc060; 0x38e070; 0xf27860; 0x1e73df0;
   0x3860ff0; 0x1fffcfe; 0xfff87c; 0x1fffc74; 0x260060; 0x777070; 0xe63860; 0x1c71c70;
   0x1860e60; 0x1870474; 0x3c078; 0x3c038; 0x0; 0x0; 0x0; 0x0;
   0x202000; 0x0; 0x0; 0x0; 0x1006100; 0x3e063c0; 0x1fe71fc; 0x7ef07c;
   0x61d864; 0x619860; 0x638c60; 0x2eb0ee8; 0x3fdfffc; 0x3fcfae8; 0x615460; 0x600060;
   0x615460; 0x2ebfee8; 0x7fffffc; 0x3ff8ffc; 0x618c60; 0x618c60; 0x618c70; 0x618c30;
   0x61fc30; 0x61fc38; 0x61dc1c; 0x7d8c0c; 0x7c000c; 0x0; 0x0; 0x0;
   0x0; 0x202000; 0x0; 0x0; 0x0; 0x60; 0xfff860; 0x1fffc60;
   0xc21860; 0x1c61c60; 0xeabae8; 0x1fffffc; 0xc31bfc; 0x1c71c60; 0xcd9860; 0x1f9dc60;
   0xd0f860; 0x1d55fe0; 0xfffbf0; 0x1fffc7c; 0x2007c; 0xc76c64; 0xce6c60; 0x18c6c60;
   0x3ac6660; 0x3606660; 0x3606360; 0x17fe374; 0x3fe078; 0x38; 0x0; 0x0;
   0x0; 0x0; 0x202000; 0x0; 0x0; 0x0; 0x70; 0x3fffe60;
   0x3fffe70; 0xe01860; 0xfff870; 0xfff9fc; 0xe019fc; 0xe01860; 0xfff870; 0xe01860;
   0x7f01870; 0x3ffffe0; 0xfffdf0; 0xa000fe; 0x3ffff7c; 0x3fffe64; 0x18cc070; 0x18cee60;
   0xdc7c70; 0xf87860; 0x707870; 0xf8fc60; 0x1fecf70; 0x38f87fc; 0x303013c; 0x0;
   0x0; 0x0; 0x0; 0x202000; 0x0; 0x0; 0x0; 0x30060;
   0x30060; 0x1ff0060; 0x1ff0060; 0x30060; 0x3fffee8; 0x3fffffc; 0x3830ffc; 0x1831c60;
   0x2b0c60; 0x7ffc60; 0x3ec60; 0x1031fe0; 0x1ff0ff8; 0x1ff0c7e; 0xc6e; 0x60c60;
   0xcdac60; 0x1ddec60; 0x199ae60; 0x341b660; 0x3c1b660; 0x7619f74; 0x7f93fc; 0x15013c;
   0x0; 0x0; 0x0; 0x0; 0x202000; 0x0; 0x0; 0x0;
   0x60; 0x3fff860; 0x3fffc60; 0x3199860; 0x3199c60; 0x3199ae8; 0x3199ffc; 0x3fffbfc;
   0x3fffc60; 0x60060; 0x60060; 0xaea860; 0x1fffbe0; 0xaeabf0; 0x601fe; 0x6007e;
   0x7fffc64; 0x3fffc60; 0x41c060; 0x60c060; 0xc0e060; 0x1e87060; 0x1fffc74; 0x3bff87c;
   0x100187c; 0x0; 0x0; 0x0; 0x0; 0x202000; 0x0; 0x0;
   0x0; 0xc00060; 0x1fe0060; 0x1fffc60; 0x83fc60; 0x1c31060; 0xc33ae8; 0xc633fc;
   0x6633fc; 0x707060; 0x1fff060; 0x1fff060; 0x61860; 0x61f60; 0x60bf0; 0x3fffdfe;
   0x3fffc7c; 0x1575464; 0x1860860; 0x1861c60; 0x1861860; 0x1861c60; 0x1861860; 0x1fffc74;
   0x1fff87c; 0x180003c; 0x0; 0x0; 0x0; 0x0; 0x202000; 0x0;
   0x0; 0x0; 0x70060; 0x70060; 0x60060; 0x3fffc60; 0x3fffc60; 0x3800ee8;
   0x3f00ffc; 0x3fffffc; 0x1ff060; 0x3060; 0x7060; 0x1fff060; 0x1fff3e0; 0x1833f0].
Definition hanzi_data_168 : list N :=
  [0x1c71fe; 0x18307e; 0x1c7064; 0x3fffe60; 0x3fffe60; 0x204060; 0x79e060; 0xe0f860;
   0x1c03c74; 0x3800e7c; 0x300043c; 0x0; 0x0; 0x0; 0x0; 0x202000;
   0x0; 0x0; 0x0; 0x1c0070; 0x6c0020; 0x6c0070; 0xee0020; 0xc67e70;
   0x2ab7ea8; 0x3ff71fc; 0x2eba1fc; 0x63f270; 0x63f620; 0x633670; 0x3ff3da0; 0x3ff3df0;
   0x6338fc; 0x63387e; 0x633824; 0x3ff7870; 0x3ff7c20; 0x636c70; 0x636e20; 0x630770;
   0x2eb03a0; 0x7ff0170; 0x2ab003c; 0x3003c; 0x0; 0x0; 0x0; 0x0;
   0x202000; 0x0; 0x0; 0x0; 0x30060; 0x30060; 0x1575460; 0x1fffc60;
   0x1fffc60; 0x180e8; 0x1fffdfc; 0xfff9fc; 0x1c060; 0xc060; 0x3fffe60; 0x3fffe60;
   0x7071e0; 0xe0b9f8; 0x1fdfc7c; 0x3fcfe7c; 0x3601f64; 0x2601a60; 0x7df860; 0x7cf860;
   0x601860; 0x601860; 0x7ff874; 0x7ff87c; 0x60183c; 0x0; 0x0; 0x0;
   0x0; 0x202000; 0x0; 0x0; 0x0; 0x60; 0x3fffc60; 0x3fffc60;
   0x3800c60; 0x3801c60; 0x3800ee8; 0x3fffffc; 0x3fffffc; 0x411c60; 0xc18c60; 0x639c60;
   0x630e60; 0x3ffffe0; 0x3ffeff8; 0x631c7c; 0x630c6c; 0x630c60; 0x3fffc60; 0x7fffc60;
   0x638e60; 0x618660; 0x618660; 0x61c760; 0x60e37c; 0x60427c; 0x0; 0x0;
   0x0; 0x0; 0x202000; 0x0; 0x0; 0x0; 0x30070; 0x30060;
   0x1575470; 0x3fffe60; 0x3fffe70; 0x10300e8; 0x3838ffc; 0x1999dfc; 0xdff870; 0x4fe060;
   0x474070; 0xfbb060; 0x1d9ddf0; 0x3bfefe0; 0x33fe7fe; 0x22207c; 0x70074; 0x2abaa60;
   0x3fffe70; 0x2abaa60; 0x70070; 0x30060; 0x70074; 0x3007c; 0x7003c; 0x0;
   0x0; 0x0; 0x0; 0x202000; 0x0; 0x0; 0x0; 0x70060;
   0x60060; 0x3fffc60; 0x3fffc60; 0x706060; 0x30e2e8; 0x30c3fc; 0x1fffffc; 0x1fffc60;
   0x1860c60; 0x1861c60; 0x1aeac60; 0x1fffd60; 0x1860fe0; 0x1861dfe; 0x1bfcc7e; 0x1bfdc64;
   0x1b0cc60; 0x1b0dc60; 0x1bacc60; 0x1bfdc60; 0x180cc60; 0x1801c74; 0x1f00c7c; 0x1f01c3c;
   0x0; 0x0; 0x0; 0x0; 0x202000; 0x0; 0x0; 0x0;
   0x30070; 0x70060; 0x7fffe70; 0x3fffe60; 0x5555470; 0xb84ce8; 0x1ddfdfc; 0x8f8dfc;
   0x1df9c70; 0xb9ec60; 0x1d05c70; 0xfffc60; 0x1fffdf0; 0x701f8; 0x157547c; 0x3fffe7c;
   0x3fffe74; 0x3898e60; 0x398ce70; 0x3bfee60; 0x3ffee70; 0x3a02e60; 0x3800e74; 0x3f00e7c;
   0x1f00e3c; 0x0; 0x0; 0x0; 0x0; 0x202000; 0x0; 0x0;
   0x0; 0x60; 0x1fff860; 0x1fff860; 0x1861860; 0x1861860; 0x1fffae8; 0x1fffbfc;
   0x1861bfc; 0x1fff860; 0x1fff860; 0x38060; 0x71e060; 0x3ff360; 0xffbf0; 0xe7d1fe;
   0xc3c07c; 0x1fff064; 0x3fff860; 0x7067860; 0x662060; 0x1c67060; 0x1863860; 0x3861c74;
   0x307cc7c; 0x7c07c; 0x0; 0x0; 0x0; 0x0; 0x202000; 0x0;
   0x0; 0x0; 0x60060; 0x3861860; 0x3861860; 0x3861860; 0x3861860; 0x3fffae8;
   0x3fffbfc; 0xe23fc; 0xc7060; 0x1c3060; 0x3fff860; 0x3fff860; 0x1c3fe0; 0xc3fe0;
   0x3fffffe; 0x3fffe7c; 0x1c3864; 0xc3860; 0x3fff860; 0x3fff860; 0x1c3860; 0xc3860;
   0x7fff874; 0x3fff878; 0x3838; 0x0; 0x0; 0x0; 0x0; 0x202000;
   0x0; 0x0; 0x0; 0xe000; 0xc000; 0x3fffff8; 0x3fffff8; 0x300c38;
   0x300c38; 0x3fffff8; 0x3fffff8; 0x7c3e38; 0xfe6f38; 0x3b74df8; 0x3330cf8; 0x740c18;
   0xffffb8; 0x5ff18; 0x18018; 0x1ffff98; 0x1ffff98; 0x18018; 0x3ffffd8; 0x3ffffdc;
   0x1800c; 0x1800c; 0x1f80e; 0x1f804; 0x0; 0x0; 0x0; 0x0;
   0x202000; 0x0; 0x0; 0x0; 0x70060; 0xe0060; 0xe0060; 0x3fffc60;
   0x7fffc60; 0x1ee8; 0xe31ffc; 0xe31ffc; 0xe31c60; 0x3fffc60; 0x3fffc60; 0xe31c60;
   0xe31fe0; 0xe31ff0; 0xe31cfc; 0xff0c7c; 0xff1c64; 0xc60; 0x1d04c60; 0x19b6e60;
   0x1b76e60; 0x3326660; 0x3767774; 0x22633fc; 0x33c; 0x0; 0x0; 0x0;
   0x0; 0x202000; 0x0; 0x0; 0x0; 0x70; 0x1fff860; 0x1fffc70;
   0x60060; 0x3fffc70; 0x3fffce8; 0x3060dfc; 0x3f6fdfc; 0x1f6f470; 0x60060; 0x1f6f870;
   0x60060; 0x1fff970; 0x1fffbe0; 0x1fe; 0x3fffe7c; 0x7fffe74; 0xe060; 0x1ffe070;
   0xfff060; 0xc00070; 0xc00060; 0xe00074; 0x7f807c; 0x7f003c; 0x0; 0x0;
   0x0; 0x0; 0x202000; 0x0; 0x0; 0x0; 0x30c060; 0x30c060;
   0x3fffc60; 0x3fffc60; 0x30c060; 0x30c2e8; 0x1fffbfc; 0xfffbf8; 0x1d55860; 0xc01860;
   0x1fff860; 0xfff860; 0x1c01b60; 0xfffbe0; 0x1fff9fe; 0x7007c; 0x70064; 0x3fffe60;
   0x3fffe60; 0xf8060; 0x1dc060; 0x38e060; 0x1f07c74; 0x3e03e7c; 0x1000e3c; 0x0;
   0x0; 0x0; 0x0; 0x202000; 0x0; 0x0; 0x0; 0x60700;
   0x60600; 0x3fffffc; 0x2aeaea8; 0x60700; 0x7fffe0; 0x755560; 0x6aaae0; 0x7fffe0;
   0x600060; 0x7fffe0; 0x7fffe0; 0x1555f54; 0x3fffffc; 0x15d57d4; 0x3bffc0; 0xf07ef0;
   0x3eaeabe; 0x39fff9c; 0x6000; 0xfffff0; 0xfffff0; 0x6000; 0x7e00; 0x7c00;
   0x0; 0x0; 0x0; 0x0; 0x202000; 0x0; 0x0; 0x0;
   0x60; 0x3fdfe60; 0x3fdfe60; 0x3898060; 0x39d9c60; 0x3b9bae8; 0x3f1b3fc; 0x3c1c3fc;
   0x3f1f060; 0x3bdbe60; 0x39d9c60; 0x3828060; 0x703e0; 0xababf0; 0x1fff9fe; 0xeab87e;
   0x1c01864; 0xc01860; 0x1fff860; 0xeab860; 0x1c01860; 0xc01860; 0x1fff874; 0xfff87c;
   0x1c0183c; 0x0; 0x0; 0x0; 0x0; 0x202000; 0x0; 0x0;
   0x0; 0x60; 0x2aaaa60; 0x3fffe60; 0x188060; 0x19c060; 0x3fffee8; 0x3fffffc;
   0x3988ffc; 0x399cc60; 0x3988c60; 0x3fffc60; 0x3fffe60; 0x3e0; 0x1fffbf8; 0x1fff87e;
   0x6e; 0x3fffe60; 0x3fffe60; 0x70060; 0x663060; 0x1e73860; 0x1c61c60; 0x3870e60;
   0x307e67c; 0x103c07c; 0x0; 0x0; 0x0; 0x0; 0x202000; 0x0].
Definition hanzi_data_169 : list N :=
  [0x0; 0x0; 0x60; 0x1fff860; 0x1d75860; 0x1861860; 0x1fff860; 0x1fffae8;
   0x1861bfc; 0x1aebbfc; 0x1fff860; 0xe060; 0xfff060; 0xfff260; 0xf07fe0; 0x79fff8;
   0x1f847e; 0x3f806c; 0x7fffc60; 0x3e03e60; 0x1fffc60; 0xfff860; 0xc03860; 0xc03860;
   0xfff860; 0xfff87c; 0xc0387c; 0x0; 0x0; 0x0; 0x0; 0x202000;
   0x0; 0x0; 0x0; 0x70; 0x1fdfc60; 0x1fdfc70; 0x16dac60; 0x16dec70;
   0x16daeea; 0x16deffe; 0x12daffe; 0x17dbc70; 0x12dbc60; 0x707070; 0xf8f860; 0x1dd9df0;
   0x38e8ff0; 0x10585fe; 0x1807c; 0x7fffe74; 0x2eaea60; 0x706070; 0x387060; 0x1ff070;
   0x3f8060; 0x1fff074; 0x3e1fe7c; 0x1801c3c; 0x0; 0x0; 0x0; 0x0;
   0x202000; 0x0; 0x0; 0x0; 0x70; 0x3fffc60; 0x3fffc70; 0x2aaac60;
   0x667c70; 0x266ce8; 0x366dfc; 0x326dfc; 0x7f7fc70; 0x3fffc60; 0x3318c70; 0x2d5bc60;
   0x35dbdf0; 0x3ddbff8; 0x355bc7e; 0xe5be7c; 0xe5f674; 0xe7f660; 0xe5d670; 0xa18660;
   0x1b1c770; 0x1b0c360; 0x3187374; 0x70c33b8; 0x20c1138; 0x0; 0x0; 0x0;
   0x0; 0x202000; 0x0; 0x0; 0x0; 0x307030; 0x303230; 0x337730;
   0x333630; 0x31f630; 0x3f9beb8; 0x7f9fdfc; 0x19bfefc; 0x19fff30; 0x19f2230; 0x19f3330;
   0x1bf6a30; 0x1b77b30; 0xb3eaf0; 0xf3fff0; 0xe3aa7e; 0xf3ff3e; 0x63ae30; 0x63b730;
   0xe32230; 0x1f33330; 0x1bb2230; 0x39f3330; 0x30fa23c; 0x30db31c; 0x0; 0x0;
   0x0; 0x0; 0x202000; 0x0; 0x0; 0x0; 0x471060; 0xc63860;
   0xe77060; 0x2eea860; 0x3fffc60; 0x3000eea; 0x37ffffe; 0x37ffffe; 0x603060; 0x603060;
   0x7ff060; 0x2aa260; 0xff43e0; 0xfffbf8; 0x7507e; 0xaea86e; 0x1fffc60; 0x60060;
   0x60060; 0x3fffe60; 0x5575460; 0x60060; 0x60060; 0x7e07c; 0x7e03c; 0x0;
   0x0; 0x0; 0x0; 0x202000; 0x0; 0x0; 0x0; 0x19dc70;
   0x18cc20; 0x19dc70; 0x1bfe20; 0x1bff70; 0x3f8cca8; 0x7fdddfc; 0x18ccdfc; 0x18fff70;
   0x18fff20; 0x1de0070; 0x19ffe20; 0x1d9fff0; 0xd987f8; 0xd9fe7e; 0xf1fe2e; 0x71d670;
   0x718620; 0x71fe70; 0xf1fe20; 0xf98670; 0x1d98620; 0x39d8670; 0x70fe63c; 0x305c63c;
   0x0; 0x0; 0x0; 0x0; 0x202000; 0x0; 0x0; 0x0;
   0x181cc70; 0x3e08c20; 0x1fdcc70; 0x3c8c20; 0x1fff70; 0xfffa8; 0x1dcdfc; 0xc8cfc;
   0x55dfc70; 0x3fcfc20; 0x7fdcc70; 0x8c8c20; 0x1ddfdf0; 0x8cfdf8; 0x1cdcc7c; 0x8c8c2c;
   0x1cfff74; 0x8fff20; 0x1cd5570; 0x8cec20; 0x1c7cc70; 0x878620; 0x1c78774; 0x83033c;
   0x1c2031c; 0x0; 0x0; 0x0; 0x0; 0x202000; 0x0; 0x0;
   0x0; 0x300070; 0x30a860; 0x33fc70; 0x31a860; 0x39c070; 0x3f8c0e8; 0x7fffffc;
   0x3bbfffc; 0x19d8c70; 0x19d8c60; 0x19dfc70; 0x19dfc60; 0x1978df0; 0x1b58df8; 0x1f18c7e;
   0xf1fc6c; 0xf1fc74; 0xe18c60; 0x658c70; 0xe7fc60; 0x1f7ff70; 0x1b98e60; 0x39d8074;
   0x70f807c; 0x20d803c; 0x0; 0x0; 0x0; 0x0; 0x202000; 0x0;
   0x0; 0x0; 0x606060; 0x60e060; 0x71c060; 0x2baa860; 0x3fffc60; 0x982e8;
   0x15dd7fc; 0x1fffffc; 0x19d9c60; 0x1898c60; 0x1f8fc60; 0x1806c60; 0x1ffff60; 0x1ffffe0;
   0x1801dfc; 0x1fffc7c; 0x1755464; 0x300060; 0x7fffe60; 0x2baba60; 0x307060; 0x30e060;
   0x31c074; 0x3e007c; 0x1e003c; 0x0; 0x0; 0x0; 0x0; 0x202000;
   0x0; 0x0; 0x0; 0x70070; 0x60060; 0x3fffc70; 0x3fffc60; 0x707070;
   0x30e0e8; 0x3fffdfc; 0x3fffff8; 0x1555470; 0xaaa860; 0x1fff870; 0x1861860; 0x1d759f0;
   0x1fffbf8; 0x1c7187e; 0x186187c; 0x1fff874; 0x60060; 0x1575470; 0x1fffc60; 0x1fffc70;
   0x60060; 0x7ffff74; 0x3fffe7c; 0x3c; 0x0; 0x0; 0x0; 0x0;
   0x202000; 0x0; 0x0; 0x0; 0x303070; 0x303020; 0x307070; 0x3bfe20;
   0x15fff70; 0x3f898a8; 0x7f9ddfc; 0x1898dfc; 0x19dfe70; 0x19f3e20; 0x19f0070; 0x19ffe20;
   0x1d5fff0; 0xf18ff0; 0xf1dffe; 0xf1fe3c; 0xf1de74; 0x618e20; 0x71fe70; 0xf1fe20;
   0xf98e70; 0x1998e20; 0x39d8e70; 0x30fee3c; 0x305ee38; 0x0; 0x0; 0x0;
   0x0; 0x202000; 0x0; 0x0; 0x0; 0x70060; 0x30060; 0x30060;
   0x3fffc60; 0x3fffc60; 0x1198ae8; 0x399dffc; 0x1f0fbfc; 0xf07060; 0xfff860; 0x7fffe60;
   0x3603e60; 0x7ff5e0; 0x7ff3e0; 0x6031fe; 0x60307e; 0x7ff064; 0x2ea060; 0x471060;
   0x663060; 0x1e73860; 0x1861c60; 0x3870f74; 0x307c67c; 0x3c03c; 0x0; 0x0;
   0x0; 0x0; 0x202000; 0x0; 0x0; 0x0; 0x1c0070; 0x3f8060;
   0x7fc70; 0x618c60; 0x7fd070; 0x3fce8; 0x1f1ddfc; 0x1ffe1fc; 0x307fe70; 0x3818860;
   0x1ffc070; 0xff0060; 0x1e0f1f0; 0xfefff8; 0x3e1f7c; 0x1b0f86c; 0x3ffff70; 0x3e1e60;
   0x7f1d870; 0x7fffe60; 0x7e1f70; 0x6319860; 0x771f870; 0x3f0383c; 0x83c; 0x0;
   0x0; 0x0; 0x0; 0x202000; 0x0; 0x0; 0x0; 0xc00060;
   0x1ffa060; 0x7ffc60; 0xc62860; 0xe67060; 0x6662e8; 0x7663fc; 0x3fffffc; 0x3fffc60;
   0x1f8060; 0x7fc060; 0xe6e260; 0x1c67be0; 0x7861ff8; 0x3fffe7e; 0x1fff86e; 0x1c61860;
   0x1861860; 0x1fff860; 0x1fff860; 0x1c61860; 0x1861860; 0x1fff860; 0x1fff87c; 0x1c0187c;
   0x0; 0x0; 0x0; 0x0; 0x202000; 0x0; 0x0; 0x0;
   0x70; 0xfff860; 0x1fff870; 0xc03860; 0x1fff870; 0xfff8e8; 0x1c039fc; 0xfff9fc;
   0x1fff870; 0x60; 0x7fffe70; 0x3fffe60; 0x31df0; 0x3ab0bf8; 0x3fffc7c; 0x38f087c;
   0x19b1c74; 0x19bf860; 0x1f3fc70; 0xf30860; 0x77fc70; 0xf3fe60; 0x1ff1e74; 0x79f007c;
   0x307003c; 0x0; 0x0; 0x0; 0x0; 0x202000; 0x0; 0x0;
   0x0; 0x70; 0x1fdfc60; 0x1fdfc70; 0x18d8c60; 0x1fdfc70; 0x1fdfce8; 0x10c0dfc;
   0x30f0dfc; 0x3fffc70; 0x3f9f860; 0x104070; 0x30e060; 0x30e1f0; 0x3fffff0; 0x3fffdfe].
Definition hanzi_data_170 : list N :=
  [0x30e07e; 0x30e074; 0x2baea60; 0x7fffe70; 0x3fffe60; 0x39c070; 0xf0f060; 0x1e07c74;
   0x3801f7c; 0x300063c; 0x0; 0x0; 0x0; 0x0; 0x202000; 0x0;
   0x0; 0x0; 0x606070; 0x606060; 0x3fdfc70; 0x3f9fc60; 0x606070; 0x3fffce8;
   0x3fffdfc; 0xf0f1fc; 0x1f9f870; 0x79f1e60; 0x305cc70; 0x1fff860; 0x1fffd70; 0xe3e0;
   0x671fe; 0x6307c; 0x1fff874; 0x1fff860; 0x60070; 0x2aeaa60; 0x3fffe70; 0x2aeaa60;
   0x60074; 0x60078; 0x60038; 0x0; 0x0; 0x0; 0x0; 0x202000;
   0x0; 0x0; 0x0; 0x3870; 0x2aa3830; 0x3ff3870; 0x2ba3830; 0x31ff70;
   0x31feb8; 0x3fe39fc; 0x3fe38b8; 0x3063870; 0x326ba30; 0x336fe70; 0x336aab0; 0x33601f0;
   0x336aafc; 0x336fe7c; 0x336c634; 0x336c670; 0x336c630; 0x136c670; 0x38c630; 0xf8fe70;
   0x1d8fe30; 0x38e0674; 0x307023c; 0x303003c; 0x0; 0x0; 0x0; 0x0;
   0x202000; 0x0; 0x0; 0x0; 0xc070; 0xe060; 0x3ff070; 0x1ab060;
   0x15d5c70; 0x1fffee8; 0x1861ffc; 0x18619fc; 0x1fff870; 0x1861860; 0x1861870; 0x1fff860;
   0x15551f0; 0x3fffdf8; 0x3fffc7c; 0x6c; 0x1fff874; 0xfff860; 0x1c03870; 0xfff860;
   0x1fff870; 0xc03860; 0x1fff87c; 0xfff87c; 0x1c0383c; 0x0; 0x0; 0x0;
   0x0; 0x202000; 0x0; 0x0; 0x0; 0x30070; 0x30060; 0x3fffc70;
   0x3fffc60; 0x3880c70; 0x3b9cce8; 0x3f0fdfc; 0x3c63dfc; 0x3871e70; 0xfff860; 0x1fff870;
   0xc61860; 0x1fff970; 0xfffbe0; 0x701fe; 0x2aea87c; 0x3fffc74; 0x3860c60; 0x3870c70;
   0x3aeac60; 0x3fffc70; 0x3860c60; 0x70074; 0x60078; 0x70038; 0x0; 0x0;
   0x0; 0x0; 0x202000; 0x0; 0x0; 0x0; 0x5c0070; 0xf80060;
   0x1d80070; 0x3fffc60; 0x3fffc70; 0x180ce8; 0x19d5dfc; 0x19bfdfc; 0x1d80c70; 0xfaac60;
   0xf7fc70; 0x722c60; 0x2763ff0; 0x67a27f8; 0x67ff67c; 0x3cea67c; 0x3c10774; 0x83a260;
   0xc73670; 0x18e3660; 0x1f43770; 0x3203360; 0x735737c; 0x3ff23c; 0x1fc03c; 0x0;
   0x0; 0x0; 0x0; 0x202000; 0x0; 0x0; 0x0; 0x603070;
   0x603030; 0x703070; 0xf3ff30; 0xfbff70; 0xd830b8; 0x19c31fc; 0x38ffffc; 0x707fe70;
   0x3ff8630; 0x1fdd670; 0x61fe30; 0x71d7f0; 0x6187f0; 0x3fffffe; 0x3fffe3c; 0x3fe3074;
   0x603030; 0x73ff70; 0x63ff30; 0x703070; 0x603030; 0x703070; 0x60303c; 0x70301c;
   0x0; 0x0; 0x0; 0x0; 0x202000; 0x0; 0x0; 0x0;
   0x70; 0x1fffc60; 0x1fffc70; 0x60060; 0x1575470; 0x3fffee8; 0x3575ffc; 0x3060ffc;
   0x3fffe70; 0xaea060; 0x70070; 0xfefa60; 0x1fffbf0; 0x203f8; 0x1fffc7e; 0x1fff86e;
   0x1871c70; 0x1860860; 0x1fffc70; 0x1fff860; 0x1871c70; 0x1860860; 0x1fffc70; 0x1fff87c;
   0x1801c3c; 0x0; 0x0; 0x0; 0x0; 0x202000; 0x0; 0x0;
   0x0; 0x38070; 0x30060; 0x3fffe70; 0x3fffe60; 0x70; 0x1fffce8; 0x1fffdfc;
   0x18a8dfc; 0x19fdc70; 0x190cc60; 0x19fdc70; 0x1800c60; 0x1fffdf0; 0x1fffff0; 0x5550fc;
   0xfff87c; 0xc01874; 0xfff860; 0xfff870; 0xc01860; 0xfff870; 0xaaa860; 0x7ffff74;
   0x3ffff78; 0x5555538; 0x0; 0x0; 0x0; 0x0; 0x202000; 0x0;
   0x0; 0x0; 0x70; 0x7fe060; 0x7fe070; 0x606060; 0x606070; 0x6ae0e8;
   0x7fe1fc; 0x1fc; 0x3fdfc70; 0x3fdfc60; 0x30d8c70; 0x30d8c60; 0x30d8df0; 0x3fdfff0;
   0x3fffcfe; 0x6007c; 0x3fffc74; 0x3fffc60; 0x1f8070; 0x3fc060; 0x77f070; 0x1e63860;
   0x7c71f70; 0x3060e78; 0x70038; 0x0; 0x0; 0x0; 0x0; 0x202000;
   0x0; 0x0; 0x0; 0x60e60; 0x62ee8; 0x1577ffc; 0x3ff0e60; 0x1d78030;
   0xc3bff8; 0x67f01c; 0x7eb3fc; 0x3c337c; 0x3e3b30; 0x1f7dbf0; 0x3c1de30; 0x1105e00;
   0x3fffe0; 0x17fff0; 0x6000; 0x1fffff0; 0xfffff0; 0x6000; 0x2aaeaa8; 0x3fffffc;
   0x6000; 0x6000; 0x7e00; 0x7c00; 0x0; 0x0; 0x0; 0x0;
   0x202000; 0x0; 0x0; 0x0; 0x60; 0x1fff860; 0x1fff860; 0x1999860;
   0x1999860; 0x1fffae8; 0x1fffbfc; 0x3fc; 0x3fffc60; 0x3fffc60; 0x60; 0xfffa60;
   0x1fffbe0; 0xc03bf0; 0x1c0387c; 0xfff87c; 0x1fff864; 0x18fc060; 0x3dcf060; 0xf87e60;
   0x787e60; 0xfe6060; 0x3eff074; 0x383f07c; 0x100303c; 0x0; 0x0; 0x0;
   0x0; 0x202000; 0x0; 0x0; 0x0; 0x70070; 0x70060; 0x1fc070;
   0x38e060; 0x1f37070; 0x3e23cea; 0x3fffffe; 0x27ff1fe; 0xdc5870; 0xcfd860; 0xc71870;
   0xdfd860; 0xd5d9f0; 0xfffbf0; 0x5751fe; 0x3807e; 0x3fffc74; 0x3abac60; 0x399cc70;
   0x3b8cc60; 0x3bfec70; 0x3a3ec60; 0x3800c70; 0x3f00c7c; 0x1f00c3c; 0x0; 0x0;
   0x0; 0x0; 0x202000; 0x0; 0x0; 0x0; 0x300070; 0x200060;
   0x71fc70; 0x2ebac60; 0x3ffcc70; 0x2ab8ce8; 0x38dcdfc; 0x1898dfc; 0x1d9fc70; 0xd9fe60;
   0x1d40c70; 0x3fe0e60; 0x7fe07f0; 0x61fff8; 0x71fe7c; 0x618e7c; 0x3fd9e74; 0x3fd8e60;
   0x719f70; 0x618b60; 0x71db70; 0x61fb60; 0x71f874; 0x60083c; 0x70181c; 0x0;
   0x0; 0x0; 0x0; 0x202000; 0x0; 0x0; 0x0; 0x1c0000;
   0x1c0ff8; 0x1ffdff8; 0x1ffc818; 0x631ff8; 0x630ff8; 0x3ffe018; 0x3ffeab8; 0x1c1ffc;
   0x3ffd83c; 0x3ffd87c; 0x181ffe; 0x1c1ff4; 0x3fa000; 0x7ffff0; 0x60a0; 0x1fffff0;
   0xfffff0; 0x6000; 0x2aaeaa8; 0x3fffffc; 0x6000; 0x6000; 0x7e00; 0x7e00;
   0x0; 0x0; 0x0; 0x0; 0x202000; 0x0; 0x0; 0x0;
   0x183030; 0x1b3230; 0x19b630; 0x19be30; 0x18f430; 0x3f9feb8; 0x3fdfffc; 0x18c78b8;
   0x18dfc30; 0x18fbe30; 0x1df3730; 0x9b32b0; 0xda18f0; 0xd818fc; 0xd9ff3c; 0xf1ff34;
   0x71ce30; 0x70c630; 0x70df30; 0x707830; 0xf8f030; 0x1ddf830; 0x38f9f30; 0x30707b8;
   0x3060118; 0x0; 0x0; 0x0; 0x0; 0x202000; 0x0; 0x0].
Definition hanzi_data_171 : list N :=
  [0x0; 0x60; 0x1fdfc60; 0x1fdfc60; 0x1898860; 0x1b99c60; 0x1b1b2e8; 0x1c1c3fc;
   0x1f9fbf8; 0x19dbc60; 0x18dac60; 0x66060; 0xe7060; 0x1fff3e0; 0x1fffbf8; 0xc3dfe;
   0xaebe7e; 0x1ffff64; 0xc3860; 0x15d7860; 0x1fff860; 0x15d7860; 0xc3860; 0x3fff874;
   0x3fff87c; 0x383c; 0x0; 0x0; 0x0; 0x0; 0x202000; 0x0;
   0x0; 0x0; 0x70060; 0x70060; 0x1fff860; 0x1aab860; 0x1fff860; 0x1fffae8;
   0x1fffbfc; 0x1fffbfc; 0x1d57860; 0x1fff860; 0x60; 0x3fffe60; 0x3d75fe0; 0x3fffff8;
   0x3fffc7e; 0x3860c6e; 0x3fffc60; 0x60; 0x7fffe60; 0x3fffe60; 0x30c060; 0x30e060;
   0x307060; 0x303f7c; 0x300e7c; 0x0; 0x0; 0x0; 0x0; 0x202000;
   0x0; 0x0; 0x0; 0x30070; 0x30060; 0x3fffc70; 0x3fffc60; 0x3555c70;
   0x3066ce8; 0x1fff5fc; 0x1fff9fc; 0x1df9c70; 0xd9ec60; 0x71e670; 0x70f860; 0xfff9f0;
   0xdff9f0; 0x3d55c7e; 0x3000e7c; 0x1fffc74; 0x1fff860; 0x71070; 0x663060; 0xe73870;
   0x1c61860; 0x1871e70; 0x187cc38; 0x3c038; 0x0; 0x0; 0x0; 0x0;
   0x202000; 0x0; 0x0; 0x0; 0xc0070; 0xc0630; 0x3ffe670; 0x3ffee30;
   0xc18c70; 0xe30cb8; 0x1775dfc; 0x3ffc0f8; 0x355c070; 0x308c030; 0x37fdf70; 0x37fceb0;
   0x318ddf0; 0x37eccfc; 0x37edc7c; 0x362cc34; 0x366dc70; 0x37ecc30; 0x356dc70; 0x3e0cc30;
   0x1c0dc70; 0x3e30; 0x7fff774; 0x3ffc33c; 0x54011c; 0x0; 0x0; 0x0;
   0x0; 0x202000; 0x0; 0x0; 0x0; 0x3180c0; 0x30f8c0; 0x174f5d4;
   0x3fef7fc; 0x3ffdffc; 0xf889e0; 0x1fddff0; 0x3befad8; 0x737f2dc; 0x233fccc; 0x309cc4;
   0xc00; 0x3fffffc; 0x3fffffc; 0x1fc3c0; 0x7bffe0; 0x1f07678; 0x3dfffbe; 0x31fff9c;
   0x6000; 0xfffff0; 0xaaeaa0; 0x6000; 0x7e00; 0x7e00; 0x0; 0x0;
   0x0; 0x0; 0x202000; 0x0; 0x0; 0x0; 0x60; 0x1fff860;
   0x1fff860; 0x60060; 0x3fffc60; 0x3fffee8; 0x3060ffc; 0x3f6fffc; 0x1575460; 0xa6a860;
   0x1f7f860; 0x42360; 0xe73f0; 0x3fff9fe; 0x3fffc7c; 0xc1c64; 0x1ffff60; 0x1ffff60;
   0xc1b60; 0x1fff860; 0x1fff860; 0xc1860; 0x3fff860; 0x3fff878; 0x1838; 0x0;
   0x0; 0x0; 0x0; 0x202000; 0x0; 0x0; 0x0; 0x646470;
   0x6c6c60; 0x3fdfc70; 0x3fffe60; 0x666670; 0x3fffee8; 0x7fffffc; 0xd8d9fc; 0xdbd870;
   0x6dbcc60; 0x7ccee70; 0x3840660; 0x1fff9f0; 0xfffbe0; 0x1d559fe; 0xc6187e; 0x1c71874;
   0xc61860; 0x1c71870; 0xc71860; 0xf0070; 0x3bc060; 0x1f9fc74; 0x3c07e7c; 0x1001c3c;
   0x0; 0x0; 0x0; 0x0; 0x202000; 0x0; 0x0; 0x0;
   0x30070; 0x70060; 0x3fffe70; 0x3fffe60; 0x70; 0x1f9f8e8; 0x1ddddfc; 0x18989fc;
   0x1fdfc70; 0x1f9f860; 0x175d470; 0x3fffc60; 0x175d5f0; 0xbaebf8; 0x1fffc7c; 0x30c07c;
   0x7fffe74; 0x3fffe60; 0x10dc070; 0x3ccf860; 0xf87f70; 0x706e60; 0x1e7f07c; 0x383f07c;
   0x300701c; 0x0; 0x0; 0x0; 0x0; 0x202000; 0x0; 0x0;
   0x0; 0x183070; 0x181860; 0x3fffc70; 0x6e6c60; 0xc6ce70; 0xfffce8; 0x1d559fc;
   0xfff8e8; 0x1d55870; 0xfff860; 0x1d55870; 0xfff9e0; 0x1fff9f0; 0x2abeafc; 0x3fffe7c;
   0x737064; 0x1f9fc70; 0x38fff60; 0x177f770; 0xe8e060; 0x1fff870; 0xa62860; 0x1f67074;
   0x387de3c; 0x107c41c; 0x0; 0x0; 0x0; 0x0; 0x202000; 0x0;
   0x0; 0x0; 0x70; 0x1fdfc60; 0x18d8c70; 0x1fdfc60; 0x18d8c70; 0x1fdfce8;
   0x1ddddfc; 0x1fdfdfc; 0x67070; 0x1fff060; 0x1fff870; 0xaebc60; 0x1fffff0; 0xaebdf8;
   0x1fff87c; 0xc387c; 0x3fff874; 0x3860; 0x1fffc70; 0xfffc60; 0x707070; 0x3de060;
   0x5fc070; 0x3fffe7c; 0x3c01e3c; 0x0; 0x0; 0x0; 0x0; 0x202000;
   0x0; 0x0; 0x0; 0x30030; 0x3fffe30; 0x3fffe30; 0xfff830; 0xd75c30;
   0xfff8b8; 0x5755fc; 0x3fffffc; 0x3555730; 0x3fdfb30; 0x3cd8f30; 0xfdf830; 0x5d75f0;
   0x3fffff8; 0x1fffe7e; 0xfffc3c; 0x1fffc34; 0x2baea30; 0x3ffff30; 0x18ce030; 0xfc7c30;
   0x383fb0; 0x1f7f734; 0x383f83e; 0x300701c; 0x0; 0x0; 0x0; 0x0;
   0x202000; 0x0; 0x0; 0x0; 0x6000; 0x6000; 0x6000; 0x6000;
   0x1fffffc; 0x1fffff8; 0x1557554; 0x6000; 0x6000; 0x6000; 0x7ffff0; 0x7ffff0;
   0x7555d0; 0x380180; 0x1c0380; 0x1c0700; 0xf0f00; 0x79e00; 0x3fc00; 0xf800;
   0x7fc00; 0x1fbf80; 0x7ff07fc; 0x3f800fc; 0x1c0001c; 0x0; 0x0; 0x0;
   0x0; 0x202000; 0x0; 0x0; 0x0; 0x7000; 0x6000; 0x7000;
   0x6000; 0x3fff000; 0x3ffe000; 0x7000; 0x6000; 0x7000; 0x2aeaa8; 0x7ffff8;
   0x3ffff8; 0x3801c0; 0x380380; 0x1c0300; 0xe0700; 0xf0e00; 0x79e00; 0x3fc00;
   0x1f800; 0x3fc00; 0xfff80; 0x1ff0ffc; 0x3f801fc; 0x1c0001c; 0x0; 0x0;
   0x0; 0x0; 0x202000; 0x0; 0x0; 0x0; 0xc00; 0xe00;
   0x700; 0x700; 0x700; 0x3ffff80; 0x3ffffc0; 0x3801c0; 0x1801e0; 0x1c01f0;
   0x1c03f8; 0xe0338; 0xe071e; 0x70e0c; 0x71c00; 0x39c00; 0x1f800; 0xf000;
   0x1f000; 0x3fc00; 0xf9f00; 0x3e0fc0; 0x1fc03fc; 0x3e000fc; 0x180001c; 0x0;
   0x0; 0x0; 0x0; 0x202000; 0x0; 0x0; 0x0; 0x30600;
   0x38600; 0x38600; 0x38618; 0x18618; 0x3ff8618; 0x7ffc618; 0x2eac618; 0xc1c618;
   0xe1e618; 0xe1f618; 0xe3f618; 0x633618; 0x730618; 0x770618; 0x3e0618; 0x3e07d8;
   0x1c07f8; 0x1c067c; 0x3e0608; 0x770600; 0xe38600; 0x3c1e600; 0x380f600; 0x1006600;
   0x0; 0x0; 0x0; 0x0; 0x202000; 0x0; 0x0; 0x0;
   0x301c0; 0x381c0; 0x181c0; 0x186e0; 0x1c6e0; 0x3ffc660; 0x7ffc670; 0x2eae678;
   0xc0e678; 0xe0f67c; 0xe1f67c; 0x61be6e; 0x719e74; 0x738660; 0x330670; 0x3f0660].
Definition hanzi_data_172 : list N :=
  [0x1f0670; 0xe0660; 0x1e0670; 0x3f0660; 0x7bc070; 0xf1e060; 0x3e0f870; 0x7803c60;
   0x3001870; 0x0; 0x0; 0x0; 0x0; 0x202000; 0x0; 0x0;
   0x0; 0x70000; 0x30000; 0x30ffc; 0x30ff8; 0x38c00; 0x3ff8c00; 0x3ffcc00;
   0xc1cc00; 0xc1cc00; 0xe1ec00; 0xe3fff8; 0xe37ff8; 0x633018; 0x732018; 0x770018;
   0x3e0018; 0x3e0018; 0x1c0018; 0x1c1e18; 0x3e0f98; 0x7707f8; 0xe3c0fc; 0x3c1f01c;
   0x380f000; 0x1007000; 0x0; 0x0; 0x0; 0x0; 0x202000; 0x0;
   0x0; 0x0; 0x18000; 0x18000; 0x1c000; 0xcaa8; 0xcffc; 0x3ffeffc;
   0x7ffe0c0; 0xc060c0; 0xe070c0; 0xe0f8c0; 0x60dcc0; 0x60dcc0; 0x71ccc0; 0x3180c0;
   0x3b80c0; 0x1b88c0; 0x1f1fc0; 0xe0ff8; 0x1f01fe; 0x1f800c; 0x7bc000; 0xf0f000;
   0x3e07c00; 0x3c03e00; 0x3000600; 0x0; 0x0; 0x0; 0x0; 0x202000;
   0x0; 0x0; 0x0; 0xe0000; 0xe0760; 0x60670; 0x60e70; 0x71c30;
   0x3ff1c38; 0x3ff1818; 0x2eb381c; 0x1c3b01c; 0xc3baae; 0xc7dffc; 0xc7cff8; 0xe6dcc0;
   0x6e8ce0; 0x6c0ce0; 0x7c0ce0; 0x7c0c60; 0x380c60; 0x3c0c70; 0x7c0c30; 0xfe0c30;
   0xe70e38; 0x3c7cfdc; 0x381e78c; 0x1004000; 0x0; 0x0; 0x0; 0x0;
   0x202000; 0x0; 0x0; 0x0; 0x600c0; 0x601c0; 0x701c0; 0x30380;
   0x33ffc; 0x3ffbffc; 0x7ffbffc; 0xc38060; 0x1c3c060; 0xc3c060; 0xc3ffe0; 0xe3efe0;
   0x677c60; 0x660c60; 0x761c70; 0x3e0c60; 0x3c1c70; 0x1c0c30; 0x3c1c70; 0x3e0c38;
   0x770c38; 0xe38c18; 0x3c1ef5c; 0x380ff8e; 0x1006784; 0x0; 0x0; 0x0;
   0x0; 0x202000; 0x0; 0x0; 0x0; 0x60000; 0x60000; 0x77ffc;
   0x33ffc; 0x30380; 0x3ff8380; 0x7ff8380; 0x1c18380; 0x1c1c398; 0xc3c398; 0xc3ff98;
   0xe3ff98; 0x676398; 0x660398; 0x760398; 0x3e0398; 0x3c0398; 0x3c2398; 0x1c7f98;
   0x3e3ff8; 0x7707fe; 0xe3803e; 0x3c3e004; 0x380e000; 0x3006000; 0x0; 0x0;
   0x0; 0x0; 0x202000; 0x0; 0x0; 0x0; 0x701c0; 0x30180;
   0x301c0; 0x38180; 0x381c0; 0x3ffbffc; 0x7fffffc; 0xc1eba8; 0xc1c1c0; 0xc1e180;
   0xe1f1c0; 0xe3f180; 0x633ff8; 0x630ff8; 0x771c18; 0x3e0c18; 0x3e1c18; 0x1c0c18;
   0x1e1c18; 0x3e0c18; 0x779ff8; 0xe3cff8; 0x3e1f018; 0x3807818; 0x1001000; 0x0;
   0x0; 0x0; 0x0; 0x202000; 0x0; 0x0; 0x0; 0xc00c0;
   0xe01c0; 0xe0180; 0x60380; 0x67ffc; 0x3fe3ffc; 0x3ff0400; 0x1c30e60; 0x1c39c70;
   0xc3b838; 0xc3f018; 0xe3fe1c; 0xe7ee7e; 0x66c6e0; 0x7607e0; 0x3e0380; 0x3c0380;
   0x380780; 0x3c0fc0; 0x3e0ce0; 0x7f1c70; 0xe78838; 0x3c3c01c; 0x380f00c; 0x1006000;
   0x0; 0x0; 0x0; 0x0; 0x202000; 0x0; 0x0; 0x0;
   0x381c0; 0x380c0; 0x19dcc; 0x18ccc; 0x1cddc; 0x3ffced8; 0x7ffc7d8; 0x2eac6d8;
   0xc0e5c0; 0xe0effc; 0xe1fffc; 0x61bae8; 0x73b1e0; 0x7303e0; 0x7707f0; 0x3e06f0;
   0x1e1df8; 0x1e0cd8; 0x1e09dc; 0x3e00ce; 0x7781c4; 0xe3c0c0; 0x3e1f1c0; 0x38078c0;
   0x30031c0; 0x0; 0x0; 0x0; 0x0; 0x202000; 0x0; 0x0;
   0x0; 0x60c00; 0x61f80; 0x707fc; 0x601f8; 0x701c0; 0x3ff0180; 0x7ff01c0;
   0x2eb8180; 0xc3bffc; 0xc3bffc; 0xc7c1c0; 0xe6e180; 0x6641c0; 0x660180; 0x7e1ffc;
   0x3c1ffc; 0x3c181c; 0x38181c; 0x3c181c; 0x3c181c; 0x7e181c; 0xe71ffc; 0x3c7dffc;
   0x381f81c; 0x100401c; 0x0; 0x0; 0x0; 0x0; 0x202000; 0x0;
   0x0; 0x0; 0xe0070; 0xe0060; 0x60070; 0x67ff0; 0x77ff8; 0x3ff0018;
   0x3ff001c; 0x1833ffc; 0x1c3bffe; 0xc3b8b0; 0xc7f9b0; 0xc6fb38; 0xe6fb38; 0xeefffe;
   0x6cfffe; 0x7c18d8; 0x7c1998; 0x381b18; 0x3c5f58; 0x3c7ff8; 0x7e7ffc; 0xe71800;
   0x3c3dc00; 0x381ef80; 0x100c780; 0x0; 0x0; 0x0; 0x0; 0x202000;
   0x0; 0x0; 0x0; 0xc0b80; 0xe1b80; 0xe3b80; 0x67380; 0x657d4;
   0x3fe7ffc; 0x7ff7ffc; 0x3ab0380; 0x1c37390; 0xc3bb98; 0xc7dfb8; 0xc7cfb0; 0xe6cfe0;
   0xee83a0; 0x6c0780; 0x7c1fc0; 0x7c3ff0; 0x3873b8; 0x38739c; 0x7c038c; 0xfe0384;
   0xe70380; 0x3c7c380; 0x381e3f0; 0x10041f0; 0x0; 0x0; 0x0; 0x0;
   0x202000; 0x0; 0x0; 0x0; 0x60000; 0x63ffc; 0x63ffc; 0x600c0;
   0x700c0; 0x3ff00c0; 0x7ff1ffc; 0x1c38ff8; 0x1c39c60; 0xc38c60; 0xc7dc60; 0xe6fffe;
   0xe6fffe; 0x660000; 0x7e0000; 0x7c1ff8; 0x3c1ff8; 0x381818; 0x3c1818; 0x7c1818;
   0xff1818; 0x1e79818; 0x3c3dff8; 0x781fff8; 0x3005818; 0x0; 0x0; 0x0;
   0x0; 0x202000; 0x0; 0x0; 0x0; 0xc0180; 0xe0180; 0x60180;
   0x63ffc; 0x73ffc; 0x3ff0180; 0x7ff0180; 0x1c30ba8; 0x1c79ffc; 0xc39988; 0xc7d99c;
   0xe6f988; 0xe6d99c; 0x6e1ff8; 0x7c1ffc; 0x3c03c0; 0x3c07c0; 0x380fe0; 0x3c1df0;
   0x7e39b8; 0xff119c; 0xe7819e; 0x3c3c18c; 0x380e180; 0x1004180; 0x0; 0x0;
   0x0; 0x0; 0x202000; 0x0; 0x0; 0x0; 0xc0380; 0xe0380;
   0xe0380; 0x63ff8; 0x73ffc; 0x3ff0380; 0x3ff0380; 0xc3bff8; 0x1c3bff8; 0xc3c380;
   0xc3e380; 0xe2fffc; 0xe67ffc; 0x662ae8; 0x7600c0; 0x7c3fe0; 0x3c3fe0; 0x3c38e0;
   0x1c1860; 0x3c3860; 0x7e1870; 0xe79838; 0x3c3dfbc; 0x381ef1c; 0x300400c; 0x0;
   0x0; 0x0; 0x0; 0x202000; 0x0; 0x0; 0x0; 0xe01c0;
   0xee0c0; 0x671c0; 0x63ff8; 0x73ffc; 0x3ff38c0; 0x7ff1dc0; 0x1c3fffe; 0x1c3fffc;
   0xc38700; 0xc7c380; 0xe6fff0; 0xe6dff0; 0x6e0e78; 0x7c073c; 0x7c038c; 0x3c7580;
   0x387ffa; 0x3c5ffc; 0x7e018c; 0x7f0180; 0xe78180; 0x3c3e180; 0x380e1f0; 0x30061f0;
   0x0; 0x0; 0x0; 0x0; 0x202000; 0x0; 0x0; 0x0].
Definition hanzi_data_173 : list N :=
  [0xc0300; 0xe0380; 0xe0380; 0x607c0; 0x3ff1fe0; 0x3ff38e0; 0x3ff7870; 0xc36038;
   0xc7bffc; 0xc78fe8; 0xc7c000; 0xe68000; 0x663198; 0x6c3398; 0x7c3b30; 0x3c1b30;
   0x3c1b70; 0x380f20; 0x3c0c70; 0x7e3e00; 0x7f7fc0; 0xe787f8; 0x3c3c07c; 0x380e008;
   0x1004000; 0x0; 0x0; 0x0; 0x0; 0x202000; 0x0; 0x0;
   0x0; 0xc0380; 0xc2380; 0xc739c; 0xe3398; 0x63bb8; 0x3fe1bb0; 0x7ff1ff0;
   0x1830380; 0x1c77ff8; 0xc73ff8; 0x1c7f19c; 0xc7a188; 0xcdf5dc; 0xec2de8; 0x6c7dfc;
   0x682de8; 0x787dfc; 0x3829a8; 0x3879bc; 0x7821a8; 0x7c719c; 0xee2188; 0x3c7f59c;
   0x383f988; 0x101991c; 0x0; 0x0; 0x0; 0x0; 0x202000; 0x0;
   0x0; 0x0; 0xc0380; 0xe2388; 0xe739c; 0xe3398; 0x63398; 0x3fe3bb8;
   0x7ff1bb0; 0x1830b80; 0x1c77ff8; 0xc7bff8; 0xc7f01c; 0xc7f008; 0xeef7dc; 0xecb6c8;
   0x6c745c; 0x6c3448; 0x7c745c; 0x383448; 0x3877dc; 0x7c32c8; 0xfe705c; 0xef3008;
   0x3c7f41c; 0x783fc08; 0x3009c1c; 0x0; 0x0; 0x0; 0x0; 0x202000;
   0x0; 0x0; 0x0; 0xe0000; 0xe0aa8; 0xe1ff8; 0x61ea8; 0x71c00;
   0x3ff0c00; 0x7ff7ffc; 0x3ff7ffc; 0xc39830; 0xc39830; 0xc3dff0; 0xe2dff0; 0x67d830;
   0x665830; 0x761d70; 0x7e1ff0; 0x3c1ff0; 0x3c1830; 0x187830; 0x3c7ff0; 0x7e1ffe;
   0xe7183c; 0x3c79800; 0x383f800; 0x300d800; 0x0; 0x0; 0x0; 0x0;
   0x202000; 0x0; 0x0; 0x0; 0x60c70; 0x60c60; 0x60c70; 0x67ffc;
   0x77ffc; 0x3ff0c60; 0x7ff0c70; 0x1c30c60; 0x1c3fffc; 0xc3fffe; 0xc7c000; 0xe6c000;
   0xe6dff8; 0x6e1ab8; 0x7c1838; 0x7c1ff8; 0x3c1ff8; 0x381838; 0x3c1d78; 0x7c1ff8;
   0x7f1d78; 0xe79838; 0x3c3d838; 0x381ff38; 0x3005e38; 0x0; 0x0; 0x0;
   0x0; 0x202000; 0x0; 0x0; 0x0; 0xc01c0; 0xe0180; 0x60380;
   0x67ffc; 0x77ffc; 0x2af0000; 0x3ff3ff8; 0x3ffbff8; 0xc3b038; 0xc3b038; 0xc7fff8;
   0xe6fff8; 0x66c000; 0x663ff8; 0x7c3ff8; 0x3c0e00; 0x3c0700; 0x387b00; 0x3c7ffc;
   0x3e0ffc; 0x7f031c; 0xe78300; 0x3c3c300; 0x381e3f0; 0x10041e0; 0x0; 0x0;
   0x0; 0x0; 0x202000; 0x0; 0x0; 0x0; 0xc1000; 0xc3188;
   0xc3198; 0xe3bb8; 0x61b30; 0x3fe1830; 0x3ff5554; 0x1c77ffc; 0x1c77ffc; 0xc7e00c;
   0xc7fffc; 0xcfdff0; 0xeddd50; 0x6c8e00; 0x7c0780; 0x783b80; 0x387ff4; 0x380ffc;
   0x3c03dc; 0x7c0380; 0xee0380; 0x1e78380; 0x3c3c3f0; 0x380e3e0; 0x10041e0; 0x0;
   0x0; 0x0; 0x0; 0x202000; 0x0; 0x0; 0x0; 0x60380;
   0x60180; 0x615d0; 0x61ff8; 0x71d58; 0x3ff1818; 0x7ff1ff8; 0xc39ff8; 0x1c39818;
   0xc39818; 0xc7dff8; 0xe6caa8; 0x66c180; 0x6e3ffc; 0x7e7ffc; 0x3c0060; 0x3c1560;
   0x381fe0; 0x3c1ff0; 0x3c1870; 0x7f1c70; 0xe79838; 0x3c3dd1c; 0x381ef8e; 0x3004704;
   0x0; 0x0; 0x0; 0x0; 0x202000; 0x0; 0x0; 0x0;
   0xe0c60; 0xe0c60; 0x65d74; 0x67ffc; 0x77ffc; 0x3ff0c60; 0x7ff0c70; 0xc38030;
   0x1c3bff0; 0xc3bff8; 0xc3f01c; 0xe3f01c; 0xe773fe; 0x6633fc; 0x763318; 0x3e3318;
   0x3c3318; 0x3c3318; 0x3c33f8; 0x3e3bf8; 0x7f3818; 0xe79800; 0x3c3dc00; 0x380ff80;
   0x3004f80; 0x0; 0x0; 0x0; 0x0; 0x202000; 0x0; 0x0;
   0x0; 0x61380; 0x63398; 0x63bb8; 0x61bb0; 0x71ff0; 0x3ff7ffc; 0x3ff7ffc;
   0x2eb07c0; 0xc79fe0; 0xc3bbf0; 0xc7f3bc; 0xe6c39c; 0x66e1c4; 0x6e00c0; 0x7c3ffc;
   0x3c3ffc; 0x3c1870; 0x381830; 0x3c0cf8; 0x7e0fe0; 0xe70f80; 0x1e39fe0; 0x3c3ccfc;
   0x380e03c; 0x6004; 0x0; 0x0; 0x0; 0x0; 0x202000; 0x0;
   0x0; 0x0; 0x1c0180; 0x1c0380; 0x1c0300; 0x1c7ffc; 0x3fc7ffc; 0x3fc0000;
   0x1c1ff0; 0x1c1ff0; 0x1c1830; 0x1ff9830; 0x1ffdff0; 0x1ab9ff0; 0x1830000; 0x1c33ff8;
   0x1c67ffc; 0xe62008; 0x6c77dc; 0x6c26c8; 0x7c745c; 0x382448; 0x7c77dc; 0xee22c8;
   0x1c7f05c; 0x383fe08; 0x301bc1c; 0x0; 0x0; 0x0; 0x0; 0x202000;
   0x0; 0x0; 0x0; 0xe0180; 0xe0180; 0x67ffc; 0x3ff2ba8; 0x3ff15d0;
   0xc3bff8; 0xc7f198; 0xe6f198; 0x7c3ff8; 0x383ff8; 0x3c0fc0; 0xfe39f0; 0x3e7d1bc;
   0x383c18c; 0x1555554; 0xfffff0; 0x1fffff8; 0x6000; 0x7fe1c0; 0x7fe0c0; 0x61c0;
   0x60c0; 0x7fffffc; 0x3fffffc; 0x0; 0x0; 0x0; 0x0; 0x0;
   0x202000; 0x0; 0x0; 0x0; 0x1c1b00; 0xc3b00; 0xcfffc; 0xcfffc;
   0xc0300; 0x3fe7ff8; 0x7fe7ffc; 0x1866318; 0x1877ffc; 0x18f6bb8; 0x1cf775c; 0xcffff8;
   0xcde31c; 0xcc6218; 0xfc4394; 0x78fffe; 0x78fffe; 0x3000e0; 0x703fe0; 0x783fe0;
   0xfc3070; 0x1ce3830; 0x3c73838; 0x383bf1c; 0x3011f0c; 0x0; 0x0; 0x0;
   0x0; 0x202000; 0x0; 0x0; 0x0; 0x7000; 0x7000; 0xf000;
   0xe000; 0xc000; 0x3fffffc; 0x3fffffc; 0x3801c0; 0x1801c0; 0x1c0380; 0x1c0300;
   0xe0700; 0x70700; 0x70e00; 0x39c00; 0x3f800; 0x1f000; 0xf000; 0x1f800;
   0x7be00; 0x1f0f80; 0x7e03e0; 0x7f801fc; 0x3e0007c; 0x100001c; 0x0; 0x0;
   0x0; 0x0; 0x202000; 0x0; 0x0; 0x0; 0x3000; 0x7000;
   0x3fffffc; 0x3fffffc; 0x15d57d4; 0xe0700; 0x79e00; 0x3fc00; 0x7fc00; 0x2ffbfe0;
   0x3fe07fc; 0x380003c; 0x3fffffc; 0x3fffffc; 0x7000; 0x3000; 0xfffff0; 0xfffff0;
   0xc30c30; 0xc30c30; 0xc30c30; 0xc30c30; 0xc30c30; 0xfb0c30; 0x700030; 0x0;
   0x0; 0x0; 0x0; 0x202000; 0x0; 0x0; 0x0; 0x380020;
   0xf80070; 0x1fff0e0; 0x3bff0c0; 0x33000c0; 0x33807fe; 0x7fffffc; 0x3fffb80; 0x5755580;
   0x308188; 0x31819c; 0x318998; 0x3199f8; 0x3f98f0; 0x3f98e0; 0x3b98c0; 0x7199e0].
Definition hanzi_data_174 : list N :=
  [0x319be0; 0x719b70; 0x2619b30; 0x66d9938; 0x2eff818; 0x7e7fe1c; 0x3c03c0e; 0x1800004;
   0x0; 0x0; 0x0; 0x0; 0x202000; 0x0; 0x0; 0x0;
   0x30c00; 0x30c00; 0x3ff0ffc; 0x3ff0ffc; 0x30c00; 0x30c00; 0x1ff0ff8; 0x1ff0ff8;
   0x30c00; 0x2ab0ea8; 0x3ff0ffc; 0x30c00; 0x37c00; 0x6000; 0x3fffffc; 0x3fffffc;
   0x1c0380; 0xe0700; 0x71f00; 0x3bc00; 0x1f000; 0xffe00; 0x1ff1ff0; 0x3f803fc;
   0x1c0007c; 0x0; 0x0; 0x0; 0x0; 0x202000; 0x0; 0x0;
   0x0; 0x3000; 0x3800; 0x3fe73fc; 0x3fe73fc; 0x706070; 0x63fe60; 0x73fe70;
   0x618060; 0x71c470; 0x60ce60; 0x70cdfc; 0x3fed9fc; 0x3fed974; 0xea7860; 0x707070;
   0x606060; 0x707070; 0x60f060; 0x70fbf0; 0x61dbf8; 0x71ddfe; 0x600e0e; 0x7ff0700;
   0x3ff0300; 0x200; 0x0; 0x0; 0x0; 0x0; 0x202000; 0x0;
   0x0; 0x0; 0x810; 0x2aa9c30; 0x3ffb870; 0x3aab060; 0x3047040; 0x30603fc;
   0x3575ffc; 0x37fed80; 0x3575dc0; 0x3060cc8; 0x37ffcdc; 0x36eecd8; 0x377fcf8; 0x37f6cf0;
   0x36f7ce0; 0x37fece0; 0x37ffde0; 0x30f0de0; 0x31f9df0; 0x336cfb8; 0x366fd18; 0x3262c1c;
   0x3061c0e; 0x3f00c04; 0x1f01c00; 0x0; 0x0; 0x0; 0x0; 0x202000;
   0x0; 0x0; 0x0; 0xe0000; 0xe0000; 0xe0380; 0xe0f80; 0xe3f00;
   0xe7800; 0xe3000; 0xe0000; 0xe0070; 0xe01f0; 0xe07c0; 0xe0f80; 0xe0e00;
   0xe0000; 0x3ce0000; 0x3ff8000; 0x1ffff00; 0xffffc; 0xe07fc; 0xe000c; 0xe0000;
   0xe0000; 0xe0000; 0xe0000; 0xe0000; 0x0; 0x0; 0x0; 0x0;
   0x202000; 0x0; 0x0; 0x0; 0x6000c0; 0x6000c0; 0x619ccc; 0x63cccc;
   0x670cdc; 0x6e0ed8; 0x6406d8; 0x6006d8; 0x6004c0; 0x60effc; 0x61fffc; 0x6380e0;
   0x6701e0; 0x6203e0; 0x6007f0; 0x3e006f0; 0x7ff0cd8; 0x7ffcd8; 0x61f4dc; 0x6000ce;
   0x6000c4; 0x6000c0; 0x6000c0; 0x6000c0; 0x6000c0; 0x0; 0x0; 0x0;
   0x0; 0x202000; 0x0; 0x0; 0x0; 0xc000e0; 0xc00060; 0xc107e0;
   0xc38ff0; 0xcf0f70; 0xdc0638; 0xd80718; 0xc01ffc; 0xc01ffe; 0xc1999c; 0xc79998;
   0xce1998; 0xdc1ff8; 0xc81bb8; 0x4c01998; 0x3e01998; 0x7ff1ff8; 0xffdff8; 0xc7d998;
   0xc01998; 0xc01998; 0xc01988; 0xc01d8c; 0xc01f8c; 0xc01c04; 0x0; 0x0;
   0x0; 0x0; 0x202000; 0x0; 0x0; 0x0; 0xc00300; 0xc00300;
   0xc30780; 0xc70fc0; 0xce3ce0; 0xdc7870; 0xd8707c; 0xc05ffe; 0xc01ffc; 0xc38380;
   0xc78380; 0xce0380; 0xdc7ffc; 0xc03ffc; 0x4c00380; 0x3e00380; 0x7ff1bb0; 0xfffbb8;
   0xc7f398; 0xc03398; 0xc0739c; 0xc0238e; 0xc00380; 0xc003f0; 0xc001e0; 0x0;
   0x0; 0x0; 0x0; 0x202000; 0x0; 0x0; 0x0; 0x0;
   0xff9ff0; 0x1ff9ff0; 0xc19830; 0x1c19830; 0xeb9ab0; 0x1ff9ff0; 0xaa8aa0; 0x0;
   0x1fffff8; 0x1fffffc; 0x1860e18; 0x1861e1c; 0x1867818; 0x67040; 0x603c0; 0x60780;
   0x61e00; 0x3ff0c00; 0x3ffffe0; 0x5ffffc; 0x600bc; 0x60000; 0x60000; 0x60000;
   0x0; 0x0; 0x0; 0x0; 0x202000; 0x0; 0x0; 0x0;
   0xc01830; 0xc01830; 0xc21830; 0xc77ffc; 0xce7ffc; 0xdc1830; 0xd81ff0; 0xc01ff0;
   0xc01830; 0xc19830; 0xc79ff0; 0xcf1ff0; 0xde1830; 0xcc1830; 0xc07ffe; 0x3c07ffc;
   0x7fc0d18; 0xff9998; 0xc799d8; 0xc030d8; 0xc01058; 0xc00018; 0xc07ff8; 0xc07ff8;
   0xc00000; 0x0; 0x0; 0x0; 0x0; 0x202000; 0x0; 0x0;
   0x0; 0xc00c60; 0xc00c60; 0xc27ffc; 0xc37ffc; 0xcf0c60; 0xcc2ee8; 0xdc7ffc;
   0xc80c60; 0xc00c60; 0xc3fffc; 0xc7fffc; 0xce0300; 0xdc3ff8; 0xc83ff8; 0xc03318;
   0x3c03bb8; 0x7fc3ff8; 0xffb318; 0xc7b318; 0xc0fffe; 0xc0fffe; 0xc03018; 0xc03018;
   0xc03e18; 0xc01c18; 0x0; 0x0; 0x0; 0x0; 0x202000; 0x0;
   0x0; 0x0; 0x1801c0; 0x1800c0; 0x1c01c0; 0x3e1ffe; 0x771ffe; 0x6700c0;
   0x1e381c0; 0x3c1cffc; 0x7f1fffc; 0x333ec0c; 0x770d5c; 0x3e0ffc; 0x744d5c; 0x30ec0c;
   0x73cffc; 0x338ffc; 0x37001c0; 0x3f800c0; 0x1ffdffe; 0x3ffffe; 0x7061c0; 0x3000c0;
   0x7001c0; 0x3000c0; 0x7001c0; 0x0; 0x0; 0x0; 0x0; 0x202000;
   0x0; 0x0; 0x0; 0x300000; 0x7f8000; 0x7fffe0; 0x3ffe0; 0x1e0;
   0xe0; 0xe0; 0xe0; 0xe0; 0xe0; 0x3ffffe0; 0x3ffffe0; 0x70060;
   0x30060; 0x70060; 0x30060; 0x70070; 0x30060; 0x70070; 0x30030; 0x70030;
   0x30038; 0x7001c; 0x3001c; 0x70018; 0x0; 0x0; 0x0; 0x0;
   0x202000; 0x0; 0x0; 0x0; 0x300000; 0x7f8000; 0x7fffc0; 0x3ffe0;
   0x5e0; 0x60; 0x60; 0x60; 0x1555560; 0x3ffffe0; 0x3ffffe0; 0x38060;
   0x38060; 0x38060; 0x39e60; 0x3fe60; 0x7f070; 0x3f8060; 0x1ff8070; 0xe38030;
   0xc38038; 0x38038; 0x3801c; 0x3801c; 0x3800c; 0x0; 0x0; 0x0;
   0x0; 0x202000; 0x0; 0x0; 0x0; 0x60c00; 0xf0e00; 0x7c0780;
   0xfe03e0; 0x1ef0ff8; 0x87bc30; 0x1f810; 0x3f800; 0x7fbfc0; 0x3fe07f8; 0x3f401fc;
   0x3fe008; 0x1fffc0; 0x2fc0; 0x1c0; 0xaaabc0; 0x1ffffc0; 0x1ffffc0; 0x701c0;
   0x600c0; 0x700e0; 0x60060; 0x70070; 0x60038; 0x70010; 0x0; 0x0;
   0x0; 0x0; 0x202000; 0x0; 0x0; 0x0; 0x1c0; 0x1e000c0;
   0x3ff00c0; 0x3fbffc; 0x7bffc; 0x1aae8; 0x18070; 0x18270; 0x18370; 0x3ff8330;
   0x7ff8338; 0x61abb8; 0x61bffc; 0x61aba8; 0x618300; 0x618300; 0x61b700; 0x61bfe0;
   0x61dffc; 0x60c3fc; 0x60c304; 0x60e300; 0x606300; 0x607300; 0x602300; 0x0;
   0x0; 0x0; 0x0; 0x202000; 0x0; 0x0; 0x0; 0xc00000].
Definition hanzi_data_175 : list N :=
  [0x1f00aa8; 0x1ff0ffc; 0x1fcffc; 0x1c060; 0xc060; 0xc070; 0xc030; 0x155c030;
   0x3ffc038; 0x7ffc7f8; 0x60c7f8; 0x70c63c; 0x60c63c; 0x70c63c; 0x60e634; 0x70e630;
   0x60e630; 0x706630; 0x6066b0; 0x7077f0; 0x6072b0; 0x703030; 0x603830; 0x701000;
   0x0; 0x0; 0x0; 0x0; 0x202000; 0x0; 0x0; 0x0;
   0x1800600; 0x3e00618; 0x1ff665c; 0x3f26d8; 0x336dc; 0x336d8; 0x31fdc; 0x30618;
   0x37ffc; 0x3ff7ff8; 0x7ff071c; 0xe30f18; 0xe31f1c; 0xe3bf98; 0xe377dc; 0xe3a6f8;
   0xe3867c; 0xe38638; 0xe1861c; 0xe18618; 0xe1fffc; 0xe1fff8; 0xe1c000; 0xe0e000;
   0xe0c000; 0x0; 0x0; 0x0; 0x0; 0x202000; 0x0; 0x0;
   0x0; 0x1001830; 0x3e01830; 0x1ff1830; 0x3f1830; 0x77ffc; 0x37ffc; 0x31830;
   0x31830; 0x31ff0; 0x3ff1ff0; 0x7ff1830; 0xe31830; 0xe31ff0; 0xe39ff0; 0xe31830;
   0xe39830; 0xe3fffc; 0xe3fffc; 0xe1d554; 0xe186e0; 0xe1ce70; 0xe0dc38; 0xe0f83c;
   0xe0701c; 0xe07008; 0x0; 0x0; 0x0; 0x0; 0x202000; 0x0;
   0x0; 0x0; 0x1c0; 0x1e00180; 0x1ff0380; 0x3fbffc; 0x1bffc; 0x19c30;
   0x18c70; 0x18c60; 0x18660; 0x3fffffc; 0x7fffffc; 0x618180; 0x618180; 0x61aba8;
   0x61fffc; 0x61aba8; 0x618db0; 0x618db8; 0x619998; 0x61b998; 0x61f19c; 0x60c188;
   0x60e1e0; 0x6061e0; 0x604040; 0x0; 0x0; 0x0; 0x0; 0x202000;
   0x0; 0x0; 0x0; 0x200; 0x3fff780; 0x3fff7f8; 0x3b330f8; 0x3b33018;
   0x3bbb018; 0x3fff018; 0xaba018; 0xcff8; 0x3ffeff8; 0x3fff198; 0x3033998; 0x3031d98;
   0x33ff998; 0x33ff198; 0x3333198; 0x333319c; 0x3bff198; 0x33ff19c; 0x39b018c; 0x1b7019c;
   0x1bff98c; 0x1e5f18c; 0x1e0018e; 0x1e00184; 0x0; 0x0; 0x0; 0x0;
   0x202000; 0x0; 0x0; 0x0; 0x7000; 0x6000; 0xe000; 0xe000;
   0x155d554; 0x3fffffc; 0x3fffffc; 0xe00; 0xe00; 0xe00; 0xe00; 0x7ffe00;
   0x7ffe00; 0x600600; 0x700700; 0x600700; 0x700700; 0x700380; 0x700380; 0x3001c0;
   0x3001e0; 0x3800f0; 0x3fe078; 0x1fc03c; 0xfc018; 0x0; 0x0; 0x0;
   0x0; 0x202000; 0x0; 0x0; 0x0; 0x1c0060; 0xc00e0; 0x1c01c0;
   0x1e0180; 0x3f1ffc; 0x371ffc; 0x739ffc; 0xe1c060; 0x1c1e070; 0x780f070; 0x3027ff0;
   0xe0ff0; 0x1f0c70; 0x3c0c30; 0x300c70; 0xe30; 0xc30; 0xe30; 0x18e38;
   0x78e38; 0x1f0618; 0x3c061c; 0x7807dc; 0x6003ce; 0x144; 0x0; 0x0;
   0x0; 0x0; 0x202000; 0x0; 0x0; 0x0; 0x380c0; 0x380c0;
   0x181c0; 0x18180; 0x3ffdffc; 0x3ffeffc; 0x14fffc; 0x187060; 0x11c7070; 0x1f8f060;
   0x1fdcff0; 0x1becff0; 0x19fce70; 0x19bee30; 0x19dfe70; 0x198ee30; 0x19dce30; 0x1f8ce30;
   0x1fdc638; 0x18c638; 0x715c618; 0x200c618; 0x701c71c; 0x3ff87ce; 0x1ff83c4; 0x0;
   0x0; 0x0; 0x0; 0x202000; 0x0; 0x0; 0x0; 0x7000;
   0x6000; 0x1fffffc; 0x1fffff8; 0x1fffffc; 0xc0380; 0xe0700; 0xaeaea8; 0x1fffffc;
   0x1aaaab8; 0x180701c; 0x1806018; 0x155f554; 0x3fffffc; 0x3fffffc; 0xe00; 0x600;
   0x7ffe00; 0x7fff00; 0x300380; 0x7003c0; 0x3001e0; 0x3840fc; 0x3f803e; 0x1f801c;
   0x0; 0x0; 0x0; 0x0; 0x202000; 0x0; 0x0; 0x0;
   0x1c070; 0x1c0e0; 0x1c0c0; 0x3ffc1c0; 0x7ffe5d4; 0x6ffe; 0x7ffe; 0xaab030;
   0x1fff830; 0x1ffd030; 0x1c7c7f0; 0x18cc7f0; 0x1ddc630; 0x198c630; 0x5d5d630; 0x3fff630;
   0x7fff630; 0x180c638; 0x1c0c618; 0x180c618; 0x1c0e71c; 0x180e61c; 0x1c077ec; 0xf03bce;
   0xf03144; 0x0; 0x0; 0x0; 0x0; 0x202000; 0x0; 0x0;
   0x0; 0x1c060; 0x1c0e0; 0x1c0c0; 0x3ffe0c0; 0x3ffeffc; 0x7ffc; 0x607574;
   0xf83830; 0x7fdc70; 0x7f030; 0x667f0; 0x18607f0; 0x1ffc630; 0xfff630; 0x7f630;
   0x2060630; 0x3fe0630; 0x3fffe38; 0x7f718; 0x1060218; 0x706071c; 0x306031c; 0x3fe035c;
   0x3fe03ee; 0x15401c4; 0x0; 0x0; 0x0; 0x0; 0x202000; 0x0;
   0x0; 0x0; 0x300c0; 0x380c0; 0x181c0; 0x18180; 0x3ffdffc; 0x3ffeffc;
   0x80fffc; 0x1e07060; 0x1ff7870; 0x1fe060; 0x1dcff0; 0x118cfe0; 0x399cc70; 0x1d8ce60;
   0xf9cc70; 0x38ce70; 0x31ce70; 0x30ce30; 0x71c630; 0xe0c638; 0xddc618; 0x1dfc618;
   0x787c75c; 0x380e7ce; 0x10043c4; 0x0; 0x0; 0x0; 0x0; 0x202000;
   0x0; 0x0; 0x0; 0x1c060; 0x1c0e0; 0x1c1c0; 0xe1c0; 0x3fffffc;
   0x3ffeffc; 0x1c7ffc; 0xc3860; 0x1c1070; 0x3fff070; 0x7fffff0; 0xc0ff0; 0x1c0670;
   0x3ffee30; 0x3ffe670; 0x30c6630; 0x31c6630; 0x30c6630; 0x31c6630; 0x30c6638; 0x31c6618;
   0x3ec6618; 0x1fc67fc; 0xc03ce; 0x1c0144; 0x0; 0x0; 0x0; 0x0;
   0x202000; 0x0; 0x0; 0x0; 0x18040; 0x180e0; 0x1c1c0; 0x2aac1c0;
   0x7ffdffc; 0x3fffffc; 0x7ffc; 0x7060; 0x3fff070; 0x3ffe060; 0x38c0ff0; 0x18c0fe0;
   0x1cc4670; 0x8cce30; 0x15cc670; 0x1fcc630; 0x1fcc630; 0xcc630; 0xde630; 0xde638;
   0xfe618; 0xf6618; 0x7ff775c; 0x3fc3fce; 0x15013c4; 0x0; 0x0; 0x0;
   0x0; 0x202000; 0x0; 0x0; 0x0; 0x1c060; 0xc0e0; 0xc0c0;
   0x2aae1c0; 0x3ffe5d4; 0x3fffffe; 0x43ffc; 0xcf830; 0x1cd870; 0xce030; 0x1ffe7f0;
   0x1ffe7f0; 0x1c7630; 0xc3e30; 0x1c1630; 0x1ffe630; 0x1ffe630; 0xc0638; 0x1c0618;
   0xc0618; 0x1c0718; 0x2aeae1c; 0x7fffffc; 0x2aaabce; 0x144; 0x0; 0x0;
   0x0; 0x0; 0x202000; 0x0; 0x0; 0x0; 0x1c060; 0x1c0e0;
   0x1c1c0; 0x3ffe1c0; 0x3ffe5d4; 0x6ffc; 0x7ffc; 0x1fff830; 0x1fff870; 0x1806030;
   0x18067f0; 0x1aae7f0; 0x1ffe630; 0x6630; 0x76630; 0x1826630; 0x1f76630; 0x7a6630].
Definition hanzi_data_176 : list N :=
  [0x1f6638; 0x26638; 0x3077718; 0x3023618; 0x35737dc; 0x3fe3bcc; 0x1541148; 0x0;
   0x0; 0x0; 0x0; 0x202000; 0x0; 0x0; 0x0; 0x18060;
   0x180e0; 0x1c1c0; 0x2aac180; 0x3ffcffc; 0x3ffeffc; 0x37ffc; 0x33060; 0x3b070;
   0x1ff8060; 0x1ffcff0; 0xcefe0; 0x1c7e70; 0xc4e30; 0x15d4e70; 0x3ffee30; 0x3fff630;
   0x1c0e30; 0x3e0630; 0x360638; 0x770618; 0xe38618; 0x3c1e7dc; 0x380f3ce; 0x1003144;
   0x0; 0x0; 0x0; 0x0; 0x202000; 0x0; 0x0; 0x0;
   0x1c060; 0x1c0e0; 0x1c1c0; 0x3ffe1c0; 0x3ffe5d4; 0x6ffe; 0x3b7ffe; 0x3b3830;
   0x13b1070; 0x3bb2030; 0x1bb77f0; 0x1fb67f0; 0xfbc630; 0x7bc630; 0x3b4630; 0xfb8630;
   0x1fbc630; 0x3bbf630; 0x33bb638; 0x399618; 0x139c718; 0x238c618; 0x770f7fc; 0x3f07bce;
   0x1f03144; 0x0; 0x0; 0x0; 0x0; 0x202000; 0x0; 0x0;
   0x0; 0xc070; 0xc0e0; 0x15560c0; 0x3ffe0c0; 0x3fff7fc; 0x63ffc; 0xe1d74;
   0x1fff830; 0x1fff030; 0x238030; 0x71c7f0; 0xfae3f0; 0x1fff330; 0x182e330; 0x330;
   0x666330; 0x666330; 0x666338; 0x666318; 0x666318; 0x666731c; 0x266338c; 0x76639cc;
   0x3e61dee; 0x14008e4; 0x0; 0x0; 0x0; 0x0; 0x202000; 0x0;
   0x0; 0x0; 0x1c060; 0xc0e0; 0x155c0c0; 0x3ffe0c0; 0x3fffffc; 0xc3ffc;
   0x1fffffc; 0x1fff830; 0x15f4070; 0x3e0030; 0xf7c7f0; 0x1c1f7f0; 0x7ffff30; 0x3fffe30;
   0x5d55730; 0xc00630; 0x1cfe730; 0xcee638; 0x1cc6718; 0xcc6318; 0x1cfe718; 0xcae31c;
   0x1c0635c; 0xf803ee; 0xf801c4; 0x0; 0x0; 0x0; 0x0; 0x202000;
   0x0; 0x0; 0x0; 0xc070; 0xe060; 0x60e0; 0x3ffe0c0; 0x3fff7fc;
   0x3ffc; 0xe1dffc; 0x2eaec30; 0x3fff870; 0x2eae030; 0xe1c7f0; 0xffc7f0; 0xffc730;
   0xe0c630; 0xffc730; 0xffc630; 0xe1c730; 0x2eaee38; 0x3ffff18; 0x2aaab18; 0x738718;
   0xe1c318; 0x1c0e35c; 0x3807bee; 0x10031c4; 0x0; 0x0; 0x0; 0x0;
   0x202000; 0x0; 0x0; 0x0; 0x4030; 0x6030; 0x1557060; 0x3fff0e0;
   0x3fffbfc; 0x821bfc; 0xc61d74; 0x6c1830; 0x3ff9830; 0x3ffb030; 0x1c33f0; 0x19f03f0;
   0x1d3bf30; 0xfc3f30; 0x7f3330; 0xf3b330; 0x1fc3330; 0x3ae3338; 0x377f118; 0x30b198;
   0x3c719c; 0x8f98c; 0x7ffddfc; 0x3ff8dee; 0x1540444; 0x0; 0x0; 0x0;
   0x0; 0x202000; 0x0; 0x0; 0x0; 0x0; 0x0; 0x1fffff8;
   0x1fffff8; 0x7000; 0x7000; 0x7000; 0x3000; 0x7000; 0x3000; 0x3fffffc;
   0x3fffffc; 0x1f800; 0xf800; 0x1dc00; 0xdc00; 0x1dc00; 0xce00; 0x701c700;
   0x300c380; 0x301c3c0; 0x300c1e0; 0x3ffc0fc; 0x1ff803c; 0x55001c; 0x0; 0x0;
   0x0; 0x0; 0x202000; 0x0; 0x0; 0x0; 0x0; 0x0;
   0x3ffcff8; 0x3ffcff8; 0x180c18; 0x188c18; 0x198ff8; 0x198ff8; 0x19cd58; 0x18cc18;
   0x1ccc18; 0x3ffeeb8; 0x3ffcff8; 0xc0ab8; 0x1c0018; 0x1e0618; 0x1e0618; 0x1e0e18;
   0x1f0e18; 0x21b8f98; 0x319ddf8; 0x219c8f8; 0x3f8e03c; 0x3f87008; 0x1406000; 0x0;
   0x0; 0x0; 0x0; 0x202000; 0x0; 0x0; 0x0; 0x0;
   0x0; 0x7fffe0; 0x7fffe0; 0x7000e0; 0x6000e0; 0x7000e0; 0x6000e0; 0x7000e0;
   0x6000e0; 0x7000e0; 0x7fffe0; 0x7fffe0; 0x6aaae0; 0x7000e0; 0x6000e0; 0x7000e0;
   0x6000e0; 0x7000e0; 0x6000e0; 0x7555e0; 0x7fffe0; 0x7fffe0; 0x6000e0; 0x7000e0;
   0x0; 0x0; 0x0; 0x0; 0x202000; 0x0; 0x0; 0x0;
   0x0; 0x2aaa80; 0x3fffc0; 0x3fffc0; 0x3000c0; 0x3000c0; 0x3000c0; 0x3000c0;
   0x3555c0; 0x3fffc0; 0x3fffc0; 0x3000c0; 0x3000c0; 0x3000c0; 0x3000c0; 0x3000c0;
   0x3fffc0; 0x3fffc0; 0x0; 0x0; 0x0; 0x2aaaaa8; 0x3fffffc; 0x3fffffc;
   0x0; 0x0; 0x0; 0x0; 0x0; 0x202000; 0x0; 0x0;
   0x0; 0x0; 0x38; 0x1fffc38; 0xfffc38; 0x1c00c38; 0xc00c38; 0x1c00c38;
   0xc00c38; 0x1c00c38; 0xc00c38; 0x1c00c38; 0xfffc38; 0x1fffc38; 0xc00c38; 0x1c00c38;
   0xc00c38; 0x1c00c38; 0xc00c38; 0x1c00c38; 0xc00c38; 0x1d55c38; 0xfffc38; 0x1fffc38;
   0xc00c38; 0x1c00c38; 0x0; 0x0; 0x0; 0x0; 0x202000; 0x0;
   0x0; 0x0; 0x70; 0x200030; 0x7fc070; 0x3ffff0; 0x17ff0; 0x1800030;
   0x1c00070; 0x1c00070; 0xfffff0; 0x7fffe0; 0x0; 0x0; 0x7fffe0; 0x7fffe0;
   0x755560; 0x600060; 0x600060; 0x7fffe0; 0x7fffe0; 0x600060; 0x600060; 0x600060;
   0x7fffe0; 0x7fffe0; 0x600060; 0x0; 0x0; 0x0; 0x0; 0x202000;
   0x0; 0x0; 0x0; 0x0; 0x7fffe0; 0x7ffff0; 0x6aaae0; 0x600070;
   0x600060; 0x7ffff0; 0x7fffe0; 0x600070; 0x600060; 0x755570; 0x7fffe0; 0x7ffff0;
   0x6000; 0x6000; 0x6000; 0x7fffffc; 0x3fffffc; 0x7fffffc; 0x6000; 0x6000;
   0x6000; 0x6000; 0x6000; 0x6000; 0x0; 0x0; 0x0; 0x0;
   0x202000; 0x0; 0x0; 0x0; 0x700; 0x380; 0x380; 0x180;
   0x3ffffc0; 0x3ffffc0; 0x38000e0; 0x3800060; 0x3815570; 0x381ffb8; 0x381ffdc; 0x381819e;
   0x18181cc; 0x3818180; 0x181ffc0; 0x181ff80; 0x18181c0; 0x1818180; 0x18181c0; 0x181ff80;
   0x1c1ffc0; 0x1c00180; 0x1c10140; 0xff0000; 0x7f0000; 0x0; 0x0; 0x0;
   0x0; 0x202000; 0x0; 0x0; 0x0; 0x60; 0x60; 0x1ffc060;
   0x1ffc060; 0x1c1c060; 0x1c0cae8; 0x1c1cffc; 0x1c0cffc; 0x1c1cc60; 0x1ffcc60; 0x1ffcc60;
   0x1eacc60; 0x1c1cc60; 0x1c0cc60; 0x1c1cc70; 0x1c0cc60; 0x1d5cc70; 0x1ffcc30; 0x1ffcc30;
   0x3000c38; 0x3000c38; 0x3000c18; 0x3fffc1c; 0x1fff80e; 0x4; 0x0; 0x0;
   0x0; 0x0; 0x202000; 0x0; 0x0; 0x0; 0x3800; 0x3800].
Definition hanzi_data_177 : list N :=
  [0x1800; 0xabaa8; 0x1ffff8; 0x1ffff8; 0x11c1c00; 0x3180e00; 0x71c0700; 0x3180780;
   0x3fc03f0; 0x3f800fc; 0x7c; 0x7fffe0; 0x7fffe0; 0x6000e0; 0x7000e0; 0x6aaae0;
   0x7fffe0; 0x6000e0; 0x7000e0; 0x6000e0; 0x7fffe0; 0x7fffe0; 0x7000e0; 0x0;
   0x0; 0x0; 0x0; 0x202000; 0x0; 0x0; 0x0; 0x0;
   0x7fffe0; 0x7ffff0; 0x600060; 0x600070; 0x7fffe0; 0x7ffff0; 0x600060; 0x600070;
   0x7fffe0; 0x7ffff0; 0x800; 0x1c00; 0xabaa8; 0x1ffff8; 0x1ffff8; 0x1c1c00;
   0x180c00; 0x11c0e00; 0x7180e00; 0x71c0780; 0x31803e0; 0x3fc01f8; 0x3f8007c; 0x150001c;
   0x0; 0x0; 0x0; 0x0; 0x202000; 0x0; 0x0; 0x0;
   0x0; 0x2aaa000; 0x3fff7fc; 0x3fff3f8; 0xc071c; 0xc0218; 0xc071c; 0xc0218;
   0xc071c; 0xc0218; 0x15d57fc; 0x3fffbf8; 0x7ffff1c; 0xc0218; 0xc071c; 0xc0218;
   0xc071c; 0xc0218; 0xc07fc; 0xc03f8; 0xc001c; 0xc0018; 0xc0000; 0xc0000;
   0xc0000; 0x0; 0x0; 0x0; 0x0; 0x202000; 0x0; 0x0;
   0x0; 0x0; 0x7fffe0; 0x7fffe0; 0x600060; 0x600060; 0x7fffe0; 0x7fffe0;
   0x600060; 0x600060; 0x7fffe0; 0x7fffe0; 0x0; 0x1555550; 0x1fffff8; 0x1fffff8;
   0x6000; 0x6000; 0x3fffffc; 0x3fffffc; 0x2aaeaa8; 0x6000; 0x6000; 0x6000;
   0x6000; 0x6000; 0x0; 0x0; 0x0; 0x0; 0x202000; 0x0;
   0x0; 0x0; 0x0; 0x2aaa000; 0x3fff7fc; 0x3fff7f8; 0xe071c; 0xe0618;
   0xe071c; 0xe0618; 0xe071c; 0xe06b8; 0x7fffffc; 0x3fffff8; 0x7ffff1c; 0xe0618;
   0xe071c; 0xe0618; 0xe071c; 0xe06b8; 0xe07fc; 0xe07f8; 0xe001c; 0xe0018;
   0xf4000; 0xfc000; 0x7c000; 0x0; 0x0; 0x0; 0x0; 0x202000;
   0x0; 0x0; 0x0; 0x0; 0x7fffe0; 0x7fffe0; 0x600060; 0x700060;
   0x6aaae0; 0x7fffe0; 0x6aaae0; 0x700060; 0x600060; 0x7fffe0; 0x7fffe0; 0x6000;
   0x6000; 0x406000; 0xc06030; 0xc06030; 0xc06030; 0xc06030; 0xc06030; 0xc06030;
   0xeaeab0; 0xfffff0; 0xfffff0; 0xc00000; 0x0; 0x0; 0x0; 0x0;
   0x202000; 0x0; 0x0; 0x0; 0x600000; 0x600000; 0x6007fc; 0x6007f8;
   0x60075c; 0x2eaa618; 0x7fff618; 0x3fff618; 0x60061c; 0x600618; 0x60e7fc; 0x60c7f8;
   0x61c61c; 0x638618; 0x67061c; 0x670618; 0x66061c; 0x600618; 0x6007fc; 0x6007f8;
   0x60001c; 0x600018; 0x7f0000; 0x7f0000; 0x1f0000; 0x0; 0x0; 0x0;
   0x0; 0x202000; 0x0; 0x0; 0x0; 0x40000; 0xe0000; 0xc03fc;
   0x1c03f8; 0x3fff31c; 0x3fff318; 0x155731c; 0x3318; 0x731c; 0x3318; 0x73fc;
   0x33f8; 0x731c; 0x3318; 0x331c; 0x3318; 0x331c; 0x3b18; 0x3bfc;
   0x3bf8; 0x1c1c; 0x1c18; 0x1c00; 0xe00; 0x400; 0x0; 0x0;
   0x0; 0x0; 0x202000; 0x0; 0x0; 0x0; 0x0; 0x6aa800;
   0xfff9fc; 0x7ff9f8; 0x3c019c; 0x1e0188; 0x7019c; 0x3c188; 0x155f19c; 0x3fff988;
   0x3fff1fc; 0x33381f8; 0x331819c; 0x338c188; 0x318e19c; 0x38c6188; 0x38c799c; 0x18e3da8;
   0x18719fc; 0x18381f8; 0x1c1c01c; 0xc0e008; 0xe07000; 0xfc3800; 0x7c1800; 0x0;
   0x0; 0x0; 0x0; 0x202000; 0x0; 0x0; 0x0; 0x0;
   0x0; 0x3fffffc; 0x3fffbf8; 0xe071c; 0xe0318; 0xe071c; 0xe0318; 0xe071c;
   0xe0318; 0xe07fc; 0x1fff3f8; 0x1fff71c; 0xaea318; 0xe071c; 0xe0318; 0xe071c;
   0xe0318; 0xe07fc; 0xe03f8; 0xe001c; 0xe0018; 0x7fffc00; 0x3fffc00; 0x0;
   0x0; 0x0; 0x0; 0x0; 0x202000; 0x0; 0x0; 0x0;
   0x0; 0x7fffe0; 0x7fffe0; 0x600060; 0x600060; 0x7fffe0; 0x7fffe0; 0x600060;
   0x600060; 0x7fffe0; 0x7fffe0; 0x3000; 0x7000; 0x3fffffc; 0x3fffffc; 0x1c0380;
   0x1e0780; 0xe0f00; 0x79e00; 0x3f800; 0x1f800; 0xffe00; 0x1ff1ff4; 0x3fc03fc;
   0x1c0001c; 0x0; 0x0; 0x0; 0x0; 0x202000; 0x0; 0x0;
   0x0; 0x1c000; 0xc000; 0xc7fc; 0xe3f8; 0x3ffe71c; 0x3ffe318; 0x15f771c;
   0xe3318; 0xe3f1c; 0xe1b18; 0xe1ffc; 0xe03f8; 0x55f571c; 0x3fffb18; 0x7ffff1c;
   0xe0318; 0xe071c; 0xe0318; 0xe07fc; 0xe03f8; 0xe001c; 0xe0018; 0xe0000;
   0xe0000; 0xe0000; 0x0; 0x0; 0x0; 0x0; 0x202000; 0x0;
   0x0; 0x0; 0x18000; 0x18000; 0x1c7fc; 0xc3f8; 0x3ffe71c; 0x3ffe218;
   0x3fff71c; 0x3803a18; 0x3803f1c; 0x3809e18; 0x381dffc; 0x38383f8; 0x387071c; 0x38e0218;
   0x1b4071c; 0x3b80218; 0x19e071c; 0x18f82b8; 0x183e7fc; 0x180fbf8; 0x1c0701c; 0x1c00018;
   0x1c10000; 0xfe0000; 0x7e0000; 0x0; 0x0; 0x0; 0x0; 0x202000;
   0x0; 0x0; 0x0; 0x0; 0xffffe0; 0xfffff0; 0xe00060; 0xe00070;
   0xffffe0; 0xfffff0; 0xe00060; 0xe00070; 0xffffe0; 0xfffff0; 0x800; 0x1ffdf00;
   0x1ffcff0; 0x1d5c1f0; 0x180c030; 0x1c1c030; 0x180c030; 0x1c1c030; 0x180de30; 0x1c1dff8;
   0x1f8c3f8; 0xf9c038; 0xc000; 0x1c000; 0x0; 0x0; 0x0; 0x0;
   0x202000; 0x0; 0x0; 0x0; 0x0; 0x7fffe0; 0x7fffe0; 0x600060;
   0x600060; 0x7fffe0; 0x7fffe0; 0x600060; 0x7fffe0; 0x7fffe0; 0x0; 0x0;
   0x3fffff8; 0x3fffff8; 0xc038; 0xc038; 0x1e038; 0x1e038; 0x3f038; 0x73038;
   0xf3818; 0x3c1e18; 0x1f80f1c; 0x3e003ee; 0x1c001cc; 0x0; 0x0; 0x0;
   0x0; 0x202000; 0x0; 0x0; 0x0; 0x0; 0x1c00000; 0x3ffc7fc;
   0x3ff3f8; 0x1771c; 0x3308; 0x371c; 0x3308; 0x1fff71c; 0x1fff308; 0x1fff7fc;
   0x181b3f8; 0x1c1b71c; 0xc3bb08; 0xe33f1c; 0x633b08; 0x771f1c; 0x3e1b08; 0x1c1ffc].
Definition hanzi_data_178 : list N :=
  [0x1c1bf8; 0x7f1c1c; 0xf78c08; 0x1e3ee00; 0x3c0f600; 0x3006600; 0x0; 0x0;
   0x0; 0x0; 0x202000; 0x0; 0x0; 0x0; 0x0; 0xfffff0;
   0xfffff0; 0xe00070; 0xe00070; 0xfffff0; 0xfffff0; 0xe00070; 0xe00070; 0xfffff0;
   0xfffff0; 0x0; 0x18060; 0x818060; 0x1e18060; 0xf9bfe0; 0x7fbfe0; 0xf8060;
   0x18060; 0x3018060; 0x7018060; 0x301bee0; 0x3fffff8; 0x3ff83f0; 0x540010; 0x0;
   0x0; 0x0; 0x0; 0x202000; 0x0; 0x0; 0x0; 0x0;
   0x7fffe0; 0x7ffff0; 0x600060; 0x600070; 0x7fffe0; 0x7ffff0; 0x600060; 0x600070;
   0x7fffe0; 0x7ffff0; 0xc7800; 0x1cffc0; 0xc0ff8; 0x1c0770; 0xc0600; 0x3fffffc;
   0x3fffffc; 0x1c0700; 0xc0300; 0x1c0380; 0xc03c0; 0x1c01f0; 0xc0078; 0x1c0010;
   0x0; 0x0; 0x0; 0x0; 0x202000; 0x0; 0x0; 0x0;
   0x70000; 0xe0000; 0x1c03fc; 0x1c03f8; 0x15d431c; 0x3ffe318; 0x3ffe31c; 0x3806318;
   0x380631c; 0x3806318; 0x38063fc; 0x38063f8; 0x3ffe31c; 0x3ffe318; 0x380731c; 0x2806318;
   0x731c; 0x7318; 0x73fc; 0x33f8; 0x381c; 0x3818; 0x1c00; 0xc00;
   0x800; 0x0; 0x0; 0x0; 0x0; 0x202000; 0x0; 0x0;
   0x0; 0x40000; 0x60000; 0xe07fc; 0xc03f8; 0x15d571c; 0x3fffa18; 0x7ffff1c;
   0x38218; 0x1871c; 0x18218; 0x15587fc; 0x1ff83f8; 0x1ff871c; 0x1c18218; 0x1c1c71c;
   0x1c18218; 0x1c1c71c; 0xc0c218; 0x1c0c7fc; 0xc0e3f8; 0xc0701c; 0xc03018; 0xf63800;
   0xfe1c00; 0x7c0800; 0x0; 0x0; 0x0; 0x0; 0x202000; 0x0;
   0x0; 0x0; 0x0; 0x7fffe0; 0x7fffe0; 0x600060; 0x600060; 0x7fffe0;
   0x7fffe0; 0x600060; 0x7fffe0; 0x7fffe0; 0x0; 0x0; 0x1fffff8; 0xfffff8;
   0x7000; 0x7000; 0x3fffffc; 0x3fffffc; 0x1f800; 0x19c00; 0x79e00; 0xf0f80;
   0x1fc07f0; 0x3f800fc; 0x1c0001c; 0x0; 0x0; 0x0; 0x0; 0x202000;
   0x0; 0x0; 0x0; 0x0; 0x3fffc0; 0x3fffc0; 0x3000c0; 0x3000c0;
   0x3fffc0; 0x3fffc0; 0x3000c0; 0x3000c0; 0x3fffc0; 0x3fffc0; 0x0; 0x0;
   0xfffff0; 0x1fffff0; 0xc00030; 0x1c00030; 0xfffff0; 0x1fffff0; 0xc00030; 0x1c00030;
   0xc00030; 0x1fffff0; 0xfffff0; 0x1c00030; 0x0; 0x0; 0x0; 0x0;
   0x202000; 0x0; 0x0; 0x0; 0x0; 0x3ffc000; 0x3ffcffc; 0x3aacff8;
   0x380ce1c; 0x380ce18; 0x380ce1c; 0x380ce18; 0x3ffcf5c; 0x3ffcff8; 0x380cffc; 0x380ce18;
   0x380ce1c; 0x380ce18; 0x3ffce1c; 0x3ffee18; 0x3d5effc; 0x380eff8; 0x380701c; 0x3807018;
   0x3807014; 0x3803800; 0x3d01c00; 0x3f80e00; 0x1f80400; 0x0; 0x0; 0x0;
   0x0; 0x202000; 0x0; 0x0; 0x0; 0x700000; 0x7ffa00; 0x1fffe0;
   0xcbe0; 0xc060; 0xc060; 0x3ffffe0; 0x3ffffe0; 0x38060; 0x1070060; 0x30f3c60;
   0x33e3ff0; 0x3fc07f0; 0x1e00030; 0x7fffe0; 0x3fffe0; 0x7000e0; 0x3000e0; 0x7fffe0;
   0x3fffe0; 0x7000e0; 0x3000e0; 0x7fffe0; 0x3fffe0; 0x7000e0; 0x0; 0x0;
   0x0; 0x0; 0x202000; 0x0; 0x0; 0x0; 0xc000; 0xe000;
   0x63fc; 0x63f8; 0x735c; 0x3fff308; 0x3fff31c; 0x3b3bb08; 0x3399b1c; 0x3b99f08;
   0x399cffc; 0x398cff8; 0x19cc71c; 0x18ce308; 0x18c731c; 0x18e7308; 0x1863b1c; 0x1861ba8;
   0x1871ffc; 0x1838ff8; 0x1c1c41c; 0xc1c008; 0xc0e000; 0xfc7000; 0x7c2000; 0x0;
   0x0; 0x0; 0x0; 0x202000; 0x0; 0x0; 0x0; 0x0;
   0x7fffe0; 0x7fffe0; 0x6000e0; 0x7000e0; 0x6000e0; 0x7fffe0; 0x6aaae0; 0x7000e0;
   0x6000e0; 0x7fffe0; 0x7fffe0; 0x700; 0x380; 0x1ffffc0; 0x1ffffe0; 0x1c71c70;
   0xc71c3c; 0x1c30e1c; 0xc38700; 0xc1c780; 0xe0e1c0; 0xe0f0f0; 0x7e7860; 0x7e3000;
   0x0; 0x0; 0x0; 0x0; 0x202000; 0x0; 0x0; 0x0;
   0xe0700; 0xe0700; 0xe0700; 0x1fffff8; 0x1fffff8; 0xaeafa8; 0xe0700; 0xe0700;
   0x15f5754; 0x3fffffc; 0x3fffffc; 0x0; 0x0; 0x3fffc0; 0x3fffc0; 0x3000c0;
   0x3000c0; 0x3fffc0; 0x3fffc0; 0x3000c0; 0x3000c0; 0x3000c0; 0x3fffc0; 0x3fffc0;
   0x3000c0; 0x0; 0x0; 0x0; 0x0; 0x202000; 0x0; 0x0;
   0x0; 0xc00000; 0x1f80000; 0x1ffc7fc; 0x1fe7f8; 0x1e71c; 0xe618; 0xe71c;
   0xe618; 0x155e71c; 0x3ffe618; 0x3ffe7fc; 0x30e7f8; 0x70671c; 0x306618; 0x70671c;
   0x306618; 0x70671c; 0x306618; 0x7077fc; 0x3037f8; 0x70301c; 0x303818; 0x703800;
   0x301800; 0x701000; 0x0; 0x0; 0x0; 0x0; 0x202000; 0x0;
   0x0; 0x0; 0x0; 0x7fffe0; 0x7fffe0; 0x600060; 0x700060; 0x7fffe0;
   0x7fffe0; 0x600060; 0x755560; 0x7fffe0; 0x555540; 0x0; 0xfffff0; 0xffffe0;
   0x0; 0x0; 0x3fffffc; 0x3fffffc; 0x40f00; 0xe0700; 0x1c03c0; 0x3a01e0;
   0x7ffff0; 0xebfff0; 0x1c00070; 0x0; 0x0; 0x0; 0x0; 0x202000;
   0x0; 0x0; 0x0; 0x70180; 0x60180; 0x715c0; 0x1e3fe0; 0x7f3ff0;
   0xf63870; 0x1e71cf8; 0x1861cdc; 0x870fc8; 0x60f80; 0x71f80; 0x3ffffe0; 0x3fff1f0;
   0x2aa003e; 0x55555c; 0x7fffe0; 0x7fffe0; 0x6000e0; 0x7fffe0; 0x7fffe0; 0x6000e0;
   0x6000e0; 0x7fffe0; 0x7fffe0; 0x6000e0; 0x0; 0x0; 0x0; 0x0;
   0x202000; 0x0; 0x0; 0x0; 0x0; 0x7fffe0; 0x7fffe0; 0x600060;
   0x600060; 0x7fffe0; 0x7fffe0; 0x600060; 0x600060; 0x7fffe0; 0x7fffe0; 0x61c0;
   0x61c0; 0xaaeae0; 0xfffff0; 0xaaeab8; 0x603c; 0x6018; 0x7fffe0; 0x7fffe0;
   0x6000; 0x6000; 0x3fffffc; 0x3fffffc; 0x0; 0x0; 0x0; 0x0;
   0x0; 0x202000; 0x0; 0x0; 0x0; 0xe0000; 0xe0000; 0xe03fc].
Definition hanzi_data_179 : list N :=
  [0xe03f8; 0x1fff31c; 0x1fff318; 0x1df731c; 0x18e3318; 0x18e731c; 0x18e3318; 0x18e73fc;
   0x18e33f8; 0x186731c; 0x7ffff18; 0x7ffff1c; 0xe0318; 0x1f031c; 0x1b0318; 0x1b83fc;
   0x3b83f8; 0x71c01c; 0xe0e018; 0x1c07c00; 0x3803e00; 0x3000c00; 0x0; 0x0;
   0x0; 0x0; 0x202000; 0x0; 0x0; 0x0; 0x70000; 0x60000;
   0xe03fc; 0xc03f8; 0x7ffff1c; 0x3fffb08; 0x7ffff1c; 0x30308; 0x43831c; 0xe18308;
   0x71c3fc; 0x30e3f8; 0x3f731c; 0x1ffb08; 0x1ff31c; 0xe0308; 0x67031c; 0x638308;
   0xe1c3fc; 0xc0e3f8; 0x1c0701c; 0x3fff808; 0x3fff800; 0x3003800; 0x1000000; 0x0;
   0x0; 0x0; 0x0; 0x202000; 0x0; 0x0; 0x0; 0x60000;
   0x60000; 0xf03fc; 0xf83f8; 0x1dc31c; 0x38e318; 0xf0f31c; 0x3e03b18; 0x7ce1f1c;
   0x3070b18; 0x3c3f8; 0x10e3f8; 0x387b1c; 0x183318; 0x1e031c; 0x870318; 0x1c3c31c;
   0xe0f3b8; 0x7073fc; 0x3803f8; 0x1e001c; 0xf8018; 0x7f000; 0xf800; 0x3800;
   0x0; 0x0; 0x0; 0x0; 0x202000; 0x0; 0x0; 0x0;
   0x40000; 0xe0000; 0xf03fc; 0x1f03f8; 0x1b831c; 0x318308; 0x71c31c; 0xe0e308;
   0x1c7731c; 0x7863f08; 0x30e1bfc; 0xc03f8; 0xfff318; 0x1fff308; 0x1fff31c; 0xe00308;
   0x70031c; 0x3003a8; 0x3883fc; 0x1dc3f8; 0xfc01c; 0xf0008; 0x1e0000; 0x380000;
   0x100000; 0x0; 0x0; 0x0; 0x0; 0x202000; 0x0; 0x0;
   0x0; 0x7000; 0x7000; 0x1fffff8; 0xfffff8; 0x3000; 0x3800; 0xfffff0;
   0xfffff0; 0x1c00; 0xe00; 0x3fffffc; 0x3fffffc; 0x1c0780; 0x3aabc0; 0x7fffe0;
   0xfaabf8; 0x7d801fc; 0x398019c; 0x1fff84; 0x1aab80; 0x180180; 0x180180; 0x1fff80;
   0x1fff80; 0x180180; 0x0; 0x0; 0x0; 0x0; 0x202000; 0x0;
   0x0; 0x0; 0x60000; 0x60000; 0x603fc; 0x603f8; 0x1fffb1c; 0x1fffb18;
   0x1fffb1c; 0x60318; 0x6031c; 0x60318; 0x603fc; 0x3fffbf8; 0x3ffff1c; 0xf0318;
   0x1f031c; 0x3f8318; 0x37c31c; 0x76e318; 0xe673fc; 0xe673f8; 0x1c63c1c; 0x3861e18;
   0x3060e00; 0x60000; 0x60000; 0x0; 0x0; 0x0; 0x0; 0x202000;
   0x0; 0x0; 0x0; 0x1c000; 0x1c000; 0x1c7fc; 0xc7f8; 0x7ffe71c;
   0x3ffe618; 0x7fff71c; 0x33618; 0x73f1c; 0x33e18; 0x3ff1ffc; 0x3ff07f8; 0x7071c;
   0x30618; 0x7071c; 0x30618; 0x3ff071c; 0x3ff0618; 0x707fc; 0x307f8; 0x7001c;
   0x30018; 0x70000; 0x30000; 0x70000; 0x0; 0x0; 0x0; 0x0;
   0x202000; 0x0; 0x0; 0x0; 0x0; 0x7fffe0; 0x7fffe0; 0x600060;
   0x7fffe0; 0x7fffe0; 0x755560; 0x600060; 0x7fffe0; 0x7fffe0; 0xf0f00; 0x3c0380;
   0x7d01e0; 0xfffff8; 0x1fffff0; 0x8e0300; 0xe0700; 0x2aeaba8; 0x3fffffc; 0x2aeaba8;
   0xe0380; 0xe03c0; 0xe01f0; 0xe007c; 0xe0018; 0x0; 0x0; 0x0;
   0x0; 0x202000; 0x0; 0x0; 0x0; 0x1c000; 0xc000; 0xe3fc;
   0xe3f8; 0x3fff31c; 0x3fff308; 0x3fff31c; 0x3803b08; 0x3801f1c; 0x38aaf08; 0x38ffffc;
   0x38eb3f8; 0x18c331c; 0x38c3308; 0x18c331c; 0x18c3308; 0x18d731c; 0x18ff308; 0x18ff3fc;
   0x18033f8; 0x1c0301c; 0x1c00008; 0x1d40000; 0xfe0000; 0x7c0000; 0x0; 0x0;
   0x0; 0x0; 0x202000; 0x0; 0x0; 0x0; 0x0; 0x3fff800;
   0x1fffffc; 0x1abaff8; 0x183071c; 0x1838618; 0x181871c; 0x1818618; 0x181c71c; 0x180e618;
   0x1fc77fc; 0xf83ff8; 0x1f1c; 0x618; 0x1fff71c; 0x1fff618; 0x180771c; 0x1803618;
   0x18077fc; 0x18037f8; 0x180701c; 0x1aab018; 0x1fff000; 0x1fff000; 0x1807000; 0x0;
   0x0; 0x0; 0x0; 0x202000; 0x0; 0x0; 0x0; 0x0;
   0x7fffe0; 0x7fffe0; 0x600060; 0x600060; 0x7fffe0; 0x7fffe0; 0x600060; 0x7fffe0;
   0x7fffe0; 0x555540; 0x0; 0x3fffffc; 0x3fffffc; 0x6040; 0x6180; 0x5561c0;
   0xffe0c0; 0xffe1e0; 0x63e0; 0x6770; 0x6f38; 0x7fffe3c; 0x3fff81e; 0x155000c;
   0x0; 0x0; 0x0; 0x0; 0x202000; 0x0; 0x0; 0x0;
   0x0; 0x7fffe0; 0x7ffff0; 0x600060; 0x600070; 0x7fffe0; 0x7ffff0; 0x600060;
   0x600070; 0x7fffe0; 0x7ffff0; 0x2000; 0x7000; 0xe000; 0x1fffff8; 0x1fffff8;
   0x80100; 0x180380; 0x1c0300; 0xe0700; 0x60700; 0x70600; 0x7fffffc; 0x3fffffc;
   0x0; 0x0; 0x0; 0x0; 0x0; 0x202000; 0x0; 0x0;
   0x0; 0x60000; 0x66000; 0x663fc; 0x663f8; 0x6735c; 0x1fff318; 0x1fff31c;
   0x63b18; 0x63b1c; 0x61b18; 0x61ffc; 0x603f8; 0x7ffff1c; 0x3fffb18; 0x55f571c;
   0xe0318; 0x1f031c; 0x1f0318; 0x1b83fc; 0x3983f8; 0x71c01c; 0xe0f018; 0x3c07c00;
   0x3803e00; 0x3000c00; 0x0; 0x0; 0x0; 0x0; 0x202000; 0x0;
   0x0; 0x0; 0x0; 0x7fffe0; 0x7fffe0; 0x600060; 0x7fffe0; 0x7fffe0;
   0x600060; 0x600060; 0x7fffe0; 0x7fffe0; 0xc00; 0xaa9fe0; 0x1ff87f0; 0x1eb9830;
   0x1c19c30; 0x1c19830; 0x1c19c30; 0x1c19e30; 0x1c19ff8; 0x1c18ff8; 0x1f98e38; 0xf98700;
   0x187c0; 0x180f8; 0x18078; 0x0; 0x0; 0x0; 0x0; 0x202000;
   0x0; 0x0; 0x0; 0x0; 0x3fff000; 0x3fff3fc; 0x3aab3f8; 0x380331c;
   0x3803308; 0x380331c; 0x3fff308; 0x3fff31c; 0x3308; 0x333fc; 0x333f8; 0x183331c;
   0x3e33308; 0xf3331c; 0x3f3b08; 0x1f3b1c; 0x33b08; 0x31bfc; 0x2031bf8; 0x7031c1c;
   0x3030c08; 0x3ff0e00; 0x3ff0600; 0x1fc0400; 0x0; 0x0; 0x0; 0x0;
   0x202000; 0x0; 0x0; 0x0; 0x40; 0x1e0; 0x15507c0; 0x1fe0f00;
   0x1ff0c00; 0x1820000; 0x18707f8; 0x18207f8; 0x1870600; 0x1aace00; 0x1ffce00; 0x1aaeefc;
   0x1877efc; 0x1821ee0; 0x1871e60; 0x1823e60; 0x1ff3670; 0x1fe7630; 0x155e630; 0x1c638].
Definition hanzi_data_180 : list N :=
  [0x7861c; 0x3f060e; 0x7fc0604; 0x3e007c0; 0x10007c0; 0x0; 0x0; 0x0;
   0x0; 0x202000; 0x0; 0x0; 0x0; 0x0; 0x7fffe0; 0x7fffe0;
   0x600060; 0x7fffe0; 0x7fffe0; 0x600060; 0x6aaae0; 0x7fffe0; 0x0; 0x3fffffc;
   0x3fffffc; 0x7000; 0x6000; 0xfffff0; 0xfffff0; 0xc0f030; 0xc3f830; 0xc79c30;
   0xce0f30; 0xdc07f0; 0xc801b0; 0xc00030; 0xfc0030; 0x7c0030; 0x0; 0x0;
   0x0; 0x0; 0x202000; 0x0; 0x0; 0x0; 0x0; 0xffffe0;
   0xffffe0; 0xe00060; 0xe00060; 0xe00060; 0xffffe0; 0xffffe0; 0xe0070; 0xc0070;
   0x3d5570; 0x7ffff8; 0x1fd55f8; 0x3d800dc; 0x11fffde; 0x1fffc8; 0x1801c0; 0x1800c0;
   0x1fffc0; 0x1fffc0; 0x0; 0x0; 0x1fffffc; 0x1fffffc; 0x0; 0x0;
   0x0; 0x0; 0x0; 0x202000; 0x0; 0x0; 0x0; 0x1c000;
   0x198000; 0x79c3fc; 0xe183f8; 0x1c1c31c; 0x18318; 0x3ffff1c; 0x3fffb18; 0x15dd71c;
   0xcc318; 0x19dc3fc; 0x18cc3f8; 0x1dcc31c; 0xccc318; 0xfce31c; 0x6ce318; 0x7c631c;
   0x3c7318; 0x1c73fc; 0x20e3bf8; 0x71f9c1c; 0x30ddc18; 0x3fccf00; 0x3f80700; 0x300;
   0x0; 0x0; 0x0; 0x0; 0x202000; 0x0; 0x0; 0x0;
   0x0; 0x7fffe0; 0x7fffe0; 0x600060; 0x600060; 0x600060; 0x7fffe0; 0x7fffe0;
   0x600060; 0x600060; 0x7fffe0; 0x7fffe0; 0x0; 0x30c00; 0x1c30c30; 0xe30c30;
   0x630c60; 0x330ce0; 0x3b0dc0; 0x1b0d80; 0x30c00; 0x2abaeaa; 0x7fffffe; 0x3fffffe;
   0x0; 0x0; 0x0; 0x0; 0x0; 0x202000; 0x0; 0x0;
   0x0; 0x0; 0x7fffe0; 0x7fffe0; 0x600060; 0x700060; 0x7fffe0; 0x755560;
   0x600060; 0x755560; 0x7fffe0; 0x555540; 0xc38c30; 0xe38c70; 0x738ce0; 0x3f8dc0;
   0xb8c80; 0xf8f00; 0x3f8fe0; 0x1f38dfc; 0xe38e3c; 0x1838704; 0x3038380; 0x3ff81f0;
   0x3ff00fc; 0x1540018; 0x0; 0x0; 0x0; 0x0; 0x202000; 0x0;
   0x0; 0x0; 0x0; 0xfffff0; 0xfffff0; 0xe00030; 0xe00070; 0xfffff0;
   0xfffff0; 0xe00030; 0xf55570; 0xfffff0; 0xfffff0; 0x6060e0; 0x7061c0; 0x386180;
   0x1c6380; 0x3fffffc; 0x3fffffc; 0x30e00; 0x30600; 0x30600; 0x7030700; 0x3030380;
   0x35701f0; 0x3ff00fc; 0x1ff001c; 0x0; 0x0; 0x0; 0x0; 0x202000;
   0x0; 0x0; 0x0; 0x0; 0x2aaa800; 0x3fffbfc; 0x3fffbf8; 0x318;
   0x308; 0xfff31c; 0xfff308; 0xc0731c; 0xc073f8; 0xc073fc; 0xc07308; 0xfff31c;
   0xfff308; 0xc0731c; 0xc07308; 0xc0731c; 0xfff3f8; 0xfff3fc; 0x8; 0x1c;
   0x0; 0x7fffe00; 0x3fffe00; 0x0; 0x0; 0x0; 0x0; 0x0;
   0x202000; 0x0; 0x0; 0x0; 0x0; 0x2aaa800; 0x3fffbfc; 0x3fffbf8;
   0x3831c; 0x338308; 0x71c31c; 0xe0e308; 0x1d4f31c; 0x1fffb08; 0x3fffbfc; 0x3020bf8;
   0x106031c; 0x60308; 0x6031c; 0x1fff308; 0x1fff31c; 0xaea308; 0x603fc; 0x603f8;
   0x6001c; 0x60008; 0x7fffc00; 0x3fffc00; 0x0; 0x0; 0x0; 0x0;
   0x0; 0x202000; 0x0; 0x0; 0x0; 0x0; 0x1fffff8; 0x1fffff8;
   0x38c00; 0xe39c70; 0x638ce0; 0x739cc0; 0x3b8cc0; 0x1b9dc0; 0x3fffffc; 0x3fffffc;
   0x2aaaaa8; 0x0; 0x7fffe0; 0x7fffe0; 0x6000e0; 0x7000e0; 0x7fffe0; 0x7fffe0;
   0x6000e0; 0x7000e0; 0x6000e0; 0x7fffe0; 0x7fffe0; 0x7000e0; 0x0; 0x0;
   0x0; 0x0; 0x202000; 0x0; 0x0; 0x0; 0xe0000; 0x60000;
   0x701fc; 0x601f8; 0x7019c; 0x3fff988; 0x3fff998; 0x3801988; 0x380199c; 0x3aa9988;
   0x3bf99fc; 0x3bb99f8; 0x3b1999c; 0x3b19988; 0x3b1999c; 0x3b19988; 0x3b1999c; 0x3bf99a8;
   0x3bf99fc; 0x38199f8; 0x381181c; 0x3801808; 0x3801800; 0x3e01800; 0x1e01800; 0x0;
   0x0; 0x0; 0x0; 0x202000; 0x0; 0x0; 0x0; 0x0;
   0xffffe0; 0xfffff0; 0xe00060; 0xfffff0; 0xffffe0; 0xe00070; 0xe00060; 0xfffff0;
   0xaaaaa0; 0x7000; 0x1fffff8; 0x1fffff8; 0x1803818; 0x1801c18; 0x1c00; 0x3fffffc;
   0x2beafa8; 0x1c0780; 0xe0380; 0x7ffc0; 0x7f800; 0x7fff00; 0x3f81ffc; 0x1c001f8;
   0x0; 0x0; 0x0; 0x0; 0x202000; 0x0; 0x0; 0x0;
   0x60000; 0xe0000; 0xc07fc; 0xc03f8; 0x3ffff1c; 0x3fffb18; 0x7071c; 0x38318;
   0x61c71c; 0x70c318; 0x75e7fc; 0x3ff3f8; 0x1ff71c; 0x38e0318; 0x1c7071c; 0xe3c318;
   0xf1f71c; 0x787b18; 0x3c17fc; 0x3e03f8; 0x77001c; 0xe3e018; 0x1c1f800; 0x3803c00;
   0x1001c00; 0x0; 0x0; 0x0; 0x0; 0x202000; 0x0; 0x0;
   0x0; 0x0; 0x3fff800; 0x3fffffc; 0x2bbabf8; 0x19839c; 0x198388; 0x15dd39c;
   0x3fffb88; 0x3fffb9c; 0x3999b88; 0x3999bfc; 0x3999bf8; 0x3999b9c; 0x3999b88; 0x3f9db9c;
   0x3f8fb88; 0x3807b9c; 0x3801b88; 0x3801bfc; 0x3801bf8; 0x380181c; 0x3fff808; 0x3fff800;
   0x3801800; 0x3801800; 0x0; 0x0; 0x0; 0x0; 0x202000; 0x0;
   0x0; 0x0; 0x1c000; 0xc000; 0x101c3fc; 0x1ff83f8; 0x1ffff1c; 0x83fb08;
   0x1e3031c; 0xf30308; 0x7f031c; 0x31f0308; 0x31ff3fc; 0x3b9fff8; 0x1f03b1c; 0xc00308;
   0x3ffff1c; 0x3ffff08; 0x15dd71c; 0x19c3a8; 0x19c3fc; 0x18c3f8; 0x718e01c; 0x318e008;
   0x3587c00; 0x3f83e00; 0x1f00c00; 0x0; 0x0; 0x0; 0x0; 0x202000;
   0x0; 0x0; 0x0; 0x1dc000; 0xcc000; 0x19ce3fc; 0x38c63f8; 0x1dc731c;
   0xec7308; 0x7c7b1c; 0x3c7b08; 0x1f7f1c; 0x30feb08; 0x31d73fc; 0x31c63f8; 0x3fc731c;
   0xa06308; 0x6031c; 0x60308; 0x3ffff1c; 0x3ffffa8; 0x15757fc; 0x603f8; 0x6001c;
   0x60008; 0x60000; 0x60000; 0x60000; 0x0; 0x0; 0x0; 0x0;
   0x202000; 0x0; 0x0; 0x0; 0x0; 0x7fffe0; 0x7fffe0; 0x600060].
Definition hanzi_data_181 : list N :=
  [0x7fffe0; 0x6aaae0; 0x755560; 0x7fffe0; 0x555540; 0x1fffff8; 0x1fffffc; 0x1801818;
   0x1d55d5c; 0xfffff8; 0x555750; 0xc380; 0xc1c0; 0xffffe0; 0xffffc0; 0xc000;
   0x3fffffc; 0x3fffff8; 0xc000; 0xc000; 0xc000; 0x0; 0x0; 0x0;
   0x0; 0x202000; 0x0; 0x0; 0x0; 0x0; 0x2aaa800; 0x3fffdfc;
   0x3fffdf8; 0x3811d9c; 0x3838d88; 0x3819d9c; 0xfff988; 0x1fff99c; 0xc188; 0xee1fc;
   0xe61f8; 0xe719c; 0x1fff988; 0x1fff19c; 0xe0188; 0xe019c; 0xe01a8; 0x7fffdfc;
   0x3fffdf8; 0xe001c; 0xe0008; 0xe0000; 0xe0000; 0xe0000; 0x0; 0x0;
   0x0; 0x0; 0x202000; 0x0; 0x0; 0x0; 0x60000; 0x60000;
   0xf03fc; 0x1f83f8; 0x79c31c; 0xe2e308; 0x1c77b1c; 0x3863f08; 0x10c1f1c; 0x40308;
   0x1fffbfc; 0xfffbf8; 0x70031c; 0x380308; 0x1c031c; 0xc0308; 0xfffb1c; 0xfffb08;
   0xc03bfc; 0xc03bf8; 0xc0381c; 0xc03808; 0xfff800; 0xfff800; 0xc03800; 0x0;
   0x0; 0x0; 0x0; 0x202000; 0x0; 0x0; 0x0; 0x70000;
   0x238000; 0x71c1fc; 0x60c1f8; 0xe0719c; 0x1fff988; 0x3fff99c; 0x3103988; 0x39c198;
   0xf0e188; 0x1c071fc; 0x38139f8; 0x3039d9c; 0x1c988; 0x1ffe19c; 0xfff188; 0x60799c;
   0x70ffa8; 0x39cdfc; 0x1f81f8; 0xf001c; 0x3fc008; 0x1f9fc00; 0x3e03e00; 0x3800e00;
   0x0; 0x0; 0x0; 0x0; 0x202000; 0x0; 0x0; 0x0;
   0x18000; 0x18000; 0x3fc3fc; 0x3fe3f8; 0x35731c; 0x187318; 0x1c3b1c; 0x1ffff18;
   0x1ffff1c; 0x1863318; 0x18633fc; 0x18633f8; 0x186331c; 0x1fff318; 0x1fff31c; 0x1b0318;
   0x1f031c; 0x1b8318; 0x1d83fc; 0x219c3f8; 0x71ce01c; 0x3187818; 0x3fc3e00; 0x3f80f80;
   0x1500700; 0x0; 0x0; 0x0; 0x0; 0x202000; 0x0; 0x0;
   0x0; 0xc01000; 0xe0f800; 0x7ff3fc; 0x3f83f8; 0x7fc31c; 0x1e3fb08; 0x1c37f1c;
   0x1038b08; 0x155d71c; 0x3ffff08; 0x7fffffc; 0xee3f8; 0xe731c; 0xaeb308; 0x1ffff1c;
   0x1ffff08; 0x18e7f1c; 0x18e3308; 0x18e73fc; 0x18e33f8; 0x1ce701c; 0x1ee3008; 0xee7000;
   0xe0000; 0xe0000; 0x0; 0x0; 0x0; 0x0; 0x202000; 0x0;
   0x0; 0x0; 0x0; 0xffffe0; 0xfffff0; 0xe00060; 0xfffff0; 0xffffe0;
   0xe00070; 0xe00060; 0xfffff0; 0xbaeaa0; 0x7dc000; 0x60c000; 0x3fffff0; 0x3fffff0;
   0xe18030; 0x638030; 0x731ff0; 0x3b1ff0; 0x1f1c30; 0xe1838; 0x71f1c18; 0x31f8f98;
   0x3f9ff9c; 0x3f0f00e; 0x1c0200c; 0x0; 0x0; 0x0; 0x0; 0x202000;
   0x0; 0x0; 0x0; 0x6e0000; 0xee0000; 0x3ce03fc; 0xe03f8; 0x3fffffc;
   0x3fffb18; 0xe031c; 0xe0318; 0x3fff31c; 0x3fff318; 0x38e33fc; 0x38e33f8; 0x38e331c;
   0x3fff318; 0x3fff31c; 0x38e3318; 0x38e331c; 0x3fff318; 0x3fff3fc; 0x38e33f8; 0x38e301c;
   0x38e3018; 0x38e3000; 0x3ee3000; 0x1ee3000; 0x0; 0x0; 0x0; 0x0;
   0x202000; 0x0; 0x0; 0x0; 0xc001c0; 0x1f800c0; 0x7fc1c0; 0x3cffc;
   0xdffc; 0xc0c0; 0x3ffd5c0; 0x3ffcff8; 0x70c7fc; 0x30e0c8; 0x7071c0; 0x3070c0;
   0x7039f8; 0x3010f8; 0x7fffc0; 0x7fffc0; 0x7000c0; 0x7000c0; 0x7fffc0; 0x7fffc0;
   0x7000c0; 0x7000c0; 0x7fffc0; 0x7fffc0; 0x7000c0; 0x0; 0x0; 0x0;
   0x0; 0x202000; 0x0; 0x0; 0x0; 0x0; 0x3fff800; 0x3fffffc;
   0x383fc; 0x1831c; 0x1830c; 0xfffb1c; 0xfffb0c; 0xc1c31c; 0xe0c30c; 0xe1c3fc;
   0x2eaebfc; 0x7ffff1c; 0x2aaab0c; 0x31c; 0xaaa30c; 0x1fff31c; 0xeab30c; 0x1c033fc;
   0xc033fc; 0x1c0301c; 0xc0300c; 0x1fff000; 0xfff000; 0x1c03000; 0x0; 0x0;
   0x0; 0x0; 0x202000; 0x0; 0x0; 0x0; 0xc000; 0xe000;
   0x63fc; 0x3ffe3f8; 0x3fff31c; 0x3308; 0x3b1c; 0x1ffff08; 0x1ffeb1c; 0x1826308;
   0x1c763fc; 0x18e63f8; 0x1dc731c; 0x3ffff08; 0x7ffff1c; 0xc33308; 0x1c7331c; 0xce33a8;
   0xcc33fc; 0x3fffbf8; 0x3fff81c; 0xc00008; 0xe00000; 0xfc0000; 0x7c0000; 0x0;
   0x0; 0x0; 0x0; 0x202000; 0x0; 0x0; 0x0; 0x0;
   0x7fffe0; 0x7fffe0; 0x600060; 0x7fffe0; 0x7fffe0; 0x600060; 0x7fffe0; 0x7fffe0;
   0x0; 0x3fffff0; 0x3fffff0; 0x30; 0x7fffb0; 0x7fffb0; 0x30; 0x3fffff0;
   0x3fffff0; 0x1c1c738; 0xf38638; 0x3f0718; 0x3ec618; 0x7f8ff1c; 0x3e03f8c; 0x100070c;
   0x0; 0x0; 0x0; 0x0; 0x202000; 0x0; 0x0; 0x0;
   0x198000; 0x198000; 0x1981fc; 0x1981f8; 0x1fff9dc; 0x1fff988; 0x1d9999c; 0x1999988;
   0x1d9999c; 0x1999988; 0x1fff9fc; 0x1fff9f8; 0x1d9999c; 0x1999988; 0x1d9999c; 0x1999988;
   0x7fffd9c; 0x3fffda8; 0x55555fc; 0x38c1f8; 0x70e01c; 0xe07008; 0x1c03c00; 0x3801e00;
   0x1000c00; 0x0; 0x0; 0x0; 0x0; 0x202000; 0x0; 0x0;
   0x0; 0x60000; 0x60000; 0x3fe03fc; 0x3fe03f8; 0x156031c; 0x60308; 0x1fff31c;
   0x1fffb08; 0x1d57b1c; 0x1803b08; 0x1fffbfc; 0x1fffbf8; 0x1d57b1c; 0x1803b08; 0x1fffb1c;
   0x1fffb08; 0x157531c; 0x60308; 0x7fffffc; 0x3fffff8; 0x557541c; 0x60008; 0x60000;
   0x60000; 0x60000; 0x0; 0x0; 0x0; 0x0; 0x202000; 0x0;
   0x0; 0x0; 0x1c0180; 0x1c0380; 0xc0700; 0x1fffff8; 0x1fffff8; 0x238c40;
   0x739c60; 0x338ce0; 0x339dc0; 0x1b8cc0; 0x3fffffc; 0x3fffffc; 0x0; 0x2aaaa0;
   0x7fffe0; 0x3aaae0; 0x7000e0; 0x3000e0; 0x7fffe0; 0x3fffe0; 0x7000e0; 0x3000e0;
   0x7fffe0; 0x3fffe0; 0x7000e0; 0x0; 0x0; 0x0; 0x0; 0x202000;
   0x0; 0x0; 0x0; 0x0; 0x7fffe0; 0x7fffe0; 0x600060; 0x7fffe0;
   0x7fffe0; 0x700060; 0x7fffe0; 0x7fffe0; 0x7000; 0x3fffffc; 0x3fffffc; 0x0;
   0x3fffc0; 0x7fffc0; 0x3000c0; 0x7000c0; 0x3fffc0; 0x7fffc0; 0x6000; 0x1e67c0].
Definition hanzi_data_182 : list N :=
  [0x7861e0; 0x1f0607c; 0x3807e3c; 0x1007c00; 0x0; 0x0; 0x0; 0x0;
   0x202000; 0x0; 0x0; 0x0; 0x7000; 0x1c02000; 0x1f871fc; 0x3c21f8;
   0xc719c; 0xc2188; 0xdff9c; 0xdff88; 0xc719c; 0x3fc3188; 0x7fc71fc; 0xccf9f8;
   0xcdf99c; 0xcdb988; 0xcd7d9c; 0xcc2d88; 0xcc7f9c; 0xce2788; 0xc677fc; 0xc621f8;
   0xc6701c; 0xc62008; 0xc37000; 0xc3a000; 0xc17000; 0x0; 0x0; 0x0;
   0x0; 0x202000; 0x0; 0x0; 0x0; 0x60000; 0x60000; 0x1c61dfc;
   0x1c619f8; 0xe7399c; 0x673188; 0x77719c; 0x1fa188; 0x7fc198; 0xf1e188; 0x1e0fdfc;
   0x3863df8; 0x107019c; 0x860988; 0x1c71d9c; 0xc71988; 0xe7399c; 0x6731a8; 0x7ff1fc;
   0xf81f8; 0x1dc01c; 0x78e008; 0x1f07c00; 0x3e03e00; 0x1000600; 0x0; 0x0;
   0x0; 0x0; 0x202000; 0x0; 0x0; 0x0; 0xe0000; 0xe0000;
   0x3fffbfc; 0x3fffbf8; 0xe039c; 0xaea388; 0x1fff39c; 0xe0388; 0x15f539c; 0x3fffb88;
   0x7fffffc; 0x3f8; 0x1fff39c; 0x1fff388; 0x1c0739c; 0x1aab388; 0x1fff39c; 0x18033a8;
   0x1c073fc; 0x1fff3f8; 0x1fff01c; 0x1803008; 0x1c07000; 0x1f03000; 0xf07000; 0x0;
   0x0; 0x0; 0x0; 0x202000; 0x0; 0x0; 0x0; 0x0;
   0x1fff80; 0x1fffc0; 0x180180; 0x1801c0; 0x1fff80; 0x1fffc0; 0x180180; 0x1801c0;
   0x1fff80; 0x1fffc0; 0x0; 0x0; 0x1ff9ff8; 0x1ff9ff8; 0x1819818; 0x1819c18;
   0x1ff9ff8; 0x1ff9ff8; 0x1819818; 0x1819c18; 0x1819818; 0x1ff9ff8; 0x1ff9ff8; 0x1819c18;
   0x0; 0x0; 0x0; 0x0; 0x202000; 0x0; 0x0; 0x0;
   0x0; 0x7fffe0; 0x7fffe0; 0x600060; 0x7fffe0; 0x6aaae0; 0x600060; 0x7fffe0;
   0x555540; 0x60180; 0xf7fc0; 0x3e3fe0; 0xf718f8; 0xc61ddc; 0x70f88; 0x3ffff80;
   0x1fff1f0; 0x7c; 0x7fffdc; 0x3fffc0; 0x7000c0; 0x3000c0; 0x7fffc0; 0x3fffc0;
   0x7000c0; 0x0; 0x0; 0x0; 0x0; 0x202000; 0x0; 0x0;
   0x0; 0x70; 0x70; 0x1ffbff0; 0x1ffbff8; 0x1d5839c; 0x181838c; 0x1c1bffc;
   0x181bffc; 0x1c195d4; 0x18183c0; 0x1ff9fe0; 0x1ffbcf0; 0x187c; 0x1c; 0x7fffc0;
   0x3aaac0; 0x7000c0; 0x3000c0; 0x7fffc0; 0x3fffc0; 0x7000c0; 0x3000c0; 0x7fffc0;
   0x3fffc0; 0x7000c0; 0x0; 0x0; 0x0; 0x0; 0x202000; 0x0;
   0x0; 0x0; 0x70000; 0x60000; 0xe03fc; 0x3fffbf8; 0x3fffb18; 0x318;
   0x31c; 0xfff318; 0x1fff31c; 0xc03318; 0x1c073fc; 0xc033f8; 0x1c0731c; 0xfff318;
   0x1fff31c; 0xe0318; 0x4e631c; 0xee6318; 0x1ce73fc; 0x18e3bf8; 0x18e381c; 0x38e1c18;
   0x30f4c00; 0x7c000; 0x7c000; 0x0; 0x0; 0x0; 0x0; 0x202000;
   0x0; 0x0; 0x0; 0x10001c0; 0x1f801c0; 0x1fffffc; 0x3bffc; 0x38770;
   0x38338; 0x3fffffc; 0x3fffff8; 0x638700; 0x618300; 0x61fff4; 0x61affc; 0x61c71c;
   0x60c300; 0x555540; 0x7fffe0; 0x7fffe0; 0x600060; 0x7fffe0; 0x7fffe0; 0x700060;
   0x600060; 0x7fffe0; 0x7fffe0; 0x700060; 0x0; 0x0; 0x0; 0x0;
   0x202000; 0x0; 0x0; 0x0; 0x70000; 0x60000; 0x603fc; 0x3fffbf8;
   0x3ffff1c; 0x3001b08; 0x3001f1c; 0x3fffb08; 0xfff31c; 0x308; 0xfff3fc; 0xfff3f8;
   0xd5731c; 0xc03308; 0xd5731c; 0xfff308; 0xd5731c; 0xc033a8; 0xd573fc; 0xfff3f8;
   0x55501c; 0x8; 0x7fffc00; 0x3fffc00; 0x5555400; 0x0; 0x0; 0x0;
   0x0; 0x202000; 0x0; 0x0; 0x0; 0x1800; 0x1800; 0x3ffd9fc;
   0x3ff98f8; 0x19d8; 0x3a88; 0x1ff7fdc; 0x1ff7e88; 0x1835fdc; 0x183de88; 0x1835ffc;
   0x1831af8; 0x1ff1bdc; 0x1ab1888; 0x18319dc; 0x1831888; 0x18319dc; 0x1ff1888; 0x1ff19fc;
   0x18f8; 0x181c; 0x1808; 0x7ffd800; 0x3ffd800; 0x1800; 0x0; 0x0;
   0x0; 0x0; 0x202000; 0x0; 0x0; 0x0; 0x0; 0x3fbf800;
   0x3fffdfc; 0x30319f8; 0x3031d9c; 0x3031988; 0x3031d9c; 0x3031988; 0x3fffd9c; 0x3fbf988;
   0x1df8; 0x19f8; 0x3fdfd9c; 0x3fdf988; 0x19d5d9c; 0x1981988; 0x1d81d9c; 0xfab988;
   0xf3fdfc; 0x72b9f8; 0x701c1c; 0xf81808; 0x1de1c00; 0x38f1800; 0x1031c00; 0x0;
   0x0; 0x0; 0x0; 0x202000; 0x0; 0x0; 0x0; 0xc0000;
   0x8ff800; 0x1fffbfc; 0x7983fc; 0x398b1c; 0x339df0c; 0x3f0fb1c; 0xf0e30c; 0xe0731c;
   0x1e03b0c; 0x3fffffc; 0x3ffeffc; 0x106071c; 0x6030c; 0x6031c; 0x1ffff0c; 0x1ffff1c;
   0xf030c; 0x1f83fc; 0x3b83fc; 0x71c01c; 0xe0e00c; 0x1c07800; 0x3803e00; 0x1000c00;
   0x0; 0x0; 0x0; 0x0; 0x202000; 0x0; 0x0; 0x0;
   0x0; 0x7fffe0; 0x7ffff0; 0x600060; 0x7ffff0; 0x7fffe0; 0x700070; 0x7fffe0;
   0xfffff0; 0x1c01800; 0xfffff0; 0x3ffff0; 0x1f1800; 0x3fffffc; 0x3fffffc; 0xfe00;
   0x7fffc0; 0x7ffff8; 0x6001fc; 0x6aab88; 0x7fffc0; 0x600180; 0x7fffc0; 0x7fff80;
   0x6001c0; 0x0; 0x0; 0x0; 0x0; 0x202000; 0x0; 0x0;
   0x0; 0x60000; 0x60000; 0x603fc; 0x3fffff8; 0x3ffff5c; 0x60318; 0x6031c;
   0x1fffb18; 0x1fffb1c; 0x1a61b18; 0x1f65bfc; 0x1b6dbf8; 0x196db1c; 0x1969b18; 0x1fffb1c;
   0x1fffb18; 0x1f831c; 0x3fc318; 0x76e3fc; 0xe673f8; 0x1c63c1c; 0x7861e18; 0x3060600;
   0x60000; 0x60000; 0x0; 0x0; 0x0; 0x0; 0x202000; 0x0;
   0x0; 0x0; 0xc00000; 0x1ffe800; 0x7ffffc; 0x1c30bf8; 0x1c73318; 0xe63308;
   0x66731c; 0x3fffb08; 0x3ffff1c; 0xc308; 0xc3fc; 0x3fffff8; 0x3ffff1c; 0xe308;
   0x55631c; 0xffe308; 0xd5f31c; 0xe0f308; 0x71f3fc; 0x3bbbf8; 0x1f1c1c; 0x3e1c08;
   0x1ffcf00; 0x3e3f780; 0x3807300; 0x0; 0x0; 0x0; 0x0; 0x202000;
   0x0; 0x0; 0x0; 0x70000; 0xe0000; 0xe03fc; 0x3fffbf8; 0x3fffb18].
Definition hanzi_data_183 : list N :=
  [0xe06308; 0xe0c31c; 0x60c308; 0x71c31c; 0x3fffb08; 0x7fffffc; 0x3f8; 0x31c;
   0x1fff308; 0x1fff31c; 0x1803308; 0x1c0731c; 0x1aab308; 0x1fff3fc; 0x18033f8; 0x1c0701c;
   0x1803008; 0x1fff000; 0x1fff000; 0x1c07000; 0x0; 0x0; 0x0; 0x0;
   0x202000; 0x0; 0x0; 0x0; 0x0; 0x3fff800; 0x3fffffc; 0x3001bf8;
   0x3001f1c; 0x3aabb08; 0x1fff31c; 0xc03308; 0x1c0731c; 0xfff308; 0x1fff3fc; 0xc033f8;
   0x1c0731c; 0xfff308; 0x1fff31c; 0x60308; 0x15f571c; 0x3ffffa8; 0x7fffffc; 0x20c3f8;
   0x70e01c; 0xe07008; 0x3c07c00; 0x7801e00; 0x3000400; 0x0; 0x0; 0x0;
   0x0; 0x202000; 0x0; 0x0; 0x0; 0xc00000; 0x1ffe800; 0x7ffdfc;
   0x1c301f8; 0xc73198; 0xe63188; 0x76719c; 0x3fffd88; 0x3fffd9c; 0x301cd88; 0x301cdfc;
   0x1fff9f8; 0x1fff99c; 0xc188; 0xe19c; 0xffe188; 0xffe19c; 0xe0e1a8; 0x71f1fc;
   0x3bb9f8; 0x1f181c; 0x3e1c08; 0x1ffce00; 0x3e3f600; 0x3c06200; 0x0; 0x0;
   0x0; 0x0; 0x202000; 0x0; 0x0; 0x0; 0x0; 0x3ffdff8;
   0x3ffdff8; 0x199838; 0x199ff8; 0x189ab8; 0x3ffd838; 0x2badff8; 0x3c1578; 0x3e0e38;
   0x7371c38; 0x2339ff8; 0x3f1f9fc; 0xa0c008; 0x7fffe0; 0x7fffe0; 0x7000e0; 0x7fffe0;
   0x7fffe0; 0x6000e0; 0x7fffe0; 0x7fffe0; 0x3fffffc; 0x3fffffc; 0x1555554; 0x0;
   0x0; 0x0; 0x0; 0x202000; 0x0; 0x0; 0x0; 0xe0700;
   0xe0300; 0x3fffffc; 0x3fffffc; 0xe0700; 0x7fffe0; 0x7fffe0; 0x6000e0; 0x7fffe0;
   0x6aaae0; 0x7000e0; 0x7fffe0; 0x555d40; 0x2aaaea8; 0x3fffffc; 0x2aeaba8; 0x3c01c0;
   0xffffe0; 0x7f555fc; 0x3b001dc; 0x3fffc4; 0x3001c0; 0x3fffc0; 0x3fffc0; 0x3001c0;
   0x0; 0x0; 0x0; 0x0; 0x202000; 0x0; 0x0; 0x0;
   0x70000; 0x60000; 0x3fff9fc; 0x3fff9f8; 0x70e19c; 0x30c188; 0x7fffd9c; 0x3fffd88;
   0x19c; 0xaaa988; 0x1fff9fc; 0x18039f8; 0x1d5799c; 0x1fff988; 0x1c0399c; 0x1803988;
   0x1fff99c; 0xaea988; 0x601fc; 0x3fffdf8; 0x7fffc1c; 0x60008; 0x60000; 0x60000;
   0x60000; 0x0; 0x0; 0x0; 0x0; 0x202000; 0x0; 0x0;
   0x0; 0x0; 0x7fffe0; 0x7fffe0; 0x600060; 0x7fffe0; 0x7fffe0; 0x600060;
   0x7fffe0; 0x7fffe0; 0x60600; 0x1fffff8; 0x1fffff8; 0x60700; 0x60600; 0x3fffffc;
   0x3fffffc; 0x1c63c0; 0xf863e0; 0x7fc677c; 0x38e663c; 0x56e04; 0xfef80; 0x7c67f0;
   0x607ef0; 0x407c00; 0x0; 0x0; 0x0; 0x0; 0x202000; 0x0;
   0x0; 0x0; 0x70e000; 0x30e000; 0x7fffffc; 0x3fffffc; 0x70e39c; 0x3ae38c;
   0x7fe39c; 0x6038c; 0x1fffb9c; 0x1fffb8c; 0x1c63bfc; 0x1863bfc; 0x1fffb9c; 0x1fffb8c;
   0x6039c; 0x3fffb8c; 0x3fffb9c; 0x6038c; 0x7fffffc; 0x3fffffc; 0x1f801c; 0x39c00c;
   0x1f9f000; 0x3e03e00; 0x3801c00; 0x0; 0x0; 0x0; 0x0; 0x202000;
   0x0; 0x0; 0x0; 0x1c1000; 0xc3800; 0xc31fc; 0xc61f8; 0x3ff759c;
   0x3ffff88; 0x75d9c; 0x31988; 0x3ff199c; 0x3fe1988; 0x374f9fc; 0x320f9f8; 0x374d99c;
   0x26c988; 0x76dd9c; 0x3e6c988; 0x3f6cd9c; 0x26cda8; 0x76cdfc; 0x2ecdf8; 0x7fc61c;
   0x3bc608; 0x57b6700; 0x3f3fb00; 0x3c17100; 0x0; 0x0; 0x0; 0x0;
   0x202000; 0x0; 0x0; 0x0; 0x0; 0xfffc08; 0x1fffc1c; 0xc00c38;
   0x1fffc70; 0xeaace0; 0x1c01c40; 0xfffc00; 0x1557400; 0xe38a8; 0x1fffcfc; 0x1fffcfc;
   0xe1fe0; 0x1ffffe0; 0x1fffbe0; 0xe18e0; 0x1fff8e0; 0xaeb8e0; 0xe18e0; 0x3fff8e0;
   0x3fff9f0; 0x1bf8; 0x7ffff1c; 0x3fffe0c; 0x555004; 0x0; 0x0; 0x0;
   0x0; 0x202000; 0x0; 0x0; 0x0; 0x303000; 0x303000; 0x3071fc;
   0x3bfef8; 0x1fffd8; 0x2b80088; 0x7f9fddc; 0x3f9fc88; 0x19d8ddc; 0x19d8c88; 0x19dfdfc;
   0x19ffcf8; 0x19401dc; 0xb3fe88; 0x1f1ffdc; 0xf0e088; 0xf071dc; 0x63e0a8; 0x77fffc;
   0xf0fef8; 0xf8701c; 0x1d86008; 0x39e7000; 0x70f7c00; 0x3063c00; 0x0; 0x0;
   0x0; 0x0; 0x202000; 0x0; 0x0; 0x0; 0x60000; 0x60000;
   0x3fffffc; 0x3fffff8; 0x6031c; 0x1fffb08; 0x1fffb1c; 0x308; 0xfff31c; 0xfff308;
   0xc033fc; 0xeab3f8; 0xfff31c; 0x606308; 0x70e31c; 0x30c308; 0x7ffff1c; 0x2aaab08;
   0x1fff3fc; 0xfff3f8; 0x1c0301c; 0xc03008; 0x1d57000; 0xfff000; 0x1d57000; 0x0;
   0x0; 0x0; 0x0; 0x202000; 0x0; 0x0; 0x0; 0x70000;
   0x60000; 0x3fffdfc; 0x3fffdf8; 0x60619c; 0x70e188; 0x175d59c; 0x3fffd88; 0x7fffd9c;
   0x188; 0x1fff9fc; 0x18619f8; 0x186199c; 0x1fff988; 0x1d7599c; 0x1861988; 0x1fff99c;
   0xaea9a8; 0x601fc; 0x1fff9f8; 0x1fffc1c; 0x60008; 0x7fffe00; 0x3fffe00; 0x0;
   0x0; 0x0; 0x0; 0x0; 0x202000; 0x0; 0x0; 0x0;
   0x0; 0x1ff8ff8; 0x1d5cff8; 0x1c08c18; 0x1ffcd58; 0x1ea8ff8; 0x1d5cd58; 0x1ffcc18;
   0x1c0eff8; 0x1c07ff8; 0x1f07000; 0xf0e000; 0x1fffff8; 0x1fffff8; 0x1c70c38; 0x19f8f38;
   0x7c07e0; 0x1e000f8; 0x9ffff0; 0x1fff80; 0x6000; 0x6000; 0x3fffffc; 0x3fffffc;
   0x0; 0x0; 0x0; 0x0; 0x0; 0x202000; 0x0; 0x0;
   0x0; 0x0; 0x3fff800; 0x3fffffc; 0x3999bf8; 0x3999f9c; 0x3fffb88; 0x3ffff9c;
   0x1818388; 0x1fffb9c; 0xfffba8; 0x75d3fc; 0x3983f8; 0x7ffff9c; 0x3ffff88; 0x7839c;
   0xabe388; 0x1ffff9c; 0xc07fa8; 0x1c06ffc; 0xffe2a8; 0x1d5601c; 0xc06008; 0x1ffe000;
   0xffe000; 0x1c06000; 0x0; 0x0; 0x0; 0x0; 0x202000; 0x0;
   0x0; 0x0; 0xc00000; 0x1ffe800; 0x5ffdfc; 0x601f8; 0x3ffff9c; 0x3ffff88;
   0x7019c; 0x1fff988; 0x1fff99c; 0x1a67988; 0x1b6d9fc; 0x19e99f8; 0x1fff99c; 0x1fff988;
   0x157519c; 0x3fff988; 0x157559c; 0x601a8; 0x7fffffc; 0x3fffff8; 0xecdc1c; 0x1cccc08].
Definition hanzi_data_184 : list N :=
  [0x39dce00; 0x3198700; 0x7198600; 0x0; 0x0; 0x0; 0x0; 0x202000;
   0x0; 0x0; 0x0; 0x0; 0x3fff800; 0x3fffdfc; 0x39b19f8; 0x3bb399c;
   0x3f37188; 0x3e3e19c; 0x3f3f188; 0x3bf3d9c; 0x38f2d88; 0xce1fc; 0xc61f8; 0x3fff19c;
   0x3fff988; 0x1c3d9c; 0xaebd88; 0x1ffff9c; 0xc35a8; 0x15d71fc; 0x1fff1f8; 0x15d701c;
   0xc3008; 0x3fff000; 0x3fff000; 0x3000; 0x0; 0x0; 0x0; 0x0;
   0x202000; 0x0; 0x0; 0x0; 0x0; 0xfff800; 0x1fff9fc; 0xc019f8;
   0x1fff99c; 0xeab988; 0x1c0199c; 0xfff988; 0x175d19c; 0x30c188; 0x3fffdfc; 0x2bae9f8;
   0x30c19c; 0x3fffd88; 0x3fffd9c; 0x626188; 0x1c6399c; 0x3a63fa8; 0x37677fc; 0x3ec1f8;
   0x1fc01c; 0xfef808; 0x1e63e00; 0x187cc00; 0x7c000; 0x0; 0x0; 0x0;
   0x0; 0x202000; 0x0; 0x0; 0x0; 0x607000; 0x706000; 0x30e1fc;
   0x1fffdf8; 0x1fffd9c; 0x60188; 0x1fff99c; 0x60188; 0x7ffff9c; 0x3ffff88; 0x7dd1fc;
   0x1dbfdf8; 0x19c619c; 0x3ffff88; 0x55df59c; 0x31bf988; 0x19b6f9c; 0x19aeba8; 0x1f7fffc;
   0xf019f8; 0x271fc1c; 0x679fc08; 0x67d8000; 0x3cff000; 0x385f000; 0x0; 0x0;
   0x0; 0x0; 0x202000; 0x0; 0x0; 0x0; 0x0; 0x7fffe0;
   0x600060; 0x7fffe0; 0x755560; 0x7fffe0; 0x7fffe0; 0x3fffffc; 0x3fffffc; 0xaa8aa0;
   0xff9ff0; 0xc19830; 0xff9ff0; 0x60600; 0x1fffff8; 0x60600; 0xfffff0; 0x60600;
   0x3fffffc; 0x2eafea8; 0xfbcfc0; 0x1f83fe; 0x1fcff1c; 0x3f03f80; 0x1000180; 0x0;
   0x0; 0x0; 0x0; 0x202000; 0x0; 0x0; 0x0; 0x0;
   0x0; 0x0; 0xfffff0; 0xfffff0; 0xc00030; 0xc00030; 0xc00030; 0xc00030;
   0xc00030; 0xc00030; 0xcaaab0; 0xcffff0; 0xcffff0; 0xc00030; 0xc00030; 0xc00030;
   0xc00030; 0xc00030; 0xc00030; 0xfffff0; 0xfffff0; 0xc00030; 0xc00030; 0x0;
   0x0; 0x0; 0x0; 0x0; 0x202000; 0x0; 0x0; 0x0;
   0x30c00; 0x30e00; 0x30e00; 0x30e00; 0x30e00; 0xabaea8; 0x1fffff8; 0x1fffff8;
   0x1c30e18; 0x1830e18; 0x1c30e18; 0x1830e18; 0x1c30e18; 0x1fffff8; 0x1fffff8; 0x1abaeb8;
   0x1c30e18; 0x1830e18; 0x1c30e18; 0x1830e18; 0x1c30e18; 0x1fffff8; 0x1fffff8; 0x1800018;
   0x1c00018; 0x0; 0x0; 0x0; 0x0; 0x202000; 0x0; 0x0;
   0x0; 0x7000; 0x7000; 0x7000; 0xfffff0; 0xfffff0; 0xc07030; 0xc07070;
   0xc06030; 0xfffff0; 0xfffff0; 0xc06070; 0xc06030; 0xc0e070; 0xfffff0; 0xfffff0;
   0x20c030; 0x71c070; 0x39c000; 0x1f8000; 0x30f8000; 0x707f000; 0x30ffe00; 0x35e1ff0;
   0x3fc03f8; 0x1f00078; 0x0; 0x0; 0x0; 0x0; 0x202000; 0x0;
   0x0; 0x0; 0x0; 0x2aaaaa8; 0x3fffffc; 0x3fffffc; 0x6000; 0xaaeaa0;
   0xfffff0; 0xeaeae0; 0xc06070; 0xc06060; 0xfffff0; 0xffffe0; 0xc06070; 0xc06060;
   0xfffff0; 0xffffe0; 0x70c0; 0x70c0; 0x39c0; 0x3f80; 0x1f00; 0xff80;
   0x5fff7f0; 0x3ff80fc; 0x3f0001c; 0x0; 0x0; 0x0; 0x0; 0x202000;
   0x0; 0x0; 0x0; 0x0; 0x7fffe0; 0x7fffe0; 0x6000e0; 0x7000e0;
   0x7fffe0; 0x7fffe0; 0x6000e0; 0x7555e0; 0x7fffe0; 0x555740; 0x380; 0x1ffffc0;
   0x1ffffc0; 0x1d555f0; 0x180e078; 0x1c070fc; 0x1c1f0ec; 0x1c7dce0; 0xcf0ee0; 0x1c555e0;
   0xcfffe0; 0xcfffe0; 0xfe0000; 0x7c0000; 0x0; 0x0; 0x0; 0x0;
   0x202000; 0x0; 0x0; 0x0; 0x30c00; 0x30c00; 0x3fffffc; 0x3fffffc;
   0x30c00; 0xfffff0; 0xfffff0; 0xc30c30; 0xc30c30; 0xfffff0; 0xd75d70; 0xc30c30;
   0xfffff0; 0xfffff0; 0x0; 0x3fffc0; 0x7fffc0; 0x3000c0; 0x7555c0; 0x3fffc0;
   0x7000c0; 0x3000c0; 0x7fffc0; 0x3fffc0; 0x7000c0; 0x0; 0x0; 0x0;
   0x0; 0x202000; 0x0; 0x0; 0x0; 0x0; 0x7fffe0; 0x7fffe0;
   0x600060; 0x7fffe0; 0x7fffe0; 0x700060; 0x7fffe0; 0x7fffe0; 0x0; 0x1fffff8;
   0x1830e18; 0x1c30e18; 0x1fffff8; 0x1fffff8; 0x0; 0x7ffff8; 0x7ffff8; 0x3c03c0;
   0x1e0f00; 0x7fe00; 0x3f800; 0x7fffd0; 0x3fe0ffc; 0x1f0007c; 0x0; 0x0;
   0x0; 0x0; 0x202000; 0x0; 0x0; 0x0; 0x1c0300; 0xe0300;
   0x60700; 0xafaaa0; 0xfffff0; 0xeaeab0; 0xdc63f0; 0xcc6330; 0xc66670; 0xc36630;
   0xfffff0; 0xfffff0; 0x0; 0x0; 0x7fffc0; 0x3fffc0; 0x7000c0; 0x3000c0;
   0x7fffc0; 0x3aaac0; 0x7000c0; 0x3000c0; 0x7fffc0; 0x3fffc0; 0x7000c0; 0x0;
   0x0; 0x0; 0x0; 0x202000; 0x0; 0x0; 0x0; 0x1c0180;
   0x180180; 0x1ffdff8; 0x1ff9ff8; 0x15d55d0; 0x1c0180; 0x3ffdffc; 0x3ffdffc; 0x17d55d4;
   0x3e03c0; 0x770fe0; 0xe3dc70; 0x7c1c83c; 0x3bffffc; 0x7fffe0; 0x3000e0; 0x7000e0;
   0x3000e0; 0x7fffe0; 0x3aaae0; 0x7000e0; 0x3000e0; 0x7fffe0; 0x3fffe0; 0x7000e0;
   0x0; 0x0; 0x0; 0x0; 0x202000; 0x0; 0x0; 0x0;
   0x0; 0x7fffe0; 0x7fffe0; 0x600060; 0x7fffe0; 0x7fffe0; 0x700060; 0x6aaae0;
   0x7fffe0; 0x0; 0x3fffffc; 0x3fffffc; 0x1555d74; 0x1830; 0x1ffdff0; 0x1ffdff0;
   0x1c39870; 0xe31ff0; 0x771ff0; 0x7e1830; 0x3c7c70; 0x7e7ffc; 0x1f79ffc; 0x3c3d800;
   0x100d800; 0x0; 0x0; 0x0; 0x0; 0x202000; 0x0; 0x0;
   0x0; 0x0; 0x2aaa80; 0x7fffc0; 0x7fffc0; 0x7001c0; 0x7000c0; 0x7001c0;
   0x7000c0; 0x7fffc0; 0x7fffc0; 0x7001c0; 0x7000c0; 0x7000c0; 0x7000c0; 0x7fffc0;
   0x7fffe0; 0x7fffe0; 0x7000e0; 0x700070; 0x700070; 0x700070; 0x700038; 0x7fc01c;
   0x3f800e; 0x1f800c; 0x0; 0x0; 0x0; 0x0; 0x202000; 0x0;
   0x0; 0x0; 0x1800; 0x1800; 0x1c00; 0x2aaaea8; 0x3fffffc; 0x3fffffc].
Definition hanzi_data_185 : list N :=
  [0x700; 0x300; 0x7fff80; 0x7fff80; 0x7fffc0; 0x6003e0; 0x7003f0; 0x7fffb8;
   0x7fff9c; 0x60038c; 0x700380; 0x600380; 0x7fff80; 0x7fff80; 0x700380; 0x600380;
   0x750380; 0x7f0380; 0x3f0380; 0x0; 0x0; 0x0; 0x0; 0x202000;
   0x0; 0x0; 0x0; 0x0; 0x7f8; 0x1fff7f8; 0x1ffe618; 0x718;
   0x618; 0x718; 0x7f8; 0x7f8; 0x3fffeb8; 0x7ffff18; 0x2bbae18; 0x318718;
   0x318618; 0x31c7f8; 0x3187f8; 0x31c718; 0x30c618; 0x31c71c; 0x230c618; 0x730e71c;
   0x230660c; 0x7707f4c; 0x3f03fce; 0x1f01bc4; 0x0; 0x0; 0x0; 0x0;
   0x202000; 0x0; 0x0; 0x0; 0x0; 0xaa8aa0; 0x1ff9ff0; 0x1ff9ff0;
   0x1c39c30; 0x1839830; 0x1c39c30; 0x1ab9ab0; 0x1ff9ff0; 0x1ff9ff0; 0x1c39c30; 0x1839830;
   0x1c39c30; 0x1839830; 0x1ff9ff0; 0x1ff9ff0; 0x1c19c30; 0x1819838; 0x1c1dc18; 0x181d818;
   0x1c1dc18; 0x180d818; 0x1f8ff9c; 0x1f86f0e; 0x786504; 0x0; 0x0; 0x0;
   0x0; 0x202000; 0x0; 0x0; 0x0; 0x0; 0x1ffe7f8; 0x1ffe7f8;
   0x180e638; 0x180e638; 0x180e638; 0x1d0e638; 0x1f8e7f8; 0xf0e7f8; 0xe6b8; 0x3ffe638;
   0x3ffe638; 0x3d7e618; 0x186e638; 0x1c6e7f8; 0xcee7f8; 0xcce618; 0xfce618; 0x78e618;
   0x38e618; 0x78e61c; 0xfce60c; 0x1cfe60c; 0x387e7ce; 0x301e7c4; 0x0; 0x0;
   0x0; 0x0; 0x202000; 0x0; 0x0; 0x0; 0xc0000; 0xc03f8;
   0x10c57f8; 0x18c3318; 0x18c7718; 0x18c3318; 0x18c7718; 0x18c33f8; 0x18c77f8; 0x1fff3b8;
   0x1fff718; 0xc0318; 0xc0718; 0x28c2318; 0x38c37f8; 0x38c33f8; 0x38c3718; 0x38c3318;
   0x38c371c; 0x38c3308; 0x38c371c; 0x3fff30c; 0x3fff74c; 0x38003ee; 0x30001c4; 0x0;
   0x0; 0x0; 0x0; 0x202000; 0x0; 0x0; 0x0; 0x1c000;
   0xc3f8; 0xe3f8; 0xe3b8; 0x3fff318; 0x3fff318; 0x3d57318; 0x3803b18; 0x3801ff8;
   0x38ffff8; 0x18ff318; 0x38c3318; 0x18c7318; 0x18c3318; 0x18c73f8; 0x18c33f8; 0x18ff318;
   0x18ff318; 0x180731c; 0x1803318; 0x1c0031c; 0x1c0030c; 0x1d6030c; 0xfc03ee; 0x7c01c4;
   0x0; 0x0; 0x0; 0x0; 0x202000; 0x0; 0x0; 0x0;
   0x198000; 0x1983f8; 0x1983f8; 0x198318; 0x3199b18; 0x399bb18; 0x1d9b318; 0xd9b3f8;
   0xf9f3f8; 0x79e3b8; 0x198318; 0x398318; 0x798318; 0xf9e318; 0x1d9f3f8; 0x399bbf8;
   0x3199f18; 0x198b18; 0x19c31c; 0x18c318; 0x718e31c; 0x218630c; 0x358734c; 0x3f83bee;
   0x1f019e4; 0x0; 0x0; 0x0; 0x0; 0x202000; 0x0; 0x0;
   0x0; 0x1810; 0xaa1838; 0x1ff1c70; 0x1ff0c60; 0x1830e60; 0x1833ffc; 0x1837ffc;
   0x1830180; 0x1ff0180; 0x1ff2188; 0x183319c; 0x1833188; 0x183319c; 0x1833188; 0x1ff35dc;
   0x1ffbff8; 0x183bffc; 0x181a180; 0x18181c0; 0x18180c0; 0x181c0e0; 0x180e060; 0x1d06070;
   0x1f87038; 0xf03018; 0x0; 0x0; 0x0; 0x0; 0x202000; 0x0;
   0x0; 0x0; 0x1c04000; 0xc0e7f8; 0xe1c7f8; 0x61c618; 0x718718; 0xbaa618;
   0x1fff718; 0x1ffe7f8; 0xe07f8; 0xe06b8; 0xe0718; 0xe0618; 0x3fff718; 0x3fff618;
   0x3fff7f8; 0xe07f8; 0x1f0718; 0x3f0618; 0x370718; 0x738618; 0xf1c71c; 0xe0e60c;
   0x3c0f74c; 0x3803bce; 0x30013c4; 0x0; 0x0; 0x0; 0x0; 0x202000;
   0x0; 0x0; 0x0; 0x1c0; 0x1ff0180; 0x1ff0380; 0x1ab3ff8; 0x1833ff8;
   0x1833ab8; 0x1833818; 0x1ab3818; 0x1ff3ff8; 0x1ff3ff8; 0x1833818; 0x1833818; 0x1833ff8;
   0x183bff8; 0x1ff1558; 0x1ff8218; 0x1838718; 0x1838e18; 0x1818c18; 0x1819e18; 0x181dfd8;
   0x180fbf8; 0x1f8d87c; 0x1f0e01c; 0xf04000; 0x0; 0x0; 0x0; 0x0;
   0x202000; 0x0; 0x0; 0x0; 0x70000; 0x2303f8; 0x7383f8; 0x61c318;
   0xc0e318; 0x1fff318; 0x3fff318; 0x300b3f8; 0x79c3f8; 0xe0e3b8; 0x1c07318; 0x3813b18;
   0x3039b18; 0x18318; 0x1ffc3f8; 0xffe3f8; 0xe0f318; 0x70ff18; 0x39df1c; 0x1f8308;
   0x1f031c; 0x3fc30c; 0x1f9ff4c; 0x3e07fee; 0x3001dc4; 0x0; 0x0; 0x0;
   0x0; 0x202000; 0x0; 0x0; 0x0; 0x1c0; 0x1ff8180; 0x1ff8180;
   0x181bffc; 0x1ffbffc; 0x1ff8060; 0x1818070; 0x1818060; 0x1ff9070; 0x1ff9e60; 0x181dff0;
   0x180e0f8; 0x1f0f010; 0xf02000; 0x1fffff0; 0xfffff0; 0x557550; 0x6000; 0x7fffe0;
   0x7fffe0; 0x6000; 0x6000; 0x3fffffc; 0x3fffffc; 0x1555554; 0x0; 0x0;
   0x0; 0x0; 0x202000; 0x0; 0x0; 0x0; 0x180; 0x1ff8180;
   0x1ff8180; 0x1abbffc; 0x183bffc; 0x1838180; 0x1838180; 0x183bff8; 0x1ffbffc; 0x1ffb818;
   0x183b81c; 0x183bff8; 0x183bffc; 0x183b818; 0x1ffbffc; 0x1ffbff8; 0x18195d0; 0x1818180;
   0x181fffe; 0x181fffe; 0x181c180; 0x180e180; 0x1d07180; 0x1f07180; 0x1f03180; 0x0;
   0x0; 0x0; 0x0; 0x202000; 0x0; 0x0; 0x0; 0x1830;
   0x2aa1830; 0x3ff1830; 0x3ab1830; 0x3837ffc; 0x3837ffc; 0x3831830; 0x3ab1830; 0x3ff1ff0;
   0x3ff1ff0; 0x3831830; 0x3831830; 0x3831ff0; 0x3831ff0; 0x3ff1830; 0x3ff1830; 0x3837ffc;
   0x383fffe; 0x383d554; 0x3838e60; 0x3819c70; 0x3819c38; 0x3d1f83c; 0x3f0d01e; 0x1f0c00c;
   0x0; 0x0; 0x0; 0x0; 0x202000; 0x0; 0x0; 0x0;
   0x70c000; 0x30c1f8; 0x3fffdf8; 0x3fffd98; 0x70c198; 0x30c198; 0x3fffd98; 0x3fffdf8;
   0x3554df8; 0x37fedb8; 0x554198; 0x198; 0x3fffd98; 0x38198; 0x1c1f1f8; 0x1e33df8;
   0x7fcd9c; 0x3ee188; 0x6e7d9c; 0xef8d8c; 0xcde18c; 0x1ccf98c; 0x78e1fcc; 0x307c5ee;
   0x7c0e4; 0x0; 0x0; 0x0; 0x0; 0x202000; 0x0; 0x0;
   0x0; 0x6000; 0x6000; 0x6000; 0x6000; 0x6000; 0x6000; 0x1557554;
   0x3fffffc; 0x3fffffc; 0xf800; 0x1f800; 0x3fc00; 0x76c00; 0x66e00; 0xe6700;
   0x1c6380; 0x3861c0; 0x7060e0; 0x1f06070; 0x3c0603c; 0x7c0601e; 0x300600c; 0x6000].
Definition hanzi_data_186 : list N :=
  [0x6000; 0x6000; 0x0; 0x0; 0x0; 0x0; 0x202000; 0x0;
   0x0; 0x0; 0x6000; 0x6000; 0x6000; 0x6000; 0xfffff0; 0xfffff0;
   0xfffff0; 0x6000; 0x6000; 0x6000; 0x6000; 0x3fffffc; 0x3fffffc; 0xf800;
   0x1fc00; 0x3ec00; 0x76f00; 0xe6780; 0x3c63c0; 0x7861e0; 0x1f060f8; 0x3e0603e;
   0x380601c; 0x6000; 0x6000; 0x0; 0x0; 0x0; 0x0; 0x202000;
   0x0; 0x0; 0x0; 0x6000; 0x6000; 0x6000; 0x6000; 0x1557554;
   0x3fffffc; 0x3fffffc; 0x6000; 0x6000; 0x6000; 0x6000; 0xfffff8; 0x1fffff8;
   0xaafaa8; 0x1fc00; 0x3ec00; 0x76f00; 0xe6700; 0x3c63c0; 0x7861e0; 0x1f060f8;
   0x3c0603e; 0x380601c; 0x6000; 0x6000; 0x0; 0x0; 0x0; 0x0;
   0x202000; 0x0; 0x0; 0x0; 0x6000; 0x6000; 0x6000; 0x6000;
   0x6000; 0x6000; 0x3fffffc; 0x3fffffc; 0x3fc00; 0x36e00; 0x76600; 0xe6600;
   0xe6700; 0x1c6380; 0x3c61c0; 0x3860e0; 0xf060f0; 0x1e06078; 0x7dffffc; 0x39fff9c;
   0x1006000; 0x6000; 0x6000; 0x6000; 0x6000; 0x0; 0x0; 0x0;
   0x0; 0x202000; 0x0; 0x0; 0x0; 0x18180; 0x18180; 0x18180;
   0x18180; 0x18180; 0x18180; 0x1bffc; 0x1bffc; 0x181c0; 0x183c0; 0x187c0;
   0x18fe0; 0x19df0; 0x199b0; 0x199b0; 0x181b8; 0x1819c; 0x101818e; 0x701818e;
   0x3018184; 0x3018180; 0x3018180; 0x3ff8180; 0x1ff8180; 0x180; 0x0; 0x0;
   0x0; 0x0; 0x202000; 0x0; 0x0; 0x0; 0x46000; 0xe6000;
   0x1e6000; 0x386000; 0x706000; 0x206000; 0x6000; 0x3fffffc; 0x3fffffc; 0xf000;
   0x1f800; 0x3f800; 0x77c00; 0xe6e00; 0x1e6700; 0x1c6380; 0x7863c0; 0xf061e0;
   0x1e060f0; 0x3c0603c; 0x380601c; 0x6008; 0x6000; 0x6000; 0x6000; 0x0;
   0x0; 0x0; 0x0; 0x202000; 0x0; 0x0; 0x0; 0x6000;
   0x6380; 0x6180; 0x61c0; 0x5575c0; 0xffffe0; 0xffffe0; 0x6070; 0x6078;
   0x6038; 0x6000; 0x3fffffc; 0x3fffffc; 0x3fffffc; 0x1fc00; 0x3ec00; 0xf6f00;
   0x1e6780; 0x3c63c0; 0xf861e0; 0x1f060f8; 0x3c0603e; 0x300601c; 0x6000; 0x6000;
   0x0; 0x0; 0x0; 0x0; 0x202000; 0x0; 0x0; 0x0;
   0x1c0; 0x2000c0; 0x31c1c0; 0x3180c0; 0x31c1c0; 0x3180c0; 0x71dffc; 0x31dffc;
   0x71c1c0; 0x71c1e0; 0x71c3e0; 0x60c7e0; 0x71c7f0; 0x60cef0; 0x60cdf0; 0xe0c8f8;
   0xe0e1dc; 0xe0e0cc; 0x1c061cc; 0x1c060c4; 0x1c071c0; 0x38070c0; 0x78031c0; 0x10030c0;
   0x10001c0; 0x0; 0x0; 0x0; 0x0; 0x202000; 0x0; 0x0;
   0x0; 0x70180; 0x30180; 0x70180; 0x30180; 0x70180; 0x33ffc; 0x73ffc;
   0x32ba8; 0xf03c0; 0x1f03c0; 0x7f07c0; 0xf30fe0; 0x1e71df0; 0x3c319b0; 0x78719b0;
   0x301b8; 0x7019c; 0x3018c; 0x7018c; 0x30180; 0x70180; 0x30180; 0x70180;
   0x30180; 0x70180; 0x0; 0x0; 0x0; 0x0; 0x202000; 0x0;
   0x0; 0x0; 0x0; 0xfff00; 0xfff00; 0xc0300; 0xc0700; 0xc0300;
   0xc0300; 0xc0380; 0xc01c0; 0x3fc00e0; 0x3fc707c; 0xa86038; 0x7000; 0x3fffffc;
   0x3fffffc; 0x2abfaa8; 0x3fc00; 0x76e00; 0x1e7700; 0x3c63c0; 0x1f071f0; 0x3e0607c;
   0x380701c; 0x6008; 0x7000; 0x0; 0x0; 0x0; 0x0; 0x202000;
   0x0; 0x0; 0x0; 0x601c0; 0x600c0; 0x601c0; 0x600c0; 0x601c0;
   0x600c0; 0x3fffffc; 0x3ffeffc; 0x35751c0; 0x38600e0; 0x30701e0; 0x38603e0; 0x38707f0;
   0x38306f0; 0x3870ff8; 0x3830cd8; 0x38381dc; 0x38380ce; 0x381c1cc; 0x381c0c4; 0x180e1c0;
   0x180e0c0; 0x1c071c0; 0x1f838c0; 0xf811c0; 0x0; 0x0; 0x0; 0x0;
   0x202000; 0x0; 0x0; 0x0; 0x1c0; 0x2a80c0; 0x7fc1c0; 0x7fc0c0;
   0x60c1c0; 0x60c0c0; 0x60dffc; 0x60cffc; 0x60c1c0; 0x60c0e0; 0x60c1e0; 0x60c3e0;
   0x60c7f0; 0x60cef0; 0x60ddf8; 0x60e8d8; 0x60e1dc; 0x6060ce; 0x66071ce; 0x66070c4;
   0x66071c0; 0x66038c0; 0x7e01dc0; 0x3e01cc0; 0x3c009c0; 0x0; 0x0; 0x0;
   0x0; 0x202000; 0x0; 0x0; 0x0; 0x1c0; 0xc0; 0x7fff9c0;
   0x3fff8c0; 0x381c0; 0x38ffc; 0x18ffc; 0x18ae8; 0x1c1e0; 0x181e0; 0x1c3e0;
   0x1ffc6f0; 0x1ffcff0; 0x1800cf8; 0x1801dd8; 0x18008d8; 0x1c001dc; 0x18000ce; 0x1c001c4;
   0x1c000c0; 0x1c001c0; 0xc000c0; 0xffc1c0; 0x7f80c0; 0x3f81c0; 0x0; 0x0;
   0x0; 0x0; 0x202000; 0x0; 0x0; 0x0; 0x300000; 0x3800e0;
   0x1c03f0; 0xf0f80; 0x7fe00; 0x1f800; 0x7fc00; 0xf9f00; 0x3e07e0; 0xf801f8;
   0x706078; 0x6000; 0x6000; 0x3fffffc; 0x3fffffc; 0x6000; 0x6100; 0x1c6380;
   0x7861c0; 0xf060e0; 0x1e06070; 0x380603c; 0x380601c; 0x7e08; 0x7c00; 0x0;
   0x0; 0x0; 0x0; 0x202000; 0x0; 0x0; 0x0; 0x1800;
   0x1800; 0x1c00; 0xffff8; 0xffff8; 0xeaea8; 0x10c0e00; 0x30c0700; 0x30c0780;
   0x30c03e0; 0x3fc00fc; 0x1f8603c; 0x7008; 0x2aaeaa8; 0x3fffffc; 0x3fffffc; 0x7000;
   0xc6380; 0x1c71c0; 0x3860e0; 0x7070f0; 0xe06038; 0x1c07018; 0x7e00; 0x3e00;
   0x0; 0x0; 0x0; 0x0; 0x202000; 0x0; 0x0; 0x0;
   0x1c0; 0xc0; 0x1fff1c0; 0x3fff0c0; 0x3fff1c0; 0x18060c0; 0x1806ffc; 0x180effc;
   0x1c0c1e0; 0xc0c1e0; 0xc1c3e0; 0xe1c7e0; 0x618ff0; 0x739cf8; 0x731dd8; 0x3b08d8;
   0x1f01dc; 0xe00cc; 0x1e01c6; 0x3f00c4; 0x7bc1c0; 0xe1e0c0; 0x3e0f9c0; 0x38038c0;
   0x30019c0; 0x0; 0x0; 0x0; 0x0; 0x202000; 0x0; 0x0;
   0x0; 0x8000c0; 0xf800c0; 0x1fff0c0; 0xfe0c0; 0xc40c0; 0xc0ffe; 0xc0ffe].
Definition hanzi_data_187 : list N :=
  [0xc0ae8; 0xc00e0; 0xc01e0; 0x15d53f0; 0x3fff7f0; 0x7fff6f0; 0xc0ef8; 0xc04d8;
   0xc00d8; 0xc00dc; 0xc00ce; 0xc00c4; 0xc00c4; 0xc00c0; 0xc00c0; 0xc00c0;
   0xc00c0; 0xc00c0; 0x0; 0x0; 0x0; 0x0; 0x202000; 0x0;
   0x0; 0x0; 0x1c0; 0xc0; 0x3fff1c0; 0x3fff0c0; 0xc01c0; 0xc00c0;
   0xc0ffc; 0xc0ffc; 0xc01c0; 0xc00e0; 0xc01e0; 0x3fffbe0; 0x7fffff0; 0xc06f0;
   0xc0ff8; 0xc0cd8; 0xc01dc; 0xc00ce; 0xc01cc; 0xc00c4; 0xc01c0; 0xc00c0;
   0xc01c0; 0xc00c0; 0xc01c0; 0x0; 0x0; 0x0; 0x0; 0x202000;
   0x0; 0x0; 0x0; 0xc0; 0xc0; 0x3fff8c0; 0x3fff8c0; 0x1d570c0;
   0x18237fc; 0x1c777fc; 0x1c662e8; 0x1ce61e0; 0xcc61e0; 0xece3f0; 0xe0c3f0; 0x71c6f0;
   0x71cef8; 0x398cd8; 0x3b80d8; 0x1f00dc; 0xe00cc; 0xf00c4; 0x1f80c0; 0x7fc0c0;
   0xf0e0c0; 0x3e07cc0; 0x3c03cc0; 0x1000cc0; 0x0; 0x0; 0x0; 0x0;
   0x202000; 0x0; 0x0; 0x0; 0x4001c0; 0xe00180; 0x7001c0; 0x380180;
   0x1e01c0; 0xf0180; 0x7dffc; 0x81fffc; 0x1c041c0; 0xe003c0; 0x7007e0; 0x380fe0;
   0x1e1df0; 0xf9db0; 0x7f9f0; 0x300c198; 0x38001dc; 0x1c0018e; 0xf001ce; 0x780184;
   0x3c01c0; 0xf0180; 0x7c1c0; 0x1f180; 0x61c0; 0x0; 0x0; 0x0;
   0x0; 0x202000; 0x0; 0x0; 0x0; 0x1c0; 0xc0; 0x1c0;
   0x3fff8c0; 0x7fffdc0; 0x30c0c0; 0x31cffc; 0x30cffc; 0x31c1c0; 0x30c0e0; 0x31c1e0;
   0x30c3e0; 0x30c7f0; 0x30cef0; 0x30ddf8; 0x30c8d8; 0x30e1dc; 0x30e0cc; 0x63071ce;
   0x63070c4; 0x63071c0; 0x63038c0; 0x7f01dc0; 0x3f00ec0; 0x1e00dc0; 0x0; 0x0;
   0x0; 0x0; 0x202000; 0x0; 0x0; 0x0; 0x6000; 0x6000;
   0x6000; 0x3fffffc; 0x3fffffc; 0x3fc00; 0x76f00; 0xe6780; 0x7c63c0; 0xf060f0;
   0x7e0607e; 0x38fff9c; 0x3fffc0; 0xeaa80; 0x7c000; 0xe000; 0x1557554; 0x3fffffc;
   0x3fffffc; 0x6000; 0x6000; 0x6000; 0x6000; 0x7e00; 0x3e00; 0x0;
   0x0; 0x0; 0x0; 0x202000; 0x0; 0x0; 0x0; 0x6000;
   0x6000; 0x6000; 0x6000; 0x3fffffc; 0x3fffffc; 0x1fc00; 0x3ee00; 0x76700;
   0x1e6380; 0x7c61c0; 0xf060e0; 0x7e0607c; 0x380603c; 0x115554c; 0x3fffc0; 0x3fffc0;
   0x3000c0; 0x3000c0; 0x3000c0; 0x3000c0; 0x3000c0; 0x3fffc0; 0x3fffc0; 0x3000c0;
   0x0; 0x0; 0x0; 0x0; 0x202000; 0x0; 0x0; 0x0;
   0xe001c0; 0xe00180; 0xe001c0; 0xe00180; 0xe001c0; 0xe00180; 0x7fffffc; 0x3ffeffc;
   0xf001c0; 0xf003c0; 0xf807e0; 0xf80fe0; 0xfc1df0; 0xee1db0; 0xe719f0; 0xe38198;
   0xe3c1dc; 0xe1e18e; 0xe0f1ce; 0xe07184; 0xe021c0; 0xe00180; 0xf501c0; 0xfe0180;
   0x7e01c0; 0x0; 0x0; 0x0; 0x0; 0x202000; 0x0; 0x0;
   0x0; 0xe001c0; 0xe00180; 0xe001c0; 0xe00180; 0xe001c0; 0xe00180; 0x7fffffc;
   0x3fffffc; 0xe001c0; 0xe001c0; 0xe001e0; 0xe0c3e0; 0xe1c7f0; 0xe38fb0; 0xe71df0;
   0xe70998; 0xe609dc; 0xe2018e; 0xe001cc; 0xe00184; 0xe001c0; 0xe00180; 0xf501c0;
   0xfe0180; 0x7e01c0; 0x0; 0x0; 0x0; 0x0; 0x202000; 0x0;
   0x0; 0x0; 0x181c0; 0x180c0; 0x1c1c0; 0xc0c0; 0x3ffc1c0; 0x3ffeffc;
   0x3fffffc; 0x3807ae8; 0x38039c0; 0x38039e0; 0x18093e0; 0x381c7e0; 0x183cff0; 0x1878cf0;
   0x18f05f8; 0x18e00d8; 0x19c01dc; 0x18000ce; 0x1c001cc; 0x18000c4; 0x1c001c0; 0xc000c0;
   0x1f501c0; 0xfe00c0; 0x7e01c0; 0x0; 0x0; 0x0; 0x0; 0x202000;
   0x0; 0x0; 0x0; 0x600c0; 0xe00c0; 0xe00c0; 0xe00c0; 0xe00c0;
   0xe0ffc; 0xe0ffc; 0xe02e8; 0x3fff9e0; 0x3fff9e0; 0xe03e0; 0xe07e0; 0xe06f0;
   0xe0ef0; 0x1f04d8; 0x1f00d8; 0x1f00dc; 0x3b80ce; 0x7380cc; 0x71c0c0; 0xe1e0c0;
   0xe0e0c0; 0x3c078c0; 0x3803cc0; 0x30018c0; 0x0; 0x0; 0x0; 0x0;
   0x202000; 0x0; 0x0; 0x0; 0x3000c0; 0x3000c0; 0x3000c0; 0x3000c0;
   0x3000c0; 0x3fffffc; 0x3fffffc; 0x2baa2e8; 0x3801e0; 0x3861e0; 0x1863f0; 0x18e6f0;
   0x18c6f0; 0x18ccf8; 0x1dccd8; 0xf80d8; 0xf80cc; 0xf00ce; 0xf00c4; 0xf80c0;
   0x3fc0c0; 0x79e0c0; 0x1f0f0c0; 0x3c038c0; 0x10018c0; 0x0; 0x0; 0x0;
   0x0; 0x202000; 0x0; 0x0; 0x0; 0x2701c0; 0x730180; 0xe701c0;
   0x1c30180; 0x1c701c0; 0x1870180; 0x71ffc; 0x3870ffc; 0x7ffd1c0; 0x2fff1e0; 0x7f1e0;
   0x603e0; 0x607f0; 0xe0fb0; 0xe1df8; 0xe0998; 0xe09dc; 0xc018e; 0x71c01cc;
   0x61c0184; 0x71c01c0; 0x3380180; 0x37001c0; 0x3e00180; 0x1c001c0; 0x0; 0x0;
   0x0; 0x0; 0x202000; 0x0; 0x0; 0x0; 0xe01c0; 0xe00c0;
   0xe01c0; 0xe00c0; 0xe01c0; 0xe0ffc; 0xe0ffc; 0xe0ae8; 0x1fff1c0; 0x3fff1e0;
   0x3fff3e0; 0xe03e0; 0xe07f0; 0xe06f0; 0xe05d8; 0xe00d8; 0xe01dc; 0xe00ce;
   0xe01c4; 0xe00c0; 0xe01c0; 0x2aea8c0; 0x7fffdc0; 0x3fff8c0; 0x1c0; 0x0;
   0x0; 0x0; 0x0; 0x202000; 0x0; 0x0; 0x0; 0xc0;
   0xc0; 0x1fff0c0; 0x1fff0c0; 0x1c000c0; 0x1c007fc; 0x1c007fc; 0x1c002e8; 0x1c001e0;
   0x1c001e0; 0x1d553e0; 0x1fff3e0; 0x1fff6f0; 0x1c076f0; 0x14074d8; 0x70d8; 0x70dc;
   0x70ce; 0x30070c4; 0x30070c0; 0x70070c0; 0x30070c0; 0x3fff0c0; 0x3ffe0c0; 0xffc0c0;
   0x0; 0x0; 0x0; 0x0; 0x202000; 0x0; 0x0; 0x0;
   0x6000; 0x6000; 0x6000; 0x3fffff8; 0x3fffffc; 0x6000; 0x6000; 0x6000;
   0xfffff0; 0xfffff0; 0xe06070; 0xe06030; 0xe06070; 0xe06030; 0xfffff0; 0xfffff0;
   0x1fc00; 0x3fc00; 0xf6f00; 0x1e6780; 0x7c61e0; 0x1f060f8; 0x7c0607c; 0x3806008].
Definition hanzi_data_188 : list N :=
  [0x6000; 0x0; 0x0; 0x0; 0x0; 0x202000; 0x0; 0x0;
   0x0; 0x1c0; 0xc0; 0x15551c0; 0x3fff0c0; 0x3fff1c0; 0xe0ffc; 0xe0ffc;
   0xe0ae8; 0xe01c0; 0xe03e0; 0xe07e0; 0xe06e0; 0xe0ff0; 0xe0cf0; 0xe0df8;
   0xe00d8; 0xe01dc; 0xe00ce; 0xe01cc; 0xe00c0; 0xe01c0; 0x3fff8c0; 0x7fffdc0;
   0xc0; 0x1c0; 0x0; 0x0; 0x0; 0x0; 0x202000; 0x0;
   0x0; 0x0; 0x1c00; 0xc00; 0x1ffe00; 0x3fff00; 0x1fffc0; 0xe07e0;
   0x70ef0; 0x3bc38; 0x1f810; 0x3f800; 0x1fff00; 0x3fe0ff8; 0x3f861fc; 0x180601c;
   0x6000; 0xfffff0; 0xfffff0; 0x6000; 0xc6700; 0x1c6380; 0x3861c0; 0x7060f0;
   0xe06078; 0x407c10; 0x7c00; 0x0; 0x0; 0x0; 0x0; 0x202000;
   0x0; 0x0; 0x0; 0x6000; 0x6000; 0x6000; 0x1fffff8; 0x1fffff8;
   0xaaeaa8; 0x7060e0; 0x7060c0; 0x3861c0; 0x386380; 0x1c6380; 0x86100; 0x3fffffc;
   0x3fffffc; 0x1f800; 0x3fc00; 0x76e00; 0xe6700; 0x1c6380; 0x3861e0; 0xf060f0;
   0x3e0607c; 0x7c0601c; 0x1006008; 0x6000; 0x0; 0x0; 0x0; 0x0;
   0x202000; 0x0; 0x0; 0x0; 0x400c0; 0xe00c0; 0xe00c0; 0x1c00c0;
   0x1800c0; 0xffc; 0x7fffffc; 0x3fffae8; 0x1c1e0; 0x181e0; 0x1c3e0; 0x183e0;
   0x1c6f0; 0x18ef0; 0x1c4d8; 0x180d8; 0x1c0dc; 0x180ce; 0x1c0c4; 0x180c0;
   0x1c0c0; 0x3ff80c0; 0x3ffc0c0; 0x2aa80c0; 0xc0; 0x0; 0x0; 0x0;
   0x0; 0x202000; 0x0; 0x0; 0x0; 0xe0; 0x3ff8e0; 0xfffce0;
   0x3aa8e0; 0x1c00e0; 0xe07fc; 0x787fc; 0x3c2e8; 0x155f0e0; 0x3fff9e0; 0x3fff9f0;
   0x33183f0; 0x339c7f0; 0x398c2f8; 0x39ce2f8; 0x38c70ec; 0x18e38ec; 0x1861cee; 0x1870ce4;
   0x18380e0; 0x1c1c0e0; 0x1c0e0e0; 0x1d470e0; 0xf838e0; 0x7818e0; 0x0; 0x0;
   0x0; 0x0; 0x202000; 0x0; 0x0; 0x0; 0xe0; 0xe0;
   0xfff8e0; 0xfff8e0; 0x6000e0; 0x6067fc; 0x6077fc; 0x6062e8; 0x6070e0; 0x6030e0;
   0x7071f0; 0x7033f0; 0x3fff3f0; 0x3fff6f8; 0x38002f8; 0x38000e8; 0x18000ec; 0x1bff8ee;
   0x1bffce4; 0x18000e0; 0x1c000e0; 0x1c000e0; 0x1c400e0; 0xfc00e0; 0x7c00e0; 0x0;
   0x0; 0x0; 0x0; 0x202000; 0x0; 0x0; 0x0; 0xe01c0;
   0xe00c0; 0xe01c0; 0xe00c0; 0x4e41c0; 0xeecffc; 0x1cecffc; 0x18eeae8; 0x18e61e0;
   0x38e63e0; 0x30e77e0; 0x30e76e0; 0x10e3ff0; 0x8e2cf0; 0x1ce05d8; 0xce00d8; 0xee01dc;
   0x6000cc; 0x7801c4; 0x3c00c4; 0x1f01c0; 0xf80c0; 0x3f1c0; 0xf8c0; 0x19c0;
   0x0; 0x0; 0x0; 0x0; 0x202000; 0x0; 0x0; 0x0;
   0x380c0; 0x300c0; 0x700c0; 0x600c0; 0x600c0; 0x3fff8c0; 0x3fffffc; 0x7fc;
   0xe0; 0x2aa0e0; 0x7fe1e0; 0x3ae3f0; 0x70e7f0; 0x30e6f8; 0x70e6d8; 0x30e0d8;
   0x7060cc; 0x3060ce; 0x7060c4; 0x23070c0; 0x77070c0; 0x23038c0; 0x7701cc0; 0x3e00ec0;
   0x1e004c0; 0x0; 0x0; 0x0; 0x0; 0x202000; 0x0; 0x0;
   0x0; 0xc0; 0xc0; 0x7fff8c0; 0x3fff8c0; 0x55d50c0; 0x1c00c0; 0x1c0ffc;
   0xe0ffc; 0x1f00c0; 0x3f01e0; 0x7f83e0; 0xefc7e0; 0x1cefef0; 0x38e7cf0; 0x70e3cd8;
   0x20e18d8; 0xe00dc; 0xe00ce; 0xe00c6; 0xe00c4; 0xe00c0; 0xe00c0; 0xe00c0;
   0xe00c0; 0xe00c0; 0x0; 0x0; 0x0; 0x0; 0x202000; 0x0;
   0x0; 0x0; 0x6000; 0x6000; 0x6000; 0x6000; 0x3fffffc; 0x3fffff8;
   0x155fd54; 0x3fc00; 0x76c00; 0x66e00; 0x1e6700; 0x3c6380; 0x7861c0; 0xf060f0;
   0x3e0607c; 0x380603c; 0x1006008; 0x0; 0x600060; 0xe38c60; 0xc30c70; 0x1c30c30;
   0x3871c38; 0x386181c; 0x100001c; 0x0; 0x0; 0x0; 0x0; 0x202000;
   0x0; 0x0; 0x0; 0x0; 0x7fffe0; 0x7fffe0; 0x600060; 0x600060;
   0x7fffe0; 0x7fffe0; 0x600060; 0x600060; 0x6aaae0; 0x7fffe0; 0x2aeaa0; 0x6000;
   0x6000; 0x3fffffc; 0x3fffffc; 0x1fc00; 0x3ee00; 0xf6700; 0x1e6380; 0x7c61e0;
   0x1f060f8; 0x7c0607c; 0x300600c; 0x6000; 0x0; 0x0; 0x0; 0x0;
   0x202000; 0x0; 0x0; 0x0; 0x6000; 0x6000; 0x6000; 0x6000;
   0x3fffffc; 0x3fffffc; 0x3fc00; 0x76e00; 0x1e6700; 0x3c63c0; 0x7861f0; 0x3e06078;
   0x3c0603c; 0x17fffe8; 0x7fffe0; 0x7aaae0; 0x7000e0; 0x7000e0; 0x7fffe0; 0x7aaae0;
   0x7000e0; 0x7000e0; 0x7fffe0; 0x7fffe0; 0x7000e0; 0x0; 0x0; 0x0;
   0x0; 0x202000; 0x0; 0x0; 0x0; 0x1c0c0; 0xc0c0; 0xc0c0;
   0xe0c0; 0x3ffe0c0; 0x3ffe7fc; 0x3fff7fc; 0xe3ae8; 0xe39e0; 0xe1de0; 0xe13e0;
   0xe03e0; 0xe06f0; 0x3fffaf0; 0x7fffcd8; 0xe00d8; 0xe00dc; 0xe00ce; 0xe00c4;
   0xe00c0; 0xe00c0; 0xe00c0; 0xe00c0; 0xe00c0; 0xe00c0; 0x0; 0x0;
   0x0; 0x0; 0x202000; 0x0; 0x0; 0x0; 0xe0; 0xe0;
   0x3fff0e0; 0x3fff0e0; 0x38c30e0; 0x38c37fc; 0x38c37fc; 0x38c32e8; 0x38c31e0; 0x38c31e0;
   0x38c33f0; 0x38c33f0; 0x3fff7f0; 0x3fff6f8; 0x3d574f8; 0x38030f8; 0x30ec; 0x30ee;
   0x10030e4; 0x30030e4; 0x70030e0; 0x30030e0; 0x3fff0e0; 0x3ffe0e0; 0xffc0e0; 0x0;
   0x0; 0x0; 0x0; 0x202000; 0x0; 0x0; 0x0; 0xe0;
   0xaaa8e0; 0x1fff8e0; 0x1fff8e0; 0x1c300e0; 0x8387fc; 0x1c307fc; 0x8382e8; 0x1c180e0;
   0xc180e0; 0xd5d1f0; 0xfffbf0; 0xfffbf0; 0xc186f8; 0xc1c2f8; 0xc080e8; 0xc1c0ec;
   0xc0c0ee; 0xc0c0e4; 0xe0c0e0; 0x60c0e0; 0x3fffee0; 0x7fffee0; 0x2aaaae0; 0xe0;
   0x0; 0x0; 0x0; 0x0; 0x202000; 0x0; 0x0; 0x0;
   0xc0; 0x1ffe0c0; 0x1fff0c0; 0xe000c0; 0x7080c0; 0x3b87fc; 0x1f87fc; 0xe02e8].
Definition hanzi_data_189 : list N :=
  [0x3c00e0; 0x3800e0; 0x7fff9f0; 0x3fffbf0; 0x30e07f0; 0x38e06d8; 0x1ce04d8; 0xce00d8;
   0xce00cc; 0xe00ce; 0xe00c4; 0xe00c0; 0xe00c0; 0xe00c0; 0xe00c0; 0xfc0c0;
   0x7c0c0; 0x0; 0x0; 0x0; 0x0; 0x202000; 0x0; 0x0;
   0x0; 0xc0; 0x3180c0; 0x71c0c0; 0x71c0c0; 0x71c0c0; 0x60c0c0; 0xe0e7fc;
   0xc0e7fc; 0x1c070e0; 0x38630e0; 0x78739e0; 0x3071be0; 0x10717f0; 0x306f0; 0x386d8;
   0x2184d8; 0x71c0dc; 0x60c0ce; 0xe0c0cc; 0xc0e0c4; 0x1f070c0; 0x1fff0c0; 0x3fff8c0;
   0x380b0c0; 0xc0; 0x0; 0x0; 0x0; 0x0; 0x202000; 0x0;
   0x0; 0x0; 0xc0; 0x1e000c0; 0x1fff0c0; 0x3ff0c0; 0x170c0; 0x37fc;
   0x37fc; 0x32e8; 0x1fff1e0; 0x1fff1e0; 0x1c1b3f0; 0xc1b3f0; 0xc3b7f0; 0xe336d8;
   0x6730d8; 0x6638d8; 0x7638cc; 0x3e38ce; 0x1c18c4; 0x3e18c0; 0x7f1cc0; 0xf78cc0;
   0x1e3eec0; 0x380eec0; 0x30064c0; 0x0; 0x0; 0x0; 0x0; 0x202000;
   0x0; 0x0; 0x0; 0xc0; 0xc0; 0x7ff8c0; 0x3ff8c0; 0x30c0c0;
   0x30c7fc; 0x30c7fc; 0x38c2e8; 0x18c0e0; 0x3f8e1e0; 0x1fce3f0; 0x180e3f0; 0x1c1e7f0;
   0xc1e2f8; 0xc3e0d8; 0xe360d8; 0x6770cc; 0x7e30ce; 0x3c30c4; 0x3c38c0; 0x7e1cc0;
   0xff0cc0; 0x3e7cec0; 0x383e7c0; 0x100c6c0; 0x0; 0x0; 0x0; 0x0;
   0x202000; 0x0; 0x0; 0x0; 0x1c0c0; 0xc0c0; 0xc0c0; 0xe0c0;
   0x3ffe0c0; 0x3ffe7fc; 0x3fff7fc; 0x3803ae8; 0x381b8e0; 0x3819de0; 0x381d9f0; 0x381c3f0;
   0x386c7f0; 0x38ce6f8; 0x18c64d8; 0x39860d8; 0x19ff0dc; 0x1bff8ce; 0x1b070c4; 0x18000c0;
   0x1c000c0; 0x18000c0; 0x1d400c0; 0xfc00c0; 0x7c00c0; 0x0; 0x0; 0x0;
   0x0; 0x202000; 0x0; 0x0; 0x0; 0xc0; 0xc0; 0x3fff8c0;
   0x3fff8c0; 0x60c0c0; 0x60c0c0; 0x60c7fc; 0x60c7fc; 0x60c0e0; 0x60c0e0; 0x60c1e0;
   0x3fff9e0; 0x7fffff0; 0x60c6f0; 0x60c6d8; 0x60c6d8; 0x60c4dc; 0x60e0ce; 0x60e0cc;
   0x6060c4; 0x6070c0; 0x6030c0; 0x6038c0; 0x601cc0; 0x600cc0; 0x0; 0x0;
   0x0; 0x0; 0x202000; 0x0; 0x0; 0x0; 0x1c30e0; 0x1830e0;
   0x1c30e0; 0x1830e0; 0x1c30e0; 0x1837fc; 0x11c37fc; 0x39832e8; 0x1dd70e0; 0xfbf0e0;
   0x7ff1f0; 0x3833f0; 0x1c37f0; 0x1836f8; 0x1c36f8; 0x1830f8; 0x1c30ec; 0x1830ee;
   0x11c30e4; 0x31a30e0; 0x71ff0e0; 0x31bf8e0; 0x3fcf8e0; 0x3f838e0; 0xe0; 0x0;
   0x0; 0x0; 0x0; 0x202000; 0x0; 0x0; 0x0; 0xc0;
   0xc0; 0x3fff0c0; 0x3fff0c0; 0x15d50c0; 0xc07fc; 0xc07fc; 0xc02e8; 0xc00e0;
   0xc01e0; 0xc03f0; 0x2aea3f0; 0x3fff7f0; 0x3fffef8; 0xc04d8; 0xc00d8; 0xc00dc;
   0xc00ce; 0xc00c4; 0xc00c4; 0xc00c0; 0xc00c0; 0x7fffcc0; 0x3fff8c0; 0xc0;
   0x0; 0x0; 0x0; 0x0; 0x202000; 0x0; 0x0; 0x0;
   0x600c0; 0xe00c0; 0xc00c0; 0xc00c0; 0x15550c0; 0x3fff0c0; 0x7fffffc; 0x38ffc;
   0x300c0; 0x380e0; 0x381e0; 0x1ff83e0; 0x1ff87f0; 0x18186f0; 0x1c18ed8; 0x1818cd8;
   0x1c1c4dc; 0x180c0ce; 0x1c0c0c6; 0x1c0e0c4; 0x1c060c0; 0xc070c0; 0xd478c0; 0xfc3cc0;
   0x7c18c0; 0x0; 0x0; 0x0; 0x0; 0x202000; 0x0; 0x0;
   0x0; 0x1000c0; 0x1980c0; 0x39c0c0; 0x30c0c0; 0x70e0c0; 0xe067fc; 0x1c077fc;
   0x3803ae8; 0x77ffce0; 0x7fe9e0; 0x181f0; 0x183f0; 0x1c7f0; 0xc6f8; 0xffc6d8;
   0xffe0dc; 0xc000cc; 0xc000cc; 0xc000c4; 0xe000c0; 0xe000c0; 0x6000c0; 0x7f00c0;
   0x3f00c0; 0x1500c0; 0x0; 0x0; 0x0; 0x0; 0x202000; 0x0;
   0x0; 0x0; 0x4001c0; 0xf800c0; 0x1ff01c0; 0x1fe0c0; 0x1e1c0; 0xe0c0;
   0xeffc; 0xeffc; 0xe1c0; 0x3ffe0e0; 0x7ffe1e0; 0x2bae3e0; 0x7067f0; 0x30eef0;
   0x706df8; 0x3064d8; 0x7061dc; 0x3060cc; 0x7061cc; 0x3060c4; 0x7071c0; 0x3030c0;
   0x7039c0; 0x3038c0; 0x7011c0; 0x0; 0x0; 0x0; 0x0; 0x202000;
   0x0; 0x0; 0x0; 0x700e0; 0x600e0; 0x700e0; 0x600e0; 0x700e0;
   0x3fffffc; 0x3fffffc; 0x3aebae8; 0x38718e0; 0x38718e0; 0x39f19f0; 0xf03f0; 0x1f07f0;
   0xf86f8; 0x1f82f8; 0xd80ec; 0x1dc0ec; 0xcc0ee; 0x11ce0e4; 0x20c60e0; 0x71c70e0;
   0x30c38e0; 0x3fc1ce0; 0x3fc0ee0; 0x1f004e0; 0x0; 0x0; 0x0; 0x0;
   0x202000; 0x0; 0x0; 0x0; 0x1c01c0; 0x180180; 0x1c01c0; 0x180180;
   0x1c01c0; 0x180180; 0x3ffdffc; 0x3ffdffc; 0x1c01c0; 0x3e03c0; 0x3e07e0; 0x3e0fe0;
   0x7f1df0; 0xfb19b0; 0xdf99f0; 0xd98198; 0x1ddc1dc; 0x398e18e; 0x71c71ce; 0x3183184;
   0x1c31c0; 0x180180; 0x1c01c0; 0x180180; 0x1c01c0; 0x0; 0x0; 0x0;
   0x0; 0x202000; 0x0; 0x0; 0x0; 0xe00c0; 0xe00c0; 0xe00c0;
   0xe00c0; 0xe00c0; 0xe07fc; 0x1fffffc; 0x1fffae8; 0x18638e0; 0x18639e0; 0x18639f0;
   0x18e3bf0; 0x19f3ff0; 0x19b3ed8; 0x1bb38d8; 0x1b3b8d8; 0x1f1f8cc; 0x1e0f8ce; 0x1e0f8c4;
   0x18038c0; 0x18038c0; 0x18038c0; 0x1d038c0; 0x1f838c0; 0x1f038c0; 0x0; 0x0;
   0x0; 0x0; 0x202000; 0x0; 0x0; 0x0; 0x300c0; 0x380c0;
   0x380c0; 0x180c0; 0x1c0c0; 0x3ffc0c0; 0x3ffcffc; 0x2eaeffc; 0xc0f0c0; 0xe0f0e0;
   0xe1f9e0; 0x61b9e0; 0x7193f0; 0x7387f0; 0x330ef8; 0x3b0cd8; 0x1f1cdc; 0x1e08cc;
   0x1e00ce; 0x3f00c4; 0x7f80c4; 0xf1e0c0; 0x3e0f0c0; 0x3c078c0; 0x30018c0; 0x0;
   0x0; 0x0; 0x0; 0x202000; 0x0; 0x0; 0x0; 0x0;
   0x7fffe0; 0x7ffff0; 0x6aeae0; 0x606070; 0x606060; 0x7ffff0; 0x7fffe0; 0x606070;
   0x606060; 0x7ffff0; 0x7fffe0; 0x6000; 0x6000; 0x3fffffc; 0x3fffffc; 0x155fd54;
   0x3fc00; 0xf6f00; 0x1e6780; 0x7c61e0; 0x1f060f8; 0x7c0607c; 0x3006008; 0x6000].
Definition hanzi_data_190 : list N :=
  [0x0; 0x0; 0x0; 0x0; 0x202000; 0x0; 0x0; 0x0;
   0x600e0; 0x600e0; 0x600e0; 0x600e0; 0x3fff8e0; 0x3fffffc; 0x15757fc; 0x602e8;
   0x600e0; 0x601e0; 0x1fff1f0; 0x1fff3f0; 0x1c077f0; 0xc066f8; 0xe0e4f8; 0x60c0ec;
   0x71c0ec; 0x3b80ee; 0x1f00e4; 0xe00e0; 0x1f80e0; 0x7be0e0; 0x1f1fce0; 0x3c03ce0;
   0x3001ce0; 0x0; 0x0; 0x0; 0x0; 0x202000; 0x0; 0x0;
   0x0; 0x3860e0; 0x3860e0; 0x3860e0; 0x3860e0; 0x3870e0; 0x3860e0; 0x3877fc;
   0x3867fc; 0x3870e0; 0x3860e0; 0x3871f0; 0x3871f0; 0x3cf3f0; 0x38f3f8; 0x7df7f8;
   0x6dbaf8; 0x7fb8ec; 0xef38ee; 0xce18e6; 0xc61ce4; 0x1c71ce0; 0x3838ee0; 0x7838fe0;
   0x301c7e0; 0x10186e0; 0x0; 0x0; 0x0; 0x0; 0x202000; 0x0;
   0x0; 0x0; 0xc0; 0xc0; 0x3fff8c0; 0x3fff8c0; 0x38c0; 0xc03ffc;
   0xc1fffc; 0xe3bae8; 0x6738e0; 0x6739e0; 0x7e39f0; 0x3c3bf0; 0x1c3ff0; 0x3c3ef8;
   0x7c3ad8; 0x6e38d8; 0xe738cc; 0xc3b8ce; 0x1c3f8c4; 0x81f8c0; 0xb8c0; 0x38c0;
   0x7fff8c0; 0x3fff8c0; 0xc0; 0x0; 0x0; 0x0; 0x0; 0x202000;
   0x0; 0x0; 0x0; 0x6000; 0x6000; 0x3fffffc; 0x3fffffc; 0x3fffffc;
   0x6000; 0xfffff0; 0xfffff0; 0xe06070; 0xe0f030; 0xe1fc70; 0xe3fe30; 0x5f6f70;
   0x3c63e0; 0x1f061fc; 0x3e00e3e; 0x301ff0c; 0xff800; 0x1f0000; 0x80000; 0x1fc0;
   0x1ff80; 0x1ff800; 0x3f8000; 0x300000; 0x0; 0x0; 0x0; 0x0;
   0x202000; 0x0; 0x0; 0x0; 0xe0; 0x3fff8e0; 0x7fff8e0; 0x2aab8e0;
   0xc38e0; 0xc3bfc; 0xc3ffc; 0xe3ae8; 0x1fff8e0; 0x1ffb8e0; 0x1fff9f0; 0x18e3bf0;
   0x1863ff0; 0x1863ef8; 0x1863ef8; 0x18638f8; 0x18618ec; 0x18618ee; 0x1c71ce4; 0x1831ce0;
   0x1c39ce0; 0xc18ce0; 0xfdcee0; 0xf8e6e0; 0x7c44e0; 0x0; 0x0; 0x0;
   0x0; 0x202000; 0x0; 0x0; 0x0; 0xc0; 0xfff0c0; 0x1fff0c0;
   0xeab0c0; 0x1c030c0; 0xc237fc; 0x1c637fc; 0xc632e8; 0x1c630e0; 0xc631e0; 0x1c633f0;
   0xc633f0; 0x1c637f0; 0xc636f8; 0x1c730d8; 0xcf30d8; 0xf00cc; 0xf80ce; 0x30d80c4;
   0x30dc0c0; 0x30ce0c0; 0x30c70c0; 0x3fc7cc0; 0x1f81ec0; 0xcc0; 0x0; 0x0;
   0x0; 0x0; 0x202000; 0x0; 0x0; 0x0; 0x4060; 0x80e060;
   0x1c0e060; 0xe0e060; 0xf0e060; 0x70e060; 0x3ce3fc; 0x1ee3fc; 0xfe060; 0x6e0e0;
   0x3fffdf0; 0x3fff9f0; 0x3ffff70; 0xce378; 0x1ce778; 0x18e278; 0x38e06c; 0x30e06c;
   0x70e064; 0x60e064; 0xece060; 0x1cfe060; 0x787e060; 0x301e060; 0x6060; 0x0;
   0x0; 0x0; 0x0; 0x202000; 0x0; 0x0; 0x0; 0x600e0;
   0x600e0; 0xf00e0; 0xf80e0; 0x1dc0e0; 0x38c0e0; 0x70e7fc; 0xe077fc; 0x1c03ce0;
   0x3aabee0; 0x37ffdf0; 0x7fe3f0; 0x7077f0; 0x6066f8; 0x7076f8; 0x3060fc; 0x7f70ec;
   0x3e60ee; 0x9470e4; 0x38060e0; 0x18070e0; 0x18060e0; 0x1ffe0e0; 0xffe0e0; 0x5500e0;
   0x0; 0x0; 0x0; 0x0; 0x202000; 0x0; 0x0; 0x0;
   0xe0; 0xaaa8e0; 0xfff8e0; 0xfff8e0; 0xe018e0; 0xe81bfc; 0xf85ffc; 0xf8fae8;
   0xddd8e0; 0xed98e0; 0xcd99f0; 0xef1bf0; 0xc71ff0; 0xc61ef8; 0xc71afc; 0xcf18ec;
   0xdf98ec; 0xd998ee; 0xd9dce4; 0xf8ece0; 0x6f06ce0; 0x2c06ee0; 0x3c006e0; 0x38007e0;
   0x10006e0; 0x0; 0x0; 0x0; 0x0; 0x202000; 0x0; 0x0;
   0x0; 0x7000; 0x3800; 0x7fffe0; 0x7fffe0; 0x755560; 0x300c60; 0x703c60;
   0x30f860; 0x3e6060; 0xa0060; 0x1ffffe0; 0x1ffffe0; 0x1800000; 0x1803000; 0x1c03000;
   0x19ffffc; 0x1dffffc; 0xf8fc00; 0x79ff00; 0x7b380; 0x1f31e0; 0xf830f8; 0x1f0303c;
   0x803008; 0x3000; 0x0; 0x0; 0x0; 0x0; 0x202000; 0x0;
   0x0; 0x0; 0x600c0; 0x600c0; 0x600c0; 0x600c0; 0x600c0; 0x603fc;
   0x7fffffc; 0x3fffae8; 0x600e0; 0x601e0; 0x601f0; 0x603f0; 0x607f0; 0x1fffed8;
   0x1fffad8; 0x1aab8d8; 0x1c038cc; 0x18038ce; 0x1c038c4; 0x18038c0; 0x1c038c0; 0x18038c0;
   0x1fff8c0; 0x1fff8c0; 0x1c038c0; 0x0; 0x0; 0x0; 0x0; 0x202000;
   0x0; 0x0; 0x0; 0xe0; 0xe0; 0x3fff8e0; 0x3fff8e0; 0xe00e0;
   0x18e37fc; 0x1ce77fc; 0xce62e8; 0xce60e0; 0xce60e0; 0x6e61f0; 0x6ee3f0; 0xe07f0;
   0x3fffaf8; 0x7fffcf8; 0x2aea8ec; 0xe00ec; 0xe00ee; 0xe00e4; 0xe00e0; 0xe00e0;
   0xe00e0; 0xe00e0; 0xe00e0; 0xe00e0; 0x0; 0x0; 0x0; 0x0;
   0x202000; 0x0; 0x0; 0x0; 0x1800; 0x61c00; 0x1f0f00; 0x3c0780;
   0x7d01c0; 0xfffff0; 0x1d7fff0; 0x800000; 0x7fffe0; 0x3fffe0; 0x7000e0; 0x3000e0;
   0x7fffe0; 0x3fffe0; 0x557540; 0x6000; 0x3fffffc; 0x3fffffc; 0x155fd54; 0x7ee00;
   0x1f6780; 0x7c63e0; 0x7f060fc; 0x3c0603c; 0x100600c; 0x0; 0x0; 0x0;
   0x0; 0x202000; 0x0; 0x0; 0x0; 0xc0; 0xc0; 0x1ffe0c0;
   0x1ffe0c0; 0x18060c0; 0x18060c0; 0x1806ffc; 0x1806ffc; 0x18060c0; 0x18060e0; 0x18061e0;
   0x18061e0; 0x18063f0; 0x1ffe6f0; 0x1ffeed8; 0xaaacd8; 0x4184dc; 0x6180ce; 0xe1c0c6;
   0xc0c0c4; 0x1c0e0c0; 0x38060c0; 0x38070c0; 0x30038c0; 0x30010c0; 0x0; 0x0;
   0x0; 0x0; 0x202000; 0x0; 0x0; 0x0; 0xe0; 0x1fff0e0;
   0x1fff0e0; 0x18030e0; 0x1c070e0; 0x18037fc; 0x1d577fc; 0x1fff2e8; 0x15550e0; 0xe0;
   0x1f0; 0x3fffbf0; 0x3fffff0; 0xe6f8; 0x62f8; 0xaae0f8; 0x1fff0ec; 0x1aaa0ee;
   0x1c000e4; 0x1c000e0; 0x1c000e0; 0xc000e0; 0xf400e0; 0xfe00e0; 0x7e00e0; 0x0;
   0x0; 0x0; 0x0; 0x202000; 0x0; 0x0; 0x0; 0x1c0;
   0xc0; 0x1ff81c0; 0x1ffbffc; 0x183bffc; 0x183b8c0; 0x183b8e0; 0x183b8e0; 0x1839870].
Definition hanzi_data_191 : list N :=
  [0x1ab9830; 0x1ff9f3c; 0x1ff8f1e; 0x600c; 0x6000; 0x1557554; 0x3fffffc; 0x3fffffc;
   0x3fc00; 0x76e00; 0xe6700; 0x3c63c0; 0xf860f0; 0x7f0607c; 0x380601c; 0x6000;
   0x0; 0x0; 0x0; 0x0; 0x202000; 0x0; 0x0; 0x0;
   0x3060; 0x3060; 0x3060; 0x3f83060; 0x3f83060; 0x39ab860; 0x39bfffc; 0x39bbbfc;
   0x39b3060; 0x39b3060; 0x39b30f0; 0x39b30f0; 0x39b31f0; 0x39b33f8; 0x39b3378; 0x39b3a68;
   0x39b186c; 0x39b186e; 0x39b1864; 0x39b1864; 0x39b1c60; 0x3fb8c60; 0x3f98e60; 0x399e660;
   0x19e660; 0x0; 0x0; 0x0; 0x0; 0x202000; 0x0; 0x0;
   0x0; 0x1c0c0; 0xc0c0; 0xc0c0; 0xe0c0; 0x3ffe0c0; 0x3ffe7fc; 0x38077fc;
   0x3803ae8; 0x38038e0; 0x38ffde0; 0x39ffbf0; 0x38863f0; 0x39c77f0; 0x38866f8; 0x19c70d8;
   0x38860d8; 0x19ff0cc; 0x18fe0ce; 0x19570c4; 0x18060c0; 0x18000c0; 0x18000c0; 0x1c400c0;
   0xfe00c0; 0x7c00c0; 0x0; 0x0; 0x0; 0x0; 0x202000; 0x0;
   0x0; 0x0; 0x1c0c0; 0xc0c0; 0xc0c0; 0xe0c0; 0x3ffe0c0; 0x3fff0c0;
   0x38077fc; 0x3803ffc; 0x39ffce0; 0x39ffce0; 0x39d79e0; 0x39861e0; 0x19c73f0; 0x39866f0;
   0x19d76d8; 0x19fe6d8; 0x1dff4dc; 0x1f060cc; 0xf070cc; 0x20060c4; 0x70070c0; 0x30060c0;
   0x3d570c0; 0x3ffe0c0; 0x1ffc0c0; 0x0; 0x0; 0x0; 0x0; 0x202000;
   0x0; 0x0; 0x0; 0x700e0; 0xe00e0; 0xe00e0; 0xc00e0; 0x3fff8e0;
   0x3fffffc; 0x3001ffc; 0x3001ae8; 0x300d8e0; 0x200c8e0; 0xc1f0; 0xe0c3f0; 0x1f0c3f0;
   0x3cc6f8; 0x1fc6f8; 0x3c2ec; 0x1c0ec; 0xc0ee; 0x100c0e4; 0x300c0e0; 0x300c0e0;
   0x300c0e0; 0x3ffc0e0; 0x1ffc0e0; 0xff00e0; 0x0; 0x0; 0x0; 0x0;
   0x202000; 0x0; 0x0; 0x0; 0x600c0; 0x600c0; 0xf00c0; 0xf80c0;
   0x1f80c0; 0x39c7fc; 0x70e7fc; 0xe0f2e8; 0x1c379e0; 0x3863de0; 0x30e1ff0; 0xc03f0;
   0x5557f0; 0xfffef8; 0xfff4d8; 0xe000d8; 0x7000dc; 0x3800ce; 0x1c40c4; 0xfe0c0;
   0xfc0c0; 0xf00c0; 0x1e00c0; 0x3800c0; 0x1800c0; 0x0; 0x0; 0x0;
   0x0; 0x202000; 0x0; 0x0; 0x0; 0xe0; 0x2aaa8e0; 0x3fff8e0;
   0x3fff8e0; 0xe00e0; 0xe03fc; 0xe07fc; 0x3fffae8; 0x3fff8e0; 0x38e38e0; 0x38e39f0;
   0x38e3bf0; 0x39e3ff0; 0x39e3ef8; 0x3bf3ef8; 0x3b338f8; 0x3f3b8fc; 0x3e1f8ee; 0x3c1f8e4;
   0x38038e0; 0x38038e0; 0x38038e0; 0x38038e0; 0x3f038e0; 0x1f038e0; 0x0; 0x0;
   0x0; 0x0; 0x202000; 0x0; 0x0; 0x0; 0xe00c0; 0xe00c0;
   0x38e30c0; 0x18e30c0; 0x1ce70c0; 0xceeffc; 0xefcffc; 0x6fcae8; 0x4e00e0; 0x3fff1e0;
   0x3fff3e0; 0xe03e0; 0xe07f0; 0xe06f0; 0xe04d8; 0x3fff8d8; 0x7fff8dc; 0xe00ce;
   0xe00cc; 0xe00c0; 0xe00c0; 0xe00c0; 0xe00c0; 0xe00c0; 0xe00c0; 0x0;
   0x0; 0x0; 0x0; 0x202000; 0x0; 0x0; 0x0; 0x700c0;
   0x300c0; 0x380c0; 0xff80c0; 0x1ffc0c0; 0xc0e0c0; 0xe1fffc; 0x63bffc; 0x773ce0;
   0x3e08e0; 0x1e01e0; 0x3f03e0; 0x7fc7f0; 0x1e1eef0; 0x7c0fcd8; 0x30738d8; 0x1e08dc;
   0x3800ce; 0x3000c6; 0x20c4; 0x7f0c0; 0x1fe0c0; 0xff00c0; 0x1f800c0; 0x1c000c0;
   0x0; 0x0; 0x0; 0x0; 0x202000; 0x0; 0x0; 0x0;
   0xe00e0; 0xe00e0; 0x600e0; 0x600e0; 0x700e0; 0x1fff7fc; 0x1fff7fc; 0x18032e8;
   0x1c030e0; 0x18031e0; 0x1c031f0; 0x18033f0; 0x1c037f0; 0x1fff6f8; 0x1fff2f8; 0x18030f8;
   0x1c030fc; 0x18030ee; 0x1c030e4; 0x18030e4; 0x1c030e0; 0x1fff0e0; 0x1fff0e0; 0x1aab0e0;
   0x1c030e0; 0x0; 0x0; 0x0; 0x0; 0x202000; 0x0; 0x0;
   0x0; 0x1c0180; 0x180180; 0x1c0180; 0x3fffffc; 0x3fffffc; 0x180180; 0x1c0180;
   0x1fff80; 0x1fff80; 0x180180; 0x1c0180; 0x1fff80; 0x1fff80; 0x6000; 0x6000;
   0x3fffffc; 0x3fffffc; 0x3fc00; 0x76e00; 0xe6780; 0x3c63c0; 0xf860f0; 0x7e0607e;
   0x380601c; 0x6000; 0x0; 0x0; 0x0; 0x0; 0x202000; 0x0;
   0x0; 0x0; 0xe060c0; 0xe060c0; 0xe060c0; 0xe060c0; 0xe060c0; 0x3fffbfc;
   0x7fffffc; 0x2eaeae8; 0xe060e0; 0xe061e0; 0xe063f0; 0xe063f0; 0xe067f0; 0xffe6f8;
   0xffe0d8; 0xe060d8; 0xe060cc; 0xe060ce; 0xe060c4; 0xe060c0; 0xe060c0; 0xffe0c0;
   0xffe0c0; 0xe060c0; 0xe060c0; 0x0; 0x0; 0x0; 0x0; 0x202000;
   0x0; 0x0; 0x0; 0x1c030; 0xc0f8; 0x1c1e0; 0x1f8c080; 0x1fff01c;
   0xffe7c; 0x1de70; 0xc080; 0x301c1c0; 0x380c0e0; 0x1ffc070; 0x1ff8038; 0x55601c;
   0x6008; 0x6000; 0x3fffffc; 0x3fffffc; 0x3fc00; 0x77e00; 0xe6780; 0x7c63c0;
   0xf860f8; 0x7e0607e; 0x380601c; 0x6000; 0x0; 0x0; 0x0; 0x0;
   0x202000; 0x0; 0x0; 0x0; 0x1c010; 0xc0f8; 0x1c1e0; 0x3ffc80;
   0x3ffc1c; 0x38e03c; 0x38e070; 0x13860c0; 0x73871c0; 0x33838e0; 0x3383c70; 0x3f81e38;
   0x1f0671c; 0x6208; 0x6000; 0x3fffffc; 0x3fffffc; 0x3fc00; 0x76e00; 0xe6780;
   0x3c63c0; 0xf860f0; 0x7f0607c; 0x380601c; 0x6000; 0x0; 0x0; 0x0;
   0x0; 0x202000; 0x0; 0x0; 0x0; 0x0; 0x3fffe0; 0x7fffe0;
   0x1e0000; 0x7fe00; 0x3f800; 0x1fffffc; 0x3fffff8; 0x1d5fd54; 0xe0ee00; 0x70e780;
   0x38e3e0; 0xfcfc; 0xfc38; 0x6000; 0x2aaeaa8; 0x3fffffc; 0x3fffffc; 0x7fc00;
   0xf6f00; 0x1e67c0; 0xf861e0; 0x7f060fc; 0x380603c; 0x6000; 0x0; 0x0;
   0x0; 0x0; 0x202000; 0x0; 0x0; 0x0; 0xc0; 0x3fff8c0;
   0x3fff8c0; 0x3aba8c0; 0x18300c0; 0x38387fc; 0x18387fc; 0x18182e8; 0x181c0e0; 0x180e0e0;
   0x1f871f0; 0xf83bf0; 0x17f0; 0x6d8; 0x1fff2d8; 0x1fff0cc; 0x1c070cc; 0x18030ce;
   0x1c070c4; 0x18030c0; 0x1c070c0; 0x1aab0c0; 0x1fff0c0; 0x1fff0c0; 0x1c070c0; 0x0].
Definition hanzi_data_192 : list N :=
  [0x0; 0x0; 0x0; 0x202000; 0x0; 0x0; 0x0; 0xe0;
   0xe0; 0x7fffce0; 0x3fff8e0; 0x380e0; 0x387fc; 0x187fc; 0x182e8; 0x1c1e0;
   0xc1e0; 0xe3f0; 0x1ffe3f0; 0x1fff7f0; 0x1807af8; 0x1807cfc; 0x1807cec; 0x1806eee;
   0x18066e6; 0x18064e4; 0x18060e0; 0x18060e0; 0x1ffe0e0; 0x1ffe0e0; 0x1aae0e0; 0x18060e0;
   0x0; 0x0; 0x0; 0x0; 0x202000; 0x0; 0x0; 0x0;
   0xe0; 0xe0; 0x3fff8e0; 0x3fff8e0; 0x38e38e0; 0x38e3bfc; 0x38e3ffc; 0x3aebae8;
   0x3fff8e0; 0x3fff8e0; 0x38e39f0; 0x38e3bf0; 0x38e3ff0; 0x3aebaf8; 0x3fffaf8; 0x3fff8fc;
   0x38e38ec; 0xe00ee; 0xe00e4; 0xe00e4; 0xe00e0; 0xe00e0; 0xe00e0; 0xe00e0;
   0xe00e0; 0x0; 0x0; 0x0; 0x0; 0x202000; 0x0; 0x0;
   0x0; 0xe00c0; 0xe00c0; 0xe00c0; 0xe00c0; 0xe00c0; 0xe07fc; 0x3fff7fc;
   0x3fff2e8; 0x38e30e0; 0x38e31e0; 0x38e31f0; 0x38e33f0; 0x38e37f0; 0x3fff2d8; 0x3fff0d8;
   0x38e30dc; 0x38e30cc; 0x38e30ce; 0x38e30c4; 0x38e30c0; 0x3df70c0; 0x3fff0c0; 0x3fff0c0;
   0x38030c0; 0x38030c0; 0x0; 0x0; 0x0; 0x0; 0x202000; 0x0;
   0x0; 0x0; 0xc0; 0x2aaa0c0; 0x3fff0c0; 0x3fff0c0; 0x70c0; 0x37fc;
   0x77fc; 0xaab2e8; 0x1fff0e0; 0xfff1e0; 0x1c071f0; 0xc033f0; 0x1c077f0; 0xc036d8;
   0x1c072d8; 0xfff0cc; 0x1fff0cc; 0x30ce; 0x70c4; 0x30c0; 0x70c0; 0x30c0;
   0x3fff0c0; 0x3fff0c0; 0xc0; 0x0; 0x0; 0x0; 0x0; 0x202000;
   0x0; 0x0; 0x0; 0x4000c0; 0xf800c0; 0xffc0c0; 0xfe0c0; 0xe0c0;
   0xe0c0; 0xeffc; 0xeffc; 0x3ffe0e0; 0x3ffe1e0; 0x3ffe1e0; 0x30e3e0; 0x3067f0;
   0x33eef0; 0x3fecd8; 0x3e64d8; 0x7c60dc; 0x1f060ce; 0x3f070c4; 0x33030c0; 0x3030c0;
   0x3038c0; 0x301cc0; 0x301cc0; 0x3008c0; 0x0; 0x0; 0x0; 0x0;
   0x202000; 0x0; 0x0; 0x0; 0x1c0c0; 0x1c0c0; 0xc0c0; 0xe0c0;
   0x3ffe0c0; 0x3ffe7fc; 0x3fff7fc; 0x332e8; 0x739e0; 0x319e0; 0x3ff1bf0; 0x3ff06f0;
   0x706f0; 0x30cd8; 0x70cd8; 0x300cc; 0x3ff00cc; 0x3ff00ce; 0x700c4; 0x300c0;
   0x700c0; 0x300c0; 0x700c0; 0x300c0; 0x700c0; 0x0; 0x0; 0x0;
   0x0; 0x202000; 0x0; 0x0; 0x0; 0x600c0; 0xe00c0; 0xc00c0;
   0xc00c0; 0x3fff8c0; 0x3fffbfc; 0x3001ffc; 0x3001ae8; 0x30018e0; 0x20009e0; 0x7fff9f0;
   0x3fffbf0; 0x7fffff0; 0xc06f8; 0xc02d8; 0xc00d8; 0xc00dc; 0xc00ce; 0xc00c4;
   0xc00c0; 0xc00c0; 0xc00c0; 0xc00c0; 0xf80c0; 0x780c0; 0x0; 0x0;
   0x0; 0x0; 0x202000; 0x0; 0x0; 0x0; 0xc000c0; 0xf800c0;
   0x1ffc0c0; 0xff0c0; 0xdf0c0; 0xc37fc; 0xc37fc; 0xc32e8; 0x1c30e0; 0xc31e0;
   0x3fff1f0; 0x3fff3f0; 0x15d77f0; 0x1836f8; 0x1830d8; 0x1830d8; 0x1830cc; 0x3830ce;
   0x3030c4; 0x63630c0; 0x67630c0; 0x26c30c0; 0x3edf0c0; 0x3c8f8c0; 0x1c018c0; 0x0;
   0x0; 0x0; 0x0; 0x202000; 0x0; 0x0; 0x0; 0x6000;
   0x6000; 0x6000; 0x2aaeaa8; 0x3fffffc; 0x2abfaa8; 0x77e00; 0xe6f00; 0x1c67c0;
   0x7861e0; 0x1f060f8; 0x3c0003e; 0x13fffdc; 0x3aabc0; 0x3801c0; 0x3fffc0; 0x3fffc0;
   0x3801c0; 0x3801c0; 0x3fffc0; 0x3fffc0; 0x0; 0x3fffffc; 0x3fffff8; 0x0;
   0x0; 0x0; 0x0; 0x0; 0x202000; 0x0; 0x0; 0x0;
   0xe0; 0x3fff8e0; 0x3fff8e0; 0x2aab8e0; 0x638e0; 0x638e0; 0x63ffc; 0xfe3bfc;
   0xff38e0; 0xe338e0; 0x63b9f0; 0x61b9f0; 0x71fbf0; 0x30fef8; 0x783ef8; 0xf83af8;
   0xdc38fc; 0x1ce38ee; 0x387b8e4; 0x303f8e4; 0x101f8e0; 0x38e0; 0x7fff8e0; 0x3fff8e0;
   0xe0; 0x0; 0x0; 0x0; 0x0; 0x202000; 0x0; 0x0;
   0x0; 0x6000; 0x6000; 0x6000; 0x3fffffc; 0x3fffffc; 0x6000; 0x6000;
   0xfffff0; 0xfffff0; 0xcc6230; 0xcc6370; 0xce6630; 0xc66670; 0xc26630; 0xfffff0;
   0xfffff0; 0x1f800; 0x3fc00; 0x76f00; 0x1e6780; 0x7c61e0; 0xf060f8; 0x7e0607e;
   0x380600c; 0x6000; 0x0; 0x0; 0x0; 0x0; 0x202000; 0x0;
   0x0; 0x0; 0xc0; 0x2aaa8c0; 0x7fff8c0; 0x3fff8c0; 0xc000c0; 0xc007fc;
   0xc007fc; 0xcfe2e8; 0xcff0e0; 0xcc21e0; 0xcc73f0; 0xcc23f0; 0xcc77f0; 0xcc2ef8;
   0xcc74d8; 0xcea0dc; 0xcff0cc; 0xcaa0ce; 0xc070c4; 0xc000c0; 0xc000c0; 0xc000c0;
   0xd400c0; 0xfe00c0; 0x7c00c0; 0x0; 0x0; 0x0; 0x0; 0x202000;
   0x0; 0x0; 0x0; 0x6000; 0x6000; 0x6000; 0x3fffffc; 0x3fffffc;
   0x2abfea8; 0x76e00; 0xe6700; 0x3c63c0; 0xf861e0; 0x7f0607c; 0x39fffbc; 0x1fff80;
   0x0; 0x0; 0xaaaaa8; 0x1fffff8; 0xaaeaa8; 0x86100; 0x1c6380; 0x7861c0;
   0xf060e0; 0x1e06078; 0x1807e38; 0x7c00; 0x0; 0x0; 0x0; 0x0;
   0x202000; 0x0; 0x0; 0x0; 0x600c0; 0xe00c0; 0xe00c0; 0xc00c0;
   0x1c00c0; 0x3fff7fc; 0x3fff7fc; 0xc02e8; 0xc00e0; 0xc01e0; 0xc01f0; 0xc03f0;
   0xc07f0; 0x1fffef8; 0x1fff4d8; 0xc00d8; 0xc00dc; 0xc00ce; 0xc00c4; 0xc00c0;
   0xc00c0; 0xc00c0; 0x7fff8c0; 0x3fff8c0; 0xc0; 0x0; 0x0; 0x0;
   0x0; 0x202000; 0x0; 0x0; 0x0; 0x18060; 0x3c060; 0x151f060;
   0x3f83860; 0x3f91c60; 0x3998860; 0x3999ffc; 0x3998bfc; 0x3999c60; 0x39988e0; 0x3999cf0;
   0x39989f0; 0x3999df0; 0x3998b78; 0x3999d78; 0x3998878; 0x399fc6c; 0x398fc6c; 0x1f8dc64;
   0x1f8c064; 0x186060; 0x187060; 0x183860; 0x181c60; 0x180c60; 0x0; 0x0;
   0x0; 0x0; 0x202000; 0x0; 0x0; 0x0; 0x18300; 0x18300;
   0x1c18338; 0x1f1ab38; 0xffbf38; 0xfbf38; 0x18338; 0x3018338; 0x3018338; 0x303bf38].
Definition hanzi_data_193 : list N :=
  [0x3ffbffc; 0x1ff23fc; 0x7004; 0x6000; 0x3fffffc; 0x3fffffc; 0x3fffffc; 0x3fc00;
   0x77f00; 0x1e6780; 0x7c71e0; 0x1f060f8; 0x7c0707e; 0x300600c; 0x7000; 0x0;
   0x0; 0x0; 0x0; 0x202000; 0x0; 0x0; 0x0; 0xc0;
   0xc0; 0x1fff0c0; 0x1fff0c0; 0x18070c0; 0x18030c0; 0x1807ffc; 0x1803ffc; 0x18070c0;
   0x18030e0; 0x1d571e0; 0x1fff1e0; 0x1fff3f0; 0x3986f0; 0x39ced8; 0x39ccd8; 0x39c4dc;
   0x38c0ce; 0x38c0c6; 0x638e0c4; 0x73870c0; 0x63870c0; 0x7783cc0; 0x3f81ec0; 0x1f00cc0;
   0x0; 0x0; 0x0; 0x0; 0x202000; 0x0; 0x0; 0x0;
   0xc0; 0xaaa8c0; 0x1fff8c0; 0xeae8c0; 0xe060c0; 0x60e0c0; 0x71c7fe; 0x3b87fe;
   0x1f00e0; 0xe00e0; 0x3f81f0; 0xfbe3f0; 0x7f4fff0; 0x3863ed8; 0x606d8; 0x600cc;
   0x1fff8cc; 0x1fff8ce; 0x600c6; 0x600c0; 0x600c0; 0x600c0; 0x7fffec0; 0x3fffec0;
   0xc0; 0x0; 0x0; 0x0; 0x0; 0x202000; 0x0; 0x0;
   0x0; 0x700e0; 0x600e0; 0xe00e0; 0xe00e0; 0x7fff8e0; 0x3fffffc; 0xe07fc;
   0xe02e8; 0xe00e0; 0x3fff0e0; 0x3fff1f0; 0x38e33f0; 0x38e37f0; 0x38e36f8; 0x38e36f8;
   0x38e32f8; 0x38e30fc; 0x38e30ee; 0x38e30e4; 0x3ee30e4; 0x1ee30e0; 0xe00e0; 0xe00e0;
   0xe00e0; 0xe00e0; 0x0; 0x0; 0x0; 0x0; 0x202000; 0x0;
   0x0; 0x0; 0xc000e0; 0x1fe00e0; 0x1fff8e0; 0x3f8e0; 0x18e0; 0x18e0;
   0x3fffffc; 0x3fffffc; 0x18e0; 0x18e0; 0x15559f0; 0x1ff9bf0; 0x1ffdff0; 0x1819ef8;
   0x1c1d8f8; 0xc198ec; 0x1c1d8ec; 0xf998ee; 0x79dce4; 0x1018ce0; 0x701cce0; 0x3018ee0;
   0x3ffcee0; 0x3ff86e0; 0x4e0; 0x0; 0x0; 0x0; 0x0; 0x202000;
   0x0; 0x0; 0x0; 0x60; 0x1fdf860; 0x1fdf860; 0x18d9860; 0x1dd9860;
   0x18d9860; 0x1dd99fc; 0x18d99fc; 0x1dd9870; 0x18d98f0; 0x1dddcf0; 0x3fffff0; 0x7fffff0;
   0x18d9b78; 0x1dd9978; 0x18d9868; 0x1cd986c; 0x18d886c; 0x1cd9c64; 0x18d8c64; 0x1cd8c60;
   0x18d8e60; 0x1c7c660; 0x1e7e660; 0xe4e660; 0x0; 0x0; 0x0; 0x0;
   0x202000; 0x0; 0x0; 0x0; 0xc0; 0xc0; 0x1ffe0c0; 0x1ffe0c0;
   0xc0; 0xc0; 0xffc; 0xffc; 0x3fff0e0; 0x3fff1e0; 0x3fff3f0; 0xe07f0;
   0xe06f0; 0xe2ef8; 0xeee4dc; 0xce60cc; 0x1ce70ce; 0x18e30ce; 0x18e30c4; 0x38e38c0;
   0x30e1cc0; 0x30e18c0; 0x10f40c0; 0xfc0c0; 0x7c0c0; 0x0; 0x0; 0x0;
   0x0; 0x202000; 0x0; 0x0; 0x0; 0x380c0; 0x1b80c0; 0x3b80c0;
   0x7380c0; 0x6300c0; 0x1fb87fc; 0x1fff7fc; 0x3ffae8; 0x378e0; 0x301e0; 0x1c701f0;
   0x3ff03f0; 0x7ff7f0; 0x107fed8; 0x38612d8; 0x1c600cc; 0xee00cc; 0x7e00cc; 0x17c00c4;
   0x21e00c0; 0x71f80c0; 0x33be0c0; 0x371fcc0; 0x3e038c0; 0x1c000c0; 0x0; 0x0;
   0x0; 0x0; 0x202000; 0x0; 0x0; 0x0; 0x70c0e0; 0x30c0e0;
   0x70c0e0; 0x3fff8e0; 0x7fffce0; 0x30c0e0; 0x70c7fc; 0x30c3fc; 0xe0; 0x1fff8e0;
   0x1fff9f0; 0x1ababf0; 0x18383f0; 0x18386f8; 0x18386f8; 0x18382ec; 0x18380ec; 0x18380ee;
   0x18380e4; 0x1fb80e0; 0x1fb80e0; 0x380e0; 0x380e0; 0x380e0; 0x380e0; 0x0;
   0x0; 0x0; 0x0; 0x202000; 0x0; 0x0; 0x0; 0x1c0e0;
   0x1980e0; 0x79c0e0; 0xe180e0; 0xc1c0e0; 0x183fc; 0x3fffffc; 0x3fffae8; 0x3fff8e0;
   0xcc0e0; 0x11dc1f0; 0x38cc3f0; 0x1dcc7f0; 0xccc6f8; 0xfcc2f8; 0x6ce0ec; 0x7c60ec;
   0x3c60ee; 0x1c70e4; 0xe30e0; 0x71f38e0; 0x30f98e0; 0x3fdfce0; 0x3f8cee0; 0x15004e0;
   0x0; 0x0; 0x0; 0x0; 0x202000; 0x0; 0x0; 0x0;
   0x380e0; 0x380e0; 0x1c0e0; 0x1c0e0; 0x3fffce0; 0x3fffce0; 0xc7fc; 0xe3fc;
   0xe60e0; 0xe60e0; 0xe71f0; 0xe3bf0; 0x1fffbf0; 0x1fffef8; 0xe02f8; 0xe00f8;
   0x4e70fc; 0xee70ee; 0x1ce70e6; 0x18e38e4; 0x18e1ce0; 0x38e1ce0; 0x70f4ce0; 0x7c0e0;
   0x7c0e0; 0x0; 0x0; 0x0; 0x0; 0x202000; 0x0; 0x0;
   0x0; 0x600c0; 0x600c0; 0x1fe00c0; 0x1fe00c0; 0x15600c0; 0x60ffc; 0x60ffc;
   0x1fff2e8; 0x1fff0e0; 0x18031e0; 0x1c031f0; 0x18033f0; 0x1c037f0; 0x1fff6f8; 0x1fff4d8;
   0x1aab0d8; 0x1c030cc; 0x38ce; 0x18c4; 0x18c0; 0x18c0; 0x18c0; 0x1cc0;
   0xec0; 0x4c0; 0x0; 0x0; 0x0; 0x0; 0x202000; 0x0;
   0x0; 0x0; 0xc000e0; 0xfe00e0; 0x1fff0e0; 0x3f0e0; 0x70e0; 0xe33fc;
   0xe37fc; 0xe32e8; 0xe30e0; 0xe38e0; 0x3fff9f0; 0x3fffbf0; 0xe07f0; 0xe06f8;
   0xe02f8; 0xee60f8; 0xce70ec; 0x1ce30ee; 0x18e30e4; 0x38e38e0; 0x30e1ce0; 0x30e1ce0;
   0x30e0ce0; 0xf80e0; 0x780e0; 0x0; 0x0; 0x0; 0x0; 0x202000;
   0x0; 0x0; 0x0; 0x4040c0; 0xe0e0c0; 0x61c0c0; 0x6180c0; 0x7180c0;
   0x3987fc; 0x1fff7fc; 0x1fff2e8; 0x15551e0; 0x1e0; 0x3f0; 0x3f0; 0x7f0;
   0xaaa6f8; 0xffe4d8; 0xffe0d8; 0xdc; 0xce; 0xc4; 0xc0; 0xc0;
   0x3fff8c0; 0x3fffcc0; 0x2aaa8c0; 0xc0; 0x0; 0x0; 0x0; 0x0;
   0x202000; 0x0; 0x0; 0x0; 0x1c0e0; 0x7c0e0; 0x1f80e0; 0x3c00e0;
   0x3000e0; 0xe0; 0xffffc; 0x10ffbfc; 0x38e00e0; 0x18e00e0; 0x1cefcf0; 0xeef9f0;
   0x7ffdf0; 0x3ec3f8; 0x3ee7f8; 0x3e62f8; 0x7e70ec; 0xee30ee; 0x1ce38e4; 0x3ce1ce0;
   0x78e1ee0; 0x30e0ee0; 0xe04e0; 0xfc0e0; 0x7c0e0; 0x0; 0x0; 0x0;
   0x0; 0x202000; 0x0; 0x0; 0x0; 0x1c00060; 0xc00060; 0x1c00060;
   0xc0fc60; 0x1c1fc60; 0xc1a860; 0x7ffc1fc; 0x3fec1fc; 0x1c0cc70; 0xc0ccf0; 0x1c4dcf0;
   0xccf8f0; 0x1dc71f0; 0xd863f8; 0x1d86378; 0xf0e068; 0x1d1f06c; 0xc1b06c; 0x1c1b864;
   0xc19864; 0x1c01c60; 0xc00e60; 0x1d40660; 0xf80060; 0x780060; 0x0; 0x0].
Definition hanzi_data_194 : list N :=
  [0x0; 0x0; 0x202000; 0x0; 0x0; 0x0; 0x1c0c0; 0x1c0c0;
   0x1c0c0; 0xe0c0; 0x3ffe0c0; 0x3ffe0c0; 0x3d577fc; 0x3803ffc; 0x38038e0; 0x39ffce0;
   0x39ff9e0; 0x39861e0; 0x39863f0; 0x39fe6f0; 0x39fe6d8; 0x39866d8; 0x19864dc; 0x39ae0ce;
   0x19fe0cc; 0x18060c4; 0x18060c0; 0x18000c0; 0x1c000c0; 0xfc00c0; 0xfc00c0; 0x0;
   0x0; 0x0; 0x0; 0x202000; 0x0; 0x0; 0x0; 0x600c0;
   0x600c0; 0xf00c0; 0xf80c0; 0x1d80c0; 0x39c3fc; 0x70e7fc; 0x1e072e8; 0x7c038e0;
   0x3fffde0; 0x2ffe9f0; 0xaea3f0; 0x607f0; 0x606f8; 0x602d8; 0xfff0d8; 0xfff0dc;
   0x600ce; 0x600c4; 0x600c0; 0x600c0; 0x600c0; 0x3fffcc0; 0x3fff8c0; 0xc0;
   0x0; 0x0; 0x0; 0x0; 0x202000; 0x0; 0x0; 0x0;
   0xe0; 0x3fff8e0; 0x3fffce0; 0x2bba8e0; 0x1980e0; 0x1983fc; 0x15dd3fc; 0x3fffae8;
   0x3fff8e0; 0x39998e0; 0x39999f0; 0x3999bf0; 0x3999bf0; 0x3999af8; 0x3f9d8f8; 0x3f8f8ec;
   0x38078ec; 0x38018ee; 0x38018e4; 0x38018e0; 0x38018e0; 0x3fff8e0; 0x3fff8e0; 0x38018e0;
   0x38018e0; 0x0; 0x0; 0x0; 0x0; 0x202000; 0x0; 0x0;
   0x0; 0x0; 0x2aaaaa8; 0x3fffffc; 0x2abaea8; 0x30c00; 0x30c00; 0xfffff0;
   0xfffff0; 0xc30c30; 0xc30c30; 0xd75d70; 0xfffff0; 0xfffff0; 0x6000; 0x6000;
   0x3fffffc; 0x3fffffc; 0x3f800; 0x7fe00; 0xe6f00; 0x3c63c0; 0xf861f0; 0x7f0607c;
   0x380601c; 0x6000; 0x0; 0x0; 0x0; 0x0; 0x202000; 0x0;
   0x0; 0x0; 0xc000e0; 0x1f800e0; 0x1fff0e0; 0xff0e0; 0xe10e0; 0xe07fc;
   0xe07fc; 0xe02e8; 0x7fff8e0; 0x3fff8e0; 0x55f51f0; 0xe03f0; 0xe07f0; 0xe06f8;
   0x15f52f8; 0x1fff0ec; 0x1fff0ec; 0x18030ee; 0x1c030e4; 0x18030e0; 0x1c030e0; 0x18030e0;
   0x1fff0e0; 0x1fff0e0; 0x1c030e0; 0x0; 0x0; 0x0; 0x0; 0x202000;
   0x0; 0x0; 0x0; 0x404060; 0xe0e060; 0x60c060; 0x30c060; 0x318060;
   0x3883fc; 0x3fffffc; 0x3fffae8; 0x31c060; 0x3080e0; 0x31c1f0; 0x3081f0; 0x175d370;
   0x3fffb78; 0x7fffc78; 0x30c068; 0x30c06c; 0x30c06e; 0x30c064; 0x30e060; 0x306060;
   0x307060; 0x303860; 0x303860; 0x301060; 0x0; 0x0; 0x0; 0x0;
   0x202000; 0x0; 0x0; 0x0; 0x700c0; 0x700c0; 0xe00c0; 0xe00c0;
   0x3fff8c0; 0x3fff8c0; 0x7fc; 0x31c7fc; 0x71c0e0; 0xe0e0e0; 0x1c071f0; 0x3a03bf0;
   0x370fff0; 0x30c6f8; 0x31c6d8; 0x3982d8; 0x1f80dc; 0xf00ce; 0xf00c4; 0x1f00c4;
   0x3f80c0; 0xf9e0c0; 0x3f0f0c0; 0x3c03cc0; 0x10018c0; 0x0; 0x0; 0x0;
   0x0; 0x202000; 0x0; 0x0; 0x0; 0x60; 0x3fdfe60; 0x3fdfe60;
   0x3a9a860; 0x3818060; 0x38181fc; 0x39d8dfc; 0x3998cf8; 0x3999870; 0x3b998f0; 0x3b199f0;
   0x3b1b1f8; 0x38181f8; 0x3c1c368; 0x3f1f16c; 0x3b9b86c; 0x39d9c6c; 0x38f8e66; 0x3858664;
   0x3818260; 0x3818060; 0x3818060; 0x3f9f860; 0x1f1f860; 0x705060; 0x0; 0x0;
   0x0; 0x0; 0x202000; 0x0; 0x0; 0x0; 0xc00c0; 0xc00c0;
   0xcc0c0; 0xce0c0; 0xc60c0; 0x1ffeffc; 0x1fffffc; 0xc32e8; 0xc31e0; 0xc39e0;
   0xc13f0; 0xc03f0; 0x3fffef0; 0x3fffef8; 0x3f04d8; 0x3f80d8; 0x7d80dc; 0x6dc0ce;
   0xcce0c4; 0x1cce0c0; 0x38c70c0; 0x78c3cc0; 0x30c1cc0; 0xc08c0; 0xc00c0; 0x0;
   0x0; 0x0; 0x0; 0x202000; 0x0; 0x0; 0x0; 0x10300c0;
   0x30300c0; 0x38300c0; 0x1bff8c0; 0x1fff8c0; 0xe300c0; 0x7307fc; 0x3307fc; 0x7fffce0;
   0x3fff9e0; 0xf03e0; 0x783f0; 0x3ffc6f0; 0x3ffe2f8; 0x1fcd8; 0xfed8; 0xcecc;
   0x1ffe0ce; 0x1ffe0c4; 0x18000c0; 0x1c000c0; 0xc000c0; 0xc000c0; 0xff00c0; 0x7f00c0;
   0x0; 0x0; 0x0; 0x0; 0x202000; 0x0; 0x0; 0x0;
   0x300e0; 0x300e0; 0x30300e0; 0x38300e0; 0x1fff8e0; 0xfffffc; 0xe307fc; 0x6302e8;
   0x7300e0; 0x3fff8e0; 0x3fffdf0; 0x2aeabf0; 0x707f0; 0x8386f8; 0x1c1c2f8; 0xf1f0ec;
   0x7dfcec; 0xffeee; 0x3cce4; 0x301c0e0; 0x701c0e0; 0x301c0e0; 0x3ffc0e0; 0x3ff80e0;
   0x15500e0; 0x0; 0x0; 0x0; 0x0; 0x202000; 0x0; 0x0;
   0x0; 0xc0c0; 0xe0c0; 0x60c0; 0x3ffe0c0; 0x3fff0c0; 0x38c0; 0x3ffc;
   0xaabffc; 0x1fffce0; 0xeabce0; 0x1c371f0; 0xc733f0; 0x1ce77f0; 0xcc32f8; 0x1c472d8;
   0x3fffcd8; 0x7fffcdc; 0xc030ce; 0x1c030c4; 0xc030c4; 0x1c038c0; 0xc018c0; 0x1d01cc0;
   0xf00cc0; 0x700cc0; 0x0; 0x0; 0x0; 0x0; 0x202000; 0x0;
   0x0; 0x0; 0x1c060e0; 0xc060e0; 0xe0e0e0; 0xe0c0e0; 0x71c0e0; 0x3fffbfc;
   0x3fffffc; 0x602e8; 0x600e0; 0x600e0; 0x15751f0; 0x1fff3f0; 0x1fff7f0; 0x602f8;
   0x602f8; 0x600e8; 0x3fffcec; 0x3fffcee; 0x3fffce4; 0x600e0; 0x600e0; 0x600e0;
   0x600e0; 0x600e0; 0x600e0; 0x0; 0x0; 0x0; 0x0; 0x202000;
   0x0; 0x0; 0x0; 0x600c0; 0xe00c0; 0xc00c0; 0xc00c0; 0x7fff8c0;
   0x3fffffc; 0x707fc; 0x382e8; 0xe1c0e0; 0x60c1e0; 0x7ff1f0; 0x3ff3f0; 0x1df7f0;
   0x38e06f8; 0x1c700d8; 0xe3c0d8; 0xf1f0dc; 0x7078ce; 0x3c10c4; 0x3e00c0; 0xff00c0;
   0x1e3e0c0; 0x3c1f8c0; 0x3807cc0; 0x1001cc0; 0x0; 0x0; 0x0; 0x0;
   0x202000; 0x0; 0x0; 0x0; 0xc0; 0xfff0c0; 0xfff0c0; 0xc030c0;
   0xc030c0; 0xc037fc; 0xfff7fc; 0xfff2e8; 0xc030e0; 0xc031e0; 0xc031e0; 0xfff3e0;
   0xfff7f0; 0x636f0; 0x10632d8; 0x3ce30d8; 0x1fc30dc; 0x7c30ce; 0x3c30c4; 0x3830c0;
   0x7030c0; 0xe730c0; 0x3c7f0c0; 0x380f8c0; 0x10010c0; 0x0; 0x0; 0x0;
   0x0; 0x202000; 0x0; 0x0; 0x0; 0x3800c0; 0xf800c0; 0x1f800c0;
   0x3b800c0; 0x33800c0; 0x3fffffc; 0x7fffffc; 0x2baaae8; 0x3801e0; 0x3801e0; 0x3003f0].
Definition hanzi_data_195 : list N :=
  [0x37fbf0; 0x37fff0; 0x30c6f0; 0x30c4d8; 0x30c0d8; 0x30c0dc; 0x30c0ce; 0x170c0cc;
   0x26ec0c4; 0x76ffcc0; 0x261fcc0; 0x3e01cc0; 0x3c000c0; 0x1c000c0; 0x0; 0x0;
   0x0; 0x0; 0x202000; 0x0; 0x0; 0x0; 0x300c0; 0x380c0;
   0x380c0; 0xffc0c0; 0xffc0c0; 0xe0e0c0; 0x61fffc; 0x71bffc; 0x3b9ce0; 0x1f08e0;
   0x1e01e0; 0x3f03e0; 0x7fc7f0; 0x1e1e6f0; 0x7c07cd8; 0x3fffcd8; 0x1ffe4dc; 0xc060ce;
   0x1c060c4; 0xc060c4; 0x1c060c0; 0xc060c0; 0x1ffe0c0; 0xffe0c0; 0x1c060c0; 0x0;
   0x0; 0x0; 0x0; 0x202000; 0x0; 0x0; 0x0; 0x30300;
   0x330300; 0x731750; 0xe33ff8; 0x1c77ff8; 0x3830300; 0x70300; 0x30300; 0x3fffffc;
   0x3fffffc; 0x70300; 0x1c60300; 0x1c75754; 0xe67ffc; 0x667ffc; 0x7e0380; 0x3e07c0;
   0x3c1fe0; 0x11c3f70; 0x21e3338; 0x71f233c; 0x33bc30c; 0x371f300; 0x3e0f300; 0x1c02300;
   0x0; 0x0; 0x0; 0x0; 0x202000; 0x0; 0x0; 0x0;
   0x7000; 0x6000; 0x3fffffc; 0x3fffffc; 0x1575d54; 0x30c00; 0x1b0dc0; 0x3b0cc0;
   0x730ce0; 0xe30c70; 0x1c30c38; 0x1830c18; 0x34c10; 0x6000; 0x6000; 0x3fffffc;
   0x3fffffc; 0x2abfaa8; 0x7fc00; 0xe6f00; 0x3c67c0; 0xf861e0; 0x7f0607e; 0x380603c;
   0x6004; 0x0; 0x0; 0x0; 0x0; 0x202000; 0x0; 0x0;
   0x0; 0x300180; 0x300180; 0x3015c0; 0x3ffbfe0; 0x3fffff0; 0x301838; 0x31dc7c;
   0x31ccec; 0x31cfc0; 0x3ffc780; 0x3ffc380; 0x3001e0; 0x3060f0; 0x30603c; 0x10601c;
   0x3fffffc; 0x3fffffc; 0x3fc00; 0x7fe00; 0xe6780; 0x7c63c0; 0xf860f8; 0x7e0607e;
   0x380601c; 0x6000; 0x0; 0x0; 0x0; 0x0; 0x202000; 0x0;
   0x0; 0x0; 0x4060; 0xe060; 0x3fe6060; 0x3fe3060; 0x3860; 0x1dfc;
   0x1cdfc; 0xc0e8; 0x7ffe070; 0x3ff6070; 0x5f570f0; 0xe078f0; 0xe07df8; 0xe06f78;
   0xe0757c; 0xe0606c; 0xe0706c; 0xe06066; 0xe07064; 0xe06060; 0xe07060; 0xe06060;
   0xe07060; 0x7c6060; 0x7c7060; 0x0; 0x0; 0x0; 0x0; 0x202000;
   0x0; 0x0; 0x0; 0x600e0; 0x600e0; 0x600e0; 0x600e0; 0x1fff8e0;
   0x1fffffc; 0x607fc; 0x602e8; 0x600e0; 0x2aea8e0; 0x3fffdf0; 0x3fffbf0; 0x607f0;
   0x602f8; 0x602f8; 0xaea8ec; 0x1fff8ec; 0x1fff8ee; 0x600e4; 0x600e0; 0x600e0;
   0x600e0; 0x7fffee0; 0x3fffee0; 0xe0; 0x0; 0x0; 0x0; 0x0;
   0x202000; 0x0; 0x0; 0x0; 0x19c060; 0x198060; 0x19c060; 0x198060;
   0x319dc60; 0x3999bfc; 0x199dbfc; 0x199b2e8; 0xd9f0f0; 0xf9e0e0; 0x59c1f0; 0x1983f0;
   0x79c770; 0xf9c278; 0x1d9f07c; 0x399b86c; 0x719dc6c; 0x218cc6e; 0x18c464; 0x218e060;
   0x7187060; 0x6183060; 0x7f83c60; 0x3f81e60; 0x1f00460; 0x0; 0x0; 0x0;
   0x0; 0x202000; 0x0; 0x0; 0x0; 0x600c0; 0x8600c0; 0x38638c0;
   0x18630c0; 0x1c670c0; 0xc660c0; 0xc667fc; 0xe667fc; 0x6660e0; 0x600e0; 0x7fffdf0;
   0x3fffdf0; 0x7fffff0; 0x38c6f8; 0x39c6d8; 0x38c0d8; 0x38c0dc; 0x38c0cc; 0x138e0ce;
   0x63860c4; 0x73870c0; 0x23838c0; 0x7f83cc0; 0x3f81ec0; 0x1f00cc0; 0x0; 0x0;
   0x0; 0x0; 0x202000; 0x0; 0x0; 0x0; 0x1c0e0; 0xc0e0;
   0x3fc0e0; 0x7fe0e0; 0x7060e0; 0x3877fc; 0x1837fc; 0x3fffae8; 0x3fffce0; 0x3ee0;
   0x35f0; 0xff33f0; 0x1ff37f0; 0x8336f8; 0x1c332f8; 0x8330ec; 0x1c330ec; 0xf330ee;
   0xf338e4; 0x20338e0; 0x70318e0; 0x30318e0; 0x3ff1ce0; 0x3ff0ce0; 0x5408e0; 0x0;
   0x0; 0x0; 0x0; 0x202000; 0x0; 0x0; 0x0; 0xe0;
   0xe0; 0x3fff8e0; 0x3fff8e0; 0x18e0; 0x18e0; 0x1ffdffc; 0x1ffdffc; 0x1c18e0;
   0x1818e0; 0x1c19f0; 0x1ff9bf0; 0x1ffdff0; 0x181ef8; 0x1c18f8; 0x1818ec; 0x1c18ec;
   0x3ffd8ee; 0x3ffd8e4; 0x18e0; 0x18e0; 0x2aab8e0; 0x7fff8e0; 0x3fff8e0; 0xe0;
   0x0; 0x0; 0x0; 0x0; 0x202000; 0x0; 0x0; 0x0;
   0x7000; 0x6000; 0x3fffffc; 0x3fffff8; 0x380181c; 0x3801818; 0x1555d54; 0x3fffffc;
   0x15d5754; 0xe0380; 0x717c0; 0x3ff80; 0x1ffc00; 0xfe3ff8; 0x1f067fc; 0x806000;
   0x3fffffc; 0x3fffffc; 0x155fd54; 0x3ee00; 0x1f6700; 0x7c63e0; 0x7f061fc; 0x3c0603c;
   0x1006004; 0x0; 0x0; 0x0; 0x0; 0x202000; 0x0; 0x0;
   0x0; 0x70060; 0x70060; 0x70060; 0x2aea860; 0x3fffc60; 0x3aabbfc; 0x3871ffc;
   0x3831ae8; 0x3831c60; 0x380e0; 0x181f0; 0x3fffdf0; 0x7ffff70; 0x60e378; 0x70e378;
   0x70606c; 0x70706c; 0x39e06e; 0x1fc064; 0x1f0060; 0x7f0060; 0xff8060; 0x1e1f060;
   0x380fc60; 0x1001860; 0x0; 0x0; 0x0; 0x0; 0x202000; 0x0;
   0x0; 0x0; 0xe000; 0x30e0c0; 0x3861c0; 0x186380; 0xfffff0; 0xfffff0;
   0x557d50; 0x1800; 0x1c00; 0x3fffffc; 0x3fffffc; 0xe0380; 0x1c63c0; 0x7860e0;
   0x1f06078; 0x3fffffe; 0x33fffec; 0x1f800; 0x7fc00; 0xe6f00; 0x3c67c0; 0x7861e0;
   0xe06078; 0x6030; 0x6000; 0x0; 0x0; 0x0; 0x0; 0x202000;
   0x0; 0x0; 0x0; 0x7000; 0x6000; 0x1fff000; 0x1ffe000; 0x7000;
   0x2aeaa0; 0x7fffe0; 0x600060; 0x600060; 0x7fffe0; 0x7fffe0; 0x600060; 0x755560;
   0x7fffe0; 0x557540; 0x6000; 0x3fffffc; 0x3fffffc; 0x3fc00; 0x76e00; 0x1e6780;
   0x7861e0; 0x7f060fc; 0x3c0603c; 0x100600c; 0x0; 0x0; 0x0; 0x0;
   0x202000; 0x0; 0x0; 0x0; 0xe0; 0x2aaa8e0; 0x3fff8e0; 0x3fff8e0;
   0x380e0; 0x3387fc; 0x71c7fc; 0xe0e2e8; 0x1d470e0; 0x1fff9e0; 0x3fff9f0; 0x30203f0;
   0x10607f0; 0x606f8; 0x602f8; 0x1fff8ec; 0x1fff8ec; 0xaea8ee; 0x600e4; 0x600e0;
   0x600e0; 0x600e0; 0x7fffce0; 0x3fffce0; 0xe0; 0x0; 0x0; 0x0].
Definition hanzi_data_196 : list N :=
  [0x0; 0x202000; 0x0; 0x0; 0x0; 0xe0; 0x3fff0e0; 0x3fff0e0;
   0x3aab0e0; 0x38030e0; 0x38037fc; 0x3fff7fc; 0x3bfb2e8; 0x38030e0; 0x38030e0; 0x3bfb1f0;
   0x3bfb3f0; 0x3b1b7f0; 0x3b1b6f8; 0x3b1b6f8; 0x3b1b2ec; 0x3b1b0ec; 0x3bfb0ee; 0x3bfb0e4;
   0x381b0e0; 0x38030e0; 0x38030e0; 0x3d030e0; 0x3f030e0; 0x1f030e0; 0x0; 0x0;
   0x0; 0x0; 0x202000; 0x0; 0x0; 0x0; 0x0; 0x3fffe0;
   0x1fffe0; 0xe0f80; 0x7ffc0; 0x7f800; 0x3f3ff0; 0x3803e0; 0x1ffdffc; 0x1ffdff8;
   0xe18e10; 0x7f87f8; 0x7f07c0; 0xffeff0; 0x3c1ec7c; 0x6008; 0x3fffffc; 0x3fffffc;
   0x3fc00; 0x7ee00; 0x1e6780; 0x7c63e0; 0x7f060fc; 0x3c0603c; 0x100600c; 0x0;
   0x0; 0x0; 0x0; 0x202000; 0x0; 0x0; 0x0; 0xc0;
   0x2aaa8c0; 0x3fff8c0; 0x3fff8c0; 0xc0; 0x7fc; 0x1fff7fc; 0x1ffe2e8; 0x1c070e0;
   0x1c061e0; 0x1c071f0; 0x1eae3f0; 0x1fff7f0; 0x1eae6d8; 0x1c072d8; 0x1c060d8; 0x1c070cc;
   0x1ffe0ce; 0x1fff0c4; 0xc0; 0xc0; 0x2aaa8c0; 0x7fffcc0; 0x3fff8c0; 0xc0;
   0x0; 0x0; 0x0; 0x0; 0x202000; 0x0; 0x0; 0x0;
   0xe00e0; 0xe00e0; 0xe00e0; 0xe00e0; 0x3fff8e0; 0x3fffbfc; 0xe07fc; 0xe02e8;
   0xe00e0; 0xe00e0; 0x1fff9f0; 0x1fffbf0; 0x7f0; 0x6f8; 0x15552f8; 0x1fff0f8;
   0x1fff0ec; 0x1c030ee; 0x1c070e4; 0x1c030e0; 0x1c070e0; 0x1c030e0; 0x1fff0e0; 0x1fff0e0;
   0x1c070e0; 0x0; 0x0; 0x0; 0x0; 0x202000; 0x0; 0x0;
   0x0; 0xc0; 0x300c0; 0x7c0c0; 0x1f9f0c0; 0x1f870c0; 0x1a837fc; 0x18037fc;
   0x18032e8; 0x18031e0; 0x18031e0; 0x18033f0; 0x1aab3f0; 0x1fbf7f0; 0x1aab6f8; 0x18034d8;
   0x18030d8; 0x18030dc; 0x18030ce; 0x18030c4; 0x18030c0; 0x18030c0; 0x1fff0c0; 0x1fff0c0;
   0x18030c0; 0x10030c0; 0x0; 0x0; 0x0; 0x0; 0x202000; 0x0;
   0x0; 0x0; 0xe0; 0xe0; 0x3fffce0; 0x3fffce0; 0x15dd4e0; 0x1980e0;
   0x19c7fc; 0x1983fc; 0x319cce0; 0x31988e0; 0x319d9f0; 0x1999bf0; 0x199dbf0; 0x199bff8;
   0x1d9f2f8; 0xd9b0ec; 0xd9f0ec; 0xd9b0ee; 0x19c0e4; 0x1980e0; 0x19c0e0; 0x3fffee0;
   0x7fffee0; 0xe0; 0xe0; 0x0; 0x0; 0x0; 0x0; 0x202000;
   0x0; 0x0; 0x0; 0x1c0e0; 0xc0e0; 0x101c0e0; 0x1ff80e0; 0x1fffce0;
   0x83fbfc; 0x1e307fc; 0xf302e8; 0x7f00e0; 0x30f00e0; 0x31ff1f0; 0x3b8fff0; 0x1f03bf0;
   0xc002f8; 0x3fffcf8; 0x3fffcec; 0x15dd4ec; 0x19c0ee; 0x19c0e4; 0x18c0e0; 0x718e0e0;
   0x318e0e0; 0x3587ce0; 0x3f83ee0; 0x1f00ce0; 0x0; 0x0; 0x0; 0x0;
   0x202000; 0x0; 0x0; 0x0; 0x600e0; 0x600e0; 0x3fe00e0; 0x3fe00e0;
   0x15600e0; 0x607fc; 0x15757fc; 0x1fff2e8; 0x1fff0e0; 0x18030e0; 0x1ce31f0; 0x18e33f0;
   0x1ce37f0; 0x18e32f8; 0x1ce32f8; 0x18e30ec; 0x1c630ec; 0x18630ee; 0x1c730e4; 0x8730e0;
   0x1b80e0; 0x79c0e0; 0x1e0f0e0; 0x3807ce0; 0x10018e0; 0x0; 0x0; 0x0;
   0x0; 0x202000; 0x0; 0x0; 0x0; 0x600c0; 0x600c0; 0x18618c0;
   0x18638c0; 0x1c630c0; 0xc630c0; 0xe677fc; 0x6667fc; 0x7660e0; 0x600e0; 0x1fff9f0;
   0x1fffbf0; 0x18007f0; 0x18006f8; 0x18006d8; 0x1fff8d8; 0x1fff8dc; 0x1aaa8ce; 0x18000c6;
   0x18000c4; 0x18000c0; 0x1fffcc0; 0x1fffcc0; 0x18000c0; 0x18000c0; 0x0; 0x0;
   0x0; 0x0; 0x202000; 0x0; 0x0; 0x0; 0x60060; 0x1861860;
   0x1861860; 0x1861860; 0x1861860; 0x1861bfc; 0x1fffbfc; 0x1fffae8; 0x70; 0xe0;
   0x1fff9f0; 0x1fffbf0; 0x1d55370; 0x1800278; 0x1c0007c; 0x1aaa86c; 0x1fff86c; 0x1fff86e;
   0x1864; 0x1860; 0x7001860; 0x3001860; 0x3fff860; 0x3fff860; 0x554060; 0x0;
   0x0; 0x0; 0x0; 0x202000; 0x0; 0x0; 0x0; 0xc0;
   0xfe00c0; 0x1fff0c0; 0x7f0c0; 0x700c0; 0x607fc; 0x707fc; 0x3fffae8; 0x7fff8e0;
   0x3181e0; 0x71c1f0; 0xe0e3f0; 0x1c077f0; 0x3a0bad8; 0x361dcd8; 0x61c8d8; 0x61c0cc;
   0x60c0ce; 0x61c0c4; 0x60c0c0; 0x60e0c0; 0x6060c0; 0x6070c0; 0x603cc0; 0x6018c0;
   0x0; 0x0; 0x0; 0x0; 0x202000; 0x0; 0x0; 0x0;
   0x1cc060; 0xcc060; 0x19ce060; 0x38c6060; 0x1dc7060; 0xec73fc; 0x7c7ffc; 0x3e7ee8;
   0x1f7ce0; 0x30fece0; 0x31d71f0; 0x31c63f0; 0x3fc7770; 0xa06278; 0x60278; 0x6006c;
   0x7fffc6c; 0x3fffc6e; 0x1575464; 0x60060; 0x60060; 0x60060; 0x60060; 0x60060;
   0x60060; 0x0; 0x0; 0x0; 0x0; 0x202000; 0x0; 0x0;
   0x0; 0x600e0; 0x600e0; 0xf00e0; 0xf80e0; 0x1dc0e0; 0x39c7fc; 0x70e7fc;
   0x1e072e8; 0x3c03ce0; 0x3fffce0; 0x17fedf0; 0x3f0; 0x7f0; 0x6f8; 0x1fffaf8;
   0x1fff8f8; 0x380ec; 0x2180ee; 0x71c0e4; 0x60e0e0; 0xe070e0; 0xfe70e0; 0x1fffce0;
   0x383f8e0; 0x10000e0; 0x0; 0x0; 0x0; 0x0; 0x202000; 0x0;
   0x0; 0x0; 0x70300; 0x38300; 0x1ffc31c; 0x3ffc338; 0x1d5f370; 0x1c07b70;
   0x1c1d320; 0xe38380; 0x7f03f0; 0x3e0378; 0xfc31c; 0x3fb08; 0x7b00; 0x6200;
   0x6000; 0x3fffffc; 0x3fffffc; 0x3fc00; 0x76e00; 0xe6780; 0x7c63c0; 0xf860f8;
   0x7e0607e; 0x380601c; 0x6000; 0x0; 0x0; 0x0; 0x0; 0x202000;
   0x0; 0x0; 0x0; 0x600c0; 0xe00c0; 0x1c00c0; 0x800c0; 0x3fff0c0;
   0x3fff7fc; 0x37fc; 0x1832e8; 0x1830e0; 0x1831e0; 0x1831f0; 0x1833f0; 0x3ffb7f0;
   0x3ffb2f8; 0x1830d8; 0x1830d8; 0x1830cc; 0x1838ce; 0x1818c4; 0x1818c0; 0x181cc0;
   0x181cc0; 0x7ffecc0; 0x3ffeec0; 0x4c0; 0x0; 0x0; 0x0; 0x0;
   0x202000; 0x0; 0x0; 0x0; 0x380060; 0x380860; 0x381c60; 0x383860;
   0x1f97060; 0x1bb2060; 0x1bb03fc; 0x3bb07fc; 0x33b8e70; 0x3399cf0; 0x739b9f0; 0x39c1f0].
Definition hanzi_data_197 : list N :=
  [0x13883f0; 0x3b80378; 0x1b87378; 0x1b87268; 0x1c0306c; 0xe0386e; 0x703866; 0x701864;
   0x3c1c60; 0x1e0c60; 0xf8e60; 0x3ce60; 0x1c060; 0x0; 0x0; 0x0;
   0x0; 0x202000; 0x0; 0x0; 0x0; 0xc0; 0xfff0c0; 0x1fff0c0;
   0xc030c0; 0x1c070c0; 0xc037fc; 0x1c077fc; 0xeab2e8; 0x1fff0e0; 0xaaa1e0; 0x1f0;
   0x3fffbf0; 0x3fffff0; 0x2aeaef8; 0x602d8; 0x600d8; 0x1fff0dc; 0x1fff0ce; 0x15750c4;
   0x600c0; 0x600c0; 0x600c0; 0x7fffcc0; 0x3fff8c0; 0xc0; 0x0; 0x0;
   0x0; 0x0; 0x202000; 0x0; 0x0; 0x0; 0xe00e0; 0xe00e0;
   0x15f50e0; 0x3fff8e0; 0x3fff8e0; 0xe03fc; 0xe07fc; 0x3fffae8; 0x3fff8e0; 0x30018e0;
   0x30019f0; 0x37ff9f0; 0xffe3f0; 0x7803f8; 0x3c03f8; 0xe00ec; 0x15f50ec; 0x3fff8ee;
   0x7fffce4; 0xe00e0; 0xe00e0; 0xe00e0; 0xe00e0; 0xfc0e0; 0x7c0e0; 0x0;
   0x0; 0x0; 0x0; 0x202000; 0x0; 0x0; 0x0; 0x1c000c0;
   0x3ff80c0; 0x1fff8c0; 0x80b8c0; 0x1c730c0; 0xc637fc; 0xc677fc; 0xee62e8; 0x76e0e0;
   0xfff1e0; 0x1fff1f0; 0x6aa3f0; 0x7807f0; 0x1c06f0; 0xe02d8; 0x600d8; 0x3fffcdc;
   0x3fffccc; 0x600cc; 0x600c4; 0x600c0; 0x600c0; 0x600c0; 0x7c0c0; 0x7c0c0;
   0x0; 0x0; 0x0; 0x0; 0x202000; 0x0; 0x0; 0x0;
   0xe0; 0xfff8e0; 0x1fff8e0; 0xe000e0; 0x78c0e0; 0x1fe3fc; 0x1f87fc; 0x3e02e8;
   0x1fffce0; 0x1fff8e0; 0x1861df0; 0x1861bf0; 0x1fffff8; 0x1fffaf8; 0x1fffcfc; 0x18618ec;
   0x1861cee; 0x1fff8e6; 0x1fffce4; 0x18618e0; 0x1861ce0; 0x18618e0; 0x1861ce0; 0x1e618e0;
   0x1e61ce0; 0x0; 0x0; 0x0; 0x0; 0x202000; 0x0; 0x0;
   0x0; 0x380e0; 0x180e0; 0x3fc0e0; 0x7fc0e0; 0x70e0e0; 0x3863fc; 0x1c77fc;
   0x3fffae8; 0x3fffce0; 0x38c38e0; 0x38c71f0; 0x3aeb3f0; 0x3fff7f0; 0x3aeb6f8; 0x38c72f8;
   0x38c30ec; 0x3fff0ec; 0x3fff0ee; 0x38c30e4; 0x38c30e0; 0x38c38e0; 0x38c18e0; 0x38c1ce0;
   0x3ec0ee0; 0x1cc04e0; 0x0; 0x0; 0x0; 0x0; 0x202000; 0x0;
   0x0; 0x0; 0x700c0; 0x600c0; 0xe00c0; 0xfff0c0; 0x1fff0c0; 0xc037fc;
   0x1c037fc; 0xc032e8; 0x1fff0e0; 0xfff1e0; 0x1c031f0; 0xc033f0; 0x1fff7f0; 0xfff6f8;
   0x1fff2d8; 0x18630d8; 0x3ce30dc; 0xec30ce; 0x7c30c4; 0x3830c0; 0x7030c0; 0xf3b0c0;
   0x3e7f0c0; 0x380f8c0; 0x10010c0; 0x0; 0x0; 0x0; 0x0; 0x202000;
   0x0; 0x0; 0x0; 0x30; 0x3ffcf8; 0x7ffdc0; 0x318080; 0xf18c1c;
   0xf18c7c; 0x1f1ce70; 0x3b0c680; 0x330e7c0; 0x33062e0; 0x1307070; 0x3e3c38; 0x1f1c1c;
   0x6008; 0x6000; 0x3fffffc; 0x3fffffc; 0x1f800; 0x7fe00; 0xe6700; 0x3c63c0;
   0xf861e0; 0x7f0607c; 0x380603c; 0x6000; 0x0; 0x0; 0x0; 0x0;
   0x202000; 0x0; 0x0; 0x0; 0x1000060; 0x3e0fc60; 0x1fffc60; 0x3fe060;
   0x316060; 0x3073fc; 0x3033fc; 0x303860; 0x301870; 0x3fef8f0; 0x3fefff0; 0x30c5f8;
   0x30c378; 0x30ef78; 0x306d7c; 0x306c6c; 0x307c6e; 0x3ff7866; 0x3ff7864; 0x3060;
   0x7860; 0x1f860; 0x7ffde60; 0x3ff0f60; 0x1500660; 0x0; 0x0; 0x0;
   0x0; 0x202000; 0x0; 0x0; 0x0; 0xe060; 0xe060; 0x6060;
   0x3ffe060; 0x3fff060; 0x3860; 0x1bfc; 0x1fffffc; 0x1fffc60; 0x18260e0; 0x1c770f0;
   0x18e31f0; 0x1dc71f0; 0x3ffff78; 0x7ffff78; 0xc33068; 0x1c7306c; 0xce306c; 0xcc3864;
   0x3fff864; 0x3fff860; 0xc00060; 0xe00060; 0xfc0060; 0x7c0060; 0x0; 0x0;
   0x0; 0x0; 0x202000; 0x0; 0x0; 0x0; 0x6060; 0x6060;
   0x3f86060; 0x3f86060; 0x31bfc60; 0x39bfffc; 0x19863fc; 0x1986060; 0x1d86070; 0xd860f0;
   0xdbfcf0; 0xdbfdf0; 0x19861f8; 0x3986378; 0x3186178; 0x31bfe6c; 0x71bfe6c; 0x31aea6e;
   0x3187064; 0x3f83060; 0x1d83860; 0x183860; 0x181c60; 0x180e60; 0x180460; 0x0;
   0x0; 0x0; 0x0; 0x202000; 0x0; 0x0; 0x0; 0xc0060;
   0xe0060; 0x1f0060; 0x3b8060; 0x71c060; 0x1e0f3fc; 0x7c07ffc; 0x3801ae8; 0xffe070;
   0xffe0e0; 0xe01f0; 0xe03f0; 0xe0370; 0x3fffb78; 0x3fffa78; 0xe006c; 0x4e606c;
   0xee706e; 0x1ce3064; 0x18e3860; 0x38e1c60; 0x30e0c60; 0x10e0860; 0xfc060; 0x7c060;
   0x0; 0x0; 0x0; 0x0; 0x202000; 0x0; 0x0; 0x0;
   0xc00c0; 0xce0c0; 0xc60c0; 0xc60c0; 0x1fff0c0; 0x1fff7fc; 0x15d77fc; 0xc32e8;
   0xc38e0; 0xc19e0; 0x7fff9f0; 0x3fffbf0; 0x7fffff0; 0x6d8; 0x15552d8; 0x1ffe0d8;
   0x1fff0cc; 0x18060ce; 0x1c070c4; 0x18060c0; 0x1c070c0; 0x18060c0; 0x1fff0c0; 0x1ffe0c0;
   0x1c070c0; 0x0; 0x0; 0x0; 0x0; 0x202000; 0x0; 0x0;
   0x0; 0x700e0; 0x600e0; 0xe00e0; 0x3fff8e0; 0x3fff8e0; 0xaaaffc; 0x60e7fc;
   0x60c2e8; 0x71c0e0; 0x31c0e0; 0x57dd5f0; 0x3fffbf0; 0x7fffff0; 0xe02f8; 0xe02f8;
   0xe00e8; 0x3fff8ec; 0x3fff8ee; 0x15f50e4; 0xe00e0; 0xe00e0; 0xe00e0; 0xe00e0;
   0xe00e0; 0xe00e0; 0x0; 0x0; 0x0; 0x0; 0x202000; 0x0;
   0x0; 0x0; 0xc0; 0xc0; 0x3fffcc0; 0x3fffcc0; 0x600c0; 0x607fc;
   0x3fffffc; 0x3fffae8; 0x38618e0; 0x38619e0; 0x3fff9f0; 0x3fffbf0; 0x3861ff0; 0x3861ed8;
   0x3fffad8; 0x3fff8d8; 0x718cc; 0x738ce; 0x770c4; 0x3e0c0; 0x1c0c0; 0xfe0c0;
   0x17f7cc0; 0x3f83fc0; 0x3c007c0; 0x0; 0x0; 0x0; 0x0; 0x202000;
   0x0; 0x0; 0x0; 0xc0; 0xfff0c0; 0x1fff0c0; 0xc030c0; 0x1c070c0;
   0xc037fc; 0x1c077fc; 0xc032e8; 0x1fff0e0; 0xfff1e0; 0x15551e0; 0x3f0; 0x7f0;
   0xaaaef8; 0x1fffad8; 0x1aab8d8; 0x18038dc; 0x18038ce; 0x18038c4; 0x18038c0; 0x18038c0;
   0x1fff8c0; 0x1fff8c0; 0x1aab8c0; 0x18038c0; 0x0; 0x0; 0x0; 0x0].
Definition hanzi_data_198 : list N :=
  [0x202000; 0x0; 0x0; 0x0; 0xe00c0; 0x30e38c0; 0x38e38c0; 0x18e70c0;
   0x1ce70c0; 0xeee7fc; 0x4e47fc; 0xe02e8; 0x1fff0e0; 0x1fff1e0; 0x18031f0; 0x18033f0;
   0x1fff7f0; 0x1fff6f8; 0x1d572d8; 0x18030d8; 0x18030dc; 0x1fff0ce; 0x1fff0c4; 0x18030c0;
   0x18030c0; 0x18030c0; 0x1d030c0; 0x1f830c0; 0xf030c0; 0x0; 0x0; 0x0;
   0x0; 0x202000; 0x0; 0x0; 0x0; 0x600c0; 0x38618c0; 0x38618c0;
   0x38618c0; 0x38618c0; 0x3aeb8c0; 0x3fffffc; 0x2aeaffc; 0x700e0; 0xf01e0; 0x3fc3e0;
   0xf2e7e0; 0x1e77ef0; 0x78e3ef0; 0x31c1cd8; 0x400d8; 0x1fff8dc; 0xfff8cc; 0x6000cc;
   0x7000c4; 0x3000c0; 0x3800c0; 0x1c00c0; 0xe00c0; 0xc00c0; 0x0; 0x0;
   0x0; 0x0; 0x202000; 0x0; 0x0; 0x0; 0x1c0180; 0xc0180;
   0x1c0180; 0x3ffdffc; 0x3ffdffc; 0x3e03e0; 0x7f07e0; 0xef9db0; 0x1ddddb8; 0x38ce19e;
   0x31c418c; 0xc3180; 0x3c00; 0x3ffe00; 0x7fff00; 0x3803c0; 0x1c05f0; 0xe0f38;
   0xf3c10; 0x3f800; 0x1f000; 0x7e00; 0x1ff0; 0x3f8; 0x78; 0x0;
   0x0; 0x0; 0x0; 0x202000; 0x0; 0x0; 0x0; 0xe0;
   0x3fff8e0; 0x3fffce0; 0x380e0; 0x380e0; 0x187fc; 0xfffffc; 0xfffae8; 0xc1c0e0;
   0xc1c1e0; 0xc1c1f0; 0x2eaebf0; 0x7fffff0; 0x2aaa8f8; 0xf8; 0xaaa0ec; 0x1fff0ec;
   0xeab0ee; 0x1c030e4; 0xc030e0; 0x1c030e0; 0xc030e0; 0x1fff0e0; 0xfff0e0; 0x1c030e0;
   0x0; 0x0; 0x0; 0x0; 0x202000; 0x0; 0x0; 0x0;
   0x1c01c00; 0x1863ff8; 0x1c717fc; 0x1860300; 0x1c70300; 0x1867ffc; 0x1c77ffc; 0x18607c0;
   0x1c71fe0; 0x1863f60; 0x1c73338; 0x180231c; 0x1fc030c; 0xf86300; 0x6000; 0x2aaeaa8;
   0x3fffffc; 0x3fffffc; 0x7fc00; 0xf6f00; 0x1e67c0; 0xf861e0; 0x7f0607c; 0x380603c;
   0x6000; 0x0; 0x0; 0x0; 0x0; 0x202000; 0x0; 0x0;
   0x0; 0x700e0; 0x380e0; 0x39c0e0; 0x70c0e0; 0xe0f0e0; 0x1fffbfc; 0x3fffffc;
   0x1003ae8; 0x79c0e0; 0xe0e0e0; 0x1c071f0; 0x3813bf0; 0x3039ff0; 0x18af8; 0x1ffc2f8;
   0xffe0ec; 0xe078ec; 0x70fcee; 0x39dce4; 0x1f80e0; 0x1f00e0; 0x3f80e0; 0x1f9fce0;
   0x3e07ee0; 0x3001ce0; 0x0; 0x0; 0x0; 0x0; 0x202000; 0x0;
   0x0; 0x0; 0xc060c0; 0xe0e0c0; 0x60c0c0; 0x70c0c0; 0x1fff8c0; 0x1fffffc;
   0x1d757fc; 0x18602e8; 0x18600e0; 0x1aea1e0; 0x1fff1f0; 0xaeb3f0; 0x637f0; 0x63ed8;
   0x3fffad8; 0x3fff8d8; 0x30700cc; 0x30780ce; 0x307c0c4; 0x386e0c0; 0x3f670c0; 0x1e63cc0;
   0x1e61cc0; 0x600c0; 0x600c0; 0x0; 0x0; 0x0; 0x0; 0x202000;
   0x0; 0x0; 0x0; 0x1c0060; 0xf80060; 0x1dc0060; 0x1980060; 0x11c0060;
   0x3fffc60; 0x3fffffc; 0x1803fc; 0x19b060; 0x319b0e0; 0x319b1f0; 0x399b3f0; 0x199b370;
   0x1bfff78; 0x1fffc78; 0xf9b078; 0xf1b07c; 0x71b86e; 0x719864; 0x2719864; 0x7799c60;
   0x27d8c60; 0x3ef0e60; 0x3c70460; 0x1c30060; 0x0; 0x0; 0x0; 0x0;
   0x202000; 0x0; 0x0; 0x0; 0x70060; 0x60060; 0x60060; 0x2aea860;
   0x3fffc60; 0x2ababfc; 0x71c3fc; 0x60e2e8; 0xe070e0; 0x1feb8e0; 0x1fffdf0; 0x382fbf0;
   0x1000370; 0x663278; 0x67707c; 0x66306c; 0x67706c; 0x66306e; 0x673064; 0x2663060;
   0x6673860; 0x2661860; 0x7671c60; 0x3e60f60; 0x1c00660; 0x0; 0x0; 0x0;
   0x0; 0x202000; 0x0; 0x0; 0x0; 0x1000060; 0x3e07e60; 0x1ff7e60;
   0x3f6a60; 0x717060; 0x3031fc; 0x7039fc; 0x3318e8; 0x731c70; 0x3f37c70; 0x3f37ef0;
   0x3362f8; 0x7361f8; 0x3365f8; 0x73777c; 0x332c6c; 0x737c6e; 0x333866; 0x3ff3864;
   0x3ff3860; 0x7c60; 0x3ec60; 0x7ffcf60; 0x3fe0760; 0x260; 0x0; 0x0;
   0x0; 0x0; 0x202000; 0x0; 0x0; 0x0; 0x1c0180; 0xc0180;
   0x1c0180; 0x3ffdffc; 0x3ffdffc; 0x3e03c0; 0x7f07e0; 0xef8ff0; 0x1ddddb8; 0x38ce99c;
   0x31c419c; 0xc0180; 0xfff80; 0xfff80; 0xfff80; 0xc0380; 0xc1d80; 0xc3d80;
   0xc7180; 0x20ce1c0; 0x70dc1c0; 0x30c80e0; 0x3fc0078; 0x3fc003c; 0x1f8001c; 0x0;
   0x0; 0x0; 0x0; 0x202000; 0x0; 0x0; 0x0; 0x70060;
   0x30060; 0x70060; 0x3fff860; 0x3fff860; 0x303fc; 0x15753fc; 0x1fffae8; 0x1fff860;
   0x180e0; 0x7fffdf0; 0x3fffdf0; 0x555d7f0; 0xc0c378; 0x1d5c178; 0x3ffe06c; 0x7ffe06c;
   0xc3706e; 0xc73064; 0xc63860; 0xce1c60; 0xc40e60; 0xc00460; 0xfc0060; 0x7c0060;
   0x0; 0x0; 0x0; 0x0; 0x202000; 0x0; 0x0; 0x0;
   0x600e0; 0x600e0; 0x600e0; 0x600e0; 0x3fff8e0; 0x3fffbfc; 0x607fc; 0x602e8;
   0x600e0; 0x600e0; 0x3fff9f0; 0x3fffbf0; 0x303f0; 0x702f8; 0x1ec2fc; 0x9cc8ec;
   0x1d8d8ee; 0x180d8ee; 0x190d8e4; 0x3a0d8e0; 0x370cce0; 0x330cee0; 0x13fc4e0; 0x3f80e0;
   0xe0; 0x0; 0x0; 0x0; 0x0; 0x202000; 0x0; 0x0;
   0x0; 0x600e0; 0x600e0; 0x600e0; 0x1fff8e0; 0x1fff8e0; 0x603fc; 0xc637fc;
   0xc622e8; 0xc660e0; 0x6660e0; 0x76c1f0; 0x2643f0; 0x3fffbf0; 0x3fffaf8; 0x1f02f8;
   0x1f80e8; 0x3fc0ec; 0x76e0ee; 0xe670e4; 0x1c638e0; 0x3c61ce0; 0x3860ce0; 0x10604e0;
   0x600e0; 0x600e0; 0x0; 0x0; 0x0; 0x0; 0x202000; 0x0;
   0x0; 0x0; 0x1c0060; 0xc0860; 0x15d4c60; 0x3ffd860; 0x3ffd860; 0x631fc;
   0x3731fc; 0x330060; 0x330070; 0x1ffbc70; 0x1ffbcf0; 0x30b0f8; 0x3031f8; 0x303378;
   0x3ffb37c; 0x3ffb06c; 0x175306e; 0x303066; 0x303064; 0x303060; 0x307860; 0xfc60;
   0x7ffce60; 0x3ff0660; 0x500460; 0x0; 0x0; 0x0; 0x0; 0x202000;
   0x0; 0x0; 0x0; 0x60060; 0x70060; 0x70060; 0xf8060; 0x1dc060;
   0x38e3fc; 0x7073fc; 0x1e03860; 0x7fffce0; 0x3bfeee0; 0x21545f0; 0x3f0; 0x1831370].
Definition hanzi_data_199 : list N :=
  [0x1821b78; 0x1c7307c; 0xc6306c; 0xe6306c; 0x66306e; 0x767064; 0x302060; 0x300060;
   0x180060; 0x3fffc60; 0x3fffc60; 0x60; 0x0; 0x0; 0x0; 0x0;
   0x202000; 0x0; 0x0; 0x0; 0xc060c0; 0xc0e0c0; 0xe0c0c0; 0x61c0c0;
   0x71c0c0; 0xbaa7fc; 0x1fff7fc; 0x1aab2e8; 0x1c030e0; 0x18030e0; 0x1c031f0; 0x18033f0;
   0x1fff7f0; 0x1fff6f8; 0x1fff2d8; 0x1980d8; 0x19c0cc; 0x18c0ce; 0x18c0c4; 0x118e0c0;
   0x71870c0; 0x31870c0; 0x3f83cc0; 0x3f81ec0; 0x1f004c0; 0x0; 0x0; 0x0;
   0x0; 0x202000; 0x0; 0x0; 0x0; 0xe0; 0x1fff8e0; 0x1fff8e0;
   0x18000e0; 0x18000e0; 0x1fff7fc; 0x1fff7fc; 0x18002e8; 0x18000e0; 0x1fff8e0; 0x1fff9f0;
   0x203f0; 0x607f0; 0x18622f8; 0x1c672f8; 0xc630f8; 0xc738ec; 0xef18ee; 0x6f1ce4;
   0x1f80e0; 0x39c0e0; 0x70e0e0; 0x1f078e0; 0x3c03ee0; 0x1001ce0; 0x0; 0x0;
   0x0; 0x0; 0x202000; 0x0; 0x0; 0x0; 0xe00c0; 0x600c0;
   0x15750c0; 0x1fff0c0; 0x1d570c0; 0x18030c0; 0x1fff7fc; 0x1fff7fc; 0x18070e0; 0x18030e0;
   0x1fff1e0; 0x1fff3e0; 0xe07f0; 0xe0ef0; 0x3fffcd8; 0x3fff8d8; 0x38e38dc; 0x38e38cc;
   0x38e38cc; 0x38e38c4; 0x38e38c0; 0x3ee38c0; 0x1ee38c0; 0xe00c0; 0xe00c0; 0x0;
   0x0; 0x0; 0x0; 0x202000; 0x0; 0x0; 0x0; 0xe0c0e0;
   0xe0c0e0; 0xe0c0e0; 0xe0c0e0; 0x3fff8e0; 0x3fffffc; 0xe0c7fc; 0xe0c2e8; 0xffc0e0;
   0xffc0e0; 0xe0c1f0; 0xe0c3f0; 0xffc7f0; 0xffc6f8; 0xe0c2f8; 0xe0c0ec; 0x7fffcec;
   0x3fffcee; 0x55554e4; 0x3180e0; 0xf1c0e0; 0x1e0e0e0; 0x3c078e0; 0x3803ce0; 0x30018e0;
   0x0; 0x0; 0x0; 0x0; 0x202000; 0x0; 0x0; 0x0;
   0xe0; 0x1fff8e0; 0x1fff8e0; 0x18038e0; 0x1c038e0; 0x1fff8e0; 0x1fffffc; 0x1803ffc;
   0x1c038e0; 0x1aab8e0; 0x1fff9f0; 0xaaabf0; 0x1c3ff0; 0x183ef8; 0x11c38f8; 0x3dbf8ec;
   0x1fff8ec; 0x3ab8ee; 0x1c38e4; 0x1838e0; 0x71c38e0; 0x31a38e0; 0x35ff8e0; 0x3f9f8e0;
   0x1f018e0; 0x0; 0x0; 0x0; 0x0; 0x202000; 0x0; 0x0;
   0x0; 0x30c00; 0x30c00; 0x3ff0ffc; 0x3ff0ffc; 0x30c00; 0x30c00; 0x1ff0ff8;
   0x1ff0ff8; 0x30c00; 0x30c00; 0x3ff0ffc; 0x3ff0ffc; 0x30c00; 0x36c00; 0x6000;
   0x3fffffc; 0x3fffffc; 0x3fc00; 0x7fe00; 0xe6700; 0x3c63c0; 0xf860f0; 0x7e0607e;
   0x380601c; 0x6000; 0x0; 0x0; 0x0; 0x0; 0x202000; 0x0;
   0x0; 0x0; 0xe0060; 0xe0060; 0x1fff860; 0x1fff860; 0x70060; 0x30060;
   0x1fffbfc; 0xfffbfc; 0x180e0; 0x2aba8e0; 0x3fffdf0; 0x2baebf0; 0x666370; 0xe67278;
   0x1fffc78; 0x3bffe78; 0x3174c7c; 0x6006c; 0x575064; 0xfff864; 0x1fff860; 0x60060;
   0x60060; 0x60060; 0x60060; 0x0; 0x0; 0x0; 0x0; 0x202000;
   0x0; 0x0; 0x0; 0x600e0; 0x600e0; 0xe00e0; 0x3fff8e0; 0x3fff8e0;
   0xe063fc; 0x60e7fc; 0x60c2e8; 0x70c0e0; 0x3080e0; 0x57555f0; 0x3fffbf0; 0x7fffff0;
   0x2f8; 0x2f8; 0xffe0ec; 0x1ffe0ec; 0xc060ee; 0x1c060e4; 0xc060e0; 0x1c060e0;
   0xc060e0; 0x1ffe0e0; 0xffe0e0; 0x1c060e0; 0x0; 0x0; 0x0; 0x0;
   0x202000; 0x0; 0x0; 0x0; 0x70060; 0x60060; 0x60060; 0x2aea860;
   0x3fffc60; 0x3aabbfc; 0x3001ffc; 0x3001ae8; 0xfff060; 0xffe0e0; 0x1f0; 0x1f0;
   0x370; 0x3fffb78; 0x3fffd7c; 0xe006c; 0x4e006c; 0xee606e; 0xce7064; 0x1ce3860;
   0x38e1c60; 0x38e0e60; 0x30e0c60; 0xfc060; 0x78060; 0x0; 0x0; 0x0;
   0x0; 0x202000; 0x0; 0x0; 0x0; 0x1c01c0; 0x180180; 0x1c01c0;
   0x3ffdffc; 0x3ffdffc; 0x180180; 0x1c01c0; 0x3ffdffc; 0x3ffdffc; 0x398d98c; 0x39dd9dc;
   0x398d98c; 0x39dd9dc; 0x398df8c; 0x1dddddc; 0x3c81c8; 0x7e07e0; 0x7f0fe0; 0xff1df0;
   0x1d9b9b8; 0x3ddd1dc; 0x798f18e; 0x31c71cc; 0x180180; 0x1c01c0; 0x0; 0x0;
   0x0; 0x0; 0x202000; 0x0; 0x0; 0x0; 0x60; 0x3f9fc60;
   0x3fdfc60; 0x3898c60; 0x39d8c60; 0x3898ffc; 0x39d8ffc; 0x3f9fce8; 0x3fdfc70; 0x3898cf0;
   0x39d8cf0; 0x3898df0; 0x39d8df8; 0x3898f78; 0x3fdfd78; 0x3fdfc6c; 0x38d8c6c; 0x38d8c6e;
   0x38d8c64; 0x38d8660; 0x38d8660; 0x38f8660; 0x3878760; 0x3e7f3e0; 0x1e4f160; 0x0;
   0x0; 0x0; 0x0; 0x202000; 0x0; 0x0; 0x0; 0x706040;
   0x7060e0; 0x3861c0; 0x186180; 0x3fffff8; 0x3fffff8; 0x3800018; 0x38aaa98; 0x39fffd8;
   0x39aab98; 0x1801c0; 0x180180; 0x1fffc0; 0x1fff80; 0x6000; 0x6000; 0x3fffffc;
   0x3fffffc; 0x1fc00; 0x7ee00; 0x1f67c0; 0xfc63e0; 0x7f060fe; 0x380603c; 0x6000;
   0x0; 0x0; 0x0; 0x0; 0x202000; 0x0; 0x0; 0x0;
   0x700e0; 0x600e0; 0x700e0; 0xfff8e0; 0x1fff8e0; 0xc603fc; 0x1c707fc; 0x3fffee8;
   0x7fffce0; 0xc600e0; 0x1c701f0; 0xfffbf0; 0x1fffbf0; 0x603f8; 0x1c71cf8; 0x1c638ec;
   0xff70ec; 0x3fe0ee; 0x3fc0e4; 0x76f0e0; 0x1e77ce0; 0x3c60ee0; 0x30704e0; 0x3c0e0;
   0x3c0e0; 0x0; 0x0; 0x0; 0x0; 0x202000; 0x0; 0x0;
   0x0; 0x71c0e0; 0x30c0e0; 0x71c0e0; 0x2bae8e0; 0x3fff8e0; 0x3fffbfc; 0x71c7fc;
   0x30c2e8; 0x71c0e0; 0x3fff8e0; 0x3fffdf0; 0x3f0; 0x7f0; 0xffe2f8; 0x1fff2fc;
   0xc060ec; 0x1c070ee; 0xffe0ee; 0x1fff0e4; 0xc060e0; 0x1c070e0; 0xc060e0; 0x1fff0e0;
   0xffe0e0; 0x1c070e0; 0x0; 0x0; 0x0; 0x0; 0x202000; 0x0;
   0x0; 0x0; 0x601c0; 0x60380; 0x70300; 0x3ff1ff0; 0x3ff9ff0; 0xc19830;
   0xe1d830; 0x66f838; 0x7f5ff0; 0x3c1ff8; 0x7c0018; 0xef8018; 0x1c7c01c; 0x80e00e;
   0x600c; 0x2aaeaa8; 0x3fffffc; 0x2abfaa8; 0x7fe00; 0xf6f00; 0x3c67c0; 0xf861f0;
   0x7e0607e; 0x380601c; 0x6000; 0x0; 0x0; 0x0; 0x0; 0x202000].
Definition hanzi_data_200 : list N :=
  [0x0; 0x0; 0x0; 0x600e0; 0xe00e0; 0x18660e0; 0x1c660e0; 0xc670e0;
   0x6630e0; 0x6737fc; 0x1f07fc; 0x7f80e0; 0xf1c0e0; 0x3c1f1f0; 0x38679f0; 0x10613f0;
   0x8603f8; 0x18666f8; 0x1c662f8; 0xc630ec; 0xee38ee; 0x6f1ce4; 0x1f80e4; 0x39c0e0;
   0x78e0e0; 0x1f0f8e0; 0x3c03ce0; 0x3001ce0; 0x0; 0x0; 0x0; 0x0;
   0x202000; 0x0; 0x0; 0x0; 0xdc00e0; 0x1d800e0; 0x39c00e0; 0x31800e0;
   0x7fffce0; 0x3fffce0; 0x1c03fc; 0x1803fc; 0x11bfce0; 0x39bf8e0; 0x39b1cf0; 0x19b09f0;
   0x1db1ff0; 0xdb0bf8; 0xdb1ff8; 0xfbf8f8; 0x73fcec; 0x7000ee; 0x3300e4; 0x23be0e4;
   0x67dfee0; 0x66e3ee0; 0x7e704e0; 0x3c380e0; 0x3c100e0; 0x0; 0x0; 0x0;
   0x0; 0x202000; 0x0; 0x0; 0x0; 0x60060; 0xc61860; 0xe73860;
   0x673060; 0x777060; 0xaba9fc; 0x1fff9fc; 0xaba8e8; 0x18070; 0x18070; 0x3fffcf0;
   0x3fffcf8; 0x7071f8; 0xe07378; 0x1fffd7c; 0x3bffe6c; 0x3306f6e; 0x306066; 0x346064;
   0x3e6060; 0x1946060; 0x1806060; 0x1d56060; 0xffe060; 0x7fc060; 0x0; 0x0;
   0x0; 0x0; 0x202000; 0x0; 0x0; 0x0; 0x6000; 0x6000;
   0x6000; 0x1fffff8; 0x1fffff8; 0x3fc00; 0x76e00; 0xe6700; 0x7c63c0; 0x1f860f8;
   0x1e0607c; 0x18c6188; 0x1c01c0; 0xc0180; 0x3ffdffc; 0x3ffdffc; 0x3e01c0; 0x3f03e0;
   0x7f0ff0; 0xcd9db8; 0x1ddcddc; 0x38ce18e; 0x71c71cc; 0x20c2180; 0x1c01c0; 0x0;
   0x0; 0x0; 0x0; 0x202000; 0x0; 0x0; 0x0; 0x400060;
   0xff8060; 0xfff860; 0x6b860; 0x60060; 0x60060; 0x3fffffc; 0x3fffffc; 0x1f77470;
   0xe630f0; 0xe670f0; 0x2eeb9f0; 0x3fffdf0; 0x3ffff78; 0xe67378; 0xe63068; 0x1f7746c;
   0x3fffc6e; 0x3fffc64; 0x60064; 0x60060; 0x60060; 0x1fff860; 0x1fff860; 0x60;
   0x0; 0x0; 0x0; 0x0; 0x202000; 0x0; 0x0; 0x0;
   0x60060; 0x60060; 0x60060; 0x1fff860; 0x1fff860; 0x603fc; 0x603fc; 0x2aeaae8;
   0x3fffce0; 0x2aaa8e0; 0x71c1f0; 0x1e0f3f0; 0x7c37f70; 0x3039f78; 0xffc378; 0xffe06c;
   0x60f06c; 0x70fc6e; 0x39dc64; 0x1f8060; 0xf0060; 0x3f8060; 0x1f9f860; 0x3e07e60;
   0x3001c60; 0x0; 0x0; 0x0; 0x0; 0x202000; 0x0; 0x0;
   0x0; 0xc0; 0x1fff0c0; 0x1fff0c0; 0x18630c0; 0x1c630c0; 0x18637fc; 0x1fff7fc;
   0x1aeb2e8; 0x1c630e0; 0x18631e0; 0x1fff1f0; 0x1fff3f0; 0x607f0; 0x606d8; 0x3fffed8;
   0x3fff8d8; 0x1f00cc; 0x3f80ce; 0x77c0c4; 0xe6e0c0; 0x1c670c0; 0x38638c0; 0x3061cc0;
   0x608c0; 0x600c0; 0x0; 0x0; 0x0; 0x0; 0x202000; 0x0;
   0x0; 0x0; 0x600c0; 0x600c0; 0x3fe00c0; 0x3fe00c0; 0x15600c0; 0x607fc;
   0x1fff7fc; 0x1fffae8; 0x1d578e0; 0x18039e0; 0x1fff9f0; 0x1fffbf0; 0x1d57ff0; 0x1803ed8;
   0x1fff8d8; 0x1fff8dc; 0x15750cc; 0x600ce; 0x7fffcc4; 0x3fffcc0; 0x55754c0; 0x600c0;
   0x600c0; 0x600c0; 0x600c0; 0x0; 0x0; 0x0; 0x0; 0x202000;
   0x0; 0x0; 0x0; 0x700c0; 0xe00c0; 0xe00c0; 0x3fff8c0; 0x3fff8c0;
   0x3003ffc; 0x3003ffc; 0x3fffae8; 0xffe0e0; 0xe061e0; 0xe061e0; 0xe063e0; 0xffe7f0;
   0xffe6f0; 0x66d8; 0x60d8; 0x1ffe0dc; 0x1ffe0ce; 0x1c060c4; 0x18060c0; 0x1c060c0;
   0x18060c0; 0x1ffe0c0; 0x1ffe0c0; 0x1c060c0; 0x0; 0x0; 0x0; 0x0;
   0x202000; 0x0; 0x0; 0x0; 0xe0700; 0xe0300; 0x3fffffc; 0x3fffffc;
   0xe0700; 0xa0200; 0xe0e00; 0x3e0700; 0x7803c0; 0x1fffff8; 0x1dffff8; 0x181800;
   0x181c00; 0x1c8f00; 0x1f63f0; 0x260e0; 0x1557554; 0x3fffffc; 0x155fd54; 0x7ee00;
   0x1e6780; 0x7c63e0; 0x7f060fc; 0x3c0603c; 0x1006004; 0x0; 0x0; 0x0;
   0x0; 0x202000; 0x0; 0x0; 0x0; 0x1c01c0; 0xc0180; 0x1c01c0;
   0x3ffdffc; 0x3ffdffc; 0x3e03e0; 0x7f07f0; 0xef9fb0; 0x1ddcdfc; 0x38ce18e; 0x11c61cc;
   0xe0580; 0x70e00; 0xe0780; 0x3c03c0; 0xf800f8; 0x7fffffe; 0x39fffcc; 0x1d5d40;
   0x180c00; 0x1c0e00; 0x180780; 0x1c03e0; 0xfc0f8; 0xfc070; 0x0; 0x0;
   0x0; 0x0; 0x202000; 0x0; 0x0; 0x0; 0x1c0180; 0x180180;
   0x1c0180; 0x3ffdffc; 0x3ffdffc; 0x3e03c0; 0x7f07e0; 0xfb9db0; 0x1ddf9bc; 0x198f18c;
   0x1cfd84; 0x3de00; 0xf9f80; 0x3e3be0; 0x7f871fc; 0x3e0e03e; 0x13fffec; 0x7fffe0;
   0x3d5540; 0x1c0000; 0xe0000; 0x70000; 0x78000; 0x3c000; 0x18000; 0x0;
   0x0; 0x0; 0x0; 0x202000; 0x0; 0x0; 0x0; 0x700c0;
   0x600c0; 0x15f50c0; 0x3fff8c0; 0x3fffcc0; 0x3001bfc; 0x3007ffc; 0x2002ae8; 0x1fd70e0;
   0x1fbf0e0; 0x19f71f0; 0x18b3bf0; 0x19f1ff0; 0x18b9ad8; 0x19dbed8; 0x189f8cc; 0x1dde0cc;
   0x1e880ce; 0x5cc0c4; 0x8e0c0; 0x31c60c0; 0x30830c0; 0x31c38c0; 0x3f81cc0; 0x1f00cc0;
   0x0; 0x0; 0x0; 0x0; 0x202000; 0x0; 0x0; 0x0;
   0x700e0; 0x600e0; 0x3fffce0; 0x3fffce0; 0x15554e0; 0x3fc; 0x1fff7fc; 0xeab2e8;
   0x1c030e0; 0xc030e0; 0x1fff1f0; 0xfff3f0; 0x3f0; 0xfffbf8; 0x1fffaf8; 0x7800fc;
   0x1e00ec; 0x600ee; 0x3fffce4; 0x3fffce0; 0x600e0; 0x600e0; 0x600e0; 0x7e0e0;
   0x7c0e0; 0x0; 0x0; 0x0; 0x0; 0x202000; 0x0; 0x0;
   0x0; 0xc00e0; 0xe00e0; 0x1fff0e0; 0x1fff0e0; 0x15750e0; 0xf03fc; 0x7f87fc;
   0xfbc2e8; 0x3e1f8e0; 0x18038e0; 0x7fffdf0; 0x3fffbf0; 0x1c007f0; 0xc002f8; 0x1cff2f8;
   0xceb0ec; 0x1cc70ec; 0xcc30ee; 0x1cff0e4; 0xcff0e0; 0x1c070e0; 0xc030e0; 0x1c000e0;
   0xfc00e0; 0xfc00e0; 0x0; 0x0; 0x0; 0x0; 0x202000; 0x0;
   0x0; 0x0; 0xe0; 0x1fff8e0; 0x1fff8e0; 0x18018e0; 0x18618e0; 0x1861bfc;
   0x1bfdffc; 0x1bfdae8; 0x18618e0; 0x18618e0; 0x1ffd9f0; 0x1bfdbf0; 0x1801bf0; 0x1801af8].
Definition hanzi_data_201 : list N :=
  [0x1bfdafc; 0x1bfd8ec; 0x1b0dcec; 0x1b0d8ee; 0x1b0dce4; 0x1bfcce0; 0x1bfcce0; 0x180cee0;
   0x1d007e0; 0x1f003e0; 0x1f003e0; 0x0; 0x0; 0x0; 0x0; 0x202000;
   0x0; 0x0; 0x0; 0x700e0; 0x600e0; 0xe00e0; 0x3fff8e0; 0x3fff8e0;
   0x3fc; 0x7fc; 0xfff2e8; 0x1fff0e0; 0xc031e0; 0x1c071f0; 0xc033f0; 0x1c077f0;
   0xfff2f8; 0x1fff2f8; 0xe00e8; 0x4e60ec; 0xee60ee; 0x1ce70e4; 0x18e38e0; 0x18e38e0;
   0x38e1ce0; 0x30f4ce0; 0x7c0e0; 0x7c0e0; 0x0; 0x0; 0x0; 0x0;
   0x202000; 0x0; 0x0; 0x0; 0x70060; 0x70060; 0x70060; 0x3fff860;
   0x3fffc60; 0x303fc; 0x383fc; 0xfff2e8; 0xfff060; 0xc030e0; 0xc031f0; 0xfff3f0;
   0xfff370; 0xc03378; 0xd5717c; 0xfff06c; 0xd5706c; 0xc0306e; 0xfff064; 0xfff060;
   0xc03060; 0xc03060; 0x7fffe60; 0x3fffe60; 0x60; 0x0; 0x0; 0x0;
   0x0; 0x202000; 0x0; 0x0; 0x0; 0x9c060; 0xcc060; 0x1cc060;
   0x38e060; 0x306060; 0x3fff3fc; 0x3fff7fc; 0x183ae8; 0x187c60; 0x183ee0; 0x1fffdf0;
   0x1fff1f0; 0x187370; 0x183378; 0x18717c; 0xbab06c; 0x1fff06c; 0xbab06e; 0x187064;
   0x183060; 0x187060; 0x3fff060; 0x3fff060; 0x3060; 0x7060; 0x0; 0x0;
   0x0; 0x0; 0x202000; 0x0; 0x0; 0x0; 0xe0; 0x3fff8e0;
   0x3fff8e0; 0x38038e0; 0x38038e0; 0x3803ffc; 0x3fffffc; 0x3fffae8; 0x1c38e0; 0xc38e0;
   0x1c39f0; 0x3fffbf0; 0x7fffff0; 0xc3af8; 0x1c38f8; 0xc38ec; 0x1ffd8ec; 0x1ffd8ee;
   0x180dce4; 0x180dce0; 0x180dce0; 0x180cce0; 0x1ffcee0; 0x1ffc6e0; 0x180c4e0; 0x0;
   0x0; 0x0; 0x0; 0x202000; 0x0; 0x0; 0x0; 0x700c0;
   0x300c0; 0x380c0; 0x1fff8c0; 0x1fff8c0; 0x1863ffc; 0x1863ffc; 0x1fffae8; 0x1fff8e0;
   0x18638e0; 0x18739f0; 0x1873bf0; 0x1fffff0; 0x1fffed8; 0x39c2d8; 0x38e0d8; 0x38f0cc;
   0x2baa8ce; 0x7fffcc4; 0x2baa8c0; 0x3800c0; 0x3800c0; 0x3800c0; 0x3800c0; 0x3800c0;
   0x0; 0x0; 0x0; 0x0; 0x202000; 0x0; 0x0; 0x0;
   0x5060; 0x3060; 0x1fe7060; 0x3fe3060; 0x35ff060; 0x30ff1fc; 0x30d71fc; 0x38c30e8;
   0x19c7070; 0x1983070; 0x19ffff0; 0x19bfef8; 0x1d871f8; 0xf823f8; 0xf1fd7c; 0x73ac6c;
   0x73766e; 0x732666; 0x767764; 0xfa2360; 0x1dc7360; 0x1ce2060; 0x3877c60; 0x303bc60;
   0x3010060; 0x0; 0x0; 0x0; 0x0; 0x202000; 0x0; 0x0;
   0x0; 0xe0; 0xe0; 0x3fff8e0; 0x3fff8e0; 0xe00e0; 0x703fc; 0x3c7fc;
   0x303e2e8; 0x7c778e0; 0x1e638e0; 0xff31f0; 0x7fb3f0; 0x7de3f0; 0xcce2f8; 0xdcfef8;
   0xded8ec; 0x1df00ec; 0x19b80ee; 0x399e0e4; 0x31878e0; 0x71c3ce0; 0x20c08e0; 0xfc0e0;
   0x7c0e0; 0x3c0e0; 0x0; 0x0; 0x0; 0x0; 0x202000; 0x0;
   0x0; 0x0; 0x60060; 0x60060; 0x1575060; 0x1fff860; 0x1fff860; 0x60060;
   0x15757fc; 0x3fffbfc; 0x1fffc60; 0x18820e0; 0x1ccf0f0; 0xcdc1f0; 0xd99f0; 0xc3b78;
   0xcf378; 0xe4068; 0x3fffc6c; 0x3fffc6c; 0x70064; 0x3b8064; 0x73c060; 0xe1e060;
   0x1c07860; 0x3803e60; 0x3001c60; 0x0; 0x0; 0x0; 0x0; 0x202000;
   0x0; 0x0; 0x0; 0x10001c0; 0x1f801c0; 0x1fffffc; 0x3bffc; 0x38770;
   0x38338; 0x3fffffc; 0x3fffff8; 0x638700; 0x618300; 0x61ffd0; 0x61bffc; 0x61c75c;
   0x60c300; 0x606700; 0x6000; 0x3fffffc; 0x3fffffc; 0x3fc00; 0xf6e00; 0x1e67c0;
   0xf861e0; 0x7f0607c; 0x380603c; 0x6000; 0x0; 0x0; 0x0; 0x0;
   0x202000; 0x0; 0x0; 0x0; 0xc0; 0x3fff8c0; 0x3fff8c0; 0x33338c0;
   0x33338c0; 0x3333ffc; 0x3333ffc; 0x3bbbae8; 0x3fff9e0; 0x2aba9e0; 0x183f0; 0x1c3f0;
   0x3ffc6f0; 0x1ffe6d8; 0x1c070d8; 0xe0b8d8; 0xe3dccc; 0x7708ce; 0x3e00c4; 0x1e00c0;
   0xf00c0; 0x3c0c0; 0x1f0c0; 0x7cc0; 0x18c0; 0x0; 0x0; 0x0;
   0x0; 0x202000; 0x0; 0x0; 0x0; 0x602060; 0x603060; 0x707060;
   0x30e060; 0x38c060; 0x2baabfc; 0x3fffffc; 0x2baeae8; 0x19c070; 0x18c0f0; 0x399ccf0;
   0x198cdf0; 0x199ddf8; 0x198db78; 0x1d9db7c; 0xd8f86c; 0xd9f06c; 0xf8f066; 0x79f064;
   0x18c060; 0x19c060; 0x18c060; 0x7ffff60; 0x3fffe60; 0x60; 0x0; 0x0;
   0x0; 0x0; 0x202000; 0x0; 0x0; 0x0; 0x300060; 0x38fc60;
   0x18fc60; 0x18cc60; 0x3ff4c60; 0x3ff6c60; 0xc6dfc; 0xe2dfc; 0x1563c70; 0x1fe3c70;
   0x1df6cf0; 0x18fecf0; 0x18dcdf8; 0x1fccff8; 0x1fccd7c; 0x18ccc6c; 0x18ccc6c; 0x1fcfc6e;
   0x1fc7c64; 0x18c0c64; 0x18c0c60; 0x18c0c60; 0x18c0c60; 0x1ec0c60; 0x1cc0c60; 0x0;
   0x0; 0x0; 0x0; 0x202000; 0x0; 0x0; 0x0; 0x60;
   0x3fbfe60; 0x3fbfe60; 0x3998c60; 0x1998c60; 0x1998dfc; 0x1d98dfc; 0xd9fce8; 0xd9fc70;
   0xd98cf0; 0xd98cf0; 0x1998df0; 0x199fdf8; 0x399ff78; 0x319dd78; 0x3198c6c; 0x3198c6c;
   0x31b8c6e; 0x3fffc64; 0x3dbff60; 0x599f60; 0x198060; 0x198060; 0x198060; 0x198060;
   0x0; 0x0; 0x0; 0x0; 0x202000; 0x0; 0x0; 0x0;
   0xc060; 0xfff060; 0xfe7c60; 0xce0c60; 0xce1c60; 0xce0ffc; 0xc6fffc; 0xc6fce8;
   0x5c6fc70; 0x3c70cf0; 0x7c39cf0; 0x10df0; 0x1fffdf8; 0x1ffff78; 0x1861d7c; 0x1860c6c;
   0x1cc1c6c; 0xccec66; 0xfdff64; 0x783f60; 0x781d60; 0xfc0c60; 0x1ff1c60; 0x3878c60;
   0x1011c60; 0x0; 0x0; 0x0; 0x0; 0x202000; 0x0; 0x0;
   0x0; 0xc1860; 0xc3860; 0xc3060; 0xe3060; 0x3ffff60; 0x3fefffc; 0x75dfc;
   0x230c70; 0x758c70; 0x3270c70; 0x3f6fcf0; 0x3f6fcf8; 0x37ecdf8; 0x32fcde8; 0x377cd6c;
   0x326cc6c; 0x376cc6e; 0x326ce66; 0x1f64664; 0x26e660; 0x6766660; 0x2066360; 0x7fe6360;
   0x3fc7be0; 0x1507960; 0x0; 0x0; 0x0; 0x0; 0x202000; 0x0].
Definition hanzi_data_202 : list N :=
  [0x0; 0x0; 0x607060; 0x603060; 0x607060; 0x3fffe60; 0x3fffe60; 0x6033fe;
   0x7573fe; 0x7ff2e8; 0x7570f0; 0x6030f0; 0x7ff1f0; 0x7ff378; 0x607378; 0x603078;
   0x7ffff7c; 0x3fffe6c; 0x131c6e; 0x331866; 0x719c64; 0xe1d860; 0xc0dc60; 0x401860;
   0x3fffc60; 0x3fff860; 0x60; 0x0; 0x0; 0x0; 0x0; 0x202000;
   0x0; 0x0; 0x0; 0x6060; 0x6060; 0xffe060; 0x7fe060; 0x607060;
   0x6ab3fc; 0x7ff3fc; 0x6002e8; 0x700070; 0x3fffef0; 0x7fffef0; 0x381f8; 0x181f3f8;
   0x3e3bf78; 0xf71f7c; 0x3fc06c; 0x6ef066; 0x6e3e66; 0xef1c66; 0xcfc060; 0x1ccf060;
   0x38c3c60; 0x70e1f60; 0x20fc260; 0x7c060; 0x0; 0x0; 0x0; 0x0;
   0x202000; 0x0; 0x0; 0x0; 0xc0060; 0xe0060; 0x15f5060; 0x3fff860;
   0x1fff860; 0x60060; 0x1fffbfc; 0x1fffbfc; 0x30060; 0x380e0; 0x3fffdf0; 0x3fffdf0;
   0x70e3f0; 0xeae378; 0x1fff378; 0x3eaf868; 0x7e07e6c; 0x2606c6c; 0x7fe064; 0x6ae064;
   0x606060; 0x606060; 0x7fe060; 0x7fe060; 0x606060; 0x0; 0x0; 0x0;
   0x0; 0x202000; 0x0; 0x0; 0x0; 0x600e0; 0x600e0; 0x600e0;
   0x3fff8e0; 0x3fff8e0; 0x2bfa8e0; 0x3fc7fc; 0x76e7fc; 0xe670e0; 0x3c638e0; 0x7861df0;
   0x2aaabf0; 0xfff3f0; 0xeab7f8; 0xc036f8; 0xfff2f8; 0xfff0fc; 0xc030ee; 0xd570e4;
   0xfff0e4; 0x5550e0; 0xe0; 0x7fffce0; 0x3fffce0; 0xe0; 0x0; 0x0;
   0x0; 0x0; 0x202000; 0x0; 0x0; 0x0; 0xc0; 0x1fff8c0;
   0x1fff8c0; 0x18618c0; 0x18618c0; 0x1861ffc; 0x1fffffc; 0x1fffae8; 0x18618e0; 0x18618e0;
   0x18619f0; 0x1fffbf0; 0x1fffff0; 0x6f8; 0x742d8; 0x866cd8; 0x1ce6ccc; 0x19c6cce;
   0x18c6cc4; 0x3a066c0; 0x36066c0; 0x36066c0; 0x37fe7c0; 0x3fe0c0; 0xc0; 0x0;
   0x0; 0x0; 0x0; 0x202000; 0x0; 0x0; 0x0; 0x3060;
   0x2aa3060; 0x3fffc60; 0x3bbfc60; 0x3383060; 0x39833fc; 0x399fffc; 0x399fce8; 0x19c3070;
   0x18cbaf0; 0x18dfff0; 0x1ee31f0; 0x1e73378; 0x23378; 0x7017c; 0x3006c; 0x3fffe6c;
   0x3fffe66; 0x78064; 0xf8060; 0x1dc060; 0x38e060; 0x1f07c60; 0x3e03f60; 0x1800660;
   0x0; 0x0; 0x0; 0x0; 0x202000; 0x0; 0x0; 0x0;
   0x180060; 0x180060; 0x1ff7e60; 0x1ff7e60; 0x1987060; 0x19831fc; 0x7fff1fc; 0x3ff9860;
   0x1981c70; 0x1ba0cf0; 0x1ff7ef0; 0xba7ff0; 0x1861f8; 0x3ffe178; 0x3fff77c; 0x18366c;
   0x18366c; 0x3ffbc66; 0x3ffdc64; 0x181860; 0x187c60; 0x18fe60; 0x55fe760; 0x3ff87e0;
   0x3fc0360; 0x0; 0x0; 0x0; 0x0; 0x202000; 0x0; 0x0;
   0x0; 0x700060; 0x63fe60; 0x77fe60; 0x638060; 0x71dc60; 0x60f860; 0x3fe73fc;
   0x3fee3fc; 0x71c060; 0xf7fe60; 0xf7fef0; 0xfb70f0; 0x1fb71f0; 0x1eb7b78; 0x1fdfb78;
   0x3ec6868; 0x3767c6c; 0x7666e6e; 0x6777764; 0x2626364; 0x707360; 0x606060; 0x707060;
   0x607c60; 0x703c60; 0x0; 0x0; 0x0; 0x0; 0x202000; 0x0;
   0x0; 0x0; 0x1c0180; 0x180180; 0x1ffdffc; 0x3ffdffc; 0x1ffdffc; 0x3e07e0;
   0xff1ff0; 0x1db99b8; 0x39de19c; 0x318e18c; 0x1c4180; 0x0; 0x3fffffc; 0x1fffff8;
   0x1c06000; 0xc06180; 0xc061c0; 0x7fe0c0; 0x7fe1c0; 0x63e0; 0x6770; 0x6f70;
   0x7fffe3c; 0x3fff81e; 0x3ffc00c; 0x0; 0x0; 0x0; 0x0; 0x202000;
   0x0; 0x0; 0x0; 0x600e0; 0x600e0; 0x600e0; 0x3fff8e0; 0x3fffce0;
   0x603fc; 0x607fc; 0x1fffae8; 0x1fff8e0; 0x1a698e0; 0x1e6d9f0; 0x1b69bf0; 0x1b79ff0;
   0x1869af8; 0x1fffaf8; 0x1fff8ec; 0x1f80ec; 0x3f80ee; 0x77c0e4; 0xe6e0e0; 0x1c670e0;
   0x38638e0; 0x7061ce0; 0x20608e0; 0x600e0; 0x0; 0x0; 0x0; 0x0;
   0x202000; 0x0; 0x0; 0x0; 0x60; 0xaaa860; 0x1fff860; 0x1bbb860;
   0x1999860; 0x1999bfc; 0x1999bfc; 0x1fffae8; 0x1fff870; 0x700e0; 0x601f0; 0x3fffdf0;
   0x3fffdf0; 0xc378; 0x1c178; 0xaac06c; 0xffc06c; 0xeac06e; 0xc0e064; 0xc0e060;
   0xc07060; 0xe03860; 0xf43c60; 0x7e0e60; 0x7c0460; 0x0; 0x0; 0x0;
   0x0; 0x202000; 0x0; 0x0; 0x0; 0x60060; 0x60060; 0x60060;
   0x3fffc60; 0x7fffc60; 0x603fc; 0x703fc; 0x602e8; 0x3fffc70; 0x3fff8e0; 0x3b1ddf0;
   0x39999f0; 0x3999f78; 0x38c1b78; 0x3bfdd7c; 0x3ae986c; 0x3861c6c; 0x3aeb86e; 0x3fffc64;
   0x3861860; 0x3861c60; 0x3861860; 0x3861c60; 0x3e61860; 0x1e01c60; 0x0; 0x0;
   0x0; 0x0; 0x202000; 0x0; 0x0; 0x0; 0x60; 0x60;
   0x3fff860; 0x3fff860; 0x38e3860; 0x38e3bfc; 0x38e3ffc; 0x3fffae8; 0x3fff8e0; 0x38e0;
   0x15579f0; 0x3fffbf0; 0x3fffb70; 0x380fa78; 0x3fff878; 0x3fff86c; 0x381d86c; 0x380d86e;
   0x3ffd864; 0x3ffd860; 0x381dc60; 0x380cc60; 0x3ffce60; 0x3ffce60; 0x381c460; 0x0;
   0x0; 0x0; 0x0; 0x202000; 0x0; 0x0; 0x0; 0x700e0;
   0x600e0; 0x600e0; 0x3fff8e0; 0x3fffce0; 0x3801bfc; 0x3801ffc; 0x3fffae8; 0xfff0e0;
   0xe0; 0xfff1f0; 0xfff3f0; 0xc033f0; 0xc036f8; 0xfff6f8; 0xfff0ec; 0xc030ec;
   0xc030ee; 0xfff0e4; 0xfff0e0; 0xe0; 0xe0; 0x7fffce0; 0x3fffce0; 0xe0;
   0x0; 0x0; 0x0; 0x0; 0x202000; 0x0; 0x0; 0x0;
   0x6060; 0x6060; 0x3fff060; 0x3ffb060; 0x183060; 0x183860; 0x3ffbbfc; 0x3ffbbfc;
   0x319bc60; 0x319be60; 0x3ffbff0; 0x3bbbaf0; 0x319b9f0; 0x319bb78; 0x3ffbf78; 0x2baba68;
   0x19b86c; 0x1bb86e; 0x1f3864; 0xe3860; 0x1e3860; 0x3e3860; 0x1ffb860; 0x3e3f860;
   0x301f860; 0x0; 0x0; 0x0; 0x0; 0x202000; 0x0; 0x0;
   0x0; 0xc650e0; 0xe630e0; 0xe670e0; 0xe630e0; 0x7fffce0; 0x3fffce0; 0xe677fc;
   0xe633fc; 0xfe70e0; 0xfe30e0; 0x70f0; 0x3fff1f0; 0x3fff1f0; 0x603f8; 0x607f8].
Definition hanzi_data_203 : list N :=
  [0x2aeaaf8; 0x3fffcfc; 0x2bfa8ee; 0x1f80e4; 0x37c0e4; 0xf6f0e0; 0x1c678e0; 0x7c63ee0;
   0x3060ce0; 0x600e0; 0x0; 0x0; 0x0; 0x0; 0x202000; 0x0;
   0x0; 0x0; 0xc0; 0xffe0c0; 0x1fff0c0; 0xc020c0; 0x1c070c0; 0xeaa7fc;
   0x1fff7fc; 0xaaa2e8; 0xe0; 0x3fffde0; 0x3fffdf0; 0xc063f0; 0x1d577f0; 0xffe6f8;
   0x1d572d8; 0xc060d8; 0x1fff0cc; 0xffe0ce; 0x1c070c4; 0x2e060c0; 0x7fffcc0; 0xfffcc0;
   0x1c000c0; 0xc000c0; 0x1c000c0; 0x0; 0x0; 0x0; 0x0; 0x202000;
   0x0; 0x0; 0x0; 0x30060; 0x830060; 0x1830060; 0x1fff060; 0x1fff060;
   0xeba3fc; 0x7307fc; 0x3b02e8; 0x7fffce0; 0x3fff8e0; 0x7fffdf0; 0x783f0; 0x3c370;
   0xfff378; 0x1fffc7c; 0xc0fe6c; 0x1c0cc6c; 0xffc06e; 0x1ffc064; 0xc0c060; 0x1c0c060;
   0xc0c060; 0x1ffc060; 0xffc060; 0x1c0c060; 0x0; 0x0; 0x0; 0x0;
   0x202000; 0x0; 0x0; 0x0; 0x4000c0; 0xfa00c0; 0xfff0c0; 0x1bf0c0;
   0x1c30c0; 0x1837fc; 0x3fff7fc; 0x3fff2e8; 0x1c30e0; 0xc31e0; 0x1c31f0; 0x1fff3f0;
   0x1fff7f0; 0x180fef8; 0x1d5f4d8; 0x1fff8d8; 0x1d5f8dc; 0x180f8ce; 0x1ffd8c4; 0x1ffd8c0;
   0x181dcc0; 0x180dcc0; 0x1ffccc0; 0x1ffcec0; 0x181c4c0; 0x0; 0x0; 0x0;
   0x0; 0x202000; 0x0; 0x0; 0x0; 0x60060; 0x60060; 0x1575060;
   0x3fff860; 0x3fff860; 0x303fc; 0x1fffbfc; 0x1fffae8; 0x380e0; 0x180e0; 0x7fffdf0;
   0x3ffff70; 0x70e770; 0xfff278; 0x1fff87c; 0x3861e6c; 0x3060c6c; 0xfff06e; 0xfff064;
   0xb0060; 0x3f8060; 0xf9c060; 0x1e0f060; 0x3803c60; 0x1001c60; 0x0; 0x0;
   0x0; 0x0; 0x202000; 0x0; 0x0; 0x0; 0x1c3860; 0xc3860;
   0x11c3860; 0x38c3860; 0x1fff860; 0x7ffbfc; 0x1c3bfc; 0x20c3ae8; 0x71c3860; 0x30ff8e0;
   0x3fffdf0; 0x1fa3bf0; 0x70370; 0x30278; 0x1fff87c; 0x1aab86c; 0x1c0386e; 0x180386c;
   0x1fff864; 0x1fff860; 0x1c03860; 0x1803860; 0x1fff860; 0x1fff860; 0x1c03860; 0x0;
   0x0; 0x0; 0x0; 0x202000; 0x0; 0x0; 0x0; 0x708070;
   0x31e060; 0x71fe70; 0x303e60; 0x707070; 0x3031fc; 0x77471fc; 0x33430f8; 0x375fe70;
   0x337fef0; 0x17670f0; 0x1b679f8; 0x1f7f9f8; 0x170f968; 0x71fd7c; 0x79bc6c; 0x78767e;
   0xd83666; 0xdc7774; 0xdc3360; 0x1cc7170; 0x18e3060; 0x3877070; 0x3073060; 0x1027070;
   0x0; 0x0; 0x0; 0x0; 0x202000; 0x0; 0x0; 0x0;
   0xe0; 0x3ff8e0; 0x3ffce0; 0x1860e0; 0x3f860e0; 0x3f860e0; 0x31ff7fc; 0x39fe3fc;
   0x39c70e0; 0x38cf0e0; 0x18ff9f0; 0x18f19f0; 0x1ffdff0; 0x1e8eff8; 0x4046f8; 0x1fff8f8;
   0x1fff8ec; 0x19998ee; 0x19998e4; 0x19998e4; 0x19998e0; 0x19998e0; 0x7fffee0; 0x3fffee0;
   0xe0; 0x0; 0x0; 0x0; 0x0; 0x202000; 0x0; 0x0;
   0x0; 0x60060; 0x1c63860; 0x1c67060; 0xe66060; 0x766060; 0x3fffbfc; 0x3fffffc;
   0x1f82e8; 0x3fc0e0; 0xf6e0e0; 0x1c679f0; 0x3863ff0; 0x1070b70; 0x38278; 0x155d478;
   0x3fffc6c; 0x3fffc6c; 0x70e06e; 0x707064; 0x39f060; 0x1fc060; 0x3f0060; 0x1fff060;
   0x3e0fc60; 0x1801c60; 0x0; 0x0; 0x0; 0x0; 0x202000; 0x0;
   0x0; 0x0; 0xc0; 0xaaa0c0; 0xfff0c0; 0xeae0c0; 0xc070c0; 0xc060c0;
   0xc077fc; 0xc067fc; 0xfff0e0; 0xffe0e0; 0x5551f0; 0x3f0; 0x15157f0; 0x3f9faf0;
   0x3fdfed8; 0x30988d8; 0x31d9cdc; 0x30988cc; 0x31d9ccc; 0x30988c4; 0x31d9cc0; 0x3f9f8c0;
   0x3fdfcc0; 0x30988c0; 0x31d9cc0; 0x0; 0x0; 0x0; 0x0; 0x202000;
   0x0; 0x0; 0x0; 0x70; 0x2aa0060; 0x3fefe70; 0x3feae60; 0x60c670;
   0x6c8660; 0x6cfffc; 0x6cfffc; 0x64c670; 0x668670; 0x66c6f0; 0x3fefef0; 0x3fefff0;
   0x3007f8; 0x704778; 0x786668; 0x78c67c; 0x78c66c; 0x7df674; 0x26dbe64; 0x6669e70;
   0x2670660; 0x3630070; 0x3e38060; 0x1c18070; 0x0; 0x0; 0x0; 0x0;
   0x202000; 0x0; 0x0; 0x0; 0x1c0180; 0xc0180; 0x1c0180; 0x3ffdffc;
   0x3ffdffc; 0x3e01c0; 0x7f07e0; 0xef0ff0; 0x1df9db8; 0x38de99c; 0x31ce19c; 0xc4180;
   0x1c0180; 0x7fffe0; 0x7fffe0; 0x606060; 0x606060; 0x6aeae0; 0x7fffe0; 0x606060;
   0x606060; 0x606060; 0x7fffe0; 0x7fffe0; 0x600060; 0x0; 0x0; 0x0;
   0x0; 0x202000; 0x0; 0x0; 0x0; 0x18c060; 0x18cc60; 0x1cdc60;
   0x3fccc60; 0x3fcdc60; 0xecc60; 0x36dffc; 0xf2cffc; 0x1c0dc60; 0x80c8e0; 0xf0;
   0xfff9f0; 0xfff9f0; 0xc01b78; 0xc71b78; 0xc31868; 0xc7186c; 0xc3186c; 0xc31864;
   0xcf9864; 0x10d8060; 0x20dc060; 0x75cf860; 0x3fc3e60; 0x1500e60; 0x0; 0x0;
   0x0; 0x0; 0x202000; 0x0; 0x0; 0x0; 0xc0; 0xfff8c0;
   0xfff8c0; 0xc038c0; 0xc038c0; 0xeabffc; 0xfffffc; 0xeabae8; 0xc038e0; 0xc039e0;
   0xfff9f0; 0xfffbf0; 0x7f0; 0x2f8; 0x1fffed8; 0x1fff8d8; 0x19ddcdc; 0x18888ce;
   0x19ddcc4; 0x18888c0; 0x19ddcc0; 0x18888c0; 0x7ffffc0; 0x3fffec0; 0xc0; 0x0;
   0x0; 0x0; 0x0; 0x202000; 0x0; 0x0; 0x0; 0x60060;
   0x70060; 0xf8060; 0x1dc060; 0x78f060; 0xe07bfc; 0x7d55ffc; 0x37ffee8; 0x7ff070;
   0x800070; 0x193fcf0; 0x19bfcf8; 0x19b0df8; 0x19b0fe8; 0x19bfd7c; 0x19bfc6c; 0x19b0c6e;
   0x19bac66; 0x19bfc64; 0x19b0c60; 0x1930c60; 0x1830c60; 0x1834c60; 0x1f3cc60; 0xf1cc60;
   0x0; 0x0; 0x0; 0x0; 0x202000; 0x0; 0x0; 0x0;
   0x700e0; 0x600e0; 0x600e0; 0x3fff8e0; 0x3fffce0; 0xe063fc; 0x60e7fc; 0x60c2e8;
   0x31c0e0; 0x3fffde0; 0x3fffdf0; 0x2aeabf0; 0x607f0; 0x602f8; 0x3fffcf8; 0x3fffcec;
   0x600ec; 0x6620ee; 0x6670e4; 0xe638e0; 0x1c61ce0; 0x3861ce0; 0x3070ce0; 0x7c0e0;
   0x3c0e0; 0x0; 0x0; 0x0; 0x0; 0x202000; 0x0; 0x0].
Definition hanzi_data_204 : list N :=
  [0x0; 0x460; 0x1ff8e60; 0x1ffdc60; 0x1803860; 0x1807060; 0x1800060; 0x19fedfc;
   0x19fedfc; 0x1986c70; 0x1986c70; 0x19d6cf0; 0x19fecf0; 0x1800df0; 0x1800ff8; 0x1bfed78;
   0x1bfec68; 0x1b06c6c; 0x1b06c6c; 0x1b06c64; 0x1bfec64; 0x1bfec60; 0x1806c60; 0x1800c60;
   0x1f80c60; 0x1f00c60; 0x0; 0x0; 0x0; 0x0; 0x202000; 0x0;
   0x0; 0x0; 0x10060; 0x1c39860; 0x1c73860; 0xe63060; 0x767060; 0x2baa860;
   0x3fffffc; 0x3fffffc; 0x70e060; 0xe660e0; 0x1c738f0; 0x3863df0; 0x7d75ff0; 0x27ffb78;
   0x7ff378; 0x60068; 0x7006c; 0x2aea86e; 0x3fffc64; 0x3fffc60; 0x70060; 0x60060;
   0x70060; 0x60060; 0x70060; 0x0; 0x0; 0x0; 0x0; 0x202000;
   0x0; 0x0; 0x0; 0x60; 0x1fff860; 0x1fff860; 0x1801860; 0x1801860;
   0x1801860; 0x1fffbfc; 0x1fffbfc; 0x19c7860; 0x18cd8e0; 0xdd98f0; 0x6d19f0; 0x1fff9f0;
   0x1fffb78; 0x180ff78; 0x1aafa78; 0x1fffc6c; 0x180ec6e; 0x180fc64; 0x1ffec64; 0x1ffec60;
   0x180ee60; 0x180e660; 0x1f0e660; 0x1f0e460; 0x0; 0x0; 0x0; 0x0;
   0x202000; 0x0; 0x0; 0x0; 0x6e00c0; 0xee00c0; 0x1ce00c0; 0x3fff8c0;
   0x7fff8c0; 0xe00c0; 0x1fff7fc; 0x1fff7fc; 0x18e30e0; 0x1fff0e0; 0x1fff1f0; 0x18e31f0;
   0x1fff3f0; 0x1fff3f0; 0x18e36d8; 0x1e832d8; 0x57554dc; 0x3fffcce; 0x7fffcc4; 0x6060c4;
   0x70e0c0; 0x61c0c0; 0x7180c0; 0x7c00c0; 0x7c00c0; 0x0; 0x0; 0x0;
   0x0; 0x202000; 0x0; 0x0; 0x0; 0x1060; 0x3060; 0x3f87060;
   0x3fae860; 0x39bfc60; 0x19bac60; 0x19b0dfc; 0x19b0dfc; 0x1dbfc70; 0xdbfcf0; 0xdb0cf0;
   0xdb0df0; 0x19bfdf0; 0x19bff78; 0x3180d78; 0x3188c68; 0x318cc6c; 0x318cc6c; 0x3198c64;
   0x3b9cc64; 0x1fbfc60; 0x1b3e60; 0x1b1e60; 0x180260; 0x180060; 0x0; 0x0;
   0x0; 0x0; 0x202000; 0x0; 0x0; 0x0; 0x70060; 0x60060;
   0xe0060; 0x3fff860; 0x3fffc60; 0x3001bfc; 0x3309ffc; 0x371dae8; 0xe0e0e0; 0x1ce60e0;
   0x38679f0; 0x10f1b70; 0x3f8770; 0x71c278; 0x1e0f078; 0x3c0786c; 0x7fffc6c; 0x2ffec6e;
   0xc06064; 0xc06060; 0xc06060; 0xc06060; 0xffe060; 0xffe060; 0xc06060; 0x0;
   0x0; 0x0; 0x0; 0x202000; 0x0; 0x0; 0x0; 0x180;
   0xfe0180; 0xfe7ffc; 0xc63ffc; 0xc60180; 0xc62ba8; 0xc63ffc; 0xc62aa8; 0x1c73ffc;
   0x3c33ffc; 0x143f55c; 0x1300c; 0x1ffbffc; 0x1ff8ff0; 0x1c60180; 0xc63ffc; 0xcc3ffc;
   0x6c03c0; 0x7c07e0; 0x380ff0; 0x7c3db8; 0xee119e; 0x3c7818c; 0x383c180; 0x201c180;
   0x0; 0x0; 0x0; 0x0; 0x202000; 0x0; 0x0; 0x0;
   0x70; 0x3ffc030; 0x3ffdff0; 0xdff8; 0x155c19c; 0x1ffc18c; 0x1d5d5dc; 0x180fffc;
   0x1fffffc; 0x1ffc3c0; 0xc7c0; 0x2aacee0; 0x3ffdc7c; 0x2aaa83c; 0x6008; 0x2aaeaa8;
   0x3fffffc; 0x3fffffc; 0x3fc00; 0xf6f00; 0x1e67c0; 0xf861e0; 0x7f0607c; 0x380603c;
   0x1006000; 0x0; 0x0; 0x0; 0x0; 0x202000; 0x0; 0x0;
   0x0; 0x60060; 0x60060; 0x1575060; 0x1fff860; 0x1fffc60; 0x303fc; 0xfffbfc;
   0xfffae8; 0x180f0; 0x2abaaf0; 0x7fffff0; 0x2baebf0; 0x607378; 0xdfb878; 0x3dfdc7c;
   0x3860e6c; 0x357546c; 0x1fff86e; 0x1fff864; 0x3f8060; 0x77e060; 0xe67060; 0x1c63c60;
   0x860c60; 0x60060; 0x0; 0x0; 0x0; 0x0; 0x202000; 0x0;
   0x0; 0x0; 0x70060; 0x60060; 0x15f5060; 0x3fff860; 0x1755460; 0x60e3fc;
   0x70c3fc; 0x30c2e8; 0x3fffc70; 0x3fffce0; 0x3071df0; 0x3060df0; 0xe0378; 0x3fffb78;
   0x3fffd7c; 0x1806c; 0x1c06c; 0xffc06e; 0xffc064; 0xc0c060; 0xc0e060; 0xe07060;
   0xe07860; 0x7c3e60; 0x7c0c60; 0x0; 0x0; 0x0; 0x0; 0x202000;
   0x0; 0x0; 0x0; 0x60; 0x3fffc60; 0x3fffc60; 0x2aaac60; 0x371c60;
   0x320c60; 0x371ffc; 0x3f3effc; 0x3f7fc60; 0x320c60; 0x371cf0; 0x1f3ccf0; 0x1f7ddf0;
   0x320f78; 0x371f78; 0x3f3ee68; 0x3f7fc6c; 0x320c6e; 0x371c64; 0x320c64; 0x371c60;
   0xc60; 0x7fffc60; 0x3fffc60; 0x60; 0x0; 0x0; 0x0; 0x0;
   0x202000; 0x0; 0x0; 0x0; 0x70060; 0x60060; 0x3fffc60; 0x3fffc60;
   0x3001c60; 0x3188ffc; 0x379dffc; 0xe0e2e8; 0x1c070e0; 0x183bce0; 0x1d9f0; 0x1c1f0;
   0x7ffe370; 0x3ffe378; 0x77b7c; 0x33c6c; 0x3ff1c6c; 0x2ab006e; 0x70064; 0x2ab0060;
   0x3ff0060; 0x30060; 0x70060; 0x30060; 0x70060; 0x0; 0x0; 0x0;
   0x0; 0x202000; 0x0; 0x0; 0x0; 0x66060; 0xe6060; 0x1c7060;
   0x1fff060; 0x1fff860; 0xc3bfc; 0x1fffffc; 0x1fffee8; 0xc3670; 0xc30e0; 0x1fff1f0;
   0xaeb1f0; 0xc3378; 0x3fff378; 0x3fff17c; 0x2306c; 0x6006c; 0x6006e; 0x3fffe64;
   0x3fffe60; 0x60060; 0x60060; 0x60060; 0x60060; 0x60060; 0x0; 0x0;
   0x0; 0x0; 0x202000; 0x0; 0x0; 0x0; 0x1c06070; 0x1806060;
   0x1c07070; 0x181fc60; 0x1c1fc70; 0x1818dfc; 0x7fdddfc; 0x3fdfcf8; 0x1c1dc70; 0x1818cf0;
   0x1cdfdf0; 0x18dfdf8; 0x1dd8d78; 0x1998c68; 0x1d9ff7c; 0x1b9fe6c; 0x1f1e07e; 0x181e066;
   0x1c1f074; 0x181b860; 0x1c19e70; 0x1818f60; 0x1c18770; 0x1f9e060; 0xf1e070; 0x0;
   0x0; 0x0; 0x0; 0x202000; 0x0; 0x0; 0x0; 0x180c0;
   0x8180c0; 0x1dff8c0; 0xdff8c0; 0xf180c0; 0x3980c0; 0x7fffffc; 0x3fffffc; 0xc7c0e0;
   0xf8f0e0; 0x7ffef0; 0x103cff0; 0x300c7f0; 0x3ffc3f0; 0x1ff87d8; 0xaaa2d8; 0x1fff0dc;
   0xeab0ce; 0x1c030c4; 0xfff0c4; 0x1fff0c0; 0xc030c0; 0x1fff0c0; 0xfff0c0; 0x1c030c0;
   0x0; 0x0; 0x0; 0x0; 0x202000; 0x0; 0x0; 0x0;
   0x700c0; 0x600c0; 0xe00c0; 0x3fff8c0; 0x3fffcc0; 0x7fc; 0x1fff7fc; 0x1fff2e8;
   0x1c030e0; 0x38038e0; 0x7fffdf0; 0x7aabff0; 0x1c037f0; 0x1fff6d8; 0x1fff2d8; 0x10f80d8].
Definition hanzi_data_205 : list N :=
  [0x39dc0cc; 0x1f8f0ce; 0xf8fec4; 0x38cec0; 0x70c4c0; 0xe8c0c0; 0x3cfe0c0; 0x783e0c0;
   0x30060c0; 0x0; 0x0; 0x0; 0x0; 0x202000; 0x0; 0x0;
   0x0; 0x100e0; 0x3e0e0; 0x3fdf8e0; 0x3b818e0; 0x33018e0; 0x3319bfc; 0x3319ffc;
   0x31b9ae8; 0x31bd8e0; 0x31ff8e0; 0x3ed7df0; 0x1e60df0; 0x403f0; 0x1fff3f8; 0x1fff2f8;
   0x18630e8; 0x18630ec; 0x1aeb0ee; 0x1fff0e4; 0x18630e0; 0x18630e0; 0x18630e0; 0x1fff0e0;
   0x1fff0e0; 0x18030e0; 0x0; 0x0; 0x0; 0x0; 0x202000; 0x0;
   0x0; 0x0; 0x600c0; 0x600c0; 0x700c0; 0x3fff8c0; 0x7fff8c0; 0x3039bfc;
   0x71d9ffc; 0x319dae8; 0x19c0e0; 0x3ffe1e0; 0x3fff3f0; 0x187bf0; 0x187ff0; 0x1fffed8;
   0x1ffecd8; 0x1860cc; 0x1860cc; 0xbae0ce; 0x1ffe0c4; 0x1860c0; 0x1860c0; 0x1860c0;
   0x7ffe0c0; 0x3ffe0c0; 0x60c0; 0x0; 0x0; 0x0; 0x0; 0x202000;
   0x0; 0x0; 0x0; 0xe0; 0x1fff0e0; 0x1fff0e0; 0x18030e0; 0x1d570e0;
   0x1fff0e0; 0x1d577fc; 0x18037fc; 0x1fff0e0; 0x1fff0e0; 0x1f0; 0x3fdfbf0; 0x3fdfff0;
   0x30186f8; 0x31d9ef8; 0x33998ec; 0x331b0ec; 0x3a1b0ee; 0x3e1c0e4; 0x3f9f8e0; 0x33dbce0;
   0x30d8ee0; 0x30180e0; 0x3e1e0e0; 0x1e1e0e0; 0x0; 0x0; 0x0; 0x0;
   0x202000; 0x0; 0x0; 0x0; 0x70060; 0x60060; 0x60060; 0x3fffc60;
   0x3fffc60; 0x3fc; 0xfff7fc; 0xfff2e8; 0xc07060; 0xc030e0; 0xfff1f0; 0xfff3f0;
   0x378; 0x3fffa78; 0x3fffc7c; 0x380186c; 0x3bfdc6c; 0x3bfd866; 0x3b0dc64; 0x3b0d860;
   0x3bfdc60; 0x3bfd860; 0x3801c60; 0x3e01860; 0x1e01c60; 0x0; 0x0; 0x0;
   0x0; 0x202000; 0x0; 0x0; 0x0; 0x300; 0x7f0380; 0x7f1ff0;
   0x631ff0; 0x6198b0; 0x3e1f9b0; 0x7c0db30; 0xffdab8; 0xffdffc; 0xe09830; 0x77d9f0;
   0x3e19b8; 0x7f1918; 0x1e7df0c; 0x1c1ff0c; 0x6000; 0x3fffffc; 0x3fffffc; 0x3fc00;
   0x7ee00; 0x1e6780; 0x7c63e0; 0x7f060fc; 0x3c0603c; 0x100600c; 0x0; 0x0;
   0x0; 0x0; 0x202000; 0x0; 0x0; 0x0; 0x1830; 0x1ff1c30;
   0x1ff0c60; 0x1837ffc; 0x1d77ffc; 0x1ff0180; 0x1d73198; 0x1833198; 0x1ff35d8; 0x1ffbff8;
   0x181b5d0; 0x18181c0; 0x1f1c0e0; 0xf0e078; 0x6010; 0x2aaeaa8; 0x3fffffc; 0x2abfaa8;
   0x3fc00; 0xf6f00; 0x1e67c0; 0x7861e0; 0x7f060fc; 0x3c0603c; 0x1006000; 0x0;
   0x0; 0x0; 0x0; 0x202000; 0x0; 0x0; 0x0; 0x380060;
   0x380860; 0x181c60; 0x1ff1860; 0x1ff3860; 0x18333fc; 0x1c313fc; 0x1830060; 0x1ff0070;
   0x1ff3ef0; 0x1573ff0; 0x339f0; 0x1ff3bf8; 0x1ff3b78; 0x1d7397c; 0x183386c; 0x183386c;
   0x1833866; 0x1ff3864; 0x1ff3860; 0x1553860; 0xfc60; 0x7ffce60; 0x3ff8660; 0x1540060;
   0x0; 0x0; 0x0; 0x0; 0x202000; 0x0; 0x0; 0x0;
   0x606060; 0x70e060; 0x70c060; 0x38c060; 0x3fffc60; 0x3fffc60; 0x301fc; 0x301fc;
   0x1fff870; 0x1fff8f0; 0x180f0; 0x181f0; 0x3fffdf0; 0x3fffff8; 0xe178; 0x6068;
   0x1fff06c; 0x1fff86c; 0x15d5c64; 0xc0e64; 0xc0f60; 0xc0760; 0x3fffd60; 0x3fff860;
   0x60; 0x0; 0x0; 0x0; 0x0; 0x202000; 0x0; 0x0;
   0x0; 0xe00e0; 0x600e0; 0x700e0; 0x1fff8e0; 0x1fff8e0; 0x1861ffc; 0x1c61ffc;
   0x1aebae8; 0x1fff8e0; 0x18618e0; 0x1c719f0; 0x1861bf0; 0x1fffff0; 0x1fffaf8; 0x6702f8;
   0x6780ec; 0xe780ec; 0x1a780ee; 0x1f7c0e4; 0x3fee0e0; 0x17670e0; 0x20638e0; 0x7563ce0;
   0x3fe0ee0; 0x15404e0; 0x0; 0x0; 0x0; 0x0; 0x202000; 0x0;
   0x0; 0x0; 0x700e0; 0x300e0; 0x1fff8e0; 0xfff8e0; 0x1c038e0; 0xc03bfc;
   0x1fffffc; 0xeabae8; 0x1c038e0; 0xfff8e0; 0x1fff9f0; 0x383f0; 0x187f0; 0x3fffef8;
   0x3fffcf8; 0x30e0f8; 0x7670ec; 0x1e638ee; 0x7c61ee4; 0x3fffee0; 0xfff4e0; 0x600e0;
   0x600e0; 0x600e0; 0x600e0; 0x0; 0x0; 0x0; 0x0; 0x202000;
   0x0; 0x0; 0x0; 0x60; 0x3fffe60; 0x3fffe60; 0x188060; 0x19c060;
   0x1fffc60; 0x1fffdfc; 0x1988dfc; 0x199cc70; 0x1fffcf0; 0x1fffcf0; 0x1f0; 0x1fff9f8;
   0x1fffb78; 0x1c0197c; 0x186186c; 0x1c7186e; 0x1871864; 0x1c71864; 0x1831860; 0x15b9060;
   0x7dc060; 0x1f0f860; 0x3c03c60; 0x1000c60; 0x0; 0x0; 0x0; 0x0;
   0x202000; 0x0; 0x0; 0x0; 0x10c060; 0x38c860; 0x18dc60; 0x18cc60;
   0x7fcdc60; 0x3fccffc; 0xcdffc; 0xecce8; 0x77dc60; 0xe7cce0; 0x1c2ddf0; 0x180cdf0;
   0xc370; 0x378; 0x1fffd78; 0x1fffc6c; 0x19ddc6c; 0x1888c6c; 0x19ddc64; 0x1888c60;
   0x19ddc60; 0x1888c60; 0x7ffff60; 0x3fffe60; 0x60; 0x0; 0x0; 0x0;
   0x0; 0x202000; 0x0; 0x0; 0x0; 0x66060; 0xe6060; 0x1c7060;
   0x3fff060; 0x3fff860; 0xc3ffc; 0x1fffffc; 0x1fffee8; 0xc3460; 0x1fff0e0; 0x1fff1f0;
   0xc33f0; 0x3fff370; 0x3fff278; 0x3078; 0x3ffc68; 0x3ffc6c; 0x38c06e; 0x3f8c064;
   0x3a8e060; 0x3007060; 0x3807060; 0x3803c60; 0x1f81e60; 0x1f80660; 0x0; 0x0;
   0x0; 0x0; 0x202000; 0x0; 0x0; 0x0; 0x70060; 0x70060;
   0x60060; 0x3fffc60; 0x3fffc60; 0x3800ffc; 0x3f01ffc; 0x3fffee8; 0x5ff070; 0x30e0;
   0x71f0; 0xfff1f0; 0xfff370; 0x183378; 0x187378; 0x18306c; 0x18706c; 0x3fffe6e;
   0x3fffe64; 0x100060; 0x79c060; 0xf0f060; 0x1c07c60; 0x3801e60; 0x3000460; 0x0;
   0x0; 0x0; 0x0; 0x202000; 0x0; 0x0; 0x0; 0x1c0060;
   0x30c0060; 0x31c0c60; 0x3ff9c60; 0x1ff9860; 0x18c39fc; 0xdc11fc; 0xec0060; 0x3ffd570;
   0x3ffdef0; 0x1c1ff0; 0x1c19f8; 0xf19f8; 0x1ff9978; 0x1ffd97c; 0x186d86c; 0x187586c;
   0x1fe1866; 0x1ff1864; 0x1869860; 0x187f860; 0x1ae7860; 0x1ff1c60; 0x1ae0860; 0x1870060;
   0x0; 0x0; 0x0; 0x0; 0x202000; 0x0; 0x0; 0x0].
Definition hanzi_data_206 : list N :=
  [0xf00070; 0x1f00060; 0x3b00070; 0x1300060; 0x7fffc70; 0x3fffc60; 0x30cdfc; 0x308dfc;
   0x337cc70; 0x3378c70; 0x330cc70; 0x3b08cf0; 0x1bffdf8; 0x1bffdf8; 0x1b18d78; 0xf18e6c;
   0xf7ec7c; 0xedae6e; 0x6db676; 0x26db660; 0x6719e70; 0x2f98660; 0x7dde770; 0x3cde360;
   0x3840370; 0x0; 0x0; 0x0; 0x0; 0x202000; 0x0; 0x0;
   0x0; 0xc0; 0x3fff8c0; 0x3fffcc0; 0x1980c0; 0x1980c0; 0x3fffffc; 0x3fffffc;
   0x3999ae8; 0x39998e0; 0x39999e0; 0x3f9dbf0; 0x3f8fbf0; 0x3805ff0; 0x3aabed8; 0x3fffcd8;
   0x38018cc; 0x38018cc; 0x3fff8cc; 0x3fff8c4; 0x18830c0; 0x19d98c0; 0x39998c0; 0x3399cc0;
   0x3338ec0; 0x71104c0; 0x0; 0x0; 0x0; 0x0; 0x202000; 0x0;
   0x0; 0x0; 0x1803060; 0x1803860; 0x181f860; 0x199f860; 0x1b9dc60; 0x1b0cc60;
   0x1f1d7fc; 0x1a3fffc; 0x183ff70; 0x18b6c60; 0x19f6cf0; 0x1bbecf0; 0x1f3fdf0; 0x1a36ff8;
   0x1836d78; 0x3836c68; 0x7fffc6c; 0x1fffc6c; 0x1876664; 0x1836664; 0x1836660; 0x1836660;
   0x1836760; 0x183c360; 0x181c360; 0x0; 0x0; 0x0; 0x0; 0x202000;
   0x0; 0x0; 0x0; 0x1980e0; 0x1980e0; 0x7fffce0; 0x3fffce0; 0x1980e0;
   0x2bba8e0; 0x3fffffc; 0x3199bfc; 0x31998e0; 0x3fff8e0; 0x3fff8f0; 0x31999f0; 0x3fff9f0;
   0x3fffbf8; 0x7f8; 0xfff2f8; 0x1fff0fc; 0xc030ee; 0x1c070e4; 0xfff0e4; 0x1d570e0;
   0xc030e0; 0x1fff0e0; 0xfff0e0; 0x1c070e0; 0x0; 0x0; 0x0; 0x0;
   0x202000; 0x0; 0x0; 0x0; 0x60e0c0; 0x60e0c0; 0x3fffcc0; 0x3fffcc0;
   0x60e0c0; 0x6ae0c0; 0x7fe7fc; 0x2ea7fc; 0x1fff0e0; 0x1fff0e0; 0x18e31f0; 0x18e33f0;
   0x1fff7f0; 0x1fff6f8; 0xe06d8; 0x3fff8d8; 0x3fff8dc; 0xe00cc; 0xe00cc; 0x1fff0c4;
   0x1fff0c0; 0xe00c0; 0x3fffcc0; 0x3fffcc0; 0x15554c0; 0x0; 0x0; 0x0;
   0x0; 0x202000; 0x0; 0x0; 0x0; 0x7000c0; 0x3188c0; 0x70fcc0;
   0x2baf2e8; 0x3fff7fc; 0x2bbbee8; 0x788cf0; 0xf989f0; 0x1fcfff8; 0x1bcfad8; 0x377f2dc;
   0x337f8ce; 0x729ec4; 0x3068c0; 0x7000; 0x6000; 0x3fffffc; 0x3fffffc; 0x1f800;
   0x39800; 0x79e00; 0xf0f80; 0x1fc07f0; 0x3f800fc; 0x3c0001c; 0x0; 0x0;
   0x0; 0x0; 0x202000; 0x0; 0x0; 0x0; 0x60; 0x3fff860;
   0x3fff860; 0x60060; 0x3fffc60; 0x3fffffc; 0x3060ffc; 0x3f6fc60; 0xf6f070; 0xa6a8f0;
   0x1f6f9f0; 0x603f0; 0x1fffb78; 0x1fffa78; 0x7c; 0x3fffc6c; 0x3fffc6c; 0xe06e;
   0x556064; 0xfff060; 0x1d55060; 0xc00060; 0xc00060; 0xff8060; 0x7f0060; 0x0;
   0x0; 0x0; 0x0; 0x202000; 0x0; 0x0; 0x0; 0x600c0;
   0x18638c0; 0x1c670c0; 0xe660c0; 0x66c0c0; 0x2aea8c0; 0x3fffffc; 0x3aabffc; 0x38018e0;
   0x3fff8e0; 0x1fff1f0; 0xc063f0; 0xc063f0; 0xc066d8; 0xffe6d8; 0xaea0d8; 0x600cc;
   0xaea8ce; 0x1fff8c4; 0xaea8c4; 0x600c0; 0x600c0; 0x7fffcc0; 0x3fffcc0; 0xc0;
   0x0; 0x0; 0x0; 0x0; 0x202000; 0x0; 0x0; 0x0;
   0x30060; 0x70060; 0x1fffc60; 0x1fff860; 0x70e060; 0x30c1fc; 0x3fffdfc; 0x3fffee8;
   0x1555470; 0xaaa0f0; 0xfff1f0; 0xc031f0; 0xd57378; 0xfff378; 0xc0317c; 0xc0306c;
   0xfff06c; 0xaea06e; 0x60064; 0x3fffe60; 0x7fffe60; 0x60060; 0x60060; 0x60060;
   0x60060; 0x0; 0x0; 0x0; 0x0; 0x202000; 0x0; 0x0;
   0x0; 0x30c060; 0x30c060; 0x3fffc60; 0x3fffc60; 0x30c060; 0x30c3fc; 0x1fffbfc;
   0x1fffae8; 0x1d55860; 0x1c018e0; 0x1fff9f0; 0x1fff9f0; 0x1c01b70; 0x1fffb78; 0x1fffb78;
   0x6006c; 0x7006c; 0x3fffe6e; 0x3fffe64; 0xf8060; 0x1dc060; 0x39e060; 0x1f0fc60;
   0x3c03e60; 0x3000c60; 0x0; 0x0; 0x0; 0x0; 0x202000; 0x0;
   0x0; 0x0; 0x60; 0x1fff860; 0x1fff860; 0x1801860; 0x1801860; 0x1aab860;
   0x1fffbfc; 0xaabbfc; 0x1ddd860; 0xeb98e0; 0x1c18f0; 0x1eb99f0; 0x3ddf9f0; 0x81b78;
   0x1d9f78; 0x89a78; 0x1ffdc6c; 0xaaec6e; 0x1c7c64; 0x2aaac64; 0x3fffc60; 0x2aaae60;
   0x1c0660; 0x80760; 0x1c0460; 0x0; 0x0; 0x0; 0x0; 0x202000;
   0x0; 0x0; 0x0; 0x71c0c0; 0x30c0c0; 0x3fff8c0; 0x3fff8c0; 0x175d0c0;
   0x30c0c0; 0x71c7fc; 0x3fffffc; 0x7fffce0; 0x600e0; 0x15751f0; 0x1fff9f0; 0x1d77bf0;
   0x1863bf8; 0x1fffed8; 0x1fffad8; 0x18638cc; 0x18638ce; 0x1fff8c6; 0x1fff8c4; 0x20c0c0;
   0xf1e0c0; 0x1e0f0c0; 0x7803cc0; 0x3001cc0; 0x0; 0x0; 0x0; 0x0;
   0x202000; 0x0; 0x0; 0x0; 0x70060; 0x60060; 0x1fffc60; 0x1fffc60;
   0x1575460; 0xc63bfc; 0xe773fc; 0x766060; 0x376070; 0x3fffef0; 0x3fffff0; 0x1f0;
   0x15553f8; 0x1fffb78; 0x1fffd7c; 0x180086c; 0x1dfdc6c; 0x190c866; 0x1d0dc64; 0x19fc860;
   0x1d55c60; 0x1800860; 0x1fffc60; 0x1fff860; 0x1c01c60; 0x0; 0x0; 0x0;
   0x0; 0x202000; 0x0; 0x0; 0x0; 0x60; 0x1fdfc60; 0x1fdfc60;
   0x16dac60; 0x16dec60; 0x16daffc; 0x16deffc; 0x12daee8; 0x17dbcf0; 0x12dbce0; 0x7071f0;
   0xf8fb70; 0x1dd9f78; 0x38e8e78; 0x105847c; 0x1806c; 0x7fffe6c; 0x2eaea6e; 0x706064;
   0x38f060; 0x1ff060; 0x3f8060; 0x1fff060; 0x3e0fe60; 0x1801c60; 0x0; 0x0;
   0x0; 0x0; 0x202000; 0x0; 0x0; 0x0; 0x46060; 0xe6060;
   0x1c7060; 0x183060; 0x3fff060; 0x3fffbfc; 0x15d7ffc; 0xc3ee8; 0x1fffe70; 0x1fff6f0;
   0x1c35f0; 0xc31f0; 0x1fff378; 0x1fff378; 0x1c317c; 0xc306c; 0x7fff066; 0x3fff064;
   0x3064; 0xc9b860; 0x1dd9860; 0x3999860; 0x3199c60; 0x3398e60; 0x3118460; 0x0;
   0x0; 0x0; 0x0; 0x202000; 0x0; 0x0; 0x0; 0x6060e0;
   0x60e0e0; 0x70c0e0; 0x3fffce0; 0x3fffce0; 0x1980e0; 0x1fffffc; 0x1fffbfc; 0x19998e0;
   0x1f998e0; 0x1f9f8f0; 0x18019f0; 0x1fff9f0; 0x1801bf8; 0x1fffff8; 0x1fffaf8; 0x3000fc].
Definition hanzi_data_207 : list N :=
  [0x2baaaee; 0x7fffee4; 0x3020e4; 0x3070e0; 0x30e0e0; 0x31c0e0; 0x3e80e0; 0x1e00e0;
   0x0; 0x0; 0x0; 0x0; 0x202000; 0x0; 0x0; 0x0;
   0x1603060; 0x1e03060; 0x3603060; 0x360ba60; 0x175fe60; 0x3feba60; 0x3fe31fc; 0x6631fc;
   0x767fe70; 0x367fef0; 0x36670f0; 0x36621f0; 0x1e671f0; 0x1e6a778; 0x1d7f778; 0xfea668;
   0x6ff766c; 0x6e62e6c; 0x6f07e64; 0x3982e64; 0x38e7f60; 0x7360; 0x7fff360; 0x3ffc1e0;
   0x1540160; 0x0; 0x0; 0x0; 0x0; 0x202000; 0x0; 0x0;
   0x0; 0x300070; 0x30a820; 0x33fc70; 0x31a820; 0x39c070; 0x3f8c1fe; 0x7fffffe;
   0x3bbfeb8; 0x19d8c70; 0x19d8cf0; 0x19dfcf0; 0x19dfdb8; 0x1978df8; 0x1b58d28; 0x1f18d7c;
   0xf1fc2c; 0xf1fc7e; 0xe18c26; 0x658c74; 0xe7ec20; 0x1f7ff70; 0x1b98f20; 0x39d8070;
   0x70f8020; 0x20d8070; 0x0; 0x0; 0x0; 0x0; 0x202000; 0x0;
   0x0; 0x0; 0x300060; 0x3f8060; 0x7fc60; 0xe18860; 0xffd060; 0x3f860;
   0x1fd99fc; 0xffe1fc; 0x187fc70; 0x38180f0; 0x1ff80f0; 0x1ff01f0; 0x1c0e1f0; 0xf8ff78;
   0x3e3f78; 0x3b2b068; 0x3fffe6c; 0x3e3e6c; 0x3f1f064; 0x3fffe64; 0x3e3e60; 0x231b060;
   0x631f860; 0x3f07860; 0x1401860; 0x0; 0x0; 0x0; 0x0; 0x202000;
   0x0; 0x0; 0x0; 0x6000; 0x2aaeaa8; 0x3fffffc; 0x6000; 0x7fffc0;
   0x6060c0; 0x7fffc0; 0x2aea80; 0x3fffffc; 0x3fffff8; 0x3ffffdc; 0x3bfffe8; 0x155700;
   0x3fffc0; 0x3003f8; 0x3fff38; 0x3fff00; 0x2aaeaa8; 0x3fffffc; 0x2abfea8; 0x77f00;
   0x3e6780; 0x1f861fc; 0x3e0603c; 0x100600c; 0x0; 0x0; 0x0; 0x0;
   0x202000; 0x0; 0x0; 0x0; 0x700c0; 0x300c0; 0x300c0; 0x3fffcc0;
   0x7fffcc0; 0x11980c0; 0x3b1dffc; 0x1f0fffc; 0xe070e0; 0xfff8e0; 0x3fffce0; 0x3c03ef0;
   0x2fffdf0; 0xfff3f0; 0xc077d8; 0xc036d8; 0xfff0dc; 0xfff0cc; 0x4670c4; 0xe630c4;
   0x1c630c0; 0x18618c0; 0x3861cc0; 0x107c8c0; 0x7c0c0; 0x0; 0x0; 0x0;
   0x0; 0x202000; 0x0; 0x0; 0x0; 0xe0; 0xfff0e0; 0x1fff0e0;
   0x7180e0; 0x3f80e0; 0x3fff8e0; 0x3fffffc; 0x38f07fc; 0x1ddc0e0; 0xc8f8e0; 0x1c3df0;
   0xf0bf0; 0x3fffff0; 0x3fffef8; 0x3911af8; 0x3bb98e8; 0x3f1d8ec; 0x3e0f8ee; 0x3fff8e6;
   0x3b098e4; 0x3b198e0; 0x3ba98e0; 0x3bf98e0; 0x3e098e0; 0x1e018e0; 0x0; 0x0;
   0x0; 0x0; 0x202000; 0x0; 0x0; 0x0; 0xc0060; 0xcdf860;
   0x1fdfc60; 0x798060; 0x139cc60; 0x3b0dffc; 0x1f07bfc; 0xeaf2e8; 0x1dff860; 0x3cabce0;
   0x7801ff0; 0x2fff5f0; 0xfff370; 0xc03378; 0xc03378; 0xeab06c; 0xfff06c; 0xaaa06e;
   0x706064; 0x30e060; 0x38c060; 0x18c060; 0x3fffe60; 0x3fffe60; 0x60; 0x0;
   0x0; 0x0; 0x0; 0x202000; 0x0; 0x0; 0x0; 0x60;
   0x3fffc60; 0x3fffc60; 0x2aaac60; 0x767c60; 0x266c60; 0x366dfc; 0x326dfc; 0x7f7fc70;
   0x3fffcf0; 0x3318df0; 0x2d5bdf0; 0x35dbff0; 0x37dbd78; 0x145bd78; 0xe5be68; 0xe5f66c;
   0xe7f66c; 0xe5d664; 0xa08664; 0x1b0c760; 0x1b8c360; 0x31c6360; 0x30e7360; 0x2042160;
   0x0; 0x0; 0x0; 0x0; 0x202000; 0x0; 0x0; 0x0;
   0x600c0; 0x600c0; 0x3fff8c0; 0x3fff8c0; 0x600c0; 0x1fff7fc; 0x1fff7fc; 0x18632e8;
   0x1fff0e0; 0x1fff1e0; 0x18631f0; 0x1aeb3f0; 0x1fff7f0; 0xe606f8; 0x1d602d8; 0x3fff8d8;
   0x75ff8dc; 0x20300ce; 0xc7e8c4; 0x18ce8c0; 0x3acecc0; 0x360ecc0; 0x77fe6c0; 0x23fc4c0;
   0xc0; 0x0; 0x0; 0x0; 0x0; 0x202000; 0x0; 0x0;
   0x0; 0x1c060; 0xc060; 0x7fe060; 0x3ae060; 0x187060; 0xbebbfc; 0x1fffffc;
   0x1863ee8; 0x1863ce0; 0x18638e0; 0x1fff9f0; 0x1fffbf0; 0x183c770; 0x1c3e278; 0xf77c78;
   0x3f886c; 0x7dc06c; 0x6e786e; 0xcf1e64; 0xcf8c60; 0x18df060; 0x38c3860; 0x30e1c60;
   0xf8060; 0x7c060; 0x0; 0x0; 0x0; 0x0; 0x202000; 0x0;
   0x0; 0x0; 0x830110; 0x18babb8; 0x1dffbf0; 0x6300e0; 0x3fffdf0; 0x3fffdbc;
   0x7039c; 0xffe3c0; 0xfffff0; 0xe07ff8; 0xffe71c; 0xffe388; 0xe06180; 0xffe1f8;
   0xffe0f0; 0x6000; 0x3fffffc; 0x3fffffc; 0x3fc00; 0x76e00; 0x1e67c0; 0xf861f0;
   0x7f0607e; 0x380601c; 0x6000; 0x0; 0x0; 0x0; 0x0; 0x202000;
   0x0; 0x0; 0x0; 0x70060; 0x60060; 0x3fffc60; 0x3fff860; 0x606060;
   0x70e1fc; 0x175d5fc; 0x3fffce8; 0x7fffc70; 0x70; 0x1fff8f0; 0x18618f0; 0x18619f8;
   0x1fffb78; 0x1d7597c; 0x186186c; 0x1fff86c; 0xaea866; 0x60064; 0x1fff860; 0x1fffc60;
   0x60060; 0x7fffe60; 0x3fffe60; 0x60; 0x0; 0x0; 0x0; 0x0;
   0x202000; 0x0; 0x0; 0x0; 0x60; 0x3fffc60; 0x3fffc60; 0x2aaac60;
   0x1800c60; 0x187fc60; 0x187fdfc; 0x1800dfc; 0x1800c70; 0x3ffec70; 0x7fffcf0; 0x1862ef0;
   0x1863df8; 0x19e2ff8; 0x1b7ff7c; 0x1b7ee6c; 0x1f7366c; 0x1a22666; 0x1e36664; 0x1836660;
   0x18f6760; 0x18fe360; 0x187fb60; 0x1e01b60; 0x1e00060; 0x0; 0x0; 0x0;
   0x0; 0x202000; 0x0; 0x0; 0x0; 0x1c060; 0xc060; 0x3fe060;
   0x1ae060; 0x15d7860; 0x1fffffc; 0x1863ffc; 0x18630e8; 0x1fff070; 0x18630e0; 0x18631f0;
   0x1fff1f0; 0x15551f0; 0x3ffff78; 0x3fffd78; 0x6c; 0x1fff06c; 0xfff06e; 0x1c03064;
   0xfff060; 0x1fff060; 0xc03060; 0x1fff060; 0xfff060; 0x1c03060; 0x0; 0x0;
   0x0; 0x0; 0x202000; 0x0; 0x0; 0x0; 0xc1060; 0xc3060;
   0x1fc1860; 0x1fe1860; 0x1c65860; 0xeecffc; 0xffcffc; 0xc06c60; 0x1d57670; 0x3ffbef0;
   0x57d3ef0; 0xe39f8; 0x31f19f8; 0x39b8d78; 0x1f97c7c; 0xfc7e6c; 0x1b71e6e; 0x1b38066;
   0x1f96064; 0x3ac7860; 0x3773f60; 0x3238e60; 0x271c060; 0x3c0060; 0x1c0060; 0x0;
   0x0; 0x0; 0x0; 0x202000; 0x0; 0x0; 0x0; 0x30060].
Definition hanzi_data_208 : list N :=
  [0x70060; 0x3fffe60; 0x3fffe60; 0x60; 0x1fff860; 0x1fffffc; 0x18a8bfc; 0x19fdc70;
   0x190c8e0; 0x19fdcf0; 0x18009f0; 0x1fffdf0; 0x1fffb78; 0x555178; 0xfff868; 0xc0186c;
   0xfff86c; 0xfff864; 0xc01864; 0xfff860; 0xaaa860; 0x7ffff60; 0x3fffe60; 0x5555560;
   0x0; 0x0; 0x0; 0x0; 0x202000; 0x0; 0x0; 0x0;
   0x303070; 0x383860; 0x19fe70; 0x19fe60; 0x198670; 0x2b986fc; 0x7fdfffc; 0x3fdfe60;
   0x18d8670; 0x18daef0; 0x19ffef0; 0x19e19f8; 0x1de31f8; 0xdbff78; 0xf3ff7c; 0xf00c6c;
   0x701c7c; 0x61fc66; 0x71fc74; 0xf18c60; 0xf9cc70; 0x1d88660; 0x39dc770; 0x38ef3e0;
   0x3047170; 0x0; 0x0; 0x0; 0x0; 0x202000; 0x0; 0x0;
   0x0; 0x70060; 0x70060; 0x1fc060; 0x38e060; 0x1f37060; 0x3e63c60; 0x3fffffc;
   0x27ff3fc; 0xdc5860; 0xcfd8e0; 0xc719f0; 0xdfdbf0; 0xd8df70; 0xfffa78; 0x575078;
   0x38068; 0x3fffc6c; 0x3fffc6e; 0x399cc66; 0x3b8cc64; 0x3bfec60; 0x3a3ec60; 0x3800c60;
   0x3f00c60; 0x1f00c60; 0x0; 0x0; 0x0; 0x0; 0x202000; 0x0;
   0x0; 0x0; 0x1c060; 0xae060; 0x3fe060; 0x387060; 0x15d7860; 0x3fffffc;
   0x1775ffc; 0x771ae8; 0x1c3d870; 0x18cf8f0; 0x11c59f0; 0x3fffbf0; 0x3fffb78; 0x1a78;
   0x1ffd87c; 0x186c; 0x1ffdc6e; 0x1ffd864; 0x1c64; 0x1ffcc60; 0x1d5cc60; 0x180ce60;
   0x1ffc660; 0x1ffc660; 0x180c660; 0x0; 0x0; 0x0; 0x0; 0x202000;
   0x0; 0x0; 0x0; 0xe0; 0xaaa8e0; 0x1fff8e0; 0xaea8e0; 0x600e0;
   0x3fffce0; 0x3fffffc; 0x3060ffc; 0x3f7fce0; 0xf6f0e0; 0x600f0; 0x1f6f8f0; 0x1f7f9f0;
   0x603f8; 0x1fffff8; 0x1fffaf8; 0x1c638ec; 0x18638ee; 0x1fff8e4; 0x1fff8e4; 0x1c638e0;
   0x18638e0; 0x1fff8e0; 0x1fff8e0; 0x1c038e0; 0x0; 0x0; 0x0; 0x0;
   0x202000; 0x0; 0x0; 0x0; 0x1c0000; 0x181ff8; 0x3ffdff8; 0x3ffd838;
   0xc31c38; 0xe31ff8; 0x1775ff8; 0x3ffe018; 0x15d5ff8; 0x181ff8; 0x3ffd87c; 0x3ffd82c;
   0x1c1ffc; 0x181fe0; 0x1c6000; 0x6000; 0x3fffffc; 0x3fffffc; 0x3fc00; 0x76e00;
   0x1e67c0; 0x7861e0; 0x7f060fc; 0x380603c; 0x100600c; 0x0; 0x0; 0x0;
   0x0; 0x202000; 0x0; 0x0; 0x0; 0x1870; 0x3fc1820; 0x3fc7c70;
   0x330fc20; 0x330cc70; 0x33066fc; 0x31867fc; 0x3b9ffb8; 0x1cfff70; 0x85a670; 0x79b670;
   0x69fef8; 0x6dfef8; 0x3fda7a8; 0x3fdb7fc; 0x6da62c; 0x67fe76; 0x61fe26; 0x7fdb674;
   0x3fda620; 0x61b770; 0x61a220; 0x61f370; 0x61e320; 0x61c170; 0x0; 0x0;
   0x0; 0x0; 0x202000; 0x0; 0x0; 0x0; 0x60c60; 0x60c60;
   0x77ffc; 0x3ff2ee8; 0x3ff8c70; 0xc3bff0; 0xe7fff8; 0x66f01c; 0x7e33fe; 0x3c3bf8;
   0x3c1b18; 0x7e1bf8; 0x1e7dbf8; 0x383de00; 0x1006e00; 0x6000; 0x3fffffc; 0x3fffffc;
   0x3fc00; 0x76e00; 0x1e67c0; 0x7861e0; 0x7f060fc; 0x380603c; 0x100600c; 0x0;
   0x0; 0x0; 0x0; 0x202000; 0x0; 0x0; 0x0; 0x30060;
   0x30060; 0x3fffe60; 0x3fffe60; 0x60; 0xfffbfc; 0x1fffffc; 0x8a8860; 0x1dfdc70;
   0x98c8f0; 0x1dfdcf0; 0x8009f0; 0x1fffdf8; 0xaaab78; 0xfff97c; 0xfff86c; 0x6c;
   0x3fffe6e; 0x3ffff64; 0x231060; 0x773860; 0xe31c60; 0x1c70f60; 0x383e760; 0x103e060;
   0x0; 0x0; 0x0; 0x0; 0x202000; 0x0; 0x0; 0x0;
   0x30060; 0x70060; 0x3fffc60; 0x3fffc60; 0x3555c60; 0x3066c60; 0x1fff7fc; 0x1fffbfc;
   0xdf9c70; 0xf9ece0; 0x79e6f0; 0x30f9f0; 0x7ff9f0; 0xfffb78; 0x3d55f78; 0x3000e68;
   0x1fffc6c; 0x1fff86c; 0x471064; 0x663064; 0xe73860; 0x1c61860; 0x1871c60; 0x187cc60;
   0x3c060; 0x0; 0x0; 0x0; 0x0; 0x202000; 0x0; 0x0;
   0x0; 0x30c060; 0x30c060; 0x3fffc60; 0x3fffc60; 0x30c060; 0x30c060; 0x3fffffc;
   0x3fffffc; 0x3000c70; 0x37fece0; 0x5540f0; 0x1f0; 0x3fffdf0; 0x38378; 0x1c1f178;
   0x1e33c68; 0x7fcc6c; 0x3ee06c; 0x6f7c64; 0xef8c64; 0xcde060; 0x1cc7860; 0x78e1f60;
   0x307c260; 0x7c060; 0x0; 0x0; 0x0; 0x0; 0x202000; 0x0;
   0x0; 0x0; 0x608060; 0x618c60; 0xb0cc60; 0x1b6cc60; 0xfbec60; 0xfbeffc;
   0x718ffc; 0xb2cee8; 0x1fffc70; 0x1beecf0; 0x3fffcf0; 0x3fffdf0; 0x618df0; 0x608f78;
   0x1b6cd78; 0x1b6ec6c; 0xfbfc6c; 0xf9ec6e; 0x173cc64; 0x1b2cc60; 0x1fffc60; 0x30e2c60;
   0x3fffc60; 0x3fffc60; 0x60; 0x0; 0x0; 0x0; 0x0; 0x202000;
   0x0; 0x0; 0x0; 0x1c06070; 0x806060; 0x1c06070; 0x87fe60; 0x1dffe70;
   0xb66660; 0x1f667fc; 0xa667fc; 0x1c7fe70; 0x9e6670; 0x1f66670; 0xa666f0; 0x1c7fff8;
   0x387fff8; 0x7f861fc; 0xfee06c; 0x1c6f07c; 0x8ef06e; 0x1dfd874; 0x9fd860; 0x7dfdc70;
   0x230ce60; 0x355c770; 0x3ffc3e0; 0x550170; 0x0; 0x0; 0x0; 0x0;
   0x202000; 0x0; 0x0; 0x0; 0x30c060; 0x30c060; 0x7fffe60; 0x3fffe60;
   0xf0c060; 0x1980460; 0x7fffffc; 0x3fffbfc; 0x181870; 0x1ffc070; 0x1ddc6f0; 0x1bacef0;
   0x1ffddf0; 0x198dbf8; 0x1ffc178; 0x1bac068; 0x1f8d86c; 0x60186e; 0x7fffc66; 0x2ebac64;
   0x638c60; 0x670660; 0x660760; 0x780260; 0x780060; 0x0; 0x0; 0x0;
   0x0; 0x202000; 0x0; 0x0; 0x0; 0x300; 0x380; 0x380;
   0x180; 0x1ffffc0; 0x3ffffc0; 0x1ffffe0; 0x1c000e0; 0x1c07070; 0xe06038; 0x607038;
   0x70601c; 0x707010; 0xf000; 0xf000; 0xf800; 0x1f800; 0x39c00; 0x71e00;
   0xe0f00; 0x1e0780; 0x3c03e0; 0x1f801f8; 0x3e0003c; 0x180001c; 0x0; 0x0;
   0x0; 0x0; 0x202000; 0x0; 0x0; 0x0; 0x7000; 0x7000;
   0x701c; 0x303c; 0x5578f8; 0x3fff9e0; 0x1fff8c0; 0x1801c00; 0x1c31c00; 0xc30e00;
   0xc30f00; 0xe30600; 0x430480; 0x38080; 0x781c0; 0x780e0; 0xfc070; 0xcc070].
Definition hanzi_data_209 : list N :=
  [0x1ce038; 0x38f038; 0x70781c; 0xf03c08; 0x3e01f00; 0x3800780; 0x1000300; 0x0;
   0x0; 0x0; 0x0; 0x202000; 0x0; 0x0; 0x0; 0x18000;
   0x18000; 0x18000; 0x18ffc; 0x3ffcffc; 0x3ffcc00; 0x380cc00; 0x18aee08; 0x18e661c;
   0x18e7638; 0xe7770; 0xe2370; 0xe03e0; 0xe03c0; 0xe01c0; 0xe03c0; 0x1f03c0;
   0x1b07e0; 0x3b8770; 0x318e38; 0x71c43c; 0xe0e01e; 0x3c0780c; 0x3803c00; 0x3001800;
   0x0; 0x0; 0x0; 0x0; 0x202000; 0x0; 0x0; 0x0;
   0x70800; 0x31e00; 0x71ff0; 0x301f8; 0x3ff0018; 0x3ff8018; 0x3558018; 0x3018018;
   0x31ddff8; 0x18cfff8; 0x19ce718; 0x18c4618; 0x1c0718; 0x1c0618; 0x1c0718; 0x1e0618;
   0x3e0718; 0x360618; 0x770718; 0x630618; 0xe3871c; 0x1c1c60c; 0x3c1e70c; 0x380f60c;
   0x3006000; 0x0; 0x0; 0x0; 0x0; 0x202000; 0x0; 0x0;
   0x0; 0x60070; 0x60060; 0x70070; 0x30070; 0x7ff3ff0; 0x3ff3ff0; 0x3038030;
   0x3098030; 0x39dc030; 0x198c038; 0x19cfff8; 0x19c1ff8; 0x1c1ff8; 0x1c1800; 0x1c1800;
   0x3c1a00; 0x3c1ff0; 0x3e1bfc; 0x771c7c; 0x671c00; 0xe31c00; 0x1c38c00; 0x381cfc0;
   0x300ef80; 0x3004780; 0x0; 0x0; 0x0; 0x0; 0x202000; 0x0;
   0x0; 0x0; 0x70000; 0x60000; 0x77ffc; 0x33ff8; 0x7ff001c; 0x3ff3818;
   0x357987c; 0x3019878; 0x31ddcfc; 0x398ccd8; 0x19ceddc; 0x19c0f98; 0x1c071c; 0x1c0618;
   0x1c0f1c; 0x3c0f98; 0x3c1ddc; 0x3e18d8; 0x7638fc; 0x661078; 0xe7007c; 0x1c38018;
   0x3c1fffc; 0x381fff8; 0x100c000; 0x0; 0x0; 0x0; 0x0; 0x202000;
   0x0; 0x0; 0x0; 0x70400; 0x30ee0; 0x71c70; 0x31830; 0x1573838;
   0x3fff09c; 0x3ff819e; 0x3198388; 0x319c7c0; 0x398eee0; 0x198fc60; 0x1987870; 0x1c3838;
   0x1c701c; 0x1c3ffe; 0x3c1ff4; 0x3c1830; 0x3e1830; 0x761830; 0x661830; 0xe71830;
   0x1c39ff0; 0x3c1dff0; 0x380e030; 0x1004030; 0x0; 0x0; 0x0; 0x0;
   0x202000; 0x0; 0x0; 0x0; 0xc1800; 0xe1838; 0x61efc; 0x60fe0;
   0x3fe07c0; 0x3fe1fe0; 0x3573c7c; 0x30330fc; 0x31b80c0; 0x399fffc; 0x199fffc; 0x1988060;
   0x180370; 0x382bb8; 0x387ffc; 0x382bbc; 0x3c733e; 0x3c2334; 0x6c7330; 0xee2330;
   0xc77730; 0x1c33b30; 0x3839330; 0x301c300; 0x3008300; 0x0; 0x0; 0x0;
   0x0; 0x202000; 0x0; 0x0; 0x0; 0x601c0; 0x600c0; 0x704e0;
   0x30e60; 0x7ff1c70; 0x3ff1eb8; 0x303bffc; 0x309b2f8; 0x39dd070; 0x198c030; 0x19cfff0;
   0x1981ff8; 0x1c019c; 0x1c018c; 0x1c018c; 0x3c3ffc; 0x3c3ffc; 0x3e0180; 0x7607c0;
   0x6706c0; 0xc70ee0; 0x1c39c70; 0x381d83c; 0x300e01e; 0x300400c; 0x0; 0x0;
   0x0; 0x0; 0x202000; 0x0; 0x0; 0x0; 0x60380; 0x60380;
   0x70380; 0x63ffc; 0x3ff7ffc; 0x3ff0380; 0x35707c0; 0x3038ee0; 0x31ddc70; 0x399d83c;
   0x19cd01c; 0x1987ffe; 0x1c7ffe; 0x1c1800; 0x1c1bf8; 0x3c1bf8; 0x3c1b18; 0x3e1b18;
   0x761b18; 0x661bf8; 0xe71bf8; 0x1c39818; 0x3c1d800; 0x380ff00; 0x1005f00; 0x0;
   0x0; 0x0; 0x0; 0x202000; 0x0; 0x0; 0x0; 0x61c70;
   0x61830; 0x71c70; 0x71830; 0x7ff7ffc; 0x3ff3ffc; 0x3579c70; 0x3039830; 0x31ddff0;
   0x398dff0; 0x19cfc70; 0x198d830; 0x1c1ff0; 0x181ff0; 0x1c1c70; 0x3c1830; 0x3c7ffc;
   0x3e7ffe; 0x765554; 0x6606e0; 0xe70e70; 0x1c39c38; 0x3c1d83c; 0x380e81c; 0x1004008;
   0x0; 0x0; 0x0; 0x0; 0x202000; 0x0; 0x0; 0x0;
   0x60380; 0x60380; 0x671b0; 0x639b0; 0x3ff1998; 0x3ff1d98; 0x3570ddc; 0x30383c0;
   0x3198fe0; 0x1999e70; 0x199f87c; 0x198839c; 0x1c0180; 0x1831b0; 0x1c31b0; 0x3c3998;
   0x3c1d98; 0x3e098c; 0x7607cc; 0x660fc0; 0xc71ee0; 0x1c3b870; 0x381d07c; 0x300e01e;
   0x300400c; 0x0; 0x0; 0x0; 0x0; 0x202000; 0x0; 0x0;
   0x0; 0x70180; 0x70180; 0x755d4; 0x33ffc; 0x37ffc; 0x3ff8180; 0x3ff95d4;
   0x381bff8; 0x191fffc; 0x199c000; 0x19cfff8; 0xd8fff8; 0x1c0000; 0x1c0000; 0x1c7ffe;
   0x1c7ffe; 0x3c0180; 0x3e19b8; 0x7e1998; 0x663998; 0xe7319c; 0x1c3b18c; 0x3c1c184;
   0x380e1e0; 0x300c1e0; 0x0; 0x0; 0x0; 0x0; 0x202000; 0x0;
   0x0; 0x0; 0xc1000; 0xe3fe8; 0x61ffc; 0x601a8; 0x1fe0180; 0x3fe2ba8;
   0x3577ffc; 0x3837ffc; 0x19b0180; 0x19b81a0; 0x1d9fdfc; 0x983dbc; 0x18719c; 0x38318c;
   0x38719c; 0x383dfc; 0x3c7dfc; 0x6c318c; 0x6c719c; 0xee318c; 0xc77ffc; 0x1c33ffc;
   0x383fffc; 0x301c00c; 0x3008000; 0x0; 0x0; 0x0; 0x0; 0x202000;
   0x0; 0x0; 0x0; 0x60000; 0x62aaa; 0x73ffe; 0x33ffe; 0x7ff0760;
   0x3ff0260; 0x303bffc; 0x309bffc; 0x39df36c; 0x198f26c; 0x19cf36c; 0x1983aec; 0x1c3ffc;
   0x1c2aa8; 0x1c0180; 0x3c0180; 0x3c3ffc; 0x3e3ffc; 0x760180; 0x670180; 0xc73d80;
   0x1c3bfe8; 0x381c7fc; 0x300e00c; 0x3004000; 0x0; 0x0; 0x0; 0x0;
   0x202000; 0x0; 0x0; 0x0; 0x701c0; 0x60180; 0x70380; 0x33ffc;
   0x7ff3ffc; 0x3ff1830; 0x3039c70; 0x3038c60; 0x39dce60; 0x399fffc; 0x19dfffc; 0x19c8000;
   0x1c1550; 0x1c3ff8; 0x1c3ff8; 0x3c3818; 0x3c3818; 0x3e3ff8; 0x763ff8; 0x673818;
   0xe73818; 0x1c3bab8; 0x3c1fff8; 0x380f818; 0x300d018; 0x0; 0x0; 0x0;
   0x0; 0x202000; 0x0; 0x0; 0x0; 0xc0000; 0xc3ff8; 0xe3ff8;
   0xe3018; 0x3fe3558; 0x3fe3ff8; 0x3573558; 0x3033018; 0x31bbff8; 0x19bbff8; 0x199c060;
   0x1b80030; 0x387ff0; 0x386ab8; 0x38731c; 0x38619e; 0x7c739c; 0x6c66d8; 0x6c7cf8;
   0xee3018; 0xc77ff8; 0x1c73ff8; 0x383b000; 0x301fe00; 0x1019e00; 0x0; 0x0;
   0x0; 0x0; 0x202000; 0x0; 0x0; 0x0; 0x1c3010; 0xc3838].
Definition hanzi_data_210 : list N :=
  [0xc1870; 0xe0ce0; 0x3fefffc; 0x3fefffc; 0x3570660; 0x3830660; 0x1bb7ffc; 0x1bbbffc;
   0x1b9e660; 0x38fffc; 0x38fffc; 0x382660; 0x386660; 0x383ffc; 0x7c7ffc; 0x6c0e60;
   0x6c1e70; 0xee3678; 0x1c7767c; 0x187266e; 0x3838664; 0x301c660; 0x3008660; 0x0;
   0x0; 0x0; 0x0; 0x202000; 0x0; 0x0; 0x0; 0x60000;
   0x62aa8; 0x67ffc; 0x63aa8; 0x3ff1950; 0x3ff1bf8; 0x3571b58; 0x3039b18; 0x3999b18;
   0x1999bf8; 0x199d950; 0x1989800; 0x18fffe; 0x38fffe; 0x3c3800; 0x383aa8; 0x7c3bf8;
   0x6c3b18; 0x6e3b18; 0xee3b18; 0x1c73bf8; 0x183bab8; 0x383f818; 0x701fe00; 0x200de00;
   0x0; 0x0; 0x0; 0x0; 0x202000; 0x0; 0x0; 0x0;
   0xe0380; 0xe0380; 0x60fc0; 0x61ce0; 0x3ff3d78; 0x3fe7ffc; 0x357254c; 0x3030aa0;
   0x31b9ff0; 0x3999830; 0x199d830; 0x1989ff0; 0x181ff0; 0x1800a0; 0x3c7ffc; 0x382ae8;
   0x3c77cc; 0x3c2ed8; 0x6e7cd0; 0xee38f0; 0xc77efc; 0x1c322cc; 0x383f0c4; 0x381fcf8;
   0x1009c70; 0x0; 0x0; 0x0; 0x0; 0x202000; 0x0; 0x0;
   0x0; 0xc000; 0xc000; 0xc000; 0xc000; 0xc000; 0xc000; 0xc0e0;
   0xc0e0; 0xc0e0; 0x1ffc0e0; 0x1ffc0e0; 0xc0e0; 0xc0e0; 0xc0e0; 0xc0e0;
   0xc0e0; 0xc0e0; 0xc0e0; 0xc0e0; 0xc0e0; 0xc0e0; 0x3fffffc; 0x3fffffc;
   0x3fffffc; 0x0; 0x0; 0x0; 0x0; 0x0; 0x202000; 0x0;
   0x0; 0x0; 0x0; 0x0; 0x1fffff8; 0x1fffff8; 0xe000; 0xe000;
   0xe000; 0xe000; 0xe000; 0xe0e0; 0xe0e0; 0xffe0e0; 0xffe0e0; 0xaae0e0;
   0xe0e0; 0xe0e0; 0xe0e0; 0xe0e0; 0xe0e0; 0xe0e0; 0xe0e0; 0x2aaeae8;
   0x3fffffc; 0x3fffffc; 0x0; 0x0; 0x0; 0x0; 0x0; 0x202000;
   0x0; 0x0; 0x0; 0x70600; 0x30600; 0x70600; 0x30600; 0x70600;
   0x30620; 0x1870630; 0x3c30630; 0x1f77e30; 0x7b7e30; 0x1f7e30; 0xf0630; 0x70630;
   0x30630; 0x70630; 0x30630; 0x70630; 0x2030630; 0x7070630; 0x7030630; 0x7077e30;
   0x3037fb0; 0x3ff7ffc; 0x3fe00fc; 0x4; 0x0; 0x0; 0x0; 0x0;
   0x202000; 0x0; 0x0; 0x0; 0xe000; 0xe000; 0xe1c0; 0x7fe0c0;
   0x7fe1c0; 0xe0c0; 0xe1c0; 0xe0c0; 0x3fffffc; 0x3fffffc; 0x1557554; 0x206100;
   0xe06300; 0x606380; 0x7061c0; 0x3860e0; 0x1c6070; 0xe6038; 0x7e010; 0x3e000;
   0x1fc00; 0x3f00; 0x1ffc; 0x3fc; 0x18; 0x0; 0x0; 0x0;
   0x0; 0x202000; 0x0; 0x0; 0x0; 0x70000; 0x360000; 0xf77ff0;
   0x1e63ff0; 0x1c70000; 0x860000; 0x1575554; 0x3fffffc; 0x3fffffc; 0x60200; 0x60600;
   0x60620; 0x60630; 0xefe30; 0xefe30; 0xe0630; 0xc0630; 0xc0630; 0x31c0630;
   0x2180630; 0x719f630; 0x339ffb0; 0x3707ffc; 0x3e000fc; 0x1c00004; 0x0; 0x0;
   0x0; 0x0; 0x202000; 0x0; 0x0; 0x0; 0xc0180; 0xc0180;
   0xc0180; 0xc0180; 0x3fff180; 0x3fff188; 0xc0198; 0xc0198; 0xc1f98; 0xc0f98;
   0x1fff598; 0x1fff198; 0x1c0e198; 0xc0c198; 0xc1c198; 0xe18198; 0x738198; 0x330198;
   0x3f1f98; 0x1e1ff8; 0x3f07fc; 0x7b807e; 0x1f1f00c; 0x3c0f800; 0x1001800; 0x0;
   0x0; 0x0; 0x0; 0x202000; 0x0; 0x0; 0x0; 0x0;
   0x2aaaaa8; 0x3fffffc; 0x2abeaa8; 0xf000; 0x27800; 0xf7c00; 0x3e6f00; 0xf867c0;
   0x3e060f8; 0x1c0607c; 0x6008; 0x4000; 0x1fffff8; 0x1fffff8; 0x6000; 0x60c0;
   0xaae0c0; 0xffe0c0; 0xaae0c0; 0x60c0; 0x60c0; 0x7fffffc; 0x3fffffc; 0x1555554;
   0x0; 0x0; 0x0; 0x0; 0x202000; 0x0; 0x0; 0x0;
   0x0; 0x0; 0x1fffff8; 0x1fffff8; 0x7000; 0x3800; 0x1c00; 0x3ffe00;
   0x7fff00; 0x3fff00; 0x3003c0; 0x3801e0; 0x1c04f0; 0x1c0e78; 0xe3c38; 0xe7800;
   0x7f000; 0x3c000; 0x1e000; 0xf000; 0x7c00; 0x1f00; 0xfe0; 0x3f0;
   0x60; 0x0; 0x0; 0x0; 0x0; 0x202000; 0x0; 0x0;
   0x0; 0x0; 0x0; 0x3fffffc; 0x3fffffc; 0x30180; 0x30180; 0x301c0;
   0x8300c0; 0x1c37fe0; 0x1e37fe0; 0xf37070; 0x3b3038; 0x1f387c; 0xf38fe; 0x31dec;
   0x31f80; 0x30f00; 0x30e00; 0x3030700; 0x3030380; 0x70301c0; 0x30300f0; 0x3ff007c;
   0x1fe003c; 0x0; 0x0; 0x0; 0x0; 0x0; 0x202000; 0x0;
   0x0; 0x0; 0x0; 0x1f81ffc; 0x1fffffc; 0xfeae8; 0x1c4060; 0xc0060;
   0x1c0470; 0xc0ff0; 0x1c0ff0; 0xc0e38; 0x15d5618; 0x3fff618; 0x7fff63c; 0xc06fe;
   0x1c07e4; 0xc0384; 0x1c0380; 0xc0180; 0x1c01c0; 0xc00c0; 0x1c00e0; 0xc0070;
   0x1c003c; 0xc001c; 0x1c0008; 0x0; 0x0; 0x0; 0x0; 0x202000;
   0x0; 0x0; 0x0; 0x0; 0x7f9ffc; 0x7f9ffc; 0x618ae8; 0x618060;
   0x618060; 0x61c070; 0x60cff0; 0x3e0eff0; 0x3e0fc30; 0x7c07c38; 0xe18; 0x3fff67c;
   0x1fff6ec; 0x1c067cc; 0xc0e780; 0xe1c300; 0x718380; 0x7f8180; 0x3f01c0; 0x1f00e0;
   0x3f80e0; 0x1f3f078; 0x3e0f83c; 0x3801818; 0x0; 0x0; 0x0; 0x0;
   0x202000; 0x0; 0x0; 0x0; 0x0; 0xffdffc; 0xffdffc; 0xc0cae8;
   0xc0c060; 0xc0c060; 0xc0c060; 0xc0cfe0; 0xffcff0; 0xffcc30; 0xc0ce38; 0xc0ce18;
   0xc0c67c; 0xc0c6ec; 0xc0c7ec; 0xffc380; 0xffc300; 0xc0c380; 0xc0c1c0; 0xc0c1c0;
   0xc0c0e0; 0xc0c070; 0x7fff878; 0x3fff838; 0x18; 0x0; 0x0; 0x0;
   0x0; 0x202000; 0x0; 0x0; 0x0; 0xc0000; 0xc0ffc; 0xc0ffc;
   0xc0ae8; 0x1ffe060; 0x1ffe060; 0x1dd6070; 0x18c67f0; 0x1cc67f0; 0x18c6638; 0x1cc6618;
   0x18c6618; 0x1cc673c; 0x3fffbfe; 0x7fffbec; 0xe0380; 0x1e0180; 0x1e0180; 0x3f01c0].
Definition hanzi_data_211 : list N :=
  [0x3380c0; 0x71c0e0; 0xe1e070; 0x1c0f038; 0x3803818; 0x3001818; 0x0; 0x0;
   0x0; 0x0; 0x202000; 0x0; 0x0; 0x0; 0x1c0000; 0xe1ffc;
   0x1e1ffc; 0x1f0ae8; 0x3f0060; 0x738060; 0x1e1c070; 0x3c8eff0; 0x79c7ff0; 0x20e1e30;
   0x70618; 0x3e618; 0x71e67c; 0x3806ee; 0x1c07e4; 0x8e0380; 0x387c300; 0x1c1e380;
   0xe061c0; 0x7800c0; 0x3c00e0; 0xf0070; 0x7f078; 0x1f81c; 0x7008; 0x0;
   0x0; 0x0; 0x0; 0x202000; 0x0; 0x0; 0x0; 0x60000;
   0x60ffc; 0x71ffc; 0x30ae8; 0x738060; 0x618060; 0xe1c070; 0xc0eff0; 0x1c07ff0;
   0x3fffe38; 0x3fff618; 0x700b61c; 0x100073c; 0x77e; 0x1ffe7f4; 0x1ffe3c0; 0x1c06380;
   0x1806180; 0x1c061c0; 0x18060e0; 0x1c060f0; 0x1806070; 0x1ffe03c; 0x1ffe01c; 0x1c06008;
   0x0; 0x0; 0x0; 0x0; 0x202000; 0x0; 0x0; 0x0;
   0x18000; 0x1cffc; 0x3ffdffc; 0x3ffeae8; 0x3fff060; 0x3860; 0x403c70; 0xfffff0;
   0x7feff0; 0x380e38; 0x1f0618; 0x78618; 0x3fff73c; 0x3ffe7fe; 0x36347e6; 0x3718384;
   0x331c380; 0x3b8e180; 0x39c79c0; 0x38c38e0; 0x18700f0; 0x1838070; 0x1c3c03c; 0xf8c01c;
   0xf80008; 0x0; 0x0; 0x0; 0x0; 0x202000; 0x0; 0x0;
   0x0; 0x1c000; 0x1cffc; 0x1cffc; 0xeae8; 0x1ffe070; 0x1ffe070; 0x1d57070;
   0x1803ff0; 0x1801ff0; 0x19fee38; 0x19fe618; 0x1986618; 0x198673c; 0x19fe37e; 0x19fe3e6;
   0x19863c0; 0x1986180; 0x1986180; 0x19fe1c0; 0x19fe0e0; 0x1c06070; 0x1802030; 0x1c0003c;
   0xfc001c; 0x7c0008; 0x0; 0x0; 0x0; 0x0; 0x202000; 0x0;
   0x0; 0x0; 0xc0000; 0xc0ffc; 0xcdffc; 0xccae8; 0xce060; 0x1ffe060;
   0x1fff470; 0xc3ff0; 0xc3ff0; 0xc3e38; 0xc1618; 0x2aeae18; 0x7fffe7c; 0x3fffefe;
   0x3f07e4; 0x3f8380; 0x7d8380; 0xedc180; 0x1cce1c0; 0x18c70c0; 0x78c3ce0; 0x30c1c70;
   0x20c0c38; 0xc001c; 0xc0008; 0x0; 0x0; 0x0; 0x0; 0x202000;
   0x0; 0x0; 0x0; 0x170000; 0x3b0ffc; 0xf71ffc; 0xc30ae8; 0x1070060;
   0x1fb0060; 0x1fff070; 0xffff0; 0x717f0; 0x60630; 0x3f70638; 0x3ff8618; 0x7fff1c;
   0x106fb6c; 0x38603fc; 0x18e03c0; 0x1ec0180; 0xfc0180; 0x7c01c0; 0x1e00e0; 0x31f8070;
   0x23be070; 0x371fc3c; 0x3e0381c; 0x1c00008; 0x0; 0x0; 0x0; 0x0;
   0x202000; 0x0; 0x0; 0x0; 0x1c00000; 0x3ff87fc; 0x1fff7fc; 0x80b2e8;
   0x1c76060; 0xc66060; 0xc6e070; 0xeec7f0; 0x7dc7f0; 0xffe638; 0x1fff718; 0x6aa618;
   0x78071c; 0x1c036c; 0xe03fc; 0xe03c0; 0x3fff980; 0x3fff980; 0xe01c0; 0xe00e0;
   0xe0060; 0xe0070; 0xe0038; 0xf801c; 0x78008; 0x0; 0x0; 0x0;
   0x0; 0x202000; 0x0; 0x0; 0x0; 0x0; 0xffeffc; 0xffeffc;
   0xc06ae8; 0xc06060; 0xc06060; 0xffe170; 0xffeff0; 0x7f0; 0xaaa638; 0x1fff618;
   0x1aab618; 0x180773c; 0x18e33fc; 0x18e73ec; 0x18e33c0; 0x18e7180; 0x18e3180; 0x18671c0;
   0x9620e0; 0x7f8070; 0xf3c070; 0x3c1f03c; 0x7807c1c; 0x3001c08; 0x0; 0x0;
   0x0; 0x0; 0x202000; 0x0; 0x0; 0x0; 0xc0000; 0xe0ffc;
   0xf0ffc; 0x1f0060; 0x3b8070; 0x718060; 0xe1c070; 0x1c0e7f0; 0x7fffff0; 0x37ffe38;
   0x2555e18; 0x618; 0x186073c; 0x18633ee; 0x1c473ec; 0xcc6380; 0xcc6180; 0xece180;
   0x6cc1c0; 0x20c0c0; 0x300060; 0x380070; 0x3fff838; 0x3fff81c; 0x8; 0x0;
   0x0; 0x0; 0x0; 0x202000; 0x0; 0x0; 0x0; 0x60000;
   0x607fc; 0x607fc; 0x3fffae8; 0x3fff870; 0x30020; 0x30070; 0xfffff0; 0xfff7f0;
   0xc03638; 0xc07618; 0xfff618; 0xfff73c; 0xc033fe; 0xd573e4; 0xfff380; 0xd57180;
   0xc03180; 0xfff1c0; 0xfff0e0; 0xc070e0; 0xc03070; 0x7fffc38; 0x3fffc1c; 0x18;
   0x0; 0x0; 0x0; 0x0; 0x202000; 0x0; 0x0; 0x0;
   0x404000; 0xe0effc; 0x61cffc; 0x618060; 0x738070; 0x388060; 0x3fff070; 0x3fff7f0;
   0x38e37f0; 0x38e3638; 0x3fff718; 0x3fff218; 0x38e373c; 0x38e336e; 0x3fff3ec; 0x3fff3c0;
   0xe0180; 0xe0180; 0x7fffdc0; 0x3fff8e0; 0xe0070; 0xe0070; 0xe0038; 0xe001c;
   0xe0008; 0x0; 0x0; 0x0; 0x0; 0x202000; 0x0; 0x0;
   0x0; 0x0; 0x3fc; 0x1fffffc; 0xfff860; 0x700070; 0x3c0030; 0x1e0030;
   0x3fefbf0; 0x1fefff0; 0x186cb38; 0x19ecf18; 0x19ecb98; 0x1f6cd8c; 0xe6c9be; 0xe6cdf4;
   0xe6c8c0; 0x1f6fcc0; 0x1b6f8c0; 0x31e00e0; 0x1fc060; 0x7c070; 0x38; 0x7ffff1c;
   0x3fffe0e; 0xc; 0x0; 0x0; 0x0; 0x0; 0x202000; 0x0;
   0x0; 0x0; 0x70000; 0xe07fc; 0xe07fc; 0x3fff060; 0x3fff060; 0x3003060;
   0x3f03070; 0x3fff7f0; 0x7fc7f0; 0xc338; 0xc318; 0x1ffc318; 0x1ffc33c; 0x38c3ee;
   0x38c1ec; 0x38c1c0; 0x38c1c0; 0x3fff8c0; 0x3fffcc0; 0x80e0; 0x71c070; 0xe1e030;
   0x1c0703c; 0x3803c1c; 0x100180c; 0x0; 0x0; 0x0; 0x0; 0x202000;
   0x0; 0x0; 0x0; 0xe0c000; 0xe0cffc; 0x3fffffc; 0x3fffae8; 0xe0c060;
   0xe0c060; 0xffc070; 0xae87f0; 0xc07f0; 0x1ffe638; 0x1fff718; 0x18c2318; 0x18c733c;
   0x1ffe37e; 0x1fff3f6; 0xc01c4; 0x3fff180; 0x3fff1c0; 0xc00c0; 0x1ffe0e0; 0x1ffe070;
   0xc0038; 0x55d503c; 0x3fff80c; 0x5555004; 0x0; 0x0; 0x0; 0x0;
   0x202000; 0x0; 0x0; 0x0; 0xe0000; 0xe07fc; 0x3fffffc; 0x3fff860;
   0xe0070; 0x1fff060; 0x1fff070; 0x3f0; 0x3fffff0; 0x3fffb38; 0x3001b18; 0x37ffb18;
   0x17ff33c; 0x3fe; 0x1fff1e4; 0xfff1c0; 0x1c031c0; 0xc030c0; 0x1fff0e0; 0x20c060;
   0x70c070; 0x31c038; 0x7fffe3c; 0x3fffe1c; 0xc; 0x0; 0x0; 0x0;
   0x0; 0x202000; 0x0; 0x0; 0x0; 0x0; 0xfff00; 0x1fff00].
Definition hanzi_data_212 : list N :=
  [0xeab00; 0x1c0300; 0xc0380; 0x1c0380; 0xc0180; 0x1c01c0; 0x3fc00f0; 0x3f8007c;
   0x18; 0x7ffff0; 0x3fffe0; 0x1c01c0; 0x1c0380; 0xe0700; 0xf0e00; 0x79c00;
   0x1f800; 0x1f800; 0x7fe00; 0x1ff9ff0; 0x3fc03fc; 0x1c0007c; 0x0; 0x0;
   0x0; 0x0; 0x202000; 0x0; 0x0; 0x0; 0x0; 0xff8000;
   0xffbffc; 0xe3bff8; 0xe3801c; 0xe39818; 0xe19c7c; 0xe18c78; 0x7e1ccdc; 0x3c0efd8;
   0x479c; 0xaaa798; 0x1ffe71c; 0x1ffe718; 0x1c18f9c; 0xc38d98; 0xe71ddc; 0x6618d8;
   0x7e18fc; 0x3c0078; 0x3c001c; 0xff3ff8; 0x1e7fffc; 0x381eaa8; 0x1004000; 0x0;
   0x0; 0x0; 0x0; 0x202000; 0x0; 0x0; 0x0; 0xc00;
   0x7f9f80; 0x7f87f0; 0x6180f0; 0x718030; 0x618030; 0x71c570; 0x61cff0; 0x71cff0;
   0x3e0e030; 0x3e07030; 0x2030; 0x1ffeff0; 0xffeff0; 0xc0c030; 0xe0c030; 0x71c030;
   0x738fb0; 0x3f1ffe; 0x1e00fe; 0x1e0034; 0x3f8030; 0x1f3f030; 0x3e0f830; 0x1007030;
   0x0; 0x0; 0x0; 0x0; 0x202000; 0x0; 0x0; 0x0;
   0x0; 0x7f1fe0; 0x7f1ff8; 0x630038; 0x630558; 0x630ff8; 0x631ff8; 0x638818;
   0x1619ff8; 0x3e1cff8; 0x7c0fc18; 0x4818; 0x1ffdff8; 0x1ffcff8; 0x1c1c018; 0xe19ff8;
   0xe39ff8; 0x731ab8; 0x771c18; 0x3e1c18; 0x3e1c1c; 0x7f8c0c; 0x1f7cd4c; 0x3c1ff8e;
   0x1006784; 0x0; 0x0; 0x0; 0x0; 0x202000; 0x0; 0x0;
   0x0; 0x0; 0xff3ff8; 0xff7ff8; 0xe33018; 0xe37018; 0xe33018; 0xe37ff8;
   0xe32ab8; 0x7c39998; 0x3c1d998; 0xd998; 0xaabff8; 0x1fffff8; 0x1ff9998; 0x1c31998;
   0xc31998; 0xe77ff8; 0x667ff8; 0x7c001c; 0x3c198c; 0x3c39cc; 0x7e30cc; 0x1e7f0ee;
   0x383c064; 0x300c040; 0x0; 0x0; 0x0; 0x0; 0x202000; 0x0;
   0x0; 0x0; 0x40; 0xff00e0; 0xff3f7c; 0xe33e18; 0xe3301c; 0xe33008;
   0xe33f7c; 0xe33e78; 0x3e3b01c; 0x3c1b008; 0x141fffc; 0xbff8; 0x1ffd554; 0x1ffc000;
   0x1c3bffc; 0xc33ffc; 0xe715d4; 0x660180; 0x7e0180; 0x3c0180; 0x3e7f80; 0x7f3ffc;
   0x1f7c1fc; 0x3c1e000; 0x1006000; 0x0; 0x0; 0x0; 0x0; 0x202000;
   0x0; 0x0; 0x0; 0x180; 0xfe0180; 0xff7ffc; 0xc63ffc; 0xc70180;
   0xc63ff8; 0xc73ff8; 0xc30000; 0x1c77ffc; 0x3c3bffc; 0x7c1f04c; 0xb0cc; 0x1ff80c0;
   0x1ffbffc; 0x1c73ffc; 0xc60330; 0xe63ff0; 0x6e3ff8; 0x7c1770; 0x380300; 0x7c3ff4;
   0xfe3ffc; 0x1e7835c; 0x383c300; 0x100c300; 0x0; 0x0; 0x0; 0x0;
   0x202000; 0x0; 0x0; 0x0; 0xc0; 0xff01c0; 0xff15d4; 0xc33ffc;
   0xc33ffc; 0xc30c30; 0xc30e70; 0xc30660; 0x3c3bffc; 0x3c1fffc; 0x81c0; 0xaa80f0;
   0x1fff9bc; 0x1ff9f8c; 0x1c30fc0; 0xc306e0; 0xe71f7c; 0x663f9c; 0x7e77c4; 0x3c26e0;
   0x3c0678; 0x7e061e; 0x1e7c74c; 0x3c3e3e0; 0x300c1e0; 0x0; 0x0; 0x0;
   0x0; 0x202000; 0x0; 0x0; 0x0; 0x0; 0xffff80; 0x7fffc0;
   0x6aebc0; 0x60c1c0; 0x60e0c0; 0x60e0c0; 0x60e0c0; 0x60e0c0; 0x3fffffc; 0x3fffffc;
   0x6060e0; 0x707060; 0x606060; 0x707070; 0x703060; 0x703870; 0x1fffff0; 0x1fffff0;
   0x300e00; 0x300f00; 0x380380; 0x3801f0; 0x1fc0f8; 0xfc070; 0x0; 0x0;
   0x0; 0x0; 0x202000; 0x0; 0x0; 0x0; 0x0; 0x200000;
   0x7fffc0; 0x7fffc0; 0x7060c0; 0x7060c0; 0x7060c0; 0x7060e0; 0x7060e0; 0x7060e0;
   0x7fffffc; 0x3fffffc; 0x7fffffc; 0x306060; 0x707060; 0x303060; 0x707060; 0x303060;
   0x707070; 0x303060; 0x3ffff0; 0x3ffff0; 0x300000; 0x300000; 0x0; 0x0;
   0x0; 0x0; 0x0; 0x202000; 0x0; 0x0; 0x0; 0x0;
   0x7fff80; 0x7fffc0; 0x6aabc0; 0x6011c0; 0x6078c0; 0x61f0c0; 0x63c0c0; 0x6180c0;
   0x6000e0; 0x3fffffc; 0x3fffffc; 0x700060; 0x601860; 0x707c70; 0x70f060; 0x71c070;
   0x308030; 0x1fffff0; 0x1fffff0; 0x1fffff0; 0x380000; 0x380000; 0x1fc000; 0xfc000;
   0x0; 0x0; 0x0; 0x0; 0x202000; 0x0; 0x0; 0x0;
   0x380; 0x380; 0x1c0; 0x3ffffc0; 0x3ffffe0; 0xe0; 0x70; 0x7fffb8;
   0x7fffdc; 0x6010cc; 0x7079c0; 0x60e0c0; 0x71c0c0; 0x3fffffc; 0x7fffffc; 0x2b008e8;
   0x707ce0; 0x30f060; 0x71c060; 0x2baaae0; 0x3fffff0; 0xbaaaa0; 0x380000; 0x3f8000;
   0x1f0000; 0x0; 0x0; 0x0; 0x0; 0x202000; 0x0; 0x0;
   0x0; 0x6000; 0x6000; 0x1557554; 0x3fffffc; 0x3fffffc; 0x6000; 0x557550;
   0xfffff0; 0xfffff0; 0x0; 0x7fffc0; 0x3fffc0; 0x7060c0; 0x3060c0; 0x7fffffc;
   0x3fffffc; 0x5757574; 0x303060; 0x303070; 0x1ffffe0; 0x1fffff0; 0x380e00; 0x1c4780;
   0x1f83e0; 0xf80c0; 0x0; 0x0; 0x0; 0x0; 0x202000; 0x0;
   0x0; 0x0; 0x6000; 0x6000; 0x1fffff8; 0x1fffff8; 0x6000; 0x2aeaa0;
   0x7fffe0; 0x2aeaa0; 0x6000; 0x3fffffc; 0x3fffffc; 0x0; 0x7fffc0; 0x3fffc0;
   0x7070c0; 0x3060c0; 0x7fffffc; 0x3fffffc; 0x3070e0; 0x3060e0; 0x1ffffe0; 0xffffe0;
   0x180000; 0x1f8000; 0x1f8000; 0x0; 0x0; 0x0; 0x0; 0x202000;
   0x0; 0x0; 0x0; 0x1c0060; 0x180060; 0x180070; 0x3ffdff0; 0x3ffdff8;
   0x60018; 0xe7055c; 0xc30ffc; 0x1c39ff0; 0x3ffccf0; 0x3ffdd90; 0x3000d98; 0x1dd9d18;
   0xc9bffe; 0xddbffe; 0xc98cd8; 0xdd8dd8; 0xc98d98; 0xdd8d9c; 0x2c9bff8; 0x6ddfffc;
   0x6c8ce00; 0x6dcc600; 0x3c8e7c0; 0x10047c0; 0x0; 0x0; 0x0; 0x0;
   0x202000; 0x0; 0x0; 0x0; 0x18070; 0x18030; 0x18070; 0x18030;
   0x18070; 0x818030; 0x1c18070; 0x1e18030; 0xf19ff0; 0x3d9ff0; 0x1f9ff0; 0x78030;
   0x18070; 0x18030; 0x18070; 0x18030; 0x1018070; 0x3018030; 0x3018070; 0x3819830].
Definition hanzi_data_213 : list N :=
  [0x3819f70; 0x3819ff0; 0x1ff83f8; 0xff8078; 0x10; 0x0; 0x0; 0x0;
   0x0; 0x202000; 0x0; 0x0; 0x0; 0x1c070; 0x18070; 0xc1c070;
   0x1e18070; 0xfddff0; 0x1f9ff0; 0x7c070; 0x18070; 0x301c070; 0x381a070; 0x3d5fff0;
   0x1ff9ff8; 0x1ff01f0; 0x6000; 0x6000; 0x6000; 0x3fffffc; 0x3fffffc; 0x1557554;
   0x6000; 0x6000; 0x6000; 0x6000; 0x6000; 0x6000; 0x0; 0x0;
   0x0; 0x0; 0x202000; 0x0; 0x0; 0x0; 0x18070; 0x18070;
   0x1c18070; 0x1e18070; 0xfdbff0; 0x3fbff0; 0x78070; 0x3018070; 0x3018070; 0x301be70;
   0x3ffbff0; 0x1ff83f8; 0x1c30; 0x383c00; 0x1c7000; 0xee320; 0x770770; 0xe38330;
   0x1c1e738; 0x188fb18; 0x3b83f1c; 0x3b80f8c; 0x11ffff0; 0x1ffef8; 0x55410; 0x0;
   0x0; 0x0; 0x0; 0x202000; 0x0; 0x0; 0x0; 0x186000;
   0x186000; 0x1867fc; 0x1867f8; 0x1866dc; 0x1866c8; 0x1866dc; 0x11866c8; 0x3d966dc;
   0x1fbe6c8; 0xfbe7fc; 0x3867f8; 0x1866dc; 0x1866c8; 0x1866dc; 0x1866c8; 0x1866dc;
   0x1866e8; 0x1867fc; 0x21867f8; 0x71b601c; 0x31be008; 0x3f9f000; 0x3f82000; 0x0;
   0x0; 0x0; 0x0; 0x0; 0x202000; 0x0; 0x0; 0x0;
   0x18070; 0x818070; 0x1e18070; 0xf9bff0; 0x3fbff0; 0x38070; 0x1018070; 0x301a070;
   0x301bff0; 0x3ff8ff8; 0x1ff0070; 0x0; 0x3fffffc; 0x3fffffc; 0x38380; 0x83a1c0;
   0x1f3fff0; 0xffbaf8; 0x1fb85c; 0x39de0; 0x7038f80; 0x3038780; 0x3ff83f0; 0x3ff00fc;
   0x1540018; 0x0; 0x0; 0x0; 0x0; 0x202000; 0x0; 0x0;
   0x0; 0x100000; 0x3e0000; 0x3ff000; 0x3ff80; 0x7ffc; 0x3af8; 0x3800;
   0xe03800; 0xfff800; 0x3fff80; 0x1fff8; 0x38f8; 0x3800; 0x3803800; 0x3fff800;
   0xffff80; 0x1fffc; 0x38fc; 0x1003800; 0x3003800; 0x7003800; 0x3003800; 0x3fff800;
   0x1fff000; 0x554000; 0x0; 0x0; 0x0; 0x0; 0x202000; 0x0;
   0x0; 0x0; 0xe0400; 0xe0f00; 0xe07f0; 0xe00fe; 0x3fe00dc; 0x3fe00c0;
   0xe00c0; 0xe0ec0; 0xe1ffc; 0xe03fc; 0x1ffe0dc; 0x1ffe0c0; 0x18060c0; 0x18078c0;
   0x1807ff0; 0x1806ffe; 0x18060fc; 0x1ffe0c0; 0x1ffe0c0; 0x10000c0; 0x70000c0; 0x30000c0;
   0x3ffffc0; 0x1ffff80; 0x0; 0x0; 0x0; 0x0; 0x0; 0x202000;
   0x0; 0x0; 0x0; 0x70300; 0x238780; 0x71c1fc; 0xe0c07e; 0x1fce064;
   0x1fff060; 0x387f060; 0xc0260; 0xce7f0; 0xc63fc; 0x1fff07c; 0x1fff060; 0xc3860;
   0xc0060; 0xc07f0; 0x3fffffe; 0x3fff87c; 0xc0060; 0xc0060; 0xc0060; 0x70c0060;
   0x3080060; 0x3ffffe0; 0x3ffffc0; 0x555500; 0x0; 0x0; 0x0; 0x0;
   0x202000; 0x0; 0x0; 0x0; 0x7000; 0x6000; 0x3fffffc; 0x3fffffc;
   0x0; 0x3fffc0; 0x7fffc0; 0x3000c0; 0x7555c0; 0x3fffc0; 0x0; 0x3fffffc;
   0x3fffffc; 0x38e000c; 0x39fffdc; 0x380bfcc; 0x7f7000; 0x7ffff0; 0x3ff0; 0x1ffb000;
   0x1fffffc; 0x30033f8; 0x3007000; 0x3fff000; 0x1ffc000; 0x0; 0x0; 0x0;
   0x0; 0x202000; 0x0; 0x0; 0x0; 0x1c0400; 0x8c0f80; 0x18dc7f0;
   0xccc0fe; 0xcce0dc; 0x4e60c0; 0x3f00c0; 0xff0ec0; 0x1e3cff0; 0x180e3fc; 0x1c60dc;
   0x8c00c0; 0x18cc0c0; 0xccdec0; 0xcc7ff0; 0x6e63fe; 0x3f00fc; 0xf700c0; 0x1e3c0c0;
   0x381f8c0; 0x70070c0; 0x30000c0; 0x3ffffc0; 0x1ffff80; 0x0; 0x0; 0x0;
   0x0; 0x0; 0x202000; 0x0; 0x0; 0x0; 0x1c0000; 0x3ffe80;
   0x1fff0; 0xe83000; 0xffffc0; 0xfff0; 0x1fd3010; 0x1ffffa0; 0x1817ffc; 0x1803008;
   0x1fff000; 0xffe000; 0xfc0fc0; 0x3fcffc; 0x10dc1dc; 0x1fc0fc0; 0x7fdffc; 0xfc0fc;
   0x3fc1fc0; 0x3ff9ff8; 0x10fc1fc; 0x30c38c0; 0x35c3fc0; 0x3fc0fe0; 0x1500040; 0x0;
   0x0; 0x0; 0x0; 0x202000; 0x0; 0x0; 0x0; 0x180;
   0xc00d80; 0x1f01cc0; 0x7e18e0; 0x1f3f70; 0x197ff8; 0x1c6770; 0x1980300; 0x1ff7ffc;
   0xfffffc; 0x1f5fd4; 0x181ce0; 0x1c3870; 0x398733c; 0x3ff23cc; 0xff98e0; 0x1f8e7c;
   0x186718; 0x11c73c0; 0x31838f8; 0x71c1c70; 0x3180f80; 0x3f803f0; 0x3f800f8; 0x1f00030;
   0x0; 0x0; 0x0; 0x0; 0x202000; 0x0; 0x0; 0x0;
   0x800300; 0x1e00380; 0x1fc07c0; 0x3f8ee0; 0x1fbcf0; 0x18f878; 0x1c7ffc; 0x2181fec;
   0x3fc1554; 0x3ff8000; 0x1fe1fc; 0x18e5fc; 0x1c658c; 0x18658c; 0x3fc65fc; 0x3ffe5ac;
   0x7fe58c; 0x18e5ac; 0x1c65fc; 0x218658c; 0x71c658c; 0x318618c; 0x3fc618c; 0x3f83dec;
   0x1f03cec; 0x0; 0x0; 0x0; 0x0; 0x202000; 0x0; 0x0;
   0x0; 0x1c0100; 0x87fc0; 0x1ff7df8; 0xaa607e; 0x1dc706c; 0x3ffb060; 0x3ff9860;
   0x883be0; 0x1ff7ffc; 0xff7cfc; 0x1c6064; 0x1ff6c60; 0x1ff6c60; 0x82f60; 0x1ffbffc;
   0x1ffb8fe; 0x1c187c; 0x83860; 0x1fc60; 0x1ffee60; 0x7ff0760; 0x3000060; 0x3ffffe0;
   0x1ffffc0; 0x0; 0x0; 0x0; 0x0; 0x0; 0x202000; 0x0;
   0x0; 0x0; 0xc1310; 0xe3b38; 0x61b70; 0x3fe0b20; 0x3ff7ff8; 0xc7bff8;
   0xe7f558; 0x6cafd8; 0x7c7cd8; 0x3c2cd8; 0xff7fd8; 0x3c3ea98; 0x39dfc18; 0x3fe000;
   0x7fff0; 0x803be0; 0xfff000; 0x2ffff8; 0x3c037f8; 0x3fff000; 0x11ffff8; 0x3003bfc;
   0x3fff000; 0x3ffe000; 0x554000; 0x0; 0x0; 0x0; 0x0; 0x202000;
   0x0; 0x0; 0x0; 0x707000; 0x30e380; 0x38c3f0; 0x1fffcfe; 0x15dd47c;
   0xc89860; 0xddd860; 0x68b260; 0x7dd7fc; 0x3fffcfc; 0x3fffc7c; 0x60; 0x7ff060;
   0x7ff260; 0x6037f0; 0x6ab3fe; 0x7ff07c; 0x603060; 0x7603060; 0x37ff060; 0x37ff060;
   0x30000e0; 0x3ffffe0; 0x1ffffc0; 0x0; 0x0; 0x0; 0x0; 0x0;
   0x202000; 0x0; 0x0; 0x0; 0x1c300; 0xac780; 0x3fe1fc; 0x18607e].
Definition hanzi_data_214 : list N :=
  [0x1fff064; 0x1fffc60; 0x1c63860; 0x1fff260; 0x1d777f0; 0x1fff3fc; 0x1fff07c; 0x60;
   0x3fffc60; 0x60; 0xfff7f0; 0xffe7fe; 0xc0707c; 0xffe060; 0xc07060; 0xeaa060;
   0x7fff060; 0x3000060; 0x3ffffe0; 0x3ffffc0; 0x555500; 0x0; 0x0; 0x0;
   0x0; 0x202000; 0x0; 0x0; 0x0; 0x0; 0x1e07efc; 0x1fc76dc;
   0x3feeac; 0x1f7efc; 0x18668c; 0x1c7efc; 0x3987efc; 0x3fc66cc; 0xfffefc; 0x1fd774;
   0x180330; 0x1c7ff0; 0x3987ff8; 0x7fc063c; 0xff863e; 0x1ffffe; 0x180638; 0x1c0638;
   0x6183ff8; 0x71c5778; 0x2180638; 0x7fc7ff8; 0x3f87ff8; 0x38; 0x0; 0x0;
   0x0; 0x0; 0x202000; 0x0; 0x0; 0x0; 0x400000; 0x7e0000;
   0xfffd00; 0xfffe0; 0x1dfe0; 0x18060; 0x1c060; 0x18060; 0x18060; 0x18060;
   0x3ffffe0; 0x3ffffe0; 0x3ffffe0; 0x38060; 0x30060; 0x30060; 0x70060; 0x70060;
   0x1070060; 0x30e6060; 0x31c7c60; 0x31c3fe0; 0x3f807f0; 0x3f000e0; 0x1c00000; 0x0;
   0x0; 0x0; 0x0; 0x202000; 0x0; 0x0; 0x0; 0x300000;
   0x7f8000; 0x7fff00; 0x3ffe0; 0x1c7f0; 0xc060; 0x1c070; 0x1c060; 0x1c070;
   0x18060; 0x3fffff0; 0x3ffffe0; 0x157d570; 0x38060; 0x30070; 0x30060; 0x70070;
   0x60060; 0x10e3070; 0x30e6060; 0x71c6c70; 0x338efe0; 0x3f9cff0; 0x3f180f0; 0x1c00010;
   0x0; 0x0; 0x0; 0x0; 0x202000; 0x0; 0x0; 0x0;
   0x0; 0x2aaaa8; 0x7ffff8; 0x7ffff8; 0x700038; 0x600038; 0x700038; 0x7ffff8;
   0x7ffff8; 0x2aeab8; 0x6038; 0x6038; 0x6038; 0x1fffff8; 0x1fffff8; 0xaaeab8;
   0x1c038; 0x18038; 0x838038; 0x1838038; 0x1871c38; 0x18e1fb8; 0x1fe0ff8; 0xf800f8;
   0x700018; 0x0; 0x0; 0x0; 0x0; 0x202000; 0x0; 0x0;
   0x0; 0x60; 0x1fff0e0; 0x1fff0c0; 0x18030c0; 0x18031c0; 0x18037fc; 0x18037fc;
   0x1fff038; 0x1fff038; 0xc3038; 0x1c3038; 0xc3038; 0x15d7038; 0x3fff038; 0x3fff038;
   0x183038; 0x183038; 0x183038; 0x3837f8; 0x23833f8; 0x7303000; 0x277b000; 0x7e7f800;
   0x3e0f800; 0x1c01800; 0x0; 0x0; 0x0; 0x0; 0x202000; 0x0;
   0x0; 0x0; 0x380; 0x180; 0x1c0; 0x3ffffc0; 0x3ffffe0; 0xe0;
   0x555570; 0xffffb8; 0xffffbc; 0x1c; 0x15555c; 0x3fffe0; 0x1ffff0; 0x380000;
   0x380000; 0x380000; 0x380000; 0x380000; 0x300000; 0x2300000; 0x6700000; 0x2600000;
   0x7e00000; 0x3e00000; 0x1c00000; 0x0; 0x0; 0x0; 0x0; 0x202000;
   0x0; 0x0; 0x0; 0x180; 0x380; 0x3ffffc0; 0x3ffffe0; 0xe0;
   0x70; 0xffffbc; 0xffff9c; 0x8; 0x0; 0x3ffff0; 0x3ffff0; 0x300000;
   0x300c00; 0x300c00; 0x300e00; 0x300e00; 0x300e00; 0x300700; 0x2300700; 0x67003c0;
   0x27001e0; 0x77000f8; 0x3e0003c; 0x3c00018; 0x0; 0x0; 0x0; 0x0;
   0x202000; 0x0; 0x0; 0x0; 0x180; 0x180; 0x3ffffc0; 0x3ffffe0;
   0xe0; 0xaaaa70; 0xffff38; 0x1c; 0x15555c; 0x3fffe8; 0x3ffff0; 0x300000;
   0x307ff0; 0x307ff0; 0x306180; 0x306180; 0x3171c0; 0x33f1c0; 0x37f1c0; 0x23300e0;
   0x67300e0; 0x2630070; 0x7e35038; 0x3e3f01c; 0x1c1f008; 0x0; 0x0; 0x0;
   0x0; 0x202000; 0x0; 0x0; 0x0; 0x180; 0x380; 0x3ffffc0;
   0x3ffffe0; 0xe0; 0x70; 0xffffb8; 0xffff9c; 0x8; 0x0; 0x3ffff0;
   0x3ffff0; 0x300000; 0x3060c0; 0x3061c0; 0x3060c0; 0x3061c0; 0x3060c0; 0x3060c0;
   0x23060e0; 0x6706070; 0x2706070; 0x770603c; 0x3e0601c; 0x1c06008; 0x0; 0x0;
   0x0; 0x0; 0x202000; 0x0; 0x0; 0x0; 0x180; 0x180;
   0x15555c0; 0x3ffffe0; 0x15555e0; 0x70; 0xfffff8; 0xffffbc; 0x1c; 0x3fffe8;
   0x3ffff0; 0x300000; 0x300c00; 0x300c00; 0x330c30; 0x330c30; 0x330c30; 0x330c30;
   0x730c30; 0x2330c30; 0x7730c30; 0x263fff0; 0x3e3fff0; 0x3c30000; 0x1c10000; 0x0;
   0x0; 0x0; 0x0; 0x202000; 0x0; 0x0; 0x0; 0x180;
   0x380; 0x3ffffc0; 0x3ffffe0; 0xe0; 0x70; 0xffffb8; 0xffff9c; 0x8;
   0x0; 0x3ffff0; 0x3ffff0; 0x300000; 0x3180e0; 0x319ce0; 0x318ce0; 0x319ce0;
   0x318ce0; 0x719c60; 0x2318c60; 0x6719c70; 0x2618c30; 0x7e19c3c; 0x3e18c1c; 0x1c18008;
   0x0; 0x0; 0x0; 0x0; 0x202000; 0x0; 0x0; 0x0;
   0x180; 0x380; 0x3ffffc0; 0x3ffffe0; 0xf0; 0xaaaaf0; 0xffffbc; 0xaaaa9c;
   0x8; 0x3ffff0; 0x3ffff0; 0x306300; 0x306380; 0x30e1c0; 0x31c0e0; 0x378070;
   0x3ffffc; 0x34ffc8; 0x71c700; 0x270c300; 0x670c380; 0x260c1c0; 0x7e0d5f0; 0x3c0f878;
   0x1c07810; 0x0; 0x0; 0x0; 0x0; 0x202000; 0x0; 0x0;
   0x0; 0x180; 0x180; 0x3ffffc0; 0x3ffffe0; 0x70; 0xfffff0; 0xffffbc;
   0x1c; 0x3ffff0; 0x3ffff0; 0x303380; 0x32bba8; 0x37fff8; 0x333380; 0x3777d0;
   0x33fff0; 0x703398; 0x303398; 0x7ffff8; 0x26ebba8; 0x6763180; 0x266b1c0; 0x7e7b0f0;
   0x3c03078; 0x3c03010; 0x0; 0x0; 0x0; 0x0; 0x202000; 0x0;
   0x0; 0x0; 0x380; 0x180; 0x1ffffc0; 0x1ffffe0; 0x70; 0x7fffb8;
   0x7fff9c; 0x8; 0x155550; 0x3ffff8; 0x355750; 0x300380; 0x37ffc0; 0x33aaf0;
   0x31e1fc; 0x307f88; 0x71ff00; 0x3fe3f8; 0x77077c; 0x603f80; 0x760fc00; 0x26040e0;
   0x7c07ff0; 0x3c3fe00; 0x181c000; 0x0; 0x0; 0x0; 0x0; 0x202000;
   0x0; 0x0; 0x0; 0x380; 0x180; 0x1ffffc0; 0x1ffffe0; 0x70;
   0x7fffb8; 0x7fff9c; 0x8; 0x3ffff8; 0x3ffff8; 0x300000; 0x30aaa0; 0x33ffe0;
   0x30e000; 0x307800; 0x31ff80; 0x7fc7f8; 0x3e00f8; 0x73ffe0; 0x63ffe0; 0x7601c00].
Definition hanzi_data_215 : list N :=
  [0x2601800; 0x3fffff8; 0x3cffff8; 0x1855550; 0x0; 0x0; 0x0; 0x0;
   0x202000; 0x0; 0x0; 0x0; 0x180; 0x180; 0x3ffffc0; 0x3ffffe0;
   0xe0; 0xaaaaf0; 0xfffff8; 0x3c; 0x15555e; 0x3ffff8; 0x355550; 0x300000;
   0x37fff0; 0x33aab0; 0x370c30; 0x33ffb0; 0x77ffb0; 0x330c30; 0x771e30; 0x2633630;
   0x677e3f0; 0x26340b0; 0x7e7fff0; 0x3c3fff0; 0x3c70030; 0x0; 0x0; 0x0;
   0x0; 0x202000; 0x0; 0x0; 0x0; 0x180; 0x180; 0x3ffffc0;
   0x3ffffe0; 0x70; 0xffff70; 0xffff38; 0x1c; 0x3ffffc; 0x3aaaa0; 0x300c00;
   0x300c00; 0x37fff8; 0x37fff8; 0x3043c0; 0x306ae0; 0x317ff0; 0x339e20; 0x71c7c0;
   0x270e3f8; 0x670fc78; 0x263fe00; 0x7e787c0; 0x3ce01f8; 0x3c40038; 0x0; 0x0;
   0x0; 0x0; 0x202000; 0x0; 0x0; 0x0; 0x180; 0x180;
   0x3ffffc0; 0x3ffffe0; 0x70; 0xaaaaf0; 0xffffbc; 0x1e; 0x15555c; 0x3fffe0;
   0x3555d0; 0x30e0c0; 0x3061c0; 0x37fff8; 0x37fff8; 0x300c00; 0x33fff0; 0x33fff0;
   0x700c00; 0x232aea8; 0x677fffc; 0x2600c00; 0x7e00c00; 0x3e00c00; 0x3c00c00; 0x0;
   0x0; 0x0; 0x0; 0x202000; 0x0; 0x0; 0x0; 0x180;
   0x180; 0x1ffffc0; 0x1ffffe0; 0x70; 0xffffb8; 0xffffbc; 0x1e; 0x7ffffc;
   0x7ffff8; 0x700c00; 0x600c00; 0x77fff8; 0x66aab8; 0x760718; 0x620308; 0x7ffffc;
   0x6ffff8; 0x61c1c0; 0x260e3c0; 0x6607fc0; 0x2e0f800; 0x7c7ffc0; 0x3cf83f8; 0x1840078;
   0x0; 0x0; 0x0; 0x0; 0x202000; 0x0; 0x0; 0x0;
   0x180; 0x180; 0x3ffffc0; 0x3ffffe0; 0xe0; 0xaaaaf0; 0xffffb8; 0x3c;
   0x3ffffe; 0x3ffff8; 0x355550; 0x300000; 0x37fff8; 0x37fff8; 0x307300; 0x362338;
   0x377330; 0x332320; 0x737360; 0x261a360; 0x671f360; 0x2602300; 0x7fffffc; 0x3cffffc;
   0x3c00000; 0x0; 0x0; 0x0; 0x0; 0x202000; 0x0; 0x0;
   0x0; 0x380; 0x180; 0x1ffffc0; 0x1ffffe0; 0x70; 0x7fffb8; 0x7fff9c;
   0x8; 0x7ffff8; 0x3ffff8; 0x700c00; 0x37fff8; 0x77fffc; 0x300c00; 0x73fff0;
   0x23fff0; 0x730070; 0x630030; 0x73fff0; 0x62bba0; 0x7603300; 0x26c3380; 0x3cc31e0;
   0x3cff0fc; 0x107e018; 0x0; 0x0; 0x0; 0x0; 0x202000; 0x0;
   0x0; 0x0; 0x180; 0x180; 0x3ffffc0; 0x3ffffe0; 0x60; 0xffff70;
   0xffff38; 0x1c; 0x3ffffc; 0x3fffe8; 0x310c40; 0x338ce0; 0x31de60; 0x30fe30;
   0x31f780; 0x338de0; 0x330c78; 0x330c00; 0x738e60; 0x271fe70; 0x670f738; 0x261e390;
   0x7e781f0; 0x3ce00fc; 0x3c40018; 0x0; 0x0; 0x0; 0x0; 0x202000;
   0x0; 0x0; 0x0; 0x180; 0xaaabc0; 0x1ffffc0; 0xe0; 0xfffff0;
   0xffffb8; 0x1c; 0x2aaaa0; 0x3ffff0; 0x300000; 0x31fff0; 0x33fff0; 0x318000;
   0x31ffe0; 0x71ffe0; 0x3baaa8; 0x7ffffc; 0x720c30; 0x2779c70; 0x661fee0; 0x661ffc0;
   0x2e3cdf0; 0x7cf0c7c; 0x3c40f88; 0x1000f00; 0x0; 0x0; 0x0; 0x0;
   0x202000; 0x0; 0x0; 0x0; 0x180; 0x180; 0x1ffffc0; 0x1ffffe0;
   0x70; 0x7fffb8; 0x7fff9c; 0x8; 0x3ffff8; 0x3aaaa0; 0x300c00; 0x37fff8;
   0x300c00; 0x33fff0; 0x300c00; 0x3ffffc; 0x755554; 0x33ffe0; 0x73d570; 0x63ffe0;
   0x663d570; 0x263ffe0; 0x7e3d570; 0x3c3f060; 0x1c1e070; 0x0; 0x0; 0x0;
   0x0; 0x202000; 0x0; 0x0; 0x0; 0x180; 0x180; 0x3ffffc0;
   0x3ffffe0; 0x70; 0xffff30; 0xffff38; 0x1c; 0x3ffff8; 0x3fffe0; 0x315540;
   0x33ffe0; 0x330060; 0x33ffe0; 0x335560; 0x33ffe0; 0x33ffe0; 0x300000; 0x77fff0;
   0x2633330; 0x6773330; 0x2633330; 0x3fffffc; 0x3cffffc; 0x1800000; 0x0; 0x0;
   0x0; 0x0; 0x202000; 0x0; 0x0; 0x0; 0x6000; 0x6000;
   0x6000; 0x6000; 0x6000; 0x406000; 0x1e06000; 0xe0effc; 0x70e7fc; 0x38e600;
   0x1de700; 0xfe700; 0x76700; 0x66380; 0xe6180; 0x1c61c0; 0x3c61c0; 0x7860e0;
   0xf06070; 0x3e06038; 0x7c0601c; 0x3006008; 0x7e00; 0x7e00; 0x7c00; 0x0;
   0x0; 0x0; 0x0; 0x202000; 0x0; 0x0; 0x0; 0x0;
   0x60; 0x1f0; 0x3c0; 0x700; 0x200; 0x0; 0x0; 0x1c;
   0x3e; 0x1f8; 0xe0; 0x80; 0x0; 0x400; 0xe00; 0x700;
   0x300; 0x380; 0x1c0; 0x1e0; 0xe0; 0x70; 0x38; 0x30;
   0x0; 0x0; 0x0; 0x0; 0x202000; 0x0; 0x0; 0x0;
   0x700; 0x3f00; 0x1fc00; 0x7e000; 0x78000; 0x22aa0; 0x7fe0; 0x807fe0;
   0x1c0e000; 0x1e0e000; 0xf0e000; 0x79e7fc; 0x3de7fc; 0xfe300; 0x76300; 0x76380;
   0xe61c0; 0x1c61c0; 0x3c60e0; 0x786070; 0x1f06078; 0x3c0603e; 0x300751c; 0x7e00;
   0x7e00; 0x0; 0x0; 0x0; 0x0; 0x202000; 0x0; 0x0;
   0x0; 0x6000; 0x6000; 0xf000; 0x1f800; 0x39c00; 0xf0e00; 0x1e0780;
   0x7ce3e0; 0x7f0e1fc; 0x3e0e03c; 0x100e01c; 0xc0e000; 0xe1eff8; 0x71eff8; 0x3fe600;
   0x1fe600; 0xfe700; 0xee380; 0x1ce1c0; 0x38e0e0; 0xf0e070; 0x3e0e03c; 0x3c0f41c;
   0xfe00; 0x7e00; 0x0; 0x0; 0x0; 0x0; 0x202000; 0x0;
   0x0; 0x0; 0x10; 0x78; 0x1fff9f0; 0x1fffbc0; 0x1c03980; 0x1c03800;
   0x1c03800; 0x1c03800; 0x1c0381c; 0x1c0387c; 0x1c038f0; 0x1c03840; 0x1fc3800; 0xfc3800;
   0x3800; 0x3980; 0x39c0; 0x38c0; 0x70038e0; 0x30038e0; 0x7003870; 0x3003838;
   0x3fff038; 0x1fff018; 0x554010; 0x0; 0x0; 0x0; 0x0; 0x202000;
   0x0; 0x0; 0x0; 0xc010; 0xc078; 0xc1f0; 0xc1c0; 0xc180].
Definition hanzi_data_216 : list N :=
  [0xc000; 0x7ffe00; 0x3ffe00; 0x75d41c; 0x30c07c; 0x70c0f0; 0x30e040; 0x70e000;
   0x30e000; 0x706180; 0x306180; 0x7071c0; 0x3030c0; 0x17030e0; 0x6303860; 0x7701c70;
   0x2300e38; 0x7f00f3c; 0x3f00798; 0x1c00310; 0x0; 0x0; 0x0; 0x0;
   0x202000; 0x0; 0x0; 0x0; 0x10; 0x38; 0x7fffcf0; 0x3fffde0;
   0x7fffdc0; 0x180000; 0x180000; 0x180000; 0x18001c; 0x180038; 0x1800f0; 0x1800e0;
   0x180040; 0x180000; 0x180100; 0x180180; 0x180180; 0x1801c0; 0x1801c0; 0x1800e0;
   0x180070; 0x180030; 0x1fc038; 0x1fc018; 0xfc010; 0x0; 0x0; 0x0;
   0x0; 0x202000; 0x0; 0x0; 0x0; 0x70010; 0x60038; 0x701f0;
   0x603e0; 0x70180; 0x60000; 0x70000; 0x60000; 0x7001c; 0x3fffe7c; 0x7fffef0;
   0x3fffec0; 0x70000; 0x60000; 0x70000; 0x60180; 0x701c0; 0x600c0; 0x700e0;
   0x600e0; 0x70070; 0x60038; 0x70038; 0x60018; 0x70010; 0x0; 0x0;
   0x0; 0x0; 0x202000; 0x0; 0x0; 0x0; 0x46000; 0x1e6000;
   0x7c6000; 0xf06000; 0x1557554; 0x3fffffc; 0x3fffffc; 0x6000; 0xc0e030; 0xe0e070;
   0xf1e0f0; 0x39e1c0; 0x3fe1c0; 0xf6380; 0x77100; 0xe7c00; 0x1c7f00; 0x386780;
   0x7861f0; 0xf060f8; 0x3e0607c; 0x380600c; 0x1007500; 0x7f00; 0x3f00; 0x0;
   0x0; 0x0; 0x0; 0x202000; 0x0; 0x0; 0x0; 0xc00;
   0x3c00; 0xf800; 0x1f800; 0x7dc00; 0xf0e00; 0x1e07c0; 0xf8e3e0; 0x7f0e0fc;
   0x380e03c; 0xe004; 0x40e000; 0xf1effc; 0x71eff8; 0x3fe600; 0x1fe700; 0xfe700;
   0xee380; 0x1ce1c0; 0x38e0e0; 0xf0e0f0; 0x3e0e078; 0x1c07f1c; 0x7e08; 0x3e00;
   0x0; 0x0; 0x0; 0x0; 0x202000; 0x0; 0x0; 0x0;
   0x0; 0x38; 0x3fffc78; 0x3fffce0; 0xdc0; 0xc80; 0xc00; 0xc00;
   0xc0c; 0xc3c; 0xc78; 0xce0; 0xc40; 0xc00; 0xc00; 0xc80;
   0xdc0; 0xce0; 0xc60; 0xc70; 0xc70; 0x3fffc38; 0x3fffc1c; 0x3fffc18;
   0x0; 0x0; 0x0; 0x0; 0x0; 0x202000; 0x0; 0x0;
   0x0; 0x10; 0xf0; 0x15551f0; 0x1fffb80; 0x1fffd00; 0x1800000; 0x1800000;
   0x1980000; 0x1dc001c; 0x18e007c; 0x1cf00f0; 0x18700c0; 0x1c38000; 0x1c1c000; 0x1c1e000;
   0x1c0f180; 0x1c079c0; 0xc038c0; 0x1c018e0; 0xc00060; 0xc00070; 0xe00038; 0xff0038;
   0x7e0018; 0x140010; 0x0; 0x0; 0x0; 0x0; 0x202000; 0x0;
   0x0; 0x0; 0x10; 0x38; 0x1fffcf0; 0x1fffde0; 0x1d55d80; 0xc03800;
   0xc03000; 0xc03000; 0xe0701c; 0xe0603c; 0x6060f0; 0x70e0e0; 0x30c040; 0x39c000;
   0x1d8080; 0x1f8180; 0xf01c0; 0x600c0; 0x1f80e0; 0x1fc060; 0x79e070; 0xf0f838;
   0x1e03e1c; 0x3800f18; 0x3000600; 0x0; 0x0; 0x0; 0x0; 0x202000;
   0x0; 0x0; 0x0; 0x10; 0x38; 0x1fffcf0; 0x1fffde0; 0x1c01980;
   0x1c19800; 0x1c33800; 0xc63000; 0xe6301c; 0xee703c; 0x7470f0; 0x70e0e0; 0x30e000;
   0x38c000; 0x1dc000; 0xf8180; 0xf01c0; 0x700c0; 0xf80e0; 0x1fc060; 0x7de070;
   0xf0f838; 0x3e03e38; 0x3800e18; 0x3000610; 0x0; 0x0; 0x0; 0x0;
   0x202000; 0x0; 0x0; 0x0; 0xe010; 0xe078; 0x61f0; 0x73c0;
   0x3fff180; 0x3fff800; 0x3fff800; 0x3801800; 0x3801c1c; 0x3800e3c; 0x3804ff0; 0x380e4e0;
   0x181c040; 0x1838000; 0x1870000; 0x1860180; 0x18601c0; 0x18000c0; 0x1c000e0; 0x18000e0;
   0x1c00070; 0x1c00038; 0x1f50038; 0xfe0018; 0x7e0010; 0x0; 0x0; 0x0;
   0x0; 0x202000; 0x0; 0x0; 0x0; 0x30010; 0x38030; 0x381f0;
   0x183e0; 0x155c180; 0x3ffe000; 0x3ffe000; 0x3807000; 0x180781c; 0x180383e; 0x1c05cf8;
   0xc0ee60; 0xe7c700; 0x6f8200; 0x7e0000; 0x3c0080; 0x1c01c0; 0x1c00e0; 0xf00e0;
   0x78070; 0x3c070; 0x1e038; 0x7c1c; 0x3e18; 0xc00; 0x0; 0x0;
   0x0; 0x0; 0x202000; 0x0; 0x0; 0x0; 0xe010; 0x6038;
   0x71f0; 0x33e0; 0x3fff180; 0x3fff800; 0x1555c00; 0xc00; 0xe1c; 0x63e;
   0x7ffcf0; 0x3ff8e0; 0x1c0040; 0xe0000; 0x70080; 0x38180; 0x1e1c0; 0xe0c0;
   0x10070e0; 0x3003860; 0x7001c70; 0x3000c38; 0x3fffc38; 0x3fff818; 0x1fff010; 0x0;
   0x0; 0x0; 0x0; 0x202000; 0x0; 0x0; 0x0; 0x70010;
   0x60078; 0x701f0; 0x603e0; 0x70180; 0x60000; 0x3870c00; 0x3860c00; 0x3870c1c;
   0x3860c3e; 0x3870cf0; 0x3860c60; 0x3870c40; 0x3860c00; 0x3870c80; 0x3860d80; 0x3870dc0;
   0x3860cc0; 0x3870ce0; 0x3860c60; 0x3870c70; 0x3fffc38; 0x3fffc3c; 0x3800018; 0x3800010;
   0x0; 0x0; 0x0; 0x0; 0x202000; 0x0; 0x0; 0x0;
   0x10; 0xaaa838; 0x1fffcf0; 0x1fffde0; 0x701c0; 0x60000; 0x70000; 0x60000;
   0x7001c; 0x6003c; 0x15754f0; 0x3fffee0; 0x7fffe40; 0x60000; 0x70000; 0x60180;
   0x701c0; 0x600c0; 0x700e0; 0x600e0; 0x70070; 0x60038; 0x70038; 0x60018;
   0x70010; 0x0; 0x0; 0x0; 0x0; 0x202000; 0x0; 0x0;
   0x0; 0x10; 0x2aa830; 0x7ffdf0; 0x7fffe0; 0x60c180; 0x60c000; 0x60c000;
   0x60c000; 0x60c01c; 0x60c03e; 0x60c0f8; 0x6ffc60; 0x6ffc00; 0x60c000; 0x60c000;
   0x60c080; 0x60c1c0; 0xe0c0e0; 0xe0c0e0; 0x2e0c070; 0x6c0c070; 0x2c0c038; 0x7c0c01c;
   0x380c018; 0x380c000; 0x0; 0x0; 0x0; 0x0; 0x202000; 0x0;
   0x0; 0x0; 0x10; 0xaaa878; 0x1fff9f0; 0x1fffbc0; 0x1c03900; 0x1803800;
   0x1c03800; 0x1803800; 0x1c0381c; 0x180387c; 0x1fff8f0; 0x1fff840; 0x1fff800; 0x1803800;
   0x1403900; 0x3b80; 0x39c0; 0x39c0; 0x30038c0; 0x70038e0; 0x7003870; 0x3003830].
Definition hanzi_data_217 : list N :=
  [0x3fff838; 0x3fff018; 0xffc010; 0x0; 0x0; 0x0; 0x0; 0x202000;
   0x0; 0x0; 0x0; 0x18010; 0x18038; 0x1c1f0; 0x1c1e0; 0x1c180;
   0xc000; 0xc000; 0x3ffff00; 0x7ffff1c; 0x60603c; 0x7070f0; 0x703060; 0x703840;
   0x303800; 0x381c00; 0x383c80; 0x1cf9c0; 0xfe0e0; 0xf80e0; 0x1f0070; 0x7fc070;
   0xf1e038; 0x1e0ff1c; 0x3803f18; 0x1000700; 0x0; 0x0; 0x0; 0x0;
   0x202000; 0x0; 0x0; 0x0; 0x0; 0x0; 0x1fffff0; 0xfffff0;
   0x6000; 0x6000; 0x6000; 0x3fffffc; 0x3fffffc; 0x6000; 0x6000; 0x180e000;
   0x1e0e7fc; 0xf1effc; 0x7de700; 0x1fe700; 0x76300; 0xe6380; 0x1e61c0; 0x3c60e0;
   0xf86070; 0x3e0603c; 0x3c0601c; 0x7e00; 0x7e00; 0x0; 0x0; 0x0;
   0x0; 0x202000; 0x0; 0x0; 0x0; 0x10; 0x38; 0x15554f0;
   0x1fff9e0; 0x1fffdc0; 0x70000; 0x70000; 0x70000; 0x7001c; 0x7003c; 0x700f0;
   0x70060; 0x70040; 0x70000; 0x70000; 0x70180; 0x701c0; 0x700c0; 0x700e0;
   0x700e0; 0x70070; 0x3fffe38; 0x7fffe38; 0x18; 0x10; 0x0; 0x0;
   0x0; 0x0; 0x202000; 0x0; 0x0; 0x0; 0x60010; 0x60078;
   0x611f0; 0x619e0; 0x61980; 0x1861800; 0x1f61800; 0x1fe1800; 0x19fd81c; 0x187f83e;
   0x186fef0; 0x1861f60; 0x1861f00; 0x1861800; 0x1861880; 0x1861980; 0x1f619c0; 0xf618c0;
   0x10618e0; 0x3001860; 0x7001870; 0x3001838; 0x3fff838; 0x3fff818; 0x1ffe010; 0x0;
   0x0; 0x0; 0x0; 0x202000; 0x0; 0x0; 0x0; 0x10;
   0x38; 0x1fff8f0; 0xfff9e0; 0x180; 0x0; 0x0; 0x0; 0x7fffe1c;
   0x3fffe3c; 0x60f8; 0x60e0; 0x7040; 0x3000; 0xfff000; 0xfff180; 0xd551c0;
   0xe000c0; 0xe000e0; 0xe000e0; 0xe00070; 0x600038; 0x7fc038; 0x3fc018; 0x1fc010;
   0x0; 0x0; 0x0; 0x0; 0x202000; 0x0; 0x0; 0x0;
   0x10; 0x3ffc38; 0x7ffdf0; 0x3aa9e0; 0x1c0180; 0xf0000; 0x7c000; 0x1e000;
   0x155781c; 0x3fffc3c; 0x3fffcf0; 0x3b8c0e0; 0x398c040; 0x398e000; 0x39c7000; 0x38e38c0;
   0x1861dc0; 0x1870ee0; 0x1830660; 0x1838070; 0x1c1c070; 0x1c0e038; 0x1d47838; 0xf83c18;
   0x781810; 0x0; 0x0; 0x0; 0x0; 0x202000; 0x0; 0x0;
   0x0; 0x10; 0x2aaa838; 0x3fffcf0; 0x3fffde0; 0x70e0c0; 0x60e000; 0x70e000;
   0x60e000; 0x70e01c; 0x60e03e; 0x70e070; 0x3fffc20; 0x7fffc00; 0x2eae800; 0x706040;
   0x6060c0; 0x7060c0; 0x6060e0; 0x707070; 0x603030; 0x703030; 0x603838; 0x701c1c;
   0x600e08; 0x700400; 0x0; 0x0; 0x0; 0x0; 0x202000; 0x0;
   0x0; 0x0; 0x10; 0xaaa838; 0x1fffcf0; 0x1fff9e0; 0x1801d80; 0x1801800;
   0x1801c00; 0x1801800; 0x1801c1c; 0x180183e; 0x1801cf0; 0x1fff860; 0x1fffc40; 0x1801800;
   0x1801c80; 0x1801980; 0x1801dc0; 0x18018c0; 0x1801ce0; 0x1801860; 0x1801c70; 0x1fff838;
   0x1fffc3c; 0x1801818; 0x1801c10; 0x0; 0x0; 0x0; 0x0; 0x202000;
   0x0; 0x0; 0x0; 0x10; 0x38; 0x1fffcf8; 0x1fffde0; 0x1801dc0;
   0x1800c00; 0x1801c00; 0x1800c00; 0x1801c1c; 0x1800c3e; 0x1801cf0; 0x1bffc60; 0x1bffc40;
   0x1800c00; 0x1801c80; 0x1800d80; 0x1801dc0; 0x1800cc0; 0x1801ce0; 0x1800c60; 0x1d55c70;
   0x1fffc38; 0x1fffc1c; 0x1800c18; 0x1801c10; 0x0; 0x0; 0x0; 0x0;
   0x202000; 0x0; 0x0; 0x0; 0x10; 0x78; 0x3fffdf0; 0x3fffbc0;
   0x1575580; 0x60000; 0x60000; 0x60000; 0x6001c; 0x6003c; 0x600f0; 0x2aea8e0;
   0x3fff800; 0x3fff800; 0x60000; 0x60180; 0x601c0; 0x600c0; 0x600e0; 0x60060;
   0x60070; 0x60038; 0x3fffe3c; 0x3fffe18; 0x10; 0x0; 0x0; 0x0;
   0x0; 0x202000; 0x0; 0x0; 0x0; 0x706010; 0x306038; 0x7061f0;
   0x3061c0; 0x706180; 0x3fffe00; 0x3fffe00; 0x2baea00; 0x70601c; 0x30607c; 0x7060f0;
   0x306060; 0x706000; 0x2baea00; 0x7ffff00; 0x3fffe80; 0x7071c0; 0x3060e0; 0x707060;
   0x303060; 0x703870; 0x303838; 0x701c1c; 0x300e18; 0x700410; 0x0; 0x0;
   0x0; 0x0; 0x202000; 0x0; 0x0; 0x0; 0x70010; 0x60078;
   0x701f0; 0x603c0; 0x70180; 0x60000; 0x3fffc00; 0x3fffc00; 0x3870c1c; 0x3830c3c;
   0x3870cf0; 0x3870ce0; 0x38f8c40; 0x38f8c00; 0x39dcc80; 0x3b9cd80; 0x3f0edc0; 0x3f0ecc0;
   0x3e07ce0; 0x3800c60; 0x3800c70; 0x3800c38; 0x3d00c38; 0x3f00c18; 0x1f00c10; 0x0;
   0x0; 0x0; 0x0; 0x202000; 0x0; 0x0; 0x0; 0x70010;
   0x30038; 0x701f0; 0x303e0; 0x30180; 0x30000; 0x30000; 0x3fffe00; 0x7fffe1c;
   0x3fffe3c; 0x780f0; 0xf8060; 0xd8040; 0xd8000; 0x1dc080; 0x18c180; 0x18c1c0;
   0x38e0c0; 0x7070e0; 0x60f060; 0xe1f870; 0x1c39c38; 0x3c70f38; 0x3860798; 0x3000310;
   0x0; 0x0; 0x0; 0x0; 0x202000; 0x0; 0x0; 0x0;
   0x10; 0x38; 0x7ffdf0; 0x3ffde0; 0x307180; 0x386000; 0x187000; 0x186000;
   0x1c701c; 0x1fc703c; 0x1fc70f0; 0xc0f060; 0xc0f040; 0xe0f000; 0xe1f080; 0x63b980;
   0x7719c0; 0x3f18e0; 0x1e1ce0; 0x1c0c60; 0x7f0e70; 0xf78638; 0x3e3c71c; 0x380f398;
   0x1006110; 0x0; 0x0; 0x0; 0x0; 0x202000; 0x0; 0x0;
   0x0; 0x18010; 0x38078; 0x701f0; 0x703c0; 0x60180; 0x3fffe00; 0x3fffe00;
   0x2aba800; 0x3001c; 0x3003c; 0x700f0; 0xf00e0; 0x3f0040; 0x7b0000; 0x1f30000;
   0x3c30180; 0x18301c0; 0x300c0; 0x300e0; 0x300e0; 0x30070; 0x30038; 0x30038;
   0x30018; 0x30010; 0x0; 0x0; 0x0; 0x0; 0x202000; 0x0;
   0x0; 0x0; 0x1c010; 0x38038; 0x700f0; 0x701e0; 0xe0180; 0x3fffe00].
Definition hanzi_data_218 : list N :=
  [0x3ffff00; 0x2eaba00; 0x60381c; 0x60383e; 0x7030f0; 0x307060; 0x387000; 0x18e000;
   0x1cc080; 0xdc180; 0xf81c0; 0x780c0; 0x780e0; 0xfc060; 0x3cf070; 0xf87838;
   0x3f01f3c; 0x3c00f98; 0x1000110; 0x0; 0x0; 0x0; 0x0; 0x202000;
   0x0; 0x0; 0x0; 0x100010; 0x300078; 0x3831f0; 0x1873c0; 0x186180;
   0x198ec00; 0x19dcc00; 0x18d8c00; 0x18f8c1c; 0x1870c3c; 0x1870cf0; 0x18f0ce0; 0x18f0c40;
   0x19f8c00; 0x19dcc80; 0x1b8cd80; 0x1f0edc0; 0x1f07cc0; 0x1907ce0; 0x1802c60; 0x1800c70;
   0x1fffc38; 0x1fffc38; 0x1800018; 0x1800010; 0x0; 0x0; 0x0; 0x0;
   0x202000; 0x0; 0x0; 0x0; 0x7010; 0x7038; 0x70f8; 0x3fff9e0;
   0x7fff9c0; 0x1c00; 0xe00; 0xfffe00; 0xfff70c; 0x3e; 0x78; 0x7ffe60;
   0x7ffe40; 0x600000; 0x600000; 0x6000c0; 0x6001c0; 0xe000e0; 0x600060; 0x2e00070;
   0x6e00070; 0x2c00038; 0x6c0001c; 0x3c00018; 0x3800000; 0x0; 0x0; 0x0;
   0x0; 0x202000; 0x0; 0x0; 0x0; 0x100010; 0x19c038; 0x19c1f0;
   0x38e3e0; 0x30e180; 0x306000; 0x707000; 0xe03800; 0x1c0381c; 0x3c01c3c; 0x7fffef0;
   0x3fffee0; 0x7ffc40; 0x618000; 0x61c080; 0x60c180; 0x60c1c0; 0x60e0c0; 0x70e0e0;
   0x606060; 0x707070; 0x703838; 0x751c38; 0x3e0e18; 0x1f0410; 0x0; 0x0;
   0x0; 0x0; 0x202000; 0x0; 0x0; 0x0; 0x10; 0x1c038;
   0x3c0f0; 0x701e0; 0x1e01c0; 0x1c0000; 0x186000; 0x6000; 0x601c; 0xc06078;
   0x1c06cf0; 0x1806e60; 0x1806600; 0x3806600; 0x3006640; 0x30066e0; 0x7006760; 0x3006360;
   0x406770; 0xc06030; 0xc06038; 0xe06038; 0xffe01c; 0x7fe01c; 0x3fc000; 0x0;
   0x0; 0x0; 0x0; 0x202000; 0x0; 0x0; 0x0; 0xc00010;
   0x1f80038; 0xffc1f0; 0xffbe0; 0x7980; 0x3800; 0x3800; 0x3800; 0x381c;
   0x3fff83c; 0x7fff8f0; 0x383860; 0x383840; 0x383800; 0x381880; 0x381980; 0x3819c0;
   0x3818e0; 0x381ce0; 0x380c60; 0x380c70; 0x380e38; 0x38071c; 0x380718; 0x380200;
   0x0; 0x0; 0x0; 0x0; 0x202000; 0x0; 0x0; 0x0;
   0x10; 0xf80038; 0x1fff1f0; 0xfffc0; 0x35d80; 0x30000; 0x30000; 0x30000;
   0x3001c; 0x3003e; 0x3fffff8; 0x3fffe60; 0x3ffff40; 0x78000; 0x78080; 0xf8180;
   0xdc1c0; 0x1cc0c0; 0x18e0e0; 0x38e060; 0x707070; 0xe03838; 0x1c01e38; 0x3800f18;
   0x1000610; 0x0; 0x0; 0x0; 0x0; 0x202000; 0x0; 0x0;
   0x0; 0x10; 0x78; 0x1fff9f0; 0xfffbc0; 0x1555180; 0x0; 0x0;
   0x0; 0x1c; 0x3c; 0x3fffef0; 0x3fffee0; 0x1c040; 0x1c000; 0x1c000;
   0x30e180; 0x7071c0; 0x6070c0; 0xe038e0; 0xc038e0; 0x1ffdc70; 0x1fffe38; 0x381fc38;
   0x3800018; 0x1000010; 0x0; 0x0; 0x0; 0x0; 0x202000; 0x0;
   0x0; 0x0; 0x10; 0x38; 0x1fffcf0; 0xfff9e0; 0x180; 0x0;
   0x0; 0x0; 0x1c; 0x3c; 0x7fffef0; 0x3fffe60; 0x18e000; 0x18e000;
   0x18e000; 0x18e080; 0x1861c0; 0x1860e0; 0x31870e0; 0x2183060; 0x7183870; 0x3181c38;
   0x3f81f1c; 0x3f80718; 0x1500300; 0x0; 0x0; 0x0; 0x0; 0x202000;
   0x0; 0x0; 0x0; 0x18000; 0x38038; 0x70078; 0x700e0; 0x101c0;
   0x3fffe80; 0x3fffe00; 0x0; 0x1c; 0x2aa03e; 0x3ff0f8; 0x3ff060; 0x307040;
   0x303000; 0x307080; 0x303180; 0x3031c0; 0x3030c0; 0x13038e0; 0x2303860; 0x7301c70;
   0x2300c38; 0x3700f1c; 0x3f00798; 0x1f00300; 0x0; 0x0; 0x0; 0x0;
   0x202000; 0x0; 0x0; 0x0; 0x1c010; 0x1c038; 0x1c0f0; 0x18e1e0;
   0x3871c0; 0x703000; 0x703800; 0xe01c00; 0x1fffe1c; 0x1fffe3e; 0x3817e78; 0x60;
   0x1c6040; 0x186000; 0x1c6000; 0x1860c0; 0x1c70c0; 0x1870e0; 0x11c7070; 0x3183870;
   0x71c3830; 0x3181c38; 0x3fc1f1c; 0x3f80f08; 0x1f00308; 0x0; 0x0; 0x0;
   0x0; 0x202000; 0x0; 0x0; 0x0; 0x30010; 0x30038; 0x300f0;
   0x301e0; 0x30080; 0x3fffe00; 0x3fffe00; 0x3830e00; 0x3830e1c; 0x3838e3c; 0x3878ef8;
   0x78060; 0x78040; 0x78000; 0x7c080; 0x7c180; 0x6c1c0; 0x6e0c0; 0x10660e0;
   0x3067060; 0x7067870; 0x3063c38; 0x3fe1e1c; 0x3fe0f18; 0x1fc0600; 0x0; 0x0;
   0x0; 0x0; 0x202000; 0x0; 0x0; 0x0; 0x10; 0x38;
   0x3fffcf0; 0x3fffde0; 0x3000dc0; 0x3000c00; 0x3000c00; 0x2000800; 0x3fe01c; 0x3fe07c;
   0x3560f0; 0x306040; 0x306000; 0x306000; 0x306180; 0x306180; 0x3071c0; 0x3070c0;
   0x63070e0; 0x6303060; 0x7303870; 0x6301c38; 0x7f01e1c; 0x3f00f18; 0x1400600; 0x0;
   0x0; 0x0; 0x0; 0x202000; 0x0; 0x0; 0x0; 0x70010;
   0x30038; 0x700f0; 0x301e0; 0x3fffec0; 0x3fffe00; 0x70000; 0x30000; 0x1c70c1c;
   0xc30c3c; 0x1c70cf0; 0xc30c60; 0x1c70c00; 0xc30c00; 0x1c70c40; 0xfffcc0; 0x1fffcc0;
   0xc300e0; 0x1c70060; 0x30070; 0x7070070; 0x3030038; 0x357001c; 0x3ff001c; 0x1fe0000;
   0x0; 0x0; 0x0; 0x0; 0x202000; 0x0; 0x0; 0x0;
   0x1010; 0x1838; 0x3ff9c78; 0x3ff98e0; 0x39c1cc0; 0x3881800; 0x39cdc00; 0x38cfe00;
   0x39c7f1c; 0x38c1b3c; 0x39c1c70; 0x38c1820; 0x38c1c00; 0x38c1800; 0x18c9c40; 0x38ef8c0;
   0x186fce0; 0x1863c60; 0x1871c70; 0x1830030; 0x1838038; 0x181c038; 0x1d1e01c; 0xf87018;
   0x703000; 0x0; 0x0; 0x0; 0x0; 0x202000; 0x0; 0x0;
   0x0; 0x70010; 0x30078; 0x701f0; 0x301c0; 0x70180; 0x30000; 0x3fffe00;
   0x3fffe00; 0x15fd41c; 0xf807c; 0x1fc0f0; 0x1bc040; 0x1fe000; 0x3b6000; 0x777000;
   0x633880; 0xe739c0; 0x1c31ce0; 0x3c70e60; 0x7830770; 0x3070770; 0x30038; 0x7001c].
Definition hanzi_data_219 : list N :=
  [0x3001c; 0x70000; 0x0; 0x0; 0x0; 0x0; 0x202000; 0x0;
   0x0; 0x0; 0x6000; 0x6000; 0xc06000; 0x1e0e000; 0xf1effc; 0x39e7f8;
   0x1fe700; 0x76380; 0x1e61c0; 0x3c61e0; 0x1f860f0; 0x3e07c3c; 0x3c07c1c; 0x7fffe0;
   0x7fffe0; 0x6000e0; 0x6000e0; 0x6000e0; 0x7fffe0; 0x6aaae0; 0x6000e0; 0x6000e0;
   0x7fffe0; 0x7fffe0; 0x6000e0; 0x0; 0x0; 0x0; 0x0; 0x202000;
   0x0; 0x0; 0x0; 0x10; 0x2aaaa38; 0x3fffef8; 0x3ffffe0; 0x701c0;
   0x30800; 0x71c00; 0x30c00; 0x1ff1c1c; 0x1ff0c3e; 0x1871cf8; 0x1830c60; 0x1871c40;
   0x1830c00; 0x1fffc00; 0x1fffc80; 0x1d555c0; 0x18000e0; 0x1c000e0; 0x1c00070; 0x1c00070;
   0xc00038; 0xff001c; 0xfe0018; 0x7e0010; 0x0; 0x0; 0x0; 0x0;
   0x202000; 0x0; 0x0; 0x0; 0x1c1810; 0xc1838; 0x1c19f0; 0xc1be0;
   0x1c1980; 0xc1800; 0x11c1800; 0x38c1800; 0x1fd581c; 0xfdf83c; 0x7df8f0; 0x1c18e0;
   0x1c1840; 0xc1800; 0x1c1880; 0xc1980; 0x1c19c0; 0xc18c0; 0x1c18e0; 0x20d18e0;
   0x71dd870; 0x30df838; 0x3fc7c38; 0x3f80818; 0x10; 0x0; 0x0; 0x0;
   0x0; 0x202000; 0x0; 0x0; 0x0; 0x70010; 0x30038; 0x701f0;
   0x301e0; 0x470180; 0xe33800; 0xc73800; 0x1c33800; 0x1c71c1c; 0x3831c3e; 0x3071cf8;
   0x3030e60; 0x1470e40; 0xc30600; 0xc70480; 0xe30180; 0x7701c0; 0x3800c0; 0x3c00e0;
   0x1e0060; 0xf0070; 0x3c038; 0x1fc3c; 0x7e18; 0x1e10; 0x0; 0x0;
   0x0; 0x0; 0x202000; 0x0; 0x0; 0x0; 0x60010; 0x60078;
   0x601f0; 0x603c0; 0x60180; 0x60000; 0x63800; 0x63800; 0x6381c; 0x2ae387c;
   0x3fe38f0; 0x3fe3840; 0x63800; 0x63800; 0x63880; 0x63980; 0x639c0; 0x638c0;
   0x638e0; 0x63860; 0x63870; 0x63838; 0x7ffff38; 0x3ffff18; 0x10; 0x0;
   0x0; 0x0; 0x0; 0x202000; 0x0; 0x0; 0x0; 0x70000;
   0x30038; 0x700f8; 0x301e0; 0x7fffec0; 0x3fffe00; 0x70000; 0x30000; 0x7001c;
   0x1fffc3c; 0x1fffc78; 0x1abac60; 0x1870c40; 0x1830c00; 0x1870c00; 0x1830c80; 0x1870dc0;
   0x1830ce0; 0x1870c60; 0x1f30c60; 0x1f70c70; 0x230838; 0x7001c; 0x30018; 0x70000;
   0x0; 0x0; 0x0; 0x0; 0x202000; 0x0; 0x0; 0x0;
   0x7010; 0x7038; 0x70f0; 0x31e0; 0x1fff9c0; 0x1fff800; 0x1801c00; 0x1800c00;
   0x181ce1c; 0x180c73e; 0x180e778; 0x180e260; 0x1876000; 0x18e6000; 0x18c3080; 0x18c3980;
   0x1dff9c0; 0x19bf8c0; 0x1d818e0; 0x1880060; 0x1c00070; 0xc00038; 0x1c4001c; 0xfe0018;
   0x7e0000; 0x0; 0x0; 0x0; 0x0; 0x202000; 0x0; 0x0;
   0x0; 0x10; 0x3ff038; 0x3ff0f8; 0x3071e0; 0x3071c0; 0x303000; 0x307000;
   0x303800; 0x3f03c1c; 0x3f01e3e; 0xff8; 0x260; 0x1fffc00; 0xfffc00; 0xe01800;
   0x603880; 0x7071c0; 0x38e0e0; 0x1dc060; 0xf8070; 0xfc070; 0x3ff038; 0x1fcff1c;
   0x3e03f18; 0x1800700; 0x0; 0x0; 0x0; 0x0; 0x202000; 0x0;
   0x0; 0x0; 0x70010; 0x60038; 0x700f8; 0x601e0; 0x3fffdc0; 0x3fffc00;
   0x3fffc00; 0x60000; 0x7001c; 0x6003c; 0x1fffcf0; 0x1fff8e0; 0x70000; 0x60000;
   0x70080; 0x60180; 0x3ffffc0; 0x3fffee0; 0x700e0; 0x60070; 0x70070; 0x60038;
   0x7001c; 0x60018; 0x70000; 0x0; 0x0; 0x0; 0x0; 0x202000;
   0x0; 0x0; 0x0; 0x10; 0x2aaa838; 0x3fffcf0; 0x3fffde0; 0xcc0;
   0xc00c00; 0xc06c00; 0xe0ec08; 0x71cc1c; 0x738c78; 0x370c70; 0x3e0c60; 0x1e0c00;
   0x1e0c00; 0x3f0c40; 0x770cc0; 0xf38ce0; 0xe1cce0; 0x1c1ec70; 0x80ec70; 0x4c30;
   0xc38; 0x7fffc1c; 0x3fffc18; 0x0; 0x0; 0x0; 0x0; 0x0;
   0x202000; 0x0; 0x0; 0x0; 0x0; 0x3fffe38; 0x3fffe78; 0x2aaaee0;
   0x707c0; 0x60600; 0x70600; 0x70600; 0x1fff61c; 0x1ffe63c; 0x1fff678; 0x1830660;
   0x1870600; 0x1830600; 0x1830640; 0x18306c0; 0x1c386e0; 0x1838660; 0x1c18770; 0x1c18330;
   0x1c1c338; 0xc0e3b8; 0xfc739c; 0xf83988; 0x7c3100; 0x0; 0x0; 0x0;
   0x0; 0x202000; 0x0; 0x0; 0x0; 0x70010; 0x30078; 0x781f0;
   0xf83c0; 0x1dc180; 0x38e000; 0x787000; 0xe03800; 0x1e01c0c; 0x3800e3c; 0x300377c;
   0x2032e0; 0x703040; 0x7c3000; 0x1f3080; 0x7f180; 0x1f1c0; 0x30c0; 0x30e0;
   0x1803060; 0x1803070; 0x1803038; 0x1fff038; 0xfff018; 0x554010; 0x0; 0x0;
   0x0; 0x0; 0x202000; 0x0; 0x0; 0x0; 0x70010; 0x30038;
   0x780f0; 0xfc1e0; 0x1de1c0; 0x38e000; 0x787000; 0xf03800; 0x1e01e1c; 0x3eaaf3c;
   0x37fff78; 0x7ff860; 0x701840; 0x301800; 0x701880; 0x301980; 0x3f19c0; 0x3f18c0;
   0x18418e0; 0x18018e0; 0x1801870; 0x1803838; 0x1fff838; 0xfff018; 0x554010; 0x0;
   0x0; 0x0; 0x0; 0x202000; 0x0; 0x0; 0x0; 0x10;
   0x2aa838; 0x7ffcf0; 0x7ffde0; 0x600dc0; 0x680c00; 0x7c2c00; 0x6c6c00; 0x6c6c1c;
   0x6ecc3c; 0x67ccf0; 0x678c60; 0x678c40; 0xe30c00; 0x678c40; 0xe78ec0; 0xefcec0;
   0xeccee0; 0xdce660; 0xd86670; 0x6d87770; 0x2c03338; 0x3c00318; 0x3800398; 0x1000110;
   0x0; 0x0; 0x0; 0x0; 0x202000; 0x0; 0x0; 0x0;
   0x38010; 0x38838; 0x19df0; 0x399e0; 0x1b880; 0x3b000; 0x19000; 0x1fffe00;
   0x1fffe1c; 0x181803e; 0x181c0f0; 0x181c060; 0x185c000; 0x186c000; 0x18ec080; 0x19ce180;
   0x1dc61c0; 0x1b860c0; 0x1c070e0; 0x1c03860; 0x1c01c70; 0xc01c38; 0xf40f3c; 0xfe0798;
   0x7e0310; 0x0; 0x0; 0x0; 0x0; 0x202000; 0x0; 0x0;
   0x0; 0x10010; 0x38038; 0x700f0; 0xe01e0; 0x1575180; 0x1fff800; 0x1fff800].
Definition hanzi_data_220 : list N :=
  [0x1801800; 0x1c0181c; 0x180183c; 0x1c018f0; 0x1801860; 0x1fff800; 0x1fff800; 0x1c01c00;
   0x8018c0; 0x1dc0; 0x1ce0; 0x1c60; 0xc70; 0xe70; 0xe38; 0x71c;
   0x398; 0x310; 0x0; 0x0; 0x0; 0x0; 0x202000; 0x0;
   0x0; 0x0; 0x70010; 0x30038; 0x700f0; 0x301e0; 0x3fffec0; 0x3fffe00;
   0x3fffe00; 0x30000; 0x7001c; 0x3003e; 0x700f8; 0x3fffe60; 0x3fffe00; 0xf8000;
   0x1fc080; 0x1bc180; 0x3f61c0; 0x3370e0; 0x7738e0; 0xe31c60; 0x1c71e70; 0x3830f38;
   0x307073c; 0x30218; 0x70010; 0x0; 0x0; 0x0; 0x0; 0x202000;
   0x0; 0x0; 0x0; 0x30010; 0x330038; 0x7301f0; 0xe301e0; 0x1c30180;
   0x830000; 0x30000; 0x3fffe00; 0x3ffff1c; 0x7803c; 0xfc0f0; 0xfc060; 0x1fe000;
   0x1b6000; 0x337000; 0x7338c0; 0x6338c0; 0xe31ce0; 0x1c31e60; 0x3830e70; 0x70307f0;
   0x30238; 0x3001c; 0x30018; 0x30010; 0x0; 0x0; 0x0; 0x0;
   0x202000; 0x0; 0x0; 0x0; 0x10; 0xfff878; 0xfff9f0; 0xeab9c0;
   0xc03980; 0xc03800; 0xc03800; 0xc03800; 0xfff81c; 0xfff87c; 0xc038f0; 0xc03840;
   0xc03800; 0xc03800; 0xc03880; 0xfff980; 0xfff9c0; 0xc038c0; 0xc038e0; 0xc03860;
   0xc03870; 0xc03838; 0x7ffff1c; 0x3ffff18; 0x10; 0x0; 0x0; 0x0;
   0x0; 0x202000; 0x0; 0x0; 0x0; 0x30010; 0x70038; 0x701f0;
   0xe01e0; 0x3fffd80; 0x3fffc00; 0x3000c00; 0x3000c00; 0x3006c1c; 0x200683e; 0x60f8;
   0xe060e0; 0x1f06040; 0x7e6000; 0x1fe000; 0x3e180; 0xe1c0; 0x60c0; 0x10060e0;
   0x3006060; 0x3006070; 0x3806038; 0x1ffe038; 0x1ffe018; 0x550010; 0x0; 0x0;
   0x0; 0x0; 0x202000; 0x0; 0x0; 0x0; 0x7010; 0x7038;
   0x30f0; 0x39e0; 0x3fff9c0; 0x3fffc00; 0x61c00; 0x60e00; 0x463f1c; 0xe63b3c;
   0x1fe38f0; 0xdfb860; 0x1c7f800; 0xc6fc00; 0x1c63f40; 0xc63ac0; 0xc638c0; 0xf638e0;
   0xf63860; 0x63870; 0x7043870; 0x3003838; 0x300701c; 0x3fff01c; 0x1ffe000; 0x0;
   0x0; 0x0; 0x0; 0x202000; 0x0; 0x0; 0x0; 0x0;
   0x38; 0x7fffef8; 0x3ffffe0; 0x1c001c0; 0xc00000; 0x1c00000; 0xc2a800; 0x1c7fc1c;
   0xc6ac3e; 0x1c61cf8; 0xc60c60; 0x1c61c40; 0xc60c00; 0x1c61c80; 0xc7fd80; 0x1c7fdc0;
   0xc2ace0; 0x1c01ce0; 0xc00070; 0x1c00070; 0xc00038; 0x1f5001c; 0xff0018; 0x7f0000;
   0x0; 0x0; 0x0; 0x0; 0x202000; 0x0; 0x0; 0x0;
   0xc6010; 0xc6038; 0xc60f0; 0xc61e0; 0x1fffec0; 0xfffe00; 0x1cc6000; 0x8c6000;
   0x1cc601c; 0xfffe3c; 0x1fffe70; 0xc6660; 0xc6600; 0xc6600; 0x3ffff40; 0x3ffffc0;
   0x30c60c0; 0x30c60e0; 0x30c7070; 0x38c3070; 0x3ec3830; 0x1ec1838; 0xc1c1c; 0xc0e1c;
   0xc0600; 0x0; 0x0; 0x0; 0x0; 0x202000; 0x0; 0x0;
   0x0; 0x70010; 0x60038; 0x701f0; 0x603e0; 0x70180; 0x60000; 0x1fffc00;
   0x1fffc00; 0x1871c1c; 0x1860c3c; 0x1871cf0; 0x1860ce0; 0x1871c40; 0x1fffc00; 0x1fffc00;
   0x1aeac00; 0x1871dc0; 0x1860cc0; 0x1871ce0; 0x1860c60; 0x1871c70; 0x1fffc38; 0x1fffc38;
   0x1800c18; 0x1801c10; 0x0; 0x0; 0x0; 0x0; 0x202000; 0x0;
   0x0; 0x0; 0x10; 0x38; 0x1fffdf0; 0x1fffde0; 0x1871d80; 0x1860c00;
   0x1871c00; 0x1860c00; 0x1871c1c; 0x1860c7c; 0x1871cf0; 0x1fffc60; 0x1fffc00; 0x1aeac00;
   0x1871c00; 0x1860d80; 0x1871dc0; 0x1860ce0; 0x1871c60; 0x1860c70; 0x1871c70; 0x1fffc38;
   0x1fffc18; 0x1800c18; 0x1801c00; 0x0; 0x0; 0x0; 0x0; 0x202000;
   0x0; 0x0; 0x0; 0x18010; 0x18078; 0x1c1f0; 0xe3c0; 0x1ce180;
   0x387000; 0x707000; 0xe03800; 0x1e01c1c; 0x1fffe3c; 0x3fffef0; 0x380be60; 0x1000040;
   0x0; 0xfffc80; 0xfffd80; 0xc01dc0; 0xc00cc0; 0xc01ce0; 0xc00c60; 0xc01c70;
   0xc00c38; 0xfffc1c; 0xfffc18; 0xc01c00; 0x0; 0x0; 0x0; 0x0;
   0x202000; 0x0; 0x0; 0x0; 0x10; 0x1fffc38; 0x1fffcf0; 0x1aba9e0;
   0x1818180; 0x1818000; 0x181c000; 0x180c000; 0x1c0e01c; 0x180703e; 0x1fc78f0; 0xfc3e60;
   0x541e40; 0x0; 0x1fff880; 0x1fff980; 0x1c019c0; 0x18018c0; 0x1c018e0; 0x1801860;
   0x1c01870; 0x1801838; 0x1fff83c; 0x1fff818; 0x1c01810; 0x0; 0x0; 0x0;
   0x0; 0x202000; 0x0; 0x0; 0x0; 0x70010; 0x60038; 0x700f0;
   0x601e0; 0x701c0; 0x60000; 0x7fffe00; 0x3fffe00; 0x7001c; 0x6003c; 0x700f0;
   0x600e0; 0x70040; 0x1fff800; 0x1fff800; 0x1aab980; 0x1c019c0; 0x18018c0; 0x1c018e0;
   0x18018e0; 0x1c01870; 0x1801838; 0x1fff838; 0x1fff818; 0x1c01810; 0x0; 0x0;
   0x0; 0x0; 0x202000; 0x0; 0x0; 0x0; 0x30010; 0x30078;
   0x301f0; 0x303c0; 0x30180; 0x30000; 0x7ff0000; 0x3ff0000; 0x3001c; 0x3003c;
   0x300f0; 0x300e0; 0x1575400; 0x1fffc00; 0x1fffc00; 0x1800d80; 0x1c01dc0; 0x1800cc0;
   0x1c01ce0; 0x1800ce0; 0x1c01c70; 0x1aaac38; 0x1fffc38; 0x1fffc18; 0x1c01c10; 0x0;
   0x0; 0x0; 0x0; 0x202000; 0x0; 0x0; 0x0; 0x0;
   0x3fe038; 0x7ff078; 0x3ae1e0; 0x7071c0; 0x306000; 0x707000; 0x303000; 0x70381c;
   0x30383e; 0x3f01c78; 0x3e00ee0; 0x640; 0xfff800; 0xfff880; 0xc01980; 0xc019c0;
   0xc018c0; 0xc018e0; 0xc01860; 0xc01870; 0xfff838; 0xfff81c; 0xeab818; 0xc01800;
   0x0; 0x0; 0x0; 0x0; 0x202000; 0x0; 0x0; 0x0;
   0x10; 0x2aaaa38; 0x3fffef0; 0x3ffffe0; 0x3800e80; 0x3800e00; 0x3800e00; 0x39fce00;
   0x39fce1c; 0x398ce7c; 0x398cef0; 0x398ce60; 0x398ce00; 0x398ce00; 0x398ce00; 0x39acec0;
   0x39fcfc0; 0x38acee0; 0x380ce60; 0x380ce70; 0x3800e70; 0x3800e38; 0x3d00e1c; 0x1f00e18].
Definition hanzi_data_221 : list N :=
  [0x1f00e00; 0x0; 0x0; 0x0; 0x0; 0x202000; 0x0; 0x0;
   0x0; 0x1c010; 0xc078; 0xe1f0; 0x63c0; 0x3fff180; 0x3fff000; 0x3fff800;
   0x3803800; 0x3801c1c; 0x38aae3c; 0x39ff4f0; 0x38eb060; 0x39c3040; 0x38c3000; 0x39c3080;
   0x38c3180; 0x19d71c0; 0x18ff0c0; 0x19ff0e0; 0x1803060; 0x1c01070; 0x1800038; 0x1d40038;
   0xfe0018; 0x7c0010; 0x0; 0x0; 0x0; 0x0; 0x202000; 0x0;
   0x0; 0x0; 0x430010; 0xe30c38; 0xe31cf8; 0xe30de0; 0xe31cc0; 0xe30c00;
   0xe31c00; 0x3ffff00; 0x7ffff1c; 0x3ffff3c; 0xe31cf0; 0xe30c60; 0xe31c00; 0xe30c00;
   0xe31cc0; 0xeb0dc0; 0xff1cc0; 0xff0ce0; 0x1c70; 0xc70; 0x1c70; 0x3fffc38;
   0x3fffc1c; 0x2aaa818; 0x0; 0x0; 0x0; 0x0; 0x0; 0x202000;
   0x0; 0x0; 0x0; 0x10; 0x38; 0x1fffcf0; 0x1fffde0; 0x1840d80;
   0x1860c00; 0x1870c00; 0x1860c00; 0x1870c1c; 0x1830c3c; 0x1870cf0; 0x1870c60; 0x18f0c00;
   0x18f8c00; 0x19d8c00; 0x199cd80; 0x1b0cdc0; 0x1b0ece0; 0x1f07c60; 0x1a02c70; 0x1800c70;
   0x1fffc38; 0x1fffc1c; 0x1800c18; 0x1800c00; 0x0; 0x0; 0x0; 0x0;
   0x202000; 0x0; 0x0; 0x0; 0x1c10; 0x1838; 0x1cf0; 0x1fc18e0;
   0x1fc1cc0; 0x18c0800; 0x18dff00; 0x18dff00; 0x18d9c1c; 0x18d883e; 0x18d9c78; 0x18d8c20;
   0x18d9c00; 0x18d8c00; 0x18d8c40; 0x18d8cc0; 0x18dcce0; 0x18d8e60; 0x18dc670; 0x18d8630;
   0x1fdc738; 0x1fcc318; 0x18dfb9c; 0x18cf988; 0x7100; 0x0; 0x0; 0x0;
   0x0; 0x202000; 0x0; 0x0; 0x0; 0x7000; 0x7000; 0x7fffe0;
   0x7fffe0; 0x600060; 0x600060; 0x755560; 0x7fffe0; 0x755560; 0x600060; 0x755560;
   0x7fffe0; 0x7fffe0; 0xc0e000; 0xf0e7fc; 0x79e7fc; 0x1fe700; 0xf6300; 0xf6380;
   0x1e61c0; 0x7c60f0; 0x1f06078; 0x7e0603e; 0x3807e0c; 0x7e00; 0x0; 0x0;
   0x0; 0x0; 0x202000; 0x0; 0x0; 0x0; 0x70010; 0x38078;
   0x381f0; 0x381c0; 0x18180; 0x1fffc00; 0x1fffc00; 0x1800c00; 0x1c01c1c; 0x1800c3c;
   0x1c01cf0; 0x1800c60; 0x1c01c40; 0x1fffc00; 0x1fffc00; 0x1800d80; 0x1c01dc0; 0x1800ce0;
   0x1c01ce0; 0x1800c60; 0x1c01c70; 0x1fffc38; 0x1fffc38; 0x1aaac18; 0x1c01c10; 0x0;
   0x0; 0x0; 0x0; 0x202000; 0x0; 0x0; 0x0; 0x4010;
   0xe038; 0x1c3c0f0; 0xc781e0; 0xef0080; 0xec0000; 0x706000; 0x306000; 0x30641c;
   0xf86e3c; 0xdc66f0; 0xcc6660; 0x1ce6600; 0x1866600; 0x3876700; 0x303e360; 0x701e3e0;
   0x300e260; 0xc0f070; 0x1c07830; 0x1c07c38; 0xc07e38; 0xffef9c; 0xffe39c; 0x7fc100;
   0x0; 0x0; 0x0; 0x0; 0x202000; 0x0; 0x0; 0x0;
   0x1c0010; 0x87f38; 0x1cff78; 0x8ebe0; 0x1c6740; 0x86300; 0x3fff700; 0x3ffb300;
   0x31c371c; 0x3881b3c; 0x31c3770; 0x38c3360; 0x39c6700; 0x38c6300; 0x38ce700; 0x38cc360;
   0x18ec760; 0x38ee360; 0x1867f70; 0x1873b30; 0x1830738; 0x1838338; 0x1c1c71c; 0xf8e30c;
   0xf8c700; 0x0; 0x0; 0x0; 0x0; 0x202000; 0x0; 0x0;
   0x0; 0x10; 0x38fe38; 0x18fff0; 0x18c0e0; 0x18c080; 0x18c000; 0x18c000;
   0x18ea00; 0x1cfe1c; 0xcae3e; 0x1c0670; 0xc0620; 0xcc0700; 0xccfe00; 0xce7f40;
   0xce60e0; 0x1c660e0; 0x1866060; 0x1876070; 0x3836030; 0x3f77038; 0x3fff038; 0x77ff51c;
   0x3003f18; 0x1001f00; 0x0; 0x0; 0x0; 0x0; 0x202000; 0x0;
   0x0; 0x0; 0x603810; 0x603838; 0x6038f0; 0x6039e0; 0x6039c0; 0x3fffe00;
   0x7fffe00; 0x2eaba00; 0x60381c; 0x60383c; 0x6038f0; 0x603860; 0x603840; 0x7ff800;
   0x7ff800; 0x603980; 0x6039c0; 0x6038c0; 0x6038e0; 0x6038e0; 0x603870; 0x7ff838;
   0x7ff838; 0x603818; 0x603810; 0x0; 0x0; 0x0; 0x0; 0x202000;
   0x0; 0x0; 0x0; 0x70010; 0x60078; 0x701f0; 0x603c0; 0x1575180;
   0x1fff800; 0x1fffc00; 0x60000; 0x7001c; 0x6007c; 0x700f0; 0x2aeaa60; 0x3fffe00;
   0x3fffe00; 0x38000; 0x18180; 0x11c1c0; 0x30e0c0; 0x7060e0; 0xe070e0; 0xf43870;
   0x1fff838; 0x1dffc38; 0x3803818; 0x1000010; 0x0; 0x0; 0x0; 0x0;
   0x202000; 0x0; 0x0; 0x0; 0xc000; 0x1e038; 0x1fc7c78; 0x1fc1ee0;
   0x1fcc6c0; 0x18cc600; 0x18cc600; 0x18cc600; 0x18cc60c; 0x18cc63c; 0x18cc678; 0x18cc660;
   0x18cc600; 0x18cc600; 0x18cc640; 0x18ce6e0; 0x18cff60; 0x1ecff70; 0x1ec6770; 0x2c6038;
   0xc7038; 0xc3818; 0xc1c1c; 0xc0e08; 0xc0600; 0x0; 0x0; 0x0;
   0x0; 0x202000; 0x0; 0x0; 0x0; 0x10; 0x38; 0x3fffef8;
   0x3ffffe0; 0x39ccec0; 0x38cce00; 0x39cce00; 0x38cce00; 0x39cce1c; 0x38cce3c; 0x39ccef0;
   0x38cce60; 0x39cce00; 0x38cee00; 0x3fc6e40; 0x3f86ec0; 0x3f07ec0; 0x3803ee0; 0x3801e70;
   0x3800e70; 0x3d55e70; 0x3fffe38; 0x3fffe1c; 0x3800e18; 0x1800e10; 0x0; 0x0;
   0x0; 0x0; 0x202000; 0x0; 0x0; 0x0; 0x10; 0x2aaa838;
   0x3fffcf0; 0x3fffde0; 0x70080; 0x1c61800; 0x1c71800; 0xc63800; 0xc7301c; 0xe6303c;
   0x677070; 0x663060; 0x70040; 0x3fffe00; 0x7fffe80; 0x2aeaa80; 0x701c0; 0x600c0;
   0x70060; 0x60060; 0x70070; 0x60038; 0x70018; 0x60018; 0x70000; 0x0;
   0x0; 0x0; 0x0; 0x202000; 0x0; 0x0; 0x0; 0x1c7010;
   0xc6038; 0x1c70f0; 0xc60e0; 0x1c70c0; 0xc6000; 0x11c7600; 0x38c6600; 0x1dff61c;
   0xefe63c; 0x7d7670; 0x1c6620; 0x1c7600; 0xc6600; 0x1c7600; 0xc6660; 0x1c76e0;
   0xc6660; 0x11c7670; 0x30c6630; 0x71ff638; 0x30ffe38; 0x3fdff9c; 0x3f80f9c; 0x1f00000;
   0x0; 0x0; 0x0; 0x0; 0x202000; 0x0; 0x0; 0x0;
   0x800010; 0x1f80038; 0x1ffc0f0; 0x1ffde0; 0x17d80; 0x38000; 0x30000; 0x30000].
Definition hanzi_data_222 : list N :=
  [0x7001c; 0xfffc3c; 0x1fffcf8; 0xeaa8e0; 0xe00040; 0x700000; 0x380080; 0x1c0180;
   0x1e01c0; 0x700c0; 0x3c0e0; 0xf8e0; 0x7c70; 0x1ec38; 0x7ffce38; 0x3ff0618;
   0x1500410; 0x0; 0x0; 0x0; 0x0; 0x202000; 0x0; 0x0;
   0x0; 0xe00010; 0x1fe0038; 0x7ff0f0; 0xff8e0; 0xc1cc0; 0xc1800; 0x1c1c00;
   0xc1800; 0x1c1c1c; 0xc183e; 0x1fffc78; 0x1fff820; 0x15d5c00; 0x181800; 0x181c40;
   0x1818c0; 0x181cc0; 0x381860; 0x2331c70; 0x6321830; 0x6761c30; 0x2eef838; 0x3ecfc1c;
   0x3c81c08; 0x1000400; 0x0; 0x0; 0x0; 0x0; 0x202000; 0x0;
   0x0; 0x0; 0x30010; 0x30038; 0x700f8; 0x601e0; 0x3fffec0; 0x3fffe00;
   0x3000e00; 0x3000e00; 0x3000e1c; 0x2000a3c; 0x5555470; 0x3fffe60; 0x7fffe00; 0x60000;
   0x70080; 0x60180; 0x701c0; 0x600c0; 0x700e0; 0x60060; 0x70070; 0x60038;
   0x75038; 0x7f018; 0x3f010; 0x0; 0x0; 0x0; 0x0; 0x202000;
   0x0; 0x0; 0x0; 0x70000; 0x30038; 0x78078; 0x7c0e0; 0xde1c0;
   0x1ce080; 0x387000; 0x703800; 0x1e1de0c; 0x3c38f1c; 0x1870778; 0x200f0; 0x555460;
   0xfffc00; 0xfffc00; 0x700080; 0x3801c0; 0x3800e0; 0x1c7060; 0xef070; 0x7c070;
   0x38038; 0xf001c; 0x1e0018; 0xc0000; 0x0; 0x0; 0x0; 0x0;
   0x202000; 0x0; 0x0; 0x0; 0x6010; 0x6038; 0x70f0; 0xaab1e0;
   0x1fff880; 0x1fff800; 0x1801c00; 0x1800e00; 0x18fff1c; 0x18fff7c; 0x18d5af0; 0x18c1860;
   0x1cc1800; 0x18c1800; 0x1cff800; 0x1cff8c0; 0x1d559c0; 0xf818e0; 0x781860; 0x1001870;
   0x7001870; 0x3001838; 0x3d5781c; 0x3fff818; 0x1fff000; 0x0; 0x0; 0x0;
   0x0; 0x202000; 0x0; 0x0; 0x0; 0x70010; 0x60038; 0x700f0;
   0x601e0; 0x7fffcc0; 0x3fffc00; 0x3870c00; 0x1860c00; 0x1c70c1c; 0x860c3c; 0x7ffcf0;
   0xfffc60; 0xfffc00; 0xe06c00; 0x60ec40; 0x70ccc0; 0x71ccc0; 0x3b8ee0; 0x1f0670;
   0xe0670; 0x1f0770; 0x7bc338; 0x1f1f31c; 0x3e07b9c; 0x3001900; 0x0; 0x0;
   0x0; 0x0; 0x202000; 0x0; 0x0; 0x0; 0x38010; 0x30078;
   0x701f0; 0x703c0; 0x70180; 0x3fffe00; 0x3fffe00; 0x0; 0x60101c; 0x60383c;
   0x7038f0; 0x603060; 0x703040; 0x303000; 0x307000; 0x306180; 0x3871c0; 0x3860c0;
   0x1860e0; 0x1860e0; 0x1c6070; 0x2aeaa38; 0x7ffff38; 0x3ffff18; 0x10; 0x0;
   0x0; 0x0; 0x0; 0x202000; 0x0; 0x0; 0x0; 0x10;
   0xaaa838; 0x1fffdf0; 0x1fff9e0; 0x1c01d80; 0x1801800; 0x1c01c00; 0x1fff800; 0x1fffc1c;
   0x183e; 0x1dcf0; 0x19860; 0x1c1dc40; 0x1e19800; 0x7ddc00; 0x3f9980; 0x7ddc0;
   0x18ce0; 0x101cce0; 0x3018e70; 0x301ce70; 0x3018638; 0x355c71c; 0x3ff8398; 0x1ff0310;
   0x0; 0x0; 0x0; 0x0; 0x202000; 0x0; 0x0; 0x0;
   0x18010; 0x38038; 0x701f0; 0x603e0; 0x60180; 0x3fffe00; 0x3fffe00; 0x2aeaa00;
   0x7001c; 0x6003c; 0x700f0; 0x600e0; 0x70040; 0x1fff800; 0x1fffc80; 0x60180;
   0x701c0; 0x600c0; 0x700e0; 0x60060; 0x70070; 0x60038; 0x7ffff38; 0x3fffe18;
   0x10; 0x0; 0x0; 0x0; 0x0; 0x202000; 0x0; 0x0;
   0x0; 0x10; 0xaaa878; 0x1fff9f0; 0x1fffbc0; 0x1c01980; 0x1801800; 0x1c01800;
   0x1801800; 0x1fff81c; 0x1fff8fc; 0x1c018f0; 0x18018c0; 0x1c01800; 0x1801800; 0x1fff800;
   0x1fff980; 0x1fff9c0; 0x18018c0; 0x1c018e0; 0x18018e0; 0x1c01870; 0x1fff838; 0x1fff838;
   0x1aab818; 0x1c01810; 0x0; 0x0; 0x0; 0x0; 0x202000; 0x0;
   0x0; 0x0; 0x30010; 0x30038; 0x700f0; 0xe01e0; 0x3ffff80; 0x3fffe00;
   0x3fffe00; 0x18000; 0x1c01c; 0x60e07c; 0x7070f0; 0x383060; 0x1d3800; 0xffc00;
   0xffc80; 0x70180; 0x7381c0; 0x61c0c0; 0xe0e0e0; 0xe06060; 0x1d07870; 0x1fffc38;
   0x3fffc38; 0x3800c18; 0x1000010; 0x0; 0x0; 0x0; 0x0; 0x202000;
   0x0; 0x0; 0x0; 0x70010; 0x60038; 0x1c71c70; 0xc618e0; 0xe739c0;
   0x663080; 0x777000; 0x36e000; 0x27201c; 0x3fffc3c; 0x3fffc70; 0x60060; 0x70000;
   0x60000; 0x70040; 0x3fffec0; 0x7fffee0; 0x600e0; 0x70070; 0x60030; 0x70030;
   0x60038; 0x7001c; 0x60018; 0x70000; 0x0; 0x0; 0x0; 0x0;
   0x202000; 0x0; 0x0; 0x0; 0x0; 0x1fffc38; 0x1fffcf8; 0x1aaade0;
   0x1c01dc0; 0x1800c00; 0x1c01c00; 0x1fffc00; 0x1fffc1c; 0xe0c3c; 0xe1cf0; 0xe0ce0;
   0xe1c00; 0x3fffc00; 0x3fffc40; 0xc0cc0; 0x1c1cc0; 0xc0ce0; 0x11c1c70; 0x3180c70;
   0x7391c38; 0x33bec38; 0x3f1fc1c; 0x3e03e18; 0x1c00600; 0x0; 0x0; 0x0;
   0x0; 0x202000; 0x0; 0x0; 0x0; 0x7000; 0x6000; 0x1557550;
   0x1fffff8; 0x1fffff8; 0x3800; 0xfffff0; 0xffffe0; 0x1c00; 0xe00; 0x3fffffc;
   0x3fffffc; 0x1e0380; 0x3c61c0; 0x7861e0; 0xe860f0; 0x7dc63fc; 0x38e671c; 0x7f600;
   0x7fe00; 0x1f7fc0; 0x7863f0; 0xf060f0; 0x407c10; 0x7c00; 0x0; 0x0;
   0x0; 0x0; 0x202000; 0x0; 0x0; 0x0; 0x30010; 0x30038;
   0x300f0; 0x301e0; 0x1fffdc0; 0xfffc00; 0x1fffc00; 0xc30c00; 0x1c31c1c; 0xc30c3e;
   0x1c31c78; 0xc30c60; 0x5d75d00; 0x3ffff00; 0x7ffff40; 0xf80c0; 0xd80c0; 0xd80e0;
   0x1dc070; 0x38e070; 0x707070; 0xe03838; 0x1e01e1c; 0x3800f18; 0x3000710; 0x0;
   0x0; 0x0; 0x0; 0x202000; 0x0; 0x0; 0x0; 0x6010;
   0x3e038; 0x1fc0f0; 0x3e01e0; 0x180180; 0x2a800; 0x7fc00; 0x3f800; 0x107001c;
   0x387007c; 0x1c77ff0; 0xef7f60; 0x7f7f00; 0x3f6000; 0x1f7000; 0x1b30c0; 0x3739c0;
   0x7318e0; 0xe71c60; 0xe30e70; 0x3c70770; 0x38303b8; 0x307431c; 0x3e018; 0x3e010].
Definition hanzi_data_223 : list N :=
  [0x0; 0x0; 0x0; 0x0; 0x202000; 0x0; 0x0; 0x0;
   0x0; 0x1fffff8; 0x1fffff8; 0xe00; 0x700; 0x7fff80; 0x7fffe0; 0x6003f8;
   0x7003bc; 0x600388; 0x7fff80; 0x7fff80; 0x6000; 0x406000; 0xe0e7f8; 0xf0eff8;
   0x3de750; 0xfe700; 0xf6700; 0x1e6380; 0x7c61e0; 0x1f060f8; 0x3c0607c; 0x1807c18;
   0x7c00; 0x0; 0x0; 0x0; 0x0; 0x202000; 0x0; 0x0;
   0x0; 0x603040; 0x603060; 0x7070e0; 0x38e1c0; 0x1ce1c0; 0x1fffff8; 0x1fffffc;
   0x1aaaab8; 0x180e01c; 0x180e018; 0x180e01c; 0x40e000; 0xe1effc; 0x71eff8; 0x39e600;
   0x1fe600; 0xfe700; 0xee380; 0x1ce1c0; 0x38e0e0; 0xf8e0f0; 0x3e0e03c; 0x3c0f41c;
   0x100fe08; 0x7e00; 0x0; 0x0; 0x0; 0x0; 0x202000; 0x0;
   0x0; 0x0; 0xc010; 0x8c038; 0x3cc1f0; 0x70c1e0; 0x60c180; 0xe000;
   0x3fffe00; 0x3fffe00; 0x3fffe1c; 0xc603c; 0x10c60f0; 0x38c6060; 0x1cc6040; 0xcc6000;
   0xec7080; 0x6c3180; 0x7c31c0; 0x3c38c0; 0x1c18e0; 0x10e1c60; 0x70f1c70; 0x30f8e38;
   0x3fde73c; 0x3fcc398; 0x1500110; 0x0; 0x0; 0x0; 0x0; 0x202000;
   0x0; 0x0; 0x0; 0x70010; 0x60038; 0x3ff00f8; 0x3fe01e0; 0x1570180;
   0x60000; 0x70000; 0x1fff800; 0x1fffc1c; 0x180183c; 0x1c01cf8; 0x18018e0; 0x1c01c40;
   0x1fff800; 0x1fffc00; 0x1aab880; 0x1c01dc0; 0xce0; 0x1c60; 0xc70; 0xc70;
   0xe38; 0x61c; 0x718; 0x300; 0x0; 0x0; 0x0; 0x0;
   0x202000; 0x0; 0x0; 0x0; 0xc00000; 0xfe0038; 0xfffc78; 0x3fce0;
   0x1cc0; 0x60c00; 0x60c00; 0x60c00; 0x60c0c; 0x60e3c; 0x3fffe78; 0x3fffe60;
   0x60000; 0x60000; 0x460040; 0xe630c0; 0xc638e0; 0xc618e0; 0x1c61c70; 0x3860c70;
   0x3060e38; 0x3060738; 0x306021c; 0x7c018; 0x7c000; 0x0; 0x0; 0x0;
   0x0; 0x202000; 0x0; 0x0; 0x0; 0x10; 0x2aaaa38; 0x3fffef0;
   0x3aaafe0; 0x380e6c0; 0x380e600; 0x3006600; 0xffe000; 0xfff01c; 0x303c; 0x70f0;
   0x3060; 0xfff040; 0xfff800; 0xc00000; 0xc000c0; 0xc000c0; 0xeffee0; 0xffff60;
   0xe00070; 0x600070; 0x600038; 0x75001c; 0x3f0018; 0x1f0000; 0x0; 0x0;
   0x0; 0x0; 0x202000; 0x0; 0x0; 0x0; 0x70010; 0x231838;
   0x731870; 0xe39ce0; 0x1c39dc0; 0x838e80; 0x3fffe00; 0x3fffe00; 0x3fffe1c; 0xc03c;
   0xc070; 0xffe060; 0x1ffe040; 0xe07000; 0xe07040; 0x60f8c0; 0x71dce0; 0x3b9ce0;
   0x1f0e70; 0xe0770; 0x1f07b8; 0x7bc138; 0x1f1f01c; 0x3c07818; 0x3001800; 0x0;
   0x0; 0x0; 0x0; 0x202000; 0x0; 0x0; 0x0; 0x0;
   0x2aa838; 0xfffc78; 0x7ffce0; 0x7071c0; 0x386080; 0x1de000; 0xf8000; 0x7c01c;
   0x3fe03e; 0x1fc7c78; 0x3e21f60; 0x1830700; 0x30000; 0xfffc40; 0xfffcc0; 0x300e0;
   0x300e0; 0x3ffff70; 0x3ffff70; 0x3ffff38; 0x30038; 0x3001c; 0x30018; 0x30000;
   0x0; 0x0; 0x0; 0x0; 0x202000; 0x0; 0x0; 0x0;
   0x10; 0x2aa838; 0x1fffdf0; 0xffffe0; 0x700180; 0x380000; 0x1c0000; 0xe0000;
   0x1fc01c; 0xfbe03c; 0x1f0fcf0; 0x3803ee0; 0x3000e40; 0x0; 0x1fffc00; 0x1fff980;
   0x701c0; 0x600c0; 0x700e0; 0x600e0; 0x70070; 0x60038; 0x7fffe38; 0x3fffe18;
   0x10; 0x0; 0x0; 0x0; 0x0; 0x202000; 0x0; 0x0;
   0x0; 0x70010; 0x30038; 0x70078; 0x300e0; 0x3ffffc0; 0x3fffe80; 0x70000;
   0x30000; 0x7001c; 0x3003c; 0x1fffc78; 0x1fffc60; 0x40; 0x0; 0x555000;
   0xfff880; 0xfffdc0; 0xc018e0; 0xc01ce0; 0xc01860; 0xc01c70; 0xc01838; 0xfffc1c;
   0xfff818; 0xc01c00; 0x0; 0x0; 0x0; 0x0; 0x202000; 0x0;
   0x0; 0x0; 0x10; 0x38; 0x1fffff0; 0x1ffffe0; 0x1800f80; 0x1800e00;
   0x1800e00; 0x19fce00; 0x19fce1c; 0x198ce3e; 0x198cef0; 0x198ce60; 0x198ce40; 0x198ce00;
   0x198ce80; 0x19acf80; 0x19fcfc0; 0x18a8ec0; 0x1800ee0; 0x1800e60; 0x1800e70; 0x1fffe38;
   0x1fffe3c; 0x1800e18; 0x1800e10; 0x0; 0x0; 0x0; 0x0; 0x202000;
   0x0; 0x0; 0x0; 0x0; 0xaaaa18; 0x1fffe78; 0x1fffef0; 0x1870ee0;
   0x1830e40; 0x1870e00; 0x1830e00; 0x1870e1c; 0x1bffe3c; 0x1fffe78; 0x1830e60; 0x1870e00;
   0x1870e00; 0x18f8e40; 0x18d8ee0; 0x199cee0; 0x1b8ce60; 0x1f0fe70; 0x1a07e30; 0x1802e38;
   0x1fffe38; 0x1fffe1c; 0x1aaae18; 0x1800e00; 0x0; 0x0; 0x0; 0x0;
   0x202000; 0x0; 0x0; 0x0; 0xe010; 0xe038; 0x1ff0f0; 0x3ff1e0;
   0x3d7080; 0x183800; 0x1c1c00; 0x3fffe00; 0x3ffff1c; 0x1f7c; 0x1af0; 0xff9860;
   0xff9800; 0xc19800; 0xc19800; 0xc198c0; 0xc19dc0; 0xe998e0; 0xf99c60; 0x218c70;
   0x7018c70; 0x3018e38; 0x3ff861c; 0x3ff8718; 0x1ff0600; 0x0; 0x0; 0x0;
   0x0; 0x202000; 0x0; 0x0; 0x0; 0xc03000; 0xe03038; 0x707078;
   0x30e1e0; 0x30c1c0; 0x3fffc80; 0x3fffc00; 0x60000; 0x7001c; 0x6003c; 0x700f0;
   0x1fff8e0; 0x1fffc40; 0x60000; 0x70040; 0x600c0; 0x15754c0; 0x3fffee0; 0x7fffe70;
   0x60070; 0x70030; 0x60038; 0x7001c; 0x60018; 0x70000; 0x0; 0x0;
   0x0; 0x0; 0x202000; 0x0; 0x0; 0x0; 0x1800000; 0x182aa18;
   0x183ff78; 0x19bff70; 0x19c18e0; 0x1981840; 0x19c1c00; 0x198ac00; 0x19dfc0c; 0x199fe1c;
   0x19d8638; 0x1998630; 0x19dc720; 0x198cb80; 0x19cddc0; 0x198f920; 0x19c7070; 0x1986030;
   0x1907030; 0x1803838; 0x1801818; 0x1801c18; 0x1f80f1c; 0x1f80708; 0xf00300; 0x0;
   0x0; 0x0; 0x0; 0x202000; 0x0; 0x0; 0x0; 0x60010;
   0x60038; 0x701f0; 0x301e0; 0x1fff980; 0x1fff800; 0x1801800; 0x1801800; 0x180181c].
Definition hanzi_data_224 : list N :=
  [0x1aab87c; 0x1fff8f0; 0x1aab840; 0x1801800; 0x1801800; 0x1801880; 0x1fff980; 0x1fff9c0;
   0x1aab8c0; 0x18018e0; 0x1801860; 0x1801870; 0x1fff838; 0x1fff838; 0x1aab818; 0x1801810;
   0x0; 0x0; 0x0; 0x0; 0x202000; 0x0; 0x0; 0x0;
   0x186010; 0xd86038; 0x1d870f0; 0x19831e0; 0x39830c0; 0x3183800; 0x11c1800; 0x181c00;
   0x3ffdc1c; 0x3ffde3c; 0x3c1f70; 0x3c1be0; 0x3c1b00; 0x3c1800; 0x7c1840; 0x3c18c0;
   0x7e18c0; 0x6618e0; 0xe71870; 0xe71870; 0x1c31830; 0x1839838; 0x381d81c; 0x300f818;
   0x3005800; 0x0; 0x0; 0x0; 0x0; 0x202000; 0x0; 0x0;
   0x0; 0x10; 0x2aaaa38; 0x3fffff0; 0x3fffee0; 0x1dc0c0; 0x8c000; 0x1dc000;
   0x3fffe00; 0x3fffe1c; 0x3aaae3c; 0x39dce70; 0x388ce60; 0x39cce00; 0x388ce00; 0x3fcee40;
   0x3f86ec0; 0x3807ec0; 0x3803ee0; 0x3800e60; 0x3800e70; 0x3800e30; 0x3fffe38; 0x3fffe1c;
   0x3800e18; 0x3800e00; 0x0; 0x0; 0x0; 0x0; 0x202000; 0x0;
   0x0; 0x0; 0x70010; 0x30038; 0x700f0; 0x3ffffe0; 0x3fffec0; 0x2abaa00;
   0x70000; 0x30000; 0x1fffc1c; 0x1fffc3c; 0x1870cf0; 0x1830c60; 0x1870c00; 0x1830c00;
   0x1f70c40; 0x1e78cc0; 0xfc4c0; 0x1bc0e0; 0x3fe060; 0x737070; 0x1e73c70; 0x3c31e38;
   0x7870f1c; 0x2030218; 0x70000; 0x0; 0x0; 0x0; 0x0; 0x202000;
   0x0; 0x0; 0x0; 0x71010; 0x63038; 0x730f0; 0x639e0; 0x1fff8c0;
   0x1fff800; 0x1fffc00; 0x60c00; 0x70e1c; 0x60e3c; 0x704f0; 0x3fffe60; 0x7ffff40;
   0x2baea00; 0x18e040; 0x18e0c0; 0x1860c0; 0x1860e0; 0x187060; 0x6183070; 0x7183830;
   0x6183838; 0x7f81f1c; 0x3f80f98; 0x1f00310; 0x0; 0x0; 0x0; 0x0;
   0x202000; 0x0; 0x0; 0x0; 0x38010; 0x838038; 0x38380f0; 0x1bff8e0;
   0x1fff8c0; 0xe38000; 0x738000; 0x3b8000; 0x7fffc1c; 0x3fffc3c; 0xf0078; 0x38020;
   0x1ffc000; 0x1fff000; 0x1fc40; 0xdec0; 0xc7e0; 0xffe060; 0xffe070; 0xc00030;
   0xc00038; 0xe00018; 0x60001c; 0x7e0008; 0x7e0000; 0x0; 0x0; 0x0;
   0x0; 0x202000; 0x0; 0x0; 0x0; 0x70010; 0x63038; 0x770f0;
   0x631e0; 0x739c0; 0x1fff800; 0x1fffc00; 0x61c00; 0x70c1c; 0x60e3c; 0x704f0;
   0x2aeaa60; 0x7fffe40; 0x2afaa00; 0x1fc000; 0x1ec080; 0x37e1c0; 0x7660e0; 0x677060;
   0xe63870; 0x1c71c70; 0x3860e38; 0x307071c; 0x60218; 0x70010; 0x0; 0x0;
   0x0; 0x0; 0x202000; 0x0; 0x0; 0x0; 0x18010; 0x1c078;
   0x7fe1f0; 0xffe3c0; 0x757180; 0x30fc00; 0x3ddf00; 0xf8600; 0xf001c; 0x3fe03c;
   0x1f9fcf0; 0x3e63fe0; 0x3060f00; 0x1fffc00; 0x1fffc80; 0xaea980; 0x619c0; 0x618c0;
   0x61ce0; 0x3fffc60; 0x3fffc70; 0x60038; 0x6003c; 0x60018; 0x60010; 0x0;
   0x0; 0x0; 0x0; 0x202000; 0x0; 0x0; 0x0; 0xc010;
   0xe038; 0xe1f0; 0xffe1e0; 0x7ff180; 0x703800; 0x707c00; 0x38ee00; 0x1dcf1c;
   0xf827c; 0x700f0; 0xf8060; 0x7df000; 0x1f8f800; 0x7e03f00; 0x3ffff00; 0xfff9c0;
   0xc018e0; 0xc01860; 0xc01870; 0xc01870; 0xc01838; 0xfff81c; 0xfff818; 0xc01800;
   0x0; 0x0; 0x0; 0x0; 0x202000; 0x0; 0x0; 0x0;
   0x10; 0x3fffe38; 0x3fffef8; 0x38007e0; 0x38006c0; 0x3800600; 0x3bff600; 0x3bfe600;
   0x380061c; 0x380063e; 0x39fe6f0; 0x39fe660; 0x3986600; 0x3986600; 0x3986600; 0x39866c0;
   0x39d67c0; 0x39fe6e0; 0x39fe660; 0x3806670; 0x3804670; 0x3800638; 0x3d0061c; 0x1f00618;
   0x1f00600; 0x0; 0x0; 0x0; 0x0; 0x202000; 0x0; 0x0;
   0x0; 0x7010; 0x7038; 0x1fff078; 0x1ffb0e0; 0x18c3840; 0x18c1800; 0x18c1c00;
   0x18c1c00; 0x7ffde1c; 0x3ffde3c; 0x18c1f70; 0x18c1ba0; 0x18c1b00; 0x18c1800; 0x1ff9800;
   0x1ff9860; 0x18c1860; 0x18c1860; 0xe1870; 0x61830; 0x61838; 0x71838; 0x3181c;
   0x3981c; 0x19800; 0x0; 0x0; 0x0; 0x0; 0x202000; 0x0;
   0x0; 0x0; 0x70010; 0x30038; 0x1c70cf0; 0x1c30de0; 0x1c71c80; 0xe31800;
   0x673800; 0x633000; 0x77301c; 0x3007c; 0x3fffef0; 0x3fffe60; 0xf8000; 0xfc000;
   0x1fc000; 0x3b60c0; 0x7771c0; 0x6338e0; 0xe71c60; 0x1c30e70; 0x7870f70; 0x3030738;
   0x7001c; 0x30018; 0x70000; 0x0; 0x0; 0x0; 0x0; 0x202000;
   0x0; 0x0; 0x0; 0x38010; 0x38038; 0x38070; 0xfffce0; 0xfffdc0;
   0xc38080; 0xc38000; 0x3ffff00; 0x7ffff1c; 0xc3803c; 0xc38078; 0xfffc60; 0xfffc00;
   0x38000; 0x38040; 0x1fffec0; 0x1fffee0; 0x380e0; 0x38070; 0x3ffff30; 0x3ffff38;
   0x38038; 0x3801c; 0x38018; 0x38000; 0x0; 0x0; 0x0; 0x0;
   0x202000; 0x0; 0x0; 0x0; 0x18010; 0x18038; 0x1c0f0; 0xc1e0;
   0x3fffe80; 0x3fffe00; 0x6000; 0x7000; 0x55701c; 0xfff83c; 0x1fffcf0; 0xc03c60;
   0x1c07f00; 0xfff700; 0x1fff200; 0xc03080; 0x1c071c0; 0xeab0c0; 0x1fff0e0; 0xeab060;
   0x1c07070; 0xc03038; 0x1c0703c; 0xf83018; 0xf87010; 0x0; 0x0; 0x0;
   0x0; 0x202000; 0x0; 0x0; 0x0; 0x30010; 0x38038; 0x700f0;
   0x601e0; 0x3fffec0; 0x3fffe00; 0x100000; 0x386000; 0x70701c; 0xe0383c; 0x1c01c70;
   0x3b06e60; 0x1306700; 0x38e000; 0x18c000; 0x1cc0c0; 0x1dc0c0; 0xf80e0; 0x70060;
   0xf8070; 0x1dc070; 0x78f038; 0x1f07c1c; 0x3e01f18; 0x3000600; 0x0; 0x0;
   0x0; 0x0; 0x202000; 0x0; 0x0; 0x0; 0x706010; 0x306038;
   0x7060f0; 0x3061e0; 0x706180; 0x306000; 0x3fffe00; 0x3fffe00; 0x70601c; 0x30603c;
   0x7060f0; 0x306060; 0x706040; 0x306000; 0x7ffff00; 0x3ffff80; 0x55555c0; 0xc0;
   0x3060e0; 0x707060; 0xe03870; 0xc03838; 0x1c01c38; 0x3800e18; 0x1000410; 0x0].
Definition hanzi_data_225 : list N :=
  [0x0; 0x0; 0x0; 0x202000; 0x0; 0x0; 0x0; 0x30010;
   0x38038; 0x380f0; 0x381e0; 0x55d4c0; 0xfffc00; 0x1fffc00; 0xcccc00; 0x1cccc1c;
   0xcccc3c; 0x1cccc70; 0xcccc60; 0x1cccc00; 0xcccc00; 0x1cccc40; 0xccccc0; 0x1ccccc0;
   0xcccce0; 0x1cccc70; 0xcccc70; 0x1cccc30; 0xcccc38; 0x7ffff9c; 0x3ffff98; 0x0;
   0x0; 0x0; 0x0; 0x0; 0x202000; 0x0; 0x0; 0x0;
   0x10; 0x78; 0x3fffdf0; 0x3ffffc0; 0x1d80; 0xc00; 0x1fffc00; 0x1ffec00;
   0x1c1c1c; 0xc0c3c; 0x1c1cf0; 0xffcce0; 0x1ffdc40; 0xc0c00; 0x1c1c80; 0xc0d80;
   0x1c1dc0; 0x1ffecc0; 0x1fffce0; 0xce0; 0x1c70; 0x2aaac38; 0x7fffc38; 0x3fffc18;
   0x10; 0x0; 0x0; 0x0; 0x0; 0x202000; 0x0; 0x0;
   0x0; 0x1ce010; 0xce038; 0x1ce1f0; 0xce1e0; 0x19ce680; 0x18cee00; 0x1dcec00;
   0xecfc00; 0x7cf81c; 0x2cf83e; 0x1ce078; 0xce020; 0x3ce000; 0x7cf000; 0x1fcfc40;
   0x3cceec0; 0x39c67e0; 0xc62e0; 0x1c7070; 0xc3030; 0x71c3838; 0x30c1c38; 0x3fc1e1c;
   0x3f80f18; 0x1f00610; 0x0; 0x0; 0x0; 0x0; 0x202000; 0x0;
   0x0; 0x0; 0x10; 0x38; 0x3fffcf0; 0x3fffde0; 0xe03180; 0xe03000;
   0xe03000; 0xfff000; 0xfff01c; 0xe0303c; 0xe030f8; 0xe030e0; 0xf57040; 0xfff000;
   0xfff000; 0xe03180; 0xe031c0; 0x2e030c0; 0x7ff30e0; 0x3fffee0; 0xe7fe70; 0xe00238;
   0xe00038; 0xe00018; 0xe00010; 0x0; 0x0; 0x0; 0x0; 0x202000;
   0x0; 0x0; 0x0; 0x1001010; 0x1863838; 0x18638f8; 0x18638e0; 0x18638c0;
   0x1863800; 0x1863800; 0x1863800; 0x19e7e1c; 0x1befe3c; 0x1b6fe70; 0x1e6ba60; 0x1e7bb00;
   0x1e7bb80; 0x1c7b980; 0x1863860; 0x1861860; 0x1861860; 0x1861c70; 0x1861c30; 0x1861c38;
   0x1860e38; 0x186071c; 0x186070c; 0x1840200; 0x0; 0x0; 0x0; 0x0;
   0x202000; 0x0; 0x0; 0x0; 0x1810; 0x1838; 0x1fc1c70; 0x3fc0ce0;
   0x3fc1c40; 0x38cae00; 0x38dff00; 0x38cff00; 0x38dcc1c; 0x38cce3c; 0x38cc670; 0x38cc620;
   0x38cc600; 0x38ce600; 0x38c6700; 0x38c6760; 0x38c7e70; 0x38c3870; 0x38c7070; 0x38cf838;
   0x3fddc38; 0x3fd8e18; 0x3fc8f1c; 0x38c071c; 0x40100; 0x0; 0x0; 0x0;
   0x0; 0x202000; 0x0; 0x0; 0x0; 0x603010; 0x603838; 0x7070f0;
   0x3060e0; 0x38e0c0; 0x182000; 0x3fffe00; 0x3fffe00; 0x38601c; 0x38603c; 0x386070;
   0x386020; 0x17d7500; 0x3ffff00; 0x3ffff00; 0x386040; 0x3870c0; 0x3870e0; 0x387060;
   0x383070; 0x383830; 0x381c38; 0x381e1c; 0x380e18; 0x380400; 0x0; 0x0;
   0x0; 0x0; 0x202000; 0x0; 0x0; 0x0; 0x6010; 0x6038;
   0x70f0; 0x31e0; 0x1fff8c0; 0x1fff800; 0x1d55c00; 0x1800e00; 0x180071c; 0x18fff3c;
   0x18ffa70; 0x18c1860; 0x18c1800; 0x18ff800; 0x18ff840; 0x18c18c0; 0x18c18c0; 0x18c18e0;
   0x1cff870; 0x18ff870; 0x1c01870; 0xc00838; 0x1c1001c; 0xfe0018; 0x7e0010; 0x0;
   0x0; 0x0; 0x0; 0x202000; 0x0; 0x0; 0x0; 0x70010;
   0x830038; 0x1c70df0; 0x1c30de0; 0x1c71c80; 0xe33800; 0x673800; 0x633000; 0x77701c;
   0x3007c; 0x7fffff0; 0x3fffe60; 0x55d7500; 0x18e000; 0x1c6000; 0x186180; 0x1c61c0;
   0x1860e0; 0x1c7060; 0x6183070; 0x71c3870; 0x6181c38; 0x75c1e1c; 0x3f80f98; 0x1f00300;
   0x0; 0x0; 0x0; 0x0; 0x202000; 0x0; 0x0; 0x0;
   0x10; 0x2aaa838; 0x3fffdf0; 0x3fffde0; 0x180; 0x0; 0xfff800; 0xfff800;
   0xe0381c; 0xe0387c; 0xe038f0; 0xe03860; 0xfff800; 0xfff800; 0xe03880; 0xe03980;
   0xe039c0; 0xfff8e0; 0xfff8e0; 0x60; 0x70; 0x38; 0x7ffff1c; 0x3fffe18;
   0x10; 0x0; 0x0; 0x0; 0x0; 0x202000; 0x0; 0x0;
   0x0; 0x18010; 0x1c038; 0x1c0f0; 0xffe0e0; 0xfff0c0; 0x603800; 0x701c00;
   0x382e00; 0x3c771c; 0x1ce23e; 0xfc078; 0x78020; 0x3c000; 0x1e000; 0x1fff840;
   0x1fffec0; 0x1d57fc0; 0x1806260; 0x1807070; 0x1806030; 0x1807030; 0x1806038; 0x1fff01c;
   0x1ffe008; 0x1807000; 0x0; 0x0; 0x0; 0x0; 0x202000; 0x0;
   0x0; 0x0; 0xc00010; 0x1fe0038; 0xfffdf0; 0xff9e0; 0x61980; 0x60000;
   0x60000; 0x60000; 0x7fffe1c; 0x3fffe3c; 0x600f8; 0x600e0; 0x60040; 0x60000;
   0x1fff880; 0xfff980; 0x1d559c0; 0xc018e0; 0x1c018e0; 0xc01860; 0x1c01870; 0xc01838;
   0x1fff81c; 0xfff818; 0x1c01800; 0x0; 0x0; 0x0; 0x0; 0x202000;
   0x0; 0x0; 0x0; 0x70010; 0x60038; 0x700f0; 0xaea9e0; 0x1fffdc0;
   0x1fff800; 0x70000; 0x60000; 0x7001c; 0x2aeaa3c; 0x3fffef0; 0x3fffe60; 0x70040;
   0x60000; 0x70000; 0x1fffd80; 0x1fffdc0; 0xaea8c0; 0x700e0; 0x600e0; 0x70070;
   0x60038; 0x7ffff38; 0x3fffe18; 0x10; 0x0; 0x0; 0x0; 0x0;
   0x202000; 0x0; 0x0; 0x0; 0x60010; 0x70078; 0xf01f0; 0xf83c0;
   0x1dc180; 0x39c000; 0x70e000; 0xe07000; 0x1c03c1c; 0x7bffe3c; 0x37feef0; 0xe0;
   0x40; 0x0; 0xfff800; 0xfff980; 0xe039c0; 0xe038c0; 0xe038e0; 0xe038e0;
   0xe03870; 0xeab838; 0xfff838; 0xfff818; 0xe03810; 0x0; 0x0; 0x0;
   0x0; 0x202000; 0x0; 0x0; 0x0; 0xc00010; 0x1fc0038; 0x7ff0f0;
   0xffde0; 0x5cc0; 0x600c00; 0x1fc1c00; 0x7f8c00; 0x1fdc1c; 0x198c3c; 0x19dc70;
   0x3198c60; 0x399dc00; 0x1f98c00; 0xf1cc40; 0x318cc0; 0x71cce0; 0x718c60; 0x61ce70;
   0xe18e30; 0x1ddc638; 0x1df8638; 0x787c71c; 0x301c388; 0x4100; 0x0; 0x0;
   0x0; 0x0; 0x202000; 0x0; 0x0; 0x0; 0x30010; 0x38038;
   0x180f0; 0x2ababe0; 0x3fffe80; 0x3fffe00; 0x38e000; 0x707000; 0xe0381c; 0x3fffe3c].
Definition hanzi_data_226 : list N :=
  [0x7ffef70; 0x2000260; 0x40; 0x1fffc00; 0x1fffc80; 0xe080; 0x61c0; 0xffe0e0;
   0x7ff0e0; 0x600060; 0x600070; 0x600038; 0x70001c; 0x3e0018; 0x3e0000; 0x0;
   0x0; 0x0; 0x0; 0x202000; 0x0; 0x0; 0x0; 0x38010;
   0x30038; 0x70078; 0x2aeaae0; 0x3ffffc0; 0x3fffe80; 0x30e000; 0x706000; 0xe0701c;
   0xffb83e; 0x1fffef0; 0x380fc60; 0x1000040; 0x631800; 0x731880; 0x631980; 0x7319c0;
   0x6318e0; 0x7318e0; 0x2631860; 0x6731c70; 0x2630e38; 0x7730f1c; 0x3e30798; 0x1400300;
   0x0; 0x0; 0x0; 0x0; 0x202000; 0x0; 0x0; 0x0;
   0x70010; 0x30038; 0x70070; 0x300e0; 0x1fffec0; 0x1fffe00; 0x70000; 0xc30c00;
   0xc71c1c; 0xe3183c; 0x773870; 0x333060; 0x231000; 0x3ffff00; 0x3ffff40; 0x780c0;
   0x780e0; 0xf80e0; 0x1dc070; 0x18e070; 0x787030; 0xf03838; 0x3e01e1c; 0x3800f18;
   0x1000710; 0x0; 0x0; 0x0; 0x0; 0x202000; 0x0; 0x0;
   0x0; 0xc010; 0xcc038; 0x3cc0f0; 0x70c1e0; 0x61c0c0; 0x1f8c000; 0x1fffc00;
   0x2ffe00; 0x1de1c; 0x1803c; 0x3c1c0f0; 0x3ff8060; 0x1ffff00; 0x103fe00; 0x3838040;
   0x1c300c0; 0xf700c0; 0x7f00e0; 0x13f0070; 0x30f0070; 0x30fc030; 0x31df838; 0x37c7f1c;
   0x3f80e1c; 0x1f00000; 0x0; 0x0; 0x0; 0x0; 0x202000; 0x0;
   0x0; 0x0; 0x70300; 0x38300; 0x1ffc31c; 0x3ffc338; 0x180f370; 0x1c0fb70;
   0xe1d320; 0x738380; 0x3f03f0; 0x1e037c; 0x7f31c; 0xfb00; 0x5300; 0x406000;
   0xe06000; 0x78eff8; 0x3de7f8; 0xfe700; 0x76380; 0xe61c0; 0x7c61f0; 0x3f86078;
   0x3e0601c; 0x7c00; 0x7c00; 0x0; 0x0; 0x0; 0x0; 0x202000;
   0x0; 0x0; 0x0; 0xc000; 0xc038; 0x140c078; 0x1ffc0e0; 0x1ffffc0;
   0x41be80; 0xe18000; 0x738000; 0x3f000c; 0x30f803c; 0x31ff078; 0x3fcfe60; 0x1f01c40;
   0xe00000; 0x3fffe40; 0x3fffec0; 0x15dd4c0; 0x18e0e0; 0x18e070; 0x186070; 0x3187030;
   0x3183838; 0x3583c1c; 0x3f81e18; 0x1f00600; 0x0; 0x0; 0x0; 0x0;
   0x202000; 0x0; 0x0; 0x0; 0x38010; 0x38030; 0x1ff80f8; 0x1ff81e0;
   0x15781c0; 0x38000; 0x38000; 0xaba800; 0x1fffc1c; 0xeaac3c; 0x1c00cf8; 0xc30ce0;
   0x1c30c40; 0xc30c00; 0x1c30c00; 0xc30c80; 0x1c30dc0; 0xc30ce0; 0x1c38c60; 0x98070;
   0x3dc070; 0xf8f038; 0x1e07c1c; 0x3801f18; 0x1000610; 0x0; 0x0; 0x0;
   0x0; 0x202000; 0x0; 0x0; 0x0; 0x1010; 0x3038; 0x3ffb070;
   0x3ffb0e0; 0x3836c0; 0x383600; 0x17d3600; 0x1ff3600; 0x1ff361c; 0x1bb363c; 0x1bb3678;
   0x1bb3620; 0x1bb3600; 0x1bb3600; 0x1bb3640; 0x1bb30c0; 0x1bb30c0; 0x1bb3860; 0x1bb1870;
   0x1fb1830; 0x1fb1c30; 0x3a0e38; 0x38071c; 0x380308; 0x380100; 0x0; 0x0;
   0x0; 0x0; 0x202000; 0x0; 0x0; 0x0; 0x30010; 0x30038;
   0x300f0; 0x301e0; 0x301c0; 0x1fffc00; 0x1fffc00; 0x1ebac00; 0x1c30c1c; 0x1c30c3c;
   0x1c30c78; 0x1c30c60; 0x1c30c40; 0x1ebac00; 0x1fffc80; 0xaba980; 0x4301c0; 0xe300c0;
   0xc300e0; 0x1c30060; 0x1f70070; 0x3fffa38; 0x3ffff38; 0x3003f18; 0x1000010; 0x0;
   0x0; 0x0; 0x0; 0x202000; 0x0; 0x0; 0x0; 0x3000010;
   0x3000038; 0x333fef8; 0x333aee0; 0x33306c0; 0x3333600; 0x3333600; 0x3333600; 0x333361c;
   0x333363c; 0x3333670; 0x3333620; 0x3333600; 0x3333600; 0x3333600; 0x3333660; 0x3333660;
   0x3333660; 0x3333670; 0x3003830; 0x300d838; 0x3018c38; 0x3038e1c; 0x3f7078c; 0x1f20100;
   0x0; 0x0; 0x0; 0x0; 0x202000; 0x0; 0x0; 0x0;
   0x70010; 0x38038; 0x781f0; 0xfc1e0; 0x1ce180; 0x38e000; 0x707000; 0xe03800;
   0x3c01e1c; 0x3bfff3e; 0x13ff7f0; 0x60; 0x40; 0x0; 0x1fffe80; 0x1ffff80;
   0xc1c0; 0x10e0c0; 0x3870e0; 0x303060; 0x703870; 0xffbc38; 0x1fffe3c; 0x1c0be18;
   0x800010; 0x0; 0x0; 0x0; 0x0; 0x202000; 0x0; 0x0;
   0x0; 0x18010; 0x38038; 0x30078; 0x3fffee0; 0x3fffec0; 0x703000; 0x307000;
   0x38e000; 0x1dc01c; 0xf803c; 0x1f8078; 0xffe060; 0x7f8ff00; 0x3803e00; 0x707040;
   0x3030c0; 0x7070e0; 0x303060; 0x707070; 0x303030; 0x703838; 0x301c38; 0x701f1c;
   0x300798; 0x700100; 0x0; 0x0; 0x0; 0x0; 0x202000; 0x0;
   0x0; 0x0; 0x1801000; 0x1801818; 0x1803838; 0x1983070; 0x19975e0; 0x19bff40;
   0x19bff00; 0x198c000; 0x198c00c; 0x198e61c; 0x198e678; 0x1986e70; 0x1987c20; 0x1987800;
   0x1987000; 0x1987060; 0x1987860; 0x198f860; 0x199dc70; 0x1818c30; 0x1818e38; 0x1808718;
   0x180079c; 0x1f00388; 0x1f00100; 0x0; 0x0; 0x0; 0x0; 0x202000;
   0x0; 0x0; 0x0; 0x30000; 0x30038; 0x70078; 0x3fffde0; 0x3fffcc0;
   0x204000; 0x70e000; 0x30c000; 0x175d40c; 0x3fffc3e; 0x7fffc78; 0xc60; 0xc00;
   0xe00; 0xc40; 0xec0; 0xec0; 0xee0; 0x670; 0x630; 0x730;
   0x338; 0x31c; 0x388; 0x100; 0x0; 0x0; 0x0; 0x0;
   0x202000; 0x0; 0x0; 0x0; 0x10; 0x2aaaa38; 0x3fffe70; 0x3ffffe0;
   0x380c6c0; 0x381c600; 0x381c600; 0xfffc00; 0xfffc1c; 0x603c; 0x67070; 0x63060;
   0x63800; 0x1fff800; 0x1fffc40; 0x608c0; 0x600c0; 0x600e0; 0x3ffff70; 0x3fffe70;
   0x1575570; 0x60038; 0x6001c; 0x60018; 0x60010; 0x0; 0x0; 0x0;
   0x0; 0x202000; 0x0; 0x0; 0x0; 0x60008; 0x60638; 0x60e78;
   0x61cf0; 0x3ff1840; 0x3ff1800; 0x330000; 0x338000; 0x31d51c; 0x309fbc; 0x301ff0;
   0x301820; 0x7ff9800; 0x7ff9800; 0x301820; 0x301860; 0x301870; 0x301870; 0x309870;
   0x30f838; 0x30f838; 0x303818; 0x301c1c; 0x30080c; 0x300008; 0x0; 0x0].
Definition hanzi_data_227 : list N :=
  [0x0; 0x0; 0x202000; 0x0; 0x0; 0x0; 0x70010; 0x70038;
   0x70078; 0x300e0; 0x3fffec0; 0x3fffe00; 0x3878600; 0x3878600; 0x387c61c; 0x6e03e;
   0x66078; 0x18e7020; 0x3cc7800; 0xec3800; 0x7c3e00; 0x383f60; 0x3837e0; 0x383060;
   0x703070; 0xe03030; 0x1e73038; 0x3c7f038; 0x783f81c; 0x3007808; 0x1000; 0x0;
   0x0; 0x0; 0x0; 0x202000; 0x0; 0x0; 0x0; 0x10;
   0xaaa838; 0x1fffcf0; 0xeaa9e0; 0x1c000c0; 0xeaa800; 0x1fffc00; 0xfff800; 0x1c0001c;
   0xc0003c; 0x1fffcf0; 0xfffc60; 0x700000; 0x300000; 0x7ffff00; 0x3fffec0; 0x57555c0;
   0x3038e0; 0x707870; 0x30e070; 0x71c030; 0x308038; 0x7f001c; 0x3e0018; 0x140010;
   0x0; 0x0; 0x0; 0x0; 0x202000; 0x0; 0x0; 0x0;
   0x10; 0x38; 0xfffc70; 0xfff9e0; 0xc01cc0; 0xc01800; 0xc01c00; 0xeab800;
   0xfffc1c; 0xbab83c; 0x181c70; 0x380c60; 0x305c00; 0x71cc00; 0x678c40; 0xef0ec0;
   0x1ce07c0; 0x3802760; 0x7007770; 0x201e230; 0x7c030; 0xf0038; 0x1e001c; 0x180018;
   0x0; 0x0; 0x0; 0x0; 0x0; 0x202000; 0x0; 0x0;
   0x0; 0x1801810; 0x1e01838; 0x1fe18f8; 0x3e18e0; 0x618c0; 0x6ff00; 0x6ff00;
   0x6ba00; 0x6181c; 0x3fe183c; 0x7fe1870; 0xc61860; 0xc6f800; 0xc6fe00; 0xc63f80;
   0xc61fe0; 0xc71960; 0xc61860; 0xc71870; 0xc31830; 0xc31838; 0xc39838; 0xc1df1c;
   0xc0df0c; 0xc08500; 0x0; 0x0; 0x0; 0x0; 0x202000; 0x0;
   0x0; 0x0; 0x18000; 0x11c038; 0x38e078; 0x3070e0; 0x7039c0; 0xfffc80;
   0x1fffe00; 0x800c00; 0x3cf01c; 0x70703c; 0xe03c78; 0x1c08e60; 0x381c740; 0xe200;
   0xfff040; 0x7ff8c0; 0x707cc0; 0x386ee0; 0x1ce670; 0xfc070; 0x78070; 0x1fe038;
   0x1fdfc1c; 0x3f03f18; 0x1c00700; 0x0; 0x0; 0x0; 0x0; 0x202000;
   0x0; 0x0; 0x0; 0x70010; 0x30078; 0x781f0; 0xfc3c0; 0x3ce180;
   0x797800; 0x1e3bc00; 0x3c30e00; 0x307071c; 0x206023c; 0xfffcf0; 0xfff8e0; 0x700040;
   0x380000; 0x1c0000; 0xc0180; 0xfff9c0; 0xfff8c0; 0xc018e0; 0xc018e0; 0xc01870;
   0xc01838; 0xfff838; 0xfff818; 0xc01810; 0x0; 0x0; 0x0; 0x0;
   0x202000; 0x0; 0x0; 0x0; 0x600010; 0xfc0038; 0x7fc0f0; 0x3fbe0;
   0x79c0; 0x3800; 0x3800; 0x3800; 0x3fff81c; 0x3fff878; 0x3038f0; 0x303860;
   0x303800; 0x303800; 0x303800; 0x3fffec0; 0x7ffffe0; 0xe0; 0x106070; 0x38e030;
   0xf07038; 0xe03838; 0x1c01c1c; 0x3800e0c; 0x1000400; 0x0; 0x0; 0x0;
   0x0; 0x202000; 0x0; 0x0; 0x0; 0x10; 0xfff838; 0x1fffcf0;
   0xeab9e0; 0x1c01dc0; 0xc01800; 0x1c01c00; 0xc01800; 0x1fffc1c; 0xfff83c; 0x1fffcf0;
   0x60060; 0x70040; 0x61800; 0x1ff1800; 0x1fe1880; 0x1ff1dc0; 0x618e0; 0x73c60;
   0x63c70; 0x77e70; 0x7e638; 0x7ffc71c; 0x3ff0398; 0x1500110; 0x0; 0x0;
   0x0; 0x0; 0x202000; 0x0; 0x0; 0x0; 0x1c1010; 0xc3838;
   0x1c1878; 0xc18e0; 0xe5c40; 0x3fe6c00; 0x7ff6e00; 0x1876600; 0x187671c; 0x187e7bc;
   0x1c7e7f0; 0xcce7a0; 0xcc6680; 0xec6600; 0x7c6600; 0x786660; 0x786660; 0x386660;
   0x786670; 0x7c6630; 0xee4638; 0xc70618; 0x3c7861c; 0x781e60c; 0x300c600; 0x0;
   0x0; 0x0; 0x0; 0x202000; 0x0; 0x0; 0x0; 0x600010;
   0xf03838; 0x7df8f0; 0x1f80e0; 0x3fc0c0; 0xf9f800; 0x1e1fe00; 0x818c00; 0x1c01c;
   0x3ffff3c; 0x7ffff70; 0x66020; 0x67000; 0x63800; 0x1fffc00; 0x1fffee0; 0x1863f60;
   0x1863a60; 0x1863870; 0x1863830; 0x1d63830; 0x1e63838; 0x66381c; 0x60018; 0x60010;
   0x0; 0x0; 0x0; 0x0; 0x202000; 0x0; 0x0; 0x0;
   0x70010; 0x30038; 0x15754f0; 0x3fffee0; 0x3fffec0; 0x30000; 0x70000; 0x3fffe00;
   0x3fffe1c; 0x380063e; 0x3800678; 0x3fffe20; 0x7ff800; 0x3c0000; 0x1f0040; 0x300c0;
   0x3fffee0; 0x3fffe60; 0x70070; 0x30030; 0x70038; 0x30018; 0x7f01c; 0x3e008;
   0x14000; 0x0; 0x0; 0x0; 0x0; 0x202000; 0x0; 0x0;
   0x0; 0x30010; 0x30038; 0x700f0; 0x3ffffe0; 0x3ffff80; 0x3000e00; 0x3000e00;
   0x3000e00; 0xfff81c; 0xfff83e; 0xf0; 0x60; 0x40; 0x3fffe00; 0x7fffe80;
   0x18c180; 0x18c1c0; 0x18e0e0; 0x1860e0; 0x2186060; 0x7187070; 0x3183838; 0x3f81c1c;
   0x3f80f18; 0x1f00600; 0x0; 0x0; 0x0; 0x0; 0x202000; 0x0;
   0x0; 0x0; 0x10; 0xfff838; 0xfff9f0; 0xc039c0; 0xc03980; 0xc03800;
   0xfff800; 0xfff800; 0x1c; 0xaaa87c; 0x1fffcf0; 0x1fffc60; 0x1c71c00; 0x1860c00;
   0x1c71c80; 0x1fffd80; 0x1fffdc0; 0x1aaace0; 0x1ce0; 0x3000c60; 0x7001c70; 0x3000c38;
   0x3d55c1c; 0x3fff818; 0x1fff010; 0x0; 0x0; 0x0; 0x0; 0x202000;
   0x0; 0x0; 0x0; 0x770010; 0xf30038; 0x1c700f0; 0x8301e0; 0x7ffffc0;
   0x3fffe00; 0x70000; 0x30000; 0x1fffc1c; 0x1fffc3c; 0x1870cf0; 0x1830c60; 0x1d75c00;
   0x1fffc00; 0x1fffc00; 0x1830cc0; 0x1870dc0; 0x1fffce0; 0x1fffc60; 0x1830c70; 0x1870c70;
   0x1830c38; 0x1870c1c; 0x1f30c18; 0xf70c00; 0x0; 0x0; 0x0; 0x0;
   0x202000; 0x0; 0x0; 0x0; 0x60010; 0x63038; 0x630f0; 0x639e0;
   0x15759c0; 0x3fff800; 0x3fffc00; 0x60e00; 0x60e1c; 0x6063c; 0x7fffef0; 0x3fffe60;
   0x7fffe40; 0x0; 0x1555000; 0x1fff980; 0x1fff9c0; 0x18018c0; 0x1c018e0; 0x18018e0;
   0x1c01870; 0x1801838; 0x1fff838; 0x1fff818; 0x1c01810; 0x0; 0x0; 0x0;
   0x0; 0x202000; 0x0; 0x0; 0x0; 0x18000; 0x38038; 0x70078;
   0xfffce0; 0xfffdc0; 0xc00c80; 0xc00c00; 0xc00c00; 0xfffc1c; 0xfffc3c; 0xc00c78].
Definition hanzi_data_228 : list N :=
  [0xc00c60; 0xfffc40; 0xfffc00; 0x575c40; 0x830cc0; 0x1c70cc0; 0xfe0ce0; 0x7c0c70;
   0x1c0c70; 0x790c30; 0xf1ec38; 0x3e1fc1c; 0x3803e18; 0x1000400; 0x0; 0x0;
   0x0; 0x0; 0x202000; 0x0; 0x0; 0x0; 0x10; 0xaaa838;
   0x1fffdf0; 0x1aeade0; 0x1871d80; 0x1860c00; 0x1d75c00; 0x1fffc00; 0x1fffc1c; 0x1860c7c;
   0x1871cf0; 0x1860c60; 0x1fffc00; 0x1fffc00; 0x70000; 0x60180; 0x1fffdc0; 0x3fffce0;
   0x1fffc60; 0x60070; 0x70070; 0x60038; 0x7ffff1c; 0x3ffff18; 0x0; 0x0;
   0x0; 0x0; 0x0; 0x202000; 0x0; 0x0; 0x0; 0x10;
   0x38; 0x3fffef0; 0x3ffffe0; 0x700c0; 0x30000; 0x1fffe00; 0x1abae00; 0x1870e1c;
   0x1830e7c; 0x1fffe70; 0x1fffe60; 0x1870e00; 0x1830e00; 0x1fffe40; 0x1fffec0; 0x310c0;
   0x3b8e0; 0x3f060; 0x1e070; 0x1e070; 0xff038; 0x17f7c1c; 0x3f81f1c; 0x3c00700;
   0x0; 0x0; 0x0; 0x0; 0x202000; 0x0; 0x0; 0x0;
   0x1c00010; 0x1ff8038; 0x7ffef0; 0xc0fde0; 0x1c189c0; 0xe39800; 0x631800; 0x633800;
   0x37301c; 0x7ffc3c; 0xfffcf0; 0x7aa860; 0x3c0000; 0xe0000; 0x70000; 0x300c0;
   0x3ffffc0; 0x3fffee0; 0x70060; 0x30070; 0x70070; 0x30038; 0x7001c; 0x3e018;
   0x3e000; 0x0; 0x0; 0x0; 0x0; 0x202000; 0x0; 0x0;
   0x0; 0x10; 0x3fffe38; 0x3fffef8; 0x181e0; 0x1c0c0; 0x18000; 0xfffc00;
   0xfff800; 0x60c01c; 0x60e03c; 0x60e0f0; 0x3fffe60; 0x7ffff00; 0x2aaaa00; 0x0;
   0xfff9c0; 0x1fffdc0; 0xeab8e0; 0x1c01c60; 0xc01870; 0x1c01c70; 0xc01838; 0x1fffc1c;
   0xfff818; 0x1c01c10; 0x0; 0x0; 0x0; 0x0; 0x202000; 0x0;
   0x0; 0x0; 0x1818010; 0x183e038; 0x181fe78; 0x1883ee0; 0x19c7040; 0x1883000;
   0x19c7000; 0x1883000; 0x19fff1c; 0x18bfe3c; 0x19c7070; 0x188f820; 0x19cf800; 0x189b800;
   0x19dfc00; 0x18b3e60; 0x19d7660; 0x1883360; 0x19c7370; 0x1803130; 0x1807138; 0x1803018;
   0x1d0701c; 0x1f0300c; 0x1f07000; 0x0; 0x0; 0x0; 0x0; 0x202000;
   0x0; 0x0; 0x0; 0x18010; 0x1c038; 0x7fc0f0; 0xffe1e0; 0x7570c0;
   0x30f800; 0x3dde00; 0x1f8600; 0xf001c; 0x3fc03c; 0x1f9f870; 0x3e73f60; 0x3070f00;
   0xfff800; 0x1fff840; 0x700c0; 0xfff8c0; 0xfff8e0; 0x70070; 0x70070; 0x3fffe70;
   0x3fffe38; 0x7001c; 0x7001c; 0x70000; 0x0; 0x0; 0x0; 0x0;
   0x202000; 0x0; 0x0; 0x0; 0x104010; 0x38e038; 0x7870f0; 0xf031e0;
   0x1e039c0; 0x1c31c00; 0x3830f00; 0x1078600; 0x7c01c; 0xee03c; 0x1c70f0; 0x387860;
   0xf03c40; 0x1e00e00; 0x7d55780; 0x3fffb40; 0xfffcc0; 0xe018e0; 0xe01c60; 0xe01860;
   0xe01c70; 0xe01838; 0xfffc38; 0xfff818; 0xe01c10; 0x0; 0x0; 0x0;
   0x0; 0x202000; 0x0; 0x0; 0x0; 0x7010; 0x3038; 0x38f0;
   0x3fff9e0; 0x3fffc80; 0xc00; 0xe00; 0xaaae00; 0x1ffff04; 0x1ebba3c; 0x1c3187c;
   0xc61860; 0x1cc1840; 0x3ffff00; 0x7ffff40; 0xc198c0; 0xc39ce0; 0xc70c60; 0xc60c70;
   0x3fffc30; 0x3fffc30; 0xe00038; 0x60001c; 0x7e0018; 0x3e0010; 0x0; 0x0;
   0x0; 0x0; 0x202000; 0x0; 0x0; 0x0; 0x10; 0xfff838;
   0xfffcf0; 0xc001e0; 0xfff8c0; 0xfff800; 0xd55000; 0xc00000; 0xfffc1c; 0xfff83c;
   0xf0; 0x3fffe60; 0x3ffff00; 0x3000600; 0x37fff40; 0x2fffac0; 0x7570e0; 0x706060;
   0x38e070; 0x1dc030; 0xf8030; 0xf8038; 0x7dfc1c; 0x3f83e18; 0x1c00610; 0x0;
   0x0; 0x0; 0x0; 0x202000; 0x0; 0x0; 0x0; 0x1c010;
   0xc078; 0x1fe1f0; 0x3fe3c0; 0x3d7180; 0x183800; 0x1c1c00; 0x1fffe00; 0x1ffff1c;
   0x1861a3c; 0x1871cf0; 0x1861860; 0x1871c40; 0x1afb800; 0x1fffc80; 0x1fff980; 0xf01c0;
   0xf80c0; 0xdc0e0; 0xdc060; 0x70ce070; 0x30c7038; 0x3fc3c1c; 0x3fc1f18; 0x1500600;
   0x0; 0x0; 0x0; 0x0; 0x202000; 0x0; 0x0; 0x0;
   0x70010; 0x30038; 0x780f0; 0xfc3e0; 0x1ce180; 0x787800; 0x1f03c00; 0x3c00e00;
   0x3ffff1c; 0x7ff83e; 0x5750f0; 0x30060; 0x70000; 0x3fffe00; 0x3fffe00; 0x2abaa80;
   0x701c0; 0x7338e0; 0xe71ce0; 0xc30c70; 0x1c70e70; 0x3830638; 0x307071c; 0x3e018;
   0x1e000; 0x0; 0x0; 0x0; 0x0; 0x202000; 0x0; 0x0;
   0x0; 0x70010; 0x30078; 0x1fffdf0; 0x1ffffc0; 0x1c70d80; 0x1830c00; 0x1fffc00;
   0x1fffc00; 0x1c70c1c; 0x1830c3c; 0x1fffcf0; 0x1fffc60; 0x40; 0x3ffff00; 0x7ffff80;
   0x6180; 0x71c0; 0xfff0c0; 0xfff8e0; 0xc00060; 0xc00070; 0xe00038; 0xe00038;
   0x7f0018; 0x7f0010; 0xa0000; 0x0; 0x0; 0x0; 0x202000; 0x0;
   0x0; 0x0; 0x10; 0xaaa838; 0x1fffdf0; 0x1aaadc0; 0x1c01d80; 0x1800c00;
   0x1fffc00; 0x1fffc00; 0x1c01c1c; 0x1800c7c; 0x1fffcf0; 0x1fffc60; 0x1575400; 0x70000;
   0x70080; 0x70180; 0x3fffdc0; 0x3fffce0; 0x700e0; 0x70060; 0x70070; 0x70038;
   0x7ffff1c; 0x3ffff18; 0x10; 0x0; 0x0; 0x0; 0x0; 0x202000;
   0x0; 0x0; 0x0; 0x70010; 0x3860838; 0x1871cf0; 0x1c639e0; 0xc738c0;
   0xe63000; 0x473000; 0x60000; 0x1fffc1c; 0x1fff83c; 0x1c01cf0; 0x1801860; 0x1fffc40;
   0x1fff800; 0x1d55c00; 0x1801880; 0x1c01dc0; 0x1fff8e0; 0x1fffc60; 0x1801870; 0x1c01c70;
   0x1801838; 0x1d41c1c; 0xf81818; 0xf81c10; 0x0; 0x0; 0x0; 0x0;
   0x202000; 0x0; 0x0; 0x0; 0x60010; 0x60038; 0x610f0; 0xae31e0;
   0x1fe30c0; 0xae3000; 0x63000; 0x63000; 0x7fffe1c; 0x3fffe3c; 0x15754f0; 0x60060;
   0x1877000; 0x1863000; 0x1c73840; 0xe618c0; 0xe71cc0; 0x760ce0; 0x780870; 0x3c0070;
   0x1f0030; 0x78038; 0x3fc1c; 0xfe1c; 0x1c00; 0x0; 0x0; 0x0].
Definition hanzi_data_229 : list N :=
  [0x0; 0x202000; 0x0; 0x0; 0x0; 0x10; 0xfffc38; 0x1fffcf8;
   0xf001e0; 0x7c61c0; 0x1fe000; 0xf8000; 0x3e0000; 0x1fffc1c; 0x1fffc3c; 0x1870cf0;
   0x1830c60; 0x1fffc00; 0x1fffc00; 0x1fffc00; 0x1830dc0; 0x1870cc0; 0x1fffce0; 0x1fffc60;
   0x1830c70; 0x1870c70; 0x1830c38; 0x1870c1c; 0x1f30c18; 0x1f70c00; 0x0; 0x0;
   0x0; 0x0; 0x202000; 0x0; 0x0; 0x0; 0x1c010; 0x818038;
   0x1c1c070; 0xdffde0; 0xfffcc0; 0x618080; 0x71c000; 0x398000; 0x3ffff1c; 0x3ffff3e;
   0x70078; 0x38060; 0xfff800; 0x7ff800; 0x3c3c40; 0xe0fc0; 0x707e0; 0x3fffe60;
   0x3fffe70; 0x2aeaa30; 0x70038; 0x60018; 0x7001c; 0x7e008; 0x3e000; 0x0;
   0x0; 0x0; 0x0; 0x202000; 0x0; 0x0; 0x0; 0x1000000;
   0x3e03f38; 0x1ff7f78; 0x3fbaf0; 0x313860; 0x301800; 0x301c00; 0x330c00; 0x33061c;
   0x3f37e3c; 0x3f37f70; 0x333120; 0x337000; 0x333200; 0x333300; 0x333240; 0x333ee0;
   0x331e60; 0x3ff1e70; 0x3ff0c30; 0x3e38; 0xfe38; 0x7fff71c; 0x3ff8388; 0x1540180;
   0x0; 0x0; 0x0; 0x0; 0x202000; 0x0; 0x0; 0x0;
   0x1c0010; 0x8d8038; 0xdff078; 0x18cfee0; 0x19c7f40; 0x38c3000; 0x31c7000; 0x1c3000;
   0x15d751c; 0x3ffff3c; 0x3ffff70; 0x183020; 0x39c7000; 0x19a3000; 0x1dbf000; 0xdbfc60;
   0xf87f60; 0x783f60; 0x387070; 0x6383030; 0x67c7038; 0x67e3038; 0x7e7f01c; 0x3e33e1c;
   0x3c03e00; 0x0; 0x0; 0x0; 0x0; 0x202000; 0x0; 0x0;
   0x0; 0x70010; 0x30038; 0x700f8; 0x3fffee0; 0x3fffec0; 0x30000; 0x70000;
   0xaba800; 0x1fffc1c; 0x1fffc3e; 0x1c71c78; 0x1830c60; 0x1c71c00; 0x1abac00; 0x1fffc40;
   0xafa8c0; 0x1fc1c0; 0x1be0e0; 0x3f7060; 0x733870; 0x1e73c70; 0x3c30e38; 0x787071c;
   0x2030218; 0x70000; 0x0; 0x0; 0x0; 0x0; 0x202000; 0x0;
   0x0; 0x0; 0x10; 0xfff878; 0xfff9f0; 0xc039c0; 0xc03980; 0xc03800;
   0xfff800; 0xfff800; 0x1c; 0x7c; 0x1fffcf0; 0x1fff860; 0x1c01c00; 0x1801800;
   0x1fffc80; 0x1fff980; 0x1c01dc0; 0x18018e0; 0x1fffce0; 0x1fff860; 0x1c01c70; 0x1801838;
   0x1c01c3c; 0x1f81818; 0x1f81c10; 0x0; 0x0; 0x0; 0x0; 0x202000;
   0x0; 0x0; 0x0; 0x70010; 0x1830c38; 0x1870cf0; 0x1830de0; 0x1d75cc0;
   0x1fffc00; 0x1fffc00; 0x70000; 0x7801c; 0x1fc03c; 0x7cf0f0; 0xf1f860; 0x7e39f00;
   0x3870f00; 0xe0200; 0x2aa880; 0x1fffdc0; 0xfffce0; 0x700060; 0x300070; 0x380070;
   0x180038; 0x1c001c; 0xe0018; 0x40010; 0x0; 0x0; 0x0; 0x0;
   0x202000; 0x0; 0x0; 0x0; 0x603000; 0x607038; 0x706078; 0x38e1e0;
   0x1fffdc0; 0x1fffc80; 0x1fffc00; 0x1830000; 0x187001c; 0x1aba83c; 0x1fffcf0; 0xabac60;
   0x71c40; 0x30c00; 0x3fffc40; 0x3fffec0; 0x387c0c0; 0x383c0e0; 0x187e070; 0x1837070;
   0x1f73c70; 0x1f31e38; 0x570f1c; 0x30218; 0x70010; 0x0; 0x0; 0x0;
   0x0; 0x202000; 0x0; 0x0; 0x0; 0x18010; 0x38078; 0x39c1f0;
   0x30e3c0; 0x707180; 0xfff800; 0x1fffc00; 0x380b800; 0x180701c; 0x303c; 0x1fff8f0;
   0x1fff860; 0x1575c40; 0x30e00; 0x70600; 0x2abaa80; 0x7ffffc0; 0x3fffec0; 0x780e0;
   0xfc060; 0x1de070; 0x38f038; 0x1f07c38; 0x3e01f18; 0x3800710; 0x0; 0x0;
   0x0; 0x0; 0x202000; 0x0; 0x0; 0x0; 0x30010; 0x30038;
   0x300f0; 0x3fffde0; 0x3fffc80; 0x38000; 0x155d400; 0x1fffc00; 0x1fffc1c; 0x1c03c;
   0x7fffef0; 0x3fffe60; 0x555d440; 0xe0e000; 0x1f56080; 0x3fff180; 0x7fff1c0; 0xe1b8e0;
   0xe398e0; 0xe31c60; 0xe70e70; 0xe20f38; 0xe0071c; 0xfc0018; 0x7c0000; 0x0;
   0x0; 0x0; 0x0; 0x202000; 0x0; 0x0; 0x0; 0x306000;
   0x306038; 0x1757478; 0x3fffee0; 0x3ffffc0; 0x306000; 0x306000; 0x0; 0x3fffe1c;
   0x3fffe3c; 0x3800e78; 0x3820e60; 0x3830e40; 0x38000; 0xfffc00; 0xfffc80; 0xe181c0;
   0xe1c0e0; 0xe1c060; 0xe0e070; 0x607030; 0x603838; 0x7f3c1c; 0x3e0e08; 0x1e0600;
   0x0; 0x0; 0x0; 0x0; 0x202000; 0x0; 0x0; 0x0;
   0x30000; 0x30038; 0x30078; 0x1fffee0; 0x1ffffc0; 0xabaa80; 0x431c00; 0xe31800;
   0x73181c; 0x33383c; 0x333078; 0x31060; 0x3ffff40; 0x3fffe00; 0x7c040; 0xfc0c0;
   0x1f60c0; 0x3b70e0; 0x733870; 0xe31c70; 0x3c30f30; 0x3830738; 0x103011c; 0x30018;
   0x30000; 0x0; 0x0; 0x0; 0x0; 0x202000; 0x0; 0x0;
   0x0; 0x60000; 0x60218; 0x1575778; 0x3fff670; 0x3fff6e0; 0x38e40; 0x198400;
   0x198000; 0x19c00c; 0x1ffef9c; 0x1ffefb8; 0x182ef0; 0x180c20; 0x180c00; 0x15d4c00;
   0x3ffece0; 0x3fffc60; 0x180c60; 0x180c70; 0x180c30; 0x181e38; 0x183f18; 0x7fff39c;
   0x3ffe188; 0x1ff0000; 0x0; 0x0; 0x0; 0x0; 0x202000; 0x0;
   0x0; 0x0; 0x0; 0x3fffe38; 0x3fffe78; 0x38006e0; 0x38306c0; 0x3830600;
   0x3fff600; 0x3bff600; 0x383061c; 0x383063c; 0x3bff6f0; 0x3bfe660; 0x3830600; 0x3830600;
   0x3fff640; 0x3fff6c0; 0x3e306c0; 0x3e306e0; 0x3ff0670; 0x3bb0670; 0x3830630; 0x3800638;
   0x3fffe1c; 0x3fffe1c; 0x3800600; 0x0; 0x0; 0x0; 0x0; 0x202000;
   0x0; 0x0; 0x0; 0x10; 0xfff838; 0xfffcf0; 0xc019e0; 0xc01dc0;
   0xc01800; 0xfffc00; 0xfff800; 0x57541c; 0x3003c; 0x700f0; 0x1fffe60; 0x1fffe40;
   0x1830e00; 0x1870e00; 0x18f8e40; 0x19dcec0; 0x1b9cee0; 0x1b0ee60; 0x1f07e60; 0x1a07e70;
   0x1800e38; 0x1800e38; 0x1f80e18; 0x1f00e10; 0x0; 0x0; 0x0; 0x0;
   0x202000; 0x0; 0x0; 0x0; 0x10; 0x7ff838; 0x7ff9f0; 0x6019e0;
   0x701980; 0x601800; 0x7ff800; 0x7ff800; 0x1c; 0xfffc3c; 0xfffcf0; 0xe00c60].
Definition hanzi_data_230 : list N :=
  [0xe30c40; 0xe30c00; 0xe30c80; 0xe30d80; 0xe30dc0; 0xe30cc0; 0xe78ce0; 0x8f8860;
   0x3dc070; 0x78e038; 0x1e07c38; 0x3c03e18; 0x1800610; 0x0; 0x0; 0x0;
   0x0; 0x202000; 0x0; 0x0; 0x0; 0x1c010; 0xe038; 0x3fe0f0;
   0x7ff1e0; 0x7578c0; 0x383800; 0x1c1e00; 0xfffe00; 0x1fffe1c; 0xc6183c; 0x1c71870;
   0xc61860; 0x1c71800; 0xc61800; 0x1c71840; 0x3fffec0; 0x3ffffe0; 0xf80e0; 0x1dc070;
   0x18e030; 0x78f038; 0xf03838; 0x1e01e1c; 0x3800f98; 0x1000300; 0x0; 0x0;
   0x0; 0x0; 0x202000; 0x0; 0x0; 0x0; 0x18010; 0x1c038;
   0x7fc1f0; 0xffe1e0; 0x757180; 0x70f800; 0x39de00; 0x1f8c00; 0xf001c; 0x1fc07c;
   0xfdf0f0; 0x3e07f60; 0x3c71e00; 0x60000; 0x3fffe00; 0x3fffec0; 0x3fffec0; 0x4600e0;
   0xe73860; 0xc61870; 0x1c71c70; 0x3860e38; 0x307071c; 0x7e218; 0x3c010; 0x0;
   0x0; 0x0; 0x0; 0x202000; 0x0; 0x0; 0x0; 0x600;
   0x3ffce38; 0x3ffdc78; 0x3aa98e0; 0x38018c0; 0x3800000; 0x3955700; 0x3bff300; 0x3bff71c;
   0x383033c; 0x3830770; 0x3830320; 0x3975700; 0x39ff300; 0x39ff700; 0x3830360; 0x3830760;
   0x3830360; 0x3830770; 0x3bffb30; 0x3bfff38; 0x3800338; 0x1d0071c; 0x1f8030c; 0x1f80700;
   0x0; 0x0; 0x0; 0x0; 0x202000; 0x0; 0x0; 0x0;
   0x0; 0xaa8738; 0x1ffce78; 0x1ffdce0; 0x18018c0; 0x1800000; 0x1800700; 0x19fe300;
   0x19fe71c; 0x198633c; 0x19c6778; 0x1986320; 0x19d6700; 0x19fe300; 0x19d6700; 0x1986360;
   0x19c6760; 0x1986360; 0x19fe770; 0x19fe330; 0x1954738; 0x1800318; 0x180071c; 0x1f0030c;
   0x1f00700; 0x0; 0x0; 0x0; 0x0; 0x202000; 0x0; 0x0;
   0x0; 0x30000; 0x3833f98; 0x1833fb8; 0x1c33070; 0xc33060; 0xe33000; 0x733000;
   0x3b3f00; 0x1f3f0c; 0xb039c; 0x7ffc338; 0x3ffc3b0; 0x5774180; 0x333f80; 0x333f80;
   0x333aa0; 0x733070; 0x633830; 0x631830; 0xc31838; 0x1f31818; 0x1bb1818; 0x79f9d1c;
   0x3079f8c; 0x18f00; 0x0; 0x0; 0x0; 0x0; 0x202000; 0x0;
   0x0; 0x0; 0x10; 0x1fffc38; 0x1fffc70; 0x18300e0; 0x18718c0; 0x1831800;
   0x1831c00; 0x1838e00; 0x1c1c41c; 0xc0e03c; 0xfc7878; 0x783c60; 0x71c00; 0x30000;
   0x71000; 0x31840; 0x1ff18c0; 0x1ff18e0; 0x71860; 0x31870; 0x71870; 0x31838;
   0x7ffff1c; 0x3ffff18; 0x10; 0x0; 0x0; 0x0; 0x0; 0x202000;
   0x0; 0x0; 0x0; 0x30010; 0x30038; 0x700f8; 0x3fffde0; 0x3fffcc0;
   0x602000; 0x703000; 0x303000; 0x30601c; 0x38603e; 0x15d74f8; 0x3fffe60; 0x7ffff40;
   0x0; 0x80; 0xfff980; 0xfff9c0; 0xc018e0; 0xc018e0; 0xc01860; 0xc01870;
   0xc01838; 0xfff81c; 0xfff818; 0xc01800; 0x0; 0x0; 0x0; 0x0;
   0x202000; 0x0; 0x0; 0x0; 0x30010; 0x70038; 0x70078; 0x3fffee0;
   0x3ffffc0; 0x3800e80; 0x3800e00; 0x3fffe00; 0x7ff81c; 0x60383e; 0x6038f8; 0x603860;
   0x7ff840; 0x7ff800; 0x3880; 0x3980; 0x1fff9c0; 0xfff8c0; 0x1c038e0; 0xc03860;
   0x1c03870; 0xc03838; 0x1fff83c; 0xfff818; 0x1c03810; 0x0; 0x0; 0x0;
   0x0; 0x202000; 0x0; 0x0; 0x0; 0x1000000; 0x383ff38; 0x387ff78;
   0x3b303e0; 0x3b70340; 0x3b30300; 0x3b7ff00; 0x3b3ff00; 0x3b1570c; 0x3b0633e; 0x3b0637c;
   0x3b2eb20; 0x3b7ff00; 0x3b26f00; 0x3b66f00; 0x3b26f60; 0x3b66f60; 0x3b26f60; 0x3966db0;
   0x3826db0; 0x3876db8; 0x3836d98; 0x38061dc; 0x1e060cc; 0x1e06000; 0x0; 0x0;
   0x0; 0x0; 0x202000; 0x0; 0x0; 0x0; 0x10; 0x3fffc38;
   0x3fffcf0; 0x2aaade0; 0xc0cc0; 0xc0c00; 0x1ffec00; 0x1ffec00; 0x15d4c1c; 0xc0c3c;
   0xc0c70; 0x2aeac60; 0x3fffc00; 0x2aaae00; 0xc0e40; 0xc0ec0; 0x3fff6e0; 0x3ffe6e0;
   0x15d5670; 0xc0630; 0xc0730; 0xc0338; 0x7fffb9c; 0x3fff99c; 0x100; 0x0;
   0x0; 0x0; 0x0; 0x202000; 0x0; 0x0; 0x0; 0x30000;
   0x30018; 0x70078; 0x3fffff0; 0x7ffffe0; 0x210c0; 0x63000; 0x63800; 0x1571c0c;
   0x3ff1c1c; 0x1d79c78; 0x18d8e70; 0x1dddf20; 0xd9ef80; 0xd37d80; 0xe32ce0; 0x771c60;
   0x3e0c60; 0x3c1c70; 0x1c0c30; 0x7e1c38; 0xf78c18; 0x1e3dc1c; 0x380ec08; 0x1007c00;
   0x0; 0x0; 0x0; 0x0; 0x202000; 0x0; 0x0; 0x0;
   0x30010; 0x30038; 0x700f0; 0x3ffffe0; 0x3fffec0; 0x3000600; 0x3000600; 0x3003e00;
   0x181c; 0x1fcf83c; 0x1fdfc70; 0x18d8c60; 0x18d8e00; 0x18d8600; 0x18dcf00; 0x18cdbc0;
   0x1ecf9c0; 0x1ece0e0; 0x4c6070; 0xc3030; 0x70c3830; 0x30c1838; 0x30c1e1c; 0x3fc0f1c;
   0x1f80600; 0x0; 0x0; 0x0; 0x0; 0x202000; 0x0; 0x0;
   0x0; 0x10; 0x7ffc38; 0xfffc78; 0x7aa8e0; 0x3c0040; 0x1e0000; 0x3870700;
   0x3830600; 0x3a3171c; 0x3e33e3e; 0x3f37778; 0x3bbe620; 0x39f4700; 0x38f8600; 0x39fe700;
   0x3bb7640; 0x3f33fe0; 0x3c31ee0; 0x383e770; 0x383e630; 0x3814730; 0x3fffe38; 0x3ffff1c;
   0x3aaaa18; 0x3800000; 0x0; 0x0; 0x0; 0x0; 0x202000; 0x0;
   0x0; 0x0; 0x10; 0x1fffe38; 0x1fffef0; 0x1aaafe0; 0x18307c0; 0x1830600;
   0x1830600; 0x1bff600; 0x1fff61c; 0x183063e; 0x1830678; 0x1830660; 0x19fe600; 0x19fe600;
   0x1986600; 0x19866c0; 0x19867c0; 0x19ae6e0; 0x19fe660; 0x18aa670; 0x1800670; 0x1fffe38;
   0x1fffe1c; 0x1aaae18; 0x1800600; 0x0; 0x0; 0x0; 0x0; 0x202000;
   0x0; 0x0; 0x0; 0x10; 0x38; 0x3fffff0; 0x3ffffe0; 0x78080;
   0x1c000; 0xf000; 0x100f800; 0x3c1fe1c; 0x1e38f3e; 0xf7cf78; 0x3ffc20; 0x7e7800;
   0x663800; 0x6f7f40; 0xefe6c0; 0xcdc2e0; 0xcce060; 0x1cc7870; 0x38e3e30; 0x70e1f38;
   0x30e0338; 0x7501c; 0x3e008; 0x1e000; 0x0; 0x0; 0x0; 0x0].
Definition hanzi_data_231 : list N :=
  [0x202000; 0x0; 0x0; 0x0; 0x30010; 0x30038; 0x700f0; 0x2aeabe0;
   0x3fffec0; 0x3fffe00; 0x3000e00; 0x3000e00; 0x1c; 0x1fffc3c; 0x1fffcf0; 0x60060;
   0x71000; 0x63800; 0x73840; 0x1fe18c0; 0x1ff19c0; 0x618e0; 0x73c60; 0x63c70;
   0x76c70; 0x7ee38; 0x7ffc71c; 0x3ff039c; 0x1500300; 0x0; 0x0; 0x0;
   0x0; 0x202000; 0x0; 0x0; 0x0; 0x1843010; 0x18e3038; 0x1c738f0;
   0xe31de0; 0x718d80; 0x39ce00; 0x71ce00; 0xe38c00; 0x1c7181c; 0x18e383c; 0x38c70f0;
   0x2060; 0x1fffc40; 0x1fffc00; 0x1870c80; 0x1830d80; 0x1870dc0; 0x1fffcc0; 0x1fffce0;
   0x1830c60; 0x1870c70; 0x1830c38; 0x1fffc1c; 0x1fffc18; 0x1800c10; 0x0; 0x0;
   0x0; 0x0; 0x202000; 0x0; 0x0; 0x0; 0x1808; 0x1e0181c;
   0x1fc1878; 0x3e18e0; 0x61840; 0x61800; 0x6ff00; 0x6ff00; 0x6181c; 0x3fe183c;
   0x7fe3c70; 0xc63c20; 0xc67c00; 0xc6de00; 0xc6de00; 0xc61b60; 0xc61b70; 0xc61bb0;
   0xc719b0; 0xc31838; 0xc31818; 0xc39818; 0xc1981c; 0xc1980c; 0xc11800; 0x0;
   0x0; 0x0; 0x0; 0x202000; 0x0; 0x0; 0x0; 0x400010;
   0xe03838; 0x7dfcf0; 0x1fc1e0; 0x7ff080; 0xf8fe00; 0xe19e00; 0x18000; 0x7ffff1c;
   0x3ffff3c; 0x1557570; 0x7060; 0xfff800; 0xfff800; 0xc03c40; 0xc03ec0; 0xfff7c0;
   0xeab2e0; 0xc03070; 0xfff070; 0xfff030; 0xc03038; 0xc0301c; 0xfc300c; 0x783000;
   0x0; 0x0; 0x0; 0x0; 0x202000; 0x0; 0x0; 0x0;
   0x603000; 0x603038; 0x6030f8; 0x2eabbe0; 0x3fffec0; 0x3fffe00; 0x603000; 0x603000;
   0x7ff01c; 0x7ff03c; 0x6030f0; 0x603060; 0x7ff040; 0x7ff000; 0x603040; 0x6030c0;
   0x7ffffc0; 0x3fffee0; 0x5555560; 0x38e070; 0x707070; 0xe03838; 0x1c01e1c; 0x3800f98;
   0x3000310; 0x0; 0x0; 0x0; 0x0; 0x202000; 0x0; 0x0;
   0x0; 0x301800; 0x301818; 0x301878; 0x301860; 0x3018e0; 0x301840; 0x3ffff80;
   0x3feff80; 0x78180c; 0x78381c; 0x787c38; 0x78fc70; 0x7ddc20; 0xfd9e00; 0xf69e00;
   0x1b61a20; 0x1b71b70; 0x3b39bb0; 0x73199f0; 0x33199f8; 0x309898; 0x301818; 0x30181c;
   0x30180c; 0x301800; 0x0; 0x0; 0x0; 0x0; 0x202000; 0x0;
   0x0; 0x0; 0x70010; 0x1830c38; 0x1c71cf8; 0xc319e0; 0xe738c0; 0x737000;
   0x3f7000; 0x30000; 0x1fffc1c; 0x1fffc3c; 0x1d55cf0; 0x1800c60; 0x19fcc00; 0x19fcc00;
   0x19dcc00; 0x198ccc0; 0x198cdc0; 0x198cce0; 0x19fcc60; 0x19fcc70; 0x180cc70; 0x1808c38;
   0x1800c1c; 0x1f80c18; 0x1f00c00; 0x0; 0x0; 0x0; 0x0; 0x202000;
   0x0; 0x0; 0x0; 0x10; 0xfffc38; 0x1fffdf0; 0xc00de0; 0x1c01d80;
   0xfffc00; 0x1fffc00; 0xc00c00; 0x1c01c1c; 0xfffc7c; 0x1fffcf0; 0x60; 0x1fffc00;
   0x1fffc00; 0x1575400; 0x300c0; 0x15755c0; 0x3fffee0; 0x3ffff60; 0xf8070; 0x1dc070;
   0x38e038; 0x1f07c1c; 0x3e03f18; 0x3800700; 0x0; 0x0; 0x0; 0x0;
   0x202000; 0x0; 0x0; 0x0; 0x1810; 0x1838; 0x3fe1870; 0x3feb8e0;
   0x3d5f840; 0x18df800; 0x18c1800; 0x18c1800; 0x18c180c; 0x18fffbe; 0x1dffff8; 0xc83820;
   0xdc3800; 0xf8fb00; 0x79fb00; 0x79bb20; 0x73bb70; 0x333bb0; 0x7b39b0; 0x7839b8;
   0xfc3918; 0x1ce3818; 0x3c73d1c; 0x383be0c; 0x3011e00; 0x0; 0x0; 0x0;
   0x0; 0x202000; 0x0; 0x0; 0x0; 0x70010; 0x30038; 0x3ff01f0;
   0x3ff01e0; 0x1570180; 0x30000; 0x1fffc00; 0x1fffc00; 0x1d55c1c; 0x1800c3e; 0x1fffcf8;
   0x1fffc60; 0x1d55c40; 0x1800c00; 0x1fffc00; 0x1fffc80; 0x15755c0; 0x300e0; 0x1575560;
   0x3ffff70; 0x7ffff70; 0x30038; 0x7001c; 0x3000c; 0x70008; 0x0; 0x0;
   0x0; 0x0; 0x202000; 0x0; 0x0; 0x0; 0x3010; 0x3838;
   0x19f0; 0x1ce0; 0x3fffc00; 0x3fffe00; 0x1801700; 0x3803380; 0x18033dc; 0x39ff9be;
   0x19ffc70; 0x180ce20; 0x181c400; 0x1bffe00; 0x1bfff40; 0x180c0c0; 0x199cce0; 0x198cc60;
   0x199cc70; 0x19ffc30; 0x1dffc38; 0x1800038; 0x1c0001c; 0xfe0018; 0x7c0000; 0x0;
   0x0; 0x0; 0x0; 0x202000; 0x0; 0x0; 0x0; 0x30010;
   0x30038; 0x700f0; 0x3ffffe0; 0x3fffe80; 0x3aaae00; 0x3000600; 0x3000600; 0x1fffc1c;
   0xfff83e; 0x78; 0x20; 0x0; 0x3fffe00; 0x3fffe40; 0x600c0; 0x4700e0;
   0x6638e0; 0xe73870; 0xc61c70; 0x1c71c30; 0x3860e38; 0x307471c; 0x7e218; 0x3c010;
   0x0; 0x0; 0x0; 0x0; 0x202000; 0x0; 0x0; 0x0;
   0x10; 0x3fcfe38; 0x3fdfef0; 0x38c8ee0; 0x38dcec0; 0x38c8e00; 0x38dce00; 0x3fcfe00;
   0x3fdfe1c; 0x38c8e3e; 0x38dce78; 0x38c8e20; 0x38dce00; 0x38c8e00; 0x3fdfe40; 0x3fcfec0;
   0x38dc6c0; 0x38c8660; 0x38dc670; 0x38c8630; 0x38fc730; 0x3868318; 0x387c39c; 0x3e7f188;
   0x1e2f100; 0x0; 0x0; 0x0; 0x0; 0x202000; 0x0; 0x0;
   0x0; 0x0; 0x3ff3f38; 0x3ff7f78; 0x3b323e0; 0x3b37340; 0x3b32300; 0x3b37300;
   0x3b32b00; 0x3b37f1c; 0x3b3233c; 0x3b37370; 0x3b32320; 0x3f77300; 0x3ff2300; 0x3ff7f00;
   0x3833f60; 0x37360; 0x32360; 0x37370; 0x20323b0; 0x70371b8; 0x3032198; 0x3ff71dc;
   0x3ff3ccc; 0x1543cc0; 0x0; 0x0; 0x0; 0x0; 0x202000; 0x0;
   0x0; 0x0; 0x400c08; 0xee0c1c; 0xe60c78; 0xc60ce0; 0xc60c40; 0xc60c00;
   0x1c77f80; 0x1837f80; 0x1830c0c; 0x38b9e3c; 0x719de78; 0x219be20; 0x1c7f00; 0xc6f00;
   0xc4f80; 0xc0da0; 0xee0de0; 0xc60cf0; 0x1c60c30; 0x1860c38; 0x1870c18; 0x1fb8c18;
   0x3ff8c1c; 0x3038c0c; 0x1000c08; 0x0; 0x0; 0x0; 0x0; 0x202000;
   0x0; 0x0; 0x0; 0xcc010; 0xcc038; 0xcc0f0; 0xcc1e0; 0x1fffe80;
   0x1fffe00; 0x1ccce00; 0x18cce00; 0x1ccce1c; 0x18cce3e; 0x1fffef0; 0x1fffe60; 0x1ccce00].
Definition hanzi_data_232 : list N :=
  [0x18cce00; 0x1ccce00; 0x18ccec0; 0x7ffffe0; 0x3ffffe0; 0x7ffff70; 0x38e030; 0x787038;
   0xe03838; 0x1c01e1c; 0x3800f8c; 0x1000300; 0x0; 0x0; 0x0; 0x0;
   0x202000; 0x0; 0x0; 0x0; 0x10; 0x1fffc38; 0x1fffdf0; 0x1830de0;
   0x1c70d80; 0x1abac00; 0x1fffc00; 0x1abac00; 0x1c70c1c; 0x1830c7c; 0x1fffcf0; 0x1fffc40;
   0x0; 0x0; 0x7ffff00; 0x3ffff00; 0x3071c0; 0x3070e0; 0x307060; 0x303070;
   0x303870; 0x303838; 0x301e1c; 0x300f18; 0x300600; 0x0; 0x0; 0x0;
   0x0; 0x202000; 0x0; 0x0; 0x0; 0x70010; 0x70038; 0x1c730f0;
   0xc339e0; 0xe719c0; 0x631c00; 0x770e00; 0x2f8000; 0x7dc01c; 0xf8e03e; 0x1e0fc78;
   0x3833e60; 0x1071c40; 0x830800; 0x1c71840; 0xc318c0; 0xe71cc0; 0x678ce0; 0x7f8e70;
   0xd8470; 0x1dc030; 0x38f038; 0x1f07c1c; 0x3e01f18; 0x3000700; 0x0; 0x0;
   0x0; 0x0; 0x202000; 0x0; 0x0; 0x0; 0x701c10; 0x301838;
   0x703878; 0x7830e0; 0x79ff40; 0xd9ff00; 0x1ddff00; 0x18c0c00; 0x3860c1c; 0x3070c3c;
   0x303fc70; 0x18fc20; 0x39cc00; 0x70cc00; 0xe1cc00; 0xc0ce60; 0xc670; 0xc670;
   0x4c670; 0x1ec638; 0x7cc738; 0xf0c398; 0x1e0fd9c; 0x180f9cc; 0x7880; 0x0;
   0x0; 0x0; 0x0; 0x202000; 0x0; 0x0; 0x0; 0x70010;
   0x38078; 0xf81f0; 0xfc3c0; 0x3ce180; 0x707800; 0x1e03c00; 0x3c00e00; 0x37ff71c;
   0x7ff23c; 0x700f0; 0x300e0; 0x70040; 0x1fffe00; 0x1fffe80; 0x30180; 0xc719c0;
   0xe318c0; 0x6730e0; 0x633060; 0x777070; 0x232038; 0x3ffff1c; 0x3fffe18; 0x0;
   0x0; 0x0; 0x0; 0x0; 0x202000; 0x0; 0x0; 0x0;
   0xc00010; 0x1fe0038; 0x7ffef0; 0x3ffe0; 0x1c104c0; 0x1c38c00; 0xc31c00; 0xe33800;
   0x67301c; 0xf2303c; 0x1fc1070; 0xfffa60; 0x1ffc00; 0x30000; 0x70040; 0x300c0;
   0x7ffffc0; 0x3fffee0; 0x70070; 0x30070; 0x70070; 0x30038; 0x3fffe1c; 0x3fffe18;
   0x0; 0x0; 0x0; 0x0; 0x0; 0x202000; 0x0; 0x0;
   0x0; 0x30010; 0x30038; 0x700f0; 0x3ffffe0; 0x3fffe80; 0x0; 0x706000;
   0x306000; 0x30701c; 0x38303e; 0x78f878; 0xfdf820; 0x1cfdc00; 0x1868e00; 0x1070640;
   0x300c0; 0x7fffee0; 0x3fffee0; 0x7fffe70; 0x30070; 0x70030; 0x30038; 0x7001c;
   0x30018; 0x70010; 0x0; 0x0; 0x0; 0x0; 0x202000; 0x0;
   0x0; 0x0; 0x46010; 0xee038; 0x1c70f0; 0x1871e0; 0x183080; 0x3fff800;
   0x3fffc00; 0xc3c00; 0x1c3e1c; 0xc3e3e; 0x1ffff78; 0x1fffa20; 0x1c3800; 0xc3800;
   0x1c3840; 0xaeb8c0; 0x1fff8e0; 0x1fff8e0; 0x1c3870; 0xc3870; 0x1c3830; 0x3fff838;
   0x7fff81c; 0x3818; 0x3810; 0x0; 0x0; 0x0; 0x0; 0x202000;
   0x0; 0x0; 0x0; 0x38010; 0x30038; 0x700f0; 0x3fffee0; 0x7fffec0;
   0x30e000; 0x707000; 0xe03800; 0x1fffc1c; 0x1fffc3e; 0x1801c78; 0xaaa820; 0xfff800;
   0xe01800; 0xe01840; 0xfff8c0; 0xfff8e0; 0xe01860; 0xf55870; 0xfff830; 0xf55838;
   0xe01818; 0xe0181c; 0xfc1808; 0x7c1800; 0x0; 0x0; 0x0; 0x0;
   0x202000; 0x0; 0x0; 0x0; 0x10; 0xaaaa38; 0x1fffef8; 0x1aaaee0;
   0x18006c0; 0x188c600; 0x1bce600; 0x307000; 0xf0381c; 0xe01c3c; 0x1c71ef0; 0x830460;
   0x70000; 0x1fffe00; 0x1fffe40; 0xf80c0; 0x1fc0e0; 0x1be060; 0x7f7070; 0x733830;
   0x1e71c38; 0x3c30f38; 0x187071c; 0x30008; 0x70000; 0x0; 0x0; 0x0;
   0x0; 0x202000; 0x0; 0x0; 0x0; 0x30010; 0x30038; 0x3fffef0;
   0x3fffee0; 0x15554c0; 0x0; 0xfff800; 0xeab800; 0xc0181c; 0xc0183e; 0xfff870;
   0xfff860; 0x0; 0xfffc00; 0xfffc40; 0x3800c0; 0x1f00c0; 0x600e0; 0x7ffff60;
   0x3fffe70; 0x70070; 0x60038; 0x7001c; 0x7e018; 0x3e010; 0x0; 0x0;
   0x0; 0x0; 0x202000; 0x0; 0x0; 0x0; 0x7010; 0x3038;
   0x31f0; 0x3fff9e0; 0x3fffd80; 0x3998c00; 0x19dce00; 0x18ce700; 0x18c621c; 0x18e707c;
   0x18738f0; 0x1831c60; 0x1d38e00; 0xf9c400; 0x70c040; 0x3c0c0; 0x780c0; 0x6e60e0;
   0xe46c60; 0x1c06e70; 0x1b06630; 0x3b06738; 0x730671c; 0x23fe318; 0x1fc000; 0x0;
   0x0; 0x0; 0x0; 0x202000; 0x0; 0x0; 0x0; 0x10;
   0xfffc38; 0xfffcf0; 0xc00de0; 0xc00dc0; 0xfffc00; 0xfffc00; 0xc00c00; 0xc00c1c;
   0xeaac3c; 0xfffcf8; 0x60; 0xc1c40; 0xc0c00; 0x10c1c80; 0x3ccad80; 0x1fdfdc0;
   0x3cacc0; 0x1c1ce0; 0xc0c60; 0x70c1c70; 0x30d8c38; 0x3fdfc1c; 0x3fcfe18; 0x1500400;
   0x0; 0x0; 0x0; 0x0; 0x202000; 0x0; 0x0; 0x0;
   0x1c000; 0x18038; 0x1c078; 0x3fffee0; 0x7ffffc0; 0x2baea00; 0x387000; 0x303800;
   0x733c1c; 0xe31c3c; 0x1ffff78; 0x7ffffe0; 0x3c31f00; 0xc30c00; 0xfffc40; 0xfffcc0;
   0xc31cc0; 0xc30ce0; 0xfffc70; 0xfffc70; 0x7031c70; 0x3030038; 0x303001c; 0x3ff0018;
   0x1ff0000; 0x0; 0x0; 0x0; 0x0; 0x202000; 0x0; 0x0;
   0x0; 0x10; 0xaaaa38; 0x1fffef0; 0x1fffee0; 0x180c0; 0x18000; 0x1c000;
   0x3ffff00; 0x3ffff1c; 0x18603c; 0x387070; 0x703820; 0x1e1dc00; 0x3c18e00; 0x3c1c780;
   0x2e99b20; 0x1cdd8e0; 0x18d8c60; 0x39dcc70; 0x3198e30; 0x719c738; 0x2098238; 0x1c01c;
   0x1f81c; 0xf000; 0x0; 0x0; 0x0; 0x0; 0x202000; 0x0;
   0x0; 0x0; 0x6000; 0x6000; 0x706000; 0x386ff0; 0x1ceff0; 0xfe600;
   0x7e700; 0xf6380; 0x1e61c0; 0xf860f0; 0x1f07c7c; 0x807c18; 0x1c0380; 0xc0380;
   0x39c1bfc; 0x1cfeffc; 0xffeff4; 0x7f87e0; 0x7d8ff0; 0x6d9fb0; 0xfddb98; 0x1cce39c;
   0x79c738e; 0x30f33e4; 0xf01e0; 0x0; 0x0; 0x0; 0x0; 0x202000].
Definition hanzi_data_233 : list N :=
  [0x0; 0x0; 0x0; 0x30000; 0x30038; 0x1fffe78; 0x1fffee0; 0x300c0;
   0xaba800; 0x1fffc00; 0x30000; 0x157551c; 0x3ffff3c; 0x3ffff78; 0x60; 0xfffc00;
   0xfffc00; 0xc00c40; 0xfffcc0; 0xfffcc0; 0xc00ce0; 0xc00c70; 0xfffc70; 0xfffc30;
   0xc00c38; 0xc00c1c; 0xfc0c18; 0x780c10; 0x0; 0x0; 0x0; 0x0;
   0x202000; 0x0; 0x0; 0x0; 0x1800410; 0x3830638; 0x38306f0; 0x3a326e0;
   0x3b376c0; 0x3b36600; 0x3b36600; 0x39b6600; 0x39b461c; 0x383063c; 0x3fff6f0; 0x3fff660;
   0x3d75600; 0x3878600; 0x38fc640; 0x39bc6c0; 0x39be6e0; 0x3b36660; 0x3f37770; 0x3a33f30;
   0x3831f38; 0x38303b8; 0x383039c; 0x383018c; 0x3800100; 0x0; 0x0; 0x0;
   0x0; 0x202000; 0x0; 0x0; 0x0; 0x10; 0x7ffc38; 0x7ffcf8;
   0x6001e0; 0x6001c0; 0x7ff800; 0x7ffc00; 0x600000; 0x60001c; 0x3fffe3c; 0x7fffff0;
   0x2abaa60; 0x830440; 0x1c30c00; 0xf31c80; 0x3f3980; 0x1f31c0; 0xfc0c0; 0x3ff0e0;
   0x733860; 0x1f31e70; 0x3c30e38; 0x303023c; 0x3e018; 0x1e010; 0x0; 0x0;
   0x0; 0x0; 0x202000; 0x0; 0x0; 0x0; 0x70010; 0x30038;
   0x1fffef0; 0x1ffffe0; 0x70080; 0xaba800; 0xfffc00; 0x30000; 0x3ffff1c; 0x3fffe3c;
   0x1555578; 0xaaa820; 0xfffc00; 0xeaa800; 0xc11c40; 0xc308c0; 0xc71ce0; 0xc308e0;
   0xc71c70; 0xc30870; 0x4f9430; 0x3de038; 0x1f0f81c; 0x3c03e18; 0x1000e10; 0x0;
   0x0; 0x0; 0x0; 0x202000; 0x0; 0x0; 0x0; 0x70000;
   0x30038; 0x1575478; 0x1fff8e0; 0x1fffdc0; 0x30080; 0x1575400; 0x3fffe00; 0x1fffe1c;
   0x182003c; 0x1c678f0; 0xc6e060; 0x7cc00; 0x6bc00; 0x67040; 0x620c0; 0x3fffee0;
   0x3fffe60; 0x38070; 0x1f8030; 0x79c038; 0xe0f038; 0x1c07c1c; 0x3801e08; 0x1000600;
   0x0; 0x0; 0x0; 0x0; 0x202000; 0x0; 0x0; 0x0;
   0x1001810; 0x3c01838; 0x3fc1cf8; 0x3dffe0; 0xdffc0; 0xcae00; 0xc0c00; 0xc2e00;
   0x15c761c; 0x3fc363c; 0x7fc7670; 0xccbb60; 0xcdff00; 0xcdff00; 0xcc7000; 0xce3060;
   0xcff060; 0xcffe60; 0xc67f70; 0xc63730; 0xc77038; 0xc33038; 0xc3701c; 0xc3b00c;
   0xc17000; 0x0; 0x0; 0x0; 0x0; 0x202000; 0x0; 0x0;
   0x0; 0x10; 0xfffc38; 0xfffcf0; 0xe00de0; 0xe00cc0; 0xe00c00; 0xfffc00;
   0xaba800; 0x3801c; 0x1fffe3c; 0x1fffe70; 0x1838660; 0x1c38600; 0x1abae00; 0x1fffe40;
   0x18386c0; 0x1c386c0; 0x1abaee0; 0x1fffe70; 0x1fffe70; 0x7038630; 0x3038038; 0x3030018;
   0x3ff0018; 0x1fe0010; 0x0; 0x0; 0x0; 0x0; 0x202000; 0x0;
   0x0; 0x0; 0x6010; 0xe038; 0x1ff0f0; 0x3ff1e0; 0x1d79c0; 0x1c1c00;
   0xe1e00; 0xfffe00; 0x1ffff9c; 0xc30f3c; 0x1c30cf0; 0xc30c60; 0x1fffc00; 0xfffc00;
   0x1c30c40; 0xc30cc0; 0x1c30cc0; 0xfffce0; 0x1fffc70; 0x70; 0x30; 0x2aaaa38;
   0x3ffff1c; 0x3ffff1c; 0x0; 0x0; 0x0; 0x0; 0x0; 0x202000;
   0x0; 0x0; 0x0; 0x1c000; 0x38018; 0x70078; 0x3fffef0; 0x3ffffe0;
   0x3800600; 0x3830700; 0x3830600; 0x1fffc04; 0xfffc1e; 0x1c30c7c; 0xc30cf0; 0x1c30c60;
   0xfffc00; 0x1fffc00; 0xc30cc0; 0x1c30ce0; 0xebace0; 0x1fffc70; 0xebac70; 0x1c30c38;
   0x30038; 0x3001c; 0x3001c; 0x30010; 0x0; 0x0; 0x0; 0x0;
   0x202000; 0x0; 0x0; 0x0; 0x18010; 0x21c038; 0x70e0f0; 0x6071e0;
   0xff7dc0; 0x1fffc00; 0x181fc00; 0x1c000; 0x3ffff1c; 0x3fffe3c; 0x387070; 0x703860;
   0x1e61c00; 0x3c70e00; 0x383c740; 0x38f8c0; 0x3c7ce0; 0x8f0860; 0x1c7f070; 0xe0fc30;
   0x7c1838; 0x1f0038; 0x7f01c; 0xfc18; 0x1c00; 0x0; 0x0; 0x0;
   0x0; 0x202000; 0x0; 0x0; 0x0; 0x18010; 0x3818038; 0x38180f0;
   0x1fffde0; 0xfffc80; 0xe18000; 0x718000; 0x398000; 0x7fffe1c; 0x3fffe3c; 0x70078;
   0x3c020; 0x55f000; 0xfff800; 0x1ffff40; 0xc03fc0; 0x1c076e0; 0xfff0e0; 0x1fff070;
   0xc03070; 0x1c07030; 0xc03038; 0x1fff01c; 0xfff018; 0x1c07010; 0x0; 0x0;
   0x0; 0x0; 0x202000; 0x0; 0x0; 0x0; 0x70010; 0x30038;
   0x7c078; 0x1fe0e0; 0x7cf0c0; 0xf03c00; 0x7d55f00; 0x33ff700; 0x7ff11c; 0x80003c;
   0x191fe70; 0x199fe60; 0x1998e00; 0x1998e00; 0x199fe00; 0x199fe60; 0x1998ee0; 0x199ae60;
   0x199fe70; 0x1998e30; 0x1918e38; 0x1818e38; 0x181ce1c; 0x1f1ee0c; 0xf1ce00; 0x0;
   0x0; 0x0; 0x0; 0x202000; 0x0; 0x0; 0x0; 0x30010;
   0x70038; 0x3fffef0; 0x3fffee0; 0x15554c0; 0x0; 0xfff800; 0xeab800; 0xc0181c;
   0xeab83e; 0xfff878; 0x20; 0x3fffe00; 0x3fffe00; 0x3555640; 0x30006c0; 0x3fffec0;
   0xfff860; 0x70070; 0x60030; 0x70030; 0x60038; 0x7001c; 0x7e008; 0x3e000;
   0x0; 0x0; 0x0; 0x0; 0x202000; 0x0; 0x0; 0x0;
   0x30; 0x1fff8f0; 0x1fffdc0; 0x1880; 0xfffc1c; 0xfff87c; 0xc01c70; 0xc01800;
   0xfffd80; 0xfff9c0; 0x1ce0; 0x1870; 0x3fffc38; 0x3fff818; 0x6018; 0x2aaeaa8;
   0x3fffffc; 0x2abfaa8; 0x7fc00; 0xf6f00; 0x1e67c0; 0xf861e0; 0x7f0607c; 0x380603c;
   0x6000; 0x0; 0x0; 0x0; 0x0; 0x202000; 0x0; 0x0;
   0x0; 0x70010; 0x60038; 0x600f0; 0x3ffffe0; 0x3fffec0; 0x60ce00; 0x61ce00;
   0x2eaee00; 0x3fffe1c; 0x60ce3c; 0x61cef0; 0x6ace60; 0x7fce00; 0x2a8e00; 0x555640;
   0x1fff6c0; 0x1fff6e0; 0xe0c660; 0x71c770; 0x3b8730; 0x1f0738; 0x3f0338; 0x1fff39c;
   0x3e0f98c; 0x3001900; 0x0; 0x0; 0x0; 0x0; 0x202000; 0x0;
   0x0; 0x0; 0x70010; 0x30038; 0x701f0; 0x3ffffe0; 0x3ffff80; 0xfc000;
   0x1fe000; 0x3b6000; 0xf7781c; 0x3e33c7c; 0x7871ff0; 0x2fffe60; 0xfff800; 0xe01800].
Definition hanzi_data_234 : list N :=
  [0xe01800; 0xfff980; 0xfff9c0; 0xe018e0; 0xf55860; 0xfff870; 0x555070; 0x38;
   0x7ffff1c; 0x3ffff18; 0x0; 0x0; 0x0; 0x0; 0x0; 0x202000;
   0x0; 0x0; 0x0; 0x301810; 0x301818; 0x315d38; 0x33fff0; 0x33ffe0;
   0x301820; 0x3fc1800; 0x3ffff80; 0x377ff8c; 0x333819c; 0x33381bc; 0x338ff70; 0x338ff10;
   0x3386000; 0x3183800; 0x31a1860; 0x31bfc70; 0x319ffb0; 0x31c1fb0; 0x38c1830; 0x38e1838;
   0x3861818; 0x187181c; 0x1f39f0c; 0x1f11f00; 0x0; 0x0; 0x0; 0x0;
   0x202000; 0x0; 0x0; 0x0; 0x10; 0x1fffc38; 0x1fffcf0; 0x1800de0;
   0x1800cc0; 0x1fffc00; 0x1fffc00; 0xc00; 0xc1c; 0x3fffc3e; 0x3fffc70; 0x238c60;
   0x71cc00; 0xe0ec00; 0x1fffc40; 0x18feec0; 0xe0ec0; 0xe0ee0; 0x1fff670; 0x1fff630;
   0xe0738; 0xe0338; 0x7ffff9c; 0x3ffff88; 0x1555500; 0x0; 0x0; 0x0;
   0x0; 0x202000; 0x0; 0x0; 0x0; 0x10; 0xfff878; 0xfffdf0;
   0xe019c0; 0xe01d80; 0xeab800; 0xfffc00; 0xeab800; 0xe01c1c; 0xe0183c; 0xfffcf0;
   0xfff860; 0x40; 0x0; 0x1fffc00; 0x1fffc80; 0x1cccdc0; 0x18ccce0; 0x1cccc60;
   0x18ccc70; 0x1cccc70; 0x18ccc38; 0x7ffff9c; 0x3ffff98; 0x0; 0x0; 0x0;
   0x0; 0x0; 0x202000; 0x0; 0x0; 0x0; 0x718010; 0x618c38;
   0x719c78; 0x618ce0; 0x3ffffc0; 0x3ffff00; 0x719c00; 0x618c0c; 0x7f9c1c; 0x7f8c38;
   0x1c70; 0xaaac60; 0x1fffc00; 0xaba800; 0x30000; 0x2abaa60; 0x3ffff60; 0x2afaa60;
   0x1fc070; 0x3be030; 0x737838; 0xe31e38; 0x7c30f1c; 0x3830308; 0x30100; 0x0;
   0x0; 0x0; 0x0; 0x202000; 0x0; 0x0; 0x0; 0x10;
   0x1fffc38; 0x1fffcf8; 0x1830de0; 0x1870dc0; 0x1fffc00; 0x1d75c00; 0x1830c00; 0x1fffc1c;
   0x1fffc3e; 0xf0; 0xe0; 0xfffc00; 0xfff800; 0xc01c80; 0xfff980; 0xfffdc0;
   0xc018c0; 0xd55ce0; 0xfff860; 0xd55c70; 0xc01838; 0xc01c3c; 0xf81818; 0x781c10;
   0x0; 0x0; 0x0; 0x0; 0x202000; 0x0; 0x0; 0x0;
   0x387010; 0x387038; 0x3870f0; 0x3ffffe0; 0x3fffec0; 0x2bafa00; 0x387000; 0x387000;
   0x7ffff1c; 0x3ffff3c; 0x307070; 0x703860; 0x603800; 0xfffc00; 0x1fffe40; 0x7b037c0;
   0x33037c0; 0x3ff0e0; 0x3ff070; 0x3070; 0x1803030; 0x1803038; 0x1d5701c; 0xfff018;
   0x7fe000; 0x0; 0x0; 0x0; 0x0; 0x202000; 0x0; 0x0;
   0x0; 0x70010; 0x38038; 0xfc0f0; 0x1ce1e0; 0x7870c0; 0x3fffc00; 0x3fffe00;
   0x0; 0xfffc1c; 0xfff83c; 0xc01c70; 0xc01860; 0xc01c00; 0xfff800; 0xfffc00;
   0x306080; 0x3061c0; 0x3060c0; 0x3fffee0; 0x3fffe60; 0x307070; 0x303838; 0x303c1c;
   0x301e18; 0x300400; 0x0; 0x0; 0x0; 0x0; 0x202000; 0x0;
   0x0; 0x0; 0x30010; 0x30038; 0x700f0; 0x3ffffe0; 0x3fffec0; 0x3000600;
   0x3000600; 0x37ffe00; 0x7ff81c; 0x3c; 0xfff8f0; 0xfff860; 0xf55800; 0xe01800;
   0xf55800; 0xfff880; 0xf559c0; 0xe018e0; 0xf55860; 0xfff860; 0x555070; 0x38;
   0x7ffff1c; 0x3ffff18; 0x5555510; 0x0; 0x0; 0x0; 0x0; 0x202000;
   0x0; 0x0; 0x0; 0x10; 0xfff838; 0xfff8f0; 0xc019e0; 0xc018c0;
   0xfff800; 0xfff800; 0xc01800; 0xfff81c; 0xfff83c; 0x557070; 0x3060; 0x3fff800;
   0x3fff800; 0x1860c40; 0x1820ec0; 0x1871ee0; 0x19d88e0; 0x1b9fc70; 0x1904830; 0x1bffc38;
   0x1bff838; 0x1c0001c; 0xf80018; 0xf00000; 0x0; 0x0; 0x0; 0x0;
   0x202000; 0x0; 0x0; 0x0; 0x1c0c10; 0x1c1c38; 0x1c3878; 0xc38e0;
   0x7fdffc0; 0x3ffff80; 0x7ff80; 0x70c00; 0x1ff0c1c; 0x3fe0c3c; 0x1d4fc70; 0xe0fc20;
   0x70cc00; 0x60ce00; 0x70c600; 0x3fec660; 0x7ffc660; 0x60c670; 0x70c770; 0x60c338;
   0x70c338; 0x60e398; 0x70f5dc; 0x7e7dcc; 0x3c7c80; 0x0; 0x0; 0x0;
   0x0; 0x202000; 0x0; 0x0; 0x0; 0x180000; 0x187f38; 0x187f78;
   0x1863e0; 0xdf6340; 0xda6300; 0x1db6300; 0x19b7f00; 0x19b7f1c; 0x31b633c; 0x31b6370;
   0x319e320; 0x119e300; 0x3987f00; 0x1987f00; 0x1986360; 0x1d06360; 0xe06360; 0x706370;
   0x387f30; 0x1c7f38; 0xe0318; 0x7c31c; 0x3c00c; 0xc000; 0x0; 0x0;
   0x0; 0x0; 0x202000; 0x0; 0x0; 0x0; 0x703010; 0x303038;
   0x3870f0; 0x1860e0; 0x1fffec0; 0x1fffe00; 0x30000; 0xaba800; 0x1fffc1c; 0xaba83e;
   0x30078; 0x2abaa20; 0x3ffff00; 0x2aaaa00; 0x30040; 0x380c0; 0x3fffec0; 0x3fffe60;
   0x7c070; 0xec030; 0x1cf030; 0x387838; 0x1f03e1c; 0x3e00f88; 0x1000700; 0x0;
   0x0; 0x0; 0x0; 0x202000; 0x0; 0x0; 0x0; 0x0;
   0xe018; 0x3ffff78; 0x3ff3ef0; 0x7018e0; 0x301800; 0x701800; 0x3fe1800; 0x3ffff0c;
   0x30ff1c; 0x701878; 0x301830; 0x3ff1800; 0x3fe1800; 0x71ff20; 0x30ff60; 0x71ff70;
   0x3ff1870; 0x7ff1c70; 0x301c38; 0x700c38; 0x300e18; 0x70071c; 0x300388; 0x700100;
   0x0; 0x0; 0x0; 0x0; 0x202000; 0x0; 0x0; 0x0;
   0x10; 0x1fffc38; 0x1fffcf0; 0x1860de0; 0x1870c80; 0x1860c00; 0x1fffc00; 0x1fffc00;
   0x1fffc1c; 0xc3c; 0x1ffec70; 0x1ffec60; 0x1d56c00; 0x1806c00; 0x1ffec40; 0x1ffecc0;
   0x1806cc0; 0x1806ee0; 0x1ffe670; 0x1ffe630; 0x1806730; 0x1806338; 0x1ffe31c; 0x1ffe398;
   0x1806100; 0x0; 0x0; 0x0; 0x0; 0x202000; 0x0; 0x0;
   0x0; 0x1c01c10; 0x1f81838; 0x7fdc70; 0x1f98e0; 0x187c40; 0x187b00; 0x187f00;
   0x18fb00; 0x7ffdf1c; 0x3ffdb3c; 0x55d5ff0; 0x1819a0; 0x181d00; 0x181800; 0x181c00;
   0x1ff9860; 0x1ff9c60; 0x1819860; 0x1819c70; 0x1819830; 0x1819c38; 0x1819818; 0x1ff9c1c;
   0x1ff980c; 0x1819c00; 0x0; 0x0; 0x0; 0x0; 0x202000; 0x0].
Definition hanzi_data_235 : list N :=
  [0x0; 0x0; 0x70010; 0x830838; 0x1c71cf0; 0x1830de0; 0x1c71c80; 0x1830c00;
   0x1fffc00; 0x1fffc00; 0x1c; 0x3c; 0x3fffe78; 0x3fffe20; 0x30000; 0x38000;
   0x1fffc40; 0x1fffcc0; 0x19ccce0; 0x188cce0; 0x19ccc70; 0x188cc70; 0x19ccc30; 0x188cc38;
   0x19ccc1c; 0x1e8cc18; 0x1fccc10; 0x0; 0x0; 0x0; 0x0; 0x202000;
   0x0; 0x0; 0x0; 0x10; 0x2aaaa38; 0x3fffef0; 0x2ababe0; 0x300c0;
   0x38000; 0x3fffe00; 0x3fffe00; 0x3ddd61c; 0x398c63c; 0x398c6f0; 0x39fc660; 0x39fc600;
   0x398c600; 0x398c640; 0x398c6c0; 0x39fc6c0; 0x39fc6e0; 0x398c670; 0x398c670; 0x398c670;
   0x3fffe38; 0x3fffe18; 0x3800618; 0x3800610; 0x0; 0x0; 0x0; 0x0;
   0x202000; 0x0; 0x0; 0x0; 0x10; 0x3fffe38; 0x3fffff0; 0x18201e0;
   0x1c73180; 0xfe3000; 0xff3800; 0x23800; 0x7fc1c; 0x3ffcc7c; 0x3ff8ef0; 0x2a80760;
   0xfffa00; 0xfff800; 0xc03800; 0xc038c0; 0xfff9c0; 0xeab8e0; 0xc03860; 0xfff870;
   0xfff870; 0xc03838; 0xc0381c; 0xf83818; 0xf83800; 0x0; 0x0; 0x0;
   0x0; 0x202000; 0x0; 0x0; 0x0; 0x4010; 0x18e038; 0x3860f0;
   0x7071e0; 0xf038c0; 0x3c01c00; 0x3ffff00; 0x17ff600; 0x61c01c; 0x60c03c; 0x70e0f0;
   0x606060; 0x7f7c00; 0x3e1e00; 0x40c40; 0xfffcc0; 0x1fffcc0; 0xcccce0; 0x1cccc70;
   0xcccc70; 0x1cccc30; 0xcccc38; 0x7ffff9c; 0x3ffff9c; 0x0; 0x0; 0x0;
   0x0; 0x0; 0x202000; 0x0; 0x0; 0x0; 0x601010; 0x603838;
   0x707078; 0x3860e0; 0x15d7540; 0x3ffff00; 0x7ffff00; 0x0; 0x181fe1c; 0x199fe3c;
   0x199d670; 0x1998620; 0x199d600; 0x199fe00; 0x199fe40; 0x19986e0; 0x1998660; 0x199fe60;
   0x199fe70; 0x1998630; 0x1818638; 0x1818638; 0x181861c; 0x1f1e618; 0x1f0e600; 0x0;
   0x0; 0x0; 0x0; 0x202000; 0x0; 0x0; 0x0; 0x1010;
   0x3fc3838; 0x3fc38f0; 0x38c38e0; 0x38c3840; 0x38c3800; 0x38dff80; 0x3adff80; 0x3fc381c;
   0x3ac383c; 0x38c3870; 0x38c3820; 0x38dff00; 0x38cff00; 0x3fdd700; 0x3fcc360; 0x38dc760;
   0x38ec360; 0x387c770; 0x386ff30; 0x387ff38; 0x3830338; 0x3d3071c; 0x3e3821c; 0x1e10000;
   0x0; 0x0; 0x0; 0x0; 0x202000; 0x0; 0x0; 0x0;
   0x1810; 0x1fe1838; 0x1fe18f0; 0x18618e0; 0x1861840; 0x1861800; 0x187ff00; 0x186ff00;
   0x1fe181c; 0x1fe183c; 0x1861c70; 0x1863c20; 0x1867c00; 0x186fe00; 0x1ffde00; 0x1fe9e60;
   0x1d61b70; 0x1861bf0; 0x18619f0; 0x18619b8; 0x1861838; 0x1fe1818; 0x1fe181c; 0x186181c;
   0x1861800; 0x0; 0x0; 0x0; 0x0; 0x202000; 0x0; 0x0;
   0x0; 0x603010; 0x603038; 0x6030f8; 0x3fffee0; 0x3fffec0; 0x603000; 0x757000;
   0x7ff000; 0x75701c; 0x60303e; 0x7ff0f0; 0x7ff060; 0x603000; 0x603000; 0x7ffff00;
   0x3ffff40; 0x110cc0; 0x338ce0; 0x718c60; 0xe1cc70; 0xc0cc70; 0x404c38; 0x3fffc1c;
   0x3fffc1c; 0x0; 0x0; 0x0; 0x0; 0x0; 0x202000; 0x0;
   0x0; 0x0; 0x10; 0xfff838; 0xfff9f0; 0xc019e0; 0xd55980; 0xfff800;
   0xc01800; 0xc01800; 0xfff81c; 0xfff87c; 0xf0; 0x60; 0x3fffe00; 0x3fffe00;
   0x71000; 0x338c0; 0x1ff19c0; 0xff18e0; 0x1571c60; 0x33c70; 0x77c70; 0x3ee38;
   0x7ffc71c; 0x3ff8398; 0x3fc0100; 0x0; 0x0; 0x0; 0x0; 0x202000;
   0x0; 0x0; 0x0; 0x1c1810; 0xc1838; 0x11c19f0; 0x38c1be0; 0x1fff980;
   0x7ff800; 0x1c1800; 0xc1800; 0x71c181c; 0x30ff83c; 0x3fffcf8; 0x3fa3ce0; 0x70440;
   0x30000; 0x1fff800; 0xeab980; 0x1c039c0; 0xc038c0; 0x1fff8e0; 0xfff8e0; 0x1c03870;
   0xc03838; 0x1fff838; 0xfff818; 0x1c03810; 0x0; 0x0; 0x0; 0x0;
   0x202000; 0x0; 0x0; 0x0; 0x70010; 0x30038; 0x380f0; 0xfff9e0;
   0x1fffcc0; 0xc01800; 0x1d55c00; 0xfff800; 0x1d55c1c; 0xc0183e; 0x1fffc70; 0xfff860;
   0x0; 0x0; 0x3fffc00; 0x3fffc80; 0x701c0; 0x700e0; 0x1fffce0; 0xfff870;
   0x70070; 0x70038; 0x3ffff1c; 0x3fffe18; 0x0; 0x0; 0x0; 0x0;
   0x0; 0x202000; 0x0; 0x0; 0x0; 0x10; 0xfffc38; 0x1fffcf0;
   0xc00de0; 0x1d55cc0; 0xfffc00; 0x1575c00; 0x60c00; 0x3fffc1c; 0x3fffc3e; 0x1f0c78;
   0x23bee20; 0x7f1ff00; 0x3e01e00; 0x1555440; 0xfffcc0; 0x1d55cc0; 0xc00ce0; 0x1fffc70;
   0xfffc30; 0x1c01c30; 0xc00c38; 0x1fffc1c; 0xfffc08; 0x1c01c00; 0x0; 0x0;
   0x0; 0x0; 0x202000; 0x0; 0x0; 0x0; 0x10; 0xfff838;
   0xfff870; 0xc018e0; 0xd558c0; 0xfff800; 0xd55800; 0xc01800; 0xfff81c; 0xfff83c;
   0xc01878; 0xc01820; 0xfff800; 0xaaa800; 0x770040; 0xe300c0; 0x3fffec0; 0x3fffe60;
   0x78070; 0xf8030; 0x1dc030; 0x38e018; 0x1f87c1c; 0x3e03f08; 0x3800600; 0x0;
   0x0; 0x0; 0x0; 0x202000; 0x0; 0x0; 0x0; 0x308000;
   0x30f838; 0x31ff78; 0x303ee0; 0x303040; 0x303000; 0x3363000; 0x3363000; 0x337ff1c;
   0x1b7ff3c; 0x1b63870; 0x1b23820; 0x1f37c00; 0xb2fc00; 0x79fc00; 0x78b6e0; 0x78b660;
   0xf83360; 0xdc3370; 0xcc33b0; 0x1ce3138; 0x1863018; 0x387301c; 0x303b00c; 0x3013000;
   0x0; 0x0; 0x0; 0x0; 0x202000; 0x0; 0x0; 0x0;
   0x10; 0x2aaaa38; 0x3fffef0; 0x2baeae0; 0x18c080; 0x18c000; 0x3fffc00; 0x3fffc00;
   0x398cc1c; 0x398cc3c; 0x398cc70; 0x3baec60; 0x3fffc00; 0x2aaa800; 0x70040; 0x300c0;
   0x1fffdc0; 0x1fffce0; 0x1fffc60; 0x30070; 0x70070; 0x30038; 0x7ffff1c; 0x3ffff18;
   0x10; 0x0; 0x0; 0x0; 0x0; 0x202000; 0x0; 0x0;
   0x0; 0xc00010; 0x1ff8038; 0x7ffef0; 0xc13ee0; 0xe30cc0; 0x631800; 0x731800;
   0x2baaa00; 0x3fffe1c; 0x2aaea3e; 0xe078; 0x3ffff20; 0x7ffff00; 0x6000; 0x7040].
Definition hanzi_data_236 : list N :=
  [0xfff0c0; 0xfff0c0; 0x60f060; 0x71f870; 0x3b9830; 0x1f1c30; 0x1f0e38; 0x1ffc71c;
   0x3e0fb88; 0x1c07100; 0x0; 0x0; 0x0; 0x0; 0x202000; 0x0;
   0x0; 0x0; 0x701000; 0x303838; 0x383878; 0x3830e0; 0x1c70c0; 0xaeaa00;
   0x1ffff00; 0x1ffff00; 0xc600c; 0xc603e; 0x38c6778; 0x18c6620; 0x18c6600; 0x18c6e00;
   0x1cc6c40; 0xcc6cc0; 0xcc6c60; 0x6c6c60; 0x6c7c70; 0xc6030; 0xc6038; 0x2aeea98;
   0x7ffff98; 0x3ffff88; 0x0; 0x0; 0x0; 0x0; 0x0; 0x202000;
   0x0; 0x0; 0x0; 0x30010; 0x30018; 0x7fffe38; 0x3fffe70; 0x55dd460;
   0xc8c860; 0x1dcdc00; 0x188ce00; 0x39cc70c; 0x308c31c; 0x1cc01c; 0xaaaa30; 0x1fffe30;
   0xc00000; 0x1c00020; 0xfff860; 0x1fffc70; 0xc30; 0x1fffc30; 0x1fffe38; 0x1800038;
   0x1800018; 0x1c0001c; 0xfe0008; 0x7c0000; 0x0; 0x0; 0x0; 0x0;
   0x202000; 0x0; 0x0; 0x0; 0x10; 0xfffc38; 0x1fffcf0; 0xc00de0;
   0x1c01c80; 0xeaac00; 0x1fffc00; 0xeaac00; 0x1c01c1c; 0xc00c7c; 0x1fffcf0; 0xfffc60;
   0x1cc000; 0x18c000; 0x39cc640; 0x398cec0; 0x19ccce0; 0xd8dc60; 0xdcdc70; 0xf8d830;
   0x7cd838; 0x18c038; 0x7ffff9c; 0x3ffff98; 0x0; 0x0; 0x0; 0x0;
   0x0; 0x202000; 0x0; 0x0; 0x0; 0x306000; 0x306038; 0x3ffff78;
   0x3fffee0; 0x3061c0; 0x306080; 0x104000; 0x3fffe00; 0x3fffe0c; 0x300061e; 0x3030678;
   0x3030670; 0x1575420; 0x3fffe00; 0x3fffe00; 0xfc040; 0x1fc0e0; 0x3b6060; 0x737070;
   0xe33830; 0x1e31e38; 0x3830fb8; 0x303071c; 0x2030008; 0x30000; 0x0; 0x0;
   0x0; 0x0; 0x202000; 0x0; 0x0; 0x0; 0x70010; 0x30038;
   0x1fffcf0; 0xfff9e0; 0x1c71dc0; 0xc31800; 0x1fffc00; 0xaba800; 0x157541c; 0x3fffe3c;
   0x7fffff0; 0x60; 0xfffc40; 0xeab800; 0xc01c00; 0xc21880; 0xc71dc0; 0xc218c0;
   0xc71ce0; 0xc31860; 0x5b9070; 0x3de038; 0x1f0f838; 0x3c03e18; 0x1001c10; 0x0;
   0x0; 0x0; 0x0; 0x202000; 0x0; 0x0; 0x0; 0x1c0008;
   0x2cff9c; 0x7cffb8; 0xccc1f0; 0x1dcc1e0; 0xcc980; 0x1fcdd80; 0x1ffc980; 0x1fdd8c;
   0x18c99c; 0x18ddb8; 0x3f8c9f0; 0x3ffdda0; 0x13fc980; 0x319dd80; 0x3b8c9a0; 0x1f0cdf0;
   0xf00cb0; 0xf01c30; 0x2703638; 0x6787618; 0x27c6318; 0x7ef639c; 0x3c621cc; 0x1800040;
   0x0; 0x0; 0x0; 0x0; 0x202000; 0x0; 0x0; 0x0;
   0x3000; 0x3818; 0x1fe3878; 0x1fe7cf0; 0x18cee60; 0x18dc600; 0x18f8700; 0x18d0380;
   0x18dffc4; 0x18cfe9e; 0x1dc187c; 0xd81830; 0xd9ffa0; 0xd9ff80; 0xf81800; 0x789820;
   0x71df60; 0x319b30; 0x719b30; 0x7b9bb8; 0xfd1998; 0x1ce1898; 0x3cf1e1c; 0x3831e0c;
   0x3030400; 0x0; 0x0; 0x0; 0x0; 0x202000; 0x0; 0x0;
   0x0; 0x470010; 0xc31838; 0xe738f0; 0x6331e0; 0x377180; 0x3fffe00; 0x3fffe00;
   0xf8000; 0x3fe01c; 0x7b783e; 0x1e73cf0; 0x3c30e60; 0x1078600; 0x18000; 0x155d440;
   0x3fffec0; 0x3fffec0; 0x3070e0; 0x383070; 0x1cf870; 0x1ff030; 0x3f8038; 0xfffc1c;
   0x1e0fe18; 0xc01e10; 0x0; 0x0; 0x0; 0x0; 0x202000; 0x0;
   0x0; 0x0; 0x10; 0x2aaaa38; 0x3ffff70; 0x3feeae0; 0x64c7c0; 0x6ec200;
   0x66ff00; 0x66fe00; 0x66c70c; 0x66c23c; 0x77c778; 0x3fffe60; 0x3ffff00; 0x300200;
   0x703740; 0x7832e0; 0x787760; 0x6c6260; 0x6cff70; 0x26ecf30; 0x76747b8; 0x2630318;
   0x3e3801c; 0x3e1c00c; 0x1c0c000; 0x0; 0x0; 0x0; 0x0; 0x202000;
   0x0; 0x0; 0x0; 0x10; 0x2aaaa38; 0x3fffef0; 0x2baeae0; 0x19cccc0;
   0x198cc00; 0x1dcdc00; 0xd8d800; 0x7cd81c; 0x78c83e; 0x7ffff78; 0x3ffff20; 0x0;
   0x0; 0xfffc40; 0xfff8c0; 0xc01cc0; 0xc01860; 0xfffc70; 0xfff830; 0xc01c38;
   0xc01818; 0xfffc1c; 0xfff808; 0xc01c00; 0x0; 0x0; 0x0; 0x0;
   0x202000; 0x0; 0x0; 0x0; 0x70010; 0x70038; 0xe00f0; 0x3ffffe0;
   0x3fffec0; 0x60e00; 0x60e00; 0xffee00; 0x1ffee1c; 0xc60e3c; 0x7fffef8; 0x3fffe60;
   0x1c60640; 0xc60e00; 0x1ffe640; 0xffe6c0; 0x606e0; 0x1ffe660; 0x1fff770; 0x1802630;
   0x1c07738; 0x1802338; 0x1fff39c; 0x1ffe188; 0x1c07100; 0x0; 0x0; 0x0;
   0x0; 0x202000; 0x0; 0x0; 0x0; 0x10; 0x3fffe38; 0x3fffef0;
   0x2aaafe0; 0xc0ec0; 0xe0e00; 0x1ffee00; 0x1ffee00; 0x1806e1c; 0x1806e3c; 0x1ffee70;
   0x1ffee60; 0x1806e00; 0x1806e00; 0x1ffe640; 0x1ffe6c0; 0xc06e0; 0xecc660; 0x1cce770;
   0x18c6330; 0x38c7338; 0x30c3bb8; 0x70c199c; 0xf81dc; 0x78180; 0x0; 0x0;
   0x0; 0x0; 0x202000; 0x0; 0x0; 0x0; 0x30010; 0x30038;
   0x15754f0; 0x1fffde0; 0x1fffcc0; 0x30000; 0x30000; 0x3ffff00; 0x3ffff1c; 0x30e03e;
   0x707078; 0xe03860; 0x1fffe00; 0x1fffc00; 0x3801400; 0xaaa880; 0x1fffdc0; 0xeeece0;
   0x1cccce0; 0xcccc70; 0x1cccc70; 0xcccc38; 0x7ffff9c; 0x3ffff98; 0x0; 0x0;
   0x0; 0x0; 0x0; 0x202000; 0x0; 0x0; 0x0; 0x307010;
   0x303038; 0x1757470; 0x3fffee0; 0x3fffec0; 0x303000; 0x337000; 0x23a000; 0x7c01c;
   0x1ee03e; 0x787078; 0xf03820; 0x7fffe00; 0x3bfef80; 0x2154300; 0x40; 0xfff8e0;
   0xfff860; 0xe01870; 0xe01830; 0xe01830; 0xe01838; 0xfff81c; 0xfff808; 0xe01800;
   0x0; 0x0; 0x0; 0x0; 0x202000; 0x0; 0x0; 0x0;
   0x4000; 0x2aaf838; 0x3ff7e70; 0x3ba06e0; 0x19807c0; 0x1986680; 0x19cc600; 0x188c600;
   0x18df60c; 0x18dfe3c; 0x1f79e78; 0x1e70660; 0x500240; 0xaaa800; 0x1fffc00; 0xebacc0;
   0x1c30cc0; 0xc30ce0; 0x1fffc70; 0xfffc70; 0x1c30c30; 0xc30c38; 0x1fffc1c; 0xfffc08;
   0x1c00c00; 0x0; 0x0; 0x0; 0x0; 0x202000; 0x0; 0x0].
Definition hanzi_data_237 : list N :=
  [0x0; 0x10; 0xfffc78; 0xfffdf0; 0xe3b9c0; 0x777180; 0x3a6000; 0x1de000;
   0xf8000; 0x1f801c; 0xffe03c; 0x7f7fff0; 0x3831e60; 0x1fffc40; 0xfff800; 0x1c71c80;
   0xc30980; 0x1c71dc0; 0xfff8c0; 0x1fffce0; 0x630060; 0xe70070; 0xc30038; 0x1fffe38;
   0x3bffe18; 0x3000010; 0x0; 0x0; 0x0; 0x0; 0x202000; 0x0;
   0x0; 0x0; 0x10; 0x3fffe38; 0x3fffe78; 0x3aaaee0; 0x38006c0; 0x3aaae00;
   0xfff800; 0xc01800; 0xc0181c; 0xfff83c; 0xfff870; 0xc01860; 0xd55840; 0xfff800;
   0x575040; 0x300c0; 0x7fffec0; 0x3fffee0; 0x7fffe70; 0x386070; 0x787030; 0xe03838;
   0x1c01e1c; 0x3800f1c; 0x1000700; 0x0; 0x0; 0x0; 0x0; 0x202000;
   0x0; 0x0; 0x0; 0x703010; 0x703038; 0x3070f0; 0x3860e0; 0x3fffec0;
   0x3fffe00; 0x30000; 0x38000; 0x1fffc1c; 0x1fffc3e; 0x1c078; 0xc020; 0x7ffff00;
   0x3ffff00; 0x6040; 0x60c0; 0x1fff0c0; 0x1fff860; 0xc1c70; 0xc0e30; 0xc0f30;
   0xc03b8; 0x3fffd9c; 0x3fff808; 0x0; 0x0; 0x0; 0x0; 0x0;
   0x202000; 0x0; 0x0; 0x0; 0x601800; 0x601818; 0x703878; 0x3830f0;
   0x1870e0; 0x2000; 0x3ffff00; 0x3ffff00; 0x1c; 0x1c603c; 0x787878; 0xe03c60;
   0x3c01f40; 0x1800700; 0xfffc20; 0xfffc60; 0xcccc60; 0xcccc70; 0xcccc70; 0xcccc30;
   0xcccc38; 0xcccc18; 0x7ffff9c; 0x3ffff88; 0x0; 0x0; 0x0; 0x0;
   0x0; 0x202000; 0x0; 0x0; 0x0; 0x770010; 0xf30038; 0x1c700f0;
   0x3fffee0; 0x3fffec0; 0x30000; 0x1fffc00; 0x1fffc00; 0x1870c1c; 0x1fffc3c; 0x1fffc70;
   0x1830c60; 0x1fffc00; 0x1fffc00; 0x1870c40; 0xb208c0; 0x7ffffe0; 0x3ffffe0; 0x5755570;
   0x303830; 0x307030; 0x30e038; 0x30401c; 0x3f001c; 0x1e0000; 0x0; 0x0;
   0x0; 0x0; 0x202000; 0x0; 0x0; 0x0; 0x303000; 0x303038;
   0x39b378; 0x39b3e0; 0x19b340; 0x3f9b300; 0x7fdb300; 0x18dff00; 0x19dff0c; 0x18e001e;
   0x19fff78; 0x19fff20; 0x1d95500; 0xd80000; 0xf0fe00; 0xf0fe20; 0x70c660; 0x60c660;
   0x77c730; 0xfbc230; 0x1d9e318; 0x19c6398; 0x38e01dc; 0x3070088; 0x2030000; 0x0;
   0x0; 0x0; 0x0; 0x202000; 0x0; 0x0; 0x0; 0x10;
   0x3fffe38; 0x3fffff0; 0x2baebe0; 0x1cc0c0; 0xbaea00; 0x1fffe00; 0x188ce00; 0x19cce1c;
   0x188ce3c; 0x19cce70; 0x1fffe60; 0x1fffe00; 0x30000; 0x70040; 0x3ffffc0; 0x3ffffc0;
   0xf80e0; 0x1fe070; 0x3b7070; 0xf77830; 0x3e31e38; 0x7c70f9c; 0x303031c; 0x70000;
   0x0; 0x0; 0x0; 0x0; 0x202000; 0x0; 0x0; 0x0;
   0xc00010; 0xff8038; 0x7ffef0; 0xc1fde0; 0xc31cc0; 0x631800; 0x771800; 0x229800;
   0x19e01c; 0x1c703c; 0xf7c70; 0x33fc60; 0x61dc00; 0xe8f000; 0x1fffe40; 0x38bfcc0;
   0x304e0; 0x2abaa60; 0x3ffff70; 0x2afaa30; 0x1dc038; 0x38e038; 0x1f07c1c; 0x3e01f88;
   0x3000700; 0x0; 0x0; 0x0; 0x0; 0x202000; 0x0; 0x0;
   0x0; 0x1c308; 0x3f8c61c; 0x3fcc678; 0x388ee70; 0x39c6c60; 0x38bff80; 0x39fff80;
   0x3f81800; 0x3fd9b1c; 0x3899b3c; 0x39d9b78; 0x3899b20; 0x39d9b00; 0x3899b00; 0x3fd9b00;
   0x3fdff20; 0x38dff70; 0x38d9830; 0x38c1c30; 0x38e0c38; 0x3860e18; 0x3860618; 0x387071c;
   0x1e3838c; 0x1e10100; 0x0; 0x0; 0x0; 0x0; 0x202000; 0x0;
   0x0; 0x0; 0x30010; 0x30038; 0x1575478; 0x1fffee0; 0x1fffe40; 0x18000;
   0x1fffc00; 0xfffc00; 0x1c01c; 0x2aaea3c; 0x7ffff70; 0x2bafa20; 0x7c3800; 0xfffc00;
   0x1c7fe00; 0x7830fe0; 0x3575760; 0xfffc60; 0xfffc70; 0x1fe030; 0x7b7038; 0xe33838;
   0x1c31f1c; 0x83061c; 0x30000; 0x0; 0x0; 0x0; 0x0; 0x202000;
   0x0; 0x0; 0x0; 0x30010; 0x36038; 0x1fbf9f0; 0x1fb3de0; 0x1830d80;
   0x1830c00; 0x1fb7c00; 0x1fb7c00; 0x1830c1c; 0x1830c3c; 0x1fffcf0; 0x1fffc60; 0x1575400;
   0x30000; 0x30080; 0x1ffff80; 0x1ffffc0; 0xe038c0; 0x7070e0; 0x38e060; 0x1fc070;
   0xf8038; 0x1fffc3c; 0x3f8ff18; 0x3c01f10; 0x0; 0x0; 0x0; 0x0;
   0x202000; 0x0; 0x0; 0x0; 0x70010; 0x30078; 0xfffdf0; 0xffffc0;
   0xc01d80; 0xc00c00; 0xfffc00; 0xeaac00; 0xc01c1c; 0xfffc7c; 0xfffcf0; 0xc00c40;
   0xfffc00; 0xfffc00; 0x730040; 0xf300c0; 0x3ffffe0; 0x3fffee0; 0x157d570; 0x7c070;
   0xfe038; 0x3cf038; 0x1f87c1c; 0x3e01f98; 0x3000700; 0x0; 0x0; 0x0;
   0x0; 0x202000; 0x0; 0x0; 0x0; 0xc008; 0x1fcf818; 0x1fdff78;
   0x18c0370; 0x1cc0760; 0x18cff00; 0x1ccff00; 0x18cc300; 0x1ccff1c; 0x38eff3c; 0x787c778;
   0x2c320; 0x3feff00; 0x3feff00; 0x18c0700; 0x18cab20; 0x1dcff70; 0xd8eb30; 0xf0c330;
   0x70c338; 0x70c318; 0xf8c398; 0x3def59c; 0x38e79cc; 0x2067888; 0x0; 0x0;
   0x0; 0x0; 0x202000; 0x0; 0x0; 0x0; 0x38000; 0x30038;
   0x700f8; 0x3ffffe0; 0x3ffffc0; 0x3000600; 0x318c600; 0x338e600; 0x70701c; 0xe7383e;
   0x1c79ef0; 0x8f8c60; 0x1dc040; 0x38e000; 0xf07840; 0x3e01ec0; 0x3ffffc0; 0x27ffae0;
   0x601860; 0x601870; 0x601870; 0x601838; 0x7ff81c; 0x7ff818; 0x601810; 0x0;
   0x0; 0x0; 0x0; 0x202000; 0x0; 0x0; 0x0; 0x10;
   0x3fffe38; 0x3fffef8; 0x38006e0; 0x38006c0; 0x3bff600; 0x3fff600; 0x3838600; 0x391c61c;
   0x3b3f63c; 0x3bb3ef0; 0x38f8660; 0x387c600; 0x38e7e00; 0x3bf3640; 0x3bf86c0; 0x3ede6c0;
   0x38e7ee0; 0x3861670; 0x387c670; 0x383c630; 0x3800638; 0x3fffe1c; 0x3fffe1c; 0x3800600;
   0x0; 0x0; 0x0; 0x0; 0x202000; 0x0; 0x0; 0x0;
   0x30010; 0x30038; 0x1fffef0; 0x1fffee0; 0x15754c0; 0x30000; 0x1ffff00; 0x3fffe00;
   0x3d7571c; 0x383863e; 0x399e778; 0x3c7020; 0x1ffc00; 0x23f800; 0x71e040; 0xe078c0].
Definition hanzi_data_238 : list N :=
  [0x1fffce0; 0x1abfc60; 0x1230070; 0x333830; 0xf31838; 0xe31c38; 0x1c30f1c; 0x183c608;
   0x3c000; 0x0; 0x0; 0x0; 0x0; 0x202000; 0x0; 0x0;
   0x0; 0x10; 0x1fefe38; 0x1fffef0; 0x180c0e0; 0x181c0c0; 0x180c000; 0x1fdfe00;
   0x1fcfe00; 0xc061c; 0xe063e; 0x60678; 0x3fefe20; 0x3ffff00; 0x380c000; 0x18dc740;
   0x39ccec0; 0x198dcc0; 0x1c0e860; 0x1f0fc70; 0x1bede30; 0x19fc7b0; 0x182c118; 0x1c0e01c;
   0x1f87808; 0xf07800; 0x0; 0x0; 0x0; 0x0; 0x202000; 0x0;
   0x0; 0x0; 0x10; 0xfff838; 0x1fffdf0; 0xc019e0; 0x1d55d80; 0xfff800;
   0x1d55c00; 0xc01800; 0x1fffc1c; 0xfff83c; 0xf0; 0x2a8aa60; 0x3fdfe00; 0x3a9aa00;
   0x38d8600; 0x3998cc0; 0x3b99dc0; 0x3b198e0; 0x3f1f060; 0x3f9b870; 0x39f9f70; 0x3878638;
   0x3c1d01c; 0x3e1f018; 0x1e07010; 0x0; 0x0; 0x0; 0x0; 0x202000;
   0x0; 0x0; 0x0; 0x10; 0x3fffc38; 0x3fffcf8; 0xde0; 0x1ffedc0;
   0xffec00; 0xc00; 0x3fffc00; 0x3fffc1c; 0x8ccc3c; 0x1d8ccf0; 0xf8cc60; 0x77cc40;
   0x3e7ec00; 0x3e1cc40; 0x600ec0; 0x3fffec0; 0x3fff6e0; 0x60c670; 0x60c670; 0x618738;
   0x638338; 0x61039c; 0x7c0198; 0x7c0100; 0x0; 0x0; 0x0; 0x0;
   0x202000; 0x0; 0x0; 0x0; 0x100008; 0x183f38; 0x3c3f78; 0x3e33e0;
   0xf73340; 0x1c3bb00; 0x7c1fb00; 0x300fb00; 0x1ff9b1c; 0xff8b3c; 0x181b70; 0x183b20;
   0x15d7300; 0x3fff300; 0x15d7300; 0x183360; 0xdb3360; 0xdbbb60; 0x1d9bf70; 0x1998b30;
   0x318c338; 0x318e318; 0x118431c; 0x1f030c; 0x1f0300; 0x0; 0x0; 0x0;
   0x0; 0x202000; 0x0; 0x0; 0x0; 0x70010; 0x70038; 0x15754f0;
   0x3fffde0; 0x1755480; 0x706000; 0x706000; 0x38e000; 0x3fffe1c; 0x3fffe3c; 0x3070e70;
   0x3070e60; 0x70040; 0x3fffc00; 0x3fffc00; 0xc0c0; 0xc1c0; 0xffe0e0; 0xffe060;
   0xe06070; 0xe07070; 0xe03838; 0x603c1c; 0x7e0e18; 0x7e0610; 0x0; 0x0;
   0x0; 0x0; 0x202000; 0x0; 0x0; 0x0; 0x10; 0x1c6038;
   0x3870f0; 0x7038e0; 0x1f1dcc0; 0x3c9cf00; 0x39ce780; 0x387100; 0x7ff81c; 0xfffc3e;
   0x1c07c78; 0x20; 0x1feff00; 0x1feff00; 0x184c440; 0x18ccec0; 0x198dcc0; 0x1b0d860;
   0x1c0e070; 0x1f0f830; 0x1bcde30; 0x18ec738; 0x186c11c; 0x1e0f808; 0x1e07000; 0x0;
   0x0; 0x0; 0x0; 0x202000; 0x0; 0x0; 0x0; 0x10;
   0x3fffe38; 0x3fffe70; 0xe0; 0xfff9c0; 0xfff880; 0xc01800; 0xc01800; 0xfff81c;
   0xfff83c; 0x78; 0x2aaa860; 0x3fffc40; 0x3800c00; 0x3b0ec80; 0x398cc80; 0x39d8dc0;
   0x3bfecc0; 0x3bfece0; 0x3820c60; 0x3870c70; 0x3820c38; 0x3870c1c; 0x3e20c18; 0x1e50c00;
   0x0; 0x0; 0x0; 0x0; 0x202000; 0x0; 0x0; 0x0;
   0x70010; 0x60038; 0x3fffef0; 0x3ffffe0; 0x1575480; 0x30000; 0xfff800; 0xfff800;
   0xc0181c; 0xfff83e; 0xfff878; 0xc01820; 0xfff800; 0xeab800; 0xc01840; 0xfff8c0;
   0xd558e0; 0xc018e0; 0x7fffe70; 0x3fffe70; 0x30e030; 0xf0f038; 0x1e07c1c; 0x3801e18;
   0x1000610; 0x0; 0x0; 0x0; 0x0; 0x202000; 0x0; 0x0;
   0x0; 0x10; 0x1fffc38; 0x1fffcf0; 0x1800de0; 0x1d55cc0; 0x1fffc00; 0x1d55c00;
   0x1800c00; 0x1fffc1c; 0x1fffc3c; 0x470070; 0x1c31860; 0xe73800; 0x633000; 0x777040;
   0x3fffec0; 0x7ffffc0; 0xce0e0; 0x1ce070; 0x10ce070; 0x71c7070; 0x30c3838; 0x35c3c1c;
   0x3f80f18; 0x1f00700; 0x0; 0x0; 0x0; 0x0; 0x202000; 0x0;
   0x0; 0x0; 0x603010; 0x603038; 0x7070f0; 0x3061e0; 0x38e0c0; 0x3ffff00;
   0x3ffff00; 0x381800; 0x181c1c; 0x180c3e; 0x19ccc78; 0x18cc620; 0x1c6e700; 0xfe7f00;
   0xff7f40; 0x6233e0; 0x701860; 0xb81860; 0x1d86c70; 0x19cee30; 0x18cc738; 0x3feff98;
   0x37fff9c; 0x3038088; 0x1000000; 0x0; 0x0; 0x0; 0x0; 0x202000;
   0x0; 0x0; 0x0; 0x70010; 0x1861838; 0x1c719f0; 0x18619e0; 0x1c71980;
   0x1fff800; 0x1fff800; 0x60000; 0x7001c; 0x3fffe3e; 0x7fffef0; 0x60060; 0x1575040;
   0x1fff800; 0x1fffc80; 0x1861980; 0x1c71dc0; 0x1fff8c0; 0x1fffce0; 0x660060; 0xe70070;
   0x1e60038; 0x3fffe1c; 0x3bffe18; 0x3000000; 0x0; 0x0; 0x0; 0x0;
   0x202000; 0x0; 0x0; 0x0; 0x186010; 0x387038; 0xf03870; 0x1e03ce0;
   0x3f07f40; 0x338e300; 0x1fc000; 0xf8000; 0x1fe01c; 0xfcf83c; 0x7f07ff8; 0x3800f20;
   0xfffc00; 0xfff800; 0x30000; 0x30060; 0x3ffff60; 0x3fffe60; 0xe31c70; 0x631830;
   0x733838; 0x333018; 0x3ffff9c; 0x3ffff8c; 0x0; 0x0; 0x0; 0x0;
   0x0; 0x202000; 0x0; 0x0; 0x0; 0x10; 0x7ff838; 0x7ff8f0;
   0x6019e0; 0x67f9c0; 0x63f800; 0x671800; 0x621800; 0x3ffff1c; 0x3ffff3c; 0x3000778;
   0x3000360; 0x3ffff40; 0xfff800; 0xe01800; 0xfff8c0; 0xfff9c0; 0xe018e0; 0xf55860;
   0xfff870; 0xf55870; 0xe01838; 0xe01838; 0xfc1818; 0x7c1810; 0x0; 0x0;
   0x0; 0x0; 0x202000; 0x0; 0x0; 0x0; 0x30010; 0x30038;
   0x1575470; 0x3ffffe0; 0x3fffec0; 0x3030600; 0x3070600; 0x60000; 0x1fffc1c; 0x1fffc3c;
   0x707070; 0x306060; 0x30e000; 0x3fffe00; 0x7fffe40; 0x700e0; 0x700e0; 0x70060;
   0x3fffc70; 0x3fffc30; 0x70038; 0x70038; 0x7001c; 0x70008; 0x70000; 0x0;
   0x0; 0x0; 0x0; 0x202000; 0x0; 0x0; 0x0; 0x1000010;
   0x1f80038; 0x1fffef0; 0xffde0; 0x1c305c0; 0x1c30800; 0xc71c00; 0xe63800; 0x66381c;
   0x20303c; 0x1c0f0; 0x3fdf860; 0x3fc7c40; 0x3800c00; 0x3801c00; 0x3800d80; 0x3fdfdc0;
   0x3f9fce0; 0x3801ce0; 0x3800c70; 0x3801c70; 0x3800c38; 0x3fffc1c; 0x3fffc18; 0x3801c10;
   0x0; 0x0; 0x0; 0x0; 0x202000; 0x0; 0x0; 0x0].
Definition hanzi_data_239 : list N :=
  [0xe0000; 0x1ce33f8; 0xc673f8; 0xe6e318; 0x764318; 0x1fffb18; 0x1fffb18; 0x303f8;
   0x303f8; 0x3fffbb8; 0x7ffff18; 0x31c318; 0xf4e318; 0x1c67b18; 0x7c63ffc; 0x2e66ff8;
   0x76631c; 0x3ec308; 0x3fc31c; 0x7fe30c; 0xf6f30c; 0x1c63b0c; 0x1861b4c; 0x7c3ee;
   0x7c1c4; 0x0; 0x0; 0x0; 0x0; 0x202000; 0x0; 0x0;
   0x0; 0x1c1c10; 0xc1c38; 0x3fdfc78; 0x3fffee0; 0x17f76c0; 0xe73700; 0xc77700;
   0x422300; 0xff401c; 0x7ffe3c; 0x1fe70; 0x18060; 0x1ffc000; 0xfffe00; 0x1ff00;
   0x18060; 0x1fdc060; 0x3ffff60; 0x17ff70; 0x18030; 0x301c038; 0x3818018; 0x3ffc01c;
   0x1ff801c; 0x0; 0x0; 0x0; 0x0; 0x0; 0x202000; 0x0;
   0x0; 0x0; 0x0; 0x1fffe38; 0x1fffe78; 0x18006e0; 0x198c6c0; 0x1b8f600;
   0x1f03c00; 0x1800e00; 0x100040c; 0xfffc3e; 0x1fffc7c; 0x30020; 0x70000; 0x2abaa00;
   0x3ffff40; 0x2aaaa40; 0x555460; 0xfff860; 0xd55c70; 0xc01830; 0xc01c38; 0xc01818;
   0xfffc1c; 0xfff808; 0xc01c00; 0x0; 0x0; 0x0; 0x0; 0x202000;
   0x0; 0x0; 0x0; 0x18000; 0x38038; 0x1575478; 0x3fffee0; 0x3ffffc0;
   0x387000; 0x703800; 0xe19c00; 0x1c1cf1c; 0x38ce73c; 0x11c7178; 0x383860; 0x7ffc00;
   0xe3fe00; 0x47c440; 0x186e0c0; 0x1ce78e0; 0xec3c60; 0x7c3f70; 0x3837b0; 0x703130;
   0xe3b838; 0x7c7f81c; 0x380f81c; 0x1800; 0x0; 0x0; 0x0; 0x0;
   0x202000; 0x0; 0x0; 0x0; 0x10000; 0x631838; 0x631878; 0x6318e0;
   0x3ffffc0; 0x3ffff00; 0x631800; 0x631800; 0x63181c; 0x3c; 0x3ffff78; 0x3ffff20;
   0x3030700; 0x3030300; 0x3030700; 0xfffc40; 0xfffce0; 0xc30c60; 0xc31c70; 0xc30c30;
   0xc31c38; 0xeb0c38; 0xfb1c1c; 0x23080c; 0x30000; 0x0; 0x0; 0x0;
   0x0; 0x202000; 0x0; 0x0; 0x0; 0x1c0c00; 0xc0c18; 0xc0c78;
   0x1fe0ce0; 0x1ff7fc0; 0xc37f80; 0xe3dd00; 0xebcc00; 0x1ff8c0c; 0x1ff0c1c; 0x1b37fb8;
   0x1b37fb0; 0x1b30c30; 0x1b30c00; 0x1ff0c00; 0x1ff0c20; 0x37ff0; 0x37fb0; 0x30c30;
   0x2030c38; 0x7030c18; 0x3030c18; 0x3570c1c; 0x3ff0c0c; 0x1fc0c00; 0x0; 0x0;
   0x0; 0x0; 0x202000; 0x0; 0x0; 0x0; 0x18; 0x3fffe3c;
   0x3ffff78; 0x6018e0; 0x7ffc40; 0x7ff800; 0x601c00; 0x601800; 0x7ffc1c; 0x601838;
   0x3f41c70; 0x3ffff20; 0x77ff00; 0x200000; 0x3ffff00; 0x1feff60; 0x186c070; 0xcc6370;
   0xdc7f30; 0x783c38; 0x707c18; 0xf8ee18; 0x1ff4f1c; 0x38783cc; 0x3010188; 0x0;
   0x0; 0x0; 0x0; 0x202000; 0x0; 0x0; 0x0; 0x186000;
   0x186038; 0x3ffff78; 0x3fffee0; 0x1860c0; 0x186000; 0x104000; 0x3ffff00; 0x3ffff0c;
   0x18c03c; 0x18c078; 0x1fffe60; 0x1fffe00; 0x188c600; 0x19cc640; 0x19ce6c0; 0x1bde6e0;
   0x1bfe6e0; 0x1f77670; 0x1e63e70; 0x1871638; 0x1820638; 0x180061c; 0x1f00618; 0x1f00600;
   0x0; 0x0; 0x0; 0x0; 0x202000; 0x0; 0x0; 0x0;
   0x386010; 0x386038; 0x7fffff8; 0x3ffffe0; 0x17d7540; 0x386000; 0x104000; 0x3fffe00;
   0x3ffff1c; 0x300063e; 0x3000770; 0x3000620; 0xfffc00; 0xfff800; 0x70040; 0x300c0;
   0x1fffcc0; 0xfffce0; 0x1775470; 0x730030; 0xe70030; 0xc30038; 0x7ffff1c; 0x3ffff18;
   0x0; 0x0; 0x0; 0x0; 0x0; 0x202000; 0x0; 0x0;
   0x0; 0x30000; 0x30038; 0x1ff0078; 0x1ff00e0; 0x300c0; 0x3fffe00; 0x3fffe00;
   0x3818600; 0x181861c; 0x1bfa63c; 0x3ff678; 0x1818660; 0x1d58600; 0x1ff8600; 0x7f0640;
   0x6c0; 0x606e0; 0xccb660; 0x1ddf770; 0x198b330; 0x341d338; 0x3c09b38; 0x741df9c;
   0x7f8988; 0x150180; 0x0; 0x0; 0x0; 0x0; 0x202000; 0x0;
   0x0; 0x0; 0x186000; 0x186018; 0x1c6678; 0xc66f0; 0x3fc66c0; 0x3fe6600;
   0x76600; 0x76600; 0x3f660c; 0x73e63c; 0xe16678; 0x1c06660; 0x806040; 0x0;
   0x1fffe40; 0xfffec0; 0x1cc66e0; 0xcc6660; 0x1cc6670; 0xcc6630; 0x1cc6638; 0xcc6618;
   0x3ffff9c; 0x3ffff88; 0x0; 0x0; 0x0; 0x0; 0x0; 0x202000;
   0x0; 0x0; 0x0; 0x38010; 0x30038; 0x70078; 0x3fffe70; 0x3fffee0;
   0x18e040; 0x7cf800; 0xf8fc00; 0x1dcec1c; 0x398ee1c; 0x31ce778; 0x318e270; 0x70060;
   0x30000; 0x1575500; 0x3fffe40; 0x3ffffe0; 0xfc060; 0x1fe070; 0x337030; 0xf73c38;
   0x3c31e38; 0x7870f1c; 0x2030218; 0x70010; 0x0; 0x0; 0x0; 0x0;
   0x202000; 0x0; 0x0; 0x0; 0x180808; 0x18181c; 0x181878; 0x183860;
   0x1dff40; 0x3f9ff00; 0x7fc4400; 0x18cec00; 0x18cc60c; 0x18f863c; 0x1cf8778; 0xcf03a0;
   0xdfc500; 0xdaee00; 0x787c00; 0x787820; 0x707070; 0x307830; 0x70f830; 0xf8dc38;
   0xddce18; 0x1ce0718; 0x387079c; 0x303818c; 0x1010008; 0x0; 0x0; 0x0;
   0x0; 0x202000; 0x0; 0x0; 0x0; 0x30000; 0x30038; 0x70078;
   0x3fffee0; 0x3fffec0; 0x3800e80; 0x3f40e00; 0x3fffe00; 0x1ff01c; 0x303c; 0x30f0;
   0xfff060; 0x1fff000; 0x183000; 0x1c3000; 0x1830e0; 0x1c3060; 0x3fffe60; 0x3ffff70;
   0x304030; 0x78f038; 0xe07838; 0x1c01e1c; 0x3800f0c; 0x3000700; 0x0; 0x0;
   0x0; 0x0; 0x202000; 0x0; 0x0; 0x0; 0xc0008; 0x2e001c;
   0x760078; 0xe600e0; 0xc77fc0; 0x2abbf80; 0x3ffb000; 0x2ebf000; 0x63f11c; 0x63f9bc;
   0x637b70; 0x3ff1b20; 0x3ff1e00; 0x631e00; 0x631c00; 0x631c60; 0x3ff1e60; 0x3ff3e60;
   0x633770; 0x636338; 0x636398; 0x2eb01d8; 0x7ff009c; 0x2ab000c; 0x30000; 0x0;
   0x0; 0x0; 0x0; 0x202000; 0x0; 0x0; 0x0; 0x8;
   0x3ffff9c; 0x7ffffb8; 0x306af0; 0x303160; 0x383b80; 0x3ff1f00; 0x3ff0e00; 0x3031c0c;
   0x333183c; 0x333fff8; 0x333ffa0; 0x333cc00; 0x333ec00; 0x3336c00; 0x3336c20; 0x3330c70].
Definition hanzi_data_240 : list N :=
  [0x3330c30; 0x31b0c30; 0x780c38; 0xfc0c18; 0x1ce0c18; 0x3870d1c; 0x7038f8c; 0x3018780;
   0x0; 0x0; 0x0; 0x0; 0x202000; 0x0; 0x0; 0x0;
   0x41c08; 0x60c1c; 0x570c38; 0x1ff0e70; 0x1d7b660; 0xc3b600; 0xe7f700; 0x7cb700;
   0x3c378c; 0xfe37bc; 0x7e7f7f8; 0x3abf6a0; 0x1ff7700; 0xc33600; 0x1c33700; 0xff3620;
   0x1d73770; 0xc33630; 0x1ff3730; 0xff3638; 0x1c30718; 0xc30618; 0x1c3071c; 0xf3060c;
   0x730700; 0x0; 0x0; 0x0; 0x0; 0x202000; 0x0; 0x0;
   0x0; 0x18000; 0x38038; 0x3ffff78; 0x3ffffe0; 0x3830c0; 0x183000; 0x187000;
   0x1fffe00; 0x1fffe1c; 0x183063c; 0x1c30678; 0x18ba660; 0x1dff600; 0x1830600; 0x1c30640;
   0x19fe6c0; 0x1dfe6e0; 0x1982660; 0x1d86670; 0x19aa630; 0x1dfe638; 0x1802638; 0x1c0061c;
   0xf80608; 0xf00600; 0x0; 0x0; 0x0; 0x0; 0x202000; 0x0;
   0x0; 0x0; 0x38010; 0x38038; 0x1ff8070; 0xab81e0; 0x380c0; 0x3fffe00;
   0x3fffe00; 0x3218600; 0x1fff61c; 0x83f63c; 0x1d58670; 0x1ff0660; 0xf00600; 0xfff600;
   0x57f640; 0xc666c0; 0x6667c0; 0x66c6e0; 0x3ffff70; 0x3fffb30; 0x60330; 0x603b8;
   0x6039c; 0x7c18c; 0x7c100; 0x0; 0x0; 0x0; 0x0; 0x202000;
   0x0; 0x0; 0x0; 0x0; 0x3fffe38; 0x3fffe78; 0x8c0e0; 0x1cc0c0;
   0x1fffc00; 0x1fffc00; 0x188cc00; 0x19ccc1c; 0x188cc3e; 0x1fffc78; 0xaaa860; 0x0;
   0x1fffc00; 0x1fffc40; 0xc0; 0x7fffee0; 0x3fffe60; 0x70070; 0x633830; 0xe71c38;
   0x1c30e38; 0x387071c; 0x303e308; 0x3c000; 0x0; 0x0; 0x0; 0x0;
   0x202000; 0x0; 0x0; 0x0; 0x30010; 0x30038; 0x15754f0; 0x3fffee0;
   0x3fffec0; 0x1fe000; 0x7b7000; 0xe33c00; 0x3c31f1c; 0x183073c; 0x7c070; 0xee020;
   0x3c7000; 0xf33c00; 0x3c31f40; 0x1631ac0; 0x7338e0; 0x3b7060; 0x1fe070; 0x1fe030;
   0x7b7c38; 0xe31e38; 0x1c3061c; 0x83e018; 0x1e000; 0x0; 0x0; 0x0;
   0x0; 0x202000; 0x0; 0x0; 0x0; 0x43010; 0x61838; 0x3fffcf0;
   0x3fffce0; 0x18d8ec0; 0x18d9e00; 0xdcff00; 0x78e380; 0x78771c; 0x703c3e; 0xf03878;
   0x1fffc20; 0x7ffef00; 0x3000300; 0x140; 0x1fffcc0; 0x1fffcc0; 0x30060; 0x671870;
   0xe31830; 0x1c71c30; 0x1830e38; 0x387071c; 0x103e208; 0x3e000; 0x0; 0x0;
   0x0; 0x0; 0x202000; 0x0; 0x0; 0x0; 0x30000; 0x30018;
   0x1575478; 0x3fffee0; 0x3fffec0; 0x18c600; 0x18c600; 0x3fffe00; 0x3fffe04; 0x398c61e;
   0x398c67c; 0x398c670; 0x3fffe20; 0x3fffe00; 0x1c3600; 0x1183640; 0x3dd7760; 0xfbf760;
   0x7ff770; 0x183330; 0x61c3338; 0x21a33b8; 0x75ff19c; 0x3f9f9cc; 0x1501080; 0x0;
   0x0; 0x0; 0x0; 0x202000; 0x0; 0x0; 0x0; 0xc0000;
   0xe3f18; 0x1fe3f38; 0x1ff3330; 0x1c79b60; 0xefdb00; 0x7cfb00; 0x380b00; 0x7e0f04;
   0x3e78f0e; 0x3d5db3c; 0xff9b30; 0x1553300; 0x1b3300; 0x19b300; 0x1ffb360; 0x1fff760;
   0x18ff30; 0x15d7f30; 0x1ff8338; 0x1ff0318; 0x180318; 0x7ffe31c; 0x3ffe308; 0x300;
   0x0; 0x0; 0x0; 0x0; 0x202000; 0x0; 0x0; 0x0;
   0x10; 0x1fffe38; 0x1fffef8; 0x18006e0; 0x18006c0; 0x1fffe00; 0x1fffe00; 0x600;
   0x61c; 0x3fffe3c; 0x3fffef0; 0x60660; 0x1575600; 0x3fffe00; 0x3575e00; 0x3165e60;
   0x377df60; 0x3679b60; 0x3461f70; 0x33e5b30; 0x377db38; 0x3679b98; 0x30619dc; 0x3e619cc;
   0x1e61880; 0x0; 0x0; 0x0; 0x0; 0x202000; 0x0; 0x0;
   0x0; 0x30000; 0x30038; 0x3fffe78; 0x3fffee0; 0x15555c0; 0xf84c80; 0x1ddfc00;
   0xcf8c00; 0x1dfdc1c; 0xfdec3c; 0x1d07c78; 0xfffc60; 0x1fffc40; 0x30000; 0x1575440;
   0x3fffec0; 0x3fffec0; 0x38ccee0; 0x398ce70; 0x3bfee70; 0x3ffee38; 0x3a02e38; 0x3800e1c;
   0x3f00e18; 0x1f00e00; 0x0; 0x0; 0x0; 0x0; 0x202000; 0x0;
   0x0; 0x0; 0x18010; 0x38038; 0x15754f0; 0x3fffee0; 0x3ffff80; 0x3800600;
   0x3d55700; 0xfff800; 0xfffc1c; 0x3003e; 0x1fffc70; 0xfffc20; 0x1c30c00; 0xc30c00;
   0x1fffc40; 0xfffcc0; 0x1c30ce0; 0xc30c60; 0x1fffc70; 0xfffc30; 0x387038; 0x787838;
   0x1e03f1c; 0x3800f18; 0x1000300; 0x0; 0x0; 0x0; 0x0; 0x202000;
   0x0; 0x0; 0x0; 0x1cc008; 0x8c038; 0x7ffff7c; 0x3fffee0; 0x15dd5c0;
   0x8c000; 0x1fffc00; 0x1fffc00; 0x19ccc1c; 0x1fffc3e; 0x1fffc78; 0x188cc60; 0x1dddc00;
   0x1fffc00; 0x1555440; 0xaaa8c0; 0x1fffce0; 0xeab860; 0x1c01c70; 0xfff830; 0x1fffc30;
   0xc01838; 0x1fffc1c; 0xfff81c; 0x1c01c08; 0x0; 0x0; 0x0; 0x0;
   0x202000; 0x0; 0x0; 0x0; 0x191810; 0x1b1838; 0x1b1878; 0x19ffe0;
   0x1dff40; 0x3fc9800; 0x7fcd800; 0x18dff80; 0x18dffdc; 0x18e303c; 0x19e3870; 0x19bfe20;
   0x1dbfe00; 0xd8e600; 0xf07780; 0xf031a0; 0x73f0f0; 0x63fe30; 0x703fb0; 0xf03030;
   0x1f83018; 0x19c3018; 0x38e301c; 0x7073e0c; 0x2061e00; 0x0; 0x0; 0x0;
   0x0; 0x202000; 0x0; 0x0; 0x0; 0x386000; 0x386038; 0x3fffe78;
   0x3fffee0; 0x3861c0; 0x386000; 0x1fffc00; 0xfffc00; 0x1d55c1c; 0xc00c3c; 0x1fffc78;
   0xfffc60; 0x1c01c00; 0xfffc00; 0x1fffc40; 0x300c0; 0x300e0; 0x3fffe60; 0x3ffff70;
   0xf8030; 0x1dc038; 0x38f038; 0x1f07c1c; 0x3e01f08; 0x3000700; 0x0; 0x0;
   0x0; 0x0; 0x202000; 0x0; 0x0; 0x0; 0x303800; 0x303818;
   0x303878; 0x2babaf0; 0x3feffe0; 0x2baba00; 0x7c7c00; 0xfcfc00; 0x1fefe0c; 0x3b6be1e;
   0x333bbf8; 0x313960; 0x31f800; 0xc000; 0x3ffff00; 0x3ffff60; 0x307060; 0x383860;
   0x1c1c70; 0xefc30; 0x7f038; 0x3fc018; 0x1fdfc1c; 0x3e03f8c; 0x1c00f00; 0x0;
   0x0; 0x0; 0x0; 0x202000; 0x0; 0x0; 0x0; 0x60380].
Definition hanzi_data_241 : list N :=
  [0x60380; 0x3ff3ff8; 0x3ffaba8; 0x1d5c380; 0xe2fffc; 0x77fffc; 0x3e07e0; 0x7c1ff0;
   0xefbbb8; 0x3c7f39c; 0x100c380; 0x3fffff0; 0x3fffff0; 0x41c030; 0xe1c030; 0xf1fff0;
   0x3bdfb0; 0x1fdc30; 0xece38; 0x7dc738; 0xf0c398; 0x3e1c1fc; 0x180f8ce; 0xf00c;
   0x0; 0x0; 0x0; 0x0; 0x202000; 0x0; 0x0; 0x0;
   0xc0400; 0xe0c38; 0xe1c78; 0x618e0; 0x7fe5d40; 0x3ffff80; 0x7ff80; 0x38600;
   0x1ff861c; 0x3fe063c; 0x3757e78; 0x3307e20; 0x1346600; 0x366600; 0x376640; 0x3f266e0;
   0x3f76760; 0x336260; 0x376370; 0x376330; 0x3f7338; 0x3fa198; 0x7f9f5dc; 0x3f0fcc8;
   0x1409cc0; 0x0; 0x0; 0x0; 0x0; 0x202000; 0x0; 0x0;
   0x0; 0x180008; 0x18319c; 0x3fffbbc; 0x3ffdb70; 0x17d5e60; 0x7c0e00; 0xee0f00;
   0x1c70f80; 0x383dddc; 0x100d8bc; 0x7ffd878; 0x3ffd820; 0x1801c00; 0x1801e00; 0x19f9f00;
   0x19b9ba0; 0x19999f0; 0x1999830; 0x19d9830; 0x19f9838; 0x1959818; 0x1819818; 0x1801d1c;
   0x1f80f8c; 0x1f00708; 0x0; 0x0; 0x0; 0x0; 0x202000; 0x0;
   0x0; 0x0; 0x0; 0xfff838; 0xd558f8; 0xc019e0; 0xfff9c0; 0xc01800;
   0xfff800; 0xfff800; 0x1c; 0x3fffc3c; 0x3fffc78; 0x398cce0; 0x398cc40; 0x3fffc00;
   0x3fffc00; 0x8000c0; 0x1ffffc0; 0xfffee0; 0x707060; 0x38e070; 0x1fc070; 0xf8038;
   0x1fffc1c; 0x3f87f18; 0x1c00700; 0x0; 0x0; 0x0; 0x0; 0x202000;
   0x0; 0x0; 0x0; 0x306010; 0x306038; 0x7ffff78; 0x3fffee0; 0x3060c0;
   0x3be000; 0x3f8000; 0x718000; 0x3ffff1c; 0x3fffe3c; 0x1ce070; 0x387060; 0x707c00;
   0x3e01e00; 0x3f06f40; 0x23062c0; 0x17575c0; 0x3fffee0; 0x3ffff70; 0x306070; 0x307030;
   0x303038; 0x303c1c; 0x301e18; 0x300410; 0x0; 0x0; 0x0; 0x0;
   0x202000; 0x0; 0x0; 0x0; 0x10; 0x1fffc38; 0x1fffc70; 0x1830ce0;
   0x1c70cc0; 0x1fffc00; 0x1fffc00; 0x1830c00; 0x1fffc1c; 0x1fffc3c; 0x11c070; 0x38e060;
   0x3ffc00; 0xffc00; 0xe7d040; 0xc1e0c0; 0x1fffcc0; 0x3fffee0; 0x7075c70; 0x663070;
   0xe73870; 0x1c61c38; 0x3870e1c; 0x307c618; 0x3c010; 0x0; 0x0; 0x0;
   0x0; 0x202000; 0x0; 0x0; 0x0; 0x181808; 0x18181c; 0x1c1878;
   0xdfff0; 0x3fdffe0; 0x3fc1800; 0x35d5d00; 0x307ff00; 0x1b7ff1c; 0x1b39b3c; 0x1b39b78;
   0xb19b20; 0x31df00; 0x39ff00; 0x395d00; 0x383c20; 0x78fc60; 0x79de70; 0x7ddf30;
   0xec9b38; 0x1ce1bd8; 0x1861998; 0x387189c; 0x703980c; 0x2011808; 0x0; 0x0;
   0x0; 0x0; 0x202000; 0x0; 0x0; 0x0; 0x70010; 0x70038;
   0x1fffdf0; 0x1fffde0; 0x707080; 0x306000; 0x7fffe00; 0x3fffe00; 0x155541c; 0xaaa83c;
   0x1fff8f0; 0xc01860; 0x1d55800; 0xfff800; 0x1c01880; 0xc01980; 0x1fff9c0; 0xaea8c0;
   0x700e0; 0x3fffe60; 0x7fffe70; 0x60038; 0x7003c; 0x60018; 0x70010; 0x0;
   0x0; 0x0; 0x0; 0x202000; 0x0; 0x0; 0x0; 0x70010;
   0xc30c38; 0x1c70cf0; 0xc30de0; 0x1fffcc0; 0xfffc00; 0x38000; 0x30000; 0x3fffe1c;
   0x3fffe7c; 0x3000670; 0x3000660; 0xfff600; 0xfff000; 0x40; 0xc0; 0x3fffec0;
   0x3fffee0; 0x71070; 0x733870; 0xe71c70; 0x1c30c38; 0x1c70f1c; 0x383e71c; 0x3c000;
   0x0; 0x0; 0x0; 0x0; 0x202000; 0x0; 0x0; 0x0;
   0x70010; 0x30038; 0x1fffcf8; 0x1fffde0; 0x1c70dc0; 0x1830c00; 0x1fffc00; 0x1fffc00;
   0x7001c; 0x3fffe7c; 0x3fffef0; 0x3830660; 0x3870600; 0x3fffe00; 0x3fffe40; 0x300c0;
   0x700e0; 0x7a0e0; 0xef6c70; 0xcc6e70; 0x1e86638; 0x3e06738; 0x77fe31c; 0x23fe318;
   0x154000; 0x0; 0x0; 0x0; 0x0; 0x202000; 0x0; 0x0;
   0x0; 0x1008; 0x3f8381c; 0x3ffff38; 0x39bff70; 0x19d5560; 0x198aa00; 0x1ddff00;
   0xd98600; 0xdd870c; 0xf9ae3c; 0xddff78; 0x1980020; 0x19dff00; 0x39bff00; 0x31dc000;
   0x3187020; 0x31c3070; 0x31bfe30; 0x3ffffb0; 0x1f833b8; 0x1c3018; 0x183018; 0x1c301c;
   0x183e0c; 0x1c1e08; 0x0; 0x0; 0x0; 0x0; 0x202000; 0x0;
   0x0; 0x0; 0x10; 0x3fffe38; 0x3fffef0; 0x600e0; 0x738c0; 0x1fe3800;
   0x1ff3800; 0x63800; 0x5577d1c; 0x3ffff3e; 0x5555d78; 0x1820; 0x3fff800; 0x3fff800;
   0x1c40; 0x2aaacc0; 0x3fffcc0; 0x3aaa860; 0x3376470; 0x3266630; 0x3666630; 0x3ae6638;
   0x380671c; 0x1f82308; 0x1f00000; 0x0; 0x0; 0x0; 0x0; 0x202000;
   0x0; 0x0; 0x0; 0x10; 0x1fefe38; 0x1fffef0; 0x18080e0; 0x1dddcc0;
   0x198b800; 0x1f1d000; 0x1f8f800; 0x1dfde1c; 0x1868e3e; 0x1c70078; 0xf8020; 0x1de000;
   0xf87800; 0x3e73f40; 0x3838ec0; 0x19f0e0; 0x1e3860; 0x470070; 0xe3e030; 0x7c7038;
   0x1e0018; 0x7c01c; 0xfc08; 0x1c00; 0x0; 0x0; 0x0; 0x0;
   0x202000; 0x0; 0x0; 0x0; 0x70010; 0x1860c38; 0x1871cf0; 0x1860ce0;
   0x1871cc0; 0x1aeac00; 0x1fffc00; 0xaaa800; 0x6301c; 0xc383e; 0x3fff878; 0x3fffc20;
   0x15d5c00; 0xc1e00; 0x3ffff40; 0x3fffbc0; 0xc18e0; 0xc1860; 0x3fff870; 0x3fff830;
   0xc1838; 0xc1818; 0x7fff81c; 0x3fff808; 0x1800; 0x0; 0x0; 0x0;
   0x0; 0x202000; 0x0; 0x0; 0x0; 0x703000; 0x303038; 0x387078;
   0x3fffee0; 0x3fffec0; 0x30000; 0x1fffc00; 0x1fffc00; 0x3001c; 0x3ffff3c; 0x3ffff70;
   0xe060; 0x1ff000; 0x1e0000; 0x113f800; 0x383f8e0; 0x1c700e0; 0xff7f60; 0x3f7f70;
   0x1b3030; 0x7b1c38; 0xe30e38; 0x7c3071c; 0x383e388; 0x3e000; 0x0; 0x0;
   0x0; 0x0; 0x202000; 0x0; 0x0; 0x0; 0x186000; 0x186018;
   0x3ffff78; 0x3fffee0; 0x15d75c0; 0x186000; 0x1fffe00; 0x3fffe00; 0x3d5d60c; 0x381c63e;
   0x398e678; 0x1c7860; 0xffc00; 0x23b800; 0x71e000; 0xe87860; 0x1fffc60; 0x18bfc60].
Definition hanzi_data_242 : list N :=
  [0x1030070; 0x333830; 0x731c38; 0xe30c18; 0x1c30e1c; 0x183e60c; 0x3c000; 0x0;
   0x0; 0x0; 0x0; 0x202000; 0x0; 0x0; 0x0; 0x183000;
   0x183018; 0x3ffff78; 0x3fffff0; 0x1bb040; 0x38000; 0xfffe00; 0xfffe00; 0xc3800c;
   0x3ffff3e; 0x3ffff78; 0xc38020; 0xfffe00; 0xfffe00; 0x38000; 0x838660; 0x1dff660;
   0x9ba660; 0x1dbb670; 0x9bb630; 0x1f3b738; 0xb39b38; 0x1f39b1c; 0x838398; 0x1c38100;
   0x0; 0x0; 0x0; 0x0; 0x202000; 0x0; 0x0; 0x0;
   0x303000; 0x383018; 0x183878; 0x187870; 0x3fcfce0; 0x3fdce40; 0x3ff8700; 0x18d0380;
   0x1ceffcc; 0xcefe9c; 0xdf0038; 0xda0070; 0xd999a0; 0xf99b00; 0x79db20; 0x70f360;
   0x70f760; 0x30f660; 0x704670; 0xf9e030; 0xddfc38; 0x1ce3f98; 0x387079c; 0x3838088;
   0x3010000; 0x0; 0x0; 0x0; 0x0; 0x202000; 0x0; 0x0;
   0x0; 0x60c00; 0x360c1c; 0x760c38; 0x630e70; 0xc30670; 0x2eb8620; 0x3fff300;
   0x3ffb300; 0x63ffcc; 0x63ff9c; 0x63fc38; 0x3ff8c30; 0x3ff8600; 0x638600; 0x63bf00;
   0x63bfe0; 0x3ff87f0; 0x3ff8030; 0x638030; 0x63f038; 0x63ff18; 0x2eb8f98; 0x7ff81dc;
   0x2ab800c; 0x38000; 0x0; 0x0; 0x0; 0x0; 0x202000; 0x0;
   0x0; 0x0; 0x10; 0xfffc38; 0x7ffcf0; 0x38e1e0; 0x1fc0c0; 0x3fffe00;
   0x1fffe00; 0x1878000; 0xc7f01c; 0x66383c; 0x461f70; 0x78660; 0x157d400; 0x1fffe00;
   0x1848640; 0x19dc6c0; 0x1b8f6c0; 0x1f03e60; 0x1bff670; 0x1986630; 0x1986630; 0x19ae638;
   0x19fe61c; 0x1e06608; 0x1e00600; 0x0; 0x0; 0x0; 0x0; 0x202000;
   0x0; 0x0; 0x0; 0x10; 0x3feff38; 0x3ffff78; 0x3030e0; 0x7030c0;
   0x1fcfe00; 0x1fcfe00; 0x303000; 0x175751c; 0x3feff3e; 0x3ff5578; 0xaaa820; 0x1fffc00;
   0xebac00; 0x1c30c40; 0xc30cc0; 0x1fffcc0; 0xfffce0; 0xc70; 0x1000c30; 0x3000c30;
   0x3000c38; 0x3fffc1c; 0x1fff80c; 0x0; 0x0; 0x0; 0x0; 0x0;
   0x202000; 0x0; 0x0; 0x0; 0xf00010; 0x1ffe038; 0x7ffef0; 0xe32fe0;
   0x6318c0; 0x633800; 0x733000; 0x3ffff00; 0x3ffff1c; 0xfe03c; 0x3b70f0; 0x733860;
   0x1e31c00; 0x7830f00; 0x3ffff00; 0xfffc40; 0xc31cc0; 0xc30ce0; 0xfffc60; 0xfffc70;
   0xc31c70; 0xc30c38; 0xfffc1c; 0xfffc18; 0xc01c10; 0x0; 0x0; 0x0;
   0x0; 0x202000; 0x0; 0x0; 0x0; 0x703010; 0x303038; 0x3fffef0;
   0x3ffffe0; 0x1757480; 0x303000; 0x3ffff00; 0x3ffff00; 0x70301c; 0xf8787c; 0x1dcfcf0;
   0x18ecc60; 0x78f8f00; 0x3020700; 0xfffe00; 0xfffcc0; 0xc01dc0; 0xc00ce0; 0xfffc60;
   0xfffc70; 0xc01c70; 0xc00c38; 0xfffc1c; 0xfffc18; 0xc01c00; 0x0; 0x0;
   0x0; 0x0; 0x202000; 0x0; 0x0; 0x0; 0x1c0008; 0xc001c;
   0xc7ffc; 0x3fc7ff0; 0x1fe63e0; 0x1866380; 0x1c76380; 0xcf6380; 0xffff9c; 0x797fbc;
   0x781870; 0x781820; 0xfc1900; 0x1ce7900; 0x7d7f900; 0x3ff9920; 0x1fe1970; 0x1861930;
   0x1861930; 0x1861938; 0x186f918; 0x186ff18; 0x1fe1fdc; 0x1fe03cc; 0x1860008; 0x0;
   0x0; 0x0; 0x0; 0x202000; 0x0; 0x0; 0x0; 0x18010;
   0x1e038; 0x1fcfcf0; 0x1fc1de0; 0x1800cc0; 0x1800c00; 0x1fdfc00; 0x1fdfc00; 0x1800c1c;
   0x1800c3c; 0x1fffcf0; 0x1fffc60; 0x7000; 0x3000; 0x3fff840; 0x3fffcc0; 0x3001ee0;
   0x39a07e0; 0x3377f70; 0x3e6cc70; 0x3e6cc30; 0x18cce38; 0x180c61c; 0x1f80218; 0xf80010;
   0x0; 0x0; 0x0; 0x0; 0x202000; 0x0; 0x0; 0x0;
   0x386010; 0x386038; 0x17d7470; 0x1ffffe0; 0x1fffec0; 0x386000; 0x386000; 0x3ffff00;
   0x3ffff1c; 0x3003c; 0x1fffc70; 0xfffc60; 0x1c70c00; 0xc30c00; 0x1fffc40; 0xfffcc0;
   0x1c70cc0; 0xc30ce0; 0x1fffc70; 0xfffc30; 0x186030; 0x787838; 0x1e03c1c; 0x3800f0c;
   0x1000700; 0x0; 0x0; 0x0; 0x0; 0x202000; 0x0; 0x0;
   0x0; 0x30000; 0x38038; 0x18078; 0x3fffef0; 0x3ffffe0; 0x118c480; 0x398ee00;
   0x1f07c00; 0xf0780c; 0xfffc1c; 0x3fffe78; 0x3e01f70; 0x3fffb60; 0xfff800; 0xe01840;
   0xe018c0; 0xfff8c0; 0xfff8e0; 0x71070; 0x733870; 0x1e71c30; 0x3c30e38; 0x787071c;
   0x303e218; 0x3c000; 0x0; 0x0; 0x0; 0x0; 0x202000; 0x0;
   0x0; 0x0; 0x10; 0xfffc38; 0xfffcf0; 0xc30de0; 0xc31cc0; 0xfffc00;
   0xfffc00; 0xc30c00; 0xc31c1c; 0xfffc7c; 0xfffc70; 0x186060; 0x186000; 0x1fffe00;
   0x1fffe40; 0x1860c0; 0x1860c0; 0x1860e0; 0x3ffff70; 0x3ffff70; 0x187070; 0x787838;
   0x1f03c1c; 0x3c00f1c; 0x1800600; 0x0; 0x0; 0x0; 0x0; 0x202000;
   0x0; 0x0; 0x0; 0x10; 0x3ffff38; 0x3fffff8; 0xcc0e0; 0x1fffec0;
   0x1fffe00; 0x19cc600; 0x18cc600; 0x1fffe1c; 0x1fffe3c; 0x78; 0xfffc60; 0x1fffc00;
   0xc00c00; 0x1fffc40; 0xeaacc0; 0x1c00cc0; 0xfffce0; 0x1575470; 0x30070; 0x3ffff30;
   0x2abaa38; 0x3001c; 0x30018; 0x30000; 0x0; 0x0; 0x0; 0x0;
   0x202000; 0x0; 0x0; 0x0; 0x3800; 0x3fc3818; 0x3fc3878; 0x38dfff0;
   0x39dff60; 0x38c3800; 0x39c3800; 0x3fdff00; 0x3fdff0c; 0x3ad833c; 0x39dd778; 0x38dff20;
   0x39dd700; 0x38d8300; 0x3fdff20; 0x3fdff60; 0x38c3860; 0x38c3870; 0x38ffff0; 0x38fffb0;
   0x3863838; 0x3863818; 0x3d7381c; 0x3e3380c; 0x1e33808; 0x0; 0x0; 0x0;
   0x0; 0x202000; 0x0; 0x0; 0x0; 0x304000; 0x30f838; 0x333ff78;
   0x3331fe0; 0x1b71840; 0x1b61800; 0xf61800; 0x30ba80; 0x3ffff9c; 0x3ffffbc; 0x3831c78;
   0x3833c20; 0x3d77c00; 0x3ff7e00; 0x3ffff00; 0x383db20; 0x3835bf0; 0x3ff19b0; 0x3ff19f0;
   0x38318b8; 0x3831818; 0x3831818; 0x3d3181c; 0x3e3180c; 0x1e31800; 0x0; 0x0;
   0x0; 0x0; 0x202000; 0x0; 0x0; 0x0; 0xe1100; 0xe33b8].
Definition hanzi_data_243 : list N :=
  [0x38e3f78; 0x1ae9ee0; 0x1ffde40; 0xee8e00; 0xee1f00; 0x6e1b80; 0x57f59dc; 0x3fff83c;
   0x7fff870; 0xe1820; 0x71c00; 0x1ff9e00; 0x1ffdf00; 0x183fb20; 0x1837bf0; 0x1ab19b0;
   0x1ff1830; 0x1831838; 0x1831818; 0x1831818; 0x1ff1c1c; 0x1ff0f0c; 0x1830f00; 0x0;
   0x0; 0x0; 0x0; 0x202000; 0x0; 0x0; 0x0; 0x18cc10;
   0x18cc38; 0x18cc78; 0x1bffe0; 0x1fff40; 0x3f8cc00; 0x7fccc00; 0x18ccc00; 0x18fff1c;
   0x18fff3c; 0x1de0070; 0x9ffe20; 0xdbfe00; 0xd98600; 0xd98600; 0xf1fe60; 0x71fe60;
   0x718660; 0x71fe70; 0x71fe30; 0xd98638; 0x1dd8638; 0x38f861c; 0x70fe61c; 0x307e600;
   0x0; 0x0; 0x0; 0x0; 0x202000; 0x0; 0x0; 0x0;
   0x703000; 0x303018; 0x1757578; 0x3fefee0; 0x1757de0; 0x787800; 0xfcfc00; 0xfdfe00;
   0x1beb704; 0x3b7339e; 0x333317c; 0x303070; 0x555420; 0xfffc00; 0xfffc00; 0xc00cc0;
   0xfffce0; 0xfffc60; 0xc00c70; 0xfffc30; 0xfffc38; 0xc00c38; 0xc00c1c; 0xfc0c08;
   0x7c0c00; 0x0; 0x0; 0x0; 0x0; 0x202000; 0x0; 0x0;
   0x0; 0x8; 0x1fffe38; 0x1fffe78; 0x18006e0; 0x1fffec0; 0x1fffe00; 0x600;
   0x7fe600; 0x7fe61c; 0x3c063c; 0x3fff670; 0x3fff660; 0xc0600; 0xf8600; 0x78740;
   0x3fbfec0; 0x3ffffe0; 0xc1c360; 0x61e770; 0x3ffe330; 0x7fdff38; 0x60efb8; 0x60e19c;
   0x78f9cc; 0x787888; 0x0; 0x0; 0x0; 0x0; 0x202000; 0x0;
   0x0; 0x0; 0x38010; 0x30038; 0x1fffef0; 0x1ffffe0; 0x7070c0; 0x386000;
   0x3ffff00; 0x3ffff00; 0x1c; 0xaaa83c; 0x1fffcf0; 0xc30c60; 0x1d75c00; 0xfffc00;
   0x1c30c40; 0xc30cc0; 0x1fffcc0; 0xaba8e0; 0x30060; 0x1fffe70; 0x1fffe70; 0x30038;
   0x157551c; 0x3ffff1c; 0x5555500; 0x0; 0x0; 0x0; 0x0; 0x202000;
   0x0; 0x0; 0x0; 0x703010; 0x707038; 0x3060f0; 0x38e1e0; 0x3fffec0;
   0x3fffe00; 0x1cccc00; 0xccc800; 0xccd81c; 0xecd83c; 0x6cd870; 0x3ffff60; 0x7ffff00;
   0x0; 0xfff840; 0xfff8c0; 0xd558c0; 0xc018e0; 0xfff870; 0xfff870; 0xc01830;
   0xc01838; 0xfff81c; 0xfff818; 0xc01800; 0x0; 0x0; 0x0; 0x0;
   0x202000; 0x0; 0x0; 0x0; 0x470010; 0xc31c38; 0xe718f0; 0x7330e0;
   0x3710c0; 0x3fffe00; 0x3ffff00; 0x1fc000; 0x7ff01c; 0x1e33c3e; 0x3c71f78; 0xe30a20;
   0xe01800; 0x3feb800; 0x7fffc40; 0xe9aec0; 0xedc7e0; 0xeccbe0; 0xe6fd70; 0x3fe7830;
   0x3fe7038; 0xe03818; 0xe01c1c; 0xe00f08; 0xe00700; 0x0; 0x0; 0x0;
   0x0; 0x202000; 0x0; 0x0; 0x0; 0x301800; 0x301818; 0x3999b8;
   0x3999f0; 0x1999e0; 0x3f9bb80; 0x7fdff80; 0x3acaa00; 0x19c000c; 0x18fff9c; 0x19fffb8;
   0x19e0030; 0x1d9ff80; 0xd9ff80; 0xf1ff80; 0xf01860; 0x701870; 0x61ff30; 0x71ff30;
   0xf01838; 0x1f81818; 0x19dff98; 0x38fff9c; 0x307aa8c; 0x20000; 0x0; 0x0;
   0x0; 0x0; 0x202000; 0x0; 0x0; 0x0; 0x460010; 0xcefe38;
   0xfdfef0; 0x3cc1e0; 0x31cc6c0; 0x3b8ee00; 0x1f07c00; 0x7ff800; 0xfffc1c; 0x1caae3c;
   0x7800f70; 0x3fffb60; 0xfffc00; 0xe01800; 0xe01c80; 0xe018c0; 0xfffcc0; 0xfff8e0;
   0x707060; 0x387070; 0x186070; 0x18e038; 0x3ffff1c; 0x3ffff18; 0x10; 0x0;
   0x0; 0x0; 0x0; 0x202000; 0x0; 0x0; 0x0; 0x301800;
   0x383818; 0x183078; 0x1bfff0; 0x15bffe0; 0x3f88c00; 0x7fcce00; 0x18c8600; 0x19dff0c;
   0x19fbf1e; 0x1de0178; 0x9efe30; 0x1ddff00; 0xd88200; 0xf1d720; 0xf0fe60; 0x71d760;
   0x608270; 0x71ff70; 0xf0fe30; 0xf9c738; 0x1d88218; 0x39dc71c; 0x30ef20c; 0x306e708;
   0x0; 0x0; 0x0; 0x0; 0x202000; 0x0; 0x0; 0x0;
   0x180000; 0x18aa18; 0x19ff7c; 0x18eaf0; 0x18e060; 0x2a86000; 0x7ffff80; 0x3ffff80;
   0x18cc70c; 0x18cc21e; 0x1ceff78; 0xcefe20; 0xdfc700; 0xdac200; 0xd8c700; 0xf8fe60;
   0x70ff60; 0x70c260; 0x73c770; 0x73fe38; 0xf8ffd8; 0xd8c398; 0x3dcc01c; 0x38ec00c;
   0x306c000; 0x0; 0x0; 0x0; 0x0; 0x202000; 0x0; 0x0;
   0x0; 0x180c608; 0x3e0c63c; 0x1fcc678; 0x3cc6e0; 0xfffc0; 0xfff80; 0xcc600;
   0xcc600; 0x55cfe0c; 0x3fcfe3c; 0x7fcc678; 0xccc620; 0x1ccfe00; 0xccfe00; 0x1ccc600;
   0xccc620; 0x1cffff0; 0xcfffb0; 0x1cd5530; 0xce6638; 0x1c6c718; 0xc6c318; 0x1c7439c;
   0xc3018c; 0x1c20188; 0x0; 0x0; 0x0; 0x0; 0x202000; 0x0;
   0x0; 0x0; 0x1c01008; 0xc0381c; 0x1c03838; 0xc3fff0; 0x1c3ffe0; 0xc03800;
   0x7fc3800; 0x3fdff00; 0x1c1ff0c; 0xc0001c; 0x1cdff38; 0xcdff30; 0x1dd8300; 0xd98300;
   0x1d9ff00; 0xd9ff20; 0x1d84070; 0xc0c630; 0x1c0c630; 0xc06638; 0x1c3e618; 0xc3fe18;
   0x1fc7f9c; 0xf8038c; 0x8; 0x0; 0x0; 0x0; 0x0; 0x202000;
   0x0; 0x0; 0x0; 0x3000; 0x3803038; 0x1c7ff78; 0xe3ffe0; 0xf57540;
   0x703000; 0x3fff00; 0x1bfe00; 0x100001c; 0x380003e; 0x1c3fe78; 0xe38620; 0x738600;
   0x3b8600; 0x1ffe40; 0xbfec0; 0x30186e0; 0x3818e60; 0x1c1cc70; 0xc0cc30; 0xe7dc38;
   0x77f818; 0x3dff9c; 0x1e0f08; 0x40000; 0x0; 0x0; 0x0; 0x0;
   0x202000; 0x0; 0x0; 0x0; 0x6010; 0x7038; 0x1ff8f0; 0xeb8e0;
   0x15f5cc0; 0x1fffe00; 0x1c70f00; 0x1830c00; 0x1fffc1c; 0x1830c3c; 0x1c70c78; 0x1fffc20;
   0x1555400; 0x3ffff00; 0x3ffff40; 0xc0; 0xfffcc0; 0xfff860; 0xe01c70; 0xfff830;
   0xfffc30; 0xe01838; 0xfffc1c; 0xfff808; 0xe01c00; 0x0; 0x0; 0x0;
   0x0; 0x202000; 0x0; 0x0; 0x0; 0x0; 0x2aa8718; 0x3ffde78;
   0x3aa9cf0; 0x38118e0; 0x3830000; 0x3975300; 0x3bffb00; 0x397530c; 0x383031c; 0x3bff378;
   0x3bbb360; 0x3bf5320; 0x3bfd300; 0x3b7d300; 0x3bff360; 0x3bff360; 0x38fc360; 0x39fe370].
Definition hanzi_data_244 : list N :=
  [0x3bb7330; 0x3f33f38; 0x3a30b18; 0x383031c; 0x1f00308; 0x1f00300; 0x0; 0x0;
   0x0; 0x0; 0x202000; 0x0; 0x0; 0x0; 0x10; 0x7ff038;
   0x7ff0f8; 0x6031e0; 0x7031c0; 0x7ff000; 0x7ff000; 0x0; 0x3fdfe1c; 0x3fcfe3c;
   0x38dc670; 0x38cc660; 0x3fdfe00; 0x3fcfe00; 0x30040; 0x300e0; 0x3ffff60; 0x3ffff60;
   0xfc070; 0x1be030; 0x737838; 0xe33c38; 0x7c31f1c; 0x3830708; 0x30100; 0x0;
   0x0; 0x0; 0x0; 0x202000; 0x0; 0x0; 0x0; 0xc08;
   0x3fe0c1c; 0x3fe7e38; 0x3307e70; 0x3106760; 0x3182300; 0x31c3380; 0x3acff80; 0x1cfffcc;
   0x829bbc; 0x6ddb78; 0x6cff20; 0x6dff00; 0x3fc9b00; 0x3fddb00; 0x669b20; 0x67ff70;
   0x60ff30; 0x7ffdb30; 0x3fe9b38; 0x61d918; 0x609998; 0x61d99c; 0x60f88c; 0x60e080;
   0x0; 0x0; 0x0; 0x0; 0x202000; 0x0; 0x0; 0x0;
   0x1cc000; 0x8c038; 0x1fffc78; 0x1aaece0; 0x19ccdc0; 0x1fffc80; 0x1fffc00; 0x188cc00;
   0x1fffc1c; 0x1fffc3c; 0x78; 0x3fffe60; 0x3ffff40; 0x0; 0xfff840; 0xfff8c0;
   0xc018c0; 0xc018e0; 0xfff870; 0xaaa870; 0x306030; 0x38e038; 0x7ffff1c; 0x3fffe18;
   0x0; 0x0; 0x0; 0x0; 0x0; 0x202000; 0x0; 0x0;
   0x0; 0x10; 0x1fffc38; 0x1fffcf0; 0x300e0; 0x3ffffc0; 0x3ffff00; 0x3030300;
   0x3fb7b00; 0x3ff7f1c; 0x3003e; 0xff7c78; 0xab2820; 0x7c000; 0x1ee000; 0x7dfc40;
   0x3e39ec0; 0x7c707e0; 0x2fff860; 0x7ffc70; 0x380030; 0x1c4038; 0xfe018; 0x7801c;
   0xe0008; 0xc0000; 0x0; 0x0; 0x0; 0x0; 0x202000; 0x0;
   0x0; 0x0; 0x10010; 0x38038; 0x700f0; 0x3fffee0; 0x3ffffc0; 0x20800;
   0x761c00; 0x660c00; 0x3ff2c1c; 0x3ff663e; 0x63ff78; 0x63bf20; 0x177df00; 0x3ff9800;
   0x1775c40; 0x636ec0; 0x637fe0; 0x3ff3f60; 0x1ff3370; 0x633830; 0x631838; 0x3ff0c18;
   0x7ff0f1c; 0x30308; 0x30000; 0x0; 0x0; 0x0; 0x0; 0x202000;
   0x0; 0x0; 0x0; 0x70010; 0x38038; 0x157d4f0; 0x1fffee0; 0x1fffec0;
   0x1932600; 0x19b6600; 0x18be600; 0x19f561c; 0x1bff63c; 0x197d670; 0x18fc620; 0x19b7600;
   0x1b33600; 0x1931600; 0x18206c0; 0x300e0; 0x3ffff60; 0x3ffff70; 0x78030; 0x1fc038;
   0x3ce038; 0x1f87c1c; 0x3e01f9c; 0x3c00700; 0x0; 0x0; 0x0; 0x0;
   0x202000; 0x0; 0x0; 0x0; 0x10; 0x1fffc38; 0x1fffcf0; 0x18ccde0;
   0x18cccc0; 0x1fffc00; 0x1fffc00; 0x0; 0x3ffff1c; 0x3fffe3e; 0x78; 0xfffc60;
   0xfffc00; 0xc00c00; 0xc01c00; 0xfffce0; 0xfffc60; 0x186e060; 0x1cc7870; 0xfc3e30;
   0x387f38; 0x763038; 0x1e7f01c; 0x381f80c; 0x3001000; 0x0; 0x0; 0x0;
   0x0; 0x202000; 0x0; 0x0; 0x0; 0x18000; 0x38038; 0x3ffff78;
   0x3ffffe0; 0xc0; 0x1fffe00; 0x1fffe00; 0x18aa600; 0x1dfe61c; 0x198663c; 0x1dfe670;
   0x1800620; 0x1fffe00; 0x1fffe00; 0x555440; 0xfffce0; 0xc01c60; 0xfffc60; 0xfffc70;
   0xc00c30; 0xfffc38; 0xaaa838; 0x3ffff1c; 0x3ffff08; 0x1555500; 0x0; 0x0;
   0x0; 0x0; 0x202000; 0x0; 0x0; 0x0; 0x6010; 0x7038;
   0x1ff0f8; 0x1eb8e0; 0xc1cc0; 0x3fffe00; 0x3ffff00; 0x338f80; 0x1f1cd9c; 0x3ceec3c;
   0x10c6c70; 0x3fffc60; 0x3fffc00; 0xc00; 0x1ffec00; 0xaaacc0; 0x1ffece0; 0x1ffee60;
   0x670; 0x1ffe630; 0x1d56738; 0x1806738; 0x1ffe31c; 0x1ffe39c; 0x1806100; 0x0;
   0x0; 0x0; 0x0; 0x202000; 0x0; 0x0; 0x0; 0x300008;
   0x30aa1c; 0x70fe78; 0x2eaee70; 0x3ffc660; 0x2aac600; 0x18cc600; 0x18cc600; 0x1ccfe0c;
   0xc8fe3c; 0x5d50678; 0x3ff0620; 0x7ff0700; 0x30fe00; 0x71ff00; 0x308f20; 0x3ffcf70;
   0x3fe8f30; 0x71cf30; 0x308fb8; 0x71dd98; 0x30fdd8; 0x71fcdc; 0x300c0c; 0x700c08;
   0x0; 0x0; 0x0; 0x0; 0x202000; 0x0; 0x0; 0x0;
   0x30010; 0x30038; 0x1ff00f0; 0xab00e0; 0x15754c0; 0x3fffc00; 0x3d75c00; 0x1a30c00;
   0x1fffc1c; 0x83fc3e; 0x1ff0c78; 0x1ff0c20; 0x1555c00; 0x3fffc00; 0x70c40; 0x1878cc0;
   0x1cffcc0; 0x7f2e60; 0x7dc670; 0xdefe30; 0x1df1730; 0x399c338; 0x718f31c; 0x21f3b88;
   0xf0100; 0x0; 0x0; 0x0; 0x0; 0x202000; 0x0; 0x0;
   0x0; 0x183808; 0x18181c; 0x1c1c78; 0x18ff70; 0x1dff60; 0x3fcc300; 0x7fdff00;
   0x18eff00; 0x18fc30c; 0x18ec33c; 0x18fff78; 0x8bff20; 0x1df1c00; 0xd8ba80; 0xd9ff80;
   0xf8aea0; 0x700e70; 0x70fe30; 0x70fe30; 0x70c638; 0xf8c718; 0x1dcc318; 0x38ef39c;
   0x387f9cc; 0x30278c8; 0x0; 0x0; 0x0; 0x0; 0x202000; 0x0;
   0x0; 0x0; 0x30000; 0x30018; 0x1575578; 0x3fffff0; 0x1555760; 0x30c300;
   0x31c700; 0x3fffb00; 0x3ffff1c; 0x19833c; 0x1ffff78; 0x1fffb20; 0x1998700; 0x3bbab00;
   0x7ffff00; 0x1998360; 0x1ddd360; 0x1fffb60; 0x39c370; 0x79e3b8; 0xf9f3b8; 0x3d9b998;
   0x7999ddc; 0x21988cc; 0x1980c8; 0x0; 0x0; 0x0; 0x0; 0x202000;
   0x0; 0x0; 0x0; 0x240008; 0x7e001c; 0x667f78; 0xe63ff0; 0xc77340;
   0x3ff2300; 0x3ff7300; 0x63bf00; 0x67ff1c; 0x63e33c; 0x3fff370; 0x3ff2320; 0x677700;
   0x633f00; 0x677f00; 0x2eb2360; 0x3ff7360; 0xeb2360; 0x677f70; 0x633f38; 0x675718;
   0x3ff0318; 0x7ff031c; 0x3000c; 0x70000; 0x0; 0x0; 0x0; 0x0;
   0x202000; 0x0; 0x0; 0x0; 0x703010; 0x303038; 0x703078; 0x3ffffe0;
   0x3ffff40; 0xf83800; 0x1f8fc00; 0x1bcfe00; 0x3ffb71c; 0x33733bc; 0x1723170; 0x202060;
   0x3ffff00; 0x3ffff00; 0x1830000; 0x830c60; 0x31c60; 0x1ff0c60; 0x1ff1c70; 0x31e30;
   0x33e38; 0x37638; 0x3ffe71c; 0x3ff838c; 0x1540100; 0x0; 0x0; 0x0;
   0x0; 0x202000; 0x0; 0x0; 0x0; 0x183800; 0x183818; 0x1f83838].
Definition hanzi_data_245 : list N :=
  [0x1fdff70; 0x1cdffe0; 0xce3800; 0xc63800; 0x3feba00; 0x3ffff04; 0x306931c; 0x367d33c;
   0x3269330; 0x367d300; 0x326ff00; 0x377ff40; 0x32638e0; 0x3367c60; 0x336fc60; 0x337fe70;
   0x31bf30; 0xf83bb8; 0x1d83998; 0x39c391c; 0x30f3808; 0x1033800; 0x0; 0x0;
   0x0; 0x0; 0x202000; 0x0; 0x0; 0x0; 0x3000; 0x3018;
   0x3ff3138; 0x2ba3370; 0x30f360; 0x30b300; 0x3fe3300; 0x3fe3300; 0x3077704; 0x327ff8e;
   0x377fffc; 0x3361830; 0x337db10; 0x336db00; 0x336db00; 0x336db20; 0x33679f0; 0x33679b0;
   0x3367130; 0x583038; 0xf81818; 0x1cc0c18; 0x38f0f1c; 0x3078388; 0x2010180; 0x0;
   0x0; 0x0; 0x0; 0x202000; 0x0; 0x0; 0x0; 0x70010;
   0x30038; 0xfffcf0; 0xeab9e0; 0xfffd80; 0xfff800; 0xfffc00; 0xfff800; 0xd55c1c;
   0xfff87c; 0xf0; 0x1fffc60; 0x1d75c00; 0x1fffc00; 0x1fffc40; 0x1830cc0; 0x1fffcc0;
   0xe0; 0x3ffff60; 0x3ffff70; 0x386070; 0x387038; 0x383c1c; 0x381f98; 0x380710;
   0x0; 0x0; 0x0; 0x0; 0x202000; 0x0; 0x0; 0x0;
   0x38010; 0x30038; 0x3fffe70; 0x3ffffe0; 0xc0; 0xfff800; 0xf55800; 0xe01800;
   0xfff81c; 0x3c; 0x3fffef0; 0x3fffe60; 0x3555600; 0x3fffe00; 0x81c000; 0x1e3e0c0;
   0xf77cc0; 0x3f8ce0; 0x7cf060; 0xef3e70; 0x1dfcc30; 0x398f038; 0x71c3f1c; 0x20f8e0c;
   0x70000; 0x0; 0x0; 0x0; 0x0; 0x202000; 0x0; 0x0;
   0x0; 0x10; 0x1fffe38; 0x1fffef8; 0x300e0; 0x3ffffc0; 0x3ffff00; 0x3030300;
   0x3fb7f00; 0xff7c1c; 0x3003c; 0xff7c70; 0x30020; 0x1555500; 0x3ffff00; 0x5575540;
   0x380e0; 0x1fffe60; 0x1fffe60; 0x19cc670; 0x188c630; 0x19cc638; 0x188c618; 0x19cc61c;
   0x1e8c608; 0x1fcc600; 0x0; 0x0; 0x0; 0x0; 0x202000; 0x0;
   0x0; 0x0; 0x386010; 0x386038; 0x3ffff78; 0x3fffee0; 0x396040; 0x3b3800;
   0x71c00; 0x1fffc00; 0x1575e1c; 0xaeaf3e; 0xffff78; 0x60c20; 0xfffc00; 0xaeac00;
   0x1fffc40; 0x1fffcc0; 0x1ce0; 0xfffe60; 0xfffe70; 0x703830; 0x3cf038; 0xfe018;
   0x7ffc1c; 0x3fc7f88; 0x3c00700; 0x0; 0x0; 0x0; 0x0; 0x202000;
   0x0; 0x0; 0x0; 0x371c00; 0x3332c38; 0x1b76c78; 0xb3cce0; 0xf7cec0;
   0x3fff600; 0x7fff600; 0xe18700; 0x61870c; 0x6387be; 0x3fff7f8; 0x3ffe6a0; 0xc0600;
   0xaea600; 0x1ffe600; 0xaea640; 0xc06e0; 0x3fff660; 0x7fff670; 0x1e0630; 0x3f0638;
   0x738618; 0x1e1e61c; 0x380f60c; 0x3007600; 0x0; 0x0; 0x0; 0x0;
   0x202000; 0x0; 0x0; 0x0; 0x10; 0x1fcfe38; 0x1fdfef0; 0x18885e0;
   0x19ddc80; 0x1b89800; 0x1d1f000; 0x1f8f800; 0x1bfdf1c; 0x18c863e; 0x1877078; 0xe3820;
   0x3fffc00; 0x3fffc00; 0xe1e40; 0xaebec0; 0x1ffffe0; 0xe18e0; 0x15f5c70; 0x1fff870;
   0x15f5c30; 0xe1838; 0x3fffc1c; 0x3fff818; 0x1c10; 0x0; 0x0; 0x0;
   0x0; 0x202000; 0x0; 0x0; 0x0; 0x38010; 0x30038; 0x15754f0;
   0x3fffee0; 0x15dd6c0; 0x18c600; 0x1fffe00; 0x1fffe00; 0x19cc61c; 0x1baee3e; 0x1fffe78;
   0x183620; 0x1dc3600; 0x1fbf600; 0x7d7740; 0x21a36c0; 0x35ff760; 0x3f8fb60; 0x1501370;
   0xec9b30; 0x1dddb38; 0x1998b98; 0x3998d9c; 0x3198f88; 0x10105c0; 0x0; 0x0;
   0x0; 0x0; 0x202000; 0x0; 0x0; 0x0; 0x38000; 0x30038;
   0x7ffff78; 0x3fffee0; 0x740; 0xffe600; 0xd77700; 0xeea600; 0xfff71c; 0xc6263c;
   0xfff770; 0x60620; 0x1fff700; 0xaea600; 0x3ffff00; 0x3fffb60; 0x604760; 0xe6e360;
   0x1c67b70; 0x3ffff30; 0x1ffe3b8; 0x60198; 0x15755dc; 0x3fffccc; 0x55554c8; 0x0;
   0x0; 0x0; 0x0; 0x202000; 0x0; 0x0; 0x0; 0x10;
   0xfffc78; 0xfffdf0; 0xc00dc0; 0xfffc80; 0xeaac00; 0xd55c00; 0xfffc00; 0x5d741c;
   0x186078; 0x1fffef0; 0x1fffe40; 0x187000; 0x3ffff00; 0x3ffff00; 0x3038e0; 0xf31c60;
   0x1f33e60; 0x7bb77f0; 0x21f61b0; 0x1fe038; 0x3ff838; 0x1f31f1c; 0x183e618; 0x1e010;
   0x0; 0x0; 0x0; 0x0; 0x202000; 0x0; 0x0; 0x0;
   0x3800; 0xf83808; 0x1f9ffbc; 0x99ffb0; 0x1d83870; 0x98ba00; 0x1d9ff00; 0x980000;
   0x3ddff84; 0x38dff8e; 0x781b8; 0x1a9ffb0; 0x3fc5400; 0x38cf800; 0x19c7f00; 0x1981820;
   0x1d9ffb0; 0xf9ffb0; 0xf03c30; 0x607c18; 0xf0de18; 0xf99b08; 0x3dc9b8c; 0x38f188c;
   0x3061800; 0x0; 0x0; 0x0; 0x0; 0x202000; 0x0; 0x0;
   0x0; 0x300c00; 0x380c08; 0x380c38; 0x787fb0; 0x6c7ff0; 0xce0c20; 0x1c70c00;
   0x783ff80; 0x345ff8c; 0x3efe18e; 0x3fff5bc; 0x30c7fb0; 0x37df590; 0x36f6180; 0x3cf7f80;
   0x3ce7fa0; 0x30c0c70; 0x38e0c30; 0x3ef7ff0; 0x37ffff8; 0x33dcc18; 0x30c8c18; 0x30c0c1c;
   0x3ef0c0c; 0x1e70400; 0x0; 0x0; 0x0; 0x0; 0x202000; 0x0;
   0x0; 0x0; 0x1c008; 0x38018; 0x3fffffc; 0xaaaef0; 0xfffe60; 0xfffe00;
   0x0; 0xfffe00; 0xffff1c; 0xc0063c; 0xffff78; 0xaaaa20; 0x1f8df80; 0xfaef80;
   0x19ff980; 0xbecfa0; 0x1fe5ff0; 0xfa69b0; 0x1fb7fb0; 0xfbcfb8; 0x79b9998; 0x28b8898;
   0x78ed8dc; 0x38e6ecc; 0x44408; 0x0; 0x0; 0x0; 0x0; 0x202000;
   0x0; 0x0; 0x0; 0x3010; 0x1aab038; 0x1fff078; 0x18c30e0; 0x1ddfe40;
   0xd9fe00; 0xf9c700; 0x70cf80; 0x787d9c; 0xde383c; 0x7c71e70; 0x302afa0; 0x6e100;
   0x1feff00; 0x1feff00; 0x6e0e0; 0x1fefe60; 0xfefe60; 0x6e070; 0x1feff30; 0x1feff38;
   0x6e038; 0x3ffffdc; 0x3ffff8c; 0x1555500; 0x0; 0x0; 0x0; 0x0;
   0x202000; 0x0; 0x0; 0x0; 0x8; 0x1ffff1c; 0x1ffff7c; 0x18c6370;
   0x18c6360; 0x1ffff00; 0x1ffff00; 0x0; 0x3ffff9c; 0x3ffffbc; 0x300c3f0; 0x32ecfa0;
   0x336df80; 0x333fb80; 0x331e380; 0x333bba0; 0x336ddf0; 0x330c9b0; 0x33ecdb0; 0x336d9b8].
Definition hanzi_data_246 : list N :=
  [0x333f998; 0x303e198; 0x30739dc; 0x3ee1eec; 0x1e40640; 0x0; 0x0; 0x0;
   0x0; 0x202000; 0x0; 0x0; 0x0; 0x438400; 0x638c18; 0x739838;
   0x3ffff70; 0x3ffffe0; 0xfe000; 0x7bfc00; 0x3e39e00; 0x3ffff8c; 0xebae1c; 0xd7de78;
   0xfffe70; 0xc38e20; 0xebae00; 0xfffe00; 0x1860e0; 0x1ffff60; 0x1ffff60; 0x1c7070;
   0x3ffffb0; 0x3ffffb8; 0x1c3018; 0x783c1c; 0xe00f88; 0x1c00700; 0x0; 0x0;
   0x0; 0x0; 0x202000; 0x0; 0x0; 0x0; 0x70008; 0x3803c;
   0xfe078; 0x3cf8e0; 0x1f07e40; 0x3ffff80; 0x33ff700; 0x0; 0x1f7fe0c; 0x1f7fe3c;
   0x194f678; 0x194f220; 0x1f7fe00; 0xa2aa00; 0x1555400; 0x1fffe40; 0x1dd77e0; 0x18c6660;
   0x1dd7770; 0x1fffe30; 0x1dd7730; 0x18c6638; 0x1cc671c; 0x1ec661c; 0x1ec6700; 0x0;
   0x0; 0x0; 0x0; 0x202000; 0x0; 0x0; 0x0; 0x30010;
   0x30038; 0x3fffe78; 0x3fffee0; 0xc0; 0x1fdfc00; 0x1dddc00; 0x18d8c00; 0x1fdfc1c;
   0x1fdfc3e; 0x15d7478; 0x1fffe20; 0x15d7400; 0xbae800; 0x1fffc40; 0x1860c0; 0x3ffffe0;
   0x3fffe60; 0x187e070; 0x1ec7830; 0x7c3f38; 0x383318; 0x1f7f01c; 0x3c3f808; 0x3003000;
   0x0; 0x0; 0x0; 0x0; 0x202000; 0x0; 0x0; 0x0;
   0x8; 0x1fcfe1c; 0x1dcd678; 0x1acee70; 0x1fcfe60; 0x18cc600; 0x1fcfe00; 0x1acee00;
   0x1dcd60c; 0x1fcfe3c; 0x31878; 0x61820; 0x1fffc00; 0x3fffe00; 0x60f00; 0x60fa0;
   0x1ffffe0; 0x60cb0; 0x60c30; 0xfffc38; 0x1575c18; 0x60c18; 0x3fffc1c; 0x3fffc0c;
   0xc00; 0x0; 0x0; 0x0; 0x0; 0x202000; 0x0; 0x0;
   0x0; 0x386010; 0x386038; 0x3ffff70; 0x3ffffe0; 0x3860c0; 0xa8a800; 0x1fdfc00;
   0x18d8c00; 0x18dcc1c; 0x1adac3c; 0x1fdfc70; 0x63060; 0xe3800; 0x3fff800; 0x3fffc40;
   0xc1ec0; 0x1ffffc0; 0x1fffae0; 0xc1c70; 0x1fff830; 0x1fffc30; 0xc1838; 0x3fffc1c;
   0x3fff80c; 0x1c00; 0x0; 0x0; 0x0; 0x0; 0x202000; 0x0;
   0x0; 0x0; 0x8; 0x3feff98; 0x3ffffb8; 0x30c1f0; 0x30ffe0; 0x30eb80;
   0x3fed580; 0x3feff80; 0x3465d04; 0x326181e; 0x377fffc; 0x327ffb0; 0x3760010; 0x326ff00;
   0x376ff00; 0x326c320; 0x336d770; 0x336ff30; 0x3365d30; 0x70fb38; 0xd0db98; 0x1999998;
   0x39c99dc; 0x30f1e8c; 0x71e00; 0x0; 0x0; 0x0; 0x0; 0x202000;
   0x0; 0x0; 0x0; 0x0; 0x1fffe1c; 0x1fffe7c; 0x38070; 0x3ffffe0;
   0x3abab80; 0x37fff80; 0x37fff80; 0xfffe1c; 0xfffe3c; 0x1c678; 0x3fcc620; 0x3ffff80;
   0x38cc680; 0x3dcfe00; 0x3fcba60; 0x3ddff70; 0x38dbb30; 0x3fddf30; 0x3fdff38; 0x38c1818;
   0x38fff98; 0x387ff9c; 0x3e6180c; 0x1e61808; 0x0; 0x0; 0x0; 0x0;
   0x202000; 0x0; 0x0; 0x0; 0x6000; 0x6000; 0x6000; 0x6000;
   0x6000; 0x6000; 0x1c070c0; 0x1c060e0; 0xc070e0; 0xe070e0; 0x707070; 0x707030;
   0x307038; 0x38f838; 0xf800; 0x1f800; 0x1dc00; 0x38c00; 0x70e00; 0xe0700;
   0x1e07c0; 0x7803e0; 0x3f000f8; 0x3e0003c; 0x1000018; 0x0; 0x0; 0x0;
   0x0; 0x202000; 0x0; 0x0; 0x0; 0x0; 0x0; 0x0;
   0x0; 0x0; 0x0; 0x0; 0x0; 0x0; 0x0; 0x0;
   0x0; 0x0; 0x0; 0x0; 0x0; 0x310460; 0x718ee0; 0xe38c70;
   0xe30c70; 0x1c71c30; 0x3870c38; 0x3871c1c; 0x70e0c1c; 0x1000408; 0x0; 0x0;
   0x0; 0x0; 0x202000; 0x0; 0x0; 0x0; 0x0; 0x1fffff8;
   0x1fffffc; 0x1fffff8; 0x6000; 0x6000; 0x6000; 0x6080; 0xe071c0; 0xe061c0;
   0x70f1c0; 0x30f0e0; 0x38f060; 0x18f070; 0x1df070; 0x1b820; 0x39c00; 0x31c00;
   0x71e00; 0xe0f00; 0x1c0780; 0x7803e0; 0x7f001fc; 0x3c0003c; 0x300001c; 0x0;
   0x0; 0x0; 0x0; 0x202000; 0x0; 0x0; 0x0; 0x1c0;
   0xc0; 0x7fff1c0; 0x3fff0c0; 0x57d51c0; 0x3808c8; 0x381dd8; 0x380cd8; 0x380dd8;
   0x3806d8; 0x3807dc; 0x3800cc; 0x3801cc; 0x3800c0; 0x3800c0; 0x3800c0; 0x3801c0;
   0x3803e0; 0x380760; 0x380e60; 0x380c70; 0x380038; 0x3fc01c; 0x3f801c; 0x1f800c;
   0x0; 0x0; 0x0; 0x0; 0x202000; 0x0; 0x0; 0x0;
   0x700; 0x300; 0x700; 0x1fffffc; 0x1fffffc; 0x1fffffc; 0x10300; 0x30380;
   0x30380; 0x30380; 0xc31980; 0xe31980; 0x7319c0; 0x3398c0; 0x339cc0; 0x38ce0;
   0x7c070; 0xfc070; 0x1cc078; 0x18e038; 0x78701c; 0xf03808; 0x1e01e00; 0x3c00f00;
   0x1000300; 0x0; 0x0; 0x0; 0x0; 0x202000; 0x0; 0x0;
   0x0; 0x0; 0x7ffff0; 0x7ffff0; 0x600000; 0x600000; 0x7fffe0; 0x7fffe0;
   0x600000; 0x600000; 0x7ffff0; 0x7ffff0; 0x2000; 0x6000; 0x6060c0; 0xe070e0;
   0x607060; 0x707070; 0x38f838; 0x11f830; 0x39c00; 0x71e00; 0x1e0f80; 0x1fc03f0;
   0x3f000fc; 0x3c0001c; 0x0; 0x0; 0x0; 0x0; 0x202000; 0x0;
   0x0; 0x0; 0xe00c0; 0xe00c0; 0xe00c0; 0xe00c0; 0xe00c0; 0xe0cc0;
   0xe0cdc; 0xe0ec8; 0x1fff6dc; 0x3fff6cc; 0x3fff3cc; 0xe00cc; 0xe00cc; 0xe00e0;
   0xe00e0; 0xe00e0; 0xe01e0; 0xe03e0; 0xe0770; 0xe0770; 0xe0630; 0x2aeaa38;
   0x7fffc1c; 0x3fff80c; 0xc; 0x0; 0x0; 0x0; 0x0; 0x202000;
   0x0; 0x0; 0x0; 0x1c00; 0x1c00; 0x7fe00; 0xfff00; 0x757c0;
   0x381e0; 0x1c078; 0x3e030; 0x1ff800; 0x3e3e00; 0x1f80fc0; 0x3e063f8; 0x3806078;
   0x206080; 0x7071c0; 0x30f0c0; 0x38f0e0; 0x1cf870; 0xdf870; 0x39c20; 0x70f00;
   0x3e0780; 0x1fc03f0; 0x3e000fc; 0x100001c; 0x0; 0x0; 0x0; 0x0;
   0x202000; 0x0; 0x0; 0x0; 0x300c0; 0x380c0; 0x380c0; 0x180c0].
Definition hanzi_data_247 : list N :=
  [0x1c4c0; 0x3ffccc8; 0x3ffccd8; 0x380eed8; 0x30076d8; 0x38076c8; 0x380b3cc; 0x381c0cc;
   0x383c0c4; 0x38380c0; 0x18700c0; 0x18e00e0; 0x19c01e0; 0x18803e0; 0x1800770; 0x1800e30;
   0x1c01c30; 0x1c00838; 0x1d4001c; 0xfe000c; 0x7e0004; 0x0; 0x0; 0x0;
   0x0; 0x202000; 0x0; 0x0; 0x0; 0x3000; 0x7000; 0xe000;
   0xc000; 0x1fffffc; 0x1fffff8; 0x180001c; 0x1802018; 0x180601c; 0x6000; 0x607180;
   0xe061c0; 0x7071c0; 0x30f0e0; 0x38f070; 0x1cf038; 0x9f830; 0x19800; 0x39c00;
   0x70e00; 0x1f0700; 0x3c03c0; 0x1f801f8; 0x3e0007c; 0x180001c; 0x0; 0x0;
   0x0; 0x0; 0x202000; 0x0; 0x0; 0x0; 0xe00c0; 0xe00c0;
   0xe00c0; 0xe00c0; 0xe00c0; 0xe0ec0; 0x38e36d8; 0x38e36c8; 0x38e36dc; 0x38e32cc;
   0x38e33cc; 0x38e30ec; 0x38e30c4; 0x38e30e0; 0x38e30e0; 0x38e30e0; 0x38e30e0; 0x38e31e0;
   0x38e33f0; 0x38e3330; 0x38e3730; 0x3fff238; 0x3fff01c; 0x380000e; 0x380000c; 0x0;
   0x0; 0x0; 0x0; 0x202000; 0x0; 0x0; 0x0; 0xc0;
   0x3ff8c0; 0xfff8c0; 0x3aa8c0; 0x1c00c0; 0xe02c8; 0x706d8; 0x3c6c8; 0x155f7dc;
   0x3fffbc8; 0x3fff1cc; 0x33180ec; 0x339c0c4; 0x318c0e0; 0x31ce060; 0x38c70e0; 0x38e39e0;
   0x1861de0; 0x1870ff0; 0x1838330; 0x1c1c730; 0x180e238; 0x1d4701c; 0xf8380c; 0x78180c;
   0x0; 0x0; 0x0; 0x0; 0x202000; 0x0; 0x0; 0x0;
   0x0; 0x7fffe0; 0x7fffe0; 0x600060; 0x600060; 0x7fffe0; 0x7fffe0; 0x600060;
   0x600060; 0x6aaae0; 0x7fffe0; 0x2aaaa0; 0x6000; 0x206080; 0x7071c0; 0x30f0c0;
   0x38f0e0; 0x19f870; 0x1ddc70; 0x39c00; 0xf0f00; 0x3e0780; 0x1fc03f0; 0x3e000fc;
   0x100001c; 0x0; 0x0; 0x0; 0x0; 0x202000; 0x0; 0x0;
   0x0; 0x300e0; 0x700e0; 0x700e0; 0xe00e0; 0xc00e0; 0x3fffee0; 0x3fffef8;
   0xe066e8; 0x60e3ec; 0x60e3ec; 0x70c1ec; 0x70c0ec; 0x71c0e4; 0x3180e0; 0x398060;
   0x1b80e0; 0x1f01e0; 0xe03e0; 0xf0770; 0x1f0e30; 0x7fc438; 0xf1e038; 0x7e0fc1c;
   0x3803e0e; 0x1000c04; 0x0; 0x0; 0x0; 0x0; 0x202000; 0x0;
   0x0; 0x0; 0x600c0; 0xe00c0; 0xe00c0; 0x1c00c0; 0x15d40c0; 0x3ffecc0;
   0x3ffecd8; 0x3806ec8; 0x38066dc; 0x38066cc; 0x38063cc; 0x38060cc; 0x3ffe0cc; 0x3ffe0e0;
   0x38060e0; 0x28060e0; 0x71e0; 0x73e0; 0x7770; 0x3e30; 0x3630; 0x3838;
   0x1c1c; 0x1c0e; 0xc04; 0x0; 0x0; 0x0; 0x0; 0x202000;
   0x0; 0x0; 0x0; 0x180c0; 0x180c0; 0x1c0c0; 0x1c0c0; 0x3ffc0c0;
   0x3ffccc0; 0x380ecdc; 0x18ae6c8; 0x18e76dc; 0x18e32cc; 0xe33cc; 0xe00cc; 0xe00cc;
   0xe00e0; 0xe00e0; 0x1e00e0; 0x1f01e0; 0x3b03e0; 0x338770; 0x318630; 0x71c630;
   0xe0e038; 0x3c0781c; 0x3803c0c; 0x300180c; 0x0; 0x0; 0x0; 0x0;
   0x202000; 0x0; 0x0; 0x0; 0xc00c0; 0xe00c0; 0xe00c0; 0x1e00c0;
   0x1f00c0; 0x3b8ec0; 0x71c6dc; 0xe0e6c8; 0x1c0f7cc; 0x3807bcc; 0x361ffcc; 0x60c8ec;
   0x61c0c4; 0x60c0e0; 0x61c060; 0x60c0e0; 0x61c1e0; 0x60c3e0; 0x60c770; 0x60e730;
   0x60e630; 0x606038; 0x60701c; 0x60380c; 0x601004; 0x0; 0x0; 0x0;
   0x0; 0x202000; 0x0; 0x0; 0x0; 0x6000; 0x6000; 0x607180;
   0x707180; 0x3871c0; 0x1870e0; 0x1df870; 0x79820; 0x1f1e00; 0x780f00; 0x1f047f0;
   0xc060f8; 0x807078; 0x206080; 0x7071c0; 0x38f0c0; 0x1cf0e0; 0x1cf870; 0x9dc70;
   0x39c00; 0x70f00; 0x1e0780; 0x1fc03f0; 0x3f000fc; 0x1c00018; 0x0; 0x0;
   0x0; 0x0; 0x202000; 0x0; 0x0; 0x0; 0xe00c0; 0xe00c0;
   0xe00c0; 0xe00c0; 0x4e00c0; 0xeeecc0; 0x1ceeedc; 0x18e66c8; 0x18e66cc; 0x38e63cc;
   0x30e73cc; 0x30e30cc; 0x10e30c4; 0x8e20e0; 0x1ce00e0; 0xce00e0; 0xee01e0; 0x6003e0;
   0x780770; 0x3c0e70; 0x1f0430; 0xf8038; 0x3f81c; 0xf80c; 0x180c; 0x0;
   0x0; 0x0; 0x0; 0x202000; 0x0; 0x0; 0x0; 0x700c0;
   0x300c0; 0x700c0; 0x300c0; 0x5750c0; 0xfffcc8; 0x1fff6d8; 0xc306d8; 0x1c706d8;
   0xc302d8; 0x1c703dc; 0xc300cc; 0x3fff8cc; 0x3fff8c0; 0x3fff8c0; 0xf80e0; 0xf81e0;
   0x1d83e0; 0x1dc370; 0x38c770; 0x70e630; 0xe07038; 0x1e03c1c; 0x3801e0c; 0x1000c04;
   0x0; 0x0; 0x0; 0x0; 0x202000; 0x0; 0x0; 0x0;
   0x380e0; 0x300e0; 0x700e0; 0x600e0; 0x600e0; 0x3fffee0; 0x3fffefc; 0x6ec;
   0x3ec; 0x2aa3ec; 0x7fe1ec; 0x3ae0ec; 0x70e0e4; 0x30e0e0; 0x70e060; 0x30e0e0;
   0x7061e0; 0x3063e0; 0x706770; 0x2307730; 0x7707638; 0x2303838; 0x7701c1c; 0x3e00e0e;
   0x1e0040c; 0x0; 0x0; 0x0; 0x0; 0x202000; 0x0; 0x0;
   0x0; 0xe00c0; 0xe00c0; 0xe00c0; 0xe00c0; 0x3fff8c0; 0x3fffcc0; 0xe0ed8;
   0xe06c8; 0x18e76dc; 0x18e32cc; 0x18e73cc; 0x18e30ec; 0x18e70cc; 0x18e30e0; 0x18e70e0;
   0x1fff0e0; 0x1fff1e0; 0x1aea1e0; 0x18e03f0; 0xe0730; 0x70e0630; 0x30e0638; 0x75c001c;
   0x3fc000e; 0x1fc0004; 0x0; 0x0; 0x0; 0x0; 0x202000; 0x0;
   0x0; 0x0; 0xc000c0; 0x1f800c0; 0x1ffc0c0; 0xfe0c0; 0x1e0c0; 0xecc8;
   0xe6dc; 0xe6c8; 0xe7cc; 0x3ffe3cc; 0x7ffe3cc; 0x30e0cc; 0x7060c4; 0x3060e0;
   0x7060e0; 0x3060e0; 0x7061e0; 0x3061e0; 0x7073f0; 0x303730; 0x703730; 0x303a38;
   0x70381c; 0x30180e; 0x70100c; 0x0; 0x0; 0x0; 0x0; 0x202000;
   0x0; 0x0; 0x0; 0xe000; 0x7000; 0x7ffc00; 0xfffe00; 0x700780;
   0x383be0; 0x1c70fc; 0xee1b8; 0x7c780; 0x3ee00; 0xfc00; 0xff80; 0x67fc;
   0x6060f8; 0x706180; 0x3061c0; 0x38f0e0; 0x1cf8e0; 0xff870; 0x79c20; 0x1f1f00].
Definition hanzi_data_248 : list N :=
  [0x3e0780; 0x1f803f0; 0x3e000fc; 0x180001c; 0x0; 0x0; 0x0; 0x0;
   0x202000; 0x0; 0x0; 0x0; 0x600c0; 0x600c0; 0x600c0; 0x600c0;
   0x1fff8c0; 0x1fffec0; 0x606d8; 0x602c8; 0x1fff3dc; 0xfff3cc; 0x1fff1cc; 0x600ec;
   0x600cc; 0x2aea8e0; 0x3fff8e0; 0x3aea8e0; 0x30601e0; 0x30601e0; 0x30603f0; 0x3860730;
   0x1f60630; 0x1e60238; 0x46001c; 0x6000e; 0x6000c; 0x0; 0x0; 0x0;
   0x0; 0x202000; 0x0; 0x0; 0x0; 0x60060; 0x60060; 0xf0060;
   0xf8060; 0x1dc060; 0x39c668; 0x70e67c; 0xe07268; 0x1c07b6c; 0x7aabf6c; 0x37ffd6c;
   0x7fe06c; 0x606060; 0x606060; 0x706060; 0x606060; 0x7f60f0; 0x3e61e0; 0x9463f0;
   0x3806330; 0x1806738; 0x1806218; 0x1ffe01c; 0xffe00e; 0x550004; 0x0; 0x0;
   0x0; 0x0; 0x202000; 0x0; 0x0; 0x0; 0xc0; 0xaaa0c0;
   0x1ffe0c0; 0xeae0c0; 0x1c064c0; 0xc06cc8; 0x1c06ed8; 0xc066d8; 0x1d567d8; 0xffe3c8;
   0x1ffe3cc; 0xc060cc; 0x1c060c4; 0xc060c0; 0x1c060c0; 0xc060e0; 0x1ffe1e0; 0xffe3e0;
   0x770; 0x630; 0xe38; 0x438; 0x7fffc1c; 0x3fff80c; 0x4; 0x0;
   0x0; 0x0; 0x0; 0x202000; 0x0; 0x0; 0x0; 0xc0;
   0x2aaa0c0; 0x7fff0c0; 0x3fff0c0; 0xc01cc0; 0xc00cce; 0xc00ccc; 0xcfeecc; 0xcff6dc;
   0xcc26d8; 0xcc73d8; 0xcc20d8; 0xcc70c8; 0xcc20c0; 0xcc70c0; 0xcea0e0; 0xcff1e0;
   0xcaa1e0; 0xc07770; 0xc00770; 0xc00e70; 0xc00c38; 0xd4001c; 0xfe000e; 0x7c000c;
   0x0; 0x0; 0x0; 0x0; 0x202000; 0x0; 0x0; 0x0;
   0x70060; 0x60060; 0xe0060; 0xc0060; 0x3fff860; 0x3fffe60; 0x3fffe7c; 0x70268;
   0x43036c; 0xc3836c; 0xe1c16c; 0x60e06c; 0x7d7064; 0x3ff060; 0x1ff060; 0xe0060;
   0x6600e0; 0x6701e0; 0xe383f0; 0xc1c730; 0x1c0e738; 0x3fff218; 0x3fff01c; 0x300b00e;
   0x100000c; 0x0; 0x0; 0x0; 0x0; 0x202000; 0x0; 0x0;
   0x0; 0xc0; 0x2aaa0c0; 0x3fff0c0; 0x3fff0c0; 0x70c0; 0x3cc8; 0x7ed8;
   0xaab6d8; 0x1fff6d8; 0xfff2d8; 0x1c073dc; 0xc030cc; 0x1c070cc; 0xc030c0; 0x1c070c0;
   0xfff0e0; 0x1fff1e0; 0x33e0; 0x7770; 0x3670; 0x7630; 0x3038; 0x3fff01c;
   0x3fff00c; 0x4; 0x0; 0x0; 0x0; 0x0; 0x202000; 0x0;
   0x0; 0x0; 0x6000; 0xc06030; 0xc06030; 0xc06030; 0xfffff0; 0xfffff0;
   0x555550; 0x300; 0x700; 0x3fffffc; 0x3fffffc; 0x28380; 0x38180; 0x39980;
   0xc399c0; 0xe398c0; 0x73dce0; 0x33ce70; 0x37c678; 0xee03c; 0x1c701c; 0x3c3808;
   0x1f81f00; 0x3e00f80; 0x1800180; 0x0; 0x0; 0x0; 0x0; 0x202000;
   0x0; 0x0; 0x0; 0x180c0; 0x180c0; 0x1c0c0; 0xc0c0; 0x3ffe4c0;
   0x3ffeec8; 0x38076d8; 0x38036d8; 0x39ffbdc; 0x39ffbc8; 0x39871cc; 0x39860cc; 0x19860c4;
   0x39860e0; 0x19fe0e0; 0x19fe0e0; 0x19561e0; 0x1f861e0; 0x1f063f0; 0x1006730; 0x7006630;
   0x3006238; 0x355601c; 0x3ffe00e; 0x1ffc004; 0x0; 0x0; 0x0; 0x0;
   0x202000; 0x0; 0x0; 0x0; 0xe0; 0x3fff8e0; 0x3fff8e0; 0x3aab8e0;
   0x38038e0; 0x3803ee0; 0x3bfbef8; 0x3bfbee8; 0x3b1bffc; 0x3b1bbec; 0x3b1b9ec; 0x3b1b8ec;
   0x3b1b8e4; 0x3b1b8e0; 0x3b1b860; 0x3b1b860; 0x3b5b8e0; 0x3bfb9e0; 0x381bbf0; 0x381bf30;
   0x3803f38; 0x3803a38; 0x3d0381c; 0x3f0380e; 0x1f03804; 0x0; 0x0; 0x0;
   0x0; 0x202000; 0x0; 0x0; 0x0; 0x1800; 0x23c00; 0xf0f00;
   0x1c0780; 0x7d51e0; 0xfffff0; 0x1f5fff0; 0x800000; 0x7fffe0; 0x3fffe0; 0x7000e0;
   0x3000e0; 0x7555e0; 0x3fffe0; 0x7fffe0; 0x6000; 0xe071c0; 0x60f0c0; 0x30f060;
   0x19f870; 0x179c20; 0xf0f00; 0x1fe07f0; 0x3f801fe; 0x3c0001c; 0x0; 0x0;
   0x0; 0x0; 0x202000; 0x0; 0x0; 0x0; 0xe0; 0x2aaa8e0;
   0x3fff8e0; 0x3fff8e0; 0xe00e0; 0xe06e8; 0xe06fc; 0x3fffae8; 0x3fffbec; 0x38e3bec;
   0x3863bec; 0x38e38ec; 0x39e3864; 0x39e38e0; 0x3bf3860; 0x3b33860; 0x3f3b8e0; 0x3e1f9e0;
   0x3c0fbf0; 0x3803b30; 0x3803f38; 0x3803818; 0x380381c; 0x3f0380c; 0x1f03800; 0x0;
   0x0; 0x0; 0x0; 0x202000; 0x0; 0x0; 0x0; 0x600c0;
   0xe00c0; 0xe00c0; 0xc00c0; 0x1c00c0; 0x3fffcc0; 0x3fffcdc; 0xc06c8; 0xc06dc;
   0xc02cc; 0xc03cc; 0xc00cc; 0xc00cc; 0x1ffe0e0; 0x1fff0e0; 0xc00e0; 0xc01e0;
   0xc03e0; 0xc0770; 0xc0770; 0xc0670; 0xc0038; 0x7fff81c; 0x3fff81c; 0x8;
   0x0; 0x0; 0x0; 0x0; 0x202000; 0x0; 0x0; 0x0;
   0x1c0c0; 0xc0c0; 0x1c0c0; 0xc0c0; 0x7ffe0c0; 0x3ffeec0; 0x7fff6dc; 0x376c8;
   0x737cc; 0x33bcc; 0x3ff1fcc; 0x3ff00cc; 0x700c4; 0x300e0; 0x700e0; 0x300e0;
   0x3ff01e0; 0x3ff01e0; 0x703f0; 0x30770; 0x70630; 0x30238; 0x7001c; 0x3000c;
   0x7000c; 0x0; 0x0; 0x0; 0x0; 0x202000; 0x0; 0x0;
   0x0; 0x7000; 0x6000; 0x7000; 0x1ffe000; 0x1fff000; 0x6000; 0x7000;
   0x6000; 0x7fffe0; 0x7fffe0; 0x755560; 0x600060; 0x600060; 0x600060; 0x600060;
   0x7fffe0; 0x7fffe0; 0x0; 0x400060; 0xe38e60; 0xc30c70; 0x1c30c38; 0x1871c38;
   0x3860c1c; 0x1061c0c; 0x0; 0x0; 0x0; 0x0; 0x202000; 0x0;
   0x0; 0x0; 0xc0; 0xc0; 0x7fff8c0; 0x3fff8c0; 0x300c0; 0x38cc8;
   0x18ed8; 0x186c8; 0x1c7dc; 0xc3cc; 0xe3cc; 0x1ffe0ec; 0x1fff0c4; 0x180f0e0;
   0x180f8e0; 0x180fce0; 0x180fde0; 0x180e9e0; 0x180e3f0; 0x180e730; 0x180e630; 0x1ffe238;
   0x1ffe01c; 0x180e00e; 0x180e00c; 0x0; 0x0; 0x0; 0x0; 0x202000;
   0x0; 0x0; 0x0; 0x38060; 0x38060; 0x18060; 0x3fffc60; 0x3fffc60].
Definition hanzi_data_249 : list N :=
  [0xc260; 0xc37c; 0xaeb68; 0xffd6c; 0xff9ec; 0xe71ec; 0xe306c; 0xe3066;
   0x1fff860; 0x1fff860; 0xe0060; 0x4e60f0; 0xee60f0; 0xce71f0; 0x18e3bb0; 0x18e1b38;
   0x38e1d18; 0x70e0e1c; 0xfc00e; 0x7c004; 0x0; 0x0; 0x0; 0x0;
   0x202000; 0x0; 0x0; 0x0; 0xc0; 0xc0; 0x1fff0c0; 0x1ffe0c0;
   0x1c070c0; 0x1c06cc0; 0x1c07cdc; 0x1c066c8; 0x1c076dc; 0x1c062cc; 0x1c073cc; 0x1c060cc;
   0x1fff0cc; 0x1ffe0e0; 0xe0; 0xe0; 0x4041e0; 0x60c3e0; 0xe0c770; 0xe0e670;
   0x1c06e30; 0x1807038; 0x180781c; 0x380381c; 0x100100c; 0x0; 0x0; 0x0;
   0x0; 0x202000; 0x0; 0x0; 0x0; 0x60; 0xf80060; 0x1fff460;
   0xff860; 0x61060; 0x1860668; 0x1c63778; 0xc63368; 0xc6737c; 0xe661ec; 0x6661ec;
   0x66e06c; 0x462064; 0x3fffc60; 0x7fffc60; 0x60060; 0x600e0; 0x601e0; 0x603f0;
   0x60330; 0x60738; 0x60218; 0x7401c; 0x7e00e; 0x7c004; 0x0; 0x0;
   0x0; 0x0; 0x202000; 0x0; 0x0; 0x0; 0x800060; 0xfa0060;
   0x1fff060; 0xbe060; 0x7060; 0xc3668; 0xc767c; 0xc3268; 0xc336c; 0xc336c;
   0x3fff96c; 0x3fff86c; 0xc1064; 0xc0060; 0xc0060; 0xece060; 0xcce0e0; 0x1cc61e0;
   0x1cc71f0; 0x38c3330; 0x38c3b38; 0x30c1818; 0x30c181c; 0xf800e; 0x78004; 0x0;
   0x0; 0x0; 0x0; 0x202000; 0x0; 0x0; 0x0; 0x4040e0;
   0xe0e0e0; 0xe1c0e0; 0x6180e0; 0x7180e0; 0x3986e8; 0x1fff6f8; 0x1fff2e8; 0x15553fc;
   0x3e8; 0x1ec; 0xec; 0x6c; 0xaaa060; 0xffe060; 0xffe0e0; 0x1e0;
   0x1e0; 0x3f0; 0x730; 0x738; 0x3fffa18; 0x3fff81c; 0x2aaa80c; 0x0;
   0x0; 0x0; 0x0; 0x0; 0x202000; 0x0; 0x0; 0x0;
   0xc0; 0x2aa0c0; 0x1fff0c0; 0xfff0c0; 0x7000c0; 0x380cc0; 0x3c06dc; 0x1e06c8;
   0x3f07cc; 0xfbc3cc; 0x3f1f1cc; 0x3807cec; 0x30018c4; 0xe0; 0x1fff0e0; 0x1fff0e0;
   0xe01e0; 0xe03e0; 0xe0370; 0xe0730; 0xe0630; 0xe0038; 0x7fffc1c; 0x3fffc0e;
   0xc; 0x0; 0x0; 0x0; 0x0; 0x202000; 0x0; 0x0;
   0x0; 0x1c00000; 0x1c0fffc; 0x1c0fffc; 0x1c6aba8; 0x1c60180; 0x1c62bc0; 0x1c67fc0;
   0x1c66ae0; 0x1c67070; 0x1c630b8; 0x1c639dc; 0x1c61b8c; 0x1c61f00; 0x1c60e00; 0x1c00700;
   0x1c003c0; 0x1fc01fc; 0xf80078; 0x500018; 0xe38860; 0xe38c70; 0x1c30c30; 0x3871c38;
   0x3860c1c; 0x3061c0c; 0x0; 0x0; 0x0; 0x0; 0x202000; 0x0;
   0x0; 0x0; 0x1c0c0c0; 0x1c0c0c0; 0xc1c0c0; 0xe180c0; 0x7380c0; 0x2baacc8;
   0x3fff6d8; 0x3fff6d8; 0xc06dc; 0xc02c8; 0xc03cc; 0x1ffe0cc; 0x1ffe0cc; 0xc00c0;
   0xc00c0; 0xc00e0; 0x7fff1e0; 0x3fff3e0; 0x7fff370; 0xc0730; 0xc0630; 0xc0038;
   0xc001c; 0xc000e; 0xc0004; 0x0; 0x0; 0x0; 0x0; 0x202000;
   0x0; 0x0; 0x0; 0xc0; 0x3fff0c0; 0x3fff0c0; 0x3aab0c0; 0x38034c0;
   0x3803cc8; 0x3fffed8; 0x3bfb6d8; 0x38036d8; 0x38033c8; 0x3bfb3cc; 0x3bfb0cc; 0x3b1b0c4;
   0x3b1b0c0; 0x3b1b0c0; 0x3b1b0e0; 0x3b1b1e0; 0x3bfb3e0; 0x3bfb770; 0x381b670; 0x381be30;
   0x3803038; 0x3d0301c; 0x1f0300e; 0x1f03004; 0x0; 0x0; 0x0; 0x0;
   0x202000; 0x0; 0x0; 0x0; 0x70c0c0; 0x30c0c0; 0x70c0c0; 0x30c0c0;
   0x70c0c0; 0x30c6c0; 0x3fffedc; 0x3fffac8; 0x70c3cc; 0x30c3cc; 0x70c1cc; 0x30c0ec;
   0x70c0c4; 0x30c0e0; 0x7fffce0; 0x3fffce0; 0x7fffde0; 0x1e0; 0x31c3f0; 0x70c730;
   0xe0e630; 0x1c07038; 0x1c0781c; 0x3801c0e; 0x100180c; 0x0; 0x0; 0x0;
   0x0; 0x202000; 0x0; 0x0; 0x0; 0x180c0; 0x180c0; 0x1c0c0;
   0x1ffe0c0; 0x1ffe0c0; 0xe076c0; 0x70fedc; 0x71dec8; 0x3f9bcc; 0x1f03cc; 0x1f01cc;
   0x3fc0ec; 0x1f1f0c4; 0x3e07ee0; 0x3001ce0; 0xfff0e0; 0xfff1e0; 0xc031e0; 0xc033f0;
   0xc03730; 0xc03630; 0xeab038; 0xfff01c; 0xeab00e; 0xc0300c; 0x0; 0x0;
   0x0; 0x0; 0x202000; 0x0; 0x0; 0x0; 0x600e0; 0x600e0;
   0x600e0; 0x600e0; 0x600e0; 0x1fff6e8; 0x1fff6fc; 0x1aeb2e8; 0x1c633fc; 0x18633ec;
   0x1c633ec; 0x18630ec; 0x1c63064; 0x1aeb0e0; 0x1fff060; 0xaea060; 0x4600e0; 0xe601e0;
   0x1c603f0; 0x1860330; 0x1c60738; 0x3ffa238; 0x3fffc1c; 0x300fc0e; 0x3000004; 0x0;
   0x0; 0x0; 0x0; 0x202000; 0x0; 0x0; 0x0; 0xc0;
   0xc0; 0x3fff0c0; 0x3fff0c0; 0xc0; 0xcc8; 0x1ffecd8; 0x1ffeed8; 0x1c0e6d8;
   0x180e6c8; 0x1c0e3cc; 0x180e0cc; 0x1ffe0c4; 0x1ffe0c0; 0x1c0e0c0; 0x180e0e0; 0x1c0e1e0;
   0x1ffe3e0; 0x1ffe770; 0xe70; 0xc30; 0x38; 0x7fffc1c; 0x7fff80c; 0x4;
   0x0; 0x0; 0x0; 0x0; 0x202000; 0x0; 0x0; 0x0;
   0x0; 0x1fffe0; 0x3fffe0; 0xe0000; 0x87c000; 0x183e000; 0x1e367fc; 0xf367fc;
   0x3f6700; 0xe6380; 0xc6380; 0x1c61c0; 0x3861e0; 0x707ef0; 0x1f07e7c; 0x3c0003e;
   0x33fffcc; 0x3fffc0; 0x0; 0x600020; 0xe38c70; 0x1c30c30; 0x1c70c38; 0x3870c1c;
   0x3071c1c; 0x0; 0x0; 0x0; 0x0; 0x202000; 0x0; 0x0;
   0x0; 0xc0; 0x3fff8c0; 0x3fff8c0; 0x3aab8c0; 0x38638c0; 0x3863ec8; 0x3863edc;
   0x3863ec8; 0x3d77fcc; 0x3fffbcc; 0x3fffbcc; 0x38638ec; 0x38e38c4; 0x38e38e0; 0x39f38e0;
   0x3bb38e0; 0x3b339e0; 0x3b1bbe0; 0x3e1fb70; 0x3e0ff30; 0x3807e30; 0x3fffa38; 0x3fff81c;
   0x3aab80e; 0x380380c; 0x0; 0x0; 0x0; 0x0; 0x202000; 0x0;
   0x0; 0x0; 0x30060; 0x38060; 0x38060; 0x38060; 0x3fff860; 0x3fffe60;
   0x1c77c; 0xc368; 0x155e36c; 0x1ffe36c; 0x1fff1ec; 0x180f06c; 0x1c0f864; 0x1ffdc60;
   0x1ffd860; 0x180c060; 0x1c0c0e0; 0x1ffc1e0; 0x1ffc1f0; 0x180c3b0; 0x1c0c730; 0x180c238].
Definition hanzi_data_250 : list N :=
  [0x1c0c01c; 0x1f0c00c; 0xf0c00c; 0x0; 0x0; 0x0; 0x0; 0x202000;
   0x0; 0x0; 0x0; 0x300e0; 0x10300e0; 0x38300e0; 0x1bff0e0; 0x1fff0e0;
   0xe30ee0; 0x7306fc; 0x3306e8; 0x7ffffec; 0x3fffbec; 0xf01ec; 0x780ec; 0x3ffc0e4;
   0x3ffe0e0; 0x1fc60; 0xfee0; 0xcde0; 0x1ffc1e0; 0x1ffe3f0; 0xc00730; 0x1c00638;
   0xc00238; 0xc0001c; 0xff000e; 0x7f0004; 0x0; 0x0; 0x0; 0x0;
   0x202000; 0x0; 0x0; 0x0; 0xc0; 0x2aaa8c0; 0x3fff8c0; 0x2aea8c0;
   0x600c0; 0x60cc8; 0x1fff6d8; 0x1ffe6d8; 0x1c076d8; 0x18c62d8; 0x1cc73dc; 0x18c60cc;
   0x1cc70cc; 0x18c60c0; 0x1cc70c0; 0x18e60e0; 0x1ce71e0; 0x18e63e0; 0x1c67770; 0x3f0730;
   0x7f8630; 0xe3c038; 0x1c1f01c; 0x380780c; 0x1001804; 0x0; 0x0; 0x0;
   0x0; 0x202000; 0x0; 0x0; 0x0; 0x1c0e0; 0x180e0; 0x101c0e0;
   0x3ff80e0; 0x3fff8e0; 0x83fee8; 0x1c306f8; 0xe302f8; 0x7f03f8; 0x31e03f8; 0x31fc1fc;
   0x3f9f8ec; 0x1f070ec; 0x8000e0; 0x3fffc60; 0x3fff860; 0x15dd4e0; 0x19c1e0; 0x19c3f0;
   0x18c730; 0x718e738; 0x318e218; 0x3587c1c; 0x3f83e0e; 0x1f00c04; 0x0; 0x0;
   0x0; 0x0; 0x202000; 0x0; 0x0; 0x0; 0x1dc060; 0xcc060;
   0x19cc060; 0x38ce060; 0x1dc7060; 0xec7668; 0x7c7f78; 0x3c7f68; 0x1f7d7c; 0x30fe9ec;
   0x31d616c; 0x31c606c; 0x3fc6064; 0xa06060; 0x60060; 0x60060; 0x3fffce0; 0x3fff9e0;
   0x603f0; 0x60330; 0x60738; 0x60218; 0x6001c; 0x6000e; 0x60004; 0x0;
   0x0; 0x0; 0x0; 0x202000; 0x0; 0x0; 0x0; 0x60060;
   0x60060; 0xf0060; 0xf8060; 0x1dc060; 0x39c668; 0x70e778; 0x1e07368; 0x3c03f7c;
   0x3fffdec; 0x17fedec; 0x6c; 0x6c; 0x60; 0x1fff860; 0x1fff860; 0x380e0;
   0x2181e0; 0x71c3f0; 0x60e330; 0xe0e738; 0xfe7218; 0x1fffc1c; 0x383f80e; 0x1800004;
   0x0; 0x0; 0x0; 0x0; 0x202000; 0x0; 0x0; 0x0;
   0x10; 0x3ffc78; 0x3ffdf0; 0xe0080; 0x7c000; 0xf008; 0x3fffc7c; 0x3fff8f0;
   0x19cc040; 0x18c6180; 0x18e71c0; 0x18638e0; 0x1c71e70; 0xeb8c38; 0xf9c018; 0x6000;
   0x606380; 0x7061c0; 0x38f0e0; 0x1df870; 0x39c60; 0xf0e00; 0x7e07f0; 0x3f801fc;
   0x3c0001c; 0x0; 0x0; 0x0; 0x0; 0x202000; 0x0; 0x0;
   0x0; 0x60; 0x1fff0e0; 0x1fff0e0; 0x18070e0; 0x18072e0; 0x18076e8; 0x18076f8;
   0x1fff2f8; 0x1fff3fc; 0xbaf3e8; 0x3071ec; 0x3030ec; 0x717064; 0x63b0e0; 0xef30e0;
   0xfc39e0; 0x1d83be0; 0x3801b60; 0x7805f70; 0x303ee30; 0x7ce38; 0x1e0418; 0x7c001c;
   0x70000e; 0x600004; 0x0; 0x0; 0x0; 0x0; 0x202000; 0x0;
   0x0; 0x0; 0x301c0; 0x380c0; 0x301c0; 0x380c0; 0x7ffffc; 0x7ffffc;
   0x6381c0; 0x6380c0; 0x618dc0; 0x61afc0; 0x61fff0; 0x61e0fc; 0x67c1dc; 0x6fc0c0;
   0x67ce1c0; 0x6e870c0; 0x7c07df8; 0x3c018f0; 0x1c00010; 0xe38860; 0xe38c70; 0x1c30c30;
   0x3871c38; 0x3860c1c; 0x3061c0c; 0x0; 0x0; 0x0; 0x0; 0x202000;
   0x0; 0x0; 0x0; 0xc01060; 0xe0f860; 0x7ff060; 0x3f8060; 0x7fc060;
   0x1f3f268; 0x1c3ff7c; 0x1039b68; 0x155d76c; 0x3ffff6c; 0x7fffdec; 0xee06c; 0xe7064;
   0xaeb060; 0x1fff860; 0x1fffc60; 0x18e7cf0; 0x18e30e0; 0x18e71b0; 0x18e33b0; 0x1ce7738;
   0x1ee3218; 0xee701c; 0xe000c; 0xe0004; 0x0; 0x0; 0x0; 0x0;
   0x202000; 0x0; 0x0; 0x0; 0x1000060; 0x3e0fc60; 0x1fffc60; 0x3e6860;
   0x306060; 0x303268; 0x30337c; 0x303b68; 0x301b6c; 0x3fefdec; 0x3fefdec; 0x30c46c;
   0x30c064; 0x30c860; 0x306c60; 0x306c60; 0x307c70; 0x3078f0; 0x3ff79f0; 0x3ff31b0;
   0x7b38; 0x1f918; 0x7ffde1c; 0x3ff0e0e; 0x1500604; 0x0; 0x0; 0x0;
   0x0; 0x202000; 0x0; 0x0; 0x0; 0x700e0; 0x600e0; 0xe00e0;
   0x3fff8e0; 0x3fff8e0; 0x3aabee0; 0x3001ffc; 0x3001be8; 0x1fff3ec; 0xffe3ec; 0x1ec;
   0xec; 0x64; 0x3fff860; 0x7fff860; 0x398060; 0x39c0e0; 0x39c1e0; 0x39c3f0;
   0x238c330; 0x738e738; 0x6387218; 0x7703c1c; 0x3f01e0e; 0x1f00404; 0x0; 0x0;
   0x0; 0x0; 0x202000; 0x0; 0x0; 0x0; 0x7000; 0xe000;
   0x3fffffc; 0x3fffffc; 0x0; 0x3fffc0; 0x3fffc0; 0x3000c0; 0x3fffc0; 0x3fffc0;
   0x0; 0x7ffff8; 0xfffff8; 0x3f8000; 0x7e000; 0x6000; 0x6000; 0x6a00;
   0x7f00; 0x600a20; 0xe38c70; 0xc30c30; 0x1c70c38; 0x3860c18; 0x1061c1c; 0x0;
   0x0; 0x0; 0x0; 0x202000; 0x0; 0x0; 0x0; 0x700c0;
   0x600c0; 0xe00c0; 0xfff0c0; 0x1fff0c0; 0xc03ec0; 0x1c036dc; 0xc036c8; 0x1fff7cc;
   0xfff3cc; 0x1c031cc; 0xc030ec; 0x1fff0c4; 0xfff0e0; 0x1fff060; 0x1863060; 0x3ce30e0;
   0xec31e0; 0x7c33f0; 0x383730; 0x703630; 0xf3b238; 0x3e7f01c; 0x380f80c; 0x100100c;
   0x0; 0x0; 0x0; 0x0; 0x202000; 0x0; 0x0; 0x0;
   0x1000060; 0x3e07e60; 0x1ff7e60; 0x3f6a60; 0x717060; 0x303268; 0x70337c; 0x331b68;
   0x731f6c; 0x3f37dec; 0x3f37fec; 0x33606c; 0x736064; 0x336460; 0x736660; 0x332c60;
   0x733c70; 0x333cf0; 0x3ff39f0; 0x3ff39b0; 0x7f38; 0x1ef18; 0x7ffc71c; 0x3ff030e;
   0x104; 0x0; 0x0; 0x0; 0x0; 0x202000; 0x0; 0x0;
   0x0; 0x300e0; 0x300e0; 0x5580e0; 0xffc0e0; 0xffe4e0; 0x60fee0; 0x71fef8;
   0x3b9ee8; 0x1f03fc; 0x3f83ec; 0x1fbe1ec; 0x7eef8ec; 0x38e3ce4; 0x1fff0e0; 0x1fff060;
   0xe0060; 0x1fff0e0; 0xffe1e0; 0xe03f0; 0xe0330; 0x3ffff38; 0x3fffe38; 0xe001c;
   0xe000e; 0xe0004; 0x0; 0x0; 0x0; 0x0; 0x202000; 0x0;
   0x0; 0x0; 0xc0; 0xffe0c0; 0x1ffe0c0; 0xc060c0; 0x1c064c0; 0xc06cc8].
Definition hanzi_data_251 : list N :=
  [0x1ffecd8; 0xffeed8; 0x6d8; 0x2c8; 0x3fff3cc; 0x3fff0cc; 0x38030c4; 0x38030c0;
   0x3fff0c0; 0x3fff0e0; 0x38031e0; 0x38033e0; 0x3fff370; 0x3fff730; 0x3803e38; 0x3803638;
   0x380301c; 0x3f0300e; 0x1f03004; 0x0; 0x0; 0x0; 0x0; 0x202000;
   0x0; 0x0; 0x0; 0x0; 0x0; 0x1fffff8; 0xaaeaa8; 0x61c0;
   0x7fe0c0; 0x7fe1c0; 0x60c0; 0x61c0; 0x3fffffc; 0x3fffffc; 0x180; 0xffffc0;
   0xffffc0; 0x5555c0; 0xc0; 0x1ffffc0; 0x1ffffe0; 0x1840000; 0x1866330; 0x1cc6730;
   0x1c8e638; 0x1c0c618; 0xf80618; 0x780010; 0x0; 0x0; 0x0; 0x0;
   0x202000; 0x0; 0x0; 0x0; 0xe0; 0x1fff0e0; 0x1fff0e0; 0x18030e0;
   0x1c070e0; 0x1fffee0; 0x1fff6fc; 0x18036e8; 0x1c077ec; 0x1fff3ec; 0x1fff1ec; 0xec;
   0x3fff8e4; 0x3fff8e0; 0x15f5060; 0xe0060; 0xe00e0; 0x3fff9e0; 0x7fffff0; 0xe0330;
   0xe0738; 0xe0238; 0xe001c; 0xe000e; 0xe000c; 0x0; 0x0; 0x0;
   0x0; 0x202000; 0x0; 0x0; 0x0; 0x30060; 0x380e0; 0x39c0e0;
   0x70c0e0; 0xe0e0e0; 0xfffae8; 0x1fff7f8; 0x8033e8; 0x39c3f8; 0xf0e1e8; 0x1c071ec;
   0x383b8ec; 0x3019c6c; 0x2bc8e0; 0xffc060; 0xeae060; 0x71f0e0; 0x31b8e0; 0x3f99f0;
   0x1f03b0; 0x1f0330; 0x3bc238; 0x1f1fc1c; 0x3e03e0c; 0x3001c08; 0x0; 0x0;
   0x0; 0x0; 0x202000; 0x0; 0x0; 0x0; 0xc0; 0x3fff8c0;
   0x3fffcc0; 0x380c0; 0x380c0; 0x38ec0; 0xfffedc; 0xfffec8; 0xc1c7cc; 0xc1c3cc;
   0xc1c3cc; 0x2eae8ec; 0x7fffcc4; 0x2aaa8e0; 0xe0; 0xaaa0e0; 0x1fff1e0; 0xeab1e0;
   0x1c033f0; 0xc03730; 0x1c03730; 0xc03238; 0x1fff01c; 0xfff00e; 0x1c0300c; 0x0;
   0x0; 0x0; 0x0; 0x202000; 0x0; 0x0; 0x0; 0xc0060;
   0xe0060; 0x1f0060; 0x3b8060; 0x71c060; 0xe2e660; 0x3c7766c; 0x38e3a6c; 0x10c136c;
   0x8036c; 0x1fff1ec; 0xfff06c; 0x700064; 0x380060; 0x1c0060; 0xc0060; 0xfff0f0;
   0xfff1e0; 0xc073f0; 0xc03330; 0xc07738; 0xc03218; 0xfff01c; 0xfff00e; 0xc07004;
   0x0; 0x0; 0x0; 0x0; 0x202000; 0x0; 0x0; 0x0;
   0x300e0; 0x380e0; 0x7fc0e0; 0xffc0e0; 0x75e0e0; 0x3866e8; 0x1c76f8; 0xfffae8;
   0xfff3fc; 0xce23ec; 0xce71ec; 0xce20ec; 0xc6706c; 0xce20e0; 0xc67060; 0x3fff860;
   0x3fffce0; 0xf01e0; 0x1f83f0; 0x198330; 0x79c730; 0xf0f238; 0x1e07c1c; 0x3801e0c;
   0x1000c0c; 0x0; 0x0; 0x0; 0x0; 0x202000; 0x0; 0x0;
   0x0; 0x1070; 0x3ff1860; 0x3ff3870; 0x3803060; 0x3807170; 0x3806b60; 0x3810f78;
   0x3870de8; 0x38e0dfc; 0x39c0dec; 0x3898dfc; 0x3b1ec6c; 0x3b1ec74; 0x3a1ec60; 0x3e1ec70;
   0x3e9ac30; 0x3d9bc70; 0x3d9bcf0; 0x39f8df0; 0x38f0db8; 0x3800d98; 0x3800c18; 0x1800c1c;
   0x1f80c0e; 0x1f00c04; 0x0; 0x0; 0x0; 0x0; 0x202000; 0x0;
   0x0; 0x0; 0x60; 0x1fff860; 0x1fff860; 0x1803860; 0x1803860; 0x1803e60;
   0x1ffff6c; 0x1fffb68; 0x1557b6c; 0x39ec; 0x3fff9ec; 0x3fff86c; 0x3555864; 0x3003860;
   0x33fd860; 0x33f9860; 0x331d8e0; 0x33098e0; 0x331d9f0; 0x33f9bb0; 0x33fdf38; 0x3808c18;
   0x1804c1c; 0x1f80e0c; 0x1f00404; 0x0; 0x0; 0x0; 0x0; 0x202000;
   0x0; 0x0; 0x0; 0x7000; 0x3000; 0x1fffff0; 0xfffff0; 0x3800;
   0x7fffe0; 0x7fffe0; 0xc00; 0x3fffffc; 0x3fffffc; 0x180700; 0x180300; 0x1ffff80;
   0x1ffffc0; 0x183cf0; 0x187078; 0x1f7038; 0x1f2000; 0x440000; 0x638c60; 0xe30c70;
   0xc30c30; 0x1c70c38; 0x3860c1c; 0x1000c18; 0x0; 0x0; 0x0; 0x0;
   0x202000; 0x0; 0x0; 0x0; 0x70060; 0x60060; 0xe0060; 0x3fff860;
   0x3fff860; 0xe06660; 0xe0676c; 0x60e36c; 0x70c36c; 0x30c36c; 0x57555ec; 0x3fffc6c;
   0x7fffc64; 0x60; 0x60; 0x1fff060; 0x1fff0f0; 0x1c030f0; 0x1c031f0; 0x1c033b0;
   0x1c03738; 0x1c03218; 0x1fff01c; 0x1fff00e; 0x1c03004; 0x0; 0x0; 0x0;
   0x0; 0x202000; 0x0; 0x0; 0x0; 0x1c0180; 0xc0180; 0x1c0180;
   0x3ffdffc; 0x3ffdffc; 0x2be8be8; 0x7f07e0; 0xef0fe0; 0x1dd9db0; 0x38dd9b8; 0x39cf19c;
   0x30c618e; 0x1c0184; 0xc6180; 0x607040; 0xe060c0; 0x7070c0; 0x3870e0; 0x1cf870;
   0x8f838; 0x3de00; 0xf8f80; 0x1ff07f0; 0x3f800fc; 0x1c0001c; 0x0; 0x0;
   0x0; 0x0; 0x202000; 0x0; 0x0; 0x0; 0x60; 0xfff860;
   0x1fff860; 0xc03860; 0x1c03860; 0xeabe60; 0x1fffe6c; 0xc03a68; 0x1c03b6c; 0xeabb6c;
   0x1fff9ec; 0xaaa86c; 0x1c3864; 0x183860; 0x11c3860; 0x3dbf860; 0x1fff8e0; 0x3ab8e0;
   0x1c39f0; 0x183b30; 0x71c3f30; 0x21bba18; 0x75ff81c; 0x3f8f80c; 0x1f0180c; 0x0;
   0x0; 0x0; 0x0; 0x202000; 0x0; 0x0; 0x0; 0x700e0;
   0xe00e0; 0x3fff8e0; 0x3fff8e0; 0x15550e0; 0x6e0; 0x1fff6fc; 0xeae2e8; 0x1c073ec;
   0xc063ec; 0x1fff1ec; 0xffe0ec; 0xe4; 0x1fff0e0; 0x1fff060; 0x780060; 0x1e00e0;
   0xe01e0; 0x7fffdf0; 0x3fffb30; 0xe0330; 0xe0038; 0xe001c; 0xfc00e; 0x7c004;
   0x0; 0x0; 0x0; 0x0; 0x202000; 0x0; 0x0; 0x0;
   0xc700; 0xc380; 0x1c380; 0x181c0; 0x1ffffc0; 0x1ffffe0; 0x1c0f0; 0x180f8;
   0xfffffc; 0xffffee; 0x1c0e4; 0x180e0; 0xffffe0; 0xffffe0; 0x1c0e0; 0x180e0;
   0x1ffffe0; 0x1ffffe0; 0xe0; 0x638860; 0xe38c70; 0x1c30c30; 0x1c71c38; 0x3860c1c;
   0x3061c1c; 0x0; 0x0; 0x0; 0x0; 0x202000; 0x0; 0x0;
   0x0; 0x600e0; 0x600e0; 0x3fe00e0; 0x3fe00e0; 0x15600e0; 0x60ee0; 0x1fff6fc;
   0x1fffee8; 0x1d57ffc; 0x1803bec; 0x1fff9ec; 0x1fff8ec; 0x1d578ec; 0x18038e0; 0x1fff860;
   0x1fff860; 0x15750e0; 0x601e0; 0x7fffdf0; 0x3ffffb0; 0x5575738; 0x60038; 0x6001c].
Definition hanzi_data_252 : list N :=
  [0x6000e; 0x60004; 0x0; 0x0; 0x0; 0x0; 0x202000; 0x0;
   0x0; 0x0; 0x300e0; 0x380e0; 0x180e0; 0xff80e0; 0xffc0e0; 0xe0eee0;
   0x6066fc; 0x7076e8; 0x303fec; 0x383bec; 0x139fec; 0xabe0ec; 0x1fcf8e4; 0x1a838e0;
   0x1803860; 0x1803860; 0x1fbf8e0; 0x1fbf9e0; 0x1803bf0; 0x1803b30; 0x1803f38; 0x1aaba38;
   0x1fff81c; 0x1aab80e; 0x1803804; 0x0; 0x0; 0x0; 0x0; 0x202000;
   0x0; 0x0; 0x0; 0xe000; 0xe000; 0xc06180; 0xe06180; 0x70f0c0;
   0x38f0e0; 0x19f860; 0x3bc00; 0x1f1f00; 0x3c0f80; 0x7f803fc; 0x3e000fc; 0x1c0198;
   0xc0380; 0x39d99b0; 0x19cd9b8; 0x1dccd98; 0xfced8c; 0x7e47cc; 0x360ec0; 0x771ee0;
   0xe39870; 0x3c1e87c; 0x380f03e; 0x300700c; 0x0; 0x0; 0x0; 0x0;
   0x202000; 0x0; 0x0; 0x0; 0x5c0180; 0xec0180; 0x1dc3fc0; 0x18c3fc0;
   0x19c35e0; 0xc3060; 0x3fff9f0; 0x3ffdfb8; 0x1c1e1c; 0x1c0c2e; 0x1e0ef4; 0x3e07c0;
   0x770780; 0x738380; 0xe3c1e0; 0x1c1e0f8; 0x7c0f07c; 0x3803808; 0x401000; 0xe38860;
   0xe30c70; 0x1c30c38; 0x3871c18; 0x3860c1c; 0x3061c0c; 0x0; 0x0; 0x0;
   0x0; 0x202000; 0x0; 0x0; 0x0; 0xe060c0; 0xe060c0; 0xe060c0;
   0x3fff8c0; 0x3fff8c0; 0xe06ec0; 0xf566dc; 0xffe6c8; 0xf567cc; 0xe063cc; 0xffe3cc;
   0xffe0ec; 0xe060c4; 0xe060e0; 0x7fffce0; 0x3fffce0; 0x3231e0; 0x3631e0; 0x6333f0;
   0xe3b730; 0x1c1f730; 0xb238; 0x3fff01c; 0x3fff00c; 0xc; 0x0; 0x0;
   0x0; 0x0; 0x202000; 0x0; 0x0; 0x0; 0x70060; 0x30060;
   0x30060; 0x3fffc60; 0x3fffc60; 0x30c260; 0x70e37c; 0xe67368; 0x1c67b6c; 0x7ffffec;
   0x3fffdec; 0x6006c; 0x6006c; 0x2aea860; 0x3fffc60; 0xaea860; 0x600f0; 0x600f0;
   0x1fff1f0; 0xfff3b8; 0x60338; 0x60018; 0x7fffe1c; 0x3fffe0e; 0x1555404; 0x0;
   0x0; 0x0; 0x0; 0x202000; 0x0; 0x0; 0x0; 0xc060;
   0xfde060; 0xfc7c60; 0xcc1c60; 0xcc1c60; 0xcc0f68; 0xcc5f7c; 0xceff68; 0xc6fdec;
   0x3c60dec; 0x7c71dec; 0x30c6c; 0x3fffc64; 0x3fefc60; 0x1861c60; 0x18e0c60; 0x1cc1c70;
   0xcd8cf0; 0xfdfff0; 0x787fb0; 0x781fb8; 0xfc0d98; 0x1df1c1c; 0x3878c0e; 0x3011c04;
   0x0; 0x0; 0x0; 0x0; 0x202000; 0x0; 0x0; 0x0;
   0x60060; 0xe0060; 0xe0060; 0x3fff860; 0x3fff860; 0x3001e68; 0x3001f7c; 0x3fffa68;
   0xffe36c; 0x36c; 0x1fff16c; 0xffe06c; 0x1c07064; 0xc06060; 0x1fff060; 0xffe060;
   0x1c070e0; 0xc061e0; 0x1fff3f0; 0xffe730; 0x638; 0x218; 0x3fffc1c; 0x3fff80e;
   0x4; 0x0; 0x0; 0x0; 0x0; 0x202000; 0x0; 0x0;
   0x0; 0x60; 0x1fff0e0; 0x1fff0e0; 0x18030e0; 0x1c032e0; 0x1fff6e0; 0x1fff7f8;
   0x18033e8; 0x1d573fc; 0x1fff1ec; 0x15551ec; 0x660ec; 0x67064; 0x1fff060; 0x1fff860;
   0x618e0; 0x61ce0; 0x60de0; 0x1fff3f0; 0xaea330; 0x60738; 0x60218; 0x7fffc1c;
   0x3fffc0e; 0x4; 0x0; 0x0; 0x0; 0x0; 0x202000; 0x0;
   0x0; 0x0; 0x70060; 0x30060; 0x30060; 0xfff860; 0x1fff860; 0xc01e68;
   0x1d55f78; 0xfffb68; 0x1d55b7c; 0xc01b6c; 0x1fff9ec; 0xfff86c; 0x6c; 0x60;
   0x3fffc60; 0x3fffc60; 0x600e0; 0x601e0; 0x1fffbf0; 0xfffb30; 0x60338; 0x60018;
   0x3fffe1c; 0x3fffe0e; 0x4; 0x0; 0x0; 0x0; 0x0; 0x202000;
   0x0; 0x0; 0x0; 0x1801c0; 0x1c0380; 0xe0700; 0x3fffffc; 0x3fffffc;
   0x0; 0xc03ff0; 0xc33ff0; 0xc73830; 0xc33830; 0xc73ff0; 0xc33ab0; 0xc73830;
   0xc33ff0; 0xc73ff0; 0xc33830; 0xc03830; 0xfc3e30; 0x7c1e30; 0x600860; 0xe38c70;
   0x1c30c30; 0x1c70c38; 0x3860c18; 0x1061c1c; 0x0; 0x0; 0x0; 0x0;
   0x202000; 0x0; 0x0; 0x0; 0x60060; 0x8608e0; 0x18618e0; 0x18618e0;
   0x18618e0; 0x1861ee0; 0x1fffef8; 0x1fffae8; 0x3fc; 0x3ec; 0x7fffdec; 0x3fffcec;
   0x70064; 0x600e0; 0x3fff860; 0x3fff860; 0x39998e0; 0x39999e0; 0x39999f0; 0x3999bb0;
   0x3999f38; 0x3999a18; 0x399981c; 0x3d9980e; 0x1d11804; 0x0; 0x0; 0x0;
   0x0; 0x202000; 0x0; 0x0; 0x0; 0xc0; 0x1fff0c0; 0x1fff0c0;
   0x18030c0; 0x18030c0; 0x1fffcc8; 0x1fff6d8; 0x18036d8; 0x18037dc; 0x1aab3cc; 0x1fff3cc;
   0x200cc; 0x700c8; 0xe00e0; 0x3fff8e0; 0x3fff8e0; 0x4041e0; 0xe0e3e0; 0x60c770;
   0x60ce30; 0x71c630; 0x318038; 0x7fffe1c; 0x3fffe0e; 0x4; 0x0; 0x0;
   0x0; 0x0; 0x202000; 0x0; 0x0; 0x0; 0x600c0; 0x600e0;
   0x71ff0; 0x31ff0; 0x3ff1c38; 0x3ff8e18; 0x1c3d75c; 0xc3dff8; 0xe7fff8; 0x661800;
   0x761800; 0x3c1ff8; 0x3c1ff8; 0x381800; 0x7e1800; 0xef1800; 0x3c7dffc; 0x381fff8;
   0x3404000; 0xe38860; 0xe38c70; 0x1c30c30; 0x3871c38; 0x3860c1c; 0x3061c1c; 0x0;
   0x0; 0x0; 0x0; 0x202000; 0x0; 0x0; 0x0; 0x60;
   0x3fff860; 0x3fff860; 0x3861860; 0x3861960; 0x3fffb66; 0x3fffb6c; 0x3861b6c; 0x3d7596c;
   0x3fff9ec; 0x3fff9ec; 0x6c; 0x1fff06c; 0xfff060; 0x1c1b060; 0xdfb060; 0x1fc30f0;
   0xc030f0; 0x1fc31f0; 0xfff3b0; 0x1c7f338; 0xc03818; 0x1c0181c; 0xf81c0e; 0xf01804;
   0x0; 0x0; 0x0; 0x0; 0x202000; 0x0; 0x0; 0x0;
   0xe0c0e0; 0xe0c0e0; 0xe0c0e0; 0x3fff8e0; 0x3fff8e0; 0xe0c6e8; 0xe0c6fc; 0xffc2e8;
   0xffc3fc; 0xe0c3ec; 0xe0c16c; 0xffc0ec; 0xffc064; 0xc0060; 0xc0060; 0x3fff860;
   0x3fff8e0; 0x1f01e0; 0x3f83f0; 0x7d8330; 0xede738; 0x1ccf018; 0x78c7c1c; 0x30c180e;
   0xc0004; 0x0; 0x0; 0x0; 0x0; 0x202000; 0x0; 0x0;
   0x0; 0x1c000; 0x1c2a8; 0x1c7f8; 0x1ffe6b8; 0x1fff618; 0x1807618; 0x1803e18].
Definition hanzi_data_253 : list N :=
  [0x18ffe18; 0x19ff7f8; 0x18867f8; 0x19c6618; 0x1886618; 0x1dfe618; 0x18fe618; 0x1c067f8;
   0xc067f8; 0xfc0558; 0xfc0018; 0x540000; 0x638c60; 0xe30c70; 0x1c30c30; 0x1871c38;
   0x3860c1c; 0x3061c1c; 0x0; 0x0; 0x0; 0x0; 0x202000; 0x0;
   0x0; 0x0; 0x0; 0x3fff7f8; 0x1fff7f8; 0x1830618; 0x1870618; 0x1838618;
   0x1c1c618; 0x1f9e618; 0xf87ff8; 0x37f8; 0x1fff618; 0x1ffe618; 0x1c07618; 0x1806618;
   0x1c07758; 0x18067f8; 0x1fff7f8; 0x1ffe018; 0x400020; 0xe38e60; 0x1c30c70; 0x1c30c38;
   0x3870c38; 0x3860c1c; 0x1061c0c; 0x0; 0x0; 0x0; 0x0; 0x202000;
   0x0; 0x0; 0x0; 0xe0; 0x1fff8e0; 0x1fff8e0; 0x18638e0; 0x18638e0;
   0x1fffee0; 0x1fffefc; 0x1863ee8; 0x1863fec; 0x1aebbec; 0x1fff9ec; 0xaaa0ec; 0xe4;
   0x3fffce0; 0x7fffc60; 0xe30e0; 0x10c71e0; 0x3cc31e0; 0x1fc73f0; 0x783730; 0x707638;
   0xe63238; 0x1e7f01c; 0x783f80e; 0x3007004; 0x0; 0x0; 0x0; 0x0;
   0x202000; 0x0; 0x0; 0x0; 0x1800; 0xc01800; 0xeffff0; 0x7ffff0;
   0x3c1800; 0x1e1800; 0x3fffffc; 0x3fffffc; 0x155fd54; 0x3e00; 0x7fffe0; 0x7ffffe;
   0x7001fc; 0x70018c; 0x7fffc0; 0x7aab80; 0x7001c0; 0x7fff80; 0x7fffc0; 0x600020;
   0xe38c70; 0xc30c30; 0x1c70c38; 0x3870c1c; 0x1031c0c; 0x0; 0x0; 0x0;
   0x0; 0x202000; 0x0; 0x0; 0x0; 0x180; 0xfff9c0; 0xfffcc0;
   0xe018e0; 0xf55c70; 0xfff878; 0x3007c; 0x3006e; 0x3ffff64; 0x3ffff60; 0x3ff060;
   0xf33860; 0x1e31e60; 0x3830f60; 0x1036260; 0x206180; 0x7071c0; 0x30f0c0; 0x39f8e0;
   0x1fb870; 0x79e20; 0x1e0f80; 0x1fc07f0; 0x3f000fc; 0x1c0001c; 0x0; 0x0;
   0x0; 0x0; 0x202000; 0x0; 0x0; 0x0; 0x7060; 0x3f86060;
   0x3fc7060; 0x3086060; 0x31c7060; 0x30aeb68; 0x31ffd7c; 0x3aae9e8; 0x3fc71ec; 0x3a860ec;
   0x31c70ec; 0x308606c; 0x31d7464; 0x309fc60; 0x3fdfc70; 0x3f98c20; 0x31d8c70; 0x30d8cf0;
   0x30d8cf0; 0x30d8db8; 0x30ffd98; 0x307fd98; 0x3470c1c; 0x3e3880e; 0x1e30004; 0x0;
   0x0; 0x0; 0x0; 0x202000; 0x0; 0x0; 0x0; 0xc0;
   0xfff0c0; 0xfff0c0; 0xc030c0; 0xc070c0; 0xeab6c0; 0xfff6d8; 0xeab6c8; 0xc077dc;
   0xc033cc; 0xfff1cc; 0xfff0ec; 0xc6; 0xe0; 0x1fff860; 0x1fff8e0; 0x19999e0;
   0x1999be0; 0x1999f70; 0x1999f30; 0x1999e38; 0x1999838; 0x7fffe1c; 0x3fffe0e; 0x4;
   0x0; 0x0; 0x0; 0x0; 0x202000; 0x0; 0x0; 0x0;
   0x70060; 0xe0060; 0xc0060; 0x1fff860; 0x1fff860; 0x1803a68; 0x1803b7c; 0x1aabb68;
   0x1fffb6c; 0xaab9ec; 0x39ec; 0x2aab86c; 0x3fff864; 0x3bef860; 0x3367860; 0x3367860;
   0x3367870; 0x3fff8f0; 0x3fffdf0; 0x3366fb8; 0x3366d38; 0x3366c18; 0x3366e1c; 0x3f6660e;
   0x1c06404; 0x0; 0x0; 0x0; 0x0; 0x202000; 0x0; 0x0;
   0x0; 0x60; 0x1ff0060; 0x1ff1c60; 0x1831860; 0x1833860; 0x1ab3268; 0x1ff7778;
   0x1830368; 0x183037c; 0x1833f68; 0x1ff3dec; 0xab306c; 0x11b3064; 0x39b3060; 0x1f33060;
   0xe33060; 0xe330e0; 0xdb30e0; 0x19fb1f0; 0x387b3b0; 0x101bb38; 0xfd38; 0x7ffce1c;
   0x3ff860e; 0x1fc0404; 0x0; 0x0; 0x0; 0x0; 0x202000; 0x0;
   0x0; 0x0; 0x70060; 0x60060; 0x60060; 0x1fff860; 0x1fffc60; 0x1800a68;
   0x1801f7c; 0x1fffb68; 0x1fffd6c; 0x9ec; 0x1dec; 0x3ffe86c; 0x3fffc64; 0x3060c60;
   0x3367c60; 0x366cc60; 0x367cc70; 0x3868cf0; 0x3c7cdf0; 0x37eefb0; 0x33e77b8; 0x3060618;
   0x306071c; 0x3e7c30e; 0x1e3c304; 0x0; 0x0; 0x0; 0x0; 0x202000;
   0x0; 0x0; 0x0; 0x600c0; 0x600c0; 0x15750c0; 0xffe0c0; 0x1d570c0;
   0xc06cc8; 0x1fff6d8; 0xffe6d8; 0x1c077dc; 0xc063c8; 0x1fff3cc; 0xc060cc; 0x1c070c4;
   0xffe0e0; 0x1fff0e0; 0x300e0; 0x701e0; 0x8ecbe0; 0x1dcdf70; 0x188da30; 0x3e0dc30;
   0x360cc38; 0x760cc1c; 0x27fcc0e; 0x3fc004; 0x0; 0x0; 0x0; 0x0;
   0x202000; 0x0; 0x0; 0x0; 0x700c0; 0x600c0; 0xe00c0; 0x3fff8c0;
   0x3fffcc0; 0xec0; 0xfff6dc; 0xffe6c8; 0xe077cc; 0xe063cc; 0xfff1cc; 0xffe0ec;
   0xc4; 0x3fff8e0; 0x3fffc60; 0x3801860; 0x3bfdce0; 0x3bf99e0; 0x3b0dff0; 0x3b09b30;
   0x3bfdf30; 0x3bf9a38; 0x3801c1c; 0x3e0180c; 0x1e01c0c; 0x0; 0x0; 0x0;
   0x0; 0x202000; 0x0; 0x0; 0x0; 0x381c0; 0x8380e0; 0x1f38e70;
   0x7f9c30; 0xfbffc; 0x303bffc; 0x303f05c; 0x3ff9ff8; 0x1ff1ff8; 0x29838; 0xc39ff8;
   0xe39ff8; 0xff9838; 0xf9ff8; 0x1039ff8; 0x3039838; 0x3579838; 0x3ff9f38; 0x1ff0f38;
   0x20; 0xf38c70; 0xe30c30; 0x1c70c38; 0x3870c1c; 0x1070c1c; 0x0; 0x0;
   0x0; 0x0; 0x202000; 0x0; 0x0; 0x0; 0x700000; 0xfffea0;
   0x17fff0; 0x6000; 0x3fffffc; 0x3fffffc; 0x6000; 0xfffff0; 0xfffff0; 0xec6330;
   0xe66770; 0xe66630; 0xf77770; 0xfffff0; 0x6000; 0xfffff0; 0xfffff0; 0x6000;
   0x3fffffc; 0x3fffffc; 0x400000; 0xe38c60; 0x1c30c70; 0x3830c38; 0x3071c1c; 0x0;
   0x0; 0x0; 0x0; 0x202000; 0x0; 0x0; 0x0; 0x700e0;
   0xe00e0; 0xe00e0; 0x3fff8e0; 0x3fff8e0; 0x3001ee0; 0x3309efc; 0x371dbe8; 0xe0e3ec;
   0x1ce73ec; 0x38779ec; 0x10f18ec; 0x3f80e4; 0x79c0e0; 0x1f0f060; 0x3c078e0; 0x7fffde0;
   0x2ffe9e0; 0xc063f0; 0xc06730; 0xc06738; 0xc06238; 0xffe01c; 0xffe00e; 0xc06004;
   0x0; 0x0; 0x0; 0x0; 0x202000; 0x0; 0x0; 0x0;
   0x10060; 0x3e060; 0x3fdf860; 0x3b81860; 0x3309860; 0x330da68; 0x3319b6c; 0x31b9b68;
   0x31bd96c; 0x30ff9ec; 0x3ed7dec; 0x1e60c6c; 0x40064; 0x1fff860; 0x1fff860; 0x1863860;
   0x1863870; 0x1aeb8e0; 0x1fff9f0; 0x1863bb0; 0x1863b38; 0x1863b18; 0x1fff81c; 0x1fff80e].
Definition hanzi_data_254 : list N :=
  [0x1803804; 0x0; 0x0; 0x0; 0x0; 0x202000; 0x0; 0x0;
   0x0; 0x0; 0x1ffbff8; 0x1fffff8; 0x1838218; 0x1838718; 0x1839fd8; 0x1839fd8;
   0x1ab98d8; 0x1ff98d8; 0xab98d8; 0x398d8; 0x39fd8; 0x1039fd8; 0x3038218; 0x7030718;
   0x3ff7ff8; 0x3ff7ff8; 0x0; 0x718460; 0xe18e60; 0x1c38c70; 0x1c30c30; 0x3871c38;
   0x3061c1e; 0x1020c0c; 0x0; 0x0; 0x0; 0x0; 0x202000; 0x0;
   0x0; 0x0; 0xc0; 0x3fff8c0; 0x7fff8c0; 0x3300c0; 0x17750c0; 0x3fff6c0;
   0x3fff6d8; 0x33336c8; 0x33337dc; 0x3bbb3cc; 0x3fff1cc; 0xec; 0x1ffe0c4; 0x1ffe0e0;
   0x1554060; 0xe0; 0x7fff9e0; 0x3fff9e0; 0x4e43f0; 0xeee330; 0x1ce7738; 0x38e3238;
   0x70e3c1c; 0x30f980e; 0x78004; 0x0; 0x0; 0x0; 0x0; 0x202000;
   0x0; 0x0; 0x0; 0x70060; 0x30060; 0x1fff860; 0x1fff860; 0x1c71860;
   0x18b1e60; 0x1ff9f7c; 0x1b19b68; 0x1dbdb6c; 0x18e1968; 0x1df19ec; 0x1bb986c; 0x1d1d86c;
   0x1fff860; 0x1fff860; 0x20060; 0x4700e0; 0xced9e0; 0x1dcdbf0; 0x388db30; 0x3c0df30;
   0x3e0cc18; 0x37fce1c; 0x7fc00c; 0x4; 0x0; 0x0; 0x0; 0x0;
   0x202000; 0x0; 0x0; 0x0; 0x601c0; 0x60380; 0x67ffc; 0x63ffc;
   0xffd550; 0xff9ff8; 0xc61838; 0xc61838; 0xc6dff8; 0xc7c000; 0xc79ff8; 0xcf1ff8;
   0xdf0780; 0x2fb2b80; 0x6d3bffc; 0x6c1c3bc; 0x7c1e380; 0x380f3f0; 0x38061e0; 0x600020;
   0xe38c70; 0xc30c30; 0x1c70c38; 0x3870c18; 0x1871c18; 0x0; 0x0; 0x0;
   0x0; 0x202000; 0x0; 0x0; 0x0; 0x60; 0x3fdfc60; 0x3fdfc60;
   0x3098860; 0x31d9c60; 0x339ba68; 0x371f36c; 0x3c18368; 0x3f1f16c; 0x33dbdec; 0x31d9dec;
   0x302806c; 0x70064; 0xaba860; 0x1fff860; 0xeab860; 0x1c03870; 0xc038f0; 0x1fff9f0;
   0xeabbb0; 0x1c03f18; 0xc03a18; 0x1fff81c; 0xfff80e; 0x1c03804; 0x0; 0x0;
   0x0; 0x0; 0x202000; 0x0; 0x0; 0x0; 0x60; 0x1ff8060;
   0x1ffc660; 0xe20c60; 0x7f1d60; 0x3c3b60; 0x783378; 0x3ff81e8; 0x3ffc1ec; 0x31981ec;
   0x319dfec; 0x3ff9e6c; 0x3ffdd66; 0x3199860; 0x319d870; 0x3ff9820; 0x3ffd870; 0x31998f0;
   0x319d9f0; 0x3999bb8; 0x1d9fd18; 0xee18; 0x7ffc71c; 0x3ff830e; 0x1540204; 0x0;
   0x0; 0x0; 0x0; 0x202000; 0x0; 0x0; 0x0; 0xe00000;
   0xe03ff8; 0xe07558; 0xe03018; 0x3fffff8; 0x3ffaab8; 0xe33fd8; 0xe33fd8; 0xe77ff8;
   0xee7ff8; 0xec1658; 0xe036d8; 0xe0766c; 0xfc26fe; 0x7c6784; 0x406080; 0xe071c0;
   0x70f0e0; 0x31f870; 0x19b838; 0x179e30; 0xf0f80; 0x1fc07f0; 0x3f800fc; 0x1c0001c;
   0x0; 0x0; 0x0; 0x0; 0x202000; 0x0; 0x0; 0x0;
   0xe0180; 0x60180; 0x73ff8; 0x73ff8; 0x3ff0180; 0x3ffbff8; 0x1c3fff8; 0xc3c180;
   0xc3d5d4; 0xe63ffc; 0x7655d4; 0x7e00c0; 0x3c1fc0; 0x381fe0; 0x7e1870; 0xff1870;
   0x1e7dfb8; 0x381cf1c; 0x1004008; 0x600020; 0xe38c70; 0xc38c30; 0x1c70c38; 0x3870c1c;
   0x3071c1c; 0x0; 0x0; 0x0; 0x0; 0x202000; 0x0; 0x0;
   0x0; 0x60; 0xfff060; 0x1d57060; 0xc03060; 0x1fff060; 0xc03268; 0x1c0777c;
   0xfff368; 0x55536c; 0x3fffb6c; 0x3fff9ec; 0x399986c; 0x3999864; 0x3fff860; 0x1fff860;
   0x800060; 0x1fff870; 0xeaf8e0; 0xf0e1f0; 0x79c3b0; 0x3f8338; 0xf8318; 0x7ff01c;
   0x3f0fe0c; 0x1c01c0c; 0x0; 0x0; 0x0; 0x0; 0x202000; 0x0;
   0x0; 0x0; 0x30060; 0x30060; 0x70060; 0x3fffc60; 0x3fffc60; 0x706260;
   0x30e76c; 0x38c36c; 0x15dd76c; 0x3fffdec; 0x3d55dec; 0x3998c6c; 0x3b9dc64; 0x3b0ec60;
   0x3e07c60; 0x3dfec60; 0x39fdcf0; 0x390cdf0; 0x390ddf0; 0x39acf30; 0x39fdf38; 0x380cc18;
   0x3801c1c; 0x3e00c0e; 0x1e01c04; 0x0; 0x0; 0x0; 0x0; 0x202000;
   0x0; 0x0; 0x0; 0x6000; 0x6000; 0x3fffffc; 0x6000; 0xfffff0;
   0xfffff0; 0x0; 0x7fffe0; 0x7555e0; 0x6000e0; 0x7fffe0; 0xe0600; 0x1575754;
   0x3fffffc; 0x1555554; 0xaaaaa0; 0xffffe0; 0xe00060; 0xf55560; 0xffffe0; 0x400020;
   0xe38c60; 0x1c30c70; 0x3830c38; 0x3071c18; 0x0; 0x0; 0x0; 0x0;
   0x202000; 0x0; 0x0; 0x0; 0x60060; 0xf0060; 0x1f8060; 0x39c060;
   0x1f5f060; 0x3ffff68; 0x3155d7c; 0xaaa1e8; 0xfff1ec; 0xc031ec; 0xc031ec; 0xfff06c;
   0x555064; 0x60; 0x3fdfc70; 0x3fdfc20; 0x39d9c70; 0x3b9b8f0; 0x3f1f1f0; 0x3e1e1b8;
   0x3f9fb98; 0x39dbf18; 0x3858c1c; 0x3e1e00e; 0x1e1e004; 0x0; 0x0; 0x0;
   0x0; 0x202000; 0x0; 0x0; 0x0; 0x707060; 0x1b02060; 0x1f17060;
   0x333f060; 0x373f760; 0x331b68; 0x7ff1b7c; 0x3ffede8; 0x71cdec; 0x718eec; 0x71f76c;
   0xf8f26e; 0xd8e064; 0xd86060; 0x1dc7060; 0x38e38e0; 0x7071ff0; 0x2030db0; 0xc01bf0;
   0x1ccdb30; 0x19ddd38; 0x3998c18; 0x3198e1c; 0x739860e; 0x6118604; 0x0; 0x0;
   0x0; 0x0; 0x202000; 0x0; 0x0; 0x0; 0xe000; 0xe06380;
   0x7071c0; 0x38f0e0; 0x1ffcf0; 0x1f9e20; 0x7c0ff0; 0x1e003f8; 0xdc03f0; 0x399bbb0;
   0x1dd99b0; 0xcccdb8; 0x5ee5dc; 0x7e07c8; 0x1f7dff0; 0x3c3ec7c; 0x100601c; 0x2aaeaa8;
   0x3fffffc; 0x3fc00; 0xf6f00; 0x3e63c0; 0x1f861fc; 0x3e0603c; 0x1006004; 0x0;
   0x0; 0x0; 0x0; 0x202000; 0x0; 0x0; 0x0; 0x46060;
   0xe6060; 0xc7060; 0xc3060; 0x3fff060; 0x3fffb68; 0x15d7f7c; 0xc3de8; 0x1ffffec;
   0x1fff4ec; 0xc34ec; 0xc306c; 0x1fff064; 0x1fff060; 0xc3070; 0xc3020; 0x3fff070;
   0x3fff0f0; 0x30f0; 0xccb9b8; 0x1dd9998; 0x1999998; 0x3199c1c; 0x3398e0e; 0x3118404;
   0x0; 0x0; 0x0; 0x0; 0x202000; 0x0; 0x0; 0x0;
   0x60060; 0x60060; 0x70060; 0x3fff860; 0x3fff860; 0x999268; 0x1f9ff7c; 0xf0f368].
Definition hanzi_data_255 : list N :=
  [0x70e36c; 0xfff1ec; 0x1fffdec; 0x3e03c6c; 0x1757464; 0x7fe060; 0x607060; 0x602060;
   0x7ff0f0; 0x7fe1f0; 0x4603f0; 0x666330; 0xc67338; 0x1c63818; 0x3861c1c; 0x107c80e;
   0x78004; 0x0; 0x0; 0x0; 0x0; 0x202000; 0x0; 0x0;
   0x0; 0x60; 0xfff860; 0xfff860; 0x388060; 0x1fc060; 0x3ffff68; 0x3ffff7c;
   0x18f8368; 0x1cdc1ec; 0xecf9ec; 0xc3dec; 0xf086c; 0x1575464; 0x1fffc60; 0x1891c60;
   0x1998c60; 0x1f1dc70; 0x1e07cf0; 0x1dffdf0; 0x190cdb0; 0x190df38; 0x19acd18; 0x19fdc1c;
   0x1e0cc0e; 0x1e01c04; 0x0; 0x0; 0x0; 0x0; 0x202000; 0x0;
   0x0; 0x0; 0xd000e0; 0x1ffa0e0; 0x1ff8e0; 0xc660e0; 0xc660e0; 0x66cee8;
   0x66c6f8; 0x3fffef8; 0x7fffbfc; 0x3f83e8; 0x77c1ec; 0xe6e0ec; 0x3c678e4; 0x3863ce0;
   0x3fff860; 0x1fff060; 0x1c630e0; 0x18631e0; 0x1fff3f0; 0x1fff330; 0x1c63738; 0x1863238;
   0x1fff01c; 0x1fff00e; 0x1c03004; 0x0; 0x0; 0x0; 0x0; 0x202000;
   0x0; 0x0; 0x0; 0x70600; 0x60600; 0x3fffffc; 0x3fffffc; 0x70600;
   0x60600; 0x7fe00; 0x1ffe80; 0x1801c0; 0x19bfcfc; 0x3dbfdfc; 0xfb0ca8; 0x7b0dc0;
   0x11b0c80; 0x31b0dc0; 0x33bacf8; 0x3fbfdfc; 0x1f00084; 0x400000; 0xe38c60; 0x1e30c70;
   0x1c30c38; 0x3871c38; 0x3860c1c; 0x3061c0c; 0x0; 0x0; 0x0; 0x0;
   0x202000; 0x0; 0x0; 0x0; 0x1c0180; 0x180380; 0x19d91b0; 0x18d99b0;
   0x1dddd98; 0xeccd98; 0x5ce5dc; 0x3e03c0; 0x760fc0; 0xe71ce0; 0x1c3dc78; 0x38de2bc;
   0x11c438c; 0x10c8380; 0x31d99b0; 0x19cd998; 0x1dccd98; 0xdce18c; 0x3e47cc; 0x360fc0;
   0x771ee0; 0xe39870; 0x3c1e07c; 0x380f83e; 0x300700c; 0x0; 0x0; 0x0;
   0x0; 0x202000; 0x0; 0x0; 0x0; 0x70060; 0x38060; 0x1fffc60;
   0x1fffc60; 0x1841c60; 0x1a66f68; 0x1b6df7c; 0x19ecf68; 0x1d75dec; 0x1ffedec; 0x1d7ddec;
   0x19f8c6c; 0x1b6dc64; 0x1e66c60; 0x1867c60; 0x1820c60; 0x70070; 0x3fffcf0; 0x7fffdf0;
   0xf81b0; 0x1dc3b8; 0x38e118; 0x1f07c1c; 0x3e03f0e; 0x3000704; 0x0; 0x0;
   0x0; 0x0; 0x202000; 0x0; 0x0; 0x0; 0x60; 0x7fe060;
   0x7fe060; 0x606060; 0x606060; 0x7fe260; 0x7fe37c; 0x368; 0x3fdff6c; 0x3a9adec;
   0x31d9dec; 0x3098c6c; 0x3fdfc64; 0x3fffc60; 0x60060; 0x60060; 0x3fffc70; 0x3fffcf0;
   0x1f81f0; 0x3ec3b0; 0x76f338; 0x1e63918; 0x7c61f1c; 0x3060e0e; 0x60004; 0x0;
   0x0; 0x0; 0x0; 0x202000; 0x0; 0x0; 0x0; 0x1830060;
   0x1830060; 0xc70c60; 0xe60c60; 0x7ffdc60; 0x3ffdb68; 0x55d5b7c; 0xe0368; 0x38f016c;
   0x1dbdfec; 0xd9dfec; 0x7c186c; 0x7f1864; 0xf39860; 0x1f9d860; 0x1fc1860; 0x36e1870;
   0x36798f0; 0x71d9f0; 0x30d9b0; 0x3c3b38; 0x3c7d18; 0x7ffc61c; 0x3ff860e; 0x1fc0204;
   0x0; 0x0; 0x0; 0x0; 0x202000; 0x0; 0x0; 0x0;
   0x603060; 0x603060; 0x606060; 0x26bff68; 0x36d5778; 0x36dfde8; 0x1edfdec; 0xe600ec;
   0x71fc70; 0x700060; 0xf1fcf0; 0x1f9fdf0; 0x3998fb8; 0x39dff1c; 0x70ffd0e; 0x40000;
   0x7ffff0; 0x7ffff0; 0x3c0780; 0x1e0f00; 0x7fc00; 0x3f800; 0x17fffd0; 0x3fe0ffc;
   0x1f0007c; 0x0; 0x0; 0x0; 0x0; 0x202000; 0x0; 0x0;
   0x0; 0x0; 0x3fffff8; 0x3fffffc; 0xe00e0; 0x1cf9cf0; 0xddefbc; 0x7c47c8;
   0x778f70; 0x1f9ffbc; 0x3bc7ec8; 0x7771670; 0x233e23c; 0x3ec3fc; 0x1e63e0; 0x7000;
   0xe07080; 0x70f0c0; 0x30f0e0; 0x39f870; 0x1b9838; 0x79e10; 0xf0f80; 0x1fc07f0;
   0x3f800fc; 0x3c0001c; 0x0; 0x0; 0x0; 0x0; 0x202000; 0x0;
   0x0; 0x0; 0x60; 0x1fff860; 0x1d55860; 0x1801860; 0x1fff860; 0x1aabb68;
   0x1d55b6c; 0x1fffb68; 0x175d16c; 0x30c1ec; 0x3fffdec; 0x2bae86c; 0x30c064; 0x3fffe60;
   0x3fffe70; 0x626020; 0x1c63870; 0x3a67ef0; 0x776e5f0; 0x3ec1b8; 0x1fc318; 0xfef918;
   0x3e63e1c; 0x187cc0e; 0x7c004; 0x0; 0x0; 0x0; 0x0; 0x202000;
   0x0; 0x0; 0x0; 0x60700; 0x60700; 0x3fffffc; 0x2aeafa8; 0x60700;
   0xe0180; 0xc1ff8; 0xae9ff8; 0xffc180; 0xeebffc; 0xe63ffc; 0xe68e70; 0xc7fdbc;
   0xe73188; 0x1df3ffc; 0x2db3ff8; 0x3db8180; 0x3c1fff8; 0x3c0fffc; 0xc04020; 0xe38c70;
   0xc30c70; 0x1c70c38; 0x3860c18; 0x1060c1c; 0x0; 0x0; 0x0; 0x0;
   0x202000; 0x0; 0x0; 0x0; 0x607060; 0x706060; 0x30e060; 0x1fffc60;
   0x1fffc60; 0x60368; 0x1fffb7c; 0x60368; 0x3ffffec; 0x3ffffec; 0x7fd1ec; 0x1dbfc6c;
   0x1986064; 0x3fffe60; 0x55df460; 0x31bf860; 0x39b6e70; 0x19aeaf0; 0x1f7fff0; 0xf019b0;
   0x73ffb8; 0x279fd18; 0x77d801c; 0x3cff00e; 0x3c5f004; 0x0; 0x0; 0x0;
   0x0; 0x202000; 0x0; 0x0; 0x0; 0x60060; 0x70060; 0x1f8060;
   0x39c060; 0x1f0f060; 0x3eabf60; 0x3bfff68; 0x2aa1ec; 0x14551ec; 0x1ef79ec; 0x17d58ec;
   0x129486e; 0x1ff7874; 0x1ef7860; 0x1555070; 0x1fff830; 0x1dddc70; 0x19998f0; 0x1ddddf0;
   0x1fff9b8; 0x1dddf98; 0x1999918; 0x1999c1c; 0x1f9980e; 0x1d99c04; 0x0; 0x0;
   0x0; 0x0; 0x202000; 0x0; 0x0; 0x0; 0x1c00060; 0x1ffe860;
   0x17ffc60; 0xc31860; 0xc73060; 0xe63368; 0x1ffff6c; 0x1ffff68; 0x199cdec; 0x1988dec;
   0x1fffdec; 0x1fffc6c; 0x1c3fc64; 0xc3fc60; 0x7ffdc60; 0x3fffc60; 0x1d78c70; 0xcbfcf0;
   0x1ddfdf0; 0xd8edb0; 0x1f1cfb8; 0xc1cd18; 0x1c3fc1c; 0xf33e0e; 0xf10404; 0x0;
   0x0; 0x0; 0x0; 0x202000; 0x0; 0x0; 0x0; 0x30c060;
   0x30c060; 0x3fffe60; 0x3fffe60; 0x30c060; 0xa8ab68; 0x1fdff7c; 0x18d8b68; 0x18d9dec;
   0x1ada9ec; 0x1fdfdec; 0xe606c; 0x1c7064; 0x3fff860; 0x3fff860; 0xc3c60; 0x1ffff70;
   0x1fffef0; 0xc39f0; 0x1fff9b0; 0x1fffbb8; 0xc3918; 0x3fff81c; 0x3fff80e; 0x3804].
Definition hanzi_data_256 : list N :=
  [0x0; 0x0; 0x0; 0x0; 0x202000; 0x0; 0x0; 0x0;
   0xffffd0; 0xfffce0; 0xc3fc70; 0xfaade0; 0xc3fc70; 0xfa9de0; 0xfffdf0; 0xc20c20;
   0x3fffffc; 0x3aaaaac; 0x35d575c; 0x37fdfec; 0x31f07cc; 0xed9fe0; 0xccf338; 0x2aabaa8;
   0x3fffffc; 0xe0780; 0x17c63f0; 0x3ec62fe; 0x30ef31c; 0xff9c0; 0x7f1f00; 0x1f807f8;
   0x1c00078; 0x0; 0x0; 0x0; 0x0; 0x202000; 0x0; 0x0;
   0x0; 0x0; 0x780000; 0xffc000; 0x3fff80; 0x307fe0; 0x3060e0; 0x706060;
   0x306060; 0x706060; 0x306060; 0x706060; 0x606060; 0x606060; 0x606060; 0x606060;
   0xe06060; 0xe06070; 0xc06070; 0xc06070; 0x1c06030; 0x1c06038; 0x3806018; 0x780601c;
   0x300600c; 0x300400c; 0x0; 0x0; 0x0; 0x0; 0x202000; 0x0;
   0x0; 0x0; 0x3000; 0x7e00; 0x1ff9ff0; 0x1ff9bf8; 0x1dd9bb8; 0x1999bb8;
   0x1999bb8; 0x1999bb8; 0x1999bb8; 0x1999bb8; 0x1ff9bb8; 0x1ff9bb8; 0x19bb8; 0x1bbb8;
   0x301b398; 0x301b398; 0x3ffb398; 0x3fff398; 0x1ff7398; 0xe398; 0x1c39c; 0x7838c;
   0x7f038c; 0x3f8038e; 0x3c00384; 0x0; 0x0; 0x0; 0x0; 0x202000;
   0x0; 0x0; 0x0; 0x400000; 0xff8000; 0x7ffff8; 0x203ff8; 0x7070c0;
   0x30e1c0; 0x38c180; 0x18c180; 0x1fffff0; 0xfffff0; 0x600; 0x600; 0x3fffffc;
   0x3fffffc; 0x700; 0x2aab00; 0x7fff00; 0x3aaf80; 0x1c1dc0; 0xe38c0; 0x7f0e0;
   0xfe070; 0x1ffff7c; 0x3f81f98; 0x1c00788; 0x0; 0x0; 0x0; 0x0;
   0x202000; 0x0; 0x0; 0x0; 0x400000; 0xfffa00; 0x7ffff0; 0x302bf0;
   0x3871c0; 0x186180; 0x15d75d0; 0x1fffff8; 0x1fffffc; 0x1800c18; 0x1800c1c; 0xaaaea8;
   0x7ffff0; 0x2aaea0; 0x600; 0x3fff00; 0x3fff00; 0x380f80; 0x1c1dc0; 0xe79c0;
   0x7f0e0; 0xff070; 0x3ff7f3c; 0x1f80f1c; 0x1400100; 0x0; 0x0; 0x0;
   0x0; 0x202000; 0x0; 0x0; 0x0; 0xfc0000; 0xfffff8; 0x17fff8;
   0x3030e0; 0x3871c0; 0x186180; 0x1fffff0; 0xebaeb8; 0x1c30c38; 0xebaeb8; 0x1fffff8;
   0x200000; 0x601ff0; 0x601ff0; 0x3ffd830; 0x3ffdff0; 0x601ff0; 0x619830; 0x639ff0;
   0x630eb0; 0x660e30; 0x601830; 0x743ff8; 0x7e33f8; 0x3c7018; 0x0; 0x0;
   0x0; 0x0; 0x202000; 0x0; 0x0; 0x0; 0x40600; 0xf0700;
   0x1e0700; 0x3c0380; 0x7801c0; 0xf000e0; 0x1e000f0; 0x1c00078; 0x39c03bc; 0x18c0308;
   0xe0700; 0xe0600; 0x70e00; 0x30e00; 0x39c00; 0x1f800; 0x1f000; 0xf000;
   0x1f800; 0x7be00; 0x1f1f00; 0x7e07e0; 0x7fc01fc; 0x3e0007c; 0x100001c; 0x0;
   0x0; 0x0; 0x0; 0x202000; 0x0; 0x0; 0x0; 0x70600;
   0x1f0f00; 0x7c07c0; 0x1f803e0; 0x3dc077c; 0x8f0e38; 0x7fc00; 0x1f800; 0x7fc00;
   0x3fbf80; 0x7ff07fe; 0x3e000fc; 0x17fffe4; 0x3fffe0; 0x7fffe0; 0x301800; 0x701800;
   0x301800; 0x701800; 0x3a9800; 0x3f9800; 0x1f1800; 0x1800; 0x1800; 0x1800;
   0x0; 0x0; 0x0; 0x0; 0x202000; 0x0; 0x0; 0x0;
   0x60600; 0xf0700; 0x3c03c0; 0x7c03e0; 0x1fe07f8; 0x3c78e3c; 0x183fc18; 0xf800;
   0x7fe00; 0x3f8f80; 0x7fc07fc; 0x3e000fe; 0x17ffffc; 0x7fffe0; 0x7060e0; 0x6060e0;
   0x7060e0; 0x7fffe0; 0x7fffe0; 0xe0; 0x30000e0; 0x38000e0; 0x3ffffc0; 0x1ffffc0;
   0x7fff00; 0x0; 0x0; 0x0; 0x0; 0x202000; 0x0; 0x0;
   0x0; 0x60600; 0x3e0780; 0x7e05e0; 0x1e70ef8; 0x1c3dc3c; 0x1f808; 0x7fe00;
   0xffafe0; 0x3fc73fc; 0x387f83c; 0x7ff00; 0x383e0; 0x1ddf8; 0xef830; 0x77e00;
   0x1ff8fe0; 0x1ffe3f0; 0xe0f830; 0x701f00; 0x3c7780; 0x1fc180; 0x3e000; 0x1ff00;
   0x3ff8; 0x1f0; 0x0; 0x0; 0x0; 0x0; 0x202000; 0x0;
   0x0; 0x0; 0x300000; 0x780020; 0x3c01f0; 0xe0fe0; 0x7ff00; 0x3f800;
   0x7fc00; 0x3f3f80; 0xfc07fc; 0xe000f8; 0x5801d8; 0x380180; 0x1c0380; 0xe0700;
   0xf0700; 0x78e00; 0x3dc00; 0x1f800; 0x1f000; 0x3fc00; 0xfdf00; 0x3f0fe0;
   0x3fc01fc; 0x3e0007c; 0x180001c; 0x0; 0x0; 0x0; 0x0; 0x202000;
   0x0; 0x0; 0x0; 0x6000; 0x6000; 0x6000; 0x2aaeaa8; 0x3fffffc;
   0x3fffffc; 0xc46710; 0xee63f8; 0x7c61e0; 0x7863e0; 0xfe7770; 0xc66238; 0x1c0f310;
   0xecf3b0; 0x7cf1f0; 0x79f8e0; 0xfdf9f0; 0x1cf9fb8; 0x871d18; 0xf0e00; 0x1e0780;
   0x3c03e0; 0x1f801fc; 0x3e0007c; 0x180001c; 0x0; 0x0; 0x0; 0x0;
   0x202000; 0x0; 0x0; 0x0; 0x1c0000; 0x1c0380; 0x1c0380; 0x1c0380;
   0x1c0380; 0x1c0380; 0x1c0380; 0x1fff80; 0x1fff80; 0x1c0000; 0x1c0000; 0x1c0000;
   0x1c0000; 0x1ffff0; 0x1ffff0; 0x1c0600; 0x1c0700; 0x1c0700; 0x1c0700; 0x1c0300;
   0x1c0380; 0x1c01c0; 0x1c01e0; 0x1c00f0; 0x1c0070; 0x0; 0x0; 0x0;
   0x0; 0x202000; 0x0; 0x0; 0x0; 0x300; 0x318; 0x7ffff18;
   0x7fffb18; 0x5d55718; 0xc00318; 0x1c00318; 0xc00318; 0x1cff3f8; 0xcff3f8; 0x1cc3300;
   0xcc3300; 0x1cc3300; 0xcc33a8; 0x1cc33fc; 0xcc33fc; 0x1cff318; 0xcff318; 0x1c03318;
   0xc03318; 0x1c0031c; 0xc0031c; 0x1d4031c; 0xfc030e; 0x7c030c; 0x0; 0x0;
   0x0; 0x0; 0x202000; 0x0; 0x0; 0x0; 0x1c04300; 0xc0e318;
   0xe1c318; 0xe1c318; 0x718318; 0x3fff318; 0x3fff318; 0xe0318; 0xe03f8; 0xe03f8;
   0x15f5350; 0x1fff300; 0x1fff300; 0xe03a8; 0xe03fc; 0xe03b8; 0x7ffff38; 0x7fffb38;
   0x7ffff18; 0xe0318; 0xe0318; 0xe0318; 0xe031c; 0xe030c; 0xe030c; 0x0;
   0x0; 0x0; 0x0; 0x202000; 0x0; 0x0; 0x0; 0x18000;
   0x180e0; 0x180e0; 0x180e0; 0x180e0; 0x180e0; 0x180e0; 0x1ffffe0; 0x1ffffe0].
Definition hanzi_data_257 : list N :=
  [0xe0; 0xe0; 0xe0; 0xe0; 0x1fffe0; 0x1fffe0; 0x1fffe0; 0x1c0060;
   0x1c0060; 0x1c0070; 0x1c0030; 0x1c0038; 0x1c0038; 0x1c001c; 0x1c000c; 0x1c000c;
   0x0; 0x0; 0x0; 0x0; 0x202000; 0x0; 0x0; 0x0;
   0x1000310; 0x3fe0318; 0x1ffe318; 0xbe318; 0xe318; 0xe318; 0xe318; 0xebb8;
   0x3fffff8; 0x3ffeff8; 0x183e018; 0x183e018; 0x1c7e018; 0x1c6e7f8; 0xc6e7f8; 0xeee618;
   0x6c6618; 0x6c6618; 0x7c6618; 0x386618; 0x7c761c; 0xee360c; 0x1c7b60c; 0x383fe0e;
   0x1019604; 0x0; 0x0; 0x0; 0x0; 0x202000; 0x0; 0x0;
   0x0; 0xe0390; 0xe0398; 0x1575398; 0x3fff398; 0x3dd7398; 0x38c3398; 0x38c3398;
   0x3fffbb8; 0x3fffff8; 0x38c3ab8; 0x38c3018; 0x3fff018; 0x3fff018; 0x2303f8; 0x33c7f8;
   0x31e318; 0x307718; 0x3fffb18; 0x7ffff18; 0x300318; 0x30071c; 0x30030c; 0x30070c;
   0x30030c; 0x30070c; 0x0; 0x0; 0x0; 0x0; 0x202000; 0x0;
   0x0; 0x0; 0xe0190; 0xe0198; 0x15f5198; 0x1ffe198; 0x1fff198; 0xe0198;
   0x15f5198; 0x3fffbb8; 0x1fffff8; 0x18842b8; 0x1d9e018; 0xdb8018; 0x1f3018; 0x18f3f8;
   0x1dc3f8; 0xc8318; 0x3fffb18; 0x3fffb18; 0x6031c; 0x370318; 0x73831c; 0xe1c30c;
   0x1c1f30c; 0x3807b0e; 0x1001304; 0x0; 0x0; 0x0; 0x0; 0x202000;
   0x0; 0x0; 0x0; 0xe70190; 0xe23198; 0xe73198; 0xe23198; 0x3fffd98;
   0x3fffd98; 0xe73198; 0xe233b8; 0xff37f8; 0xfe32b8; 0x3018; 0xaab018; 0x1fff018;
   0xaea3f8; 0x603f8; 0x2aeab98; 0x7ffff98; 0x2afab98; 0x1f839c; 0x36c388; 0xf6f39c;
   0x1e67b8c; 0x7c63f8c; 0x3060f8e; 0x60384; 0x0; 0x0; 0x0; 0x0;
   0x202000; 0x0; 0x0; 0x0; 0x40190; 0xc0198; 0x3fff198; 0x3fff198;
   0x3803198; 0x3803198; 0x3fff198; 0x3fff3b8; 0xf837f8; 0x19837f8; 0x3fff018; 0x3fff018;
   0x183018; 0x3fff3f8; 0x3fff3f8; 0x398f318; 0x3fff318; 0x3fffb18; 0x398db18; 0x3ffdb18;
   0x3ffdb1c; 0x398db0c; 0x398df0c; 0x3f8cf0e; 0x1d8c704; 0x0; 0x0; 0x0;
   0x0; 0x202000; 0x0; 0x0; 0x0; 0x0; 0xaaaaa0; 0x1fffff0;
   0xfffff0; 0xe0040; 0xe00c0; 0xe00c0; 0xe00e0; 0xe00e0; 0xe0060; 0x15f5560;
   0x3ffffe0; 0x3fffff0; 0xf8000; 0xfe000; 0xef000; 0xe7800; 0xe1e00; 0xe0f00;
   0xe03c0; 0xe01f0; 0xe00fc; 0xf401c; 0xfe000; 0x7c000; 0x0; 0x0;
   0x0; 0x0; 0x202000; 0x0; 0x0; 0x0; 0x106040; 0x7060e0;
   0x3861c0; 0x3fffff8; 0x3fffff8; 0x3800018; 0x3bfffdc; 0x3bfff98; 0x3801c0; 0x380180;
   0x3fffc0; 0x3fff80; 0x0; 0xfffff0; 0xfffff0; 0xe00e0; 0xe0060; 0x3ffffe0;
   0x3fffff0; 0xee000; 0xe7c00; 0xe0f80; 0xe07fc; 0xfe078; 0x7c000; 0x0;
   0x0; 0x0; 0x0; 0x202000; 0x0; 0x0; 0x0; 0xe000;
   0xe180; 0xe1c0; 0xe0c0; 0xe0e0; 0x1ffffe0; 0x1fffff0; 0xe070; 0xe038;
   0xe038; 0xe01c; 0xe008; 0xe000; 0x3fffffc; 0x3fffffc; 0x2aaeaa8; 0xe000;
   0xe000; 0xe000; 0xe000; 0xe000; 0xe000; 0xe000; 0xe000; 0xe000;
   0x0; 0x0; 0x0; 0x0; 0x202000; 0x0; 0x0; 0x0;
   0x1c180; 0xc188; 0x1c198; 0xc198; 0x1c198; 0xcbb8; 0x1c1dffc; 0x3e0dffc;
   0xf1c18c; 0x3cc18c; 0x1fc18e; 0x7c180; 0x1dd80; 0xdf80; 0x1cffc; 0xc1fc;
   0x1c19c; 0xc180; 0x101c180; 0x300c180; 0x701c180; 0x300c180; 0x3ffc180; 0x3ff8180;
   0x1ff0180; 0x0; 0x0; 0x0; 0x0; 0x202000; 0x0; 0x0;
   0x0; 0x1800; 0x3c00; 0x61e00; 0xe0f00; 0x1c0780; 0x3a81e0; 0x7ffff0;
   0xe2bfe0; 0x1c06180; 0x61c0; 0x61c0; 0xffffe0; 0xffffe0; 0xaaeaf0; 0x6078;
   0x6038; 0x6010; 0x3fffffc; 0x3fffffc; 0x6000; 0x6000; 0x6000; 0x6000;
   0x6000; 0x6000; 0x0; 0x0; 0x0; 0x0; 0x202000; 0x0;
   0x0; 0x0; 0xc01c0; 0xc0188; 0xc01d8; 0xc0198; 0xc01d8; 0xc0bb8;
   0xc1ffc; 0xc0ffc; 0x3fff1cc; 0x3fff18c; 0x3fff1ce; 0xc0180; 0xc11c0; 0xc0f80;
   0xc1ff0; 0xc03fe; 0xc01dc; 0xc0180; 0xc01c0; 0xc0180; 0xc01c0; 0xc0180;
   0x7fffdc0; 0x3fff980; 0x1c0; 0x0; 0x0; 0x0; 0x0; 0x202000;
   0x0; 0x0; 0x0; 0x3000; 0x7000; 0xe000; 0x3fffff8; 0x3fffffc;
   0x3800018; 0x380e11c; 0x380e398; 0xe180; 0xe1c0; 0xffffc0; 0xffffe0; 0xe070;
   0xe038; 0xe030; 0xe000; 0x3fffffc; 0x3fffffc; 0xe000; 0xe000; 0xe000;
   0xe000; 0xe000; 0xe000; 0xe000; 0x0; 0x0; 0x0; 0x0;
   0x202000; 0x0; 0x0; 0x0; 0x401c0; 0xe00c0; 0xc01d8; 0x1c00d8;
   0x1c01d8; 0x2f8; 0x3fffffc; 0x3fffff8; 0xc1cc; 0xc0cc; 0xc1cc; 0xc0ce;
   0xc1c0; 0xc6c0; 0xc7f0; 0xc3fe; 0xc1fc; 0xc0c0; 0xc1c0; 0xc0c0;
   0xc1c0; 0x3ffc0c0; 0x3ffc1c0; 0x2aa80c0; 0x1c0; 0x0; 0x0; 0x0;
   0x0; 0x202000; 0x0; 0x0; 0x0; 0x400c0; 0xe00c0; 0xc00d8;
   0xc00d8; 0x15d50d8; 0x3fffaf8; 0x7fffffc; 0x30ffc; 0x300cc; 0x300cc; 0x15700cc;
   0x1ff80c6; 0x1ff88c0; 0x1838fc0; 0x1c18ff0; 0x18181fe; 0x1c180dc; 0xc180c0; 0x1c1c0c0;
   0xc0c0c0; 0xc0e0c0; 0xc060c0; 0xf470c0; 0xfc38c0; 0x7c10c0; 0x0; 0x0;
   0x0; 0x0; 0x202000; 0x0; 0x0; 0x0; 0x4001c0; 0xf800c8;
   0x7f01d8; 0xfe0d8; 0x7f9dc; 0x30ae8; 0x10707fc; 0x1e307fc; 0x1ffc1cc; 0x1ff8cc;
   0x7f9c6; 0x308c0; 0x707c0; 0x3e30fc0; 0x7ff07f8; 0x3ff8fe; 0x7fddc; 0x308c0;
   0x701c0; 0x20300c0; 0x70701c0; 0x30300c0; 0x3ff01c0; 0x3fe00c0; 0x1fc01c0; 0x0].
Definition hanzi_data_258 : list N :=
  [0x0; 0x0; 0x0; 0x202000; 0x0; 0x0; 0x0; 0x181c0;
   0x18188; 0x1c1d8; 0x1c198; 0x1c1d8; 0x3ffebb8; 0x7ffeffc; 0x2eaeffc; 0xc0f1cc;
   0xe0f98c; 0xe1f9ce; 0x61d984; 0x71ddc0; 0x718f80; 0x338ff0; 0x3b01fe; 0x1f01dc;
   0xe0180; 0x1e01c0; 0x1f0180; 0x7fc1c0; 0xf1e180; 0x1e0f9c0; 0x3803d80; 0x30019c0;
   0x0; 0x0; 0x0; 0x0; 0x202000; 0x0; 0x0; 0x0;
   0x1c1c0; 0x180c0; 0x1c1d8; 0xc0d8; 0x3ffe1d8; 0x3ffe2f8; 0x3fff7fc; 0x36637fc;
   0x37731cc; 0x33338cc; 0x3339dc6; 0x33988c0; 0x319cdc0; 0x398cfc0; 0x39ce7fc; 0x38c60fe;
   0x18e71dc; 0x18638c0; 0x18711c0; 0x18300c0; 0x1c381c0; 0x1c1c0c0; 0x1fce1c0; 0xf860c0;
   0x7c01c0; 0x0; 0x0; 0x0; 0x0; 0x202000; 0x0; 0x0;
   0x0; 0xc6300; 0x3c6380; 0x70e1c0; 0x260e0c0; 0x3ffd0e0; 0x2fffef0; 0x1fefc;
   0x380de; 0x10700cc; 0x30e00c0; 0x3fc00c0; 0x1f820c0; 0x1e06180; 0x61c0; 0xffffc0;
   0xffffe0; 0x6070; 0x6038; 0x1557554; 0x3fffffc; 0x3fffffc; 0x6000; 0x6000;
   0x6000; 0x6000; 0x0; 0x0; 0x0; 0x0; 0x202000; 0x0;
   0x0; 0x0; 0xc01c0; 0xc0180; 0xc01d8; 0xc0198; 0xc01d8; 0xc0bb8;
   0x7fffffc; 0x3fffff8; 0xc01cc; 0xc018c; 0xc01cc; 0xc0186; 0xc01c0; 0xaeaf80;
   0x1ffeff0; 0x1aae3fe; 0x18061fc; 0x1806180; 0x18061c0; 0x1806180; 0x18061c0; 0x1ffe180;
   0x1ffe1c0; 0x1aae180; 0x18061c0; 0x0; 0x0; 0x0; 0x0; 0x202000;
   0x0; 0x0; 0x0; 0xc01c0; 0xc0180; 0xcc1d8; 0xce198; 0xc61d8;
   0xc6bb8; 0x3ffeffc; 0x3ffeff8; 0xc71dc; 0xc318c; 0xc39cc; 0xc198e; 0xc11c0;
   0xc0f80; 0x1fffff0; 0x1fff3fe; 0xc01fc; 0xc0180; 0xc01c0; 0xc0180; 0xc01c0;
   0xc0180; 0x7fff9c0; 0x3fff980; 0x1c0; 0x0; 0x0; 0x0; 0x0;
   0x202000; 0x0; 0x0; 0x0; 0xe000; 0xe000; 0x1fffff8; 0x1fffff8;
   0x1f000; 0x7f800; 0x1f1f00; 0xfc07f8; 0x7001f0; 0x3fffff8; 0x3fffffc; 0x3806088;
   0x38061dc; 0x60c0; 0xffffe0; 0xfffff0; 0x6038; 0x6010; 0x3fffffc; 0x3fffffc;
   0x1557554; 0x6000; 0x6000; 0x6000; 0x6000; 0x0; 0x0; 0x0;
   0x0; 0x202000; 0x0; 0x0; 0x0; 0xc01c0; 0xc00c0; 0xc01d8;
   0x1fff0d8; 0x1fff1d8; 0xc02f8; 0xc07fc; 0xc07f8; 0x7fff9cc; 0x3fff8cc; 0x17551cc;
   0x6000ce; 0x6001c0; 0x3ffffc0; 0x3fffff0; 0x2eaa9fc; 0x6061fc; 0x60e0c0; 0x61c1c0;
   0x6180c0; 0x6381c0; 0x6000c0; 0x7401c0; 0x7e00c0; 0x7e01c0; 0x0; 0x0;
   0x0; 0x0; 0x202000; 0x0; 0x0; 0x0; 0xc0; 0x3fff8c0;
   0x3fffcd8; 0x2bba8d8; 0x1980d8; 0x1982f8; 0x15dd3fc; 0x3fffbfc; 0x3fff8cc; 0x39998cc;
   0x39998cc; 0x39998c6; 0x39998c0; 0x3999ac0; 0x3f9dff0; 0x3f8fbfe; 0x38078fc; 0x38018c0;
   0x38018c0; 0x38018c0; 0x38018c0; 0x3fff8c0; 0x3fff8c0; 0x38018c0; 0x38018c0; 0x0;
   0x0; 0x0; 0x0; 0x202000; 0x0; 0x0; 0x0; 0x4e0e0;
   0x1ce0e8; 0x7ce0fc; 0xf0e0e8; 0xc0e0fc; 0xe2ec; 0x3fffffc; 0x3fffffc; 0xc660ec;
   0xe660ee; 0x7660e6; 0xbe60e0; 0x1de67e0; 0xe663e0; 0x7671fe; 0x13e70fe; 0x1ce70e4;
   0xe630e0; 0x7e38e0; 0x23e38e0; 0x70fdce0; 0x307dce0; 0x3564ee0; 0x3fe0fe0; 0x1fc06e0;
   0x0; 0x0; 0x0; 0x0; 0x202000; 0x0; 0x0; 0x0;
   0xc0; 0x3fff8c0; 0x3fff8d8; 0x380d8; 0x380dc; 0x382e8; 0xfff7fc; 0xfff7fc;
   0xc1c0cc; 0xc180cc; 0xc1c0cc; 0x2eae8ce; 0x7fffcc0; 0x2aaafc0; 0x7f0; 0xaaa0fe;
   0x1fff0fc; 0x1aab0c0; 0x1c030c0; 0x18030c0; 0x1c030c0; 0x18030c0; 0x1fff0c0; 0x1fff0c0;
   0x1c030c0; 0x0; 0x0; 0x0; 0x0; 0x202000; 0x0; 0x0;
   0x0; 0xc01c0; 0xce0c0; 0xce1d8; 0xc60d8; 0x1ffe1d8; 0x1ffe2f8; 0x15d77fc;
   0xc37f8; 0xc39cc; 0xc18cc; 0x7fff9cc; 0x3fff8c6; 0x7fff9c0; 0x6c0; 0x15547f0;
   0x1ffe3fe; 0x1fff1fc; 0x18060c0; 0x1c071c0; 0x18060c0; 0x1c071c0; 0x18060c0; 0x1fff1c0;
   0x1ffe0c0; 0x1c071c0; 0x0; 0x0; 0x0; 0x0; 0x202000; 0x0;
   0x0; 0x0; 0x0; 0xaaaaa0; 0x1fffff0; 0x1800030; 0x1c00070; 0x1800030;
   0x1fffff0; 0x1fffff0; 0x1e18770; 0x719e30; 0x118870; 0x3dbc30; 0xf99ff0; 0x3e083b0;
   0x1018c70; 0x18e30; 0x1ffff30; 0xababb0; 0x181f8; 0x2abaab8; 0x3ffffd8; 0x2abaa9c;
   0x1801c; 0x1800e; 0x18004; 0x0; 0x0; 0x0; 0x0; 0x202000;
   0x0; 0x0; 0x0; 0x1c01c00; 0x1863ff8; 0x1c607fc; 0x1860300; 0x1c65754;
   0x1867ffc; 0x1c67ffc; 0x1860fc0; 0x1c61fe0; 0x1863b70; 0x1c0133c; 0x1f8030c; 0xf06300;
   0x61c0; 0xffffc0; 0xffffe0; 0x557570; 0x6038; 0x1557554; 0x3fffffc; 0x3fffffc;
   0x6000; 0x6000; 0x6000; 0x6000; 0x0; 0x0; 0x0; 0x0;
   0x202000; 0x0; 0x0; 0x0; 0xc00c0; 0xc00c0; 0xc00d8; 0x3fff0d8;
   0x3fff0dc; 0x602e8; 0x1f07fc; 0x7b83fc; 0x1f1f0cc; 0x3c0f8cc; 0x10030cc; 0x3fff8c6;
   0x7fffcc0; 0xc006c0; 0xcff7f0; 0xcfe3fe; 0xcd70fc; 0xcc20c0; 0xcc70c0; 0xcea0c0;
   0xcff0c0; 0xc020c0; 0xc070c0; 0xf800c0; 0xf800c0; 0x0; 0x0; 0x0;
   0x0; 0x202000; 0x0; 0x0; 0x0; 0x6100; 0x6380; 0x5575c0;
   0x7fffc0; 0x7fffe0; 0x6070; 0x6030; 0x1fffff8; 0x1fffffc; 0x6000; 0x186180;
   0x1be1b0; 0x198198; 0x3ff9ff8; 0x3ffdffc; 0x18e18c; 0x18618c; 0x180180; 0x7fffff4;
   0x3fffffc; 0x1801dc; 0x180180; 0x180180; 0x180180; 0x180180; 0x0; 0x0;
   0x0; 0x0; 0x202000; 0x0; 0x0; 0x0; 0x600c0; 0x600c0;
   0x15750d8; 0xfff0d8; 0x1fff0dc; 0x602e8; 0x15757fc; 0x3fffffc; 0x1fff8cc; 0x18800cc].
Definition hanzi_data_259 : list N :=
  [0x1cde0ce; 0xcf80c6; 0xd30c0; 0xc77c0; 0xce7f0; 0xc00fe; 0x3fff8dc; 0x3fff8c0;
   0x1700c0; 0x3b00c0; 0x7380c0; 0xe1e0c0; 0x1c0f0c0; 0x3803cc0; 0x30018c0; 0x0;
   0x0; 0x0; 0x0; 0x202000; 0x0; 0x0; 0x0; 0xc0;
   0xfff0c0; 0x1fff0d8; 0xc030d8; 0x1c030d8; 0xfff2f8; 0x1fff7fc; 0xc037fc; 0x1c030cc;
   0xfff0cc; 0x1fff0cc; 0xc030ce; 0x1d570c0; 0xfff6c0; 0x1fff7f0; 0xc031fe; 0x7fffcfc;
   0x3fffcc0; 0x7fffcc0; 0x30c0c0; 0x78e0c0; 0xe070c0; 0x1c03cc0; 0x3801ec0; 0x10004c0;
   0x0; 0x0; 0x0; 0x0; 0x202000; 0x0; 0x0; 0x0;
   0x1800c0; 0x1800c0; 0x1ff7ed8; 0x1ff7ed8; 0x19870dc; 0x19830c8; 0x7ffb3fc; 0x3ffbbfc;
   0x19818cc; 0x1ba0ccc; 0x1fffecc; 0x18fec6; 0x1860c0; 0x3ff6bc0; 0x3ff6ff0; 0x186cfc;
   0x187cdc; 0x3ffb8c4; 0x3ffb8c0; 0x1838c0; 0x1878c0; 0x18fcc0; 0x7ffcec0; 0x3ff87c0;
   0x15406c0; 0x0; 0x0; 0x0; 0x0; 0x202000; 0x0; 0x0;
   0x0; 0x700e0; 0xe00e8; 0xc00f8; 0x1fff8f8; 0x1fff8fc; 0x1803ae8; 0x1803bfc;
   0x1aabbfc; 0x1fff8ec; 0xaab8ee; 0x38e6; 0x2aab8e0; 0x3fffae0; 0x3befbe0; 0x3367ff8;
   0x33678fe; 0x33678fc; 0x3fff8e0; 0x3fffce0; 0x3366ce0; 0x3366ce0; 0x3366ce0; 0x3366ee0;
   0x3f666e0; 0x1c064e0; 0x0; 0x0; 0x0; 0x0; 0x202000; 0x0;
   0x0; 0x0; 0x700c0; 0x600c0; 0x600d8; 0x3fffcd8; 0x3fffcd8; 0x2f8;
   0xfff7fc; 0xfff3f8; 0xc070cc; 0xc030cc; 0xfff0cc; 0xfff0c6; 0xc0; 0x3fffac0;
   0x3fffff0; 0x3801bfe; 0x3bfdcfc; 0x3bfd8c0; 0x3b0dcc0; 0x3b0d8c0; 0x3bfdcc0; 0x3bfd8c0;
   0x3801cc0; 0x3e018c0; 0x1e01cc0; 0x0; 0x0; 0x0; 0x0; 0x202000;
   0x0; 0x0; 0x0; 0x0; 0xffe7f8; 0xd567f8; 0xc06600; 0xffe7f8;
   0xaea7f8; 0x1fff018; 0x1fff018; 0x1c637fc; 0x1aeb7fc; 0x1fff700; 0xe60600; 0x1ff5750;
   0x3fffbf0; 0x30159d0; 0xe180; 0x1ffffc0; 0x1ffffe0; 0xe070; 0xe020; 0x3fffffc;
   0x3fffffc; 0xe000; 0xe000; 0xe000; 0x0; 0x0; 0x0; 0x0;
   0x202000; 0x0; 0x0; 0x0; 0x160360; 0x3b0360; 0x730770; 0x3ffbff0;
   0x3fffff8; 0x31c238; 0x1fffffe; 0x1fffffc; 0x318734; 0x1ff9ff0; 0x1759770; 0x318230;
   0x3ffbff0; 0x2abaab0; 0x61c0; 0xaaeac0; 0xffffe0; 0x6060; 0x6070; 0x3fffffc;
   0x3fffffc; 0x6000; 0x6000; 0x6000; 0x6000; 0x0; 0x0; 0x0;
   0x0; 0x202000; 0x0; 0x0; 0x0; 0x6000; 0xc6000; 0x1c6000;
   0x386000; 0xf07000; 0xe06000; 0x407000; 0x6000; 0x3fffffc; 0x3fffffc; 0xf000;
   0xf000; 0x1f000; 0x1b800; 0x39800; 0x39c00; 0x71c00; 0xe0e00; 0x1e0700;
   0x1c0380; 0x7c03c0; 0xf001e0; 0x3e0007c; 0x3c0003c; 0x1000018; 0x0; 0x0;
   0x0; 0x0; 0x202000; 0x0; 0x0; 0x0; 0x0; 0x30e0;
   0x79e0; 0x3fc0; 0x1f80; 0xf00; 0xfc0; 0xfe0; 0x1c78; 0x1c3c;
   0x1c1c; 0x1c00; 0x1e00; 0x1f00; 0x1f80; 0x19c0; 0x19f0; 0x1878;
   0x183c; 0x1808; 0x1c00; 0x1c00; 0x1f60; 0xfc0; 0x7c0; 0x0;
   0x0; 0x0; 0x0; 0x202000; 0x0; 0x0; 0x0; 0x608;
   0xe1c; 0x1ffe778; 0x1ffe3f0; 0x1d561e0; 0x18060e0; 0x1c061f0; 0x18061b8; 0x1c0639e;
   0x1806388; 0x1c06300; 0x1806380; 0x1fc63c0; 0xfc63e0; 0x7c6770; 0x6338; 0x671c;
   0x630c; 0x3006304; 0x7006300; 0x7006300; 0x3006380; 0x3ffe1c4; 0x3ffe1f8; 0x1ffc0f8;
   0x0; 0x0; 0x0; 0x0; 0x202000; 0x0; 0x0; 0x0;
   0x1c100; 0x1c318; 0x1c3bc; 0x1c1f0; 0x1c0f0; 0x1c0e0; 0x7ffcf8; 0x3ffcfc;
   0x75d5dc; 0x30c18c; 0x71c1c0; 0x30c1c0; 0x70c1e0; 0x30c1e0; 0x70c1f0; 0x30e1b8;
   0x70619e; 0x30618c; 0x1707180; 0x2303180; 0x77039c0; 0x23039c0; 0x7f01ffc; 0x3f00ef8;
   0x1c00478; 0x0; 0x0; 0x0; 0x0; 0x202000; 0x0; 0x0;
   0x0; 0x0; 0x2aaa618; 0x3fff738; 0x3fff3f0; 0xe01e0; 0xe00e0; 0xe01f0;
   0xe01f8; 0xe01bc; 0xe0398; 0x15f5388; 0x3fffb80; 0x7fffbc0; 0xe03e0; 0xe0370;
   0xe03b8; 0xe031e; 0xe038c; 0xe0384; 0xe0380; 0xe0380; 0xe0180; 0xe01f8;
   0xe00f8; 0xe0070; 0x0; 0x0; 0x0; 0x0; 0x202000; 0x0;
   0x0; 0x0; 0x70180; 0x230180; 0x770180; 0xe30188; 0x1c7019c; 0x183019c;
   0x18701b8; 0x301b0; 0x3fffdf0; 0x3fffda0; 0x70180; 0x70180; 0x70180; 0xf81c0;
   0xf81f0; 0xd81f8; 0x1dc1bc; 0x39c19e; 0x38e18c; 0x70e180; 0xf07180; 0xe03980;
   0x3c03d80; 0x3800f80; 0x1000580; 0x0; 0x0; 0x0; 0x0; 0x202000;
   0x0; 0x0; 0x0; 0x40100; 0xe0308; 0xe03bc; 0xc01b8; 0x3fff1f0;
   0x3fff0e0; 0x15570f0; 0x30f8; 0x31de; 0x318c; 0x31c4; 0x31c0; 0x31e0;
   0x31e0; 0x31f0; 0x39b8; 0x399e; 0x398c; 0x1984; 0x1980; 0x1dc0;
   0xdc0; 0xffc; 0xef8; 0x678; 0x0; 0x0; 0x0; 0x0;
   0x202000; 0x0; 0x0; 0x0; 0x108; 0x31c; 0xfffbbc; 0xfff9b0;
   0x6001f0; 0x6060e0; 0x6070f0; 0x6030f8; 0x6071de; 0x603188; 0x703180; 0x7031c0;
   0x3fff1c0; 0x3fff1e0; 0x38001f0; 0x38001b8; 0x180019c; 0x1bffd8c; 0x1bffd84; 0x1800180;
   0x1c001c0; 0x1c00180; 0x1c401c4; 0xfc00f8; 0x7c0078; 0x0; 0x0; 0x0;
   0x0; 0x202000; 0x0; 0x0; 0x0; 0x18100; 0x318318; 0x7183b8;
   0xe181f0; 0x1c181f0; 0x8180e0; 0x3fffdf0; 0x3fffdfc; 0x3fffddc; 0x18188; 0xdc180;
   0xd83c0; 0xdc3c0; 0xcc3e0; 0xdc3f0; 0xcc3b8; 0xce39c; 0xce38c; 0x10c7180;
   0x30c7180; 0x30c3980; 0x30c3980; 0x3fc1ffc; 0x3fc0ef8; 0x500478; 0x0; 0x0].
Definition hanzi_data_260 : list N :=
  [0x0; 0x0; 0x202000; 0x0; 0x0; 0x0; 0x70108; 0x3831c;
   0x383b8; 0x181f0; 0x39c1f0; 0x70e0e0; 0x70e0f8; 0xe070fc; 0x1c071dc; 0x1ffb980;
   0x3fffd80; 0x398f9c0; 0x119c1e0; 0x18c3e0; 0x18c3f0; 0x18c3b8; 0x18c19c; 0x18e38c;
   0x118e180; 0x3186180; 0x7187180; 0x3183980; 0x3f81dc4; 0x3f80ef8; 0x1f00678; 0x0;
   0x0; 0x0; 0x0; 0x202000; 0x0; 0x0; 0x0; 0x10;
   0x638; 0x3ffff78; 0x3fffbe0; 0x15f51e0; 0xe00e0; 0xe01f0; 0xe03f8; 0xe03bc;
   0xe0398; 0xe0300; 0x2aea380; 0x3fff3c0; 0x3fff3e0; 0xe0770; 0xe0338; 0xe071c;
   0xe0308; 0xe0300; 0xe0300; 0xe0300; 0xe0380; 0x3fffdf8; 0x3fffdf8; 0x70;
   0x0; 0x0; 0x0; 0x0; 0x202000; 0x0; 0x0; 0x0;
   0x108; 0x1fffb1c; 0x1fffbbc; 0x18301b0; 0x1c301f0; 0xc300e0; 0x1c300f0; 0xc380f8;
   0x1c381de; 0xc38188; 0xc18180; 0xfff9c0; 0xfff9c0; 0xc181e0; 0xc1c1f0; 0xe181b8;
   0xe1c19c; 0xe0c18c; 0xe1c184; 0xe0c180; 0x60c1c0; 0x60e180; 0x7fffdc4; 0x3fffcf8;
   0x78; 0x0; 0x0; 0x0; 0x0; 0x202000; 0x0; 0x0;
   0x0; 0x70108; 0x6031c; 0x703b8; 0x601f0; 0x701f0; 0x8630e0; 0x38770f8;
   0x18630fc; 0x1c731dc; 0xc63180; 0xc73980; 0xef39c0; 0x7f1de0; 0x6f1be0; 0x1f03f0;
   0x1b83b8; 0x19819c; 0x39c38c; 0x71c180; 0x60e180; 0xe07180; 0x1c07980; 0x3c03dd4;
   0x3801cf8; 0x1000c78; 0x0; 0x0; 0x0; 0x0; 0x202000; 0x0;
   0x0; 0x0; 0x108; 0x1fff31c; 0x1fff3bc; 0x1aab1b0; 0x1c031f0; 0x18e30e0;
   0x1c630f0; 0x18e30f8; 0x1c631de; 0x18e3188; 0x1c63180; 0x18631c0; 0x1c631c0; 0x18631e0;
   0x1c631f0; 0x18631b8; 0x1c7319c; 0x183318c; 0x15b1184; 0x3b8180; 0x79c1c0; 0xe0e180;
   0x1c07dc4; 0x3803cf8; 0x1000c78; 0x0; 0x0; 0x0; 0x0; 0x202000;
   0x0; 0x0; 0x0; 0x108; 0x31c; 0x3ffffb8; 0x3fff9f0; 0x1c01f0;
   0xe00e0; 0x700f8; 0x700fc; 0x1781dc; 0x3fc180; 0xf7e180; 0xe6f1c0; 0x3c77dc0;
   0x3863fe0; 0x3070df0; 0x601b8; 0x7019c; 0x6018c; 0x70184; 0x60180; 0x70180;
   0x180; 0x7fffdc4; 0x3fffcf8; 0x78; 0x0; 0x0; 0x0; 0x0;
   0x202000; 0x0; 0x0; 0x0; 0x1c108; 0xc31c; 0xc3bc; 0x1ffe1b0;
   0x1fff1f0; 0x18070e0; 0x1c030f0; 0x18038f8; 0x1dffddc; 0x18fef88; 0x1dc7580; 0x18c6180;
   0x1dc71c0; 0x18c61e0; 0x1dff1f0; 0x1cfe1b8; 0x1f8719c; 0xf8618c; 0x507180; 0x1006180;
   0x30071c0; 0x3006180; 0x3fff1c4; 0x1ffe0f8; 0x550078; 0x0; 0x0; 0x0;
   0x0; 0x202000; 0x0; 0x0; 0x0; 0x0; 0x2aaab18; 0x3fffbb8;
   0x3fff9f0; 0x38e39e0; 0x38e38e0; 0x38e39f0; 0x38e39bc; 0x3fff99c; 0x3fff98c; 0x38e3b80;
   0x38e3b80; 0x38e3bc0; 0x38e3be0; 0x3df7bf0; 0x3fffbb8; 0x3fffb9c; 0x38e3b8c; 0xe0380;
   0xe0380; 0xe0180; 0xe0180; 0xe01f8; 0xe00f8; 0xe0070; 0x0; 0x0;
   0x0; 0x0; 0x202000; 0x0; 0x0; 0x0; 0x1c00000; 0x3fe0318;
   0x7ff33c; 0x67f3b8; 0x6731f0; 0x6630e0; 0x6730f0; 0x6631f8; 0x6731dc; 0xe6318c;
   0xc73180; 0xc631c0; 0xc731c0; 0xc23be0; 0xc73bf0; 0xc33bb8; 0x1df199e; 0x19b1b8c;
   0x19b1984; 0x1b39980; 0x3b19d80; 0x3bfcd80; 0x77fcffc; 0x36086f8; 0x1000478; 0x0;
   0x0; 0x0; 0x0; 0x202000; 0x0; 0x0; 0x0; 0x19c108;
   0x18c38c; 0x19c1dc; 0x18c0f8; 0x1fffcf0; 0x1fffc70; 0x199c078; 0x198c0fc; 0x199c0cc;
   0x1fffcc0; 0x1fffcc0; 0x18cce0; 0x19cde0; 0x18ccf0; 0x3fffdf8; 0x3fffed8; 0x35dd5de;
   0x318c0cc; 0x318e1c0; 0x31860c0; 0x3f870c0; 0x1d838c0; 0x181ce0; 0x180efc; 0x18047c;
   0x0; 0x0; 0x0; 0x0; 0x202000; 0x0; 0x0; 0x0;
   0xc108; 0xc31c; 0xe3b8; 0x61f0; 0x3fff1f0; 0x3fff0e0; 0x38038f8; 0x38018fc;
   0x1801ddc; 0x38fff88; 0x19ff580; 0x18c31c0; 0x19c71c0; 0x18c31e0; 0x19c71f0; 0x18c31b8;
   0x19ff19c; 0x18ff18c; 0x1c57180; 0x1803180; 0x1c05180; 0x1c00180; 0x1d401c4; 0xfc00f8;
   0x7c0078; 0x0; 0x0; 0x0; 0x0; 0x202000; 0x0; 0x0;
   0x0; 0x100; 0xaaa318; 0xfff3f8; 0xfff1f0; 0xc071e0; 0xc030e0; 0xc071f0;
   0xc031bc; 0xfff19c; 0xfff38c; 0xc07380; 0xc03380; 0xc073c0; 0xc033e0; 0xc07370;
   0xfff338; 0xfff31c; 0xc0330c; 0xc07300; 0xc03380; 0xc07380; 0xc03180; 0x7fffff8;
   0x3fffef8; 0x70; 0x0; 0x0; 0x0; 0x0; 0x202000; 0x0;
   0x0; 0x0; 0x1c100; 0xc308; 0xc1bc; 0xc1f0; 0xe0f0; 0x3ffe0e0;
   0x3fff0f8; 0x18e30fc; 0x1ce39dc; 0xce398c; 0x4e1dc0; 0xeec1c0; 0xcec1e0; 0xcee1e0;
   0x1ce61f0; 0x18e61b8; 0x18e719c; 0x18e318c; 0x38e3984; 0x38e1980; 0xe1180; 0xe0180;
   0xf41fc; 0xf80f8; 0x78078; 0x0; 0x0; 0x0; 0x0; 0x202000;
   0x0; 0x0; 0x0; 0x70100; 0x60318; 0xe03b8; 0xe01b0; 0x3fffdf0;
   0x3fff8e0; 0x3001cf8; 0x30018fc; 0x3001ddc; 0x200098c; 0x3fffdc0; 0x3fff9c0; 0x3fffde0;
   0xe01e0; 0xe01f0; 0xe01b8; 0xe019c; 0xe018c; 0xe0180; 0xe0180; 0xe0180;
   0xe0180; 0xe01fc; 0x7c0f8; 0x7c078; 0x0; 0x0; 0x0; 0x0;
   0x202000; 0x0; 0x0; 0x0; 0x0; 0xfffb18; 0xfffb3c; 0xc01bb0;
   0xc019f0; 0xc018e0; 0xfff8f0; 0xfff9f8; 0xc019dc; 0xc0198c; 0xc01980; 0xfff9c0;
   0xfff9c0; 0x31be0; 0x1871bf0; 0x3c71bb8; 0x1f6199e; 0x7e1b8c; 0x1c1984; 0x381980;
   0x7c1980; 0xf79980; 0x7e7f9fc; 0x380f8f8; 0x1001878; 0x0; 0x0; 0x0;
   0x0; 0x202000; 0x0; 0x0; 0x0; 0x70100; 0x70318; 0xe03bc;
   0xe01f0; 0x3fffdf0; 0x3fff8e0; 0x40f0; 0x30c0fc; 0x70e1dc; 0xe06188; 0x1c071c0].
Definition hanzi_data_261 : list N :=
  [0x3a039c0; 0x3707de0; 0x30e9e0; 0x30c1f0; 0x39c1b8; 0x1d819c; 0xf818c; 0xf0180;
   0xf0180; 0x1fc180; 0x79e180; 0x1f0f9fc; 0x3e03cf8; 0x1801c78; 0x0; 0x0;
   0x0; 0x0; 0x202000; 0x0; 0x0; 0x0; 0x5c0100; 0xec0318;
   0x1dc03bc; 0x38c01f0; 0x11c01f0; 0x3fffce0; 0x3fffcf8; 0x1800fc; 0x1c61dc; 0x98618c;
   0x19c6180; 0x19861c0; 0x1dbfde0; 0xdbfde0; 0xdbfdf0; 0xf861b8; 0x78619e; 0x78618c;
   0x387184; 0x2383180; 0x67c3180; 0x26e3980; 0x7e71dd4; 0x3c388f8; 0x1c10078; 0x0;
   0x0; 0x0; 0x0; 0x202000; 0x0; 0x0; 0x0; 0x70108;
   0x6031c; 0x603bc; 0x3fff9b0; 0x3fffdf0; 0x30018e0; 0x3101cf0; 0x33818f8; 0x3381dde;
   0x380188; 0x3fffd80; 0x3fff9c0; 0x3fffdc0; 0x3801e0; 0x3871f0; 0x38e1b8; 0x39c19c;
   0x39818c; 0x3b8184; 0x390180; 0x3801c0; 0x380180; 0x3d01c4; 0x3f80f8; 0x1f0078;
   0x0; 0x0; 0x0; 0x0; 0x202000; 0x0; 0x0; 0x0;
   0x60108; 0x6031c; 0x603bc; 0x601b0; 0x601f0; 0x1fff8e0; 0x1fff8f0; 0x1aeb8f8;
   0x1c619de; 0x1861988; 0x1c61980; 0x18619c0; 0x1c619c0; 0x1aeb9e0; 0x1fff9f0; 0xaea9b8;
   0x46019c; 0xe6018c; 0x1c60184; 0x1c60180; 0x1d601c0; 0x3ffe180; 0x3fffdc4; 0x300fcf8;
   0x1000078; 0x0; 0x0; 0x0; 0x0; 0x202000; 0x0; 0x0;
   0x0; 0x60108; 0x6031c; 0x603b8; 0x601f0; 0x3fff9f0; 0x3fff8e0; 0x4600f8;
   0x1c630fc; 0x1c671dc; 0xc66180; 0x666180; 0x6661c0; 0x4761e0; 0x3ffffe0; 0x3fffff0;
   0xf03b8; 0xf019c; 0xf838c; 0x1dc180; 0x39c180; 0x70e180; 0xe07180; 0x3c03dc4;
   0x3801ef8; 0x1000478; 0x0; 0x0; 0x0; 0x0; 0x202000; 0x0;
   0x0; 0x0; 0x4080; 0x618c; 0x3ff61dc; 0x3ff60f8; 0x306670; 0x306670;
   0x1756678; 0x3ff66fc; 0x3ff66cc; 0x3b366c4; 0x3b366c0; 0x3b366e0; 0x3b366e0; 0x3b366f0;
   0x3b376f8; 0x3b326d8; 0x3b374de; 0x3b330cc; 0x3b330c4; 0x3f338c0; 0x1f31cc0; 0x320ce0;
   0x300efc; 0x300778; 0x300238; 0x0; 0x0; 0x0; 0x0; 0x202000;
   0x0; 0x0; 0x0; 0x60100; 0x60318; 0xf03bc; 0xf83f0; 0x1dc1f0;
   0x39c0e0; 0x70f1f8; 0x1e079fc; 0x7c03ddc; 0x3fffd8c; 0x7fed80; 0x3c0; 0x3c0;
   0x3e0; 0x1fffbf0; 0x1fffbb8; 0x1839c; 0x21c38c; 0x71c180; 0x60e180; 0xe07180;
   0xffb180; 0x1fffdfc; 0x380f8f8; 0x1800078; 0x0; 0x0; 0x0; 0x0;
   0x202000; 0x0; 0x0; 0x0; 0x1c100; 0xc318; 0x3fe3bc; 0x3fe1f0;
   0x3d70f0; 0x3838e0; 0x1c1cf8; 0xfffefc; 0x1fffdde; 0xc3058c; 0x1c701c0; 0xc301c0;
   0x7fffde0; 0x3fffde0; 0x1c701f0; 0xc301b8; 0x1fff99e; 0xfff98c; 0x1d75184; 0x830180;
   0x701c0; 0x301c0; 0x701fc; 0x3e0f8; 0x3e078; 0x0; 0x0; 0x0;
   0x0; 0x202000; 0x0; 0x0; 0x0; 0x100000; 0x30098c; 0x1f01ddc;
   0x1b038f8; 0x3b070f0; 0x3306070; 0x1302078; 0x3ff00fc; 0x3ff14cc; 0x2ba3ec4; 0x303ec0;
   0x3830e0; 0x7831e0; 0x7830f0; 0x7831f8; 0x7830f8; 0x7c31de; 0xec30cc; 0xddf0c4;
   0xcdf0c0; 0x1cef0c0; 0x38638c0; 0x38710fc; 0x3038078; 0x1010038; 0x0; 0x0;
   0x0; 0x0; 0x202000; 0x0; 0x0; 0x0; 0x300088; 0x30018c;
   0x31ffd8; 0x30fef8; 0x30c070; 0x306070; 0xf67078; 0xb630fc; 0x1b638cc; 0x1b618c0;
   0x1b618c0; 0x3b258e0; 0x33778f0; 0x3333ef0; 0x3331ff8; 0x3339ad8; 0x73198de; 0x63198cc;
   0x3118c4; 0x3018c0; 0x3018c0; 0x3018e0; 0x341874; 0x3e1e78; 0x1e1e38; 0x0;
   0x0; 0x0; 0x0; 0x202000; 0x0; 0x0; 0x0; 0x60000;
   0x70308; 0x7019c; 0xf81f0; 0x1dc0f0; 0x38e060; 0x7070f8; 0x1e03cfc; 0x7ffffdc;
   0x37ff784; 0x5751c0; 0x601c0; 0x701e0; 0x2aeabe0; 0x3fffff0; 0x2aeabb8; 0x47119c;
   0x66398c; 0xe71984; 0x1c61980; 0x1871dc0; 0x3860ec0; 0x30706fc; 0x3e0f8; 0x3e078;
   0x0; 0x0; 0x0; 0x0; 0x202000; 0x0; 0x0; 0x0;
   0x1c1908; 0x81b1c; 0x11c1bbc; 0x38819b0; 0x1fff9f0; 0xfbf8e0; 0x1c18f0; 0x818f8;
   0x11c19dc; 0x30a1988; 0x35ff980; 0x3f8f9c0; 0x1fd3dc0; 0x601e0; 0x701f0; 0x601b8;
   0x1fffd9c; 0x1fff98c; 0x1575584; 0x60180; 0x701c0; 0x60180; 0x7ffffc4; 0x3fffef8;
   0x78; 0x0; 0x0; 0x0; 0x0; 0x202000; 0x0; 0x0;
   0x0; 0x108; 0x1ffe31c; 0x1fff3b8; 0x1c061f0; 0x1c071f0; 0x1c060e0; 0x1fff0f8;
   0x1ffe1fc; 0x1dc; 0x180; 0x1fff180; 0x1fff1c0; 0x18031c0; 0x18033e0; 0x1fff3f0;
   0x1fff3b8; 0x180319c; 0x180338c; 0x1fff180; 0x1fff180; 0x1803180; 0x1803180; 0x18031c4;
   0x1f030f8; 0x1f03078; 0x0; 0x0; 0x0; 0x0; 0x202000; 0x0;
   0x0; 0x0; 0x108; 0xaaab1c; 0x1fffbbc; 0x1fff9b0; 0x18619f0; 0x18618e0;
   0x1d758f0; 0x1fff8f8; 0x1fff9dc; 0x1861988; 0x1861980; 0x18619c0; 0x1fff9c0; 0x1fff9e0;
   0x601f0; 0x601b8; 0x1fff99c; 0x3fff98c; 0x1fff984; 0x60180; 0x601c0; 0x60180;
   0x7ffffc4; 0x3fffef8; 0x78; 0x0; 0x0; 0x0; 0x0; 0x202000;
   0x0; 0x0; 0x0; 0x30100; 0x30318; 0x703b8; 0xe01f0; 0x3fffdf0;
   0x3fffce0; 0x3fffcf8; 0xfc; 0x1fff1dc; 0xfff188; 0x180; 0x1c0; 0x1fff1c0;
   0xfff1e0; 0x1f0; 0x1b8; 0x1fff99c; 0xfff988; 0x1c03980; 0xc03980; 0x1c03980;
   0xc03980; 0x1fff9f8; 0xfff8f8; 0x1c03878; 0x0; 0x0; 0x0; 0x0;
   0x202000; 0x0; 0x0; 0x0; 0x70108; 0x13831c; 0x39c3bc; 0x70e1b0;
   0xe071f0; 0x1fff8e0; 0x3fff8f0; 0x19038f8; 0x79c1de; 0xf0e188; 0x1c07180; 0x38139c0;
   0x3039dc0; 0x1c9e0; 0x1ffe1f0; 0xfff1b8; 0x60799c; 0x70ff8c; 0x39cd84; 0x1f8180;
   0xf01c0; 0x3fc180; 0x1f9fdc4; 0x3e03ef8; 0x3000678; 0x0; 0x0; 0x0].
Definition hanzi_data_262 : list N :=
  [0x0; 0x202000; 0x0; 0x0; 0x0; 0x70108; 0x6031c; 0x603bc;
   0xfff1b0; 0x1fff1f0; 0xc030e0; 0x1c030f0; 0xc030f8; 0x1fff1de; 0xfff188; 0x1c03180;
   0xc031c0; 0x1fff1c0; 0xfff1e0; 0x1fff1f0; 0x18631b8; 0x3ce319c; 0xec318c; 0x7c3184;
   0x383180; 0x7031c0; 0xe3b980; 0x7c7f9c4; 0x380f8f8; 0x1878; 0x0; 0x0;
   0x0; 0x0; 0x202000; 0x0; 0x0; 0x0; 0x1810000; 0x3838388;
   0x383fd9c; 0x3987df8; 0x39864f0; 0x3986070; 0x39860f8; 0x39860fc; 0x39bfddc; 0x39bfd8c;
   0x39871c0; 0x398f1c0; 0x399f1e0; 0x39bf9e0; 0x39f79f0; 0x39a79b8; 0x3986d9c; 0x3986f8c;
   0x3986784; 0x3806580; 0x38061c0; 0x38060c0; 0x38060fc; 0x3e060f8; 0x1e06078; 0x0;
   0x0; 0x0; 0x0; 0x202000; 0x0; 0x0; 0x0; 0x60100;
   0x70318; 0x701bc; 0xf81f0; 0x1dc0f0; 0x38e0f0; 0x7070f8; 0x1e038dc; 0x7fffdce;
   0x3bfef84; 0x21545c0; 0x1c0; 0x18311e0; 0x18219e0; 0x1c731f0; 0xc631b8; 0x66319e;
   0x66318c; 0x767184; 0x302180; 0x3001c0; 0x1801c0; 0x3fffdfc; 0x3fffcf8; 0x78;
   0x0; 0x0; 0x0; 0x0; 0x202000; 0x0; 0x0; 0x0;
   0x70100; 0x60308; 0x601bc; 0x3fffdf0; 0x3fffcf0; 0xe0; 0xf8; 0x1fff0fc;
   0x1fff1dc; 0x180318c; 0x1c031c0; 0x18031c0; 0x1c031e0; 0x1fff1e0; 0x1fff1f0; 0x601b8;
   0x46719c; 0xe6318c; 0x1c63184; 0x1863980; 0x1861d80; 0x3860f80; 0x30745fc; 0x7c0f8;
   0x3c078; 0x0; 0x0; 0x0; 0x0; 0x202000; 0x0; 0x0;
   0x0; 0x70100; 0x60308; 0x3ff01bc; 0x3fe01f0; 0x700f0; 0xaea8e0; 0x3fff8f8;
   0x3aab8fc; 0x38719dc; 0x1fe198c; 0x7ff9c0; 0x106f9c0; 0x30719e0; 0x3fe19e0; 0x1fc19f0;
   0x19b8; 0x3f999c; 0x3b998c; 0x319d84; 0x318d80; 0x7318d80; 0x2318d80; 0x731effc;
   0x3f0f6f8; 0x1e07478; 0x0; 0x0; 0x0; 0x0; 0x202000; 0x0;
   0x0; 0x0; 0x10100; 0x38308; 0x1fdf3bc; 0x1f879b0; 0x18038f0; 0x18038e0;
   0x18038f0; 0x1fbf8fc; 0x1fff9dc; 0x180398c; 0x1803980; 0x18039c0; 0x1d579e0; 0x1fff9e0;
   0x1fff9f0; 0x18c1b8; 0x1dc19c; 0x18c18c; 0x1cc180; 0x18e180; 0x71c7180; 0x2183980;
   0x75c3dfc; 0x3f80ff8; 0x1f00678; 0x0; 0x0; 0x0; 0x0; 0x202000;
   0x0; 0x0; 0x0; 0x71c100; 0x30c318; 0x71c3bc; 0x2bae9f0; 0x3fff8f0;
   0x3fff8e0; 0x71c0f8; 0x30c0fc; 0x71c1dc; 0x3fff98c; 0x7fffdc0; 0x1c0; 0x1c0;
   0xfff1e0; 0x1fff1f0; 0xc031b8; 0x1c0719c; 0xfff18c; 0x1fff180; 0xc03180; 0x1c07180;
   0xc03180; 0x1fff1fc; 0xfff0f8; 0x1c07078; 0x0; 0x0; 0x0; 0x0;
   0x202000; 0x0; 0x0; 0x0; 0x100; 0xfffb18; 0x1fffb3c; 0xc61bb8;
   0x1c619f0; 0xc618e0; 0x1fff8f0; 0xeeb8f8; 0x1c619dc; 0xc6198c; 0x1fff9c0; 0xfff9c0;
   0x601e0; 0x601e0; 0x3fffdf0; 0x3fffdb8; 0x1f819e; 0x3f818c; 0x76c184; 0xe66180;
   0x1e679c0; 0x3863dc0; 0x3861ffc; 0x604f8; 0x60078; 0x0; 0x0; 0x0;
   0x0; 0x202000; 0x0; 0x0; 0x0; 0xc0000; 0xe7f8c; 0x67fdc;
   0x660f8; 0x3fe6070; 0x3fe6030; 0x1876078; 0x1b37e7c; 0x131fe6e; 0x3186e4; 0x3006c0;
   0xf606e0; 0x1f706f0; 0x1b37ef0; 0x1b37ef8; 0x1b360dc; 0x33370dc; 0x333e0cc; 0x331f0c0;
   0x331b0c0; 0x33170c0; 0x3030e0; 0x303f7c; 0x3e3e78; 0x1e1e18; 0x0; 0x0;
   0x0; 0x0; 0x202000; 0x0; 0x0; 0x0; 0x108; 0xfff31c;
   0x1fff3bc; 0xc031b0; 0x1c031f0; 0xfff0e0; 0x1fff0f0; 0xc030f8; 0x1c031de; 0xfff188;
   0x1fff180; 0x1c0; 0x1c0; 0x3fff9e0; 0x3fff9f0; 0x38019b8; 0x380199c; 0x3fff98c;
   0x3fff984; 0x3801980; 0x3801980; 0x3801980; 0x3fff9c4; 0x3fff8f8; 0x3801878; 0x0;
   0x0; 0x0; 0x0; 0x202000; 0x0; 0x0; 0x0; 0xe0100;
   0xe0318; 0x601bc; 0x1fff9f0; 0x1fff8f0; 0x700e0; 0x1f00f8; 0x7b80fc; 0x1f1f1dc;
   0x1c0fd8c; 0x10019c0; 0x3fffdc0; 0x7fffde0; 0xc001e0; 0xc551f0; 0xc7f1b8; 0xc7719c;
   0xc6318c; 0xc63180; 0xc6b180; 0xc7f180; 0xc2b180; 0xc031fc; 0xf800f8; 0x780078;
   0x0; 0x0; 0x0; 0x0; 0x202000; 0x0; 0x0; 0x0;
   0x108; 0xfffb8c; 0xfff9dc; 0x3800f8; 0x1c00f0; 0xe0070; 0x15754f8; 0x3fffedc;
   0x3fffecc; 0x600c0; 0x601c0; 0x601c0; 0x7c1e0; 0x3c1e0; 0x1fffdf0; 0xfffdb8;
   0x1ddddde; 0x888d8c; 0x1cdddc0; 0x888cc0; 0x1cdddc0; 0x888cc0; 0x7ffffc0; 0x3fffff8;
   0x555557c; 0x0; 0x0; 0x0; 0x0; 0x202000; 0x0; 0x0;
   0x0; 0x60108; 0x6031c; 0x1fffbb8; 0x1fff9f0; 0x601f0; 0x1fff8e0; 0x1fff8f8;
   0x600fc; 0x3fffddc; 0x3fffd80; 0x180; 0xaaa1c0; 0x1fff1c0; 0xc031e0; 0x1c071f0;
   0xfff1b8; 0x1fff19c; 0xc0318c; 0x1fff184; 0xfff180; 0x1c07180; 0xc03180; 0x1d071c4;
   0xf830f8; 0x707078; 0x0; 0x0; 0x0; 0x0; 0x202000; 0x0;
   0x0; 0x0; 0x70100; 0x70318; 0x603bc; 0x3fffdf0; 0x3fffcf0; 0x2aaa8e0;
   0x70e0f8; 0x3060fc; 0x3071de; 0x387184; 0x78f1c0; 0xfdf9c0; 0x3cf9de0; 0x18c0de0;
   0x701f0; 0x601b8; 0x7ffff9e; 0x3ffff8c; 0x7fffd84; 0x60180; 0x701c0; 0x601c0;
   0x701fc; 0x600f8; 0x70078; 0x0; 0x0; 0x0; 0x0; 0x202000;
   0x0; 0x0; 0x0; 0x70108; 0x7039c; 0xf83bc; 0x1dc1f0; 0x39e0f0;
   0xf0f0f0; 0x1f57cf8; 0x7fffefc; 0x37fe7dc; 0x60180; 0x701c0; 0x3fffdc0; 0x3fffde0;
   0x601e0; 0x701f0; 0x601b8; 0x1fff19e; 0xfff18c; 0x1c03180; 0xc03180; 0x1c031c0;
   0xc031c0; 0x1fff1c0; 0xfff0f8; 0x1c03078; 0x0; 0x0; 0x0; 0x0;
   0x202000; 0x0; 0x0; 0x0; 0x108; 0x3fffb1c; 0x3fffbbc; 0x3b319b0;
   0x3b319f0; 0x3b318e0; 0x3b318f0; 0x3bbb8f8; 0x3fff9dc; 0x2aba988; 0x1c180; 0x1c1c0].
Definition hanzi_data_263 : list N :=
  [0x3ffe1c0; 0x1ffe1e0; 0x1c071f0; 0xe0b9b8; 0xe3dd9c; 0x77098c; 0x3e0184; 0x1e0180;
   0xf01c0; 0x3c180; 0x1f1c4; 0x7cf8; 0x1878; 0x0; 0x0; 0x0;
   0x0; 0x202000; 0x0; 0x0; 0x0; 0x7000; 0x3fc318c; 0x3fc71dc;
   0x38c30f8; 0x39c70f0; 0x38eba70; 0x39ffe78; 0x3affefc; 0x3fc70dc; 0x3ac30c4; 0x39c70c0;
   0x38c30c0; 0x39dfde0; 0x38dfcf0; 0x3fd8df0; 0x3fd8cd8; 0x38d8dde; 0x38d8ccc; 0x38d8dc4;
   0x38dacc0; 0x38dfcc0; 0x387fcc0; 0x3860cfc; 0x3e70878; 0x1e30018; 0x0; 0x0;
   0x0; 0x0; 0x202000; 0x0; 0x0; 0x0; 0x100; 0x1fffb18;
   0x1fffbb8; 0x18639f0; 0x18639f0; 0x1fff8e0; 0x1fff9f0; 0x18639f8; 0x18639dc; 0x1aeb988;
   0x1fff980; 0xaaabc0; 0x1c0; 0x3ffffe0; 0x7fffff0; 0x633b8; 0x10c719c; 0x3cc3388;
   0x1fc7180; 0x783180; 0x707180; 0xf63180; 0x1e7f1fc; 0x3c3f8f8; 0x3003050; 0x0;
   0x0; 0x0; 0x0; 0x202000; 0x0; 0x0; 0x0; 0x108;
   0x1fffb9c; 0x1fffbbc; 0x18019f0; 0x1c018f0; 0x1fff8f0; 0x1fff8f8; 0x18018fc; 0x1c019dc;
   0x1fff980; 0x1fff9c0; 0x631c0; 0x631e0; 0x2aeb9e0; 0x3fffdf0; 0x2aeadb8; 0x60f9e;
   0x6078c; 0x1fff980; 0x1fff980; 0x601c0; 0x601c0; 0x7ffffc0; 0x3fffef8; 0x1555478;
   0x0; 0x0; 0x0; 0x0; 0x202000; 0x0; 0x0; 0x0;
   0x30108; 0x303031c; 0x38303b8; 0x1bff9f0; 0x1fff8e0; 0xe300f0; 0x7300f8; 0x3b00fc;
   0x7fffddc; 0x3fffd84; 0x701c0; 0x381c0; 0x155e1e0; 0x1fff1e0; 0x1fffdf0; 0x180ffb8;
   0x1c0e59e; 0x1ffe18c; 0x1ffe184; 0x180e180; 0x1c0e180; 0x180e180; 0x1ffe1fc; 0x1ffe0f8;
   0x1c0e078; 0x0; 0x0; 0x0; 0x0; 0x202000; 0x0; 0x0;
   0x0; 0x70e100; 0x30e318; 0x70e3bc; 0x30e1f0; 0x3fffdf0; 0x3fffce0; 0x70e0f8;
   0x30e0fc; 0x70e1dc; 0x20a180; 0x1fff9c0; 0x1fff9c0; 0x1d759e0; 0x18619e0; 0x18619f0;
   0x18619b8; 0x1fff99e; 0x1fff98c; 0x1861980; 0x1861980; 0x1861980; 0x1aeb980; 0x1fff9fc;
   0x1aab8f8; 0x1801878; 0x0; 0x0; 0x0; 0x0; 0x202000; 0x0;
   0x0; 0x0; 0x100; 0x1fffb18; 0x1fffbb8; 0x18619f0; 0x18619f0; 0x1fff8e0;
   0x1fff8f8; 0x18618fc; 0x1d759dc; 0x1fff988; 0x15551c0; 0x1c0; 0x1fff1c0; 0xeab1e0;
   0x1c031f0; 0xfff1b8; 0x1fff19c; 0xc0318c; 0x1d57180; 0xfff180; 0x1d57180; 0xc03180;
   0x1c031fc; 0xf830f8; 0x783078; 0x0; 0x0; 0x0; 0x0; 0x202000;
   0x0; 0x0; 0x0; 0x180380; 0x980380; 0xd80380; 0x1987ffc; 0x1987ffc;
   0x3980380; 0x1180380; 0x2baaba8; 0x3fffffc; 0x3ffe00c; 0x386c7c; 0x3864cc; 0x3866dc;
   0x386aac; 0x7c7ffc; 0x786bac; 0x7c631c; 0x6c6bac; 0xec7ffc; 0xce630c; 0x1c6631c;
   0x187630c; 0x383731c; 0x303fb0c; 0x101381c; 0x0; 0x0; 0x0; 0x0;
   0x202000; 0x0; 0x0; 0x0; 0x70108; 0x1861b9c; 0x18719dc; 0x18619f0;
   0x18718f0; 0x1861870; 0x1fff8f8; 0x1fff8dc; 0x1cc; 0xc0; 0x3fffdc0; 0x3fffdc0;
   0x701e0; 0x301e0; 0x3fffdf0; 0x3fff9b8; 0x3999dde; 0x399998c; 0x3999dc0; 0x3999980;
   0x3999dc0; 0x39998c0; 0x3999cc4; 0x3f998f8; 0x1d99c78; 0x0; 0x0; 0x0;
   0x0; 0x202000; 0x0; 0x0; 0x0; 0x7000; 0x2aa318c; 0x3fffddc;
   0x3bbfcf8; 0x3b070f0; 0x3983070; 0x199fc78; 0x199fcfc; 0x19870cc; 0x18cbac4; 0x18dfec0;
   0x1fe30c0; 0x1e771e0; 0x230f0; 0x701f0; 0x300d8; 0x3ffffde; 0x3fffecc; 0x780c4;
   0xf80c0; 0x1dc0c0; 0x38e0c0; 0x1f07cf4; 0x3e03f78; 0x1800638; 0x0; 0x0;
   0x0; 0x0; 0x202000; 0x0; 0x0; 0x0; 0x100; 0xfff318;
   0x1fff3bc; 0x7001b0; 0x3dc1f0; 0xf80e0; 0x15f54f8; 0x3fffcfc; 0x3df55dc; 0x18d818c;
   0x1cde180; 0xcc71c0; 0xfbde0; 0x789e0; 0x601f0; 0x601b8; 0x3fffd9e; 0x3fffd8c;
   0x1fc184; 0x3ee180; 0xf67180; 0x1e63980; 0x7c61fd4; 0x3060cf8; 0x60078; 0x0;
   0x0; 0x0; 0x0; 0x202000; 0x0; 0x0; 0x0; 0x6000;
   0xff618c; 0xff71dc; 0xc030f8; 0xc030f0; 0xc03870; 0x7ffdc78; 0x3ffdcfc; 0x1555edc;
   0x31fc4; 0x31bc0; 0x1ff98c0; 0x1ff99e0; 0x18d8f0; 0x18d9f0; 0x1898d8; 0x3ffd9de;
   0x3ffd8cc; 0x3c19c4; 0x3c18c0; 0x6e18c0; 0xe618c0; 0x1c798fc; 0x383d878; 0x300d818;
   0x0; 0x0; 0x0; 0x0; 0x202000; 0x0; 0x0; 0x0;
   0x183830; 0xd81870; 0xd81c60; 0x1980ce0; 0x198fffc; 0x318fffc; 0x11806c0; 0x3ff86c0;
   0x7fffffc; 0x2bafff8; 0x3866dc; 0x3866c8; 0x3866dc; 0x387e68; 0x7c7c7c; 0x6c6038;
   0x6c601c; 0x6c7ff8; 0xce7ffc; 0xc66008; 0x1c7601c; 0x1837ff8; 0x383fffc; 0x301e008;
   0x300801c; 0x0; 0x0; 0x0; 0x0; 0x202000; 0x0; 0x0;
   0x0; 0x108; 0x3fffb9c; 0x3fffbb8; 0x38e19f0; 0x38e19f0; 0x38e18e0; 0x3df58f0;
   0x3fff8f8; 0x3fff9de; 0x19c4; 0x1ffd9c0; 0x1ffd9c0; 0x180d9e0; 0x180d9e0; 0x1ffd9f0;
   0x1ffd9b8; 0x180d99c; 0x180d98c; 0x1ffddc0; 0x1ffcd80; 0x180cdc0; 0x180cec0; 0x1ffc6fc;
   0x1ffc7f8; 0x180c678; 0x0; 0x0; 0x0; 0x0; 0x202000; 0x0;
   0x0; 0x0; 0x70108; 0x6030c; 0x703bc; 0x3fffdb0; 0x3fffdf0; 0x2bfa8e0;
   0x3fc0f0; 0x76e0f8; 0x1e771de; 0x3c63d88; 0x7871fc0; 0x2aaa5c0; 0xfff1c0; 0xeab1e0;
   0xc031f0; 0xfff1b8; 0xfff19c; 0xc0318c; 0xd57184; 0xfff180; 0x5551c0; 0x1c0;
   0x3ffffc4; 0x3fffef8; 0x78; 0x0; 0x0; 0x0; 0x0; 0x202000;
   0x0; 0x0; 0x0; 0x1000000; 0x1fe0318; 0x1fffdb8; 0x83f9f0; 0x18710f0;
   0x1863860; 0x1c630f0; 0xe660f8; 0x6061dc; 0x3ffe084; 0x3fff1c0; 0x639c0; 0x61de0;
   0x609e0; 0x7fffdf0; 0x3fffdb8; 0x6019e; 0x186098c; 0x1861984; 0x1861980; 0x18619c0;
   0x18618c0; 0x1fff8f4; 0x1fff8f8; 0x1800078; 0x0; 0x0; 0x0; 0x0].
Definition hanzi_data_264 : list N :=
  [0x202000; 0x0; 0x0; 0x0; 0x0; 0xfff308; 0xfff31c; 0xe033b8;
   0xe7f1f0; 0xe7f0e0; 0xe630f0; 0xe630f8; 0x3ffffdc; 0x3fffecc; 0x3000fc0; 0x3000fc0;
   0x3ffffe0; 0xfff1e0; 0xc031f0; 0xfff1b8; 0xfff1dc; 0xc0318c; 0xd571c4; 0xfff1c0;
   0xd571c0; 0xc030c0; 0xc030fc; 0xf830f8; 0x783018; 0x0; 0x0; 0x0;
   0x0; 0x202000; 0x0; 0x0; 0x0; 0x70108; 0x6039c; 0x1fffbbc;
   0x1fff9f0; 0x700f0; 0x600f0; 0x3fffcf8; 0x3fffcfc; 0x1dc; 0x1fff980; 0x1fff9c0;
   0x1c039c0; 0x1c039e0; 0x1eab9e0; 0x1fff9f0; 0x781b8; 0x38dc19e; 0x3ccf18c; 0x1fc7f80;
   0x387f80; 0x7065c0; 0xe661c0; 0x1e7e1c0; 0x383f0f8; 0x3007078; 0x0; 0x0;
   0x0; 0x0; 0x202000; 0x0; 0x0; 0x0; 0x70100; 0x60318;
   0x1fffbbc; 0x1fff9b0; 0x7061f0; 0x30c0e0; 0x30c0f0; 0x3fffdfc; 0x3fffddc; 0x18c;
   0xfff980; 0xfff9c0; 0xc039e0; 0xfffbe0; 0xfffbf0; 0xc03bb8; 0xfff99c; 0xfffb8c;
   0x1dc180; 0x18c180; 0x31cc180; 0x318e180; 0x35c7dfc; 0x3f83ef8; 0x1f00e10; 0x0;
   0x0; 0x0; 0x0; 0x202000; 0x0; 0x0; 0x0; 0x30108;
   0x7031c; 0x3ffffb8; 0x3fff9f0; 0x7060e0; 0x30e0f0; 0x7fffcf8; 0x3fffcfc; 0x15555dc;
   0xaaa984; 0x1fff9c0; 0xc039c0; 0x1d579e0; 0xfff9e0; 0x1c039f0; 0xc039b8; 0x1fff99e;
   0x6018c; 0x60184; 0x3fffd80; 0x7fffd80; 0x60180; 0x601fc; 0x600f8; 0x60078;
   0x0; 0x0; 0x0; 0x0; 0x202000; 0x0; 0x0; 0x0;
   0x60180; 0x60180; 0x73ffc; 0x3ff2ba8; 0x3ff9ff8; 0xc19ff8; 0xc1c180; 0xe2eba8;
   0x7f7ffc; 0x3e00c0; 0x7c1fe0; 0xee1fe0; 0x1c7d870; 0x383dcb8; 0x10e4f1c; 0x3e6008;
   0x307000; 0x3fffffc; 0x3fffffc; 0xf800; 0x39c00; 0xf0f00; 0x7e07f0; 0x3f801fc;
   0x3c0007c; 0x0; 0x0; 0x0; 0x0; 0x202000; 0x0; 0x0;
   0x0; 0x40; 0x3fffccc; 0x3fffcdc; 0x2aaacf8; 0x767c70; 0x266c30; 0x366c78;
   0x326c6c; 0x7f7fc6e; 0x3fffc60; 0x3318c60; 0x2d4bce0; 0x35dbcf0; 0x37cbef0; 0x165bed8;
   0xe4bedc; 0xe5f6ce; 0xe7f6e4; 0xe5d6c0; 0xa0c6e0; 0x1b0c760; 0x1b8e360; 0x3187360;
   0x70c33fc; 0x20c213c; 0x0; 0x0; 0x0; 0x0; 0x202000; 0x0;
   0x0; 0x0; 0x70108; 0x3038c; 0x381dc; 0x3fffcf8; 0x3fffcf0; 0x119c870;
   0x3b8dcf8; 0xf0f8dc; 0x7070cc; 0xfff8c0; 0x7fffdc0; 0x3e03ec0; 0xfff5e0; 0xfff1f0;
   0xe031f8; 0xeab1b8; 0xfff1de; 0x601cc; 0x6771c0; 0xe630c0; 0x1c739c0; 0x1861cc0;
   0x3870ec0; 0x107c4f8; 0x7c078; 0x0; 0x0; 0x0; 0x0; 0x202000;
   0x0; 0x0; 0x0; 0x1800; 0x3fe188c; 0x3fefcdc; 0x330fcf8; 0x330ce70;
   0x318e630; 0x3187778; 0x3adff7c; 0x1cffe6e; 0x5b664; 0x79b6e0; 0x69b6e0; 0x3fdfef0;
   0x3fdbef0; 0x17db6f8; 0x67b6dc; 0x65f6ce; 0x3fdfec4; 0x7fdfec0; 0x61b2e0; 0x61b760;
   0x61b360; 0x61b374; 0x61f3bc; 0x61c11c; 0x0; 0x0; 0x0; 0x0;
   0x202000; 0x0; 0x0; 0x0; 0x303088; 0x1830cc; 0x1f830dc; 0x1f9fef8;
   0x1cdff70; 0xce3038; 0xc6307c; 0x3feba6e; 0x3fdfe64; 0x30db2e0; 0x36db6c0; 0x36db2e0;
   0x36db6f0; 0x36dfef0; 0x36dfef8; 0x32c38dc; 0x37c7cce; 0x32cfccc; 0x33df6c4; 0x31b6e0;
   0xf037e0; 0x1d833e0; 0x39c3174; 0x30f3078; 0x106303c; 0x0; 0x0; 0x0;
   0x0; 0x202000; 0x0; 0x0; 0x0; 0xc00000; 0x1ffeb88; 0x5ffddc;
   0x600f8; 0x3fffef0; 0x3fffef0; 0x700f8; 0x1fff8fc; 0x1fff9dc; 0x1a6798c; 0x1b6d9c0;
   0x19e99c0; 0x1fff9e0; 0x1fff9e0; 0x15751f0; 0x3fff9b8; 0x157559c; 0x6018c; 0x7ffff84;
   0x3ffff80; 0xecd9c0; 0x1ccccc0; 0x39dccfc; 0x31986f8; 0x7198658; 0x0; 0x0;
   0x0; 0x0; 0x202000; 0x0; 0x0; 0x0; 0x30c000; 0x30c388;
   0x3fffd9c; 0x3fffdf0; 0x30c0f0; 0x30c0e0; 0x3fffcf8; 0x3fffcfc; 0x3001ddc; 0x37fed84;
   0x5541c0; 0x1c0; 0x3fffde0; 0x381e0; 0x1c1f1f0; 0x1e33db8; 0x7f9d9c; 0x7ee18c;
   0x6e7d84; 0xef8d80; 0x1cde1c0; 0x38c78c0; 0x78c1ffc; 0x20fc6f8; 0x7c078; 0x0;
   0x0; 0x0; 0x0; 0x202000; 0x0; 0x0; 0x0; 0x30c000;
   0x30c398; 0x3fffdbc; 0x3fffdf8; 0x30c0f0; 0x2080f0; 0x1fff8f8; 0x1ab98fc; 0x19f99de;
   0x1fbf984; 0x1fff9c0; 0xe61c0; 0xc71e0; 0x3fff1e0; 0x3fff9f0; 0xc3db8; 0x1ffff9e;
   0x1fff58c; 0x1c3184; 0x1fff180; 0x1fff1c0; 0xc31c0; 0x7fff1fc; 0x3fff0f8; 0x3078;
   0x0; 0x0; 0x0; 0x0; 0x202000; 0x0; 0x0; 0x0;
   0x0; 0x1fdfd88; 0x18d8ddc; 0x1fdfcf8; 0x18d8cf0; 0x1fdfc70; 0x1dddc78; 0x1fdfcfc;
   0xe70dc; 0x1fff0c4; 0x1fff8c0; 0xaebce0; 0x1fffee0; 0xaebcf0; 0x1fff8f0; 0xc38d8;
   0x3fff8de; 0x38cc; 0x1fffcc4; 0xfffcc0; 0xf070c0; 0x3be0c0; 0x7fc0fc; 0x7fffe78;
   0x3c07c38; 0x0; 0x0; 0x0; 0x0; 0x202000; 0x0; 0x0;
   0x0; 0x3000; 0x3000; 0x7000; 0xe000; 0x3fffffc; 0x3fffffc; 0x3800;
   0x1c00; 0x81e00; 0x180e00; 0x1e0700; 0xe0380; 0x7fde0; 0x3ffe0; 0x1ffe0;
   0xf000; 0x1c7800; 0x381c00; 0x700f00; 0xe00780; 0x1fffde0; 0x1fffff0; 0x3817ff0;
   0x3800000; 0x1000000; 0x0; 0x0; 0x0; 0x0; 0x202000; 0x0;
   0x0; 0x0; 0x7000; 0x6000; 0x3fffffc; 0x3fffffc; 0x3fffffc; 0x23800;
   0x1c71c38; 0xe3ec70; 0x79ffe0; 0x18ee80; 0x17100; 0x3b3980; 0x77ddf0; 0x1efff7c;
   0x3cc7e1c; 0x806000; 0x6000; 0x3fffffc; 0x3fffffc; 0x6000; 0x6000; 0x6000;
   0x6000; 0x6000; 0x6000; 0x0; 0x0; 0x0; 0x0; 0x202000;
   0x0; 0x0; 0x0; 0x0; 0x0; 0x1fffff8; 0x1fffff8; 0x7000;
   0x6000; 0x7000; 0x6000; 0x7000; 0x6000; 0x7000; 0xfffff0; 0xfffff0].
Definition hanzi_data_265 : list N :=
  [0xaaeaa0; 0x47000; 0xe6000; 0x1c7000; 0x386000; 0x707000; 0xe06000; 0x407000;
   0x6000; 0x3fffffc; 0x3fffffc; 0x0; 0x0; 0x0; 0x0; 0x0;
   0x202000; 0x0; 0x0; 0x0; 0x0; 0x0; 0x1fffff8; 0x1fffff8;
   0x6000; 0x6000; 0x6000; 0x6000; 0x6000; 0x6000; 0x6000; 0xfffff0;
   0xfffff0; 0xaaeaa0; 0x6000; 0x6000; 0x6000; 0x6000; 0x6000; 0x6000;
   0x6000; 0x2aaeaa8; 0x3fffffc; 0x3fffffc; 0x0; 0x0; 0x0; 0x0;
   0x0; 0x202000; 0x0; 0x0; 0x0; 0x0; 0x0; 0x7fff7fc;
   0x3fff7fc; 0x7fff0c0; 0x3800c0; 0x3800c0; 0x3800c0; 0x3800c0; 0x3800c0; 0x3807fc;
   0x3807f8; 0x3800c0; 0x3800c0; 0x3800c0; 0x3800c0; 0x3800c0; 0x3808c0; 0x380fc0;
   0x380ff8; 0x3801fc; 0x38000c; 0x3fc000; 0x1fc000; 0x1fc000; 0x0; 0x0;
   0x0; 0x0; 0x202000; 0x0; 0x0; 0x0; 0x0; 0x2a8000;
   0x7fcffc; 0x7fcffc; 0x70c0c0; 0x60c0c0; 0x70c0c0; 0x60c0c0; 0x70c0c0; 0x60c0c0;
   0x70c7fc; 0x60e7fc; 0x70c0c0; 0x60e0c0; 0x70e0c0; 0x60e0c0; 0x7060c0; 0x6066c0;
   0x7707fc0; 0x26073f8; 0x77070fc; 0x260380c; 0x3f01c00; 0x3e01c00; 0x1c00c00; 0x0;
   0x0; 0x0; 0x0; 0x202000; 0x0; 0x0; 0x0; 0x0;
   0x0; 0x15557fc; 0x1fff7fc; 0x1fff0e0; 0x600e0; 0x600e0; 0x600e0; 0x600e0;
   0x600e0; 0x607fc; 0x607fc; 0x600e0; 0x600e0; 0x600e0; 0x600e0; 0x60ce0;
   0x60fe0; 0x60ff0; 0x600fe; 0x6001c; 0x60000; 0x3fffc00; 0x3fffc00; 0x0;
   0x0; 0x0; 0x0; 0x0; 0x202000; 0x0; 0x0; 0x0;
   0x1c000; 0xc000; 0xe7fc; 0xe7fc; 0x1fff0e0; 0x3fff0e0; 0x1fff0e0; 0x38038e0;
   0x1801ce0; 0x1800ce0; 0x1804ffc; 0x180e3fc; 0x181c0e0; 0x18380e0; 0x18380e0; 0x18700e0;
   0x1ce00e0; 0x18606e0; 0x1c007e0; 0x1c003f8; 0x1c0007e; 0xc0000c; 0xff8000; 0xff8000;
   0x3f0000; 0x0; 0x0; 0x0; 0x0; 0x202000; 0x0; 0x0;
   0x0; 0x0; 0x0; 0x3fff7fc; 0x3fff7fc; 0xe00e0; 0xe00e0; 0xe00e0;
   0xe00e0; 0xe00e0; 0xe02e8; 0xe07fc; 0x3fffbfc; 0x7fff8e0; 0xe00e0; 0xe00e0;
   0xe00e0; 0xe00e0; 0xe07e0; 0xe07f0; 0xe00fe; 0xe001c; 0xe0000; 0xe0000;
   0xe0000; 0xe0000; 0x0; 0x0; 0x0; 0x0; 0x202000; 0x0;
   0x0; 0x0; 0x18000; 0x18000; 0x1c7fc; 0x1c7fc; 0x7fc7fc; 0x7fc0e0;
   0x70e0e0; 0x3060e0; 0x3070e0; 0x3830e0; 0x183bfc; 0x183bfc; 0x1c1ce0; 0x1c00e0;
   0x3e00e0; 0x3e00e0; 0x3700e0; 0x7386e0; 0x73c7e0; 0xe1c7fe; 0x1e0f07e; 0x1c0780c;
   0x3c03c00; 0x3801e00; 0x1000c00; 0x0; 0x0; 0x0; 0x0; 0x202000;
   0x0; 0x0; 0x0; 0x0; 0x0; 0x1fff7fc; 0x1fff7fc; 0x1c005f4;
   0x18000e0; 0x1c000e0; 0x18000e0; 0x1c000e0; 0x18000e0; 0x1fff7fc; 0x1ffe3fc; 0x1fff0e0;
   0x18060e0; 0x70e0; 0x60e0; 0x70e0; 0x66e0; 0x3007ff0; 0x30063fe; 0x300707c;
   0x3006000; 0x3fff000; 0x1ffe000; 0x550000; 0x0; 0x0; 0x0; 0x0;
   0x202000; 0x0; 0x0; 0x0; 0x1c000; 0xc000; 0x1c7fc; 0xc7fc;
   0x3ffc0e0; 0x3ffe0e0; 0xe0e0; 0xe0e0; 0x60e0; 0x60e0; 0x3fff7fc; 0x3ffe7fc;
   0x3d550e0; 0x38000e0; 0x38000e0; 0x38000e0; 0x1fff8e0; 0x1bffee0; 0x18007e0; 0x18003f8;
   0x1c0007e; 0x1c0000c; 0x1c40000; 0xf80000; 0x780000; 0x0; 0x0; 0x0;
   0x0; 0x202000; 0x0; 0x0; 0x0; 0x0; 0x6aa800; 0xfffbfc;
   0x7ffbfc; 0x3c0060; 0x1e0060; 0x70060; 0x38060; 0x155f060; 0x3fff860; 0x3fff1fc;
   0x33381fc; 0x3318060; 0x339c060; 0x318e060; 0x39ce060; 0x18c7860; 0x18e3fe0; 0x1871be0;
   0x18380f8; 0x1c3c03e; 0xc1e00c; 0xf4f000; 0xfc3800; 0x7c1000; 0x0; 0x0;
   0x0; 0x0; 0x202000; 0x0; 0x0; 0x0; 0x0; 0x0;
   0xfff7fc; 0xfff3fc; 0x600060; 0x606060; 0x606060; 0x606060; 0x606060; 0x606060;
   0x7073fc; 0x7063fc; 0x3fff060; 0x3fff060; 0x3800060; 0x3800060; 0x1800060; 0x1bffa60;
   0x1bfffe0; 0x18003f8; 0x1c0007e; 0x1c0000c; 0x1c40000; 0xfc0000; 0x7c0000; 0x0;
   0x0; 0x0; 0x0; 0x202000; 0x0; 0x0; 0x0; 0x60000;
   0x60000; 0x60554; 0x607fc; 0x607fc; 0x3fff0e0; 0x3fff0e0; 0x600e0; 0x600e0;
   0x600e0; 0x607fc; 0x603fc; 0x3fff8e0; 0x3fff8e0; 0xf00e0; 0xf00e0; 0x1f00e0;
   0x1b86e0; 0x3b87f0; 0x31c3fe; 0x71e07c; 0xe0f004; 0x3c07c00; 0x3801e00; 0x3000400;
   0x0; 0x0; 0x0; 0x0; 0x202000; 0x0; 0x0; 0x0;
   0x30000; 0x30000; 0x707fc; 0xe07fc; 0x1c0060; 0x3fffc60; 0x7fffc60; 0x2eae860;
   0xe07060; 0x606060; 0x60e7fc; 0x60e3fc; 0x70c060; 0x31c060; 0x39c060; 0x3b8060;
   0x1f0060; 0xf0260; 0xf07e0; 0x1f83f8; 0x3fc07e; 0xf9f00c; 0x7f07c00; 0x3c03e00;
   0x1000400; 0x0; 0x0; 0x0; 0x0; 0x202000; 0x0; 0x0;
   0x0; 0x60000; 0x60000; 0xf03fc; 0xf83fc; 0x1d8060; 0x39c060; 0x70e060;
   0xe07060; 0x3c07860; 0x3803c60; 0x370cffc; 0x30c3fc; 0x70c060; 0x30c060; 0x70c060;
   0x30c060; 0x70c060; 0x30e260; 0x70e7e0; 0x30e3f8; 0x70707e; 0x30700c; 0x703800;
   0x303800; 0x701800; 0x0; 0x0; 0x0; 0x0; 0x202000; 0x0;
   0x0; 0x0; 0x0; 0x3fff800; 0x3fffffc; 0xeaabfc; 0x707060; 0x606060;
   0x707060; 0x607060; 0x707060; 0x603060; 0x7fff3fc; 0x3fffbfc; 0x7fff860; 0x6c0060;
   0x7e0060; 0x670060; 0x738060; 0x61c260; 0x71e7e0; 0x607bf8; 0x703c7e; 0x600e0c;
   0x7f0400; 0x3f0000; 0x1f0000; 0x0; 0x0; 0x0; 0x0; 0x202000].
Definition hanzi_data_266 : list N :=
  [0x0; 0x0; 0x0; 0x200000; 0x338000; 0x3187fc; 0x3187fc; 0x71c574;
   0x60c060; 0xe0e060; 0xc0e060; 0x1c07060; 0x3803ae8; 0x7555ffc; 0x2ffebfc; 0xfff060;
   0xc30060; 0xc38060; 0xc38060; 0xc18060; 0xe18760; 0xe1c7f0; 0xe0c1fe; 0xe0e03c;
   0x607000; 0x747800; 0x7e1c00; 0x3c0800; 0x0; 0x0; 0x0; 0x0;
   0x202000; 0x0; 0x0; 0x0; 0x70000; 0x60000; 0x707fc; 0x8603fc;
   0x1ffc060; 0x7ff860; 0x7f860; 0x60060; 0x70060; 0x60060; 0x1fffffc; 0x1fffbfc;
   0x70060; 0x60060; 0x70060; 0x60060; 0x7fffe60; 0x3fffe60; 0x703e0; 0x603f8;
   0x7007e; 0x6000c; 0x70000; 0x60000; 0x70000; 0x0; 0x0; 0x0;
   0x0; 0x202000; 0x0; 0x0; 0x0; 0x0; 0x1ffe000; 0x1ffeffc;
   0x1aaeffc; 0x180e0c0; 0x180e0c0; 0x180e0c0; 0x180e0c0; 0x1ffe0c0; 0x1ffeffc; 0x180effc;
   0x180e0c0; 0x180e0c0; 0x180e0c0; 0x1ffe0c0; 0x1ffe8c0; 0x1d56fc0; 0x1806fe0; 0x18071fe;
   0x180303e; 0x1803804; 0x1801800; 0x1d01c00; 0x1f80e00; 0x1f00400; 0x0; 0x0;
   0x0; 0x0; 0x202000; 0x0; 0x0; 0x0; 0x70000; 0x30000;
   0x70554; 0x307fc; 0x15757fc; 0xfff8e0; 0x1fff8e0; 0xc300e0; 0x1c700e0; 0xc300e0;
   0x1c707fc; 0xc303fc; 0x7fffce0; 0x3fff8e0; 0x7fffce0; 0xf80e0; 0x1f80e0; 0x1b86e0;
   0x19c7f0; 0x38e3fe; 0x70f07c; 0xe07800; 0x3c03c00; 0x3801e00; 0x3000400; 0x0;
   0x0; 0x0; 0x0; 0x202000; 0x0; 0x0; 0x0; 0x0;
   0x0; 0x1fff7fc; 0x1fff7fc; 0xe0; 0xe0; 0xe0; 0xe0; 0xe0;
   0xe0; 0x7fffffc; 0x3fffbfc; 0x39c0e0; 0x38c0e0; 0x39c0e0; 0x38c0e0; 0x38c0e0;
   0x38c6e0; 0x38efe0; 0x23863fe; 0x738707e; 0x6383804; 0x7781c00; 0x3f80f00; 0x3f00600;
   0x0; 0x0; 0x0; 0x0; 0x202000; 0x0; 0x0; 0x0;
   0x18000; 0x18000; 0x1c554; 0xc7fc; 0xc7fc; 0x3ffe0e0; 0x7ffe0e0; 0xe060e0;
   0xe0f0e0; 0xe0f0e0; 0x60fffc; 0x70dffc; 0x71ddf4; 0x3988e0; 0x3b80e0; 0x1b80e0;
   0x1f00e0; 0xe04e0; 0xf07e0; 0x1f83fe; 0x3fc07e; 0xf8f00c; 0x3f07c00; 0x3c03e00;
   0x3000400; 0x0; 0x0; 0x0; 0x0; 0x202000; 0x0; 0x0;
   0x0; 0x1c3800; 0xc3800; 0x1c3ffc; 0xc3ffc; 0x1c3860; 0xc3860; 0x11c3860;
   0x38c3860; 0x1dd7860; 0xedf860; 0x7dfbfc; 0x1c3bfc; 0x1c3860; 0xc3860; 0x1c3860;
   0xc3860; 0x1c3860; 0xc3e60; 0x1c3fe0; 0x20e3bf8; 0x71ff87e; 0x30ff80c; 0x3fc7c00;
   0x3f81800; 0x0; 0x0; 0x0; 0x0; 0x0; 0x202000; 0x0;
   0x0; 0x0; 0xe0000; 0xe0000; 0xe07fc; 0xe07fc; 0x3fff0e0; 0x3fff0e0;
   0xe00e0; 0xe00e0; 0x1fff0e0; 0x1fff0e0; 0x1fff7fc; 0xe03fc; 0xe00e0; 0x2aea8e0;
   0x7fff8e0; 0x3aea8e0; 0x30e00e0; 0x30e06e0; 0x30e07e0; 0x30e03f8; 0x3ee007c; 0x1ee000c;
   0x4e0000; 0xe0000; 0xe0000; 0x0; 0x0; 0x0; 0x0; 0x202000;
   0x0; 0x0; 0x0; 0x0; 0x0; 0x3fffbfc; 0x3fffbfc; 0xe0060;
   0xe0060; 0x70060; 0x70060; 0x170060; 0x1f8060; 0x3fc1fc; 0x76c1fc; 0xe7e060;
   0xc67060; 0x1c77860; 0x3863c60; 0x1071860; 0x60260; 0x703e0; 0x601f8; 0x7007c;
   0x6000c; 0x70000; 0x60000; 0x70000; 0x0; 0x0; 0x0; 0x0;
   0x202000; 0x0; 0x0; 0x0; 0x0; 0xfff000; 0x1fff7fc; 0xeab7fc;
   0x1c030e0; 0xc230e0; 0x1c630e0; 0xc630e0; 0x1c630e0; 0xc630e0; 0x1c637fc; 0xc633fc;
   0x1c630e0; 0xc630e0; 0x1c730e0; 0xcf30e0; 0xf00e0; 0xf84e0; 0x30f87e0; 0x30dc7f8;
   0x30de07c; 0x30cf00c; 0x3fc7c00; 0x1f81e00; 0xc00; 0x0; 0x0; 0x0;
   0x0; 0x202000; 0x0; 0x0; 0x0; 0x40000; 0x60000; 0x707fc;
   0xf03fc; 0x1d8060; 0x39c060; 0x70e060; 0xe07060; 0x1c03c60; 0x3801e60; 0x37ffffc;
   0x7fe3fc; 0x707060; 0x606060; 0x707060; 0x306060; 0x317060; 0x3e6260; 0x1f77e0;
   0x38063f8; 0x380707e; 0x380600c; 0x1ffe000; 0x1ffe000; 0xffc000; 0x0; 0x0;
   0x0; 0x0; 0x202000; 0x0; 0x0; 0x0; 0x60000; 0x60000;
   0xf07fc; 0xf03fc; 0x1f8060; 0x39c060; 0x71e060; 0xe0f060; 0x1c37860; 0x7863c60;
   0x30e1ffc; 0xc03fc; 0x555060; 0x1fff060; 0xfff060; 0xe00060; 0x700060; 0x380260;
   0x1c43e0; 0xfe1f8; 0xfc07c; 0xf000c; 0x1e0000; 0x380000; 0x180000; 0x0;
   0x0; 0x0; 0x0; 0x202000; 0x0; 0x0; 0x0; 0x1cc000;
   0xe8e000; 0x1dce3fc; 0x39863fc; 0x31c7070; 0x3183060; 0x1c3870; 0x183860; 0x3fc3c70;
   0x3ffbffc; 0x7ffffc; 0x1837e8; 0x183270; 0x183060; 0x183070; 0x183060; 0x183070;
   0x3833e0; 0x23033fc; 0x630307e; 0x770300c; 0x3703000; 0x3e03000; 0x3e03000; 0x1c03000;
   0x0; 0x0; 0x0; 0x0; 0x202000; 0x0; 0x0; 0x0;
   0x0; 0x0; 0x3fffffc; 0x3fffbfc; 0xe0060; 0x18e3060; 0x1ce7060; 0xce6060;
   0xce6060; 0xcee060; 0xeec3fc; 0x6ec3fc; 0xe0060; 0x3fff860; 0x7fff860; 0x2aea860;
   0xe0060; 0xe0260; 0xe07e0; 0xe03f8; 0xe007e; 0xe000c; 0xe0000; 0xe0000;
   0xe0000; 0x0; 0x0; 0x0; 0x0; 0x202000; 0x0; 0x0;
   0x0; 0x70000; 0x60000; 0x707fc; 0x607fc; 0x70060; 0x3fe0060; 0x7ff0060;
   0x2ae0060; 0x70060; 0x60060; 0x707fc; 0x603fc; 0x1575060; 0x1fff060; 0x1fff060;
   0x1803060; 0x1803060; 0x1803460; 0x18037e0; 0x18037f8; 0x180307c; 0x1aab00c; 0x1fff000;
   0x1fff000; 0x1803000; 0x0; 0x0; 0x0; 0x0; 0x202000; 0x0;
   0x0; 0x0; 0x70000; 0x60000; 0xe07fc; 0xc03fc; 0x7fffc60; 0x3fff860;
   0x7fffc60; 0x30060; 0x438060; 0xe18060; 0x71c3fc; 0x70e3fc; 0x3d7060; 0x1ff860].
Definition hanzi_data_267 : list N :=
  [0x1ff060; 0xe0060; 0x670060; 0x638660; 0xe1c7e0; 0xc0e3f8; 0x1c0707e; 0x3fff80c;
   0x3fff800; 0x3003800; 0x1000000; 0x0; 0x0; 0x0; 0x0; 0x202000;
   0x0; 0x0; 0x0; 0x700; 0x300; 0x555780; 0x1ffffc0; 0x1fffff0;
   0xe06078; 0x64671c; 0xe6388; 0x1c61c0; 0x3860e0; 0x7060f0; 0xe07e30; 0x7c00;
   0x0; 0x1fffff8; 0x1fffff8; 0x6000; 0x6000; 0xfffff0; 0xffffe0; 0x1e6000;
   0x386000; 0x3fffffc; 0x3fffffc; 0x1555554; 0x0; 0x0; 0x0; 0x0;
   0x202000; 0x0; 0x0; 0x0; 0x60000; 0x60000; 0x603fc; 0x603fc;
   0x3fff860; 0x3fff860; 0x3861860; 0x1861860; 0x1c61860; 0xc61860; 0xd75bfc; 0x1fffbfc;
   0x1fff860; 0xc0f860; 0xe0d860; 0x61d860; 0x719c60; 0x3b9b60; 0x3f1fe0; 0x1e0cf8;
   0x1f0c7c; 0x7f8e0c; 0x3f1f700; 0x3c0f700; 0x1003200; 0x0; 0x0; 0x0;
   0x0; 0x202000; 0x0; 0x0; 0x0; 0x104000; 0x18c000; 0x18c3fc;
   0x18c3fc; 0x18c060; 0x18c060; 0x18cc60; 0x318cc60; 0x398cc60; 0x1dfcc60; 0xffcffc;
   0x38cffc; 0x18cc60; 0x18cc60; 0x18cc60; 0x18cc60; 0x18cc60; 0x18cf60; 0x18cff0;
   0x218ccfe; 0x71fcc1c; 0x21fec00; 0x7ffff00; 0x3f83f00; 0x1f00100; 0x0; 0x0;
   0x0; 0x0; 0x202000; 0x0; 0x0; 0x0; 0x0; 0x3fff000;
   0x3fff7fc; 0x3afa7fc; 0x1870060; 0x3830060; 0x1838060; 0x1838060; 0x181c060; 0x180e2e8;
   0x1f8f7fc; 0xf83bfc; 0x1060; 0xaaa060; 0x1fff060; 0x1fff060; 0x1c07460; 0x18037e0;
   0x1c077fc; 0x18030fe; 0x1c0701c; 0x1aab000; 0x1fff000; 0x1fff000; 0x1c07000; 0x0;
   0x0; 0x0; 0x0; 0x202000; 0x0; 0x0; 0x0; 0xe0000;
   0x60000; 0x707fc; 0x703fc; 0x70060; 0x1fff860; 0x1fff860; 0x1803860; 0x1803860;
   0x1803860; 0x1803bfc; 0x1803bfc; 0x1803860; 0x1fff860; 0x1fff860; 0x1803860; 0x1803860;
   0x1803a60; 0x1803fe0; 0x1803bf8; 0x180387e; 0x1fff80c; 0x1fff800; 0x1aab800; 0x1803800;
   0x0; 0x0; 0x0; 0x0; 0x202000; 0x0; 0x0; 0x0;
   0x0; 0x0; 0x7fffffc; 0x3fffffc; 0x1c000e0; 0xc000e0; 0x1c000e0; 0xcff0e0;
   0x1cff0e0; 0xcc30e0; 0x1cc37fc; 0xcc37fc; 0x1cc30e0; 0xcc30e0; 0x1cc30e0; 0xceb0e0;
   0x1cff0e0; 0xcab0e0; 0x1c037e0; 0xc00fe0; 0x1c001fe; 0xc0003c; 0x1d40004; 0xfe0000;
   0x7c0000; 0x0; 0x0; 0x0; 0x0; 0x202000; 0x0; 0x0;
   0x0; 0x60000; 0x60000; 0x607fc; 0x607fc; 0x3fffd74; 0x3fff860; 0x3d75860;
   0x3861860; 0x3861860; 0x3861860; 0x3fffbfc; 0x3fffbfc; 0x3861860; 0x3861860; 0x3861860;
   0x3fff860; 0x3fffc60; 0x3861fe0; 0x3861ff8; 0x600fc; 0x6001c; 0x60000; 0x60000;
   0x60000; 0x60000; 0x0; 0x0; 0x0; 0x0; 0x202000; 0x0;
   0x0; 0x0; 0x0; 0xaaa000; 0xfff7fc; 0xfff3fc; 0xe03574; 0xe03060;
   0xe03060; 0xe03060; 0xfff060; 0xfff060; 0xf573fc; 0xe033fc; 0xe03060; 0xe03060;
   0xe03060; 0xfff060; 0xfff060; 0xe03660; 0xe037f0; 0xe030fe; 0xe0301c; 0xe03000;
   0x7ffff00; 0x3ffff00; 0x0; 0x0; 0x0; 0x0; 0x0; 0x202000;
   0x0; 0x0; 0x0; 0x3000; 0x3000; 0x31fc; 0x3f831fc; 0x3fc3070;
   0x3083030; 0x31ffe70; 0x30bfe30; 0x31fb070; 0x30bb830; 0x31f99fc; 0x30bb9fc; 0x31d9870;
   0x3099830; 0x31d9870; 0x3099830; 0x31d9870; 0x3099830; 0x31d9df0; 0x3098df8; 0x3fd8c7e;
   0x3f9860c; 0x31df700; 0x308f300; 0x4300; 0x0; 0x0; 0x0; 0x0;
   0x202000; 0x0; 0x0; 0x0; 0x0; 0x1fff800; 0x1fffffc; 0x1803bfc;
   0x1c03860; 0x1803860; 0x1c03860; 0x1fff860; 0x1fff860; 0xc3860; 0xc3bfc; 0xc3bfc;
   0xc3860; 0x3fff860; 0x3fff860; 0xc3860; 0x1c3860; 0x183a60; 0x183fe0; 0x2383bf8;
   0x73c387e; 0x337b80c; 0x3f7f800; 0x3e0fc00; 0x1c01800; 0x0; 0x0; 0x0;
   0x0; 0x202000; 0x0; 0x0; 0x0; 0x0; 0x1fdf800; 0x1fdfdfe;
   0x18d99fe; 0x1dd9c30; 0x18d9830; 0x1dd9c30; 0x18d9830; 0x1dd9c30; 0x18d9830; 0x5ddddfc;
   0x3fffefc; 0x7fffe30; 0x18d9830; 0x1dd9c30; 0x18d9830; 0x1dd9c30; 0x18d8830; 0x1cd9df0;
   0x18d8df8; 0x1cd8c7e; 0x18d8c0c; 0x1cfee00; 0x1e7e600; 0xe46400; 0x0; 0x0;
   0x0; 0x0; 0x202000; 0x0; 0x0; 0x0; 0x10000; 0x3c000;
   0x151f1fc; 0x3f839fc; 0x3f91c70; 0x3998830; 0x3999c70; 0x3998830; 0x3999c70; 0x3998830;
   0x3999dfc; 0x39989fc; 0x3999c70; 0x3998830; 0x3999c70; 0x3998830; 0x399fc70; 0x399fe30;
   0x3f9ddf0; 0x1f8c1f8; 0x18e07e; 0x18700c; 0x187800; 0x181c00; 0x180800; 0x0;
   0x0; 0x0; 0x0; 0x202000; 0x0; 0x0; 0x0; 0x18000;
   0x3c000; 0x1c707fc; 0xce03fc; 0xdc07fc; 0xe88060; 0x61c060; 0x618060; 0x71c060;
   0xf1b860; 0x1f9dbfc; 0x1999bfc; 0x19dd860; 0x38d9860; 0x30fdc60; 0x3078c60; 0x707ce60;
   0x1038360; 0x41c3f0; 0xc1e1fe; 0x1c1f03e; 0xc1b800; 0xd5de00; 0xff8e00; 0x7f0400;
   0x0; 0x0; 0x0; 0x0; 0x202000; 0x0; 0x0; 0x0;
   0x60000; 0x60000; 0xf07fc; 0x1f87fc; 0x3dc060; 0x71e060; 0x1f0f060; 0x3c07860;
   0x78e3c60; 0x2070c60; 0x3c3fc; 0x21e3fc; 0x70f060; 0x382060; 0x1c0060; 0x8f0060;
   0x1c7c060; 0x1c1f460; 0xf077e0; 0x7807f8; 0x3c007c; 0xf800c; 0x7f000; 0x1f800;
   0x7000; 0x0; 0x0; 0x0; 0x0; 0x202000; 0x0; 0x0;
   0x0; 0x0; 0x0; 0x3fffffc; 0x3fffffc; 0xe00c0; 0xe00c0; 0xe00c0;
   0xe00c0; 0xe00c0; 0xe00c0; 0xe05d4; 0x2aea7fc; 0x3fff7fc; 0x3fff0c0; 0xe00c0;
   0x6e00c0; 0xce00c0; 0xce00c0; 0x1ce0cc0; 0x38e0fc0; 0xe07fc; 0xe00fc; 0x7fffc04;
   0x3fff800; 0x0; 0x0; 0x0; 0x0; 0x0; 0x202000; 0x0].
Definition hanzi_data_268 : list N :=
  [0x0; 0x0; 0x60000; 0x60000; 0x607fc; 0x603fc; 0x1575060; 0x1fff860;
   0x1fff860; 0x60060; 0x60060; 0x60060; 0x603fc; 0x2aeabfc; 0x3fffc60; 0x3fff860;
   0x70060; 0x38060; 0x21c060; 0x71c660; 0xe0e7e0; 0xc0e3f8; 0x1f0707e; 0x3fff80c;
   0x3fff800; 0x3003800; 0x3000000; 0x0; 0x0; 0x0; 0x0; 0x202000;
   0x0; 0x0; 0x0; 0x1c000; 0x198000; 0x79c7fc; 0xe183fc; 0x1c1c060;
   0x18060; 0x3fffc60; 0x3fffc60; 0x15dd460; 0xcc060; 0x11dc3fc; 0x18cc3fc; 0x1dcc060;
   0xccc060; 0xfcc060; 0x6ce060; 0x7c6060; 0x3c6260; 0x1c77e0; 0xe39f8; 0x71f387c;
   0x30f9c0c; 0x3fdfe00; 0x3f8cf00; 0x1500600; 0x0; 0x0; 0x0; 0x0;
   0x202000; 0x0; 0x0; 0x0; 0x70000; 0x60000; 0x70554; 0xfff3fc;
   0xfff7fc; 0xc60060; 0xc70060; 0x3fffc60; 0x7fffc60; 0xc60060; 0xc703fc; 0xfff3fc;
   0xfff060; 0x60060; 0x70060; 0x1fff860; 0x1fffc60; 0x607e0; 0x707f0; 0x3fffcfe;
   0x3fffc1c; 0x60000; 0x70000; 0x60000; 0x70000; 0x0; 0x0; 0x0;
   0x0; 0x202000; 0x0; 0x0; 0x0; 0x60000; 0x60000; 0x70554;
   0x1fffffc; 0x1fffffc; 0x1830060; 0x1c38060; 0x1818060; 0x1c1c060; 0xf8f060; 0x787ffc;
   0x2033fc; 0x707574; 0x302060; 0x3fffc60; 0x3fffc60; 0x3333060; 0x3333660; 0x33337e0;
   0x33b33fc; 0x31b187c; 0x39b1804; 0x39d9c00; 0x1efee00; 0x1e5e400; 0x0; 0x0;
   0x0; 0x0; 0x202000; 0x0; 0x0; 0x0; 0x60000; 0x860000;
   0x1861d54; 0x1863bfc; 0x1c637fc; 0xc63060; 0xc67060; 0xe66060; 0x666060; 0x60060;
   0x7fffffc; 0x3fffffc; 0x7fffc60; 0x18c060; 0x19c060; 0x18c060; 0x18c060; 0x18e660;
   0x118e7e0; 0x61863fe; 0x718707c; 0x6183804; 0x7581e00; 0x3f80f00; 0x1f00600; 0x0;
   0x0; 0x0; 0x0; 0x202000; 0x0; 0x0; 0x0; 0x70e000;
   0x70e000; 0x70e3fc; 0x70e3fc; 0x70e060; 0x70e060; 0x3fffc60; 0x3fff860; 0x70e060;
   0x70e060; 0x70e3fc; 0x70e3fc; 0x70e060; 0x70e060; 0x7fffc60; 0x3fffc60; 0x7fffc60;
   0x260; 0x31c7e0; 0x70e3f8; 0xe0e07e; 0x1c0700c; 0x1c03c00; 0x3801c00; 0x1000c00;
   0x0; 0x0; 0x0; 0x0; 0x202000; 0x0; 0x0; 0x0;
   0x70000; 0x30000; 0x387fc; 0x383fc; 0x7ffff74; 0x3fffe60; 0x1c060; 0xe060;
   0x1556060; 0x1fff060; 0x1fffbfc; 0x1c07bfc; 0x1c07c60; 0x1ffee60; 0x1ffe660; 0x1c06060;
   0x1c06060; 0x1ffe660; 0x1ffe7f0; 0x1eae1fe; 0x1c0603c; 0x1c06000; 0x1c06000; 0x1f86000;
   0xf86000; 0x0; 0x0; 0x0; 0x0; 0x202000; 0x0; 0x0;
   0x0; 0x0; 0x3fdfe00; 0x3fdfffe; 0x3a9abfe; 0x3818070; 0x3818030; 0x39d8c70;
   0x3998c30; 0x3999c70; 0x3b19830; 0x3b199fc; 0x3b1b0fc; 0x3818070; 0x3c1c030; 0x3f1e070;
   0x3b9b030; 0x39dbc70; 0x38f8eb0; 0x38587f0; 0x38182fc; 0x381801e; 0x3818006; 0x3f1f800;
   0x1f0f800; 0x500000; 0x0; 0x0; 0x0; 0x0; 0x202000; 0x0;
   0x0; 0x0; 0x38000; 0x38000; 0x55c554; 0xffc7fc; 0xffe7fc; 0xe0f060;
   0x71f860; 0x39bc60; 0x3b9c60; 0x1f0860; 0xf07fc; 0x3f83fc; 0x7bc174; 0x3f0f060;
   0x7c07e60; 0x3fffc60; 0xfff460; 0xc06660; 0xc077e0; 0xc063fc; 0xc0707e; 0xc0600c;
   0xfff000; 0xffe000; 0xc07000; 0x0; 0x0; 0x0; 0x0; 0x202000;
   0x0; 0x0; 0x0; 0xe0000; 0xe2000; 0xe67fc; 0xe67fc; 0xe7060;
   0x1fff060; 0x1fff060; 0xe3060; 0xe3860; 0xe1860; 0xe1ffc; 0xe03fc; 0x7fffc60;
   0x3fff860; 0x1f0060; 0x3f8060; 0x3fc060; 0x6ec460; 0xeee7e0; 0xce73f8; 0x3ce387c;
   0x78e1c0c; 0x70e0e00; 0xe0400; 0xe0000; 0x0; 0x0; 0x0; 0x0;
   0x202000; 0x0; 0x0; 0x0; 0x0; 0xfff000; 0xfff7fc; 0xc033fc;
   0xc03060; 0xc03060; 0xfff060; 0xfff060; 0xc03060; 0xc03060; 0xc033fc; 0xfff3fc;
   0xfff060; 0x33060; 0x1873060; 0x3c63060; 0x1fe3060; 0x7c3260; 0x1c37e0; 0x3833f8;
   0x74307e; 0xe3b80c; 0x3e7fc00; 0x380f800; 0x1001800; 0x0; 0x0; 0x0;
   0x0; 0x202000; 0x0; 0x0; 0x0; 0x1c000; 0xe000; 0xe554;
   0x63fc; 0x3fff7fc; 0x3fff060; 0x3d57860; 0x3801860; 0x3801c60; 0x38ffe60; 0x38ff7fc;
   0x38c33fc; 0x18c3060; 0x18ff060; 0x18ff060; 0x18c3060; 0x18c3060; 0x18ff660; 0x18ff7f0;
   0x18033fe; 0x1c0307c; 0x1c00000; 0x1d40000; 0xfe0000; 0x7e0000; 0x0; 0x0;
   0x0; 0x0; 0x202000; 0x0; 0x0; 0x0; 0x0; 0x2aaa800;
   0x7fffffc; 0x3fffbfc; 0xc06060; 0xc06060; 0xc06060; 0xffe060; 0xffe060; 0xc06060;
   0xc063fc; 0xc063fc; 0xffe060; 0xffe060; 0xffe060; 0xc06060; 0xc06060; 0x2c06660;
   0x7ff67e0; 0x3fffbf0; 0xc7fc7e; 0xc0001c; 0xc00004; 0xc00000; 0xc00000; 0x0;
   0x0; 0x0; 0x0; 0x202000; 0x0; 0x0; 0x0; 0x60000;
   0x60000; 0x707fc; 0x303fc; 0x3fffd74; 0x3fff860; 0x3801860; 0x3801860; 0x3801860;
   0x3bf9860; 0x3bf9bfc; 0x3b19bfc; 0x3b19860; 0x3b19860; 0x3b19860; 0x3b19860; 0x3b59860;
   0x3bf9e60; 0x3959ff0; 0x3819bfe; 0x380183c; 0x3801800; 0x3801800; 0x1f01800; 0x1f01800;
   0x0; 0x0; 0x0; 0x0; 0x202000; 0x0; 0x0; 0x0;
   0x1dc000; 0x18c000; 0x1dc3fc; 0x118cbfc; 0x39ddc70; 0x198d860; 0x1ddd870; 0xd8f860;
   0xfdf070; 0x78f060; 0x1dc1fc; 0x18c1fc; 0x7dc070; 0xf8e060; 0x1fdf070; 0x398fc60;
   0x79dde70; 0x318c460; 0x1ce3f0; 0x18e3f8; 0x71c707c; 0x318380c; 0x3fc3c00; 0x3f80e00;
   0x1f00600; 0x0; 0x0; 0x0; 0x0; 0x202000; 0x0; 0x0;
   0x0; 0x4000; 0xe000; 0x3fe73fe; 0x3fe33fe; 0x3870; 0x1c60; 0x1cc70;
   0xc060; 0x7ffe070; 0x3ff6060; 0x5f573fc; 0xe03bfc; 0xe07c70; 0xe02e60; 0xe07470].
Definition hanzi_data_269 : list N :=
  [0xe02060; 0xe07070; 0xe02260; 0xe073f0; 0xe023f8; 0xe0707e; 0xe0200e; 0xe07000;
   0x7c2000; 0x7c7000; 0x0; 0x0; 0x0; 0x0; 0x202000; 0x0;
   0x0; 0x0; 0xe0000; 0xe0000; 0xe0554; 0xe07fc; 0x1fff7fc; 0x1fff0e0;
   0xe00e0; 0xe00e0; 0xe00e0; 0x2aea8e0; 0x3fffffc; 0x3fffbfc; 0xe05f4; 0xe00e0;
   0xe00e0; 0x2aea0e0; 0x3fff0e0; 0x2aea0e0; 0xe07e0; 0xe07fc; 0xe007e; 0xe000c;
   0x7fffc00; 0x3fffc00; 0x0; 0x0; 0x0; 0x0; 0x0; 0x202000;
   0x0; 0x0; 0x0; 0x30000; 0x30000; 0x707fc; 0x3fffbfc; 0x3fff860;
   0x2aba860; 0x238060; 0x61c060; 0xe1e060; 0xe0e060; 0x1fffffc; 0x3bffbfc; 0x3005860;
   0x18c060; 0x18c060; 0x18c060; 0x18c060; 0x18e060; 0x118e7e0; 0x21863f8; 0x718707e;
   0x318300c; 0x3f83c00; 0x3f81e00; 0x1500400; 0x0; 0x0; 0x0; 0x0;
   0x202000; 0x0; 0x0; 0x0; 0x1c000; 0xc000; 0x3ffc3fc; 0x3fec3fc;
   0x71c070; 0x30c060; 0x71dc70; 0x30c860; 0x71dc70; 0x30c860; 0x71cd74; 0x30cdfc;
   0x3ffcdfc; 0x3fecc60; 0x71c670; 0x30c060; 0x70c070; 0x30c060; 0x70e070; 0x30e3e0;
   0x7073fe; 0x30383e; 0x7ffbc04; 0x3ff8e00; 0x400; 0x0; 0x0; 0x0;
   0x0; 0x202000; 0x0; 0x0; 0x0; 0x60000; 0x60000; 0x18637fc;
   0x18637fc; 0x1c67060; 0xc66060; 0xc66060; 0x666060; 0x664060; 0x60060; 0x1fffbfc;
   0x1fffbfc; 0x1800060; 0x1800060; 0x1800060; 0x1fff060; 0x1fff060; 0x1aaa660; 0x18007e0;
   0x18003f8; 0x180007e; 0x1fff80c; 0x1fff800; 0x1800000; 0x1000000; 0x0; 0x0;
   0x0; 0x0; 0x202000; 0x0; 0x0; 0x0; 0x0; 0x2aaa800;
   0x3fffffc; 0x3fffffc; 0x3819c70; 0x3838c60; 0x3819c70; 0xfff860; 0x1fff870; 0xc060;
   0xee1fc; 0xe61fc; 0xe7070; 0x1fff860; 0x1fff070; 0xe0060; 0xe0070; 0xe0060;
   0x7fffff0; 0x3fffdf8; 0xe007c; 0xe000c; 0xe0000; 0xe0000; 0xe0000; 0x0;
   0x0; 0x0; 0x0; 0x202000; 0x0; 0x0; 0x0; 0x0;
   0xfff000; 0x1fff7fc; 0x8033fc; 0x1c03060; 0x803060; 0x1c03060; 0xaab060; 0x1fff060;
   0xaaa060; 0x3fc; 0x3fffbfc; 0x3fff860; 0x2aea860; 0x60060; 0x60060; 0x1fff860;
   0x1fffa60; 0x15757e0; 0x603f8; 0x6007e; 0x6000c; 0x7fffc00; 0x3fffc00; 0x0;
   0x0; 0x0; 0x0; 0x0; 0x202000; 0x0; 0x0; 0x0;
   0x380000; 0xf80000; 0x1b7fbfc; 0x3bbfbfc; 0x3300174; 0x300060; 0x7fffc60; 0x3fffc60;
   0x5755460; 0x318060; 0x31c3fc; 0x319bfc; 0x31d860; 0x339860; 0x37d860; 0x219860;
   0x71d860; 0x619be0; 0x61dbf8; 0x66198fe; 0x67dd81c; 0x6cff800; 0x6c7fe00; 0x3803e00;
   0x3800000; 0x0; 0x0; 0x0; 0x0; 0x202000; 0x0; 0x0;
   0x0; 0x0; 0x3fff800; 0x3fffffc; 0x307fc; 0x30060; 0x38060; 0xfff060;
   0xfff060; 0xe18060; 0xe18060; 0xe1c3fc; 0x7fffffc; 0x7fffc60; 0x2aaa860; 0x60;
   0xfff060; 0x1fff060; 0xeab760; 0x1c077f0; 0xc031fe; 0x1c0701c; 0xc03000; 0x1fff000;
   0xfff000; 0x1c07000; 0x0; 0x0; 0x0; 0x0; 0x202000; 0x0;
   0x0; 0x0; 0x5c0000; 0xe80000; 0x1dc03fc; 0x38803fc; 0x15d5070; 0x3fff860;
   0x3fff870; 0x181860; 0x981870; 0x3981860; 0x19bf9fc; 0x19bf9fc; 0x1db1870; 0xdb1860;
   0xfb1870; 0x7b1860; 0x731870; 0x331a60; 0x23bfbf0; 0x63dfbf8; 0x67e1c7e; 0x2670c0c;
   0x3e3cc00; 0x3c18e00; 0x1800400; 0x0; 0x0; 0x0; 0x0; 0x202000;
   0x0; 0x0; 0x0; 0x0; 0xfff800; 0x1fffffc; 0xc303fc; 0x1c30060;
   0xc30060; 0x7fffc60; 0x3fffc60; 0x1c18060; 0xc183fc; 0x1fffbfc; 0xfffae8; 0x155d060;
   0xe060; 0x1556060; 0x1fff060; 0x1fff7e0; 0x1807fe0; 0x1807dfe; 0x1806e3e; 0x1806404;
   0x1aae000; 0x1ffe000; 0x1aae000; 0x1806000; 0x0; 0x0; 0x0; 0x0;
   0x202000; 0x0; 0x0; 0x0; 0x1000000; 0x3e0fe00; 0x1fffffc; 0x3fe1fc;
   0x316070; 0x307030; 0x303070; 0x303830; 0x301870; 0x1fefc30; 0x1fefdfc; 0x30c5fc;
   0x30c070; 0x30ec30; 0x306c70; 0x306c30; 0x307c70; 0x3ff3830; 0x3ff39f0; 0x3bf8;
   0xfc7e; 0x3ec0c; 0x7ffcf00; 0x3fe0780; 0x1500100; 0x0; 0x0; 0x0;
   0x0; 0x202000; 0x0; 0x0; 0x0; 0xe0000; 0x60000; 0xf07fc;
   0x1f83fc; 0x79c060; 0xf2e060; 0x1e77860; 0x78e3e60; 0x31c1c60; 0x60; 0xfff3fc;
   0xfff3fc; 0x700060; 0x380060; 0x1c0060; 0xc0060; 0xfff060; 0xfff260; 0xc037e0;
   0xc033f8; 0xc0307e; 0xc0300c; 0xfff000; 0xfff000; 0xc03000; 0x0; 0x0;
   0x0; 0x0; 0x202000; 0x0; 0x0; 0x0; 0x260000; 0x760000;
   0x1e603fc; 0x18603fc; 0x1d75060; 0x3fff860; 0x7fffc60; 0x60060; 0x1061060; 0x38e3860;
   0x1ce73fc; 0xce63fc; 0xfe6060; 0x7ee060; 0x3f0060; 0x3f8060; 0x37c060; 0x76e260;
   0xe677e0; 0xe63bf8; 0x3c61c7e; 0x7860c0c; 0x3060000; 0x7e000; 0x7c000; 0x0;
   0x0; 0x0; 0x0; 0x202000; 0x0; 0x0; 0x0; 0x0;
   0xfff000; 0x1fff7fc; 0xc037fc; 0x1c070e0; 0xc030e0; 0x1fff0e0; 0xfff0e0; 0xe0;
   0xe0; 0x1fff7fc; 0x1fff3fc; 0x18030e0; 0x18030e0; 0x1fff0e0; 0x1fff0e0; 0x18030e0;
   0x18037e0; 0x1fff7f0; 0x1fff1fe; 0x180301c; 0x1803000; 0x1803000; 0x1f03000; 0x1f03000;
   0x0; 0x0; 0x0; 0x0; 0x202000; 0x0; 0x0; 0x0;
   0x70000; 0x60000; 0xe07fc; 0xfff3fc; 0x1fff060; 0xc03060; 0x1c03060; 0xc03060;
   0x1fff060; 0xfff060; 0x1c033fc; 0xc033fc; 0x1fff060; 0xfff060; 0x1fff060; 0x1863060;
   0x3ce3060; 0xec3260; 0x7c37e0; 0x3831f8; 0x74307c; 0xe3b00c; 0x7c7f000; 0x380f800;
   0x1000; 0x0; 0x0; 0x0; 0x0; 0x202000; 0x0; 0x0].
Definition hanzi_data_270 : list N :=
  [0x0; 0x0; 0x1fff800; 0x1fffffc; 0x1863bfc; 0x1863860; 0x1863860; 0x1fff860;
   0x1fff860; 0x1d77860; 0x1863860; 0x1863bfc; 0x1aebbfc; 0x1fff860; 0xaea860; 0xe0060;
   0xe0060; 0x3fff860; 0x3fffa60; 0x3ffffe0; 0xe03f8; 0xe007e; 0xe000c; 0x7fffe00;
   0x7fffe00; 0x0; 0x0; 0x0; 0x0; 0x0; 0x202000; 0x0;
   0x0; 0x0; 0xc00000; 0xff8000; 0x7ff7fc; 0xea3fc; 0xe0060; 0x3fff860;
   0x3fff860; 0x3f0060; 0x7fc060; 0xeee060; 0x1cef3fc; 0x38e3bfc; 0x30e1c60; 0x3ff860;
   0x3ff060; 0x318060; 0x171c060; 0x3f9c260; 0x3f9c7e0; 0x380c3f8; 0x180e07e; 0x180600c;
   0x1807000; 0x1f83c00; 0xf81800; 0x0; 0x0; 0x0; 0x0; 0x202000;
   0x0; 0x0; 0x0; 0xe00000; 0x1ff8000; 0x7ffffc; 0x80fbfc; 0x1873060;
   0x1c63060; 0xc67060; 0xee6060; 0x7ee060; 0xfff060; 0x1fff3fc; 0xeaa3fc; 0x780060;
   0x1c0060; 0xe0060; 0x60060; 0x3fffc60; 0x3fff860; 0x607e0; 0x603f8; 0x6007e;
   0x6000c; 0x74000; 0x7c000; 0x78000; 0x0; 0x0; 0x0; 0x0;
   0x202000; 0x0; 0x0; 0x0; 0x70000; 0x60000; 0x603fc; 0x2aeabfc;
   0x3fffc60; 0x2aba860; 0x71c060; 0x60e060; 0xe07060; 0x1ffb860; 0x1fffffc; 0x382fbfc;
   0x1000060; 0x663060; 0x677060; 0x663060; 0x677060; 0x663260; 0x6737e0; 0x26633f8;
   0x667387e; 0x266180c; 0x7671c00; 0x3e60f00; 0x1c00600; 0x0; 0x0; 0x0;
   0x0; 0x202000; 0x0; 0x0; 0x0; 0x0; 0x3fbfe00; 0x3fffffe;
   0x308c1fe; 0x31ccc30; 0x188cc30; 0x19ccc30; 0x188cc30; 0x1dccc30; 0xc8ce30; 0xdffffc;
   0x18bfefc; 0x19cf030; 0x388f030; 0x31cf030; 0x308f830; 0x31cd830; 0x308d830; 0x31cddf0;
   0x3e8cff8; 0x1dcc77e; 0x8c30e; 0x1cd200; 0x8f800; 0x1c7000; 0x0; 0x0;
   0x0; 0x0; 0x202000; 0x0; 0x0; 0x0; 0xc60000; 0xc60c00;
   0xc61dfc; 0xc61dfc; 0xc61870; 0x3ffb830; 0x7ffb070; 0xc60030; 0xc60070; 0xc63e30;
   0xc63ffc; 0xc63bfc; 0x7fff870; 0x7ffb830; 0xc63870; 0xc63830; 0xc73870; 0xc73830;
   0xc739f0; 0xc3b9f8; 0xc17c7e; 0xee0c; 0x7ffc700; 0x3ff0300; 0x0; 0x0;
   0x0; 0x0; 0x0; 0x202000; 0x0; 0x0; 0x0; 0x1c0000;
   0xc0000; 0x15d4ffe; 0x3ffcdfe; 0x3ffdc30; 0x63830; 0x3f1030; 0x3b0030; 0x398030;
   0x3ffbe30; 0x3fffffc; 0x38bafc; 0x383830; 0x383830; 0x17d7830; 0x3fff830; 0x7fff830;
   0x383830; 0x3839f0; 0x3839f8; 0x383c7e; 0x38fe0c; 0x7ffc700; 0x3ff8300; 0x1540200;
   0x0; 0x0; 0x0; 0x0; 0x202000; 0x0; 0x0; 0x0;
   0x60000; 0x863000; 0x1c637fc; 0xc673fc; 0xc66060; 0x66e060; 0x664060; 0x1fff060;
   0x1fff060; 0x1eab060; 0x1c433fc; 0x1c633fc; 0x1c63060; 0x1c63060; 0x1c63060; 0x1c63060;
   0x1c63060; 0x1c63060; 0x1c737e0; 0x1cb33f8; 0x3f807e; 0xf9e00c; 0x3e0f800; 0x3803e00;
   0x3000c00; 0x0; 0x0; 0x0; 0x0; 0x202000; 0x0; 0x0;
   0x0; 0x30000; 0x70000; 0x607fc; 0x2aeabfc; 0x3fff860; 0x3aab860; 0x3801860;
   0x3801860; 0x60; 0x1fff060; 0x1fff3fc; 0xe03fc; 0xe0060; 0xe6060; 0xe7060;
   0x1fe6060; 0x1fe7060; 0xe7660; 0xe77e0; 0xef3f8; 0xef87e; 0xf980c; 0x7ff9c00;
   0x3fe0e00; 0x3f40400; 0x0; 0x0; 0x0; 0x0; 0x202000; 0x0;
   0x0; 0x0; 0x0; 0x3fff800; 0x3fffbfc; 0x3801bfc; 0x3801860; 0x3801860;
   0x3fff860; 0x3fff860; 0x1c1860; 0xc1860; 0x1c1bfc; 0x3fffbfc; 0x7fff860; 0xc1860;
   0x1c1860; 0xc1860; 0x1fffc60; 0x1fffa60; 0x180ffe0; 0x180eff8; 0x180ec7e; 0x180ee0c;
   0x1ffe600; 0x1ffe700; 0x180e600; 0x0; 0x0; 0x0; 0x0; 0x202000;
   0x0; 0x0; 0x0; 0x0; 0x2aaa800; 0x3fffffc; 0x3aaaffc; 0x3801c60;
   0x3988c60; 0x339dc60; 0x70e060; 0xe07060; 0x1c03860; 0x1861ffc; 0x860bfc; 0x60060;
   0x3fffc60; 0x3fffc60; 0xf8060; 0x1fc060; 0x3ec260; 0x76e7e0; 0xe673f8; 0x1c63c7e;
   0x3861e0c; 0x3060600; 0x60000; 0x60000; 0x0; 0x0; 0x0; 0x0;
   0x202000; 0x0; 0x0; 0x0; 0x9c000; 0x1dc000; 0x19c7fc; 0x38e3fc;
   0x10e060; 0x3ffe060; 0x3fff060; 0x187860; 0x187c60; 0x187c60; 0x1fffffc; 0x1ffe3fc;
   0x187060; 0x186060; 0x187060; 0xbae060; 0x1fff060; 0xbae260; 0x1877e0; 0x1863f8;
   0x18707e; 0x3ffe00c; 0x7fff000; 0x6000; 0x7000; 0x0; 0x0; 0x0;
   0x0; 0x202000; 0x0; 0x0; 0x0; 0x7000; 0x3000; 0x1fe71fc;
   0x3fe31fc; 0x3d7f070; 0x38ff030; 0x18c7070; 0x18c3030; 0x19c7070; 0x19aba30; 0x1dbfffc;
   0xdabbfc; 0x1d87070; 0xf83030; 0xf1f670; 0xf3b630; 0x737670; 0x7337b0; 0x7777f0;
   0xfe33fe; 0x1dc731c; 0x1cc3180; 0x38f7000; 0x3073c00; 0x1023c00; 0x0; 0x0;
   0x0; 0x0; 0x202000; 0x0; 0x0; 0x0; 0x0; 0x0;
   0x3fffffc; 0x3fffffc; 0x70060; 0x38060; 0x1c060; 0x303f060; 0x3c37c60; 0x1e61e60;
   0x7715fc; 0x7fb9fc; 0x7df060; 0xec7860; 0xde7c60; 0xdecc60; 0x1dfc460; 0x199c060;
   0x19cf3e0; 0x39c7bf8; 0x71c1efc; 0x20c0c0c; 0xf4000; 0x7e000; 0x3c000; 0x0;
   0x0; 0x0; 0x0; 0x202000; 0x0; 0x0; 0x0; 0x1c000;
   0xc000; 0x1fe3fc; 0x3fe3fc; 0x3d7060; 0x183860; 0x1c1c60; 0xfffe60; 0x1fffc60;
   0xc60060; 0x1c701fc; 0x2eea9fc; 0x7fffc60; 0x3fffc60; 0x1c70060; 0xc60060; 0x1fff860;
   0xfffa60; 0x1d753e0; 0x8603f8; 0x7007e; 0x6000c; 0x74000; 0x3e000; 0x1e000;
   0x0; 0x0; 0x0; 0x0; 0x202000; 0x0; 0x0; 0x0;
   0x70000; 0x60000; 0x1ff03fc; 0x1fe03fc; 0x70060; 0xaea860; 0x3fff860; 0x3aab860;
   0x3871860; 0x1fa1860; 0x7ff9fc; 0x2f9fc; 0x3071860; 0x1fe1860; 0x1fc1860; 0x1860].
Definition hanzi_data_271 : list N :=
  [0x3f9c60; 0x3b9a60; 0x319fe0; 0x318ff8; 0x7318c7c; 0x231ce0c; 0x330e700; 0x3f0f700;
   0x1e07200; 0x0; 0x0; 0x0; 0x0; 0x202000; 0x0; 0x0;
   0x0; 0xc0000; 0xe0000; 0xe03fc; 0x3fffbfc; 0x3fff860; 0x60060; 0x1f0060;
   0x7f8060; 0x1f1f060; 0x3c0f860; 0x1001bfc; 0x3fffffc; 0x7fffc60; 0xc00060; 0x1cff060;
   0xcff060; 0x1cd7060; 0xcc3260; 0x1cc37e0; 0xceb3f8; 0x1cff07e; 0xc0300c; 0x1c03000;
   0xf80000; 0xf80000; 0x0; 0x0; 0x0; 0x0; 0x202000; 0x0;
   0x0; 0x0; 0x0; 0xfff800; 0x1fffffc; 0xc03bfc; 0x1c03860; 0xfff860;
   0x1fff860; 0xc03860; 0x1c03860; 0xeab860; 0x1fffbfc; 0xaaabfc; 0x1c3860; 0x183860;
   0x11c3860; 0x3dbf860; 0x1fff860; 0x3ab860; 0x1c3f60; 0x183fe0; 0x71c39fe; 0x31a383e;
   0x35ff804; 0x3f9f800; 0x1f01800; 0x0; 0x0; 0x0; 0x0; 0x202000;
   0x0; 0x0; 0x0; 0xe0e000; 0xe0e000; 0xe0e7fc; 0xe0e3fc; 0x3fff860;
   0x3fff860; 0xe0e060; 0xe0e060; 0xffe060; 0xffe060; 0xe0e3fc; 0xe0e3fc; 0xffe060;
   0xffe060; 0xe0e060; 0xe0e060; 0x7fffc60; 0x3fffe60; 0x55557e0; 0x31c3f8; 0xf1e07e;
   0x1e0f00c; 0x3c07800; 0x3801c00; 0x1000c00; 0x0; 0x0; 0x0; 0x0;
   0x202000; 0x0; 0x0; 0x0; 0xc0000; 0xe0000; 0x3fffffc; 0x3fffbfc;
   0x60060; 0x60060; 0x1fff060; 0x1fff060; 0x38060; 0x2aba860; 0x7fffffc; 0x2baebfc;
   0x76e060; 0xe67060; 0x1fff860; 0x3ffdc60; 0x3574c60; 0x60260; 0x15757e0; 0x1fffbf8;
   0x1fff87e; 0x6000c; 0x60000; 0x60000; 0x60000; 0x0; 0x0; 0x0;
   0x0; 0x202000; 0x0; 0x0; 0x0; 0x70000; 0x60000; 0x603fc;
   0x3fffffc; 0x3fffc70; 0x3000c60; 0x3001c70; 0x2003860; 0x1fd7070; 0x1fbf060; 0x19ffbfc;
   0x18b9bfc; 0x19d9c70; 0x1898c60; 0x19dbe70; 0x189f660; 0x1fde070; 0x1e8c260; 0x5cc7f0;
   0x8e3f8; 0x71c707e; 0x308300c; 0x31c3c00; 0x3f81e00; 0x1f00c00; 0x0; 0x0;
   0x0; 0x0; 0x202000; 0x0; 0x0; 0x0; 0x0; 0xfff800;
   0xfffffc; 0xc003fc; 0xc00060; 0xfff060; 0xfff060; 0xc00060; 0xc00060; 0x3fff860;
   0x3fffffc; 0x2aeabfc; 0x1061060; 0x3863860; 0x1e67060; 0x7ee060; 0x3f4060; 0x3f8660;
   0x77c7e0; 0xe6f3f8; 0x3c67c7e; 0x3861c0c; 0x3060000; 0x7c000; 0x7c000; 0x0;
   0x0; 0x0; 0x0; 0x202000; 0x0; 0x0; 0x0; 0x70000;
   0x60000; 0x607fc; 0x2aeabfc; 0x3fffc60; 0x3aab860; 0x3001c60; 0x3001860; 0xfff060;
   0xffe060; 0x3fc; 0x3fc; 0x60; 0x3fff860; 0x3fffc60; 0xe0060; 0x4e0060;
   0xee6060; 0xce77e0; 0x1ce3bf8; 0x38e1c7c; 0x38e0e0c; 0x30e0e00; 0xfc000; 0x78000;
   0x0; 0x0; 0x0; 0x0; 0x202000; 0x0; 0x0; 0x0;
   0x70000; 0x60000; 0xe03fc; 0x3fffbfc; 0x3fffc60; 0x3800860; 0x3801c60; 0x3ffe860;
   0x7ff060; 0x602060; 0x6073fc; 0x6023fc; 0x7ff060; 0x7fe060; 0x7060; 0x2060;
   0x1fff060; 0xffe260; 0x1c077e0; 0xc023f8; 0x1c0707e; 0xc0200c; 0x1fff000; 0xffe000;
   0x1c07000; 0x0; 0x0; 0x0; 0x0; 0x202000; 0x0; 0x0;
   0x0; 0x60000; 0x60000; 0x1c673fc; 0x1c633fc; 0xc73060; 0x663860; 0x771c60;
   0x1f0060; 0x7f8060; 0xf1e060; 0x1e0fffc; 0x3863bfc; 0x1060860; 0x860060; 0x1c73060;
   0x1c63060; 0xe73860; 0x671a60; 0x7f1fe0; 0xf8bf8; 0x1dc07e; 0x78e00c; 0x1f07c00;
   0x3e03e00; 0x1000c00; 0x0; 0x0; 0x0; 0x0; 0x202000; 0x0;
   0x0; 0x0; 0x19c000; 0x198000; 0x19c7fc; 0x1983fc; 0x159d060; 0x3f9f860;
   0x3f9fc60; 0x198060; 0x19c060; 0x198060; 0x3f9fffc; 0x3f9fbfc; 0x19c060; 0x198060;
   0x19c060; 0x198060; 0x7f9fc60; 0x3f9fe60; 0x19c3e0; 0x1983f8; 0x19c07e; 0x19800c;
   0x19c000; 0x198000; 0x19c000; 0x0; 0x0; 0x0; 0x0; 0x202000;
   0x0; 0x0; 0x0; 0x307000; 0x303000; 0x3073fc; 0x3033fc; 0x307070;
   0x303060; 0x3fffe70; 0x3fffe60; 0x707070; 0x7831fc; 0x7879fc; 0xf8f8e8; 0xfdf870;
   0xffb860; 0x1fd7c70; 0x1b63c60; 0x1b67770; 0x33337e0; 0x73377fe; 0x633b3be; 0x2317104;
   0x303000; 0x307000; 0x303000; 0x307000; 0x0; 0x0; 0x0; 0x0;
   0x202000; 0x0; 0x0; 0x0; 0x0; 0x3ff9ffc; 0x3ffdffc; 0x180180;
   0x1801c0; 0x1ff8ff8; 0x1ff9ff8; 0x180180; 0x15d15d4; 0x3ff9ffc; 0x3fffffc; 0xf800;
   0x7dc00; 0xf2f80; 0x7e77e0; 0x3f8e0f8; 0x3c1c07c; 0x3fffe8; 0x3fffe0; 0x1c0000;
   0x1e0000; 0xe0000; 0x70000; 0x38000; 0x1c000; 0x0; 0x0; 0x0;
   0x0; 0x202000; 0x0; 0x0; 0x0; 0x0; 0x2aa8aa8; 0x3ffdffc;
   0x2ba8ba8; 0x180180; 0xba8ba8; 0x1ffdff8; 0xba8ba8; 0x180180; 0x180180; 0x3ffdffc;
   0x3ffdffc; 0x14010; 0x18030; 0x1c1c070; 0x1f1bff0; 0x7dfff0; 0xf8ab0; 0x3c070;
   0x3018030; 0x301c070; 0x301be30; 0x3fffff8; 0x1ff83f8; 0x10; 0x0; 0x0;
   0x0; 0x0; 0x202000; 0x0; 0x0; 0x0; 0x0; 0x3ffdffc;
   0x3ffdffc; 0x180180; 0x1801c0; 0x1ff9ff8; 0x1ffdff8; 0x180180; 0x1811c0; 0x3ffdffc;
   0x3ffdffc; 0x0; 0xfffff0; 0xfffff0; 0xe06070; 0xe06070; 0xf57570; 0xfffff0;
   0xfffff0; 0x70; 0x3000070; 0x3800070; 0x3fffff0; 0x1ffffe0; 0x7fffc0; 0x0;
   0x0; 0x0; 0x0; 0x202000; 0x0; 0x0; 0x0; 0x70000;
   0x60000; 0xe07fc; 0x3fffbfc; 0x3fff860; 0x60; 0x60; 0x1fff060; 0x1fff060;
   0x1c03060; 0x1c073fc; 0x1c033fc; 0x1c07060; 0x1fff060; 0x1fff060; 0xe0060; 0x4e6060;
   0xeee060; 0x1ce77e0; 0x18e3ff8; 0x18e38fe; 0x38e1c0c; 0x30f4c00; 0x7c000; 0x7c000;
   0x0; 0x0; 0x0; 0x0; 0x202000; 0x0; 0x0; 0x0].
Definition hanzi_data_272 : list N :=
  [0xc00000; 0x1ffe000; 0x7ffffc; 0x62bfc; 0x60060; 0x1fff860; 0x1fff860; 0x1861860;
   0x1861860; 0x1861ae8; 0x1fffbfc; 0x1fffbf8; 0x60060; 0x60060; 0x3fffc60; 0x3fff860;
   0x3961f60; 0x3b60be0; 0x3f61dfc; 0x3ffe83e; 0x3d7fc04; 0x3800800; 0x3801c00; 0x3e00800;
   0x1e01c00; 0x0; 0x0; 0x0; 0x0; 0x202000; 0x0; 0x0;
   0x0; 0x0; 0x3fff800; 0x3fffffc; 0x3001bfc; 0x37fd860; 0x37fd860; 0x3001860;
   0x3001860; 0x37fd860; 0x37fd860; 0x3001bfc; 0x3fc; 0x1fff060; 0x1aab060; 0x1c07060;
   0x1fff060; 0x1fff060; 0x1803260; 0x1d577e0; 0x1fff1f8; 0x1c0707c; 0x180300c; 0x1fff000;
   0x1fff000; 0x1c07000; 0x0; 0x0; 0x0; 0x0; 0x202000; 0x0;
   0x0; 0x0; 0x0; 0x3fff800; 0x3fffffc; 0x30c3bfc; 0x30c3d74; 0x30c3860;
   0x35d7860; 0x3fff860; 0x3fff860; 0x3860; 0x1fffbfc; 0x1fffbfc; 0x181f860; 0x180f860;
   0x1ffd860; 0x1ffd860; 0x181d860; 0x180db60; 0x1ffdff0; 0x1ffcdfe; 0x181cc3c; 0x180ce00;
   0x1ffc600; 0x1ffc700; 0x181c200; 0x0; 0x0; 0x0; 0x0; 0x202000;
   0x0; 0x0; 0x0; 0x60000; 0x60000; 0x15753fc; 0x3fffbfc; 0x1fff860;
   0x30060; 0x1fff060; 0x1fff060; 0x38060; 0x18060; 0x7fffdfc; 0x3fffdfc; 0x70e060;
   0xe06060; 0x1fff860; 0x3fffc60; 0x7e07e60; 0x2606e60; 0x7fe3e0; 0x7fe3f8; 0x60607e;
   0x60600c; 0x7fe000; 0x7fe000; 0x606000; 0x0; 0x0; 0x0; 0x0;
   0x202000; 0x0; 0x0; 0x0; 0x70000; 0x60000; 0x603fc; 0x3fffbfc;
   0x3fffc60; 0x3800860; 0x3801c60; 0x3ffe860; 0x7ff060; 0x60; 0xfff3fc; 0xfff3fc;
   0xc03060; 0xc03060; 0xfff060; 0xfff060; 0xc03060; 0xc03260; 0xfff7e0; 0xfff3f8;
   0x7e; 0xc; 0x3fffc00; 0x3fffc00; 0x0; 0x0; 0x0; 0x0;
   0x0; 0x202000; 0x0; 0x0; 0x0; 0x0; 0xffe000; 0x1fff7fc;
   0x8067fc; 0x1c07574; 0xffe060; 0x1fff060; 0x806060; 0x1fff060; 0xffe060; 0x7fc;
   0x3fc; 0x3fff860; 0x3fff860; 0xe0060; 0xe6060; 0x15e7060; 0x1fe3660; 0x1fe77f0;
   0xe71fe; 0xef83c; 0xfd800; 0x7ff9c00; 0x3ff0e00; 0x3fc0400; 0x0; 0x0;
   0x0; 0x0; 0x202000; 0x0; 0x0; 0x0; 0x0; 0x1fff000;
   0x1fff7fc; 0x18037fc; 0x1803060; 0x1fff060; 0x1fff060; 0x1803060; 0x1803060; 0x1fff3fc;
   0x1fff3fc; 0xe6060; 0xe7060; 0x2aeb060; 0x3fff860; 0xaeb860; 0xe1fe0; 0xe0ff0;
   0x1fff0fe; 0x1fff01e; 0xe0004; 0xe0000; 0x7fffe00; 0x3fffe00; 0x5555400; 0x0;
   0x0; 0x0; 0x0; 0x202000; 0x0; 0x0; 0x0; 0xe000;
   0xe000; 0xffe1fc; 0x7fe1fc; 0x607070; 0x603020; 0x7ff070; 0x7ff020; 0x700070;
   0x3fffc20; 0x7fffdfc; 0x381fc; 0x181f070; 0x3e3fc20; 0xf71c70; 0x3fc020; 0x6ef070;
   0x6e3e20; 0xef1df0; 0xcfc1f8; 0x1dcf07e; 0x38c3c0e; 0x70e1f00; 0x20fc200; 0x7c000;
   0x0; 0x0; 0x0; 0x0; 0x202000; 0x0; 0x0; 0x0;
   0x60000; 0x60000; 0x603fc; 0x3fffffc; 0x3fffd74; 0x60060; 0x60060; 0x1fff860;
   0x1fff860; 0x1a61860; 0x1f65bfc; 0x1b6dbfc; 0x196d860; 0x1969860; 0x1fff860; 0x1fff860;
   0x1f8060; 0x3fc3e0; 0x76e3f8; 0xe670fe; 0x1c6781c; 0x3861e00; 0x3060e00; 0x60000;
   0x60000; 0x0; 0x0; 0x0; 0x0; 0x202000; 0x0; 0x0;
   0x0; 0x60000; 0x60000; 0x707fc; 0xfffbfc; 0x1fff860; 0xc03860; 0x1c03860;
   0xfff860; 0x1fff860; 0xc03860; 0x1d57bfc; 0xfffbfc; 0x1fff060; 0x860060; 0x1ce5460;
   0xcef860; 0x7efc60; 0x3ee660; 0x3667e0; 0x7673f8; 0xe6387e; 0x3c61c0c; 0x3861e00;
   0x107c400; 0x7c000; 0x0; 0x0; 0x0; 0x0; 0x202000; 0x0;
   0x0; 0x0; 0x0; 0x1fdfc00; 0x1fdfdfe; 0x1818dfe; 0x1818c70; 0x1818c30;
   0x1818c70; 0x1818c30; 0x1fdfc70; 0x1fdfc30; 0xdfc; 0xdfc; 0x3fffc70; 0x3fefc30;
   0x18d5c70; 0x18c0c30; 0x1dc0c70; 0xd8ac30; 0xf9fdf0; 0x70adf8; 0x700c7e; 0xf80c0e;
   0x1df0c00; 0x3878c00; 0x3030c00; 0x0; 0x0; 0x0; 0x0; 0x202000;
   0x0; 0x0; 0x0; 0xc000; 0xfde000; 0xfc7dfe; 0xcc1dfe; 0xcc1c70;
   0xcc0c30; 0xcc5c70; 0xcefc30; 0x5c6fc70; 0x7c60c30; 0x71dfc; 0x30dfc; 0x3fffc70;
   0x3fefc30; 0x1861c70; 0x18c0c30; 0x1cc1c70; 0xd88c30; 0xf9fff0; 0x78fff8; 0x781e7e;
   0xfc0c04; 0x3df1c00; 0x3878c00; 0x3011c00; 0x0; 0x0; 0x0; 0x0;
   0x202000; 0x0; 0x0; 0x0; 0xc00000; 0x1ffe800; 0x7ffd54; 0x1c30bfc;
   0xc33bfc; 0xe23060; 0x777060; 0x3fffc60; 0x3fffc60; 0xc060; 0xc3fc; 0x3fffffc;
   0x3fffd74; 0xe060; 0x556060; 0xffe060; 0xd5f060; 0x60f260; 0x71f7e0; 0x3bbbf8;
   0x1f1c7e; 0x3e0c0c; 0x1ffcf00; 0x3e1f780; 0x3807300; 0x0; 0x0; 0x0;
   0x0; 0x202000; 0x0; 0x0; 0x0; 0x1046000; 0x38e7000; 0x1c633fc;
   0xe73bfc; 0x731d74; 0x738c60; 0xe71c60; 0xc63860; 0x1ce7060; 0x39c6060; 0x31e63fc;
   0x603fc; 0x3fff860; 0x3fff860; 0x3901860; 0x3b09860; 0x39fd860; 0x38f1be0; 0x39f1ff0;
   0x3bb98fe; 0x3f1f81c; 0x3805800; 0x3fff800; 0x3fff800; 0x3801800; 0x0; 0x0;
   0x0; 0x0; 0x202000; 0x0; 0x0; 0x0; 0x3000; 0x3fc3000;
   0x3fc31fc; 0x38c31fc; 0x38c3070; 0x38cba30; 0x38dff70; 0x3acba30; 0x3fc3070; 0x3fc3030;
   0x38c31fc; 0x38c31fc; 0x38d7470; 0x38dfe30; 0x3fdfe70; 0x3fd8630; 0x38dc670; 0x38d8630;
   0x38dc7f0; 0x38f87f8; 0x387fe7e; 0x387fe0c; 0x3870600; 0x3e38200; 0x1e10000; 0x0;
   0x0; 0x0; 0x0; 0x202000; 0x0; 0x0; 0x0; 0x70c000;
   0x20c000; 0x70c7fc; 0x3fffffc; 0x3fffd74; 0x20c060; 0x76c060; 0x268060; 0x1575060;
   0x1fff060; 0x1fff3fc; 0x18633fc; 0x1c63060; 0x1863060; 0x1c63060; 0x3fffc60; 0x7fffc60].
Definition hanzi_data_273 : list N :=
  [0xf0660; 0x1f07f0; 0x3b83fe; 0x71c03e; 0xf0e000; 0x1e07c00; 0x3803e00; 0x3000400;
   0x0; 0x0; 0x0; 0x0; 0x202000; 0x0; 0x0; 0x0;
   0x60000; 0x60000; 0xf83fe; 0x1fc3fe; 0x79f070; 0xe07860; 0x7d57e70; 0x37ffe60;
   0x7ff470; 0x800060; 0x193fdfc; 0x19bfdfc; 0x19b0c70; 0x19b0c60; 0x19bfc70; 0x19bfc60;
   0x19b0c70; 0x19bac60; 0x19bfdf0; 0x19b0ff8; 0x1930c7e; 0x1830c0e; 0x1834c00; 0x1f3cc00;
   0x1f1cc00; 0x0; 0x0; 0x0; 0x0; 0x202000; 0x0; 0x0;
   0x0; 0x60000; 0x60000; 0x707fc; 0x1fff7fc; 0x1fff7fc; 0x1803060; 0x1d57060;
   0x1fff060; 0x1d57060; 0x1803060; 0x1fff3fc; 0x1fff3fc; 0x1555060; 0x60; 0x3fff860;
   0x3fff860; 0x60460; 0x60760; 0x1fff7f0; 0x1fff1fe; 0x6003c; 0x60000; 0x7fffc00;
   0x3fffc00; 0x0; 0x0; 0x0; 0x0; 0x0; 0x202000; 0x0;
   0x0; 0x0; 0x60000; 0x1861800; 0x1861bfc; 0x1861bfc; 0x1861870; 0x1861860;
   0x1fff870; 0x1fff860; 0x70; 0x2aaa860; 0x7fffdfc; 0x3fffdfc; 0x70070; 0x30060;
   0x3fff870; 0x3fff860; 0x3199870; 0x3199860; 0x3199bf0; 0x3199bf8; 0x319987c; 0x319980c;
   0x3199800; 0x3d99800; 0x1d99800; 0x0; 0x0; 0x0; 0x0; 0x202000;
   0x0; 0x0; 0x0; 0x0; 0x2aa8aa8; 0x3ffdffc; 0x2ba8ba8; 0x1801c0;
   0x180180; 0x1ffdff8; 0x1ff8ba8; 0x1801c0; 0x180180; 0x3fffff4; 0x3fffffc; 0x101c5c;
   0x383800; 0x1cf000; 0xec620; 0x770670; 0xe38630; 0x1c1e630; 0x1c0fe38; 0x3987e1c;
   0x7180f88; 0x11c07f8; 0x1ffef8; 0xffc18; 0x0; 0x0; 0x0; 0x0;
   0x202000; 0x0; 0x0; 0x0; 0x70000; 0x60000; 0xe03fc; 0x3fffbfc;
   0x3fffc60; 0x3001860; 0x3301c60; 0x331d860; 0xe0e060; 0xce7060; 0x1c739fc; 0x18f19fc;
   0x1f8060; 0x79c060; 0x1f0f060; 0x3c07860; 0x3fffe60; 0x2ffee60; 0xc063e0; 0xc063f8;
   0xc0607e; 0xc0600c; 0xffe000; 0xffe000; 0xc06000; 0x0; 0x0; 0x0;
   0x0; 0x202000; 0x0; 0x0; 0x0; 0x60000; 0x60000; 0x15753fc;
   0x3fffbfc; 0x3fff870; 0x30060; 0x1fff070; 0x1fff060; 0x18070; 0x2aba860; 0x7fffdfc;
   0x2fae9fc; 0x707070; 0xffb860; 0x3cffc70; 0x3060e60; 0x3575470; 0x1fffa60; 0x1fffbf0;
   0x3f83f8; 0x77c07e; 0x1e6700c; 0x1c63c00; 0x61800; 0x60000; 0x0; 0x0;
   0x0; 0x0; 0x202000; 0x0; 0x0; 0x0; 0x0; 0x2aaa800;
   0x3fffffc; 0x2bbabfc; 0x1999060; 0x199b860; 0x1d9b060; 0xd9b060; 0xd9f060; 0x59a060;
   0x3fffdfc; 0x3fffdfc; 0x60; 0x60; 0x1fff060; 0xfff060; 0x1c03060; 0xc03260;
   0x1fff3e0; 0xfff3f8; 0x1c0307e; 0xc0300c; 0x1fff000; 0xfff000; 0x1c03000; 0x0;
   0x0; 0x0; 0x0; 0x202000; 0x0; 0x0; 0x0; 0x38010;
   0x300f8; 0x3ffffe0; 0x3fffe80; 0x78701c; 0xfff83c; 0x1fffc70; 0xe20880; 0x6319c0;
   0x6318e0; 0x2631860; 0x2631830; 0x3e31e38; 0x3e30f98; 0x300; 0x1fffff0; 0x1fffff0;
   0x6000; 0x557540; 0x7fffe0; 0xe6000; 0x1c6000; 0x3fffffc; 0x3fffffc; 0x1555554;
   0x0; 0x0; 0x0; 0x0; 0x202000; 0x0; 0x0; 0x0;
   0x70000; 0x60000; 0x603fc; 0x3fffbfc; 0x3fffc60; 0xc1860; 0x5d5c60; 0xfff860;
   0x1ffdc60; 0x8c1860; 0x3fffffc; 0x3fffbfc; 0x1cc1c60; 0xaeb860; 0x1fffc60; 0xc0c60;
   0xc1c60; 0x1ffee60; 0x1ffefe0; 0x1806ff8; 0x1c0667e; 0x180660c; 0x1ffe700; 0x1ffe300;
   0x1c06200; 0x0; 0x0; 0x0; 0x0; 0x202000; 0x0; 0x0;
   0x0; 0xe0000; 0x60000; 0x703fc; 0x1fffbfc; 0x1fff860; 0x1861860; 0x1c61860;
   0x1aeb860; 0x1fff860; 0x1861860; 0x1c71bfc; 0x1861bfc; 0x1fff860; 0x1fff860; 0x670060;
   0x678060; 0xe78060; 0x1a78260; 0x1f7c7e0; 0x3fee3f8; 0x176707e; 0x206380c; 0x7561c00;
   0x3fe0e00; 0x1540400; 0x0; 0x0; 0x0; 0x0; 0x202000; 0x0;
   0x0; 0x0; 0x60000; 0x60000; 0x15753fc; 0x3fffbfc; 0x3fff860; 0x30060;
   0xfff060; 0xfff060; 0xc03060; 0xfff060; 0xfff3fc; 0xc033fc; 0xfff060; 0xeab060;
   0xc03060; 0xfff060; 0xd57060; 0xc033e0; 0x7fffff0; 0x3fffcf8; 0x71c03c; 0xf0e00c;
   0x1c07800; 0x3803c00; 0x1000c00; 0x0; 0x0; 0x0; 0x0; 0x202000;
   0x0; 0x0; 0x0; 0x703000; 0x703000; 0x3073fc; 0x38e3fc; 0x3fffe70;
   0x3fffe60; 0x30070; 0x38060; 0x1fffc70; 0x1fffc60; 0x181fc; 0x181fc; 0x7fffe70;
   0x3fffe60; 0xe070; 0x6060; 0x1fff070; 0x1fffb60; 0xc1ff0; 0xc1df8; 0xc0f7e;
   0xc078c; 0x3ffff00; 0x3fff800; 0x0; 0x0; 0x0; 0x0; 0x0;
   0x202000; 0x0; 0x0; 0x0; 0x800000; 0x1fe0000; 0x1fffffc; 0x83fbfc;
   0x1c31070; 0xc63860; 0xc63070; 0x663060; 0x707070; 0x1fff060; 0x1fff9fc; 0x619fc;
   0x61c70; 0x60860; 0x7fffc70; 0x3fffc60; 0x1575470; 0x1860b60; 0x1861bf0; 0x18619f8;
   0x186187c; 0x186180c; 0x1fff800; 0x1fff800; 0x1800000; 0x0; 0x0; 0x0;
   0x0; 0x202000; 0x0; 0x0; 0x0; 0x1c00000; 0x1ffe800; 0x7ff954;
   0x1822bfc; 0x1c733fc; 0xe63060; 0x667060; 0x3fffc60; 0x3fffc60; 0x301cc60; 0x301cffc;
   0x1fffbfc; 0x1fff974; 0xc060; 0xc060; 0xffe060; 0xffe060; 0xe0e260; 0x71f7e0;
   0x3bb9f8; 0x1f187e; 0x3e1c0c; 0x1ffce00; 0x3e3f600; 0x3c07600; 0x0; 0x0;
   0x0; 0x0; 0x202000; 0x0; 0x0; 0x0; 0x60e000; 0x60e000;
   0x3fffffc; 0x3fffbfc; 0x60e060; 0x6ae060; 0x7fe060; 0x2e8060; 0x1fff060; 0x1fff060;
   0x18e33fc; 0x18e33fc; 0x1fff060; 0x1fff060; 0xe0060; 0x3fff860; 0x3fff860; 0xe0260;
   0xe03e0; 0x1fffbf8; 0x1fff07e; 0xe000c; 0x3fffc00; 0x3fffc00; 0x1555400; 0x0;
   0x0; 0x0; 0x0; 0x202000; 0x0; 0x0; 0x0; 0xe0000].
Definition hanzi_data_274 : list N :=
  [0x38e3800; 0x38e3bfc; 0x38e3bfc; 0x38e3974; 0x3fff860; 0x3fff860; 0x82060; 0xc7060;
   0x1c3060; 0x3fff1fc; 0x3fff9fc; 0x1c3c60; 0xc3e60; 0x3ffff60; 0x3fff660; 0x1c3060;
   0xc3260; 0x3fff3f0; 0x3fff3fe; 0x1c307c; 0xc3000; 0x7fff000; 0x3fff000; 0x3000;
   0x0; 0x0; 0x0; 0x0; 0x202000; 0x0; 0x0; 0x0;
   0x60000; 0x60000; 0x15753fc; 0x1fffbfc; 0x1fff974; 0x1831860; 0x1bf1860; 0x1bb9860;
   0x199f860; 0x18f5860; 0x19e1bfc; 0x1bb9bfc; 0x1b1d860; 0x1aaf860; 0x1fff860; 0xaaa860;
   0x60060; 0x8ccb60; 0x1dcdbf0; 0x198d9fe; 0x3a0dc1c; 0x360cc00; 0x77fce00; 0x3fc400;
   0x1f0000; 0x0; 0x0; 0x0; 0x0; 0x202000; 0x0; 0x0;
   0x0; 0x70000; 0x60000; 0x3fffffc; 0x3fffffc; 0x3fffd74; 0x1b0b060; 0x1dfb060;
   0x18e3060; 0x1df3060; 0x1bbb060; 0x1d0f1fc; 0x1fff1fc; 0x1fff060; 0x60060; 0x1575060;
   0x3fff860; 0x3fffc60; 0x3999a60; 0x3b1dff0; 0x3bed9fe; 0x3ffdc1c; 0x3e0d800; 0x3801c00;
   0x3f01800; 0x1f01c00; 0x0; 0x0; 0x0; 0x0; 0x202000; 0x0;
   0x0; 0x0; 0x0; 0x1fdf800; 0x1fdfffc; 0x1898bfc; 0x19d9c60; 0x1b9b060;
   0x1d1c060; 0x1f9e060; 0x1bdfc60; 0x18d8860; 0x18701fc; 0xf81fc; 0x3dc060; 0xf8e060;
   0x7e67c60; 0x3871c60; 0x311c460; 0x18f060; 0xcf21e0; 0xe383f8; 0x71f07c; 0x3e200c;
   0xfc000; 0x3f800; 0x7000; 0x0; 0x0; 0x0; 0x0; 0x202000;
   0x0; 0x0; 0x0; 0xc1000; 0xc1800; 0xc39fe; 0xe31fe; 0x7fe5530;
   0x3feff30; 0x7ff30; 0x30c30; 0x1ff0c30; 0x3fe0c30; 0x374fdfc; 0x330fcfc; 0x334cc30;
   0x36ec30; 0x36cc30; 0x3f6ec30; 0x3f6e430; 0x36e630; 0x3767f0; 0x37e7f8; 0x3f677e;
   0x3f630e; 0x7fbf300; 0x3f1fb80; 0x1413900; 0x0; 0x0; 0x0; 0x0;
   0x202000; 0x0; 0x0; 0x0; 0x303000; 0x383000; 0x3831fe; 0x1bfffe;
   0x1bfe70; 0x3f83030; 0x7fc3070; 0x18dfe30; 0x18dfe70; 0x18e3030; 0x1df31fc; 0x19a30fc;
   0x1dbff70; 0xdbff30; 0xd81c70; 0xf00c30; 0xf1fc70; 0x71fc30; 0x718df0; 0xf18df8;
   0xf98e7e; 0x1d9860e; 0x39fd700; 0x30ef380; 0x3067100; 0x0; 0x0; 0x0;
   0x0; 0x202000; 0x0; 0x0; 0x0; 0x70000; 0x60000; 0x3fffbfc;
   0x3fffbfc; 0x70c060; 0x30c060; 0x7fffc60; 0x3fffc60; 0x60; 0xaaa060; 0x1fff3fc;
   0x18033fc; 0x1d57060; 0x1fff060; 0x1c03060; 0x1803060; 0x1fff060; 0xaea260; 0x607e0;
   0x3fffff8; 0x7fffc7c; 0x6000c; 0x60000; 0x60000; 0x60000; 0x0; 0x0;
   0x0; 0x0; 0x202000; 0x0; 0x0; 0x0; 0x0; 0x1fdfc00;
   0x1fdfffc; 0x16daffc; 0x16dec70; 0x16dac60; 0x16dec70; 0x12dac60; 0x17dbc70; 0x12dbc60;
   0x7071fc; 0xf8f9fc; 0x1dd9c70; 0x38e8e60; 0x1058470; 0x18060; 0x7fffe70; 0x2eaea60;
   0x7063f0; 0x38f3f8; 0x1ff07e; 0x3f800c; 0x1fff000; 0x3e0fe00; 0x1801c00; 0x0;
   0x0; 0x0; 0x0; 0x202000; 0x0; 0x0; 0x0; 0x180000;
   0x18fe00; 0x18fffe; 0x3f8c7fe; 0x1fcc670; 0x18cc630; 0x1dec670; 0xdec630; 0xdffe70;
   0x72fe30; 0x7031fc; 0x7030fc; 0xf83670; 0x1dcf630; 0x38ff670; 0x3ff3630; 0x3ff3670;
   0x38e3630; 0x38e37f0; 0x38e37f8; 0x38ff67e; 0x38fff0e; 0x3fe7f00; 0x3fe0300; 0x38e0000;
   0x0; 0x0; 0x0; 0x0; 0x202000; 0x0; 0x0; 0x0;
   0xc0000; 0x8ff800; 0x1ddfbfc; 0x7983fc; 0x139d860; 0x3b0f860; 0x1f0f060; 0xeae060;
   0x1fff060; 0x3eab860; 0x7801ffc; 0x2fffdfc; 0xfff060; 0xc03060; 0xc07060; 0xeab060;
   0xfff060; 0xaaa260; 0x70e3e0; 0x30c3f8; 0x31c07e; 0x39800c; 0x3fffc00; 0x3fffc00;
   0x0; 0x0; 0x0; 0x0; 0x0; 0x202000; 0x0; 0x0;
   0x0; 0x471000; 0x1c63800; 0xe771fe; 0x6661fe; 0x1777470; 0x3fffc30; 0x3fffc70;
   0x1fc030; 0x77f070; 0x1e67830; 0x7c71ffc; 0x1862dfc; 0xc07070; 0x2e8b030; 0x3fff870;
   0xc3b830; 0xcd9c70; 0xcd9e30; 0xcdf7f0; 0x3fce1f8; 0x7fc607e; 0xc0300e; 0xc03c00;
   0xc00e00; 0xc00400; 0x0; 0x0; 0x0; 0x0; 0x202000; 0x0;
   0x0; 0x0; 0x70c000; 0x30c000; 0x175d3fc; 0x1fffbfc; 0x1fffc60; 0x30c060;
   0x70c060; 0x3fffc60; 0x3fffc60; 0x60060; 0x1fffbfc; 0x1fffbfc; 0x1c61860; 0x1861860;
   0x1fff860; 0x1fff860; 0x1c61860; 0x1861a60; 0x1fffbe0; 0x1fffbf8; 0x70c07e; 0xf0e00c;
   0x1e07800; 0x3803e00; 0x1000c00; 0x0; 0x0; 0x0; 0x0; 0x202000;
   0x0; 0x0; 0x0; 0x198000; 0x3999800; 0x1999bfc; 0xd9b3fc; 0xd9b070;
   0x3fffc60; 0x3fffc70; 0xe06060; 0x60e070; 0x70c060; 0x3fffdfc; 0x3fffdfc; 0x60070;
   0x60060; 0x1fff870; 0x1fff860; 0x60070; 0x3fffe60; 0x7fffff0; 0xf03f8; 0x1f807e;
   0x39e00c; 0x1f0f000; 0x3c03e00; 0x3000c00; 0x0; 0x0; 0x0; 0x0;
   0x202000; 0x0; 0x0; 0x0; 0x0; 0x1fff800; 0x1fffbfc; 0x1803bfc;
   0x1fff860; 0x1fff860; 0x1c03860; 0x1fff860; 0x1fff860; 0x60060; 0x7fffffc; 0x3fffffc;
   0x60; 0xfff060; 0xfff060; 0xc03060; 0xc03060; 0xfff260; 0xfff7e0; 0x623f8;
   0xf6707e; 0x1c6380c; 0x3861c00; 0x307ce00; 0x107c400; 0x0; 0x0; 0x0;
   0x0; 0x202000; 0x0; 0x0; 0x0; 0xf00000; 0x1ffe800; 0x1ffffc;
   0xc62bfc; 0xc67060; 0xe66060; 0x76e060; 0x3fffc60; 0x3fffc60; 0x3f8060; 0x77c3fc;
   0xe6e3fc; 0x1e67060; 0x3863860; 0x3fffe60; 0xfffc60; 0x1c63460; 0xc637e0; 0x1fff7fc;
   0xfff0fe; 0x1c6301c; 0xc63000; 0x1fff000; 0xfff000; 0x1c03000; 0x0; 0x0;
   0x0; 0x0; 0x202000; 0x0; 0x0; 0x0; 0x319800; 0x319800;
   0x35ddfe; 0x3ffffe; 0x1ffe30; 0x3f99830; 0x7f99c30; 0x1980c30; 0x19ffc30; 0x19ffe30;
   0x19f07fc; 0x19f06fc; 0x1f77f30; 0xf37e30; 0xf36630; 0xf36630; 0xf36630; 0x6367b0].
Definition hanzi_data_275 : list N :=
  [0xf37ff0; 0xf3aefe; 0x1f9861c; 0x1998000; 0x39d8000; 0x70ff000; 0x204f000; 0x0;
   0x0; 0x0; 0x0; 0x202000; 0x0; 0x0; 0x0; 0xc0000;
   0x1c0aa8; 0x3ffdff8; 0x3ffd838; 0xc19838; 0xc31ff8; 0x5775ff8; 0x3ffe038; 0x55d5ff8;
   0x181ff8; 0x3ffd87c; 0x3ffd82c; 0x1c1d7e; 0x181fe4; 0x1c0000; 0x1fffff0; 0x1fffff0;
   0x6000; 0x557540; 0xffffe0; 0x5d7540; 0x386000; 0x7fffffc; 0x3fffffc; 0x1555554;
   0x0; 0x0; 0x0; 0x0; 0x202000; 0x0; 0x0; 0x0;
   0x6000; 0xe000; 0x3fde1fe; 0x1fc79fe; 0x1c5fc70; 0xdffc30; 0xfd8c70; 0x718e30;
   0xf1df70; 0x1fcf030; 0x39f71fc; 0x10639fc; 0x471f70; 0x633630; 0x777070; 0x336030;
   0x3fffc70; 0x3fffc30; 0x1fc1f0; 0x3be1f8; 0x77707e; 0x3e33e0e; 0x7c71f00; 0x2030200;
   0x70000; 0x0; 0x0; 0x0; 0x0; 0x202000; 0x0; 0x0;
   0x0; 0x70000; 0x30000; 0x1ff03fc; 0xab03fc; 0x1575470; 0x3fffc60; 0x3d75c70;
   0x1a30c60; 0x1fffc70; 0x83ec60; 0x1ff0dfc; 0x1fe0dfc; 0x1555c70; 0x3ffec60; 0x70c70;
   0x1878c60; 0x1cdfc70; 0x7f2f60; 0x7dcff0; 0xdefff8; 0x1df367e; 0x39b860c; 0x718f700;
   0x21f3380; 0xf0100; 0x0; 0x0; 0x0; 0x0; 0x202000; 0x0;
   0x0; 0x0; 0x0; 0x7fe000; 0x7fe3fc; 0x6063fc; 0x706174; 0x7fe060;
   0x7fe070; 0x2a8a860; 0x3fdfc70; 0x3098c60; 0x31d8dfc; 0x3098dfc; 0x3fdfc70; 0x3fffc60;
   0x70070; 0x2aea860; 0x7fffc70; 0x2afabe0; 0x1fc3fc; 0x3ee0fe; 0xf7701c; 0x3c63c00;
   0x7871e00; 0x2060400; 0x70000; 0x0; 0x0; 0x0; 0x0; 0x202000;
   0x0; 0x0; 0x0; 0x307000; 0x383000; 0x19fffe; 0x19fffe; 0x198670;
   0x2b98630; 0x7fdfe70; 0x3fdfe30; 0x19d8670; 0x18d8630; 0x19ffffc; 0x9ebafc; 0x1de3070;
   0xdaea30; 0xd3fe70; 0xf01830; 0x701870; 0x61f830; 0x71f9f0; 0xf199f8; 0xf99c7e;
   0x1d98c0e; 0x3ddce00; 0x38ef700; 0x104f300; 0x0; 0x0; 0x0; 0x0;
   0x202000; 0x0; 0x0; 0x0; 0x70000; 0x60000; 0x3fffffc; 0x3fffffc;
   0x3fc; 0x1fff860; 0x1fff870; 0x18a9860; 0x19fd870; 0x190d860; 0x19fdbfc; 0x1801bfc;
   0x1fff974; 0x1fff860; 0x555070; 0xfff060; 0xc03070; 0xfff3e0; 0xfff3f0; 0xc030fe;
   0xfff01c; 0xaaa000; 0x7fffe00; 0x3fffe00; 0x5555400; 0x0; 0x0; 0x0;
   0x0; 0x202000; 0x0; 0x0; 0x0; 0x0; 0x2a9fe00; 0x3fdfffc;
   0x6021fc; 0x607070; 0x602060; 0x3fdfc70; 0x3f9fc60; 0x607070; 0x6021fc; 0x7fffffc;
   0x3fffee8; 0x438070; 0xe78060; 0x7f5870; 0xf4d860; 0x1f8d970; 0x19ccbe0; 0x18fccfc;
   0x3e3ce3c; 0x361e404; 0x360f800; 0x7ffe00; 0x3f8c00; 0x0; 0x0; 0x0;
   0x0; 0x0; 0x202000; 0x0; 0x0; 0x0; 0x1810000; 0x1830000;
   0xc70dfe; 0xe60dfe; 0x7ffdc70; 0x3ffd830; 0x55d5870; 0xe0030; 0x38f0070; 0x1dbde30;
   0xf9dffc; 0x7c19fc; 0x771870; 0xf39830; 0x1f9d870; 0x1bc1830; 0x36e1870; 0x3639830;
   0x71f9f0; 0x30d9f8; 0x3e1c7e; 0x1c7e0e; 0x7ffe700; 0x3ff8200; 0x1fc0200; 0x0;
   0x0; 0x0; 0x0; 0x202000; 0x0; 0x0; 0x0; 0x100;
   0xfbfff0; 0xfffc70; 0xc30c30; 0xfbfdf0; 0xfb0df0; 0xc3fc30; 0xebddf0; 0xfbddf0;
   0xc3fc30; 0xc30c70; 0x3fffffc; 0x3fffffc; 0x380000c; 0x3fffffc; 0x2ffffe8; 0x557550;
   0x6000; 0x7fffe0; 0x7fffe0; 0xe6000; 0x1c6000; 0x3fffffc; 0x3fffffc; 0x1555554;
   0x0; 0x0; 0x0; 0x0; 0x202000; 0x0; 0x0; 0x0;
   0x0; 0x1fff800; 0x1fffffc; 0x603fc; 0x7fffd74; 0x3fffc60; 0x7060c60; 0x3f6ec60;
   0xf7f060; 0x60060; 0x1f7f3fc; 0x603fc; 0x7fffc60; 0x3fffc60; 0x1575460; 0x30060;
   0x3fff860; 0x3fffe60; 0x3999ff0; 0x3999bfe; 0x399983c; 0x3999800; 0x3999800; 0x3d99800;
   0x1d99800; 0x0; 0x0; 0x0; 0x0; 0x202000; 0x0; 0x0;
   0x0; 0x646400; 0x6c6c00; 0x3fdfdfc; 0x3fffffc; 0x666670; 0x3fffe20; 0x7fffe70;
   0xd8d820; 0xdbd870; 0x6dbcc20; 0x7cdeffc; 0x38407fc; 0x1fff870; 0xfff820; 0x1d55870;
   0xc61820; 0x1c71870; 0xc61820; 0x1c71bf0; 0xc31bf8; 0xb807c; 0x3bc00c; 0x1f1fc00;
   0x3c03e00; 0x1001c00; 0x0; 0x0; 0x0; 0x0; 0x202000; 0x0;
   0x0; 0x0; 0x70000; 0x60000; 0x3fffffe; 0x3fffffc; 0x70; 0x1fdf830;
   0x1ddd870; 0x18d8830; 0x1fdf870; 0x1fdf830; 0x17dd5fc; 0x1fffdfc; 0x17dd470; 0xbae830;
   0x1fff870; 0x38c030; 0x3fffe70; 0x3fffe30; 0x18fc1f0; 0x1ccf1f8; 0xfc7f7e; 0x786e0e;
   0x1f7e000; 0x3c3f000; 0x3007000; 0x0; 0x0; 0x0; 0x0; 0x202000;
   0x0; 0x0; 0x0; 0x30c000; 0x30c000; 0x3fffffc; 0x3fffffc; 0x30c070;
   0xaaa860; 0x1fff870; 0x18b9860; 0x19f9870; 0x1abb860; 0x1fff9fc; 0xe61fc; 0x1c7070;
   0x3fff060; 0x3fffc70; 0xc3c60; 0x1ffff70; 0x1fff660; 0x1c33f0; 0x1fff3f8; 0x1fff07e;
   0xc300c; 0x7fff000; 0x3fff000; 0x3000; 0x0; 0x0; 0x0; 0x0;
   0x202000; 0x0; 0x0; 0x0; 0x300000; 0x7e8000; 0x7fff40; 0x3affe0;
   0x3871e0; 0x3830e0; 0x3070e0; 0x3030e0; 0x3070e0; 0x3030e0; 0x307060; 0x3030e0;
   0x707060; 0x603060; 0x703060; 0x623060; 0x633070; 0xe33830; 0xc71870; 0xc61c38;
   0x1cfdc38; 0x18ffe18; 0x39c7e1c; 0x318040e; 0x100000c; 0x0; 0x0; 0x0;
   0x0; 0x202000; 0x0; 0x0; 0x0; 0x383000; 0x3b3fa0; 0x3b1ff8;
   0x3b19b8; 0x3ff9998; 0x3ff9998; 0x39d998; 0x38d998; 0x38d998; 0x2ba9998; 0x3ffd998;
   0x3fff998; 0x7c3198; 0xfc3198; 0xcc3198; 0x1ce3198; 0x1877d98; 0x383ed98; 0x101cd98;
   0x3d998; 0x79ddc; 0x1e1fcc; 0x1fc37cc; 0x3e0308e; 0x3000004; 0x0; 0x0;
   0x0; 0x0; 0x202000; 0x0; 0x0; 0x0; 0x1000180; 0x1f80180].
Definition hanzi_data_276 : list N :=
  [0x1ffc1c0; 0xcfdffc; 0xcddffc; 0xccc7e0; 0xcdc670; 0xcccc38; 0xcddd5c; 0xccdfee;
   0xcdc544; 0xccc000; 0xccdffc; 0x8cdffc; 0x1ccd574; 0x18cc030; 0x19cc570; 0x1bccff0;
   0x1bccd50; 0x3a66c00; 0x3666c00; 0x37e6e00; 0x77f7600; 0x64637e0; 0x24023e0; 0x0;
   0x0; 0x0; 0x0; 0x202000; 0x0; 0x0; 0x0; 0x1800000;
   0x3f83ffc; 0xffbffc; 0xcb8260; 0xdd8760; 0xc9bffc; 0xddb77c; 0xc9b26c; 0xddb76c;
   0xc9baec; 0xddbffc; 0x898000; 0x1dd9ff8; 0x899ff8; 0x18d8000; 0x18d8000; 0x1bdfffc;
   0x1acaba8; 0x1eccdb0; 0x3eecdb8; 0x366d998; 0x37ef988; 0x75f798c; 0x2c261e0; 0x4041e0;
   0x0; 0x0; 0x0; 0x0; 0x202000; 0x0; 0x0; 0x0;
   0x310030; 0x63e030; 0x61fc70; 0xe16c60; 0x3fd6ffc; 0x3fd6ffc; 0x3196d9c; 0x1996d98;
   0x1996dd8; 0x19b6cd8; 0x1d76ddc; 0x3ff6ffc; 0x7ff6ffc; 0x632c60; 0x637c60; 0x632ce8;
   0x3ff35fc; 0x3feb6e8; 0x67f670; 0x62b630; 0x679670; 0x67fa30; 0x67ff18; 0x6d1b1c;
   0x65020c; 0x0; 0x0; 0x0; 0x0; 0x202000; 0x0; 0x0;
   0x0; 0x10001c0; 0x3f80180; 0x1fffffc; 0xdfbffc; 0xd98000; 0xd9bef8; 0xd9bffc;
   0xd9b2c8; 0xd9bffc; 0x99bef8; 0xd99774; 0x99bffc; 0x1d98660; 0x89bff8; 0x19dbffc;
   0x1898660; 0x18dfffc; 0x1acaae8; 0x1edfb70; 0x36c9f78; 0x366ce7e; 0x37edbe4; 0x7fed3f0;
   0x6c6e070; 0x2404010; 0x0; 0x0; 0x0; 0x0; 0x202000; 0x0;
   0x0; 0x0; 0x0; 0x0; 0x3fffffc; 0x3fffffc; 0x700; 0x700;
   0x700; 0x300; 0x1fff00; 0xfff80; 0x1c0380; 0xc0380; 0x1c1b80; 0xc3980;
   0x1c71c0; 0xce180; 0x1dc1c0; 0xdc1c0; 0x71c01c0; 0x30c00c0; 0x31c00c0; 0x30df8e0;
   0x3fdfff0; 0x3f82ff0; 0x1f00070; 0x0; 0x0; 0x0; 0x0; 0x202000;
   0x0; 0x0; 0x0; 0x60200; 0xe0700; 0x1c0780; 0x3801c0; 0xf038f0;
   0x3e2187c; 0x1c71e1c; 0xe0700; 0x1fd380; 0x3fffc0; 0x717fc0; 0x200000; 0x3fffffc;
   0x3fffffc; 0x1c0; 0x180; 0x1fffc0; 0x1fffc0; 0x1c1cc0; 0x3183ce0; 0x31cf0e0;
   0x318c060; 0x3fdfff0; 0x3f9fff0; 0x1500010; 0x0; 0x0; 0x0; 0x0;
   0x202000; 0x0; 0x0; 0x0; 0x0; 0x2aa8000; 0x3ffdffc; 0x2ab9ff8;
   0x3001c; 0x31818; 0x31c5c; 0x7f0cf8; 0x7f0ddc; 0x638d98; 0x638f9c; 0x638718;
   0x6d871c; 0x6d8718; 0x6d8f1c; 0x698f98; 0x799ddc; 0x7998d8; 0x7198fc; 0x2618078;
   0x661c05c; 0x67d8ab8; 0x7ffdffc; 0x3e3caa8; 0x1c04000; 0x0; 0x0; 0x0;
   0x0; 0x202000; 0x0; 0x0; 0x0; 0x380; 0x180; 0x3ffe1c0;
   0x3ffe3c0; 0x387e0; 0x38e60; 0x19c70; 0xffb8b8; 0xffb1dc; 0xeb838c; 0xe18304;
   0xe18000; 0xe79ff8; 0xed9ff8; 0xeddc00; 0xed8e00; 0xfdc600; 0xf98700; 0xf9c370;
   0x2e0c3e0; 0x6e1c1e0; 0x2ecc180; 0x7dfc780; 0x3c3e700; 0x1c06200; 0x0; 0x0;
   0x0; 0x0; 0x202000; 0x0; 0x0; 0x0; 0x400; 0xc30;
   0x3ffec70; 0x3ffee60; 0x38660; 0x38aa8; 0x19ffc; 0xff9ffc; 0xff8670; 0xeb8660;
   0xe18670; 0xe18660; 0xe79774; 0xedbffc; 0xedbffc; 0xed8620; 0xfdc670; 0xf98630;
   0xf9c630; 0x2e0c630; 0x6e1c638; 0x2fec618; 0x3dfe61c; 0x3c3e60c; 0x140460c; 0x0;
   0x0; 0x0; 0x0; 0x202000; 0x0; 0x0; 0x0; 0x6000;
   0x6038; 0x1fff078; 0x1fff9e0; 0x1c71dc0; 0xc30e00; 0xe78c00; 0xf8380; 0x1de3f0;
   0xf8f8fc; 0x3f03e1c; 0x1800e00; 0x3fffffc; 0x3fffffc; 0x300; 0x380; 0x1fff80;
   0xeab80; 0x1c3dc0; 0xc79c0; 0x31de1c0; 0x30c80e0; 0x3fc7ff0; 0x3fc7ff0; 0x1500170;
   0x0; 0x0; 0x0; 0x0; 0x202000; 0x0; 0x0; 0x0;
   0x1800; 0x1c38; 0x3ffcefc; 0x3ffc7e0; 0x707c0; 0x31ee0; 0x33c7c; 0xff10dc;
   0xff00c0; 0xeb7ffc; 0xc37ffc; 0xcb0260; 0xcf0370; 0xcb0338; 0xdb3ffc; 0xdb3ffe;
   0xdb333e; 0xf33330; 0xd33330; 0x2c3b330; 0x6c1b330; 0x2dfbb30; 0x7dfdb30; 0x3c38300;
   0x3c00300; 0x0; 0x0; 0x0; 0x0; 0x202000; 0x0; 0x0;
   0x0; 0x1c0; 0x180; 0x3ffc180; 0x3fffffc; 0x33ffc; 0x30810; 0x31c30;
   0xff0c30; 0xff0c70; 0xeb0e60; 0xc37ffe; 0xc33ffe; 0xcf5554; 0xcf8000; 0xdf9550;
   0xdb9ff8; 0xd99ff8; 0xd99818; 0xd19818; 0x2c19818; 0x6c19818; 0x2d99ff8; 0x7dfdff8;
   0x3c7dab8; 0x1c05818; 0x0; 0x0; 0x0; 0x0; 0x202000; 0x0;
   0x0; 0x0; 0x0; 0x2aaa; 0x7fffffe; 0x3fffffe; 0x30760; 0x30260;
   0x33ffc; 0xff3ffc; 0xff336c; 0xeb326c; 0xc3336c; 0xc3baec; 0xcfbffc; 0xcfaaa8;
   0xdd8180; 0xd98180; 0xd9bffc; 0xd9bffc; 0xd18180; 0x2c18180; 0x6c1fd80; 0x6dfffe8;
   0x7dfe7fc; 0x3c3c00c; 0x1c04000; 0x0; 0x0; 0x0; 0x0; 0x202000;
   0x0; 0x0; 0x0; 0xe0700; 0xe0700; 0x3fffffc; 0x2aeafa8; 0xe0700;
   0x7fffe0; 0x7ffff0; 0x630c60; 0x630c70; 0x7fffe0; 0x555550; 0x3fffffc; 0x3fffffc;
   0x300000c; 0x37ffffc; 0x33fffec; 0x700; 0xfff00; 0x1fff80; 0xc3b80; 0x11df180;
   0x30c81c0; 0x31df5e0; 0x3fcffe0; 0x1f805e0; 0x0; 0x0; 0x0; 0x0;
   0x202000; 0x0; 0x0; 0x0; 0xc00300; 0xe0aba8; 0x7cfffc; 0xf0300;
   0x1877ffc; 0x1e02aa8; 0x787ff8; 0x3e7ff8; 0x1077558; 0x3807ff8; 0x1f01c70; 0x7c6c60;
   0x1ffffc; 0x303fc; 0x3fffffc; 0x3fffffc; 0x300; 0xaab80; 0x1fff80; 0xc1980;
   0x11c7dc0; 0x30ce0c0; 0x71c74e0; 0x3fc7ff0; 0x1f801f0; 0x0; 0x0; 0x0;
   0x0; 0x202000; 0x0; 0x0; 0x0; 0x1c30; 0xc30; 0x3ffce70;
   0x3ffc620; 0x73ffc; 0x33bac; 0x33dbc; 0xff35ac; 0xff37ec; 0xeb33ec; 0xc335dc;
   0xc3bffc; 0xcf9554; 0xcf8000; 0xdd9ff8; 0xd99ff8; 0xd99818; 0xd99ab8; 0xc19ff8].
Definition hanzi_data_277 : list N :=
  [0x2c19818; 0x6c1d818; 0x2cedff8; 0x7dfdff8; 0x3c3d818; 0x1004000; 0x0; 0x0;
   0x0; 0x0; 0x202000; 0x0; 0x0; 0x0; 0x1c0000; 0x180ff8;
   0x1ffdff8; 0xeb8818; 0xe31ff8; 0x2ebaff8; 0x3ffe018; 0x180ab8; 0x1c1ff8; 0x3ffd878;
   0x3ffd87c; 0x181fec; 0x1c1fec; 0x0; 0x3fffff8; 0x3fffff8; 0x380; 0xfff80;
   0x1fff80; 0xc3980; 0x71df1c0; 0x30cc0c0; 0x35dfff0; 0x3fdfff0; 0x1f80170; 0x0;
   0x0; 0x0; 0x0; 0x202000; 0x0; 0x0; 0x0; 0x300;
   0x2b00; 0x3ffff00; 0x3ff8300; 0x6fff8; 0x6fff8; 0x67d98; 0xae5ff8; 0xfe55d8;
   0xee7f18; 0xc65558; 0xc67ff8; 0xde1558; 0xde3fd8; 0xd730d8; 0xf23fd8; 0xf7001c;
   0xf37fe8; 0xc37d7c; 0x2c3692c; 0x6c37d7c; 0x6ff7fac; 0x7ffe67c; 0x383fe26; 0x1001070;
   0x0; 0x0; 0x0; 0x0; 0x202000; 0x0; 0x0; 0x0;
   0x180180; 0x180180; 0x180180; 0x180180; 0x180180; 0x3fffffc; 0x3fffffc; 0x2baaba8;
   0x180180; 0x180180; 0x180180; 0x180180; 0x180180; 0x1fff80; 0x1fff80; 0x180180;
   0x180180; 0x180180; 0x180180; 0x180180; 0x180180; 0x1fff80; 0x1fff80; 0x180180;
   0x180180; 0x0; 0x0; 0x0; 0x0; 0x202000; 0x0; 0x0;
   0x0; 0x760000; 0x760000; 0x1e60000; 0x860000; 0x3fffffc; 0x3fffffc; 0x60000;
   0xe6030; 0xe7070; 0xe6030; 0xffffc; 0xffffc; 0xc7070; 0xc6030; 0xc7070;
   0xc7ff0; 0x1c7ff0; 0x186030; 0x1187070; 0x2386030; 0x7387070; 0x3307ff0; 0x3707ff0;
   0x3e06030; 0x1c07070; 0x0; 0x0; 0x0; 0x0; 0x202000; 0x0;
   0x0; 0x0; 0x180180; 0x180180; 0x180180; 0x3fffffc; 0x3fffffc; 0x180180;
   0x1d5580; 0x1fff80; 0x1d5580; 0x180180; 0x1fff80; 0x1fff80; 0x180180; 0x180180;
   0x3fffffc; 0x3fffffc; 0x61060; 0xe3860; 0x1c1c60; 0x380c60; 0x700e60; 0x660;
   0xffffe0; 0xffffe0; 0x0; 0x0; 0x0; 0x0; 0x0; 0x202000;
   0x0; 0x0; 0x0; 0x1c1c400; 0xc1cfe0; 0x1c1c7fc; 0xc1c0fc; 0x1c1c1c0;
   0x3fff0c0; 0x7fff1c0; 0xc1c0c0; 0x1c1dffe; 0xc1dffe; 0x1c1c1c0; 0xc1c0c0; 0x1c1c1c0;
   0xffc0c0; 0x1ffcffc; 0xc1cff8; 0x1c1cc1c; 0xc1cc18; 0x1c1cc1c; 0xc1cc18; 0x1c1cc1c;
   0xffcff8; 0x1ffcffc; 0xebcc18; 0x1c1c01c; 0x0; 0x0; 0x0; 0x0;
   0x202000; 0x0; 0x0; 0x0; 0x6000; 0x6180; 0x61c0; 0x60c0;
   0x60c0; 0x1ffffe0; 0x1fffff0; 0xaaeaf0; 0x6038; 0x6038; 0x601c; 0x6008;
   0x6000; 0xffffe0; 0xffffe0; 0x6000; 0x6000; 0x6000; 0x6000; 0x6000;
   0x6000; 0x6000; 0x3fffffc; 0x3fffffc; 0x0; 0x0; 0x0; 0x0;
   0x0; 0x202000; 0x0; 0x0; 0x0; 0x1c0180; 0x180180; 0x1d8190;
   0x1981b0; 0x1dc1b8; 0x18c1b8; 0x3ffdff8; 0x3ffdff8; 0x15de19c; 0x18618c; 0x1c718c;
   0x18218c; 0x1c0180; 0xba9ff8; 0x1ffdff8; 0xba8180; 0x1c0180; 0x180180; 0x1c0180;
   0x183980; 0x1c3fc0; 0x180ffc; 0x7fff1fc; 0x3ffe00c; 0x0; 0x0; 0x0;
   0x0; 0x0; 0x202000; 0x0; 0x0; 0x0; 0x0; 0x1fff0c0;
   0x1fff1d8; 0x18c30d8; 0x18c71d8; 0x18c3af8; 0x1fffffc; 0x1fffaec; 0x18c71cc; 0x18c30ce;
   0x1fff1c4; 0x1fffae8; 0x60ff8; 0x60ff8; 0x3fff1c0; 0x3fff0c0; 0x3d751c0; 0x38300c0;
   0x1831fc0; 0x1838ff8; 0x181c1fc; 0x180e00c; 0x1d4f800; 0x1f83c00; 0x781800; 0x0;
   0x0; 0x0; 0x0; 0x202000; 0x0; 0x0; 0x0; 0x300000;
   0x387ffc; 0x3b7ffc; 0x3b2ba8; 0x3b0180; 0x3ffaba8; 0x3ffbffc; 0x39b188; 0x39f19c;
   0x38fba8; 0x383ffc; 0x3ff3188; 0x3ff319c; 0x383ba8; 0x383ffc; 0x382ba8; 0x380198;
   0x2ba81b8; 0x7ffc1f0; 0x2aa80e0; 0x1e0; 0x7f0; 0x7ffff3c; 0x3fff81e; 0x155000c;
   0x0; 0x0; 0x0; 0x0; 0x202000; 0x0; 0x0; 0x0;
   0x0; 0x0; 0x1fffff0; 0xffffe0; 0x1c06070; 0xc06060; 0x1c06070; 0xc06060;
   0x1fffff0; 0xffffe0; 0x1d57570; 0xc06060; 0x1c06070; 0xc06060; 0x1fffff0; 0xfffff0;
   0x1fffff0; 0xc06030; 0x1c06030; 0xc06038; 0x1c06038; 0xc06018; 0x1d4601c; 0xfe600e;
   0x7c600c; 0x0; 0x0; 0x0; 0x0; 0x202000; 0x0; 0x0;
   0x0; 0x0; 0xaaaaa0; 0xfffff0; 0xeaeab0; 0xc06070; 0xc06030; 0xc06070;
   0xfffff0; 0xfffff0; 0xc06030; 0xc06070; 0xc06030; 0xfffff0; 0xfffff0; 0xc06070;
   0xc06030; 0xc06030; 0xfc6030; 0x7c6038; 0x3006038; 0x7006018; 0x3006018; 0x3ffe01c;
   0x3ffe00e; 0xc; 0x0; 0x0; 0x0; 0x0; 0x202000; 0x0;
   0x0; 0x0; 0x6000; 0x6000; 0x7000; 0x3800; 0x1fffff0; 0xffffe0;
   0x1d57570; 0xc06060; 0x1c06070; 0xc06060; 0x1fffff0; 0xffffe0; 0x1c06070; 0xc06060;
   0x1c06070; 0xeaeae0; 0x1fffff0; 0xfffff0; 0x1c06070; 0xc06030; 0x1c06038; 0xc06038;
   0x1c0601c; 0xfc600e; 0xfc600c; 0x0; 0x0; 0x0; 0x0; 0x202000;
   0x0; 0x0; 0x0; 0xc6000; 0x3e6000; 0xf86000; 0x606000; 0x3fffffc;
   0x3fffffc; 0x6000; 0x6000; 0xfffff0; 0xfffff0; 0xc06070; 0xc06030; 0xd57570;
   0xfffff0; 0xfffff0; 0xc06030; 0xc06070; 0xfffff0; 0xfffff0; 0xeaeab0; 0xc06070;
   0xc06030; 0xd46070; 0xfc6030; 0x7c6070; 0x0; 0x0; 0x0; 0x0;
   0x202000; 0x0; 0x0; 0x0; 0x0; 0x3fffe0; 0x7ffff0; 0x3c0000;
   0x1f0700; 0x3ff80; 0x1fc00; 0xafeaa0; 0xfffff0; 0xeaeab0; 0xc06070; 0xc06030;
   0xfffff0; 0xfffff0; 0xc06070; 0xc06030; 0xc06070; 0xfffff0; 0xfffff0; 0xc06030;
   0xc06070; 0xc06030; 0xc06070; 0xfc6030; 0x7c6070; 0x0; 0x0; 0x0;
   0x0; 0x202000; 0x0; 0x0; 0x0; 0x0; 0x3fffffc; 0x3fffffc].
Definition hanzi_data_278 : list N :=
  [0x27000; 0xf7c00; 0x3e6f00; 0x1f867e0; 0x3e060fc; 0x380603c; 0xaaaaa0; 0xfffff0;
   0xeaeab0; 0xc06070; 0xc06030; 0xfffff0; 0xeaeab0; 0xc06070; 0xc06030; 0xfffff0;
   0xfffff0; 0xc06030; 0xc06038; 0xc06038; 0xfc601c; 0x7c0018; 0x0; 0x0;
   0x0; 0x0; 0x202000; 0x0; 0x0; 0x0; 0x7000; 0xe000;
   0x1fffffc; 0x1fffff8; 0x180301c; 0x190f218; 0x179c7d4; 0xec86e0; 0x1cc0670; 0x18ffe38;
   0x7fc10; 0x0; 0x7fffe0; 0x7fffe0; 0x606060; 0x6aeae0; 0x7fffe0; 0x606060;
   0x606060; 0x7fffe0; 0x7fffe0; 0x606060; 0x606060; 0x7e6060; 0x7c6060; 0x0;
   0x0; 0x0; 0x0; 0x202000; 0x0; 0x0; 0x0; 0x0;
   0x0; 0x1fffff8; 0x1fffff8; 0x1c07018; 0x1806018; 0x1c07018; 0x1806018; 0x1c07018;
   0x1806018; 0x1c07018; 0x1fffff8; 0x1fffff8; 0x1aaeab8; 0x1c07018; 0x1806018; 0x1c07018;
   0x1806018; 0x1c07018; 0x1806018; 0x1c07018; 0x1fffff8; 0x1fffff8; 0x1800018; 0x1c00018;
   0x0; 0x0; 0x0; 0x0; 0x202000; 0x0; 0x0; 0x0;
   0x6000; 0x6000; 0x6000; 0x6000; 0x6000; 0xfffff8; 0x1fffff0; 0xeaeab8;
   0x1c06038; 0xc06038; 0x1c06038; 0xc06038; 0x1c06038; 0xfffff8; 0x1fffff8; 0xc06038;
   0x1c06038; 0xc06038; 0x1c06038; 0xc06038; 0x1c06038; 0xfffff8; 0x1fffff8; 0xc00038;
   0x1c00038; 0x0; 0x0; 0x0; 0x0; 0x202000; 0x0; 0x0;
   0x0; 0x0; 0x0; 0xfffff0; 0xfffff0; 0xc06030; 0xc06030; 0xc06030;
   0xc06030; 0xfffff0; 0xfffff0; 0xc06030; 0xc06030; 0xc06030; 0xc06030; 0xfffff0;
   0xfffff0; 0xfffff0; 0xc06030; 0x6000; 0x6000; 0x6000; 0x6000; 0x6000;
   0x6000; 0x6000; 0x0; 0x0; 0x0; 0x0; 0x202000; 0x0;
   0x0; 0x0; 0x6000; 0x6000; 0x6000; 0x6000; 0x1fffff0; 0x1fffff8;
   0x1c06038; 0x1c06038; 0x1c06038; 0x1eaeab8; 0x1fffff8; 0x1eaeab8; 0x1c06038; 0x1c06038;
   0x1c06038; 0x1fffff8; 0x1fffff8; 0x1fffff8; 0x1c06038; 0x6000; 0x6000; 0x6000;
   0x6000; 0x6000; 0x6000; 0x0; 0x0; 0x0; 0x0; 0x202000;
   0x0; 0x0; 0x0; 0x7000; 0x6000; 0x7000; 0x6000; 0xfffff0;
   0xfffff0; 0xe07030; 0xe06030; 0xe07030; 0xe06030; 0xfffff0; 0xfffff0; 0xe07030;
   0xe06030; 0xe07030; 0xeaeab0; 0xfffff0; 0xfffff0; 0x3007030; 0x3006000; 0x3007000;
   0x3006000; 0x3ffe000; 0x1ffe000; 0x550000; 0x0; 0x0; 0x0; 0x0;
   0x202000; 0x0; 0x0; 0x0; 0x0; 0x2aaaa0; 0x7ffff0; 0x6aeae0;
   0x606070; 0x606060; 0x7ffff0; 0x7fffe0; 0x606070; 0x606060; 0x757570; 0x7fffe0;
   0x7ffff0; 0x3000; 0x7000; 0xfffffc; 0xfffffc; 0xc03800; 0xc01c00; 0xe00e00;
   0xe00f00; 0xe00780; 0x7001f8; 0x7f80fc; 0x3f001c; 0x0; 0x0; 0x0;
   0x0; 0x202000; 0x0; 0x0; 0x0; 0x700; 0x300; 0x380;
   0x180; 0x3ffffc0; 0x3ffffc0; 0x18000e0; 0x3800070; 0x1800070; 0x187fff8; 0x187ffdc;
   0x18618cc; 0x18618c0; 0x186bac0; 0x187ffc0; 0x186bac0; 0x1c618c0; 0x18618c0; 0x1c75dc0;
   0x1c7ffc0; 0x1c7ffc0; 0xc000c0; 0xf50040; 0xff0000; 0x7f0000; 0x0; 0x0;
   0x0; 0x0; 0x202000; 0x0; 0x0; 0x0; 0x0; 0x0;
   0x1555ffc; 0x3ffdffc; 0x7ffdddc; 0x30188c; 0x7019dc; 0x30188c; 0x7019dc; 0x30188c;
   0x701ffc; 0x301ffc; 0x701ddc; 0x30188c; 0x7019dc; 0x30188c; 0x7019dc; 0x30188c;
   0x7019dc; 0x301ffc; 0x701ffc; 0x30000c; 0x75801c; 0x3f8000; 0x1f0000; 0x0;
   0x0; 0x0; 0x0; 0x202000; 0x0; 0x0; 0x0; 0x0;
   0x0; 0x1fffff8; 0x1fffff8; 0x0; 0x0; 0x55500; 0xfff80; 0x19fff98;
   0x1886198; 0x19c6198; 0x1886198; 0x19fff98; 0x18fff98; 0x19c6198; 0x1886198; 0x19c6198;
   0x18fff98; 0x19fff98; 0x1800018; 0x1800018; 0x1aaaab8; 0x1fffff8; 0x1fffff8; 0x1800000;
   0x0; 0x0; 0x0; 0x0; 0x202000; 0x0; 0x0; 0x0;
   0xc1c100; 0xe1c380; 0x70f1c0; 0x3870e0; 0x1c3c70; 0x1e3c38; 0x387070; 0x70e0e0;
   0xe1c3c0; 0x1c38380; 0x555550; 0xfffff0; 0xfffff0; 0xc06030; 0xc06030; 0xc06030;
   0xfffff0; 0xfffff0; 0xc06030; 0xc06030; 0xc06030; 0xeaeab0; 0xfffff0; 0xfffff0;
   0xc00030; 0x0; 0x0; 0x0; 0x0; 0x202000; 0x0; 0x0;
   0x0; 0x0; 0x7fffe0; 0x7ffff0; 0x606060; 0x606070; 0x6aeae0; 0x7ffff0;
   0x6aeae0; 0x606070; 0x606060; 0x7ffff0; 0x7fffe0; 0x0; 0x0; 0x3fffffc;
   0x3fffffc; 0xe0300; 0xe0300; 0xe0300; 0xe0380; 0xe01c0; 0xe01e0; 0xe00f0;
   0xe0078; 0xe0018; 0x0; 0x0; 0x0; 0x0; 0x202000; 0x0;
   0x0; 0x0; 0xc0; 0xfff0c0; 0x1fff0c0; 0xfaa0c0; 0x780ffc; 0x1c0ffc;
   0xf0ccc; 0x78ccc; 0x155eccc; 0x3fffffc; 0x3fffffc; 0x3330ccc; 0x3338ccc; 0x3b18ccc;
   0x399cffc; 0x398effc; 0x39c75dc; 0x38c38cc; 0x18610c0; 0x18700c0; 0x1c380c0; 0x1c180c0;
   0x1d5e0c0; 0xf8f0c0; 0x7860c0; 0x0; 0x0; 0x0; 0x0; 0x202000;
   0x0; 0x0; 0x0; 0x1000000; 0x3fe0000; 0x1ffeffc; 0x3eff8; 0xecdc;
   0xecc8; 0xecdc; 0xecc8; 0x3ffecdc; 0x3ffeee8; 0x183effc; 0x183eee8; 0x1c7ecdc;
   0x1c6ecc8; 0xc6ecdc; 0xeeecc8; 0x6c6cdc; 0x7c6cc8; 0x786ffc; 0x386ff8; 0x7c701c;
   0xee3008; 0x3c7b000; 0x383f800; 0x1019000; 0x0; 0x0; 0x0; 0x0;
   0x202000; 0x0; 0x0; 0x0; 0x30000; 0x38000; 0x39ffc; 0x18ff8;
   0x1dcdc; 0x3ffcc88; 0x7ffdcdc; 0x2eacc88; 0xc1fcdc; 0xe1ec88; 0xe1fffc; 0xe1bff8;
   0x63bcdc; 0x730c88; 0x771cdc; 0x3e0c88; 0x1e1cdc; 0x1e0c88; 0x1e1ffc; 0x3f0ff8].
Definition hanzi_data_279 : list N :=
  [0x77801c; 0xf3c008; 0x3e1f000; 0x3807800; 0x3001000; 0x0; 0x0; 0x0;
   0x0; 0x202000; 0x0; 0x0; 0x0; 0x0; 0x7fffe0; 0x7ffff0;
   0x606060; 0x606070; 0x6aeae0; 0x7ffff0; 0x6aeae0; 0x606070; 0x606060; 0x7ffff0;
   0x7fffe0; 0x71e00; 0xe0700; 0x3c07c0; 0xfe07e0; 0x7fe067c; 0x38e063c; 0xe0700;
   0xe0700; 0xe0700; 0xe0380; 0xe01e0; 0xe00f0; 0xe0070; 0x0; 0x0;
   0x0; 0x0; 0x202000; 0x0; 0x0; 0x0; 0xe0000; 0x2e0000;
   0x7e0ffc; 0xee0ff8; 0x1ce0cdc; 0x18e0cc8; 0x8e0cdc; 0xe0cc8; 0x3fffcdc; 0x3fffcc8;
   0xe0ffc; 0xe0ff8; 0x1e0cdc; 0xe0cc8; 0x1f0cdc; 0x1b0cc8; 0x3b0cdc; 0x338cc8;
   0x71cffc; 0x61cff8; 0xe0e01c; 0x1c07008; 0x3c07800; 0x3803c00; 0x3001000; 0x0;
   0x0; 0x0; 0x0; 0x202000; 0x0; 0x0; 0x0; 0x0;
   0x7fffe0; 0x7fffe0; 0x606060; 0x606060; 0x7fffe0; 0x7fffe0; 0x606060; 0x606060;
   0x6aeae0; 0x7fffe0; 0x0; 0x0; 0x3fffffc; 0x3fffffc; 0xe0c0; 0x1e0c0c0;
   0xf9c0c0; 0x3f80c0; 0xf00c0; 0x1f00c0; 0x3c78c0; 0x1f87fe0; 0x3e00fe0; 0x1000060;
   0x0; 0x0; 0x0; 0x0; 0x202000; 0x0; 0x0; 0x0;
   0xe0000; 0x8e2000; 0x18e77fc; 0x18e67f8; 0x1ce66dc; 0xcee6c8; 0xeec6dc; 0x6ec6c8;
   0x15f56dc; 0x3fff6c8; 0x3fff7fc; 0xe07f8; 0xe06dc; 0xe06c8; 0x15f56dc; 0x3fffec8;
   0x3fffedc; 0xe06c8; 0xe07fc; 0xe07f8; 0xe001c; 0xe0008; 0xe0000; 0xe0000;
   0xe0000; 0x0; 0x0; 0x0; 0x0; 0x202000; 0x0; 0x0;
   0x0; 0x1c00000; 0x3fe0000; 0x1fff7fc; 0x67e7f8; 0x6676dc; 0x6666c8; 0x6676dc;
   0x6666c8; 0x6676dc; 0xe666c8; 0xc677fc; 0xc667f8; 0xc676dc; 0xc626c8; 0xc776dc;
   0xc636c8; 0x1df36dc; 0x19b36c8; 0x1b337fc; 0x1b33ff8; 0x3f3981c; 0x3ff9808; 0x77fdc00;
   0x3618c00; 0x400800; 0x0; 0x0; 0x0; 0x0; 0x202000; 0x0;
   0x0; 0x0; 0xc00; 0xaa9f80; 0x1ffc7f8; 0x1ffc0f8; 0x1860038; 0x1860638;
   0x1870e38; 0x1830c38; 0x1c31f38; 0x1c39ff8; 0x1fdfbfc; 0xf8f838; 0x6000; 0x2aaaa0;
   0x7fffe0; 0x6aeae0; 0x606060; 0x606060; 0x7fffe0; 0x7fffe0; 0x606060; 0x606060;
   0x7fffe0; 0x7fffe0; 0x600060; 0x0; 0x0; 0x0; 0x0; 0x202000;
   0x0; 0x0; 0x0; 0x1800; 0x21c00; 0xf0f00; 0x1e0780; 0x7ff5e0;
   0xffffe0; 0x1e05fe0; 0x803800; 0x1c00; 0x3fffffc; 0x3fffffc; 0xe0700; 0x1c07c0;
   0x7aabe0; 0x1fffff8; 0x3faeafe; 0x17060dc; 0x3060c0; 0x7fffc0; 0x3aeac0; 0x7060c0;
   0x3060c0; 0x7fffc0; 0x3fffc0; 0x7000c0; 0x0; 0x0; 0x0; 0x0;
   0x202000; 0x0; 0x0; 0x0; 0xc0000; 0xe0000; 0x1e07fc; 0x1f07f8;
   0x3b86dc; 0x7386c8; 0x1e1e6dc; 0x3c8f6c8; 0x79c7edc; 0x20e1ec8; 0x707fc; 0x3e7f8;
   0x71e6dc; 0x3806c8; 0x1c06dc; 0x8e06c8; 0x187c6dc; 0x1c1e6c8; 0xe067fc; 0x7807f8;
   0x3c001c; 0xf0008; 0x7f000; 0xf800; 0x3000; 0x0; 0x0; 0x0;
   0x0; 0x202000; 0x0; 0x0; 0x0; 0x7000; 0x6000; 0x155f554;
   0x3fffffc; 0x3fffffc; 0x20e00; 0xf47c0; 0x3ffe0; 0x1dffe0; 0x383c00; 0x701f80;
   0xffffe0; 0x1fffff0; 0x800030; 0x7ffff0; 0x7fffe0; 0x606070; 0x606060; 0x7ffff0;
   0x7fffe0; 0x606070; 0x606060; 0x7ffff0; 0x7fffe0; 0x600070; 0x0; 0x0;
   0x0; 0x0; 0x202000; 0x0; 0x0; 0x0; 0xe0000; 0xe0000;
   0xe07fc; 0x1ffe7f8; 0x1fff6dc; 0xe06c8; 0xe06dc; 0xe06c8; 0x7fffedc; 0x3fffec8;
   0x7fffffc; 0x6007f8; 0x7006dc; 0x3fffec8; 0x7fffedc; 0x2eaaec8; 0x70e6dc; 0x60e6e8;
   0x71c7fc; 0x6382a8; 0x73001c; 0x600008; 0x700000; 0x7e0000; 0x3e0000; 0x0;
   0x0; 0x0; 0x0; 0x202000; 0x0; 0x0; 0x0; 0x70000;
   0x30000; 0x30ffc; 0x1ff8ff8; 0x1ffccdc; 0xc1ecc8; 0xe1fcdc; 0x63fcc8; 0x773cdc;
   0x3e0ff8; 0x1c0ffc; 0x3f0cc8; 0xf7ccdc; 0x3e1ecc8; 0x7c0fcdc; 0x3fffcc8; 0x1ffecdc;
   0x180eff8; 0x1c0effc; 0x180eaa8; 0x1c0e01c; 0x180e008; 0x1ffe000; 0x1ffe000; 0x1c0e000;
   0x0; 0x0; 0x0; 0x0; 0x202000; 0x0; 0x0; 0x0;
   0x1c0000; 0xc0000; 0x1c0ffc; 0xc0ff8; 0x1ffecdc; 0x1ffecc8; 0x1c0cdc; 0xc0cc8;
   0x1c0cdc; 0x2aeacc8; 0x3fffffc; 0x3fffff8; 0xc0cdc; 0xc0cc8; 0xc0cdc; 0xaeacc8;
   0x1ffecdc; 0x1ffecc8; 0xc0ffc; 0xc0ff8; 0xc001c; 0xc0008; 0x7fff800; 0x3fff800;
   0x0; 0x0; 0x0; 0x0; 0x0; 0x202000; 0x0; 0x0;
   0x0; 0x300000; 0x7fa000; 0x7ffff0; 0x306ff0; 0x3861c0; 0x186180; 0x1c6380;
   0x2aeeba8; 0x3fffffc; 0x2abfaa8; 0x77e00; 0xe6700; 0x7c63c0; 0xf860f0; 0x7fffffe;
   0x3fffffc; 0x7060e0; 0x6060e0; 0x7fffe0; 0x7fffe0; 0x7060e0; 0x6060e0; 0x7fffe0;
   0x7fffe0; 0x7000e0; 0x0; 0x0; 0x0; 0x0; 0x202000; 0x0;
   0x0; 0x0; 0xe000; 0xf000; 0x3fc00; 0xf8f00; 0x7fffc0; 0x3fffff8;
   0x3c0607c; 0x6008; 0x1fffff8; 0x1fffff8; 0x1c6380; 0x3861c0; 0xf074f0; 0x1c07c38;
   0xd55d50; 0x7fffe0; 0x757560; 0x606060; 0x7fffe0; 0x7fffe0; 0x606060; 0x606060;
   0x7fffe0; 0x7fffe0; 0x600060; 0x0; 0x0; 0x0; 0x0; 0x202000;
   0x0; 0x0; 0x0; 0x70000; 0x30000; 0x3387fc; 0x61c7f8; 0xe0e64c;
   0x1fff648; 0x1fff64c; 0x802648; 0x73864c; 0xe1c648; 0x1c0f7fc; 0x3837ff8; 0x303be4c;
   0x2b8648; 0x1ffc64c; 0xeae648; 0x61f64c; 0x73be48; 0x3f1ffc; 0x1e07f8; 0x1f000c;
   0x3f8008; 0x1f1f004; 0x3c07c00; 0x3001c00; 0x0; 0x0; 0x0; 0x0;
   0x202000; 0x0; 0x0; 0x0; 0xc000; 0xf000; 0x7fc00; 0xf0f80].
Definition hanzi_data_group_1 : list (list N) :=
  [hanzi_data_140; hanzi_data_141; hanzi_data_142; hanzi_data_143;
   hanzi_data_144; hanzi_data_145; hanzi_data_146; hanzi_data_147;
   hanzi_data_148; hanzi_data_149; hanzi_data_150; hanzi_data_151;
   hanzi_data_152; hanzi_data_153; hanzi_data_154; hanzi_data_155;
   hanzi_data_156; hanzi_data_157; hanzi_data_158; hanzi_data_159;
   hanzi_data_160; hanzi_data_161; hanzi_data_162; hanzi_data_163;
   hanzi_data_164; hanzi_data_165; hanzi_data_166; hanzi_data_167;
   hanzi_data_168; hanzi_data_169; hanzi_data_170; hanzi_data_171;
   hanzi_data_172; hanzi_data_173; hanzi_data_174; hanzi_data_175;
   hanzi_data_176; hanzi_data_177; hanzi_data_178; hanzi_data_179;
   hanzi_data_180; hanzi_data_181; hanzi_data_182; hanzi_data_183;
   hanzi_data_184; hanzi_data_185; hanzi_data_186; hanzi_data_187;
   hanzi_data_188; hanzi_data_189; hanzi_data_190; hanzi_data_191;
   hanzi_data_192; hanzi_data_193; hanzi_data_194; hanzi_data_195;
   hanzi_data_196; hanzi_data_197; hanzi_data_198; hanzi_data_199;
   hanzi_data_200; hanzi_data_201; hanzi_data_202; hanzi_data_203;
   hanzi_data_204; hanzi_data_205; hanzi_data_206; hanzi_data_207;
   hanzi_data_208; hanzi_data_209; hanzi_data_210; hanzi_data_211;
   hanzi_data_212; hanzi_data_213; hanzi_data_214; hanzi_data_215;
   hanzi_data_216; hanzi_data_217; hanzi_data_218; hanzi_data_219;
   hanzi_data_220; hanzi_data_221; hanzi_data_222; hanzi_data_223;
   hanzi_data_224; hanzi_data_225; hanzi_data_226; hanzi_data_227;
   hanzi_data_228; hanzi_data_229; hanzi_data_230; hanzi_data_231;
   hanzi_data_232; hanzi_data_233; hanzi_data_234; hanzi_data_235;
   hanzi_data_236; hanzi_data_237; hanzi_data_238; hanzi_data_239;
   hanzi_data_240; hanzi_data_241; hanzi_data_242; hanzi_data_243;
   hanzi_data_244; hanzi_data_245; hanzi_data_246; hanzi_data_247;
   hanzi_data_248; hanzi_data_249; hanzi_data_250; hanzi_data_251;
   hanzi_data_252; hanzi_data_253; hanzi_data_254; hanzi_data_255;
   hanzi_data_256; hanzi_data_257; hanzi_data_258; hanzi_data_259;
   hanzi_data_260; hanzi_data_261; hanzi_data_262; hanzi_data_263;
   hanzi_data_264; hanzi_data_265; hanzi_data_266; hanzi_data_267;
   hanzi_data_268; hanzi_data_269; hanzi_data_270; hanzi_data_271;
   hanzi_data_272; hanzi_data_273; hanzi_data_274; hanzi_data_275;
   hanzi_data_276; hanzi_data_277; hanzi_data_278; hanzi_data_279].
