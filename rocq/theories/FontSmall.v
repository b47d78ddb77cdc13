(** GENERATED by tools/gen_fonts.py from /repo/src/fonts/small.rs -- do not edit.
    MAX_HEIGHT, M3_SEED, match arms, HASH_* and OFFSET_* tables, DATA. *)
From Verif Require Import Prim FontDefs.

Definition small_data_0 : list N :=
  [0x4020b; 0x0; 0x20e06; 0xfffff0f0; 0x60406; 0xcf3cf300; 0xa0a04; 0xcc330fff;
   0xff330ccf; 0xffff0cc3; 0x30000000; 0xa1204; 0xc0303f0; 0xfcccf330; 0xcc333f0f; 0xccc330cc;
   0xf333f0fc; 0xc030000; 0x100e06; 0xfffcfffc; 0x30c330c3; 0xcc30cc3; 0x3f3c3f3c; 0xc3c0c3c0;
   0xc330c330; 0x3c0c3c0c; 0xe1004; 0x3c00f00; 0xc3030c03; 0x300cc00c; 0x303330; 0xccc0c0c3;
   0x3330ccc; 0x3c0f303c; 0x20406; 0xff000000; 0x61204; 0xc3030c0c; 0x30c30c30; 0xc30c330c;
   0xc3000000; 0x61204; 0xc330cc3; 0xc30c30c; 0x30c3030c; 0xc300000; 0xa0a06; 0xc030ccf;
   0x333f0fc3; 0x30ccc0f0; 0x30000000; 0xa0a08; 0xc0300c0; 0x30fffff0; 0xc0300c03; 0x0;
   0x40612; 0xcccc3300; 0x8020c; 0xffff0000; 0x20212; 0xf0000000; 0x81004; 0xc0c0c0c0;
   0x30303030; 0xc0c0c0c; 0x3030303; 0xa0e06; 0x3f0fcc0f; 0x3c0f03c; 0xf03c0f0; 0x3c0f033f;
   0xfc00000; 0x40e06; 0xccffcccc; 0xcccccc00; 0xa0e06; 0x3f0fcc0f; 0x3c03003; 0xc00c03;
   0x300cff; 0xfff00000; 0xa0e06; 0xfffff300; 0xc00c0303; 0xf0fcc030; 0xc0f033f; 0xfc00000;
   0xa0e06; 0x300c03c0; 0xf0330cc3; 0xcc3ffff; 0xf300c030; 0xc000000; 0xa0e06; 0xfffff00c;
   0x33fcffc; 0x300c030; 0xc0f033f; 0xfc00000; 0xa0e06; 0x3c0f0030; 0xc00c033; 0xfcffc0f0;
   0x3c0f033f; 0xfc00000; 0xa0e06; 0xfffffc03; 0x300c03; 0xc00c03; 0xc0300c; 0x3000000;
   0xa0e06; 0x3f0fcc0f; 0x3c0f033; 0xf0fcc0f0; 0x3c0f033f; 0xfc00000; 0xa0e06; 0x3f0fcc0f;
   0x3c0f03f; 0xf3fcc030; 0x300c00f; 0x3c00000; 0x20a0a; 0xf000f000; 0x40e0a; 0xcc000000;
   0xcccc3300; 0x60a08; 0xc3030c0c; 0x330cc300; 0xa060a; 0xfffff000; 0xfffff0; 0x60a08;
   0xc330cc3; 0x30c0c30; 0x80e06; 0x3c3cc3c3; 0xc0c03030; 0xc0c0000; 0xc0c0000; 0xe1006;
   0xfc03f03; 0x30c0ccf; 0xf3c3ccc; 0xf333cccf; 0x3333f0cf; 0xc3003000; 0xc0fc03f0; 0xa0e06;
   0xc0300c0; 0x30330cc3; 0x30ccffff; 0xfc0f03c0; 0xf0300000; 0xa0e06; 0x3fcffc0f; 0x3c0f033;
   0xfcffc0f0; 0x3c0f033f; 0xcff00000; 0xa0e06; 0x3f0fcc0f; 0x300c030; 0xc0300c0; 0x3c0f033f;
   0xfc00000; 0xa0e06; 0xfc3f30c; 0xc3c0f03c; 0xf03c0f0; 0x330cc30f; 0xc3f00000; 0x80e06;
   0xffff0303; 0x3033f3f; 0x3030303; 0xffff0000; 0x80e06; 0xffff0303; 0x3033f3f; 0x3030303;
   0x3030000; 0xa0e06; 0x3f0fcc0f; 0x300c03f; 0xfc3c0f0; 0x3c0f033f; 0xfc00000; 0xa0e06;
   0xc0f03c0f; 0x3c0f03f; 0xffffc0f0; 0x3c0f03c0; 0xf0300000; 0x20e06; 0xfffffff0; 0xa0e06;
   0xc0300c03; 0xc0300c; 0x300c0f0; 0x3c0f033f; 0xfc00000; 0xa0e06; 0xc0f0330c; 0xc30cc330;
   0x3c0f0cc3; 0x330cc3c0; 0xf0300000; 0x80e06; 0x3030303; 0x3030303; 0x3030303; 0xffff0000;
   0xe0e06; 0xc00f003f; 0x3fc0fcc; 0xcf333c30; 0xf0c3c00f; 0x3c00f0; 0x3c00f00; 0x30000000;
   0xa0e06; 0xc3f0fc3f; 0xfccf33c; 0xcf33f0fc; 0x3f0fc3c0; 0xf0300000; 0xa0e06; 0x3f0fcc0f;
   0x3c0f03c; 0xf03c0f0; 0x3c0f033f; 0xfc00000; 0xa0e06; 0x3fcffc0f; 0x3c0f033; 0xfcff00c0;
   0x300c0300; 0xc0300000; 0xa1006; 0x3f0fcc0f; 0x3c0f03c; 0xf03c0f0; 0x3ccf333f; 0xfc300c0;
   0xa0e06; 0x3fcffc0f; 0x3c0f033; 0xfcff0cc3; 0x330cc3c0; 0xf0300000; 0xa0e06; 0x3f0fcc0f;
   0x300c033; 0xf0fcc030; 0xc0f033f; 0xfc00000; 0xa0e06; 0xfffff0c0; 0x300c0300; 0xc0300c03;
   0xc0300c; 0x3000000; 0xa0e06; 0xc0f03c0f; 0x3c0f03c; 0xf03c0f0; 0x3c0f033f; 0xfc00000;
   0xa0e06; 0xc0f03c0f; 0x3c0f033; 0x30cc330c; 0xc0c0300c; 0x3000000; 0xe0e06; 0xc00f003c;
   0xf00333; 0x30ccc333; 0xccc0cc0; 0x3300cc03; 0x300cc033; 0x0; 0xa0e06; 0xc0f03c0f;
   0x3330cc0; 0xc030330c; 0xcc0f03c0; 0xf0300000; 0xa0e06; 0xc0f03c0f; 0x3330cc0; 0xc0300c03;
   0xc0300c; 0x3000000; 0x80e06; 0xffffc0c0; 0x30300c0c; 0x3030303; 0xffff0000; 0x41204;
   0xff333333; 0x33333333; 0xff000000; 0x81004; 0x3030303; 0xc0c0c0c; 0x30303030; 0xc0c0c0c0;
   0x41204; 0xffcccccc; 0xcccccccc; 0xff000000; 0x60406; 0x30ccf300; 0xc0212; 0xffffff00;
   0x40406; 0x33cc0000; 0x80a0a; 0x3c3cc0c0; 0xfcfcc3c3; 0xfcfc0000; 0x80e06; 0x3030303;
   0x3f3fc3c3; 0xc3c3c3c3; 0x3f3f0000; 0x80a0a; 0x3c3cc3c3; 0x303c3c3; 0x3c3c0000; 0x80e06;
   0xc0c0c0c0; 0xfcfcc3c3; 0xc3c3c3c3; 0xfcfc0000; 0x80a0a; 0x3c3cc3c3; 0xffff0303; 0x3c3c0000;
   0x80e06; 0xf0f00c0c; 0x3f3f0c0c; 0xc0c0c0c; 0xc0c0000; 0x80e0a; 0xfcfcc3c3; 0xc3c3c3c3;
   0xfcfcc0c0; 0x3c3c0000; 0x80e06; 0x3030303; 0x3f3fc3c3; 0xc3c3c3c3; 0xc3c30000; 0x20e06;
   0xf0fffff0; 0x61206; 0xc30000c3; 0xc30c30c; 0x30c30c30; 0x3cf00000; 0x80e06; 0x3030303;
   0xc3c33333; 0xf0f3333; 0xc3c30000; 0x20e06; 0xfffffff0; 0xe0a0a; 0x3cfcf3fc; 0x30f0c3c3;
   0xf0c3c30; 0xf0c3c30f; 0xc300000; 0x80a0a; 0x3f3fc3c3; 0xc3c3c3c3; 0xc3c30000; 0x80a0a;
   0x3c3cc3c3; 0xc3c3c3c3; 0x3c3c0000; 0x80e0a; 0x3f3fc3c3; 0xc3c3c3c3; 0x3f3f0303; 0x3030000;
   0x80e0a; 0xfcfcc3c3; 0xc3c3c3c3; 0xfcfcc0c0; 0xc0c00000; 0x80a0a; 0xf3f30f0f; 0x3030303;
   0x3030000; 0x80a0a; 0xfcfc0303; 0x3c3cc0c0; 0x3f3f0000; 0x60e06; 0x30c30cff; 0xf30c30c3;
   0xcc30000; 0x80a0a; 0xc3c3c3c3; 0xc3c3c3c3; 0xfcfc0000; 0xa0a0a; 0xc0f03330; 0xcc330cc0;
   0xc0300c03; 0x0; 0xe0a0a; 0xc00f0033; 0x330ccc33; 0x30ccc0cc; 0x3300cc0; 0x33000000;
   0xa0a0a; 0xc0f03330; 0xcc0c0303; 0x30ccc0f0; 0x30000000; 0xa0e0a; 0xc0f03c0f; 0x3330cc3;
   0x30cc0c03; 0xc03003; 0xc0f00000; 0x80a0a; 0xffff3030; 0xc0c0303; 0xffff0000; 0x61204;
   0xc3030c30; 0xc30c0c33; 0xc30c30c; 0xc3000000; 0x21204; 0xffffffff; 0xf0000000; 0x61204;
   0xc330c30; 0xc30cc303; 0xc30c30c; 0xc300000; 0xa0406; 0xcf33c3cc; 0xf3000000; 0x4020b;
   0x0; 0x20e06; 0xf0fffff0; 0xa0e06; 0xc0303f0; 0xfcccf330; 0xcc33ccf3; 0x33f0fc0c;
   0x3000000; 0xa0e06; 0x3c0f0030; 0xc0300c0; 0xfc3f0300; 0xcc330c3f; 0xcff00000; 0xa0e06;
   0xc0f033f0; 0xfcc0f03c; 0xf03c0f0; 0x33f0fcc0; 0xf0300000; 0xa0e06; 0xc0f03330; 0xccfffff0;
   0xc030ffff; 0xf0c0300c; 0x3000000; 0x21204; 0xffff0fff; 0xf0000000; 0xa1204; 0x3f0fcc0f;
   0x300c033; 0xf0fcc0f0; 0x33f0fcc0; 0x300c0f03; 0x3f0fc000; 0x60206; 0xcf300000; 0x101004;
   0xff00ff0; 0x300c300c; 0xc3c3c3c3; 0xc033c033; 0xc033c033; 0xc3c3c3c3; 0x300c300c; 0xff00ff0;
   0x60e04; 0x30ccf3f3; 0xccf3f3c0; 0xfff000; 0xc0a0a; 0xc30c3030; 0xc30c0c30; 0xc330c30c].
Definition small_data_1 : list N :=
  [0xc30c3000; 0x8060c; 0xffffc0c0; 0xc0c00000; 0x8020c; 0xffff0000; 0x101004; 0xff00ff0;
   0x300c300c; 0xc3f3c3f3; 0xcc33cc33; 0xc3f3c3f3; 0xcc33cc33; 0x300c300c; 0xff00ff0; 0x60206;
   0xfff00000; 0x80804; 0x3c3cc3c3; 0xc3c33c3c; 0xa0c08; 0xc0300c0; 0x30fffff0; 0xc0300c03;
   0xfffff00; 0x60a02; 0xfffc30ff; 0xf0c3fff0; 0x60a02; 0xfffc30ff; 0xfc30fff0; 0x40406;
   0xcc330000; 0xc0e0a; 0xc30c30c3; 0xc3030c3; 0xc30c30c; 0xcfccfc00; 0x30030030; 0x3000000;
   0xc1206; 0xffcffc33; 0xf33f33f3; 0x3f33c33c; 0x33033033; 0x3303303; 0x30330330; 0x33033000;
   0x2020e; 0xf0000000; 0x40414; 0xcc330000; 0x60a02; 0x30c3cf30; 0xc30cfff0; 0x80c06;
   0x3c3cc3c3; 0xc3c33c3c; 0xffff; 0xc0a0a; 0xc30c330; 0xc30cc30c; 0x3030c30c; 0xc30c300;
   0x121400; 0xc030300; 0xc0c03c30; 0xf030300; 0xc0c03030; 0xc0c00cf; 0xc033fccc; 0x33300cc;
   0x30330c0f; 0xc303f0c0; 0xc00c3003; 0xc00c300; 0x30000000; 0x121400; 0xc030300; 0xc0c03c30;
   0xf030300; 0xc0c03030; 0xc0c00cf; 0xc033ffcc; 0x3f300c0; 0x30300c0f; 0xc303f0c0; 0xc0c0303;
   0xfc0c3f0; 0x30000000; 0x121400; 0xc0fc303; 0xf0c0c030; 0x30030fc0; 0xc3f030c0; 0xc3000cf;
   0xc033fccc; 0x33300cc; 0x30330c0f; 0xc303f0c0; 0xc00c3003; 0xc00c300; 0x30000000; 0x80e06;
   0x30300000; 0x30300c0c; 0x303c3c3; 0x3c3c0000; 0xa1400; 0x300c0c0; 0x30000000; 0xc0300c03;
   0x330cc33; 0xccfffff; 0xc0f03c0f; 0x3000000; 0xa1400; 0x300c00c0; 0x30000000; 0xc0300c03;
   0x330cc33; 0xccfffff; 0xc0f03c0f; 0x3000000; 0xa1400; 0xc030330; 0xcc000000; 0xc0300c03;
   0x330cc33; 0xccfffff; 0xc0f03c0f; 0x3000000; 0xa1400; 0xcf33c3cc; 0xf3000000; 0xc0300c03;
   0x330cc33; 0xccfffff; 0xc0f03c0f; 0x3000000; 0xa1202; 0x330cc000; 0xc0300; 0xc030330c;
   0xc330ccff; 0xfffc0f03; 0xc0f03000; 0xa1400; 0x3f0fcc0f; 0x33f0fc0; 0xc0300c03; 0x330cc33;
   0xccfffff; 0xc0f03c0f; 0x3000000; 0x100e06; 0xffc0ffc0; 0x3300330; 0x3300330; 0x3ffc3ffc;
   0x30c030c; 0x3030303; 0xff03ff03; 0xa1206; 0x3f0fcc0f; 0x300c030; 0xc0300c0; 0x3c0f033f;
   0xfc0c030; 0x300c000; 0x81400; 0xc0c3030; 0xffff; 0x3030303; 0x3f3f0303; 0x303ffff;
   0x81400; 0x30300c0c; 0xffff; 0x3030303; 0x3f3f0303; 0x303ffff; 0x81400; 0xc0c3333;
   0xffff; 0x3030303; 0x3f3f0303; 0x303ffff; 0x81202; 0x33330000; 0xffff0303; 0x3033f3f;
   0x3030303; 0xffff0000; 0x41400; 0x33cc00cc; 0xcccccccc; 0xcccc0000; 0x41400; 0xcc330033;
   0x33333333; 0x33330000; 0x61400; 0x30ccf300; 0x30c30c3; 0xc30c30c; 0x30c30c00; 0x61202;
   0xcf300030; 0xc30c30c3; 0xc30c30c; 0x30c00000; 0xc0e06; 0xfc0fc30; 0xc30cc0cc; 0xcc3fc3f;
   0xc0cc0c30; 0xc30c0fc0; 0xfc000000; 0xa1400; 0xcf33c3cc; 0xf300000c; 0x3f0fc3f0; 0xfccf33cc;
   0xf33f0fc3; 0xf0fc3c0f; 0x3000000; 0xa1400; 0x300c0c0; 0x30000003; 0xf0fcc0f0; 0x3c0f03c0;
   0xf03c0f03; 0xc0f033f0; 0xfc000000; 0xa1400; 0x300c00c0; 0x30000003; 0xf0fcc0f0; 0x3c0f03c0;
   0xf03c0f03; 0xc0f033f0; 0xfc000000; 0xa1400; 0xc030330; 0xcc000003; 0xf0fcc0f0; 0x3c0f03c0;
   0xf03c0f03; 0xc0f033f0; 0xfc000000; 0xa1400; 0xcf33c3cc; 0xf3000003; 0xf0fcc0f0; 0x3c0f03c0;
   0xf03c0f03; 0xc0f033f0; 0xfc000000; 0xa1202; 0x330cc000; 0x3f0fcc; 0xf03c0f0; 0x3c0f03c0;
   0xf03c0f03; 0x3f0fc000; 0xa0a0a; 0xc0f03330; 0xcc0c0303; 0x30ccc0f0; 0x30000000; 0xe0e06;
   0xcfc33f03; 0x30c0c3c; 0x30f0c333; 0xccc30f0; 0xc3c3030c; 0xc0fcc3f; 0x30000000; 0xa1400;
   0x300c0c0; 0x3000000c; 0xf03c0f0; 0x3c0f03c0; 0xf03c0f03; 0xc0f033f0; 0xfc000000; 0xa1400;
   0x300c00c0; 0x3000000c; 0xf03c0f0; 0x3c0f03c0; 0xf03c0f03; 0xc0f033f0; 0xfc000000; 0xa1400;
   0xc030330; 0xcc00000c; 0xf03c0f0; 0x3c0f03c0; 0xf03c0f03; 0xc0f033f0; 0xfc000000; 0xa1202;
   0x330cc000; 0xc0f03c; 0xf03c0f0; 0x3c0f03c0; 0xf03c0f03; 0x3f0fc000; 0xa1400; 0x300c00c0;
   0x3000000c; 0xf03c0f0; 0x3330cc0c; 0x300c030; 0xc0300c0; 0x30000000; 0x80e06; 0x303033f;
   0x3fc3c3c3; 0xc33f3f03; 0x3030000; 0xa0e06; 0xf03c30c; 0xc30cc330; 0xcc3330cc; 0x3c0f033c;
   0xcf300000; 0x81004; 0xc0c3030; 0x3c3c; 0xc3c3fcfc; 0xc3c3fcfc; 0x81004; 0x30300c0c;
   0x3c3c; 0xc3c3fcfc; 0xc3c3fcfc; 0x81004; 0x3030cccc; 0x3c3c; 0xc3c3fcfc; 0xc3c3fcfc;
   0x81004; 0xcccc3333; 0x3c3c; 0xc3c3fcfc; 0xc3c3fcfc; 0x80e06; 0xcccc0000; 0x3c3cc3c3;
   0xfcfcc3c3; 0xfcfc0000; 0x81202; 0x3c3cc3c3; 0x3c3c0000; 0x3c3cc3c3; 0xfcfcc3c3; 0xfcfc0000;
   0xe0a0a; 0x3cf0f3cc; 0x3030c0ff; 0xf3ffc030; 0xc0c33cf0; 0xf3c00000; 0x80e0a; 0x3c3cc3c3;
   0x303c3c3; 0x3c3c3030; 0xc0c0000; 0x81004; 0xc0c3030; 0x3c3c; 0xc3c3ffff; 0x3033c3c;
   0x81004; 0x30300c0c; 0x3c3c; 0xc3c3ffff; 0x303fcfc; 0x81004; 0xc0c3333; 0x3c3c;
   0xc3c3ffff; 0x3033c3c; 0x80e06; 0xc3c30000; 0x3c3cc3c3; 0xffff0303; 0xfcfc0000; 0x41004;
   0x33cc00cc; 0xcccccccc; 0x41004; 0xcc330033; 0x33333333; 0x61004; 0x30ccf300; 0x30c30c3;
   0xc30c30c; 0x60e06; 0xcf300030; 0xc30c30c3; 0xc30c000; 0x81004; 0x3333c0f; 0x3330cccc;
   0xc3c3c3c3; 0xc3c33c3c; 0x81004; 0xcccc3333; 0x3f3f; 0xc3c3c3c3; 0xc3c3c3c3; 0x81004;
   0xc0c3030; 0x3c3c; 0xc3c3c3c3; 0xc3c33c3c; 0x81004; 0x30300c0c; 0x3c3c; 0xc3c3c3c3;
   0xc3c33c3c; 0x81004; 0xc0c3333; 0x3c3c; 0xc3c3c3c3; 0xc3c33c3c; 0x81004; 0xcccc3333;
   0x3c3c; 0xc3c3c3c3; 0xc3c33c3c; 0x80e06; 0xc3c30000; 0x3c3cc3c3; 0xc3c3c3c3; 0x3c3c0000;
   0xa0a08; 0xc030000; 0xfffff0; 0xc03; 0x0; 0xc0c08; 0xcf0cf030; 0xc30c3cc3;
   0xcc33c33c; 0x30c30c0f; 0x30f30000; 0x81004; 0xc0c3030; 0xc3c3; 0xc3c3c3c3; 0xc3c3fcfc;
   0x81004; 0x30300c0c; 0xc3c3; 0xc3c3c3c3; 0xc3c3fcfc; 0x81004; 0xc0c3333; 0xc3c3;
   0xc3c3c3c3; 0xc3c3fcfc; 0x80e06; 0xc3c30000; 0xc3c3c3c3; 0xc3c3c3c3; 0xfcfc0000; 0xa1404;
   0x300c00c0; 0x3000000c; 0xf03c0f0; 0x3330cc33; 0xcc0c030; 0xc03003c; 0xf000000; 0x81206;
   0x3030303; 0x3f3fc3c3; 0xc3c3c3c3; 0x3f3f0303; 0x3030000; 0xa1206; 0x330cc000; 0xc0f03c;
   0xf03330c; 0xc330cc0c; 0x300c030; 0x3c0f000; 0x100e06; 0xfffcfffc; 0x3030303; 0x3030303;
   0x3f033f03; 0x3030303; 0x3030303; 0xfffcfffc; 0xe0a0a; 0x3cf0f3cc; 0x30f0c3ff; 0xffc3030;
   0xc0c33ff0; 0xffc00000; 0x40604; 0xcc333300; 0x40604; 0xcccc3300; 0x40612; 0xcccc3300].
Definition small_data_2 : list N :=
  [0x40604; 0x3333cc00; 0x80604; 0xcccc3333; 0x33330000; 0x80604; 0xcccccccc; 0x33330000;
   0x80612; 0xcccccccc; 0x33330000; 0x80604; 0x33333333; 0xcccc0000; 0x60a04; 0x30cfff30;
   0xc30c30c0; 0x61206; 0x30c30cff; 0xf30c30c3; 0xcfff30c; 0x30c00000; 0xa0a08; 0x3f0fcfff;
   0xffffffff; 0xffff3f0f; 0xc0000000; 0xc0e04; 0x3f03f0c0; 0xcc0c0ff0; 0xff00c00c; 0xff0ffc0;
   0xcc0c3f03; 0xf0000000; 0x121402; 0xc00030; 0x3f000f; 0xc00f3c03; 0xcf03ccf0; 0xf33cfcff;
   0xff3ffff3; 0xfffcff3f; 0xff0fffc0; 0xf3c03cf0; 0x3f000fc; 0xc0003; 0x0].
Definition small_data_group_0 : list (list N) :=
  [small_data_0; small_data_1; small_data_2].
(** HASH_BASIC_LATIN, src/fonts/small.rs:101-250 *)
Definition small_hash_basic_latin : list N :=
  [0x323cd4f; 0x49bf55e; 0x537c05e; 0xb9ea876; 0xd4e2b64; 0x11ddb5bc; 0x129f2a7f; 0x13156136;
   0x131ab870; 0x1403a883; 0x1586c0aa; 0x1672836b; 0x16f9a05f; 0x18d53bb6; 0x198b90fc; 0x1bf82d35;
   0x1c40e42f; 0x1cfcd293; 0x1f2b17f3; 0x1f79a4d0; 0x21840e11; 0x22abe92f; 0x2379b646; 0x24189ec6;
   0x259e68d3; 0x26ff6e36; 0x2a3184f1; 0x2b038801; 0x2c17f13b; 0x2d2269f8; 0x30f856b5; 0x31099644;
   0x315f5687; 0x3673cb35; 0x39bc06bb; 0x435f26f6; 0x43603571; 0x44c216ba; 0x455e0578; 0x45ef573f;
   0x465d3b9d; 0x47ef8034; 0x4938ea00; 0x4ab0fc13; 0x4bcd3197; 0x4cc5a899; 0x524c4f7e; 0x52d3cb36;
   0x55c7f2ae; 0x56dee618; 0x5a352e5e; 0x5b06f60a; 0x5c904e6c; 0x5ca0f32f; 0x5ff80125; 0x61901224;
   0x67bd451e; 0x681839b8; 0x68e75be7; 0x6c058218; 0x6e85a379; 0x72de1efb; 0x73688484; 0x7627ca6c;
   0x779cda2e; 0x7834a19c; 0x78fd8c32; 0x7a435eee; 0x7b6b1369; 0x7ba23029; 0x7f4ebf76; 0x803af153;
   0x804744c4; 0x84510f7d; 0x8499b628; 0x86a8b043; 0x8b86ba97; 0x8c1a54ee; 0x8c69c315; 0x8c94654b;
   0x8db20a6b; 0x933cec52; 0x9500c437; 0x9582c02e; 0x98453fd6; 0x98c6b546; 0x99933c47; 0x9b44cabe;
   0x9dd6d1df; 0x9f99932f; 0xa03d6d22; 0xa13b361a; 0xa1a410c7; 0xa26a0e29; 0xa30cad6b; 0xa5872342;
   0xa891e88a; 0xabe208d0; 0xadabea12; 0xadc91a24; 0xae495307; 0xaf41db71; 0xb12bf2ee; 0xb35f1351;
   0xb454a383; 0xb5097bab; 0xb8ed6be2; 0xbe856396; 0xbfe47d0d; 0xc06e932f; 0xc0afd8ed; 0xc1209a73;
   0xc2ddc575; 0xc3ab3492; 0xc57a2c66; 0xc5e4d96b; 0xc890e3dd; 0xc99309a2; 0xc9bea311; 0xcaeccf17;
   0xcaf83468; 0xcb07fd3e; 0xcb7242e0; 0xcd3fdbe3; 0xce94ae25; 0xd363e17b; 0xd4ffa898; 0xd7b03f23;
   0xd822b857; 0xda2b151d; 0xdb01af22; 0xdc135abd; 0xe2aa1ebb; 0xe5ca55bf; 0xe6556d01; 0xe7c19ba9;
   0xed67fa54; 0xef026b52; 0xef302693; 0xf04b9422; 0xf0f19a38; 0xf29ab82d; 0xf31d8bfb; 0xf3a5a351;
   0xf3bf2609; 0xf85223eb; 0xfc2c2430; 0xfff1d70c].
(** OFFSET_BASIC_LATIN, src/fonts/small.rs:253-402 *)
Definition small_offset_basic_latin : list N :=
  [898; 447; 682; 112; 883; 791; 856; 180;
   230; 694; 361; 320; 6; 36; 963; 429;
   771; 41; 714; 11; 392; 205; 763; 861;
   100; 82; 266; 322; 397; 373; 636; 405;
   197; 439; 211; 731; 163; 248; 815; 126;
   906; 997; 106; 88; 151; 444; 157; 18;
   983; 413; 331; 73; 318; 26; 254; 94;
   922; 739; 143; 807; 424; 46; 387; 169;
   292; 932; 409; 719; 118; 199; 675; 303;
   340; 383; 866; 56; 132; 349; 0; 893;
   2; 652; 129; 185; 138; 978; 418; 846;
   851; 620; 659; 62; 76; 644; 973; 366;
   67; 236; 335; 878; 942; 312; 272; 175;
   968; 947; 286; 903; 242; 260; 755; 344;
   4; 927; 747; 909; 135; 58; 298; 401;
   191; 34; 51; 216; 326; 841; 124; 435;
   706; 307; 379; 224; 60; 359; 354; 888;
   822; 371; 710; 799; 452; 278; 913; 628;
   688; 700; 316; 937].
(** HASH_LATIN_1_SUPPLEMENT, src/fonts/small.rs:415-512 *)
Definition small_hash_latin_1_supplement : list N :=
  [0xeac56e; 0x254fd66; 0x56de9e6; 0x6fe368d; 0x137e3259; 0x18e6f281; 0x1a5a66cd; 0x1b0de252;
   0x1b43c661; 0x1c505947; 0x252158d3; 0x25872b22; 0x259437ac; 0x268b196d; 0x275e5021; 0x2766361e;
   0x278a377a; 0x28ca6ad7; 0x291e971e; 0x3280724d; 0x36953e7b; 0x388fb155; 0x39056a43; 0x3a073fbe;
   0x3ae00f65; 0x3e168b4d; 0x3e82329e; 0x402dcff6; 0x4236cdd1; 0x44d0c2c4; 0x450db83d; 0x4f92356c;
   0x511bca1d; 0x554a5349; 0x5e39bcee; 0x5eb9d2a0; 0x5ee10367; 0x62d494f4; 0x6984aa2d; 0x6ba96cc3;
   0x6e3c05cf; 0x6ef8ed06; 0x6fa3c127; 0x71ee15f2; 0x7619d892; 0x76554d10; 0x79026f8e; 0x7e2a203c;
   0x839d40cb; 0x84ff8f94; 0x8ae0a2b9; 0x8d741045; 0x8ea3f31f; 0x9194ccb5; 0x92979158; 0x95c4dc63;
   0x97a9c1da; 0x97c63b05; 0xa10c8120; 0xa5f3368b; 0xa7883ca5; 0xa7b0fe42; 0xabf561b2; 0xad97621d;
   0xb1a64f1e; 0xb1bf38b8; 0xb55da0fa; 0xb5ca05f5; 0xb7001103; 0xb9229669; 0xba8e9829; 0xbb608964;
   0xc0837c42; 0xc0e7ab63; 0xc20fe7b7; 0xc6ef143e; 0xc98be718; 0xcad0511f; 0xcaf24984; 0xd040d3e3;
   0xd4d6097a; 0xd83534e2; 0xdd061c7a; 0xde3fb757; 0xe14f2e81; 0xe2532edc; 0xe51ff77c; 0xe5da3fed;
   0xe9131aa1; 0xebc8143d; 0xec99a516; 0xf446cd1a; 0xf520ef41; 0xf64ed921; 0xfb89d3f4; 0xfbfecc1c].
(** OFFSET_LATIN_1_SUPPLEMENT, src/fonts/small.rs:515-612 *)
Definition small_offset_latin_1_supplement : list N :=
  [529; 518; 714; 771; 763; 841; 957; 459;
   471; 906; 477; 898; 486; 861; 493; 799;
   706; 783; 719; 571; 942; 913; 688; 682;
   978; 932; 973; 778; 602; 893; 807; 545;
   846; 667; 543; 878; 927; 822; 710; 815;
   983; 516; 856; 739; 504; 675; 659; 952;
   465; 755; 866; 830; 540; 513; 937; 644;
   552; 455; 560; 564; 562; 495; 508; 724;
   636; 567; 909; 483; 457; 615; 652; 968;
   576; 527; 991; 835; 628; 888; 791; 883;
   700; 731; 537; 903; 851; 917; 589; 532;
   963; 947; 620; 747; 872; 922; 997; 694].
(** HASH_LATIN_EXTENDED_A, src/fonts/small.rs:625-628 *)
Definition small_hash_latin_extended_a : list N :=
  [0x1a01594c; 0x8c60da30].
(** OFFSET_LATIN_EXTENDED_A, src/fonts/small.rs:631-634 *)
Definition small_offset_latin_extended_a : list N :=
  [1004; 1012].
(** HASH_GENERAL_PUNCTUATION, src/fonts/small.rs:647-659 *)
Definition small_hash_general_punctuation : list N :=
  [0xd0042b1; 0x18e68a7d; 0x372ed469; 0x3a3c25c2; 0x80e4e277; 0x885e576b; 0x8b80c01d; 0x8f0be1db;
   0x8f56d335; 0xa6c64f29; 0xe29813b0].
(** OFFSET_GENERAL_PUNCTUATION, src/fonts/small.rs:662-674 *)
Definition small_offset_general_punctuation : list N :=
  [1046; 1022; 1026; 1029; 1041; 1035; 1024; 1032;
   1038; 1018; 1020].
(** HASH_CURRENCY_SYMBOLS, src/fonts/small.rs:687-689 *)
Definition small_hash_currency_symbols : list N :=
  [0x1aca36bb].
(** OFFSET_CURRENCY_SYMBOLS, src/fonts/small.rs:692-694 *)
Definition small_offset_currency_symbols : list N :=
  [1051].
(** HASH_SPECIALS, src/fonts/small.rs:707-709 *)
Definition small_hash_specials : list N :=
  [0x58a5da35].
(** OFFSET_SPECIALS, src/fonts/small.rs:712-714 *)
Definition small_offset_specials : list N :=
  [1058].
(** DATA, src/fonts/small.rs:726-1145 *)
Definition small_data : bigarr :=
  small_data_group_0.
(** The arms of the match in get_blit_pattern_offset, src/fonts/small.rs *)
Definition small_blocks : list block :=
  [ Block 0x0 0x7F [2; 1]
         small_hash_basic_latin
         small_offset_basic_latin;
    Block 0x80 0xFF [1]
         small_hash_latin_1_supplement
         small_offset_latin_1_supplement;
    Block 0x100 0x17F [1]
         small_hash_latin_extended_a
         small_offset_latin_extended_a;
    Block 0x2000 0x206F [1]
         small_hash_general_punctuation
         small_offset_general_punctuation;
    Block 0x20A0 0x20CF [1]
         small_hash_currency_symbols
         small_offset_currency_symbols;
    Block 0xFFF0 0xFFFF [1]
         small_hash_specials
         small_offset_specials ].
Definition small_font : font := Font 24 0 small_blocks small_data.
