(** GENERATED by tools/gen_fonts.py from /repo/src/fonts/regular.rs -- do not edit.
    MAX_HEIGHT, M3_SEED, match arms, HASH_* and OFFSET_* tables, DATA. *)
From Verif Require Import Prim FontDefs.

Definition regular_data_0 : list N :=
  [0x4020e; 0x0; 0x21206; 0xfffffff0; 0xf0000000; 0x60406; 0xcf3cf300; 0xe0a06;
   0x3300cc0f; 0xff3ffc0c; 0xc03303ff; 0xcfff0330; 0xcc00000; 0xa1604; 0xc0303f0; 0xfcccf330;
   0xcc330f03; 0xc3c0f0cc; 0x330cc330; 0xccf333f0; 0xfc0c0300; 0xe1206; 0xfff3ffcc; 0x30f0c333;
   0xccc30cf; 0x33c0300; 0xc03cc0f; 0x30c3330c; 0xcc30f0c3; 0x3c0cf030; 0x101206; 0xf000f0;
   0x30c030c; 0xcc00cc; 0x300030; 0xcc00cc; 0x33033303; 0xc030c03; 0x33033303; 0xc0fcc0fc;
   0x20406; 0xff000000; 0x61604; 0xc3030c30; 0xc0c30c30; 0xc30c30c3; 0x30c30cc3; 0x0;
   0x61604; 0xc330c30; 0xcc30c30c; 0x30c30c30; 0x30c30c0c; 0x30000000; 0xa0a08; 0xc030ccf;
   0x333f0fc3; 0x30ccc0f0; 0x30000000; 0xa0a0a; 0xc0300c0; 0x30fffff0; 0xc0300c03; 0x0;
   0x40616; 0xcccc3300; 0xa020e; 0xfffff000; 0x20216; 0xf0000000; 0xa1404; 0xc0300c03;
   0x300c03; 0xc00c03; 0xc03003; 0xc0300c; 0xc0300c; 0x3000000; 0xc1206; 0xf00f030;
   0xc30cc03c; 0x3c03c03; 0xc03c03c0; 0x3c03c03c; 0x330c30c; 0xf00f000; 0x41206; 0xccffcccc;
   0xcccccccc; 0xcc000000; 0xc1206; 0x3f03f0c0; 0xcc0cc03c; 0x3c00c00; 0x3003000c; 0xc00300;
   0x3000c00c; 0xffffff00; 0xc1206; 0xffffff30; 0x3000c00; 0xc00f00f0; 0x300300c0; 0xc00c00c;
   0x303303; 0xfc0fc00; 0xe1206; 0x3000c003; 0xc00f0033; 0xcc030c; 0xc303030; 0xc0c300cc;
   0x3ffffff; 0xf3000c00; 0x3000c000; 0xc1206; 0xffffff00; 0x30030030; 0x33ff3ff; 0xc00c00c0;
   0xc00c00c; 0xc03c03; 0x3fc3fc00; 0xc1206; 0x3f03f000; 0xc00c0030; 0x33ff3ff; 0xc03c03c0;
   0x3c03c03c; 0x3c03c03; 0x3fc3fc00; 0xc1206; 0xffffffc0; 0xc003003; 0x300300; 0xc00c00c;
   0xc00300; 0x30030030; 0x3003000; 0xc1206; 0x3fc3fcc0; 0x3c03c03c; 0x33fc3fc; 0xc03c03c0;
   0x3c03c03c; 0x3c03c03; 0x3fc3fc00; 0xc1206; 0x3fc3fcc0; 0x3c03c03c; 0x3c03c03; 0xc03c03ff;
   0xcffcc00c; 0x300300; 0xfc0fc00; 0x20c0c; 0xf0000f00; 0x4100c; 0xcc000000; 0xcccc33;
   0x80e0a; 0xc0c03030; 0xc0c0303; 0xc0c3030; 0xc0c00000; 0xa080e; 0xfffff000; 0xf;
   0xffff0000; 0x80e0a; 0x3030c0c; 0x3030c0c0; 0x30300c0c; 0x3030000; 0xc1206; 0x3fc3fcc0;
   0x3c03c03c; 0x3300300; 0xc00c003; 0x300300; 0x30000000; 0x3003000; 0x101008; 0xff00ff0;
   0x300c300c; 0xcfc3cfc3; 0xcc33cc33; 0xcc33cc33; 0x3fc33fc3; 0xc000c; 0x3f003f0; 0xe1206;
   0x3000c00; 0x3000c00c; 0xc03300cc; 0x3303030; 0xc0c3030c; 0xcffffff; 0xfc00f003; 0xc00f0030;
   0xc1206; 0x3ff3ffc0; 0x3c03c03c; 0x33ff3ff; 0xc03c03c0; 0x3c03c03c; 0x3c03c03; 0x3ff3ff00;
   0xc1206; 0x3fc3fcc0; 0x3c030030; 0x3003003; 0x300300; 0x30030030; 0x3c03c03; 0x3fc3fc00;
   0xc1206; 0xff0ff30; 0x3303c03c; 0x3c03c03; 0xc03c03c0; 0x3c03c03c; 0x3303303; 0xff0ff00;
   0xa1206; 0xfffff00c; 0x300c030; 0xc033fcf; 0xf00c0300; 0xc0300c03; 0xfffff000; 0xa1206;
   0xfffff00c; 0x300c030; 0xc033fcf; 0xf00c0300; 0xc0300c03; 0xc03000; 0xc1206; 0x3fc3fcc0;
   0x3c030030; 0x3003003; 0xfc3fc3c0; 0x3c03c03c; 0x3c03c03; 0x3fc3fc00; 0xc1206; 0xc03c03c0;
   0x3c03c03c; 0x3c03c03; 0xffffffc0; 0x3c03c03c; 0x3c03c03; 0xc03c0300; 0x21206; 0xffffffff;
   0xf0000000; 0xc1206; 0xc00c00c0; 0xc00c00c; 0xc00c00; 0xc00c00c0; 0xc00c03c; 0x3c03c03;
   0x3fc3fc00; 0xc1206; 0xc03c0330; 0x33030c30; 0xc3033033; 0xf00f03; 0x30330c30; 0xc3303303;
   0xc03c0300; 0xa1206; 0xc0300c; 0x300c030; 0xc0300c0; 0x300c0300; 0xc0300c03; 0xfffff000;
   0xe1206; 0xc00f003f; 0x3fc0fcc; 0xcf333c30; 0xf0c3c00f; 0x3c00f0; 0x3c00f00; 0x3c00f003;
   0xc00f0030; 0xc1206; 0xc0fc0fc0; 0xfc0fc33c; 0x33c33c33; 0xcc3cc3cc; 0x3cc3f03f; 0x3f03f03;
   0xc03c0300; 0xc1206; 0x3fc3fcc0; 0x3c03c03c; 0x3c03c03; 0xc03c03c0; 0x3c03c03c; 0x3c03c03;
   0x3fc3fc00; 0xc1206; 0x3ff3ffc0; 0x3c03c03c; 0x3c03c03; 0x3ff3ff00; 0x30030030; 0x3003003;
   0x300300; 0xc1606; 0x3fc3fcc0; 0x3c03c03c; 0x3c03c03; 0xc03c03c0; 0x3c03c03c; 0x3c03c03;
   0x3fc3fc0c; 0xc0f00f; 0x0; 0xc1206; 0x3ff3ffc0; 0x3c03c03c; 0x3c03c03; 0x3ff3ff0c;
   0x30c33033; 0x3c03c03; 0xc03c0300; 0xc1206; 0x3fc3fcc0; 0x3c030030; 0x3003003; 0x3fc3fcc0;
   0xc00c00c; 0xc03c03; 0x3fc3fc00; 0xe1206; 0xfffffff0; 0x3000c003; 0xc0030; 0xc00300;
   0xc003000; 0xc003000c; 0x3000c0; 0x3000c00; 0xc1206; 0xc03c03c0; 0x3c03c03c; 0x3c03c03;
   0xc03c03c0; 0x3c03c03c; 0x3c03c03; 0x3fc3fc00; 0xe1206; 0xc00f003c; 0xf003c0; 0xf003303;
   0xc0c3030; 0xc0c0cc03; 0x300cc033; 0x3000c0; 0x3000c00; 0x121206; 0xc000f000; 0x3c000f00;
   0x3c0c0f0; 0x30330c30; 0xc30c3333; 0xcccc333; 0x30cccc0c; 0xc030300; 0xc0c03030; 0xc0c0303;
   0x0; 0xa1206; 0xc0f03c0f; 0x3330cc3; 0x30cc0c03; 0x330cc33; 0xccc0f03; 0xc0f03000;
   0xa1206; 0xc0f03c0f; 0x3c0f033; 0x30cc330c; 0xc0c0300c; 0x300c030; 0xc030000; 0xa1206;
   0xfffffc03; 0x300c03; 0xc00c03; 0x300c03; 0xc00c03; 0xfffff000; 0x41604; 0xff333333;
   0x33333333; 0x3333ff00; 0xa1404; 0xc0300c; 0x30300c0; 0x300c0c03; 0xc03030; 0xc0300c0;
   0xc0300c03; 0x0; 0x41604; 0xffcccccc; 0xcccccccc; 0xccccff00; 0x60806; 0x30c30ccf;
   0x3cf30000; 0x100216; 0xffffffff; 0x40406; 0x33cc0000; 0xa0e0a; 0x3f0fcc0f; 0x3c0300f;
   0xf3fcc0f0; 0x3c0f03ff; 0x3fc00000; 0xa1206; 0xc0300c; 0x33fcffc; 0xf03c0f0; 0x3c0f03c0;
   0xf03c0f03; 0x3fcff000; 0xa0e0a; 0x3f0fcc0f; 0x300c030; 0xc0300c0; 0x3c0f033f; 0xfc00000;
   0xa1206; 0xc0300c03; 0xff3fcc; 0xf03c0f0; 0x3c0f03c0; 0xf03c0f03; 0xff3fc000; 0xa0e0a;
   0x3f0fcc0f; 0x3c0f03f; 0xffff00c0; 0x3c0f033f; 0xfc00000; 0x81206; 0xf0f00c0c; 0x3f3f0c0c;
   0xc0c0c0c; 0xc0c0c0c; 0xc0c0000; 0xa140a; 0xff3fcc0f; 0x3c0f03c; 0xf03c0f0; 0x3c0f03ff;
   0x3fcc0300; 0xc0f033f0; 0xfc000000; 0xa1206; 0xc0300c; 0x33ccf3c; 0x3f0fc0f0; 0x3c0f03c0;
   0xf03c0f03; 0xc0f03000; 0x21206; 0xf0ffffff; 0xf0000000; 0x61806; 0xc30000c3; 0xc30c30c;
   0x30c30c30; 0xc30c30c3; 0x3cf0000; 0xa1206; 0xc0300c; 0x3c0f033; 0xcc30cc3; 0x303c0f0c;
   0xc3330cc3; 0xc0f03000; 0x21206; 0xffffffff; 0xf0000000; 0x120e0a; 0x3c3ccf0f; 0x3c3c3f0f;
   0xfc0c0f0; 0x303c0c0f; 0x303c0c0; 0xf0303c0c; 0xf0303c0; 0xc0f03030; 0xa0e0a; 0x3ccf3c3f;
   0xfc0f03c; 0xf03c0f0; 0x3c0f03c0; 0xf0300000; 0xa0e0a; 0x3f0fcc0f; 0x3c0f03c; 0xf03c0f0].
Definition regular_data_1 : list N :=
  [0x3c0f033f; 0xfc00000; 0xa120a; 0x3fcffc0f; 0x3c0f03c; 0xf03c0f0; 0x3c0f033f; 0xcff00c03;
   0xc03000; 0xa120a; 0xff3fcc0f; 0x3c0f03c; 0xf03c0f0; 0x3c0f03ff; 0x3fcc0300; 0xc0300000;
   0xa0e0a; 0xfcff303c; 0xf00c030; 0xc0300c0; 0x300c0300; 0xc0300000; 0xa0e0a; 0x3f0fcc0f;
   0x300c033; 0xf0fcc030; 0xc0f033f; 0xfc00000; 0x81206; 0xc0c0c0c; 0x3f3f0c0c; 0xc0c0c0c;
   0xc0c0c0c; 0xf0f00000; 0xa0e0a; 0xc0f03c0f; 0x3c0f03c; 0xf03c0f0; 0x3f0fc3cf; 0x33c00000;
   0xa0e0a; 0xc0f03c0f; 0x3c0f033; 0x30cc330c; 0xc0c0300c; 0x3000000; 0x120e0a; 0xc0c0f030;
   0x3c0c0f03; 0x333330c; 0xccc33330; 0xcccc0c0c; 0x30300c0; 0xc030300c; 0xc030300; 0xa0e0a;
   0xc0f03c0f; 0x3330cc0; 0xc030330c; 0xcc0f03c0; 0xf0300000; 0xc140a; 0xc0cc0cc0; 0xcc0cc0cc;
   0xc330330; 0x3303300c; 0xc00c00; 0xc0030030; 0x3003000; 0xf00f0000; 0xa0e0a; 0xfffffc03;
   0x300c00; 0xc0300300; 0xc00c03ff; 0xfff00000; 0x61604; 0xc3030c30; 0xc30c30c0; 0xc330c30c;
   0x30c30cc3; 0x0; 0x21604; 0xffffffff; 0xfff00000; 0x61604; 0xc330c30; 0xc30c30cc;
   0x3030c30c; 0x30c30c0c; 0x30000000; 0xc0406; 0xc3cc3c3c; 0x33c30000; 0x4020e; 0x0;
   0x21206; 0xf0ffffff; 0xf0000000; 0xa1208; 0xc0303f0; 0xfcccf330; 0xcc330cc3; 0x30cc33cc;
   0xf333f0fc; 0xc030000; 0xc1206; 0x3c03c003; 0x300300; 0x30030030; 0xff0ff00; 0xc00c00c0;
   0xc00c00c; 0xffffff00; 0xc1006; 0x30c30c0f; 0xf030c3; 0xcc03c03; 0xc03c0330; 0xc30c0f00;
   0xf030c30c; 0xa1206; 0xc0f03330; 0xccfffff0; 0xc030ffff; 0xf0c0300c; 0x300c030; 0xc030000;
   0x21604; 0xfffff0ff; 0xfff00000; 0xc1606; 0x3fc3fcc0; 0x3c030030; 0x303c03c; 0x3c33c3c0;
   0x3c03c3cc; 0x3c3c03c0; 0xc00c00c0; 0x3c033fc3; 0xfc000000; 0x60206; 0xcf300000; 0x101008;
   0xff00ff0; 0x300c300c; 0xc3c3c3c3; 0xc033c033; 0xc033c033; 0xc3c3c3c3; 0x300c300c; 0xff00ff0;
   0x80e06; 0x3c3cc0c0; 0xfcfcc3c3; 0xfcfc0000; 0xffff0000; 0xc0a0e; 0xc30c3030; 0xc30c0c30;
   0xc330c30c; 0xc30c3000; 0xa060e; 0xfffffc03; 0xc03000; 0xa020e; 0xfffff000; 0x101008;
   0xff00ff0; 0x300c300c; 0xc3f3c3f3; 0xcc33cc33; 0xc3f3c3f3; 0xcc33cc33; 0x300c300c; 0xff00ff0;
   0x60206; 0xfff00000; 0x80806; 0x3c3cc3c3; 0xc3c33c3c; 0xa0e0a; 0xc0300c0; 0x30fffff0;
   0xc0300c03; 0xff; 0xfff00000; 0x60a02; 0xfffc30ff; 0xf0c3fff0; 0x60a02; 0xfffc30ff;
   0xfc30fff0; 0x40406; 0xcc330000; 0x10120a; 0xc0c0c0c0; 0xc0c0c0c0; 0x30303030; 0x30303030;
   0x30303030; 0xc0c0c0c; 0x33fc33fc; 0x30003; 0x30003; 0xe1606; 0xfff3ffc3; 0x3fccff33;
   0xfccff33f; 0xccff33f0; 0xcfc3300c; 0xc03300cc; 0x3300cc0; 0x3300cc03; 0x300cc033; 0xcc0000;
   0x20210; 0xf0000000; 0x40618; 0x33ccff00; 0x60a02; 0x30c3cf30; 0xc30cfff0; 0x80e06;
   0x3c3cc3c3; 0xc3c3c3c3; 0x3c3c0000; 0xffff0000; 0xc0a0e; 0xc30c330; 0xc30cc30c; 0x3030c30c;
   0xc30c300; 0x121402; 0xc030300; 0xc0c03c30; 0xf030300; 0xc0c03030; 0xc0c00cf; 0xc033fccc;
   0x33300cc; 0x30330c0f; 0xc303f0c0; 0xc00c3003; 0xc00c300; 0x30000000; 0x121402; 0xc030300;
   0xc0c03c30; 0xf030300; 0xc0c03030; 0xc0c00cf; 0xc033ffcc; 0x3f300c0; 0x30300c0f; 0xc303f0c0;
   0xc0c0303; 0xfc0c3f0; 0x30000000; 0x121402; 0xc0fc303; 0xf0c0c030; 0x30030fc0; 0xc3f030c0;
   0xc3000cf; 0xc033fccc; 0x33300cc; 0x30330c0f; 0xc303f0c0; 0xc00c3003; 0xc00c300; 0x30000000;
   0xa1206; 0xc030000; 0xc0300; 0xc0300300; 0xc00c03c0; 0xf03c0f03; 0x3f0fc000; 0xe1800;
   0xc00300; 0x3000c000; 0x30; 0xc00300; 0xc00cc03; 0x300cc033; 0x3030c0c; 0x3030c0cf;
   0xffffffc0; 0xf003c00; 0xf0030000; 0xe1800; 0xc003000; 0x3000c000; 0x30; 0xc00300;
   0xc00cc03; 0x300cc033; 0x3030c0c; 0x3030c0cf; 0xffffffc0; 0xf003c00; 0xf0030000; 0xe1800;
   0x3000c00; 0xcc033000; 0x30; 0xc00300; 0xc00cc03; 0x300cc033; 0x3030c0c; 0x3030c0cf;
   0xffffffc0; 0xf003c00; 0xf0030000; 0xe1800; 0xc3c30f03; 0xc30f0c00; 0x30; 0xc00300;
   0xc00cc03; 0x300cc033; 0x3030c0c; 0x3030c0cf; 0xffffffc0; 0xf003c00; 0xf0030000; 0xe1602;
   0xcc03300; 0x3; 0xc0030; 0xc00cc0; 0x3300cc03; 0x303030c0; 0xc3030c0c; 0xfffffffc;
   0xf003c0; 0xf003000; 0xe1602; 0x3000c00; 0xcc033003; 0xc0030; 0xc00cc0; 0x3300cc03;
   0x303030c0; 0xc3030c0c; 0xfffffffc; 0xf003c0; 0xf003000; 0x141206; 0xfff00fff; 0xcc00;
   0xcc000cc; 0xcc000; 0xc3000c30; 0x3fff03ff; 0xf000c0c0; 0xc0c00c0; 0xc00c0c00; 0xc0300c03;
   0xffc03ffc; 0x3000000; 0xc1806; 0x3fc3fcc0; 0x3c030030; 0x3003003; 0x300300; 0x30030030;
   0x3c03c03; 0x3fc3fc0c; 0xc03003; 0xc00c0; 0xa1800; 0x300c0c0; 0x3000000f; 0xffff00c0;
   0x300c0300; 0xc033fcff; 0xc0300c; 0x300c03f; 0xffff0000; 0xa1800; 0x300c00c0; 0x3000000f;
   0xffff00c0; 0x300c0300; 0xc033fcff; 0xc0300c; 0x300c03f; 0xffff0000; 0xa1800; 0xc030330;
   0xcc00000f; 0xffff00c0; 0x300c0300; 0xc033fcff; 0xc0300c; 0x300c03f; 0xffff0000; 0xa1602;
   0x330cc000; 0xfffff0; 0xc0300c0; 0x300c033f; 0xcff00c03; 0xc0300c; 0x3fffff0; 0x41800;
   0x33cc00cc; 0xcccccccc; 0xcccccccc; 0x41800; 0xcc330033; 0x33333333; 0x33333333; 0x61800;
   0x30ccf300; 0x30c30c3; 0xc30c30c; 0x30c30c30; 0xc30c0000; 0x61602; 0xcf300030; 0xc30c30c3;
   0xc30c30c; 0x30c30c30; 0xc0000000; 0xe1206; 0xff03fc3; 0x30c0cc0; 0x3300cc03; 0x300cc0ff;
   0x3fc0330; 0xcc03300; 0xc3030c0c; 0xff03fc0; 0xc1800; 0xc3cc3c3c; 0x33c30000; 0xc0fc0f;
   0xc0fc0fc3; 0x3c33c33c; 0x33cc3cc3; 0xcc3cc3f0; 0x3f03f03f; 0x3c03c03; 0xc1800; 0x300300c;
   0xc00000; 0x3fc3fc; 0xc03c03c0; 0x3c03c03c; 0x3c03c03; 0xc03c03c0; 0x3c03c03c; 0x33fc3fc;
   0xc1800; 0xc00c003; 0x300000; 0x3fc3fc; 0xc03c03c0; 0x3c03c03c; 0x3c03c03; 0xc03c03c0;
   0x3c03c03c; 0x33fc3fc; 0xc1800; 0x300300c; 0xc0cc0000; 0x3fc3fc; 0xc03c03c0; 0x3c03c03c;
   0x3c03c03; 0xc03c03c0; 0x3c03c03c; 0x33fc3fc; 0xc1800; 0xc3cc3c3c; 0x33c30000; 0x3fc3fc;
   0xc03c03c0; 0x3c03c03c; 0x3c03c03; 0xc03c03c0; 0x3c03c03c; 0x33fc3fc; 0xc1602; 0x30c30c00;
   0x3fc3; 0xfcc03c03; 0xc03c03c0; 0x3c03c03c; 0x3c03c03; 0xc03c03c0; 0x3c033fc3; 0xfc000000;
   0xa0a0e; 0xc0f03330; 0xcc0c0303; 0x30ccc0f0; 0x30000000; 0x101206; 0xcff0cff0; 0x300c300c;
   0x3c0c3c0c; 0x330c330c; 0x30cc30cc; 0x303c303c; 0x300c300c; 0x300f300f; 0xff00ff0; 0xc1800].
Definition regular_data_2 : list N :=
  [0x300300c; 0xc00000; 0xc03c03; 0xc03c03c0; 0x3c03c03c; 0x3c03c03; 0xc03c03c0; 0x3c03c03c;
   0x33fc3fc; 0xc1800; 0xc00c003; 0x300000; 0xc03c03; 0xc03c03c0; 0x3c03c03c; 0x3c03c03;
   0xc03c03c0; 0x3c03c03c; 0x33fc3fc; 0xc1800; 0x300300c; 0xc0cc0000; 0xc03c03; 0xc03c03c0;
   0x3c03c03c; 0x3c03c03; 0xc03c03c0; 0x3c03c03c; 0x33fc3fc; 0xc1602; 0x30c30c00; 0xc03c;
   0x3c03c03; 0xc03c03c0; 0x3c03c03c; 0x3c03c03; 0xc03c03c0; 0x3c033fc3; 0xfc000000; 0xa1800;
   0x18060060; 0x1800000c; 0xf03c0f0; 0x3c0f0333; 0xcc330cc; 0xc0300c0; 0x300c0300; 0xc0300000;
   0xa1206; 0xc0300c; 0x33fcffc; 0xf03c0f0; 0x3c0f033f; 0xcff00c03; 0xc03000; 0xc1206;
   0xfc0fc30; 0x33030c30; 0xc3033033; 0x330333c; 0x33c3c03c; 0x3c03c03; 0x3f33f300; 0xa1404;
   0xc030300; 0xc0000003; 0xf0fcc0f0; 0x3ff3fcc0; 0xf03c0f03; 0xc0f03ff3; 0xfc000000; 0xa1404;
   0xc030030; 0xc000003; 0xf0fcc0f0; 0x3ff3fcc0; 0xf03c0f03; 0xc0f03ff3; 0xfc000000; 0xa1404;
   0xc030330; 0xcc000003; 0xf0fcc0f0; 0x3ff3fcc0; 0xf03c0f03; 0xc0f03ff3; 0xfc000000; 0xa1404;
   0xcf33c3cc; 0xf3000003; 0xf0fcc0f0; 0x3ff3fcc0; 0xf03c0f03; 0xc0f03ff3; 0xfc000000; 0xa1206;
   0x330cc000; 0x3f0fcc; 0xf03ff3f; 0xcc0f03c0; 0xf03c0f03; 0xff3fc000; 0xa1800; 0xf03c30c;
   0xc330cc30; 0xf03c0000; 0x3f0fcc0; 0xf03ff3fc; 0xc0f03c0f; 0x3c0f03f; 0xf3fc0000; 0x120e0a;
   0x3f3f0fcf; 0xcc0c0f03; 0x3c0c030; 0x300ffff3; 0xfffc00c0; 0xc0303c0c; 0xf03033f; 0x3f0fcfc0;
   0xa120a; 0x3f0fcc0f; 0x300c030; 0xc0300c0; 0x3c0f033f; 0xfc0c030; 0x300c000; 0xa1404;
   0x300c0c0; 0x30000003; 0xf0fcc0f0; 0x3c0f03ff; 0xfff00c03; 0xc0f033f0; 0xfc000000; 0xa1404;
   0xc030030; 0xc000003; 0xf0fcc0f0; 0x3c0f03ff; 0xfff00c03; 0xc0f033f0; 0xfc000000; 0xa1404;
   0xc030330; 0xcc000003; 0xf0fcc0f0; 0x3c0f03ff; 0xfff00c03; 0xc0f033f0; 0xfc000000; 0xa1206;
   0x330cc000; 0x3f0fcc; 0xf03c0f0; 0x3fffff00; 0xc03c0f03; 0x3f0fc000; 0x41404; 0x33cc00cc;
   0xcccccccc; 0xcccc0000; 0x41404; 0xcc330033; 0x33333333; 0x33330000; 0x61404; 0x30ccf300;
   0x30c30c3; 0xc30c30c; 0x30c30c00; 0x61206; 0xcf300030; 0xc30c30c3; 0xc30c30c; 0x30c00000;
   0xa1305; 0xc0f330; 0xfc0fcf33; 0xc30cc330; 0x3c0f03c0; 0xf03c0cc3; 0x30c3c0f0; 0xa1404;
   0xcf33c3cc; 0xf3000003; 0xccf3c3f0; 0xfc0f03c0; 0xf03c0f03; 0xc0f03c0f; 0x3000000; 0xa1404;
   0x300c0c0; 0x30000003; 0xf0fcc0f0; 0x3c0f03c0; 0xf03c0f03; 0xc0f033f0; 0xfc000000; 0xa1404;
   0x300c00c0; 0x30000003; 0xf0fcc0f0; 0x3c0f03c0; 0xf03c0f03; 0xc0f033f0; 0xfc000000; 0xa1404;
   0xc030330; 0xcc000003; 0xf0fcc0f0; 0x3c0f03c0; 0xf03c0f03; 0xc0f033f0; 0xfc000000; 0xa1404;
   0xcf33c3cc; 0xf3000003; 0xf0fcc0f0; 0x3c0f03c0; 0xf03c0f03; 0xc0f033f0; 0xfc000000; 0xa1206;
   0x330cc000; 0x3f0fcc; 0xf03c0f0; 0x3c0f03c0; 0xf03c0f03; 0x3f0fc000; 0xa0a0a; 0xc030000;
   0xfffff0; 0xc03; 0x0; 0xe0e0a; 0xcfc33f03; 0x30c0c3c; 0x30f0c333; 0xccc30f0;
   0xc3c3030c; 0xc0fcc3f; 0x30000000; 0xa1404; 0x300c0c0; 0x3000000c; 0xf03c0f0; 0x3c0f03c0;
   0xf03c0f03; 0xf0fc3cf3; 0x3c000000; 0xa1404; 0x300c00c0; 0x3000000c; 0xf03c0f0; 0x3c0f03c0;
   0xf03c0f03; 0xf0fc3cf3; 0x3c000000; 0xa1404; 0xc030330; 0xcc00000c; 0xf03c0f0; 0x3c0f03c0;
   0xf03c0f03; 0xf0fc3cf3; 0x3c000000; 0xa1206; 0x330cc000; 0xc0f03c; 0xf03c0f0; 0x3c0f03c0;
   0xf03f0fc3; 0xcf33c000; 0xc1a04; 0xc00c003; 0x300000; 0xc0cc0c; 0xc0cc0cc0; 0xcc0c3303;
   0x30330330; 0xc00c00c; 0xc00300; 0x30030030; 0xf00f00; 0xa1606; 0xc0300c; 0x33fcffc;
   0xf03c0f0; 0x3c0f03c0; 0xf03c0f03; 0x3fcff00c; 0x300c030; 0xc1806; 0x33033000; 0xc0cc;
   0xcc0cc0c; 0xc0cc0c33; 0x3303303; 0x300c00c0; 0xc00c003; 0x300300; 0x3000f00f; 0x141206;
   0xff3fcff3; 0xfc00c030; 0xc0300c0; 0x300c0300; 0xc0300c03; 0x3fc033fc; 0x300c030; 0xc0300c0;
   0x300c0300; 0xc0300c03; 0xff3fcff3; 0xfc000000; 0x120e0a; 0x3f3f0fcf; 0xcc0c0f03; 0x3c0c0f0;
   0x303ffc0f; 0xff0300c0; 0xc0303c0c; 0xf03033f; 0x3f0fcfc0; 0x40604; 0xcc333300; 0x40604;
   0xcccc3300; 0x40616; 0xcccc3300; 0x40604; 0x3333cc00; 0xa0604; 0xc330c30c; 0xc330cc30;
   0xa0604; 0xc330cc33; 0xc30cc30; 0xa0616; 0xc330cc33; 0xc30cc30; 0xa0604; 0x30cc330c;
   0xc3c330c0; 0xa1206; 0xc0300c0; 0x30fffff0; 0xc0300c03; 0xc0300c; 0x300c030; 0xc030000;
   0xa1606; 0xc0300c0; 0x30fffff0; 0xc0300c03; 0xc0300c; 0x300c030; 0xfffff0c0; 0x300c0300;
   0xc0c0a; 0x3fc3fcff; 0xffffffff; 0xffffffff; 0xffffff3f; 0xc3fc0000; 0x101008; 0x3fc03fc0;
   0xc030c030; 0xc000c; 0xfff0fff; 0xc000c; 0xfff0fff; 0xc030c030; 0x3fc03fc0; 0x121404;
   0xc00030; 0x3f000f; 0xc00f3c03; 0xcf03ccf0; 0xf33cfcff; 0xff3ffff3; 0xfffcff3f; 0xff0fffc0;
   0xf3c03cf0; 0x3f000fc; 0xc0003; 0x0].
Definition regular_data_group_0 : list (list N) :=
  [regular_data_0; regular_data_1; regular_data_2].
(** HASH_BASIC_LATIN, src/fonts/regular.rs:101-250 *)
Definition regular_hash_basic_latin : list N :=
  [0x323cd4f; 0x49bf55e; 0x537c05e; 0xb9ea876; 0xd4e2b64; 0x11ddb5bc; 0x129f2a7f; 0x13156136;
   0x131ab870; 0x1403a883; 0x1586c0aa; 0x1672836b; 0x16f9a05f; 0x18d53bb6; 0x198b90fc; 0x1bf82d35;
   0x1c40e42f; 0x1cfcd293; 0x1f2b17f3; 0x1f79a4d0; 0x21840e11; 0x22abe92f; 0x2379b646; 0x24189ec6;
   0x259e68d3; 0x26ff6e36; 0x2a3184f1; 0x2b038801; 0x2c17f13b; 0x2d2269f8; 0x30f856b5; 0x31099644;
   0x315f5687; 0x3673cb35; 0x39bc06bb; 0x435f26f6; 0x43603571; 0x44c216ba; 0x455e0578; 0x45ef573f;
   0x465d3b9d; 0x47ef8034; 0x4938ea00; 0x4ab0fc13; 0x4bcd3197; 0x4cc5a899; 0x524c4f7e; 0x52d3cb36;
   0x55c7f2ae; 0x56dee618; 0x5a352e5e; 0x5b06f60a; 0x5c904e6c; 0x5ca0f32f; 0x5ff80125; 0x61901224;
   0x67bd451e; 0x681839b8; 0x68e75be7; 0x6c058218; 0x6e85a379; 0x72de1efb; 0x73688484; 0x7627ca6c;
   0x779cda2e; 0x7834a19c; 0x78fd8c32; 0x7a435eee; 0x7b6b1369; 0x7ba23029; 0x7f4ebf76; 0x803af153;
   0x804744c4; 0x84510f7d; 0x8499b628; 0x86a8b043; 0x8b86ba97; 0x8c1a54ee; 0x8c69c315; 0x8c94654b;
   0x8db20a6b; 0x933cec52; 0x9500c437; 0x9582c02e; 0x98453fd6; 0x98c6b546; 0x99933c47; 0x9b44cabe;
   0x9dd6d1df; 0x9f99932f; 0xa03d6d22; 0xa13b361a; 0xa1a410c7; 0xa26a0e29; 0xa30cad6b; 0xa5872342;
   0xa891e88a; 0xabe208d0; 0xadabea12; 0xadc91a24; 0xae495307; 0xaf41db71; 0xb12bf2ee; 0xb35f1351;
   0xb454a383; 0xb5097bab; 0xb8ed6be2; 0xbe856396; 0xbfe47d0d; 0xc06e932f; 0xc0afd8ed; 0xc1209a73;
   0xc2ddc575; 0xc3ab3492; 0xc57a2c66; 0xc5e4d96b; 0xc890e3dd; 0xc99309a2; 0xc9bea311; 0xcaeccf17;
   0xcaf83468; 0xcb07fd3e; 0xcb7242e0; 0xcd3fdbe3; 0xce94ae25; 0xd363e17b; 0xd4ffa898; 0xd7b03f23;
   0xd822b857; 0xda2b151d; 0xdb01af22; 0xdc135abd; 0xe2aa1ebb; 0xe5ca55bf; 0xe6556d01; 0xe7c19ba9;
   0xed67fa54; 0xef026b52; 0xef302693; 0xf04b9422; 0xf0f19a38; 0xf29ab82d; 0xf31d8bfb; 0xf3a5a351;
   0xf3bf2609; 0xf85223eb; 0xfc2c2430; 0xfff1d70c].
(** OFFSET_BASIC_LATIN, src/fonts/regular.rs:253-402 *)
Definition regular_offset_basic_latin : list N :=
  [1175; 597; 884; 139; 1151; 1023; 1111; 231;
   297; 902; 477; 419; 7; 42; 1267; 573;
   998; 48; 927; 13; 521; 265; 988; 1119;
   123; 98; 348; 421; 528; 493; 815; 540;
   254; 588; 273; 948; 208; 323; 1053; 157;
   1186; 1317; 131; 106; 191; 594; 200; 21;
   1298; 552; 434; 86; 417; 30; 331; 115;
   1207; 958; 182; 1043; 567; 54; 514; 216;
   384; 1223; 546; 933; 147; 257; 874; 398;
   447; 508; 1126; 64; 165; 459; 0; 1167;
   2; 839; 160; 238; 174; 1291; 558; 1095;
   1103; 791; 850; 70; 90; 827; 1283; 483;
   78; 305; 440; 1144; 1239; 410; 356; 224;
   1275; 1247; 377; 1182; 313; 339; 978; 453;
   5; 1215; 968; 1190; 169; 66; 391; 534;
   246; 40; 59; 280; 427; 1087; 155; 582;
   919; 402; 502; 289; 68; 474; 467; 1159;
   1063; 490; 923; 1033; 603; 365; 1195; 803;
   893; 911; 414; 1231].
(** HASH_LATIN_1_SUPPLEMENT, src/fonts/regular.rs:415-512 *)
Definition regular_hash_latin_1_supplement : list N :=
  [0xeac56e; 0x254fd66; 0x56de9e6; 0x6fe368d; 0x137e3259; 0x18e6f281; 0x1a5a66cd; 0x1b0de252;
   0x1b43c661; 0x1c505947; 0x252158d3; 0x25872b22; 0x259437ac; 0x268b196d; 0x275e5021; 0x2766361e;
   0x278a377a; 0x28ca6ad7; 0x291e971e; 0x3280724d; 0x36953e7b; 0x388fb155; 0x39056a43; 0x3a073fbe;
   0x3ae00f65; 0x3e168b4d; 0x3e82329e; 0x402dcff6; 0x4236cdd1; 0x44d0c2c4; 0x450db83d; 0x4f92356c;
   0x511bca1d; 0x554a5349; 0x5e39bcee; 0x5eb9d2a0; 0x5ee10367; 0x62d494f4; 0x6984aa2d; 0x6ba96cc3;
   0x6e3c05cf; 0x6ef8ed06; 0x6fa3c127; 0x71ee15f2; 0x7619d892; 0x76554d10; 0x79026f8e; 0x7e2a203c;
   0x839d40cb; 0x84ff8f94; 0x8ae0a2b9; 0x8d741045; 0x8ea3f31f; 0x9194ccb5; 0x92979158; 0x95c4dc63;
   0x97a9c1da; 0x97c63b05; 0xa10c8120; 0xa5f3368b; 0xa7883ca5; 0xa7b0fe42; 0xabf561b2; 0xad97621d;
   0xb1a64f1e; 0xb1bf38b8; 0xb55da0fa; 0xb5ca05f5; 0xb7001103; 0xb9229669; 0xba8e9829; 0xbb608964;
   0xc0837c42; 0xc0e7ab63; 0xc20fe7b7; 0xc6ef143e; 0xc98be718; 0xcad0511f; 0xcaf24984; 0xd040d3e3;
   0xd4d6097a; 0xd83534e2; 0xdd061c7a; 0xde3fb757; 0xe14f2e81; 0xe2532edc; 0xe51ff77c; 0xe5da3fed;
   0xe9131aa1; 0xebc8143d; 0xec99a516; 0xf446cd1a; 0xf520ef41; 0xf64ed921; 0xfb89d3f4; 0xfbfecc1c].
(** OFFSET_LATIN_1_SUPPLEMENT, src/fonts/regular.rs:515-612 *)
Definition regular_offset_latin_1_supplement : list N :=
  [690; 679; 927; 998; 988; 1087; 1259; 611;
   626; 1186; 633; 1175; 643; 1119; 653; 1033;
   919; 1013; 933; 740; 1239; 1195; 893; 884;
   1291; 1223; 1283; 1008; 771; 1167; 1043; 707;
   1095; 861; 705; 1144; 1215; 1063; 923; 1053;
   1298; 677; 1111; 958; 664; 874; 850; 1254;
   618; 978; 1126; 1072; 702; 674; 1231; 827;
   717; 606; 728; 732; 730; 655; 669; 939;
   815; 735; 1190; 640; 608; 784; 839; 1275;
   745; 688; 1309; 1079; 803; 1159; 1023; 1151;
   911; 948; 699; 1182; 1103; 1200; 758; 693;
   1267; 1247; 791; 968; 1135; 1207; 1317; 902].
(** HASH_LATIN_EXTENDED_A, src/fonts/regular.rs:625-628 *)
Definition regular_hash_latin_extended_a : list N :=
  [0x1a01594c; 0x8c60da30].
(** OFFSET_LATIN_EXTENDED_A, src/fonts/regular.rs:631-634 *)
Definition regular_offset_latin_extended_a : list N :=
  [1327; 1340].
(** HASH_GENERAL_PUNCTUATION, src/fonts/regular.rs:647-659 *)
Definition regular_hash_general_punctuation : list N :=
  [0xd0042b1; 0x18e68a7d; 0x372ed469; 0x3a3c25c2; 0x80e4e277; 0x885e576b; 0x8b80c01d; 0x8f0be1db;
   0x8f56d335; 0xa6c64f29; 0xe29813b0].
(** OFFSET_GENERAL_PUNCTUATION, src/fonts/regular.rs:662-674 *)
Definition regular_offset_general_punctuation : list N :=
  [1384; 1353; 1357; 1360; 1376; 1366; 1355; 1363;
   1369; 1349; 1351].
(** HASH_CURRENCY_SYMBOLS, src/fonts/regular.rs:687-689 *)
Definition regular_hash_currency_symbols : list N :=
  [0x1aca36bb].
(** OFFSET_CURRENCY_SYMBOLS, src/fonts/regular.rs:692-694 *)
Definition regular_offset_currency_symbols : list N :=
  [1390].
(** HASH_SPECIALS, src/fonts/regular.rs:707-709 *)
Definition regular_hash_specials : list N :=
  [0x58a5da35].
(** OFFSET_SPECIALS, src/fonts/regular.rs:712-714 *)
Definition regular_offset_specials : list N :=
  [1399].
(** DATA, src/fonts/regular.rs:726-1192 *)
Definition regular_data : bigarr :=
  regular_data_group_0.
(** The arms of the match in get_blit_pattern_offset, src/fonts/regular.rs *)
Definition regular_blocks : list block :=
  [ Block 0x0 0x7F [2; 1]
         regular_hash_basic_latin
         regular_offset_basic_latin;
    Block 0x80 0xFF [1]
         regular_hash_latin_1_supplement
         regular_offset_latin_1_supplement;
    Block 0x100 0x17F [1]
         regular_hash_latin_extended_a
         regular_offset_latin_extended_a;
    Block 0x2000 0x206F [1]
         regular_hash_general_punctuation
         regular_offset_general_punctuation;
    Block 0x20A0 0x20CF [1]
         regular_hash_currency_symbols
         regular_offset_currency_symbols;
    Block 0xFFF0 0xFFFF [1]
         regular_hash_specials
         regular_offset_specials ].
Definition regular_font : font := Font 30 0 regular_blocks regular_data.
