(** GENERATED by tools/gen_fonts.py from /repo/src/fonts/bold.rs -- do not edit.
    MAX_HEIGHT, M3_SEED, match arms, HASH_* and OFFSET_* tables, DATA. *)
From Verif Require Import Prim FontDefs.

Definition bold_data_0 : list N :=
  [0x4020e; 0x0; 0x41206; 0xffffffff; 0xffff00ff; 0xff000000; 0x60606; 0xcf3cf3cf;
   0x30000000; 0x101004; 0x30c030c0; 0x30c030c0; 0xfffcfffc; 0xc300c30; 0xc300c30; 0x3fff3fff;
   0x30c030c; 0x30c030c; 0xa1604; 0xc0303f0; 0xfcccf330; 0xfc3f0fc3; 0xf3f0fcfc; 0x3f0fc3f0;
   0xccf333f0; 0xfc0c0300; 0x121404; 0xfcf03f3; 0xc0c30c30; 0xc30330c0; 0xcc3030f0; 0xc3c00c0;
   0x30000c; 0x3003c; 0x300f0c0c; 0x33030cc0; 0xc30c30c3; 0x3c0c0f0; 0x30000000; 0x101206;
   0xfc00fc; 0x3cf03cf; 0x3cf03cf; 0x3ff03ff; 0xf0fcf0fc; 0x3fcf3fcf; 0xf0f0f0f; 0x3fcf3fcf;
   0xf0fcf0fc; 0x20606; 0xfff00000; 0x61604; 0xc3030c3c; 0xf3cf3cf3; 0xcf3cf3cf; 0x3cf30cc3;
   0x0; 0x61604; 0xc330cf3; 0xcf3cf3cf; 0x3cf3cf3c; 0xf3c30c0c; 0x30000000; 0xa0a06;
   0xc030ccf; 0x333f0fcc; 0xcf330c03; 0x0; 0xa0a0a; 0xc0300c0; 0x30fffff0; 0xc0300c03;
   0x0; 0x40814; 0xffffcc33; 0xa020e; 0xfffff000; 0x40414; 0xffff0000; 0xa1404;
   0xc0300c03; 0x300c03; 0xc00c03; 0xc03003; 0xc0300c; 0xc0300c; 0x3000000; 0xc1206;
   0x3fc3fcf0; 0xff0ff0ff; 0xffcffcf; 0xfffffff3; 0xff3ff0ff; 0xff0ff0f; 0x3fc3fc00; 0x81206;
   0xf0f0ffff; 0xf0f0f0f0; 0xf0f0f0f0; 0xf0f0f0f0; 0xf0f00000; 0xc1206; 0x3fc3fcf0; 0x3f03f00f;
   0xf00f00; 0x3c03c00f; 0xf003c0; 0x3cffffff; 0xffffff00; 0xc1206; 0xffffff3c; 0x3c00f00;
   0xf03fc3fc; 0xf00f00f0; 0xf00f00f; 0xf03f03; 0x3fc3fc00; 0xe1206; 0x3c00f003; 0xf00fc03c;
   0xc0f303c3; 0xf0c3c0c; 0xf03fffff; 0xff3c00f0; 0x3c00f00; 0x3c00f000; 0xc1206; 0xffffff00;
   0xf00f00f0; 0xf3ff3ff; 0xf00f00f0; 0xf00f00f; 0xf03f03; 0x3fc3fc00; 0xc1206; 0x3f03f003;
   0xc03c00f0; 0xf3ff3ff; 0xf0ff0ff0; 0xff0ff0ff; 0xff0ff0f; 0x3fc3fc00; 0xc1206; 0xfffffff0;
   0xf00f00f; 0xf00f00; 0x3c03c00f; 0xf00f00; 0xf00f00f0; 0xf00f000; 0xc1206; 0x3fc3fcf0;
   0xff0ff0ff; 0xf3fc3fc; 0xf0ff0ff0; 0xff0ff0ff; 0xff0ff0f; 0x3fc3fc00; 0xc1206; 0x3fc3fcf0;
   0xff0ff0ff; 0xff0ff0f; 0xf0ff0fff; 0xcffcf00f; 0x3c03c0; 0xfc0fc00; 0x40e0a; 0xffff0000;
   0xffff00; 0x4120a; 0xffff0000; 0xffffcc; 0x33000000; 0xa0e08; 0xf03c03c0; 0xf00f03c0;
   0x3c0f0f03; 0xc3c0f0f0; 0x3c000000; 0xc060c; 0xffffff00; 0xffff; 0xff000000; 0xa0e08;
   0x3c0f0f0; 0x3c3c0f0f; 0x3c03c0f; 0xf03c03; 0xc0f00000; 0xc1206; 0x3fc3fcf0; 0x3f03f00f;
   0x3c03c0; 0xf00f00f; 0xf00000; 0xf00f0; 0xf00f000; 0x121008; 0xffc03ff; 0x30030c0;
   0xcc3f0f0; 0xfc3c30cf; 0xc33c30c; 0xf0c333cf; 0xcf3c300; 0x30000c0; 0xffc03ff0; 0xc1206;
   0x3fc3fcf0; 0xff0ff0ff; 0xff0ff0f; 0xfffffff0; 0xff0ff0ff; 0xff0ff0f; 0xf0ff0f00; 0xc1206;
   0x3ff3fff0; 0xff0ff0ff; 0xff0ff0f; 0x3ff3fff0; 0xff0ff0ff; 0xff0ff0f; 0x3ff3ff00; 0xc1206;
   0x3fc3fcc0; 0xfc0f00f0; 0xf00f00f; 0xf00f00; 0xf00f00f0; 0xfc0fc0f; 0x3fc3fc00; 0xc1206;
   0x3ff3fff0; 0xff0ff0ff; 0xff0ff0f; 0xf0ff0ff0; 0xff0ff0ff; 0xff0ff0f; 0x3ff3ff00; 0xa1206;
   0xfffff03c; 0xf03c0f0; 0x3c0f3fcf; 0xf03c0f03; 0xc0f03c0f; 0xfffff000; 0xa1206; 0xfffff03c;
   0xf03c0f0; 0x3c0f3fcf; 0xf03c0f03; 0xc0f03c0f; 0x3c0f000; 0xc1206; 0x3fc3fcc0; 0xfc0f00f0;
   0xf00f00f; 0xfcffcff0; 0xff0ff0ff; 0xff0ff0f; 0x3fc3fc00; 0xc1206; 0xf0ff0ff0; 0xff0ff0ff;
   0xff0ff0f; 0xfffffff0; 0xff0ff0ff; 0xff0ff0f; 0xf0ff0f00; 0x81206; 0xffff3c3c; 0x3c3c3c3c;
   0x3c3c3c3c; 0x3c3c3c3c; 0xffff0000; 0xc1206; 0xf00f00f0; 0xf00f00f; 0xf00f00; 0xf00f00f0;
   0xff0ff0ff; 0xff0ff0f; 0x3fc3fc00; 0xe1206; 0xf03fc0f3; 0xc3cf0f0f; 0x3c3cf03f; 0xc0ff00fc;
   0x3f03fc0; 0xff0f3c3c; 0xf3c3cf0f; 0xf03fc0f0; 0xa1206; 0x3c0f03c; 0xf03c0f0; 0x3c0f03c0;
   0xf03c0f03; 0xc0f03c0f; 0xfffff000; 0x141206; 0xc0003c00; 0x3f000ff; 0xffc03; 0xffc03fff;
   0xffff0ff; 0xf3ff3f3f; 0xf3f0fc3f; 0xfc3f030; 0x3f0303f0; 0x3f0003; 0xf0003f00; 0x3000000;
   0xe1206; 0xc00f003c; 0x3f00fc0; 0xff03fc3f; 0xf0ffcfcf; 0x3f3ff0ff; 0xc3fc0ff0; 0x3f00fc03;
   0xc00f0030; 0xc1206; 0x3fc3fcf0; 0xff0ff0ff; 0xff0ff0f; 0xf0ff0ff0; 0xff0ff0ff; 0xff0ff0f;
   0x3fc3fc00; 0xc1206; 0x3ff3fff0; 0xff0ff0ff; 0xff0ff0f; 0x3ff3ff00; 0xf00f00f0; 0xf00f00f;
   0xf00f00; 0xc1606; 0x3fc3fcf0; 0xff0ff0ff; 0xff0ff0f; 0xf0ff0ff0; 0xff0ff0ff; 0xff0ff0f;
   0x3fc3fc3c; 0x3c0f00f; 0x0; 0xc1206; 0x3ff3fff0; 0xff0ff0ff; 0xff0ff0f; 0x3ff3fff0;
   0xff0ff0ff; 0xff0ff0f; 0xf0ff0f00; 0xa1206; 0x3f0fcc3f; 0xf03c0f0; 0xfc3f3f0f; 0xcfc3f0f0;
   0x3c0f0fc3; 0x3f0fc000; 0xc1206; 0xffffff0f; 0xf00f00; 0xf00f00f0; 0xf00f00f; 0xf00f00;
   0xf00f00f0; 0xf00f000; 0xc1206; 0xf0ff0ff0; 0xff0ff0ff; 0xff0ff0f; 0xf0ff0ff0; 0xff0ff0ff;
   0xff0ff0f; 0x3fc3fc00; 0xc1206; 0xf0ff0ff0; 0xff0ff0ff; 0xff0ff0f; 0xf0ff0ff0; 0xff0ff0ff;
   0xf3fc3fc; 0xf00f000; 0x141206; 0xf0f0ff0f; 0xff0f0ff; 0xf0ff0f0; 0xff0f0ff0; 0xf0ff0f0f;
   0xf0f0ff0f; 0xff0f0ff; 0xf0ff0f0; 0xff0f0f30; 0xf0c30f0c; 0xf0f00f0; 0xf0000000; 0xc1206;
   0xf0ff0ff0; 0xff0ff0ff; 0xf3fc3fc; 0xf00f03f; 0xc3fcf0ff; 0xff0ff0f; 0xf0ff0f00; 0xc1206;
   0xf0ff0ff0; 0xff0ff0ff; 0xff0ff0f; 0x3fc3fc0f; 0xf00f00; 0xf00f00f0; 0xf00f000; 0xc1206;
   0xfffffff0; 0xf00f00f; 0x3c03c0; 0xf00f003; 0xc03c00f0; 0xf00f00f; 0xffffff00; 0x61604;
   0xfff3cf3c; 0xf3cf3cf3; 0xcf3cf3cf; 0x3cf3cfff; 0xf0000000; 0xa1404; 0xc0300c; 0x30300c0;
   0x300c0c03; 0xc03030; 0xc0300c0; 0xc0300c03; 0x0; 0x61604; 0xffff3cf3; 0xcf3cf3cf;
   0x3cf3cf3c; 0xf3cf3cff; 0xf0000000; 0xa0606; 0xc030330; 0xccc0f030; 0x100216; 0xffffffff;
   0x60604; 0xc330cc3; 0x0; 0xc0e0a; 0x3fc3fcf0; 0x3f03ffcf; 0xfcf0ff0f; 0xf0ff0ff0;
   0xff0fffcf; 0xfc000000; 0xc1206; 0xf00f00; 0xf00f3ff3; 0xfff0ff0f; 0xf0ff0ff0; 0xff0ff0ff;
   0xff0ff0f; 0x3ff3ff00; 0xa0e0a; 0x3f0fcc3f; 0xf03c0f0; 0x3c0f03c0; 0xfc3f0f3f; 0xfc00000;
   0xc1206; 0xf00f00f0; 0xf00ffcf; 0xfcf0ff0f; 0xf0ff0ff0; 0xff0ff0ff; 0xff0ff0f; 0xffcffc00;
   0xc0e0a; 0x3fc3fcf0; 0xff0ff0ff; 0xfffffff; 0xf00fc0; 0xfc0f3fc3; 0xfc000000; 0xa1206;
   0xfc3f00f0; 0x3c3fcff0; 0xf03c0f03; 0xc0f03c0f; 0x3c0f03c; 0xf03c000; 0xc140a; 0xffcffcf0;
   0xff0ff0ff; 0xff0ff0f; 0xf0ff0ff0; 0xff0fffcf; 0xfcf00f00; 0xf03f033f; 0xc3fc0000; 0xc1206;
   0xf00f00; 0xf00f3ff3; 0xfff0ff0f; 0xf0ff0ff0; 0xff0ff0ff; 0xff0ff0f; 0xf0ff0f00; 0x41206].
Definition bold_data_1 : list N :=
  [0xff00ffff; 0xffffffff; 0xff000000; 0xa1806; 0xf03c0000; 0xf03c0f; 0x3c0f03c; 0xf03c0f0;
   0x3c0f03c0; 0xf03c0f03; 0xc0f0fc33; 0xf0fc0000; 0xc1206; 0xf00f00; 0xf00ff0ff; 0xf3cf3cf;
   0xff0ff03; 0xf03f0ff0; 0xff3cf3cf; 0xf0ff0f00; 0x41206; 0xffffffff; 0xffffffff; 0xff000000;
   0x140e0a; 0x3ffff3ff; 0xfff0f0ff; 0xf0ff0f0; 0xff0f0ff0; 0xf0ff0f0f; 0xf0f0ff0f; 0xff0f0ff;
   0xf0ff0f0; 0xff0f0f00; 0xc0e0a; 0x3ff3fff0; 0xff0ff0ff; 0xff0ff0f; 0xf0ff0ff0; 0xff0ff0ff;
   0xf000000; 0xc0e0a; 0x3fc3fcf0; 0xff0ff0ff; 0xff0ff0f; 0xf0ff0ff0; 0xff0f3fc3; 0xfc000000;
   0xc120a; 0x3ff3fff0; 0xff0ff0ff; 0xff0ff0f; 0xf0ff0ff0; 0xff0f3ff3; 0xff00f00f; 0xf00f00;
   0xc120a; 0xffcffcf0; 0xff0ff0ff; 0xff0ff0f; 0xf0ff0ff0; 0xff0fffcf; 0xfcf00f00; 0xf00f0000;
   0xa0e0a; 0xf3fcf0fc; 0x3f03c0f0; 0x3c0f03c0; 0xf03c0f03; 0xc0f00000; 0xa0e0a; 0x3f0fcc3f;
   0xf0fc3f3; 0xf0fcfc3f; 0xf0fc33f; 0xfc00000; 0x81206; 0x3c3c3c3c; 0xffff3c3c; 0x3c3c3c3c;
   0x3c3c3c3c; 0xf0f00000; 0xc0e0a; 0xf0ff0ff0; 0xff0ff0ff; 0xff0ff0f; 0xf0ff0ffc; 0xffcff3cf;
   0x3c000000; 0xc0e0a; 0xf0ff0ff0; 0xff0ff0ff; 0xff0ff0f; 0xf0ff0f3f; 0xc3fc0f00; 0xf0000000;
   0x140e0a; 0xf0f0ff0f; 0xff0f0ff; 0xf0ff0f0; 0xff0f0ff0; 0xf0ff0f0f; 0xf0f0ff0f; 0xf30f0c3;
   0xf0c0f0f; 0xf0f000; 0xc0e0a; 0xf0ff0ff0; 0xff0f3fc3; 0xfc0f00f0; 0x3fc3fcf0; 0xff0ff0ff;
   0xf000000; 0xc140a; 0xf0ff0ff0; 0xff0ff0ff; 0xff0ff0f; 0xf0ff0ff0; 0xff0fffcf; 0xfcf00f00;
   0xf03f033f; 0xc3fc0000; 0xc0e0a; 0xfffffff0; 0xf003c03; 0xc00f00f0; 0x3c03c00; 0xf00fffff;
   0xff000000; 0x61604; 0xc3030c30; 0xc30c30c0; 0xc330c30c; 0x30c30cc3; 0x0; 0x21604;
   0xffffffff; 0xfff00000; 0x61604; 0xc330c30; 0xc30c30cc; 0x3030c30c; 0x30c30c0c; 0x30000000;
   0xc040a; 0xc3cc3c3c; 0x33c30000; 0x4020e; 0x0; 0x41206; 0xffff00ff; 0xffffffff;
   0xff000000; 0xa1004; 0xc0303f0; 0xfcccf330; 0xcc330cc3; 0x3ccf333f; 0xfc0c030; 0xe1206;
   0xfc03f03; 0xf0c3c00; 0xf003c00f; 0x3c03fc; 0xff00f00; 0x3c00f003; 0xcc0f303c; 0x3ffcfff0;
   0xe0e08; 0x400bbf77; 0xff8e1c70; 0x39806601; 0x98066019; 0xc0e3871f; 0xfeefdd00; 0x20000000;
   0x101206; 0xf00ff00f; 0x3c3c3c3c; 0xffffffff; 0x3c003c0; 0xffffffff; 0x3c003c0; 0x3c003c0;
   0x3c003c0; 0x3c003c0; 0x21604; 0xfffff0ff; 0xfff00000; 0xa1804; 0x3f0fcc0f; 0x303c0f0;
   0xf03c3ccf; 0x3f0fc3c3; 0xf0fcf33c; 0x3c0f0f03; 0xc0c0f033; 0xf0fc0000; 0x80206; 0xc3c30000;
   0x101206; 0xff00ff0; 0x300c300c; 0xc3c3c3c3; 0xcc33cc33; 0xc033c033; 0xcc33cc33; 0xc3c3c3c3;
   0x300c300c; 0xff00ff0; 0xa1006; 0x3f0fcf0f; 0xc3ff3fcf; 0x3fcff3fc; 0xfff3fc00; 0xfffff;
   0xe0e0a; 0xc3030c03; 0xc0c300c; 0x3030c030; 0xc0c30c30; 0x30c30c0c; 0x30c3030c; 0x0;
   0xa060e; 0xfffffc03; 0xc03000; 0xa020e; 0xfffff000; 0x101206; 0xff00ff0; 0x300c300c;
   0xc3f3c3f3; 0xcc33cc33; 0xc3f3c3f3; 0xcc33cc33; 0xcc33cc33; 0x300c300c; 0xff00ff0; 0x80204;
   0xffff0000; 0x80806; 0x3c3cc3c3; 0xc3c33c3c; 0xa0e0a; 0xc0300c0; 0x30fffff0; 0xc0300c03;
   0xff; 0xfff00000; 0x60a02; 0xfffc30ff; 0xf0c3fff0; 0x60a02; 0xfffc30ff; 0xfc30fff0;
   0x60606; 0xc3030c0c; 0x30000000; 0x10120a; 0x3c3c3c3c; 0x3c3c3c3c; 0x3c3c3c3c; 0x3c3c3c3c;
   0x3c3c3c3c; 0x3c3c3c3c; 0xcffccffc; 0xc000c; 0x30003; 0xe1206; 0xfff3ffcc; 0xc3f30fcc;
   0x3f30fcc3; 0xf30fcff3; 0x3fccc033; 0xcc0330; 0xcc03300; 0xcc033000; 0x4040e; 0xffff0000;
   0x40618; 0xffcc3300; 0x60a02; 0x30c3cf30; 0xc30cfff0; 0xa1006; 0x3f0fcf3f; 0xcff3fcff;
   0x3fcff3fc; 0xf3f0fc00; 0xfffff; 0xe0e0a; 0x30c0c30; 0xc3030c30; 0xc0c30c30; 0x30c030c0;
   0xc300c303; 0xc030c0c; 0x30000000; 0x121402; 0xc030300; 0xc0c03c30; 0xf030300; 0xc0c03030;
   0xc0c00cf; 0xc033fccc; 0x33300cc; 0x30330c0f; 0xc303f0c0; 0xc00c3003; 0xc00c300; 0x30000000;
   0x121402; 0xc030300; 0xc0c03c30; 0xf030300; 0xc0c03030; 0xc0c00cf; 0xc033ffcc; 0x3f300c0;
   0x30300c0f; 0xc303f0c0; 0xc0c0303; 0xfc0c3f0; 0x30000000; 0x121402; 0xc0fc303; 0xf0c0c030;
   0x30030fc0; 0xc3f030c0; 0xc3000cf; 0xc033fccc; 0x33300cc; 0x30330c0f; 0xc303f0c0; 0xc00c3003;
   0xc00c300; 0x30000000; 0xc1206; 0xf00f00f; 0xf00000; 0xf00f0; 0xf00f003; 0xc03c00f0;
   0xfc0fc0f; 0x3fc3fc00; 0xc1800; 0x300300c; 0xc00000; 0x3fc3fc; 0xf0ff0ff0; 0xff0ff0ff;
   0xfffffff; 0xf0ff0ff0; 0xff0ff0ff; 0xff0ff0f; 0xc1800; 0xc00c003; 0x300000; 0x3fc3fc;
   0xf0ff0ff0; 0xff0ff0ff; 0xfffffff; 0xf0ff0ff0; 0xff0ff0ff; 0xff0ff0f; 0xc1800; 0xf00f030;
   0xc30c0000; 0x3fc3fc; 0xf0ff0ff0; 0xff0ff0ff; 0xfffffff; 0xf0ff0ff0; 0xff0ff0ff; 0xff0ff0f;
   0xc1800; 0xc3cc3c3c; 0x33c30000; 0x3fc3fc; 0xf0ff0ff0; 0xff0ff0ff; 0xfffffff; 0xf0ff0ff0;
   0xff0ff0ff; 0xff0ff0f; 0xc1602; 0x30c30c00; 0x3fc3; 0xfcf0ff0f; 0xf0ff0ff0; 0xff0fffff;
   0xfff0ff0f; 0xf0ff0ff0; 0xff0ff0ff; 0xf000000; 0xc1800; 0xf00f030; 0xc30c30c3; 0xc3fc3fc;
   0xf0ff0ff0; 0xff0ff0ff; 0xfffffff; 0xf0ff0ff0; 0xff0ff0ff; 0xff0ff0f; 0x121206; 0xffff3fff;
   0xc03c3c0f; 0xf03c3c0; 0xf0f03c3c; 0xf0f3fff; 0xcffff03c; 0x3c0f0f03; 0xc3c0f0f0; 0x3c3c0f0f;
   0xffc3fff0; 0xf0000000; 0xc1806; 0x3fc3fcc0; 0xfc0f00f0; 0xf00f00f; 0xf00f00; 0xf00f00f0;
   0xfc0fc0f; 0x3fc3fc0f; 0xf00c00; 0xc0030030; 0xa1800; 0x300c0c0; 0x3000000f; 0xffff03c0;
   0xf03c0f03; 0xc0f3fcff; 0x3c0f03c; 0xf03c0ff; 0xffff0000; 0xa1800; 0x300c00c0; 0x3000000f;
   0xffff03c0; 0xf03c0f03; 0xc0f3fcff; 0x3c0f03c; 0xf03c0ff; 0xffff0000; 0xa1800; 0xf03c30c;
   0xc300000f; 0xffff03c0; 0xf03c0f03; 0xc0f3fcff; 0x3c0f03c; 0xf03c0ff; 0xffff0000; 0xa1602;
   0x330cc000; 0xfffff0; 0x3c0f03c0; 0xf03c0f3f; 0xcff03c0f; 0x3c0f03c; 0xffffff0; 0x41800;
   0x33cc00ff; 0xffffffff; 0xffffffff; 0x41800; 0xcc3300ff; 0xffffffff; 0xffffffff; 0x81800;
   0x3c3cc3c3; 0x3c3c; 0x3c3c3c3c; 0x3c3c3c3c; 0x3c3c3c3c; 0x3c3c3c3c; 0x81602; 0xc3c30000;
   0x3c3c3c3c; 0x3c3c3c3c; 0x3c3c3c3c; 0x3c3c3c3c; 0x3c3c0000; 0xe1206; 0x3ff0ffcf; 0xf3c3cf0;
   0xf3c3cf0f; 0x3c3cf3ff; 0xcfff0f3c; 0x3cf0f3c3; 0xcf0f3c3c; 0x3ff0ffc0; 0xe1800; 0x30f0c3c0;
   0xf0c3c300; 0xc00; 0xf003c03f; 0xfc0ff0; 0x3fc3ff0f; 0xfcfcf3f3; 0xff0ffc3f; 0xc0ff03f0;
   0xfc03c00; 0xf0030000; 0xc1800; 0x300300c; 0xc00000; 0x3fc3fc; 0xf0ff0ff0; 0xff0ff0ff].
Definition bold_data_2 : list N :=
  [0xff0ff0f; 0xf0ff0ff0; 0xff0ff0ff; 0xf3fc3fc; 0xc1800; 0xc00c003; 0x300000; 0x3fc3fc;
   0xf0ff0ff0; 0xff0ff0ff; 0xff0ff0f; 0xf0ff0ff0; 0xff0ff0ff; 0xf3fc3fc; 0xc1800; 0xf00f030;
   0xc30c0000; 0x3fc3fc; 0xf0ff0ff0; 0xff0ff0ff; 0xff0ff0f; 0xf0ff0ff0; 0xff0ff0ff; 0xf3fc3fc;
   0xc1800; 0xc3cc3c3c; 0x33c30000; 0x3fc3fc; 0xf0ff0ff0; 0xff0ff0ff; 0xff0ff0f; 0xf0ff0ff0;
   0xff0ff0ff; 0xf3fc3fc; 0xc1602; 0x30c30c00; 0x3fc3; 0xfcf0ff0f; 0xf0ff0ff0; 0xff0ff0ff;
   0xff0ff0f; 0xf0ff0ff0; 0xff0f3fc3; 0xfc000000; 0xa0a0e; 0xc0f03330; 0xcc0c0303; 0x30ccc0f0;
   0x30000000; 0x121206; 0xcff033fc; 0x3c3c0f0; 0xf03c3c0f; 0xf03f3c0; 0xfcf03cfc; 0xf3f03c3;
   0xc0f0f03c; 0x3c0f0f03; 0xc3f0f0fc; 0xff0c3fc; 0x30000000; 0xc1800; 0x300300c; 0xc00000;
   0xf0ff0f; 0xf0ff0ff0; 0xff0ff0ff; 0xff0ff0f; 0xf0ff0ff0; 0xff0ff0ff; 0xf3fc3fc; 0xc1800;
   0xc00c003; 0x300000; 0xf0ff0f; 0xf0ff0ff0; 0xff0ff0ff; 0xff0ff0f; 0xf0ff0ff0; 0xff0ff0ff;
   0xf3fc3fc; 0xc1800; 0xf00f030; 0xc30c0000; 0xf0ff0f; 0xf0ff0ff0; 0xff0ff0ff; 0xff0ff0f;
   0xf0ff0ff0; 0xff0ff0ff; 0xf3fc3fc; 0xc1602; 0x30c30c00; 0xf0ff; 0xff0ff0f; 0xf0ff0ff0;
   0xff0ff0ff; 0xff0ff0f; 0xf0ff0ff0; 0xff0f3fc3; 0xfc000000; 0xc1800; 0xc00c003; 0x300000;
   0xf0ff0f; 0xf0ff0ff0; 0xff0ff0ff; 0xf3fc3fc; 0xf00f00f; 0xf00f00; 0xf00f00f0; 0xe1206;
   0x3fc0ff0; 0xf003c3f; 0xf0ffcf0f; 0x3c3cf0f3; 0xc3cf0f3c; 0x3c3ff0ff; 0xc00f003c; 0x3fc0ff0;
   0xe1206; 0xff03fc3; 0xc3cf0f3c; 0x3cf0f0f3; 0xc3cf3c3c; 0xf0ff03fc; 0xff03fc0; 0xff03fc0f;
   0x3f3cfcf0; 0xc1404; 0x300300c; 0xc00000; 0x3fc3fc; 0xf03f03ff; 0xcffcf0ff; 0xff0ff0f;
   0xf0ff0fff; 0xcffc0000; 0xc1404; 0xc00c003; 0x300000; 0x3fc3fc; 0xf03f03ff; 0xcffcf0ff;
   0xff0ff0f; 0xf0ff0fff; 0xcffc0000; 0xc1404; 0xf00f030; 0xc30c0000; 0x3fc3fc; 0xf03f03ff;
   0xcffcf0ff; 0xff0ff0f; 0xf0ff0fff; 0xcffc0000; 0xc1404; 0xc3cc3c3c; 0x33c30000; 0x3fc3fc;
   0xf03f03ff; 0xcffcf0ff; 0xff0ff0f; 0xf0ff0fff; 0xcffc0000; 0xc1206; 0x30c30c00; 0x3fc3;
   0xfcf03f03; 0xffcffcf0; 0xff0ff0ff; 0xff0ff0f; 0xffcffc00; 0xc1800; 0xf00f030; 0xc30c30c3;
   0xc0f00f0; 0x3f; 0xc3fcf03f; 0x3ffcffc; 0xf0ff0ff0; 0xff0ff0ff; 0xfffcffc; 0x140e0a;
   0x3fffc3ff; 0xfcf0f03f; 0xf03f0ff; 0xcf0ffcff; 0xf0ffff0f; 0xf0f00f; 0xfc0f0fc; 0xf0f3fff;
   0xc3fffc00; 0xc140a; 0x3fc3fcc0; 0xfc0f00f0; 0xf00f00f; 0xf00fc0; 0xfc0f3fc3; 0xfc0f00f0;
   0xc00c003; 0x300000; 0xc1404; 0x300300c; 0xc00000; 0x3fc3fc; 0xf0ff0ff0; 0xff0fffff;
   0xff00f00f; 0xc0fc0f3f; 0xc3fc0000; 0xc1404; 0xc00c003; 0x300000; 0x3fc3fc; 0xf0ff0ff0;
   0xff0fffff; 0xff00f00f; 0xc0fc0f3f; 0xc3fc0000; 0xc1404; 0xf00f030; 0xc30c0000; 0x3fc3fc;
   0xf0ff0ff0; 0xff0fffff; 0xff00f00f; 0xc0fc0f3f; 0xc3fc0000; 0xc1206; 0x30c30c00; 0x3fc3;
   0xfcf0ff0f; 0xf0ff0fff; 0xffff00f0; 0xfc0fc0f; 0x3fc3fc00; 0x41404; 0x33cc00ff; 0xffffffff;
   0xffff0000; 0x41404; 0xcc3300ff; 0xffffffff; 0xffff0000; 0x81404; 0x3c3cc3c3; 0x3c3c;
   0x3c3c3c3c; 0x3c3c3c3c; 0x3c3c3c3c; 0x81206; 0xc3c30000; 0x3c3c3c3c; 0x3c3c3c3c; 0x3c3c3c3c;
   0x3c3c0000; 0xc1206; 0x3f73f3f; 0xfc3ce3; 0xc0ff0ff0; 0xf3cf3cf0; 0xff0ff0ff; 0xf30f30f;
   0xfc0fc00; 0xc1404; 0xc3cc3c3c; 0x33c30000; 0x3ff3ff; 0xf0ff0ff0; 0xff0ff0ff; 0xff0ff0f;
   0xf0ff0ff0; 0xff0f0000; 0xc1404; 0x300300c; 0xc00000; 0x3fc3fc; 0xf0ff0ff0; 0xff0ff0ff;
   0xff0ff0f; 0xf0ff0f3f; 0xc3fc0000; 0xc1404; 0xc00c003; 0x300000; 0x3fc3fc; 0xf0ff0ff0;
   0xff0ff0ff; 0xff0ff0f; 0xf0ff0f3f; 0xc3fc0000; 0xc1404; 0xf00f030; 0xc30c0000; 0x3fc3fc;
   0xf0ff0ff0; 0xff0ff0ff; 0xff0ff0f; 0xf0ff0f3f; 0xc3fc0000; 0xc1404; 0xc3cc3c3c; 0x33c30000;
   0x3fc3fc; 0xf0ff0ff0; 0xff0ff0ff; 0xff0ff0f; 0xf0ff0f3f; 0xc3fc0000; 0xc1206; 0x30c30c00;
   0x3fc3; 0xfcf0ff0f; 0xf0ff0ff0; 0xff0ff0ff; 0xff0ff0f; 0x3fc3fc00; 0xa0a0a; 0xc030000;
   0xfffff0; 0xc03; 0x0; 0x100e0a; 0xcff0cff0; 0x3c3c3c3c; 0x3c3c3c3c; 0x3f3c3f3c;
   0x3cfc3cfc; 0x3c3c3c3c; 0xff30ff3; 0xc1404; 0x300300c; 0xc00000; 0xf0ff0f; 0xf0ff0ff0;
   0xff0ff0ff; 0xff0ff0f; 0xfcffcff3; 0xcf3c0000; 0xc1404; 0xc00c003; 0x300000; 0xf0ff0f;
   0xf0ff0ff0; 0xff0ff0ff; 0xff0ff0f; 0xfcffcff3; 0xcf3c0000; 0xc1404; 0xf00f030; 0xc30c0000;
   0xf0ff0f; 0xf0ff0ff0; 0xff0ff0ff; 0xff0ff0f; 0xfcffcff3; 0xcf3c0000; 0xc1206; 0x30c30c00;
   0xf0ff; 0xff0ff0f; 0xf0ff0ff0; 0xff0ff0ff; 0xffcffcf; 0xf3cf3c00; 0xc1a04; 0xc00c003;
   0x300000; 0xf0ff0f; 0xf0ff0ff0; 0xff0ff0ff; 0xff0ff0f; 0xf0ff0fff; 0xcffcf00f; 0xf03f03;
   0x3fc3fc00; 0xc1606; 0xf00f00; 0xf00f3ff3; 0xfff0ff0f; 0xf0ff0ff0; 0xff0ff0ff; 0xff0ff0f;
   0x3ff3ff00; 0xf00f00f0; 0xf000000; 0xc1806; 0x30c30c00; 0xf0ff; 0xff0ff0f; 0xf0ff0ff0;
   0xff0ff0ff; 0xff0ff0f; 0xffcffcf0; 0xf00f03f; 0x33fc3fc; 0x121206; 0xffff3fff; 0xc03c3c0f;
   0xf03c3c0; 0xf0f03c3c; 0xf0f3fc3; 0xcff0f03c; 0x3c0f0f03; 0xc3c0f0f0; 0x3c3c0f0f; 0xffff3fff;
   0xc0000000; 0x140e0a; 0x3fffc3ff; 0xfcf0f0ff; 0xf0ff0f0; 0xff0f0fff; 0xf0ffff0f; 0xf0f00f;
   0xfc0f0fc; 0xf0f3fff; 0xc3fffc00; 0x40806; 0xcc33ffff; 0x40806; 0xffffcc33; 0x40814;
   0xffffcc33; 0x40806; 0xffff33cc; 0xa0806; 0xc330c30c; 0xc3f3fcff; 0x3fcf0000; 0xa0806;
   0xf3fcff3f; 0xcfc330c3; 0xcc30000; 0xa0814; 0xf3fcff3f; 0xcfc330c3; 0xcc30000; 0xa0806;
   0xf3fcff3f; 0xcf30cc3c; 0x330c0000; 0x60a06; 0x30cfff30; 0xc30c30c0; 0x60c06; 0x30cfff30;
   0xc30cfff3; 0xc000000; 0xa0a0a; 0x3f0fcfff; 0xffffffff; 0xffff3f0f; 0xc0000000; 0x101008;
   0x3fc03fc0; 0xc030c030; 0xc000c; 0x3fff3fff; 0xc000c; 0xfff0fff; 0xc030c030; 0x3fc03fc0;
   0x121404; 0xc00030; 0x3f000f; 0xc00f3c03; 0xcf03ccf0; 0xf33cfcff; 0xff3ffff3; 0xfffcff3f;
   0xff0fffc0; 0xf3c03cf0; 0x3f000fc; 0xc0003; 0x0].
Definition bold_data_group_0 : list (list N) :=
  [bold_data_0; bold_data_1; bold_data_2].
(** HASH_BASIC_LATIN, src/fonts/bold.rs:101-250 *)
Definition bold_hash_basic_latin : list N :=
  [0x323cd4f; 0x49bf55e; 0x537c05e; 0xb9ea876; 0xd4e2b64; 0x11ddb5bc; 0x129f2a7f; 0x13156136;
   0x131ab870; 0x1403a883; 0x1586c0aa; 0x1672836b; 0x16f9a05f; 0x18d53bb6; 0x198b90fc; 0x1bf82d35;
   0x1c40e42f; 0x1cfcd293; 0x1f2b17f3; 0x1f79a4d0; 0x21840e11; 0x22abe92f; 0x2379b646; 0x24189ec6;
   0x259e68d3; 0x26ff6e36; 0x2a3184f1; 0x2b038801; 0x2c17f13b; 0x2d2269f8; 0x30f856b5; 0x31099644;
   0x315f5687; 0x3673cb35; 0x39bc06bb; 0x435f26f6; 0x43603571; 0x44c216ba; 0x455e0578; 0x45ef573f;
   0x465d3b9d; 0x47ef8034; 0x4938ea00; 0x4ab0fc13; 0x4bcd3197; 0x4cc5a899; 0x524c4f7e; 0x52d3cb36;
   0x55c7f2ae; 0x56dee618; 0x5a352e5e; 0x5b06f60a; 0x5c904e6c; 0x5ca0f32f; 0x5ff80125; 0x61901224;
   0x67bd451e; 0x681839b8; 0x68e75be7; 0x6c058218; 0x6e85a379; 0x72de1efb; 0x73688484; 0x7627ca6c;
   0x779cda2e; 0x7834a19c; 0x78fd8c32; 0x7a435eee; 0x7b6b1369; 0x7ba23029; 0x7f4ebf76; 0x803af153;
   0x804744c4; 0x84510f7d; 0x8499b628; 0x86a8b043; 0x8b86ba97; 0x8c1a54ee; 0x8c69c315; 0x8c94654b;
   0x8db20a6b; 0x933cec52; 0x9500c437; 0x9582c02e; 0x98453fd6; 0x98c6b546; 0x99933c47; 0x9b44cabe;
   0x9dd6d1df; 0x9f99932f; 0xa03d6d22; 0xa13b361a; 0xa1a410c7; 0xa26a0e29; 0xa30cad6b; 0xa5872342;
   0xa891e88a; 0xabe208d0; 0xadabea12; 0xadc91a24; 0xae495307; 0xaf41db71; 0xb12bf2ee; 0xb35f1351;
   0xb454a383; 0xb5097bab; 0xb8ed6be2; 0xbe856396; 0xbfe47d0d; 0xc06e932f; 0xc0afd8ed; 0xc1209a73;
   0xc2ddc575; 0xc3ab3492; 0xc57a2c66; 0xc5e4d96b; 0xc890e3dd; 0xc99309a2; 0xc9bea311; 0xcaeccf17;
   0xcaf83468; 0xcb07fd3e; 0xcb7242e0; 0xcd3fdbe3; 0xce94ae25; 0xd363e17b; 0xd4ffa898; 0xd7b03f23;
   0xd822b857; 0xda2b151d; 0xdb01af22; 0xdc135abd; 0xe2aa1ebb; 0xe5ca55bf; 0xe6556d01; 0xe7c19ba9;
   0xed67fa54; 0xef026b52; 0xef302693; 0xf04b9422; 0xf0f19a38; 0xf29ab82d; 0xf31d8bfb; 0xf3a5a351;
   0xf3bf2609; 0xf85223eb; 0xfc2c2430; 0xfff1d70c].
(** OFFSET_BASIC_LATIN, src/fonts/bold.rs:253-402 *)
Definition bold_offset_basic_latin : list N :=
  [1253; 650; 940; 150; 1226; 1085; 1180; 246;
   321; 958; 515; 448; 9; 51; 1355; 625;
   1058; 57; 983; 18; 568; 283; 1048; 1189;
   134; 109; 370; 451; 576; 536; 878; 588;
   269; 641; 292; 1006; 223; 347; 1115; 169;
   1265; 1411; 142; 117; 207; 647; 215; 26;
   1390; 601; 466; 95; 446; 39; 355; 126;
   1289; 1018; 197; 1105; 618; 63; 560; 231;
   407; 1307; 594; 990; 158; 275; 930; 423;
   480; 553; 1197; 73; 179; 494; 0; 1244;
   2; 898; 173; 253; 189; 1382; 608; 1162;
   1171; 858; 908; 79; 101; 888; 1373; 524;
   87; 329; 472; 1217; 1325; 437; 378; 239;
   1364; 1334; 399; 1261; 337; 362; 1038; 487;
   6; 1298; 1028; 1269; 183; 75; 415; 582;
   261; 49; 68; 299; 458; 1153; 166; 634;
   975; 429; 546; 312; 77; 511; 503; 1235;
   1125; 532; 979; 1095; 656; 386; 1275; 868;
   949; 967; 443; 1316].
(** HASH_LATIN_1_SUPPLEMENT, src/fonts/bold.rs:415-512 *)
Definition bold_hash_latin_1_supplement : list N :=
  [0xeac56e; 0x254fd66; 0x56de9e6; 0x6fe368d; 0x137e3259; 0x18e6f281; 0x1a5a66cd; 0x1b0de252;
   0x1b43c661; 0x1c505947; 0x252158d3; 0x25872b22; 0x259437ac; 0x268b196d; 0x275e5021; 0x2766361e;
   0x278a377a; 0x28ca6ad7; 0x291e971e; 0x3280724d; 0x36953e7b; 0x388fb155; 0x39056a43; 0x3a073fbe;
   0x3ae00f65; 0x3e168b4d; 0x3e82329e; 0x402dcff6; 0x4236cdd1; 0x44d0c2c4; 0x450db83d; 0x4f92356c;
   0x511bca1d; 0x554a5349; 0x5e39bcee; 0x5eb9d2a0; 0x5ee10367; 0x62d494f4; 0x6984aa2d; 0x6ba96cc3;
   0x6e3c05cf; 0x6ef8ed06; 0x6fa3c127; 0x71ee15f2; 0x7619d892; 0x76554d10; 0x79026f8e; 0x7e2a203c;
   0x839d40cb; 0x84ff8f94; 0x8ae0a2b9; 0x8d741045; 0x8ea3f31f; 0x9194ccb5; 0x92979158; 0x95c4dc63;
   0x97a9c1da; 0x97c63b05; 0xa10c8120; 0xa5f3368b; 0xa7883ca5; 0xa7b0fe42; 0xabf561b2; 0xad97621d;
   0xb1a64f1e; 0xb1bf38b8; 0xb55da0fa; 0xb5ca05f5; 0xb7001103; 0xb9229669; 0xba8e9829; 0xbb608964;
   0xc0837c42; 0xc0e7ab63; 0xc20fe7b7; 0xc6ef143e; 0xc98be718; 0xcad0511f; 0xcaf24984; 0xd040d3e3;
   0xd4d6097a; 0xd83534e2; 0xdd061c7a; 0xde3fb757; 0xe14f2e81; 0xe2532edc; 0xe51ff77c; 0xe5da3fed;
   0xe9131aa1; 0xebc8143d; 0xec99a516; 0xf446cd1a; 0xf520ef41; 0xf64ed921; 0xfb89d3f4; 0xfbfecc1c].
(** OFFSET_LATIN_1_SUPPLEMENT, src/fonts/bold.rs:515-612 *)
Definition bold_offset_latin_1_supplement : list N :=
  [753; 741; 983; 1058; 1048; 1153; 1347; 665;
   680; 1265; 688; 1253; 701; 1189; 710; 1095;
   975; 1073; 990; 803; 1325; 1275; 949; 940;
   1382; 1307; 1373; 1068; 837; 1244; 1105; 771;
   1162; 918; 768; 1217; 1298; 1125; 979; 1115;
   1390; 739; 1180; 1018; 722; 930; 908; 1342;
   671; 1038; 1197; 1135; 765; 736; 1316; 888;
   781; 659; 790; 794; 792; 712; 728; 997;
   878; 797; 1269; 698; 661; 850; 898; 1364;
   811; 751; 1401; 1144; 868; 1235; 1085; 1226;
   967; 1006; 762; 1261; 1171; 1281; 824; 756;
   1355; 1334; 858; 1028; 1207; 1289; 1411; 958].
(** HASH_LATIN_EXTENDED_A, src/fonts/bold.rs:625-628 *)
Definition bold_hash_latin_extended_a : list N :=
  [0x1a01594c; 0x8c60da30].
(** OFFSET_LATIN_EXTENDED_A, src/fonts/bold.rs:631-634 *)
Definition bold_offset_latin_extended_a : list N :=
  [1421; 1433].
(** HASH_GENERAL_PUNCTUATION, src/fonts/bold.rs:647-659 *)
Definition bold_hash_general_punctuation : list N :=
  [0xd0042b1; 0x18e68a7d; 0x372ed469; 0x3a3c25c2; 0x80e4e277; 0x885e576b; 0x8b80c01d; 0x8f0be1db;
   0x8f56d335; 0xa6c64f29; 0xe29813b0].
(** OFFSET_GENERAL_PUNCTUATION, src/fonts/bold.rs:662-674 *)
Definition bold_offset_general_punctuation : list N :=
  [1474; 1447; 1451; 1455; 1470; 1463; 1449; 1459;
   1467; 1443; 1445].
(** HASH_CURRENCY_SYMBOLS, src/fonts/bold.rs:687-689 *)
Definition bold_hash_currency_symbols : list N :=
  [0x1aca36bb].
(** OFFSET_CURRENCY_SYMBOLS, src/fonts/bold.rs:692-694 *)
Definition bold_offset_currency_symbols : list N :=
  [1479].
(** HASH_SPECIALS, src/fonts/bold.rs:707-709 *)
Definition bold_hash_specials : list N :=
  [0x58a5da35].
(** OFFSET_SPECIALS, src/fonts/bold.rs:712-714 *)
Definition bold_offset_specials : list N :=
  [1488].
(** DATA, src/fonts/bold.rs:726-1215 *)
Definition bold_data : bigarr :=
  bold_data_group_0.
(** The arms of the match in get_blit_pattern_offset, src/fonts/bold.rs *)
Definition bold_blocks : list block :=
  [ Block 0x0 0x7F [2; 1]
         bold_hash_basic_latin
         bold_offset_basic_latin;
    Block 0x80 0xFF [1]
         bold_hash_latin_1_supplement
         bold_offset_latin_1_supplement;
    Block 0x100 0x17F [1]
         bold_hash_latin_extended_a
         bold_offset_latin_extended_a;
    Block 0x2000 0x206F [1]
         bold_hash_general_punctuation
         bold_offset_general_punctuation;
    Block 0x20A0 0x20CF [1]
         bold_hash_currency_symbols
         bold_offset_currency_symbols;
    Block 0xFFF0 0xFFFF [1]
         bold_hash_specials
         bold_offset_specials ].
Definition bold_font : font := Font 30 0 bold_blocks bold_data.
