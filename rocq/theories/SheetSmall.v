(** GENERATED by tools/gen_sheets.py -- do not edit.
    Pixels of a sprite sheet, one number for each row; bit x is set when the
    pixel in column x is black. *)
From Verif Require Import Prim.

Definition small_rows_0 : list N :=
  [0x3ffffffffffffffffffffffffffffffffffffffffffffffffffffffffffffffffffffffffffffffffffffffffffffffffffffffff;
   0x3ffffffffffffffffffffffffffffffffffffffffffffffffffffffffffffffffffffffffffffffffffffffffffffffffffffffff;
   0x3000000c000003000000c000003000000c000003000000c000003000000c000003000000c000003000000c000003000000c000003;
   0x3000000c000003000000c000003000000c000003000000c000003000000c000003000000c000003000000c000003000000c000003;
   0x3000c00c000003000000c000003000000c000003000000c00cc03000000c000003000000c000003000000c000003000000c000003;
   0x3000c00c000003000000c000003000000c000003000000c00cc03000000c000003000000c000003000000c000003000000c000003;
   0x3003f00c000003000000c000003000000c003003000300c000003000000c000003000000c000003000000c000003000000c000003;
   0x3003f00c000003000000c000003000000c003003000300c000003000000c000003000000c000003000000c000003000000c000003;
   0x300f3c0c003003000000c00c003000000c00fc03000cc0c003003000000c000c03003fc0c00fc03003f00c000003000000c000003;
   0x300f3c0c003003000000c00c003000000c00fc03000cc0c003003000000c000c03003fc0c00fc03003f00c000003000000c000003;
   0x303ccf0c003003000000c00000303c0f0c003003000000c003003000000c00300300c0c0c03030300c0c0c000003000000c000003;
   0x303ccf0c003003000000c00000303c0f0c003003000000c003003000000c00300300c0c0c03030300c0c0c000003000000c000003;
   0x30fcffcc00fc03000000c00c0030c330cc003003000f00c00cc03000fc0c00000300c0c0c0cf0c300c0c0c000003000000c000003;
   0x30fcffcc00fc03000000c00c0030c330cc003003000f00c00cc03000fc0c00000300c0c0c0cf0c300c0c0c000003000000c000003;
   0x30ff3fcc003003000000c0030030c0c0cc0030030030c0c00cc030030c0c000003003fc0c0cccc300c0c0c000003000000c000003;
   0x30ff3fcc003003000000c0030030c0c0cc0030030030c0c00cc030030c0c000003003fc0c0cccc300c0c0c000003000000c000003;
   0x303fff0c003003003fc0c000c030c330cc000003003fc0c03ff030030c0c0000030000c0c0cccc300c0c0c000003000000c000003;
   0x303fff0c003003003fc0c000c030c330cc000003003fc0c03ff030030c0c0000030000c0c0cccc300c0c0c000003000000c000003;
   0x300f3c0c003003000000c030c0303c0f0c0000030000c0c0303030030c0c0000030000c0c03f0c300c0c0c000003000000c000003;
   0x300f3c0c003003000000c030c0303c0f0c0000030000c0c0303030030c0c0000030000c0c03f0c300c0c0c000003000000c000003;
   0x3003f00c00fc03000000c00f003000000c000003000f00c030303000fc0c0000030000c0c000303003f00c000003000000c000003;
   0x3003f00c00fc03000000c00f003000000c000003000f00c030303000fc0c0000030000c0c000303003f00c000003000000c000003;
   0x3000c00c003003000000c000003000000c000003000000c0000030000c0c000003000000c00fc03000000c000003000000c000003;
   0x3000c00c003003000000c000003000000c000003000000c0000030000c0c000003000000c00fc03000000c000003000000c000003;
   0x3000000c003003000000c000003000000c000003000000c0000030000c0c000003000000c000003000000c000003000000c000003;
   0x3000000c003003000000c000003000000c000003000000c0000030000c0c000003000000c000003000000c000003000000c000003;
   0x3ffffffffffffffffffffffffffffffffffffffffffffffffffffffffffffffffffffffffffffffffffffffffffffffffffffffff;
   0x3ffffffffffffffffffffffffffffffffffffffffffffffffffffffffffffffffffffffffffffffffffffffffffffffffffffffff;
   0x3000300c000003000000c000003000000c000003000000c00fc03000000c000003000000c000003000000c000003000000c000003;
   0x3000300c000003000000c000003000000c000003000000c00fc03000000c000003000000c000003000000c000003000000c000003;
   0x3000c00c000003000000c000003000000c000003000000c030303000000c000003000000c000003000000c000003000000c000003;
   0x3000c00c000003000000c000003000000c000003000000c030303000000c000003000000c000003000000c000003000000c000003;
   0x3000000c000003000000c000003000000c003c03000000c00fc03000000c000003000000c000003000000c000003000000c000003;
   0x3000000c000003000000c000003000000c003c03000000c00fc03000000c000003000000c000003000000c000003000000c000003;
   0x3003f00c000003000000c003003000000c00c3030030c0c003003000000c000003003f00c003003000c00c003003000000c000003;
   0x3003f00c000003000000c003003000000c00c3030030c0c003003000000c000003003f00c003003000c00c003003000000c000003;
   0x300c0c0c000003000000c000003000c00c00c303000000c003003000000c00000300c0c0c003003000f00c003003000000c000003;
   0x300c0c0c000003000000c000003000c00c00c303000000c003003000000c00000300c0c0c003003000f00c003003000000c000003;
   0x300c0c0c000003000000c003003000c00c003c03000f00c00cc03003f00c003c0300c0c0c00cc03000c00c003003000000c000003;
   0x300c0c0c000003000000c003003000c00c003c03000f00c00cc03003f00c003c0300c0c0c00cc03000c00c003003000000c000003;
   0x300c0c0c000003000000c00300300ffc0c0000030030c0c00cc030030c0c00c00300c0c0c00cc03000c00c003003000000c000003;
   0x300c0c0c000003000000c00300300ffc0c0000030030c0c00cc030030c0c00c00300c0c0c00cc03000c00c003003000000c000003;
   0x300c0c0c00300300fff0c003003000c00c000003003fc0c03ff030030c0c00fc0300c0c0c03ff03000c00c003003000000c000003;
   0x300c0c0c00300300fff0c003003000c00c000003003fc0c03ff030030c0c00fc0300c0c0c03ff03000c00c003003000000c000003;
   0x300c0c0c000003000000c003003000c00c0000030000c0c0303030030c0c00c30300ccc0c030303000c00c000003000000c000003;
   0x300c0c0c000003000000c003003000c00c0000030000c0c0303030030c0c00c30300ccc0c030303000c00c000003000000c000003;
   0x3003f00c000003000000c00300300ffc0c000003003f00c030303003f00c00fc03003f00c030303000c00c003003000000c000003;
   0x3003f00c000003000000c00300300ffc0c000003003f00c030303003f00c00fc03003f00c030303000c00c003003000000c000003;
   0x3000000c000003000000c000003000000c000003000000c000003003000c000003003000c000003000000c000003000000c000003;
   0x3000000c000003000000c000003000000c000003000000c000003003000c000003003000c000003000000c000003000000c000003;
   0x3000000c000003000000c000003000000c000003000000c000003003000c000003000000c000003000000c000003000000c000003;
   0x3000000c000003000000c000003000000c000003000000c000003003000c000003000000c000003000000c000003000000c000003;
   0x3ffffffffffffffffffffffffffffffffffffffffffffffffffffffffffffffffffffffffffffffffffffffffffffffffffffffff;
   0x3ffffffffffffffffffffffffffffffffffffffffffffffffffffffffffffffffffffffffffffffffffffffffffffffffffffffff;
   0x3003000c000003000000c000003000000c000003000000c000003000000c000003000000c000003000000c000003000000c000003;
   0x3003000c000003000000c000003000000c000003000000c000003000000c000003000000c000003000000c000003000000c000003;
   0x3000c00c000003000000c000003000000c000003000000c000003000000c000003000000c000003000000c000003003000c000003;
   0x3000c00c000003000000c000003000000c000003000000c000003000000c000003000000c000003000000c000003003000c000003;
   0x3000000c000003003300c000003000000c000003003000c000003000000c000003000000c000003000000c000003003c00c000003;
   0x3000000c000003003300c000003000000c000003003000c000003000000c000003000000c000003000000c000003003c00c000003;
   0x300c0c0c000003000cc0c000003000000c003003000c00c00fc03000000c000303003fc0c00ff03003f00c00cc03003000c000003;
   0x300c0c0c000003000cc0c000003000000c003003000c00c00fc03000000c000303003fc0c00ff03003f00c00cc03003000c000003;
   0x300c0c0c000003000cc0c000003000c00c00fc03000000c030303000000c00030300c0c0c03030300c0c0c00cc03003000c000003;
   0x300c0c0c000003000cc0c000003000c00c00fc03000000c030303000000c00030300c0c0c03030300c0c0c00cc03003000c000003].
Definition small_rows_1 : list N :=
  [0x300c0c0c000003000000c000003000300c033303000c00c000303003cc0c003f0300c0c0c03030300c000c00000300fc00c000003;
   0x300c0c0c000003000000c000003000300c033303000c00c000303003cc0c003f0300c0c0c03030300c000c00000300fc00c000003;
   0x300c0c0c000003000000c00ff030000c0c003303000c00c0003030003c0c00c303003fc0c00ff03003000c000003000000c000003;
   0x300c0c0c000003000000c00ff030000c0c003303000c00c0003030003c0c00c303003fc0c00ff03003000c000003000000c000003;
   0x300c0c0c000003000000c00c003000300c033303000c00c0003030000c0c00c303000cc0c030303000c00c000003000000c000003;
   0x300c0c0c000003000000c00c003000300c033303000c00c0003030000c0c00c303000cc0c030303000c00c000003000000c000003;
   0x300c0c0c000003000000c00c003000c00c00fc03000c00c0303030000c0c00c3030030c0c030303000300c000003000000c000003;
   0x300c0c0c000003000000c00c003000c00c00fc03000c00c0303030000c0c00c3030030c0c030303000300c000003000000c000003;
   0x3003f00c00c003000000c000003003fc0c003003000c00c00fc030000c0c003f0300c0c0c00ff0300ffc0c000003000000c000003;
   0x3003f00c00c003000000c000003003fc0c003003000c00c00fc030000c0c003f0300c0c0c00ff0300ffc0c000003000000c000003;
   0x3000000c00c003000000c000003000000c000003000000c003003000000c000003000000c000003000000c000003000000c000003;
   0x3000000c00c003000000c000003000000c000003000000c003003000000c000003000000c000003000000c000003000000c000003;
   0x3000000c003003000000c000003000000c000003000000c000c03000000c000003000000c000003000000c000003000000c000003;
   0x3000000c003003000000c000003000000c000003000000c000c03000000c000003000000c000003000000c000003000000c000003;
   0x3ffffffffffffffffffffffffffffffffffffffffffffffffffffffffffffffffffffffffffffffffffffffffffffffffffffffff;
   0x3ffffffffffffffffffffffffffffffffffffffffffffffffffffffffffffffffffffffffffffffffffffffffffffffffffffffff;
   0x3000c00c000003000000c000003000000c000003000000c003003000000c000003000000c000003000000c000003000000c000003;
   0x3000c00c000003000000c000003000000c000003000000c003003000000c000003000000c000003000000c000003000000c000003;
   0x3003300c000003000000c000003000000c000003000000c000c03000000c000003000000c000003000000c00000300fc00c000003;
   0x3003300c000003000000c000003000000c000003000000c000c03000000c000003000000c000003000000c00000300fc00c000003;
   0x3000000c00000300cc00c0f0003000000c000003000300c000003000000c000003000000c000003000000c03300300c000c000003;
   0x3000000c00000300cc00c0f0003000000c000003000300c000003000000c000003000000c000003000000c03300300c000c000003;
   0x300c0c0c00000300cc00c030003000000c00f003000c00c00ff03000000c000003003f00c00fc0300ffc0c03ff0300fc00c000003;
   0x300c0c0c00000300cc00c030003000000c00f003000c00c00ff03000000c000003003f00c00fc0300ffc0c03ff0300fc00c000003;
   0x300c0c0c000003003300c00c003000300c000c03000000c000303000000c00000300c0c0c030303003000c00cc03000c00c000003;
   0x300c0c0c000003003300c00c003000300c000c03000000c000303000000c00000300c0c0c030303003000c00cc03000c00c000003;
   0x300c0c0c000003000000c00c003000c00c000c03000c00c000303003f00c003c030000c0c000303000c00c03ff0300fc00c000003;
   0x300c0c0c000003000000c00c003000c00c000c03000c00c000303003f00c003c030000c0c000303000c00c03ff0300fc00c000003;
   0x300c0c0c000003000000c0033c3003000c003f03000c00c003f030000c0c00c303003f00c000303003f00c003303000000c000003;
   0x300c0c0c000003000000c0033c3003000c003f03000c00c003f030000c0c00c303003f00c000303003f00c003303000000c000003;
   0x300c0c0c000003000000c003303000c00c000c03000c00c000303000f00c00030300c000c00030300c000c000003000000c000003;
   0x300c0c0c000003000000c003303000c00c000c03000c00c000303000f00c00030300c000c00030300c000c000003000000c000003;
   0x300c0c0c000003000000c000c03000300c030c03000c00c000303003000c00c30300c0c0c03030300c0c0c000003000000c000003;
   0x300c0c0c000003000000c000c03000300c030c03000c00c000303003000c00c30300c0c0c03030300c0c0c000003000000c000003;
   0x3003f00c033003000000c000c03003fc0c00ff03000c00c00ff03000fc0c003c03003f00c00fc03003f00c000003000000c000003;
   0x3003f00c033003000000c000c03003fc0c00ff03000c00c00ff03000fc0c003c03003f00c00fc03003f00c000003000000c000003;
   0x3000000c033003000000c000003000000c000003000000c000003000000c000003000000c000003000000c000003000000c000003;
   0x3000000c033003000000c000003000000c000003000000c000003000000c000003000000c000003000000c000003000000c000003;
   0x3000000c00cc03000000c000003000000c000003000000c000003000000c000003000000c000003000000c000003000000c000003;
   0x3000000c00cc03000000c000003000000c000003000000c000003000000c000003000000c000003000000c000003000000c000003;
   0x3ffffffffffffffffffffffffffffffffffffffffffffffffffffffffffffffffffffffffffffffffffffffffffffffffffffffff;
   0x3ffffffffffffffffffffffffffffffffffffffffffffffffffffffffffffffffffffffffffffffffffffffffffffffffffffffff;
   0x3000300c000003000000c000003000000c000003000000c033c03000000c000003000000c000003000000c000003000000c000003;
   0x3000300c000003000000c000003000000c000003000000c033c03000000c000003000000c000003000000c000003000000c000003;
   0x3000c00c000003000000c00c003000000c000003000000c00f303000000c000003000000c000003000000c00000300fc00c000003;
   0x3000c00c000003000000c00c003000000c000003000000c00f303000000c000003000000c000003000000c00000300fc00c000003;
   0x3000000c000003003000c003003000000c00fc03000c00c000003000000c000003000000c000003000000c00300300c000c000003;
   0x3000000c000003003000c003003000000c00fc03000c00c000003000000c000003000000c000003000000c00300300c000c000003;
   0x300c0c0c00c033000c00c00300300c0c0c030303003300c030f03000c00c00c00300ffc0c003f03003000c00fc0300fc00c000003;
   0x300c0c0c00c033000c00c00300300c0c0c030303003300c030f03000c00c00c00300ffc0c003f03003000c00fc0300fc00c000003;
   0x300c0c0c0030cf000c00c003003003300c000303000000c030f03000c00c00c003000c00c00c303003c00c03330300c000c000003;
   0x300c0c0c0030cf000c00c003003003300c000303000000c030f03000c00c00c003000c00c00c303003c00c03330300c000c000003;
   0x300c0c0c000ccf000000c00fc0300ffc0c00fc03000c00c033303003f00c00fc03000c00c030303003300c00330300fc00c000003;
   0x300c0c0c000ccf000000c00fc0300ffc0c00fc03000c00c033303003f00c00fc03000c00c030303003300c00330300fc00c000003;
   0x300c0c0c303333000000c003003000c00c030303000c00c033303000c00c00c303000c00c0303030030c0c00fc03000000c000003;
   0x300c0c0c303333000000c003003000c00c030303000c00c033303000c00c00c303000c00c0303030030c0c00fc03000000c000003;
   0x300c0c0cccccc3000000c00300300ffc0c00fc03000c00c03c303000c00c00c303000c00c03030300ffc0c033003000000c000003;
   0x300c0c0cccccc3000000c00300300ffc0c00fc03000c00c03c303000c00c00c303000c00c03030300ffc0c033003000000c000003;
   0x300c0c0ccccc33000000c003003000c00c030003000c00c03c303000c00c00c303000c00c00c303003000c033303000000c000003;
   0x300c0c0ccccc33000000c003003000c00c030003000c00c03c303000c00c00c303000c00c00c303003000c033303000000c000003;
   0x3003f00c30300f000000c003003000c00c030303000c00c030303003000c00fc03000c00c003f03003000c00fc03000000c000003;
   0x3003f00c30300f000000c003003000c00c030303000c00c030303003000c00fc03000c00c003f03003000c00fc03000000c000003;
   0x3000000c000003000000c003003000000c00fc03000000c000003000000c000003000000c000003000000c003003000000c000003;
   0x3000000c000003000000c003003000000c00fc03000000c000003000000c000003000000c000003000000c003003000000c000003].
Definition small_rows_2 : list N :=
  [0x3000000c000003000000c000c03000000c000003000000c000003000000c000003000000c000003000000c000003000000c000003;
   0x3000000c000003000000c000c03000000c000003000000c000003000000c000003000000c000003000000c000003000000c000003;
   0x3ffffffffffffffffffffffffffffffffffffffffffffffffffffffffffffffffffffffffffffffffffffffffffffffffffffffff;
   0x3ffffffffffffffffffffffffffffffffffffffffffffffffffffffffffffffffffffffffffffffffffffffffffffffffffffffff;
   0x3000000c003003000000c000003000000c000003000000c000003000000c000003000000c000003000000c00000300c030c000003;
   0x3000000c003003000000c000003000000c000003000000c000003000000c000003000000c000003000000c00000300c030c000003;
   0x3000000c00cc03000000c000003000000c000003000000c00cc03000000c000003000000c000003000000c00000300c03cc000003;
   0x3000000c00cc03000000c000003000000c000003000000c00cc03000000c000003000000c000003000000c00000300c03cc000003;
   0x3000000c000003003000c000003000000c000003000000c000003000000c000003000000c000003000000c000003003030c000003;
   0x3000000c000003003000c000003000000c000003000000c000003000000c000003000000c000003000000c000003003030c000003;
   0x3000000c003003003000c000003000000c000003003300c00fc03000000c00000300c0c0c00ff0300ffc0c0fffc3003030c000003;
   0x3000000c003003003000c000003000000c000003003300c00fc03000000c00000300c0c0c00ff0300ffc0c0fffc3003030c000003;
   0x3000000c003003000c00c000003000000c00fc03000000c030303000000c00000300c0c0c0003030000c0c030c33000cfcc000003;
   0x3000000c003003000c00c000003000000c00fc03000000c030303000000c00000300c0c0c0003030000c0c030c33000cfcc000003;
   0x3000c00c00cc03000000c0c3c03030c00c03ff03000c00c0303030030c0c003c0300c0c0c000303003fc0c00cc330ccc00c000003;
   0x3000c00c00cc03000000c0c3c03030c00c03ff03000c00c0303030030c0c003c0300c0c0c000303003fc0c00cc330ccc00c000003;
   0x3000c00c00cc03000000c03c303030c00c03ff03000c00c0303030030c0c00c30300c0c0c003f0300c000c03f3c30cc300c000003;
   0x3000c00c00cc03000000c03c303030c00c03ff03000c00c0303030030c0c00c30300c0c0c003f0300c000c03f3c30cc300c000003;
   0x3000c00c03ff03000000c0c3c0300c300c03ff03000c00c0303030030c0c00ff0300c0c0c00030300c000c0c3c030fc300c000003;
   0x3000c00c03ff03000000c0c3c0300c300c03ff03000c00c0303030030c0c00ff0300c0c0c00030300c000c0c3c030fc300c000003;
   0x3000c00c030303000000c03c30300c300c00fc03000c00c0303030030c0c00030300c0c0c00030300c0c0c0c33030c00c0c000003;
   0x3000c00c030303000000c03c30300c300c00fc03000c00c0303030030c0c00030300c0c0c00030300c0c0c0c33030c00c0c000003;
   0x3000c00c030303000000c000003033f00c000003000c00c00fc03003f00c003c03003f00c00ff03003f00c03c0c30c00c0c000003;
   0x3000c00c030303000000c000003033f00c000003000c00c00fc03003f00c003c03003f00c00ff03003f00c03c0c30c00c0c000003;
   0x3000000c000003000000c0000030000c0c000003000000c000003000000c000003000000c000003000000c000003000000c000003;
   0x3000000c000003000000c0000030000c0c000003000000c000003000000c000003000000c000003000000c000003000000c000003;
   0x3000000c000003000000c0000030000c0c000003000000c000003000000c000003000000c000003000000c000003000000c000003;
   0x3000000c000003000000c0000030000c0c000003000000c000003000000c000003000000c000003000000c000003000000c000003;
   0x3ffffffffffffffffffffffffffffffffffffffffffffffffffffffffffffffffffffffffffffffffffffffffffffffffffffffff;
   0x3ffffffffffffffffffffffffffffffffffffffffffffffffffffffffffffffffffffffffffffffffffffffffffffffffffffffff;
   0x3000000c000c03000000c000003000000c000003000000c000003000000c000003000000c000003000000c00000300c030c000003;
   0x3000000c000c03000000c000003000000c000003000000c000003000000c000003000000c000003000000c00000300c030c000003;
   0x3000000c003303000000c000003000000c000003000000c00cc03000000c000003000000c000003000000c00000300c03cc000003;
   0x3000000c003303000000c000003000000c000003000000c00cc03000000c000003000000c000003000000c00000300c03cc000003;
   0x3000c00c000003000000c000003000000c000003003300c000003000000c000003000000c000003000000c003c03003030c000003;
   0x3000c00c000003000000c000003000000c000003003300c000003000000c000003000000c000003000000c003c03003030c000003;
   0x3003300c00ff03000000c0000030003c0c0ffc03000cc0c030303000000c03c00300c0c0c00ff03003c00c00c303003030c000003;
   0x3003300c00ff03000000c0000030003c0c0ffc03000cc0c030303000000c03c00300c0c0c00ff03003c00c00c303003030c000003;
   0x3000000c000303000c00c003003000c00c033f03000000c030303000000c00300300c0c0c000303000300c003303000cfcc000003;
   0x3000000c000303000c00c003003000c00c033f03000000c030303000000c00300300c0c0c000303000300c003303000cfcc000003;
   0x3000000c000303000000c003003003300c033f03000fc0c03030300c0c0c00fc0300c0c0c0003030000c0c000c030fcc00c000003;
   0x3000000c000303000000c003003003300c033f03000fc0c03030300c0c0c00fc0300c0c0c0003030000c0c000c030fcc00c000003;
   0x3000000c003f0300ffc0c00cc030030c0c033c030030c0c030303003300c003003003300c003f03003fc0c0333030c0300c000003;
   0x3000000c003f0300ffc0c00cc030030c0c033c030030c0c030303003300c003003003300c003f03003fc0c0333030c0300c000003;
   0x3000000c000303000000c00cc030030c0c0330030030c0c030303003300c003003003300c00030300c0c0c00c0c30fc300c000003;
   0x3000000c000303000000c00cc030030c0c0330030030c0c030303003300c003003003300c00030300c0c0c00c0c30fc300c000003;
   0x3000000c000303000c00c0303030030c0c0330030030c0c030303000c00c003003000c00c00030300c0c0c0330c300c0c0c000003;
   0x3000000c000303000c00c0303030030c0c0330030030c0c030303000c00c003003000c00c00030300c0c0c0330c300c0c0c000003;
   0x3000000c00ff03000000c03ff03000f00c0330030030c0c00fc03000c00c003003000c00c000303003f00c0c0f030fc0c0c000003;
   0x3000000c00ff03000000c03ff03000f00c0330030030c0c00fc03000c00c003003000c00c000303003f00c0c0f030fc0c0c000003;
   0x3000000c000003000000c000003000000c033003000000c000003000000c000003000000c000003000000c000003000000c000003;
   0x3000000c000003000000c000003000000c033003000000c000003000000c000003000000c000003000000c000003000000c000003;
   0x3000000c000003000000c000003000000c033003000000c000003000000c000003000000c000003000000c000003000000c000003;
   0x3000000c000003000000c000003000000c033003000000c000003000000c000003000000c000003000000c000003000000c000003;
   0x3ffffffffffffffffffffffffffffffffffffffffffffffffffffffffffffffffffffffffffffffffffffffffffffffffffffffff;
   0x3ffffffffffffffffffffffffffffffffffffffffffffffffffffffffffffffffffffffffffffffffffffffffffffffffffffffff;
   0x3000000c00c003000000c000003000000c000003000000c000003000000c000003000000c000003000000c00000300c0fcc000003;
   0x3000000c00c003000000c000003000000c000003000000c000003000000c000003000000c000003000000c00000300c0fcc000003;
   0x3000000c003003000000c000003000000c000003000000c000003000000c000003000000c000003000000c00000300c0c0c000003;
   0x3000000c003003000000c000003000000c000003000000c000003000000c000003000000c000003000000c00000300c0c0c000003;
   0x3003300c000003000000c000003000c00c000003000c00c003003000000c000003000000c000003000000c0000030030fcc000003;
   0x3003300c000003000000c000003000c00c000003000c00c003003000000c000003000000c000003000000c0000030030fcc000003;
   0x3000cc0c003003000c00c000003000c00c003c03000300c000c03000000c000003030030c00fc0300ffc0c0030030030c0c000003;
   0x3000cc0c003003000c00c000003000c00c003c03000300c000c03000000c000003030030c00fc0300ffc0c0030030030c0c000003].
Definition small_rows_3 : list N :=
  [0x3000000c003003003300c000003003000c00c303000000c000003000000c000003030030c03030300c000c003003000cfcc000003;
   0x3000000c003003003300c000003003000c00c303000000c000003000000c000003030030c03030300c000c003003000cfcc000003;
   0x3000000c00cc0300c0c0c030c03000000c003303000f00c003c03030030c00fc0300ccc0c000303003000c0000030ccc00c000003;
   0x3000000c00cc0300c0c0c030c03000000c003303000f00c003c03030030c00fc0300ccc0c000303003000c0000030ccc00c000003;
   0x3000000c00cc03030030c00c303000000c0033030030c0c00c30300ccc0c00c30300ccc0c03c303003000c0000030cc300c000003;
   0x3000000c00cc03030030c00c303000000c0033030030c0c00c30300ccc0c00c30300ccc0c03c303003000c0000030cc300c000003;
   0x3000000c03ff0300c0c0c0030c3000000c00c3030030c0c00fc0300ccc0c00c303003300c030303000c00c0000030fc300c000003;
   0x3000000c03ff0300c0c0c0030c3000000c00c3030030c0c00fc0300ccc0c00c303003300c030303000c00c0000030fc300c000003;
   0x3000000c030303003300c00c303000000c0303030030c0c00c303003300c00c303003300c030303000c00c0000030c00c0c000003;
   0x3000000c030303003300c00c303000000c0303030030c0c00c303003300c00c303003300c030303000c00c0000030c00c0c000003;
   0x3000000c030303000c00c030c03000000c00f303000f00c00fc03003300c00fc03003300c00fc03000c00c0000030c00c0c000003;
   0x3000000c030303000c00c030c03000000c00f303000f00c00fc03003300c00fc03003300c00fc03000c00c0000030c00c0c000003;
   0x3000000c000003000000c000003000000c000003000000c000003000000c00c003000000c000003000000c000003000000c000003;
   0x3000000c000003000000c000003000000c000003000000c000003000000c00c003000000c000003000000c000003000000c000003;
   0x3000000c000003000000c000003000000c000003000000c000003000000c003c03000000c000003000000c000003000000c000003;
   0x3000000c000003000000c000003000000c000003000000c000003000000c003c03000000c000003000000c000003000000c000003;
   0x3ffffffffffffffffffffffffffffffffffffffffffffffffffffffffffffffffffffffffffffffffffffffffffffffffffffffff;
   0x3ffffffffffffffffffffffffffffffffffffffffffffffffffffffffffffffffffffffffffffffffffffffffffffffffffffffff;
   0x3000000c000003000000c000003000000c000003000000c000003000000c000003000000c000003000000c000003000000c000003;
   0x3000000c000003000000c000003000000c000003000000c000003000000c000003000000c000003000000c000003000000c000003;
   0x3000000c003303000000c000003000000c000003000000c000003000000c000003000000c000003000000c000003000000c000003;
   0x3000000c003303000000c000003000000c000003000000c000003000000c000003000000c000003000000c000003000000c000003;
   0x3000000c000003000000c000003003300c00ff03000300c000c03000000c000003000000c000003000000c00c003000000c000003;
   0x3000000c000003000000c000003003300c00ff03000300c000c03000000c000003000000c000003000000c00c003000000c000003;
   0x3003f00c00ff03003300c000003003300c0300c3000c00c003003000000c00030300c0c0c030303003f00c003003000fc0c000003;
   0x3003f00c00ff03003300c000003003300c0300c3000c00c003003000000c00030300c0c0c030303003f00c003003000fc0c000003;
   0x3000000c000303000000c00000300cc00c0c3f33000000c000003000000c00030300c0c0c03030300c0c0c000c030030c0c000003;
   0x3000000c000303000000c00000300cc00c0c3f33000000c000003000000c00030300c0c0c03030300c0c0c000c030030c0c000003;
   0x3000000c00030300c0c0c00c303000000c0cc333000f00c003c0300c0c0c003f03003300c03030300c0c0c000c0300c0c0c000003;
   0x3000000c00030300c0c0c00c303000000c0cc333000f00c003c0300c0c0c003f03003300c03030300c0c0c000c0300c0c0c000003;
   0x3000000c003f0300c0c0c030c03000000c0c3f330030c0c00c303003300c00c303000c00c03ff03003f00c000c0300c3f0c000003;
   0x3000000c003f0300c0c0c030c03000000c0c3f330030c0c00c303003300c00c303000c00c03ff03003f00c000c0300c3f0c000003;
   0x3000000c000303003300c0c3003000000c0cc3330030c0c00fc03000c00c00c303003300c03030300c0c0c000c0300c0c0c000003;
   0x3000000c000303003300c0c3003000000c0cc3330030c0c00fc03000c00c00c303003300c03030300c0c0c000c0300c0c0c000003;
   0x3000000c000303003300c030c03000000c0300c30030c0c00c303003300c00c30300c0c0c03030300c0c0c000c030030c0c000003;
   0x3000000c000303003300c030c03000000c0300c30030c0c00c303003300c00c30300c0c0c03030300c0c0c000c030030c0c000003;
   0x3000000c00ff03000c00c00c303000000c00ff03000f00c00fc0300c0c0c00c30300c0c0c030303003f00c003003000fc0c000003;
   0x3000000c00ff03000c00c00c303000000c00ff03000f00c00fc0300c0c0c00c30300c0c0c030303003f00c003003000fc0c000003;
   0x3000000c000003000c00c000003000000c000003000000c000003000000c000003000000c000003000000c00c003000000c000003;
   0x3000000c000003000c00c000003000000c000003000000c000003000000c000003000000c000003000000c00c003000000c000003;
   0x3000000c0000030003c0c000003000000c000003000000c000003000000c000003000000c000003000000c000003000000c000003;
   0x3000000c0000030003c0c000003000000c000003000000c000003000000c000003000000c000003000000c000003000000c000003;
   0x3ffffffffffffffffffffffffffffffffffffffffffffffffffffffffffffffffffffffffffffffffffffffffffffffffffffffff;
   0x3ffffffffffffffffffffffffffffffffffffffffffffffffffffffffffffffffffffffffffffffffffffffffffffffffffffffff;
   0x3000000c000c03000000c000003000000c000003000000c000003000000c000003000000c000003000000c000003000000c000003;
   0x3000000c000c03000000c000003000000c000003000000c000003000000c000003000000c000003000000c000003000000c000003;
   0x3000000c003003003300c000003000000c000003000000c000003000000c000003000000c000003000000c000003000000c000003;
   0x3000000c003003003300c000003000000c000003000000c000003000000c000003000000c000003000000c000003000000c000003;
   0x30030c0c000003000000c000003000000c00ff03000300c003003000000c000003000000c000003000000c000c03000000c000003;
   0x30030c0c000003000000c000003000000c00ff03000300c003003000000c000003000000c000003000000c000c03000000c000003;
   0x3000f00c00ff0300c0c0c000003000000c0300c3000cc0c00cc03000000c00300300c0c0c003003003f00c003003000000c000003;
   0x3000f00c00ff0300c0c0c000003000000c0300c3000cc0c00cc03000000c00300300c0c0c003003003f00c003003000000c000003;
   0x3000000c00030300c0c0c000003000000c0c3c33000000c000003000000c00000300c0c0c00300300c0c0c00c003000000c000003;
   0x3000000c00030300c0c0c000003000000c0c3c33000000c000003000000c00000300c0c0c00300300c0c0c00c003000000c000003;
   0x3000000c000303003300c00000303ffc0c0c0333000f00c003c0300c0c0c003003003300c00300300c0c0c00c00300c0c0c000003;
   0x3000000c000303003300c00000303ffc0c0c0333000f00c003c0300c0c0c003003003300c00300300c0c0c00c00300c0c0c000003;
   0x3000000c003f03000c00c00000300c300c0c03330030c0c00c30300c0c0c003003000c00c00300300ff00c00c003003300c000003;
   0x3000000c003f03000c00c00000300c300c0c03330030c0c00c30300c0c0c003003000c00c00300300ff00c00c003003300c000003;
   0x3000000c000303000c00c00000300c300c0c3c330030c0c00fc03003300c003003000c00c00300300c000c00c003000c00c000003;
   0x3000000c000303000c00c00000300c300c0c3c330030c0c00fc03003300c003003000c00c00300300c000c00c003000c00c000003;
   0x3000000c000303000c00c00000300c300c0300c30030c0c00c303003300c003003000c00c003003003000c00c003003300c000003;
   0x3000000c000303000c00c00000300c300c0300c30030c0c00c303003300c003003000c00c003003003000c00c003003300c000003;
   0x3000000c00ff03000c00c0c30c300c300c00ff03000f00c00fc03000c00c003003000c00c003003000f00c00300300c0c0c000003;
   0x3000000c00ff03000c00c0c30c300c300c00ff03000f00c00fc03000c00c003003000c00c003003000f00c00300300c0c0c000003].
Definition small_rows_4 : list N :=
  [0x3000000c000003000000c000003000000c000003000000c000003000c00c000003000000c000003000000c000c03000000c000003;
   0x3000000c000003000000c000003000000c000003000000c000003000c00c000003000000c000003000000c000c03000000c000003;
   0x3000000c000003000000c000003000000c000003000000c0000030003c0c000003000000c000003000000c000003000000c000003;
   0x3000000c000003000000c000003000000c000003000000c0000030003c0c000003000000c000003000000c000003000000c000003;
   0x3ffffffffffffffffffffffffffffffffffffffffffffffffffffffffffffffffffffffffffffffffffffffffffffffffffffffff;
   0x3ffffffffffffffffffffffffffffffffffffffffffffffffffffffffffffffffffffffffffffffffffffffffffffffffffffffff;
   0x3000000c00c003000000c000003000000c000003000000c000003000000c000003000000c000003000000c000003003000c000003;
   0x3000000c00c003000000c000003000000c000003000000c000003000000c000003000000c000003000000c000003003000c000003;
   0x3000000c003003000000c000003003000c000003000000c000003000000c000003000000c000003000000c000003000c00c000003;
   0x3000000c003003000000c000003003000c000003000000c000003000000c000003000000c000003000000c000003000c00c000003;
   0x3000000c000003000000c000003000c00c000003000000c000003000000c000003000000c000003000000c000003000000c000003;
   0x3000000c000003000000c000003000c00c000003000000c000003000000c000003000000c000003000000c000003000000c000003;
   0x3000c00c003003030000c000003000c00c0c0ff30030c0c00cc03000000c00c003003fc0c030003000000c00300300c0c0c000003;
   0x3000c00c003003030000c000003000c00c0c0ff30030c0c00cc03000000c00c003003fc0c030003000000c00300300c0c0c000003;
   0x3000000c00300300c000c000003000c00c0f3cc3000000c000003000000c000003003000c030003000000c03330300c0c0c000003;
   0x3000000c00300300c000c000003000c00c0f3cc3000000c000003000000c000003003000c030003000000c03330300c0c0c000003;
   0x3000000c003003003000c000003000c00c0cccc3000f00c003c03003fc0c00c003000c00c030003003000c00fc03003300c000003;
   0x3000000c003003003000c000003000c00c0cccc3000f00c003c03003fc0c00c003000c00c030003003000c00fc03003300c000003;
   0x3000000c003003000c00c000003000c00c0c0cc30030c0c00c303000c00c00c003000300c030003000000c00cc03000c00c000003;
   0x3000000c003003000c00c000003000c00c0c0cc30030c0c00c303000c00c00c003000300c030003000000c00cc03000c00c000003;
   0x3000000c003003000c00c000003000c00c0000030030c0c00fc03000300c00c0030000c0c030303000000c030303000c00c000003;
   0x3000000c003003000c00c000003000c00c0000030030c0c00fc03000300c00c0030000c0c030303000000c030303000c00c000003;
   0x3000000c003003000000c000003000c00c0000030030c0c00c3030000c0c00c0030000c0c030303000000c000003000c00c000003;
   0x3000000c003003000000c000003000c00c0000030030c0c00c3030000c0c00c0030000c0c030303000000c000003000c00c000003;
   0x3000000c003003000000c000003000c00c000003000f00c00fc03003fc0c00c003003fc0c00fc03003000c000003000c00c000003;
   0x3000000c003003000000c000003000c00c000003000f00c00fc03003fc0c00c003003fc0c00fc03003000c000003000c00c000003;
   0x3000000c000003000000c000003000c00c000003000000c000003000000c00c003000000c000003000000c000003000000c000003;
   0x3000000c000003000000c000003000c00c000003000000c000003000000c00c003000000c000003000000c000003000000c000003;
   0x3000000c000003000000c000003000300c000003000000c000003000000c003c03000000c000003000000c000003000000c0fffc3;
   0x3000000c000003000000c000003000300c000003000000c000003000000c003c03000000c000003000000c000003000000c0fffc3;
   0x3ffffffffffffffffffffffffffffffffffffffffffffffffffffffffffffffffffffffffffffffffffffffffffffffffffffffff;
   0x3ffffffffffffffffffffffffffffffffffffffffffffffffffffffffffffffffffffffffffffffffffffffffffffffffffffffff;
   0x3000000c003003000000c000c03000000c000003000000c000003000000c000003000000c000003000000c000003000000c000003;
   0x3000000c003003000000c000c03000000c000003000000c000003000000c000003000000c000003000000c000003000000c000003;
   0x3000c00c00cc03000000c003003000000c000003000000c000003000000c000003000000c000003000000c000003000000c000003;
   0x3000c00c00cc03000000c003003000000c000003000000c000003000000c000003000000c000003000000c000003000000c000003;
   0x3003300c000003003f00c000003000c00c000003003300c00cc03003000c000003003c00c000003000000c000003000000c000003;
   0x3003300c000003003f00c000003000c00c000003003300c00cc03003000c000003003c00c000003000000c000003000000c000003;
   0x3000c00c00300300c0c0c003003003300c00c003000cc0c003303000c00c000303000c00c030303000000c000003000300c000003;
   0x3000c00c00300300c0c0c003003003300c00c003000cc0c003303000c00c000303000c00c030303000000c000003000300c000003;
   0x3000000c003003000ff0c003003003c00c003003000000c000003000c00c000303000c00c00c303000000c003003000300c000003;
   0x3000000c003003000ff0c003003003c00c003003000000c000003000c00c000303000c00c00c303000000c003003003f00c000003;
   0x3000000c0030030000c0c00cc03003300c000003000f00c003c03000c00c00c303000c00c003303003000c003003003f00c000003;
   0x3000000c0030030000c0c00cc03003300c000003000f00c003c03000c00c00c303000c00c003303003000c00300300c300c000003;
   0x3000000c003003000ff0c00cc03003c00c0000030030c0c00c303000300c003303000c00c000f03000000c03ff0300c300c000003;
   0x3000000c003003000ff0c00cc03003c00c0000030030c0c00c303000300c003303000c00c000f03000000c03ff0300c300c000003;
   0x3000000c00300300c0c0c03ff03000000c0000030030c0c00fc03000c00c000f03000c00c003303000000c00300300c300c000003;
   0x3000000c00300300c0c0c03ff03000000c0000030030c0c00fc03000c00c000f03000c00c003303000000c003003003f00c000003;
   0x3000000c003003003f00c030303003f00c0000030030c0c00c303000c00c003303000c00c00c303000000c003003003f00c000003;
   0x3000000c003003003f00c030303003f00c0000030030c0c00c303000c00c003303000c00c00c303000000c003003000300c000003;
   0x3000000c003003000000c030303000000c000003000f00c00fc03000c00c00c303000c00c030303003000c000003000300c000003;
   0x3000000c003003000000c030303000000c000003000f00c00fc03000c00c00c303000c00c030303003000c000003000300c000003;
   0x3000000c000003000000c000003000000c000003000000c000003003000c000003003c00c000003003000c000003000000c000003;
   0x3000000c000003000000c000003000000c000003000000c000003003000c000003003c00c000003003000c000003000000c000003;
   0x3000000c000003000000c000003000000c000003000000c000003000000c000003000000c000003000c00c000003000000c000003;
   0x3000000c000003000000c000003000000c000003000000c000003000000c000003000000c000003000c00c000003000000c000003;
   0x3ffffffffffffffffffffffffffffffffffffffffffffffffffffffffffffffffffffffffffffffffffffffffffffffffffffffff;
   0x3ffffffffffffffffffffffffffffffffffffffffffffffffffffffffffffffffffffffffffffffffffffffffffffffffffffffff;
   0x3000000c000003000000c033c03000000c000003000000c000003000000c000003000000c000003000000c000003000000c000003;
   0x3000000c000003000000c033c03000000c000003000000c000003000000c000003000000c000003000000c000003000000c000003;
   0x3000000c00cc03000000c00f303000000c000003000000c003c03000000c000003000000c000003000000c000003000000c000003;
   0x3000000c00cc03000000c00f303000000c000003000000c003c03000000c000003000000c000003000000c000003000000c000003;
   0x3000000c000003000000c000003000000c000003000c00c00c303000c00c000003000300c000003000000c0000030000c0c000003;
   0x3000000c000003000000c000003000000c000003000c00c00c303000c00c000003000300c000003000000c000003000cc0c000003].
Definition small_rows_5 : list N :=
  [0x3000000c003003000000c003003000f00c00cc03000300c003c03000c00c003003000300c000303000000c000003000f00c000003;
   0x3000000c003003000000c003003000f00c00cc03000300c003c03000c00c003003000300c000303000000c0000030003c0c000003;
   0x3000000c003003003000c0030030030c0c000003000000c000003000c00c003003000c00c000303003000c000003000cc0c000003;
   0x3000000c003003003000c0030030030c0c000003000000c000003000c00c003003000c00c000303003000c000003000c00c000003;
   0x3000000c003003000c00c00cc030030c0c0000030030c0c003c03000c00c003003000c00c000303000c00c000003003300c000003;
   0x3000000c003003000c00c00cc030030c0c0000030030c0c003c03000c00c003003000c00c000303000c00c000003003300c000003;
   0x3000000c003003000300c00cc03000f00c0000030030c0c00c303000c00c003003003000c000303000300c0000030030c0c000003;
   0x3000000c003003000300c00cc03000f00c0000030030c0c00c303000c00c003003003000c000303000300c0000030030c0c000003;
   0x3000000c003003000c00c03ff03000000c0000030030c0c00fc03000c00c003003003000c000303000c00c0000030030c0c000003;
   0x3000000c003003000c00c03ff03000000c0000030030c0c00fc03000c00c003003003000c000303000c00c0000030030c0c000003;
   0x3000000c003003003000c030303003fc0c0000030030c0c00c303000c00c00300300c000c000303003000c0000030030c0c000003;
   0x3000000c003003003000c030303003fc0c0000030030c0c00c303000c00c00300300c000c000303003000c0000030030c0c000003;
   0x3000000c003003000000c030303000000c000003003f00c00fc03000c00c00300300c000c00ff03000000c00c003000f00c000003;
   0x3000000c003003000000c030303000000c000003003f00c00fc03000c00c00300300c000c00ff03000000c00c003000f00c000003;
   0x3000c00c000003000000c000003000000c000003000000c000003000c00c000003000000c000003000000c00c003000000c000003;
   0x3000c00c000003000000c000003000000c000003000000c000003000c00c000003000000c000003000000c00c003000000c000003;
   0x3000300c000003000000c000003000000c000003000000c000003000000c000003000000c000003000000c003003000000c000003;
   0x3000300c000003000000c000003000000c000003000000c000003000000c000003000000c000003000000c003003000000c000003;
   0x3ffffffffffffffffffffffffffffffffffffffffffffffffffffffffffffffffffffffffffffffffffffffffffffffffffffffff;
   0x3ffffffffffffffffffffffffffffffffffffffffffffffffffffffffffffffffffffffffffffffffffffffffffffffffffffffff;
   0x3000000c000c03000000c033c03000000c000003000000c000003000000c000003000000c000003000000c000003000000c000003;
   0x3000000c000c03000000c033c03000000c000003000000c000003000000c000003000000c000003000000c000003000000c000003;
   0x3000000c003003000000c00f303000000c000003000000c000003000000c000003000000c000003000000c000003000000c000003;
   0x3000000c003003000000c00f303000000c000003000000c000003000000c000003000000c000003000000c000003000000c000003;
   0x3003300c000003000000c000003000000c000003000300c000003000300c000003003c00c000003000000c000003003000c000003;
   0x3003300c000003000000c000003000000c000003000300c000003000300c000003003c00c000003000000c000003003000c000003;
   0x3000cc0c003003000000c00fc03003f00c000003000c00c000003000c00c000003003000c0c00c3000000c000003000c00c000003;
   0x3000cc0c003003000000c00fc03003f00c000003000c00c000003000c00c000003003000c0c00c3000000c000003000c00c000003;
   0x3000000c003003000300c03030300c0c0c00c003000000c000003000c00c000003003000c0f03c3000000c000003000000c000003;
   0x3000000c003003000300c03030300c0c0c00c003000000c000003000c00c000003003000c0f03c3000000c000003000000c000003;
   0x3000000c003003000c00c030303030030c03ff030030c0c003c03000c00c03cfc3003000c0cccc300ffc0c00000300c0c0c000003;
   0x3000000c003003000c00c030303030030c03ff030030c0c003c03000c00c03cfc3003000c0cccc300ffc0c00000300c0c0c000003;
   0x3000000c003003003000c030303030030c0030030030c0c00c303003000c0c30c3003000c0c30c3000000c00ff0300c0c0c000003;
   0x3000000c003003003000c030303030030c0030030030c0c00c303003000c0c30c3003000c0c30c3000000c00ff0300c0c0c000003;
   0x3000000c003003000c00c030303030030c03ff030030c0c000303000c00c0c30c3003000c0c00c300ffc0c000003003300c000003;
   0x3000000c003003000c00c030303030030c03ff030030c0c000303000c00c0c30c3003000c0c00c300ffc0c000003003300c000003;
   0x3000000c003003000300c03030300c0c0c000c030030c0c00c303000c00c0c30c3003000c0c00c3000000c000003003300c000003;
   0x3000000c003003000300c03030300c0c0c000c030030c0c00c303000c00c0c30c3003000c0c00c3000000c000003003300c000003;
   0x3000000c003003000000c00fc0303c0f0c000003003f00c003c03000c00c0c30c3003000c0c00c3000000c000003000c00c000003;
   0x3000000c003003000000c00fc0303c0f0c000003003f00c003c03000c00c0c30c3003000c0c00c3000000c000003000c00c000003;
   0x3000000c000003000000c000003000000c000003000000c003003000300c000003003c00c000003000000c000003000c00c000003;
   0x3000000c000003000000c000003000000c000003000000c003003000300c000003003c00c000003000000c000003000c00c000003;
   0x3000000c000003000000c000003000000c000003000000c000c03000000c000003000000c000003000000c0000030003c0c000003;
   0x3000000c000003000000c000003000000c000003000000c000c03000000c000003000000c000003000000c0000030003c0c000003;
   0x3ffffffffffffffffffffffffffffffffffffffffffffffffffffffffffffffffffffffffffffffffffffffffffffffffffffffff;
   0x3ffffffffffffffffffffffffffffffffffffffffffffffffffffffffffffffffffffffffffffffffffffffffffffffffffffffff;
   0x3000000c00c003000000c000003000000c000003000000c000003000000c000003000000c000003000000c000003000000c000003;
   0x3000000c00c003000000c000003000000c000003000000c000003000000c000003000000c000003000000c000003000000c000003;
   0x3000000c003003000000c000003000000c000003000000c000003000000c000003000000c000003000000c000003000000c000003;
   0x3000000c003003000000c000003000000c000003000000c000003000000c000003000000c000003000000c000003000000c000003;
   0x3000000c000003000000c000003000000c000003000300c003003000000c000003000000c000003000000c000003000000c000003;
   0x3000000c000003000000c000003000000c000003000300c003003000000c000003000000c000003000000c000003000000c000003;
   0x3000000c00fc03003c00c0fffc3000000c0ffc03000cc0c000c0300cf00c000003000c00c030f03000000c0000030000c0c000003;
   0x3000000c00fc03003c00c0fffc3000000c0ffc03000cc0c000c0300cf00c000003000c00c030f03000000c0000030000c0c000003;
   0x3000000c030303000300c003033000000c003303000000c000003003cc0c000003003300c030f03000300c0000030000c0c000003;
   0x3000000c030303000300c003033000000c003303000000c000003003cc0c000003003300c030f03000300c0000030000c0c000003;
   0x3000000c03030300ffc0c00303300f3c0c0033030030c0c003c03000000c003f03000000c033303000c00c000003000fc0c000003;
   0x3000000c03030300ffc0c00303300f3c0c0033030030c0c003c03000000c003f03000000c033303000c00c000003000fc0c000003;
   0x3000000c03030300c300c03f033030c00c03ffc30030c0c00c303000000c00c303000000c033303003000c0000030030c0c000003;
   0x3000000c03030300c300c03f033030c00c03ffc30030c0c00c303000000c00c303000000c033303003000c0000030030c0c000003;
   0x3000000c03030300c300c00303303ffc0c0030c30030c0c00ff03000000c00c303000000c03c303000c00c0000030030c0c000003;
   0x3000000c03030300c300c00303303ffc0c0030c30030c0c00ff03000000c00c303000000c03c303000c00c0000030030c0c000003;
   0x3000000c03030300c300c003033000c30c0030330030c0c000303000000c00c303000000c03c303000300c0000030030c0c000003;
   0x3000000c03030300c300c003033000c30c0030330030c0c000303000000c00c303000000c03c303000300c0000030030c0c000003].
Definition small_rows_6 : list N :=
  [0x3000000c00fc0300c300c0fffc300f3c0c0ff033003f00c00fc03000000c00c303000000c030303000000c003003000fc0c000003;
   0x3000000c00fc0300c300c0fffc300f3c0c0ff033003f00c00fc03000000c00c303000000c030303000000c003003000fc0c000003;
   0x3000c00c000003000000c000003000000c000003000000c000003000000c000003000000c000003000000c0000030000c0c000003;
   0x3000c00c000003000000c000003000000c000003000000c000003000000c000003000000c000003000000c0000030000c0c000003;
   0x3003000c000003000000c000003000000c000003000000c000003000000c000003000000c000003000000c0000030000c0c000003;
   0x3003000c000003000000c000003000000c000003000000c000003000000c000003000000c000003000000c0000030000c0c000003;
   0x3ffffffffffffffffffffffffffffffffffffffffffffffffffffffffffffffffffffffffffffffffffffffffffffffffffffffff;
   0x3ffffffffffffffffffffffffffffffffffffffffffffffffffffffffffffffffffffffffffffffffffffffffffffffffffffffff;
   0x3000000c003003000000c000003000000c000003000000c000003000000c000003000000c000003000000c000003000000c000003;
   0x3000000c003003000000c000003000000c000003000000c000003000000c000003000000c000003000000c000003000000c000003;
   0x3000000c00cc03000000c000003000000c000003000000c000003000000c000003000000c000003000000c000003000000c000003;
   0x3000000c00cc03000000c000003000000c000003000000c000003000000c000003000000c000003000000c000003000000c000003;
   0x3003300c000003000000c000003000000c000003000000c000c03000c00c000003000000c000003000000c030003000000c000003;
   0x3003300c000003000000c000003000000c000003000000c000c03000c00c000003000000c000003000000c030003000000c000003;
   0x3000c00c00fc0300fc00c000003000000c0cfc030030c0c003003000c00c000003000000c00fc03003c00c03000300c0c0c000003;
   0x3000c00c00fc0300fc00c000003000000c0cfc030030c0c003003000c00c000003000000c00fc03003c00c03000300c0c0c000003;
   0x3000000c03030300c300c000003033c00c030303000000c000003000c00c000003000000c03030300c300c00c003003f00c000003;
   0x3000000c03030300c300c000003033c00c030303000000c000003000c00c000003000000c03030300c300c00c003003f00c000003;
   0x3000000c03030300cfc0c03cf0300c300c03c3030030c0c003c03000c00c003c03000000c03030300c000c00c00300c0c0c000003;
   0x3000000c03030300cfc0c03cf0300c300c03c3030030c0c003c03000c00c003c03000000c03030300c000c00c00300c0c0c000003;
   0x3000000c03030300c300c0c30c300f300c0333030030c0c00c303000000c00c303000000c030303003000c00300300c0c0c000003;
   0x3000000c03030300c300c0c30c300f300c0333030030c0c00c303000000c00c303000000c030303003000c00300300c0c0c000003;
   0x3000000c03030300c300c0ff0c300cf00c030f030030c0c00ff03000c00c00c303000000c030303000c00c00300300c0c0c000003;
   0x3000000c03030300c300c0ff0c300cf00c030f030030c0c00ff03000c00c00c303000000c030303000c00c00300300c0c0c000003;
   0x3000000c03030300c300c0030c300c300c0303030030c0c000303000c00c00c303000000c030303000000c000c03003f00c000003;
   0x3000000c03030300c300c0030c300c300c0303030030c0c000303000c00c00c303000000c030303000000c000c03003f00c000003;
   0x3000000c00fc0300c300c03ff03003cc0c00fcc3003f00c003c03000c00c003c0303ffc0c00fc03000c00c000c0300c0c0c000003;
   0x3000000c00fc0300c300c03ff03003cc0c00fcc3003f00c003c03000c00c003c0303ffc0c00fc03000c00c000c0300c0c0c000003;
   0x3000000c000003000000c000003000000c000003000000c000003000c00c000003000000c000003000000c000003000000c000003;
   0x3000000c000003000000c000003000000c000003000000c000003000c00c000003000000c000003000000c000003000000c000003;
   0x3000000c000003000000c000003000000c000003000000c000003000000c000003000000c000003000000c000003000000c000003;
   0x3000000c000003000000c000003000000c000003000000c000003000000c000003000000c000003000000c000003000000c000003;
   0x3ffffffffffffffffffffffffffffffffffffffffffffffffffffffffffffffffffffffffffffffffffffffffffffffffffffffff;
   0x3ffffffffffffffffffffffffffffffffffffffffffffffffffffffffffffffffffffffffffffffffffffffffffffffffffffffff].
(** codegen/src_data/small.png: 418 columns, 418 rows *)
Definition small_width : N := 418.
Definition small_rows : list N :=
  concat [small_rows_0; small_rows_1; small_rows_2; small_rows_3; small_rows_4; small_rows_5;
    small_rows_6].
