(** GENERATED by tools/gen_sheets.py -- do not edit.
    Pixels of a sprite sheet, one number for each row; bit x is set when the
    pixel in column x is black. *)
From Verif Require Import Prim.

Definition bold_rows_0 : list N :=
  [0x3ffffffffffffffffffffffffffffffffffffffffffffffffffffffffffffffffffffffffffffffffffffffffffffffffffffffffffffffffffffffffffffffff;
   0x3ffffffffffffffffffffffffffffffffffffffffffffffffffffffffffffffffffffffffffffffffffffffffffffffffffffffffffffffffffffffffffffffff;
   0x300000003000000030000000300000003000000030000000300000003000000030000000300000003000000030000000300000003000000030000000300000003;
   0x300000003000000030000000300000003000000030000000300000003000000030000000300000003000000030000000300000003000000030000000300000003;
   0x300000003000000030000000300000003000000030000000300000003000c30030000000300000003000000030000000300000003000000030000000300000003;
   0x300000003000000030000000300000003000000030000000300000003000c30030000000300000003000000030000000300000003000000030000000300000003;
   0x30000c00300000003000000030000000300000003000000030003c003000000030000000300003003000000030000000300000003000000030000000300000003;
   0x30000c00300000003000000030000000300000003000000030003c003000000030000000300003003000000030000000300000003000000030000000300000003;
   0x30003f00300030003000000030003c0030000000300030003000c3003000ff003000000030000c003000ffc0300000003000ff003000000030000000300000003;
   0x30003f00300030003000000030003c0030000000300030003000c3003000ff003000000030000c003000ffc0300000003000ff003000000030000000300000003;
   0x3000f3c03000fc003000000030003c00300000003000fc00300000003003c3c030000000300030003003c3c03003ff003003c3c03000000030000000300000003;
   0x3000f3c03000fc003000000030003c00300000003000fc00300000003003c3c030000000300030003003c3c03003ff003003c3c03000000030000000300000003;
   0x3003ccf0300030003000000030000000303fc0fc300030003000ff003003c3c03000ffc0300000003003c3c0300c00c03003c3c03000000030000000300000003;
   0x3003ccf0300030003000000030000000303fc0fc300030003000ff003003c3c03000ffc0300000003003c3c0300c00c03003c3c03000000030000000300000003;
   0x300fcffc300030003000000030003c0030c0f303300030003003c3c03003c3c03003c3c0300000003003c3c03030fc303003f3c03000000030000000303ffffe3;
   0x300fcffc300030003000000030003c0030c0f303300030003003c3c03003c3c03003c3c0300000003003c3c03030fc303003f3c03000000030000000304000013;
   0x300ff3fc3000fc003000ff0030003c0030c03c03300030003003c3c03003ffc03003c3c0300000003000ffc03030c3303003ffc030000000300000003040000d3;
   0x300ff3fc3000fc003000ff0030003c0030c03c03300030003003c3c03003ffc03003c3c0300000003000ffc03030c3303003ffc0300000003000000030c0000d3;
   0x3003fff0300030003000000030000f0030c0cf03300000003003ffc03003c3c03003c3c030000000300003c03030c3303003cfc0300000003000000030c0000d3;
   0x3003fff0300030003000000030000f0030c0cf03300000003003ffc03003c3c03003c3c030000000300003c03030c3303003cfc0300000003000000030c0000d3;
   0x3000f3c03000000030000000300003c0303f03fc30000000300003c03003c3c03003c3c030000000300003c0300f3c303003c3c0300000003000000030c0000d3;
   0x3000f3c03000000030000000300003c0303f03fc30000000300003c03003c3c03003c3c030000000300003c0300f3c303003c3c0300000003000000030c0000d3;
   0x30003f003000000030000000300303c03000000030000000300303c03003c3c03003c3c030000000300003c0300000c03003c3c0300000003000000030c0000d3;
   0x30003f003000000030000000300303c03000000030000000300303c03003c3c03003c3c030000000300003c0300000c03003c3c030000000300000003040000d3;
   0x30000c0030000000300000003000ff0030000000300000003000ff003003c3c03000ffc030000000300003c03003ff003000ff003000000030000000304000013;
   0x30000c0030000000300000003000ff0030000000300000003000ff003003c3c03000ffc030000000300003c03003ff003000ff003000000030000000303ffffe3;
   0x3000000030000000300000003000000030000000300000003000000030000000300003c0300000003000000030000000300000003000000030000000300000003;
   0x3000000030000000300000003000000030000000300000003000000030000000300003c0300000003000000030000000300000003000000030000000300000003;
   0x3000000030000000300000003000000030000000300000003000000030000000300003c0300000003000000030000000300000003000000030000000300000003;
   0x3000000030000000300000003000000030000000300000003000000030000000300003c0300000003000000030000000300000003000000030000000300000003;
   0x300000003000000030000000300000003000000030000000300000003000000030000000300000003000000030000000300000003000000030000000300000003;
   0x300000003000000030000000300000003000000030000000300000003000000030000000300000003000000030000000300000003000000030000000300000003;
   0x3ffffffffffffffffffffffffffffffffffffffffffffffffffffffffffffffffffffffffffffffffffffffffffffffffffffffffffffffffffffffffffffffff;
   0x3ffffffffffffffffffffffffffffffffffffffffffffffffffffffffffffffffffffffffffffffffffffffffffffffffffffffffffffffffffffffffffffffff;
   0x30000c0030000000300000003000000030000000300000003000000030003c0030000000300000003000000030000000300000003000000030000000300000003;
   0x30000c0030000000300000003000000030000000300000003000000030003c0030000000300000003000000030000000300000003000000030000000300000003;
   0x300030003000000030000000300000003000000030000000300000003000c30030000000300000003000000030000000300000003000000030000000300000003;
   0x300030003000000030000000300000003000000030000000300000003000c30030000000300000003000000030000000300000003000000030000000300000003;
   0x300000003000000030000000300000003000000030000000300000003000c30030000000300000003000000030000000300000003000000030000000300000003;
   0x300000003000000030000000300000003000000030000000300000003000c30030000000300000003000000030000000300000003000000030000000300000003;
   0x3000ff00300000003000000030003c003000000030003c003000c3003000ff0030000000300000003000ff003000ff0030003c0030003c0030000000300000003;
   0x3000ff00300000003000000030003c003000000030003c003000c3003000ff0030000000300000003000ff003000ff0030003c0030003c0030000000300000003;
   0x3003c3c0300000003000000030003c00300000003000c300300000003003c3c030000000300000003003c3c03003c3c030003fc030003c0030000000300000003;
   0x3003c3c0300000003000000030003c00300000003000c300300000003003c3c030000000300000003003c3c03003c3c030003fc030003c0030000000300000003;
   0x3003c3c0300000003000000030000000300030003000c3003000ff003003c3c03003ff003000ff003003c3c03003c3c030003c0030003c0030000000300000003;
   0x3003c3c0300000003000000030000000300030003000c3003000ff003003c3c03003ff003000ff003003c3c03003c3c030003c0030003c0030000000300000003;
   0x3003c3c0300000003000000030003c003000300030003c003003c3c03003c3c03003c3c03003c0c03003c3c03003c3c030003c0030003c0030000000303ffffe3;
   0x3003c3c0300000003000000030003c003000300030003c003003c3c03003c3c03003c3c03003c0c03003c3c03003c3c030003c0030003c0030000000304000013;
   0x3003c3c030003c00300ffff030003c003003ff00300000003003c3c03003ffc03003c3c03003ff003003c3c03003ffc030003c0030003c00300000003040007d3;
   0x3003c3c030003c00300ffff030003c003003ff00300000003003c3c03003ffc03003c3c03003ff003003c3c03003ffc030003c0030003c003000000030c0007d3;
   0x3003c3c030003c003000000030003c0030003000300000003003ffc03003c3c03003c3c03003c3c03003c3c03003c3c030003c0030003c003000000030c0007d3;
   0x3003c3c030003c003000000030003c0030003000300000003003ffc03003c3c03003c3c03003c3c03003c3c03003c3c030003c0030003c003000000030c0007d3;
   0x3003c3c0300000003000000030003c003000300030000000300003c03003c3c03003c3c03003c3c03003c3c03003c3c030003c00300000003000000030c0007d3;
   0x3003c3c0300000003000000030003c003000300030000000300003c03003c3c03003c3c03003c3c03003c3c03003c3c030003c00300000003000000030c0007d3;
   0x3003c3c0300000003000000030003c003000000030000000300303c03003c3c03003c3c03003c3c03003c3c03003c3c030003c0030003c003000000030c0007d3;
   0x3003c3c0300000003000000030003c003000000030000000300303c03003c3c03003c3c03003c3c03003c3c03003c3c030003c0030003c00300000003040007d3;
   0x3000ff00300000003000000030003c003003ff00300000003000ff003003c3c03003ff003003ff003000ff003003c3c030003c0030003c0030000000304000013;
   0x3000ff00300000003000000030003c003003ff00300000003000ff003003c3c03003ff003003ff003000ff003003c3c030003c0030003c0030000000303ffffe3;
   0x30000000300000003000000030000000300000003000000030000000300000003003c000300000003000f00030000000300000003000000030000000300000003;
   0x30000000300000003000000030000000300000003000000030000000300000003003c000300000003000f00030000000300000003000000030000000300000003;
   0x30000000300000003000000030000000300000003000000030000000300000003003c000300000003003c00030000000300000003000000030000000300000003;
   0x30000000300000003000000030000000300000003000000030000000300000003003c000300000003003c00030000000300000003000000030000000300000003;
   0x300000003000000030000000300000003000000030000000300000003000000030000000300000003000000030000000300000003000000030000000300000003;
   0x300000003000000030000000300000003000000030000000300000003000000030000000300000003000000030000000300000003000000030000000300000003].
Definition bold_rows_1 : list N :=
  [0x3ffffffffffffffffffffffffffffffffffffffffffffffffffffffffffffffffffffffffffffffffffffffffffffffffffffffffffffffffffffffffffffffff;
   0x3ffffffffffffffffffffffffffffffffffffffffffffffffffffffffffffffffffffffffffffffffffffffffffffffffffffffffffffffffffffffffffffffff;
   0x300030003000000030000000300000003000000030000000300000003000000030000000300000003000000030000000300000003000000030000000300000003;
   0x300030003000000030000000300000003000000030000000300000003000000030000000300000003000000030000000300000003000000030000000300000003;
   0x30000c003000000030000000300000003000000030000000300000003000000030000000300000003000000030000000300000003000000030003000300000003;
   0x30000c003000000030000000300000003000000030000000300000003000000030000000300000003000000030000000300000003000000030003000300000003;
   0x300000003000000030000000300000003000000030003000300030003000000030000000300000003000000030000000300000003000000030003c00300000003;
   0x300000003000000030000000300000003000000030003000300030003000000030000000300000003000000030000000300000003000000030003c00300000003;
   0x3003c3c03000000030030c0030000000300000003000fc0030000c003000ff0030000000300003c03000ffc03000ffc03000ff003000cc0030003000300000003;
   0x3003c3c03000000030030c0030000000300000003000fc0030000c003000ff0030000000300003c03000ffc03000ffc03000ff003000cc0030003000300000003;
   0x3003c3c0300000003000c30030000000300000003003330030000000300303c030000000300003c03003c3c03003c3c03003c0c03000cc0030003000300000003;
   0x3003c3c0300000003000c30030000000300000003003330030000000300303c030000000300003c03003c3c03003c3c03003c0c03000cc0030003000300000003;
   0x3003c3c0300000003003cf0030000000300030003000330030003c00300003c03003cf003000ffc03003c3c03003c3c03003c0003000cc003000fc00300000003;
   0x3003c3c0300000003003cf0030000000300030003000330030003c00300003c03003cf003000ffc03003c3c03003c3c03003c0003000cc003000fc00300000003;
   0x3003c3c0300000003003cf003000000030000c003000330030003c00300003c030003f003003c3c03003c3c03003c3c03003c0003000000030000000303ffffe3;
   0x3003c3c0300000003003cf003000000030000c003000330030003c00300003c030003f003003c3c03003c3c03003c3c03003c0003000000030000000304000013;
   0x3003c3c030000000300000003003ff00300003003003330030003c00300003c030000f003003c3c03000ffc03000ffc03000f000300000003000000030400ffd3;
   0x3003c3c030000000300000003003ff00300003003003330030003c00300003c030000f003003c3c03000ffc03000ffc03000f000300000003000000030c00ffd3;
   0x3003c3c030000000300000003003000030000c003000fc0030003c00300003c030000f003003c3c03003c3c03003c3c030003c00300000003000000030c00ffd3;
   0x3003c3c030000000300000003003000030000c003000fc0030003c00300003c030000f003003c3c03003c3c03003c3c030003c00300000003000000030c00ffd3;
   0x3003c3c0300000003000000030030000300030003000300030003c00300003c030000f003003c3c03003c3c03003c3c030000f00300000003000000030c00ffd3;
   0x3003c3c0300000003000000030030000300030003000300030003c00300003c030000f003003c3c03003c3c03003c3c030000f00300000003000000030c00ffd3;
   0x3003c3c030003c003000000030000000300000003000000030003c00300303c030000f003003c3c03003c3c03003c3c03003ffc0300000003000000030c00ffd3;
   0x3003c3c030003c003000000030000000300000003000000030003c00300303c030000f003003c3c03003c3c03003c3c03003ffc0300000003000000030400ffd3;
   0x3000ff0030003c0030000000300000003000ff003000000030003c003000ff0030000f003000ffc03003c3c03000ffc03003ffc03000000030000000304000013;
   0x3000ff0030003c0030000000300000003000ff003000000030003c003000ff0030000f003000ffc03003c3c03000ffc03003ffc03000000030000000303ffffe3;
   0x3000000030003000300000003000000030000000300000003000000030003c0030000000300000003000000030000000300000003000000030000000300000003;
   0x3000000030003000300000003000000030000000300000003000000030003c0030000000300000003000000030000000300000003000000030000000300000003;
   0x3000000030000c0030000000300000003000000030000000300000003000300030000000300000003000000030000000300000003000000030000000300000003;
   0x3000000030000c0030000000300000003000000030000000300000003000300030000000300000003000000030000000300000003000000030000000300000003;
   0x3000000030000000300000003000000030000000300000003000000030000c0030000000300000003000000030000000300000003000000030000000300000003;
   0x3000000030000000300000003000000030000000300000003000000030000c0030000000300000003000000030000000300000003000000030000000300000003;
   0x3ffffffffffffffffffffffffffffffffffffffffffffffffffffffffffffffffffffffffffffffffffffffffffffffffffffffffffffffffffffffffffffffff;
   0x3ffffffffffffffffffffffffffffffffffffffffffffffffffffffffffffffffffffffffffffffffffffffffffffffffffffffffffffffffffffffffffffffff;
   0x30003c003000000030000000300000003000000030000000300000003000c00030000000300000003000000030000000300000003000000030000000300000003;
   0x30003c003000000030000000300000003000000030000000300000003000c00030000000300000003000000030000000300000003000000030000000300000003;
   0x3000c300300000003000000030000000300000003000000030000000300030003000000030000000300000003000000030000000300000003000fc00300000003;
   0x3000c300300000003000000030000000300000003000000030000000300030003000000030000000300000003000000030000000300000003000fc00300000003;
   0x300000003000000030000000303f0000300000003000000030000c0030000000300000003000000030000000300000003000000030030c003000c000300000003;
   0x300000003000000030000000303f0000300000003000000030000c0030000000300000003000000030000000300000003000000030030c003000c000300000003;
   0x3003c3c0300000003003cf0030030000300000003000fc00300030003003ff0030000000300000003000fc003000ff003003ffc030030c003000fc00300000003;
   0x3003c3c0300000003003cf0030030000300000003000fc00300030003003ff0030000000300000003000fc003000ff003003ffc030030c003000fc00300000003;
   0x3003c3c0300000003003cf003000c0003000000030030f003000000030000f00300000003000000030030f00300303c03000f000300fffc030000c00300000003;
   0x3003c3c0300000003003cf003000c0003000000030030f003000000030000f00300000003000000030030f00300303c03000f000300fffc030000c00300000003;
   0x3003c3c03000000030030c003000c00030000c0030000f0030003c0030000f003000fc003000fc0030000f00300003c030003c003000c3003000fc00300000003;
   0x3003c3c03000000030030c003000c00030000c0030000f0030003c0030000f003000fc003000fc0030000f00300003c030003c003000c3003000fc00300000003;
   0x3003c3c0300000003000c300300030303000300030000f0030003c0030000f0030030f0030030f0030003f00300003c03000ff003000c30030000000303ffffe3;
   0x3003c3c0300000003000c300300030303000300030000f0030003c0030000f0030030f0030030f0030003f00300003c03000ff003000c30030000000304000013;
   0x3003c3c030000000300000003000303c3000c00030003fc030003c003000ff0030003f0030000f003000fc00300003c03003c0003003fff0300000003041fffd3;
   0x3003c3c030000000300000003000303c3000c00030003fc030003c003000ff0030003f0030000f003000fc00300003c03003c0003003fff03000000030c1fffd3;
   0x3003c3c0300000003000000030000cc03000300030000f0030003c0030000f003000fc0030000f003003f000300003c03003c000300030c03000000030c1fffd3;
   0x3003c3c0300000003000000030000cc03000300030000f0030003c0030000f003000fc0030000f003003f000300003c03003c000300030c03000000030c1fffd3;
   0x3003c3c0300000003000000030000cc030000c0030000f0030003c0030000f003003f00030000f003003c000300003c03003c000300030c03000000030c1fffd3;
   0x3003c3c0300000003000000030000cc030000c0030000f0030003c0030000f003003f00030000f003003c000300003c03003c000300030c03000000030c1fffd3;
   0x3003c3c03003cf00300000003000030030000000300c0f0030003c0030000f003003c30030030f003003c300300303c03003c0c0300000003000000030c1fffd3;
   0x3003c3c03003cf00300000003000030030000000300c0f0030003c0030000f003003c30030030f003003c300300303c03003c0c030000000300000003041fffd3;
   0x3000ff003003cf0030000000300003003000ff003003ffc030003c003003ff003000fc003000fc003000fc003000ff003000ff003000000030000000304000013;
   0x3000ff003003cf0030000000300003003000ff003003ffc030003c003003ff003000fc003000fc003000fc003000ff003000ff003000000030000000303ffffe3;
   0x3000000030030c0030000000300000003000000030000000300000003000000030000000300000003000000030000000300000003000000030000000300000003;
   0x3000000030030c0030000000300000003000000030000000300000003000000030000000300000003000000030000000300000003000000030000000300000003;
   0x300000003000c30030000000300000003000000030000000300000003000000030000000300000003000000030000000300000003000000030000000300000003;
   0x300000003000c30030000000300000003000000030000000300000003000000030000000300000003000000030000000300000003000000030000000300000003;
   0x300000003000000030000000300000003000000030000000300000003000000030000000300000003000000030000000300000003000000030000000300000003;
   0x300000003000000030000000300000003000000030000000300000003000000030000000300000003000000030000000300000003000000030000000300000003].
Definition bold_rows_2 : list N :=
  [0x3ffffffffffffffffffffffffffffffffffffffffffffffffffffffffffffffffffffffffffffffffffffffffffffffffffffffffffffffffffffffffffffffff;
   0x3ffffffffffffffffffffffffffffffffffffffffffffffffffffffffffffffffffffffffffffffffffffffffffffffffffffffffffffffffffffffffffffffff;
   0x30000c0030000000300000003000000030000000300000003000000030030f0030000000300000003000000030000000300000003000000030000000300000003;
   0x30000c0030000000300000003000000030000000300000003000000030030f0030000000300000003000000030000000300000003000000030000000300000003;
   0x300030003000000030000000300000003000000030000000300000003000f0c03000000030000000300000003000000030000000300000003000fc00300000003;
   0x300030003000000030000000300000003000000030000000300000003000f0c03000000030000000300000003000000030000000300000003000fc00300000003;
   0x30000000300000003000000030000000300000003000fc0030003c00300000003000000030000000300000003000000030000000300030003000c000300000003;
   0x30000000300000003000000030000000300000003000fc0030003c00300000003000000030000000300000003000000030000000300030003000c000300000003;
   0x3003c3c030003f3c300030003000f000300f00f0300303003000c300300c00c030003c003003c0003003ffc03000ffc03003c0003000fc003000fc00300000003;
   0x3003c3c030003f3c300030003000f000300f00f0300303003000c300300c00c030003c003003c0003003ffc03000ffc03003c0003000fc003000fc00300000003;
   0x3003c3c030000cc330000c0030003c003003c3c030000f0030000000300c03c030003c003003c00030003c003003c3c03003f000300333003000c000300000003;
   0x3003c3c030000cc330000c0030003c003003c3c030000f0030000000300c03c030003c003003c00030003c003003c3c03003f000300333003000c000300000003;
   0x3003c3c030000cc330003c0030003c00300ffff030003c0030003c00300c0fc03000ff003003ff0030003c003003c3c03003cc0030003f003000fc00300000003;
   0x3003c3c030000cc330003c0030003c00300ffff030003c0030003c00300c0fc03000ff003003ff0030003c003003c3c03003cc0030003f003000fc00300000003;
   0x3003c3c03000033c30003c003000ff0030003c003000f30030003c00300c3fc030003c003003c3c030003c003003c3c03003c30030003f0030000000303ffffe3;
   0x3003c3c03000033c30003c003000ff0030003c003000f30030003c00300c3fc030003c003003c3c030003c003003c3c03003c30030003f0030000000304000013;
   0x3003c3c0300003003000000030003c00300ffff03003c30030003c00300cfcc030003c003003c3c030003c003003c3c03003c0c03000fc0030000000305ffffd3;
   0x3003c3c0300003003000000030003c00300ffff03003c30030003c00300cfcc030003c003003c3c030003c003003c3c03003c0c03000fc003000000030dffffd3;
   0x3003c3c030f0f3003000000030003c0030003c0030030f0030003c00300ff0c030003c003003c3c030003c003003c3c0300fffc03003f0003000000030dffffd3;
   0x3003c3c030f0f3003000000030003c0030003c0030030f0030003c00300ff0c030003c003003c3c030003c003003c3c0300fffc03003f0003000000030dffffd3;
   0x3003c3c0330f0cc03000000030003c0030003c0030033c0030003c00300fc0c030003c003003c3c030003c003003c3c03003c0003003f0003000000030dffffd3;
   0x3003c3c0330f0cc03000000030003c0030003c0030033c0030003c00300fc0c030003c003003c3c030003c003003c3c03003c0003003f0003000000030dffffd3;
   0x3003c3c0330f0cc03000000030003c0030003c003000f00030003c00300f00c030003c003003c3c030003c003003c3c03003c000300333003000000030dffffd3;
   0x3003c3c0330f0cc03000000030003c0030003c003000f00030003c00300f00c030003c003003c3c030003c003003c3c03003c0003003330030000000305ffffd3;
   0x3000ff0030f0f0303000000030003c0030003c003003c00030003c00300c00c03000f0003003ff0030003c003000ffc03003c0003000fc0030000000304000013;
   0x3000ff0030f0f0303000000030003c0030003c003003c00030003c00300c00c03000f0003003ff0030003c003000ffc03003c0003000fc0030000000303ffffe3;
   0x30000000300000003000000030003c003000000030030300300000003000000030000000300000003000000030000000300000003000300030000000300000003;
   0x30000000300000003000000030003c003000000030030300300000003000000030000000300000003000000030000000300000003000300030000000300000003;
   0x30000000300000003000000030000f00300000003000fc00300000003000000030000000300000003000000030000000300000003000000030000000300000003;
   0x30000000300000003000000030000f00300000003000fc00300000003000000030000000300000003000000030000000300000003000000030000000300000003;
   0x300000003000000030000000300000003000000030000000300000003000000030000000300000003000000030000000300000003000000030000000300000003;
   0x300000003000000030000000300000003000000030000000300000003000000030000000300000003000000030000000300000003000000030000000300000003;
   0x3ffffffffffffffffffffffffffffffffffffffffffffffffffffffffffffffffffffffffffffffffffffffffffffffffffffffffffffffffffffffffffffffff;
   0x3ffffffffffffffffffffffffffffffffffffffffffffffffffffffffffffffffffffffffffffffffffffffffffffffffffffffffffffffffffffffffffffffff;
   0x3000000030003c0030000000300000003000000030000000300000003000000030000000300000003000000030000000300000003000000030000000300000003;
   0x3000000030003c0030000000300000003000000030000000300000003000000030000000300000003000000030000000300000003000000030000000300000003;
   0x300000003000c30030000000300000003000000030000000300000003000c300300000003000000030000000300000003000000030000000300300c0300000003;
   0x300000003000c30030000000300000003000000030000000300000003000c300300000003000000030000000300000003000000030000000300300c0300000003;
   0x300000003000000030000000300000003000000030000000300000003000000030000000300000003000000030000000300000003003f3c0300300f0300000003;
   0x300000003000000030000000300000003000000030000000300000003000000030000000300000003000000030000000300000003003f3c0300300f0300000003;
   0x300000003000ff0030003c003000000030000000300000003000c3003000ff0030000000300000003003c3c03003ff003003ffc030030c303000c0c0300000003;
   0x300000003000ff0030003c003000000030000000300000003000c3003000ff0030000000300000003003c3c03003ff003003ffc030030c303000c0c030007c003;
   0x300000003003c3c030003c00300000003000000030000000300000003003c3c030000000300000003003c3c030000f00300003c03000cc303000c0c03001ff003;
   0x300000003003c3c030003c00300000003000000030000000300000003003c3c030000000300000003003c3c030000f00300003c03000cc303000c0c03007c7c03;
   0x30003c003003c3c030003000300300003003c3c03000fc0030003c003003c3c03003c3c03000ff003003c3c030000f00300003c03000c3c0300033f0300f01e03;
   0x30003c003003c3c030003000300300003003c3c03000fc0030003c003003c3c03003c3c03000ff003003c3c030000f00300003c03000c3c0300033f0301c00703;
   0x30003c003003c3c030000c003000ff003003c3c03003ff0030003c003003c3c03003c3c03003c3c03003c3c030000f003000ffc0300030003033300030387c383;
   0x30003c003003c3c030000c003000ff003003c3c03003ff0030003c003003c3c03003c3c03003c3c03003c3c030000f003000ffc030003000303330003071ff1c3;
   0x30003c003003ffc030000000300300c03003c3c03003ff0030003c003003c3c03003c3c03003c3c03003c3c03000ff003003c0003000300030330c003023c7883;
   0x30003c003003ffc030000000300300c03003c3c03003ff0030003c003003c3c03003c3c03003c3c03003c3c03000ff003003c0003000300030330c00300701c03;
   0x30003c003003c3c0300000003000ff003003c3c03003ff0030003c003003c3c03003c3c03003ffc03003c3c030000f003003c000300f0c00303f0c00300e10e03;
   0x30003c003003c3c0300000003000ff003003c3c03003ff0030003c003003c3c03003c3c03003ffc03003c3c030000f003003c000300f0c00303f0c0030047c403;
   0x30003c003003c3c030000000300000c03003c3c03000fc0030003c003003c3c03003c3c0300003c03003c3c030000f003003c0003030cc00303003003000fe003;
   0x30003c003003c3c030000000300000c03003c3c03000fc0030003c003003c3c03003c3c0300003c03003c3c030000f003003c0003030cc00303003003001c7003;
   0x30003c003003c3c030000000300000003003c3c03000000030003c003003c3c03003f3c0300303c03003c3c030000f003003c0c03030c30030300300300082003;
   0x30003c003003c3c030000000300000003003c3c03000000030003c003003c3c03003f3c0300303c03003c3c030000f003003c0c03030c30030300300300010003;
   0x30003c003003c3c03000000030000000300cffc03000000030003c003000ff003003cf003000ff003000ff003003ff003000ff00300f030030000000300038003;
   0x30003c003003c3c03000000030000000300cffc03000000030003c003000ff003003cf003000ff003000ff003003ff003000ff00300f030030000000300010003;
   0x30000000300000003000000030000000300000c030000000300000003000000030000000300000003000000030000000300000003000000030000000300000003;
   0x30000000300000003000000030000000300000c030000000300000003000000030000000300000003000000030000000300000003000000030000000300000003;
   0x300000003000000030000000300000003000003030000000300000003000000030000000300000003000000030000000300000003000000030000000300000003;
   0x300000003000000030000000300000003000003030000000300000003000000030000000300000003000000030000000300000003000000030000000300000003;
   0x300000003000000030000000300000003000000030000000300000003000000030000000300000003000000030000000300000003000000030000000300000003;
   0x300000003000000030000000300000003000000030000000300000003000000030000000300000003000000030000000300000003000000030000000300000003].
Definition bold_rows_3 : list N :=
  [0x3ffffffffffffffffffffffffffffffffffffffffffffffffffffffffffffffffffffffffffffffffffffffffffffffffffffffffffffffffffffffffffffffff;
   0x3ffffffffffffffffffffffffffffffffffffffffffffffffffffffffffffffffffffffffffffffffffffffffffffffffffffffffffffffffffffffffffffffff;
   0x3000000030003c0030000000300000003000000030000000300000003000000030000000300000003000000030000000300000003000000030000000300000003;
   0x3000000030003c0030000000300000003000000030000000300000003000000030000000300000003000000030000000300000003000000030000000300000003;
   0x300000003000c30030000000300000003000000030000000300000003000c300300000003000000030000000300000003000000030000000300300c0300000003;
   0x300000003000c30030000000300000003000000030000000300000003000c300300000003000000030000000300000003000000030000000300300c0300000003;
   0x30003c00300000003000000030000000300000003000000030030f0030000000300000003000000030000000300000003000000030000000300300f0300000003;
   0x30003c00300000003000000030000000300000003000000030030f0030000000300000003000000030000000300000003000000030000000300300f0300000003;
   0x3000c3003003ff00300000003000000030000000300fff003000f0c03003c3c0300000003003f0003003c3c03003ff003000fc0030000fc03000c0c0300000003;
   0x3000c3003003ff00300000003000000030000000300fff003000f0c03003c3c0300000003003f0003003c3c03003ff003000fc0030000fc03000c0c0300000003;
   0x3000000030000f00300000003000300030003f00300cc3c0300000003003c3c03000000030003c003003c3c030000f0030000f0030003cf03000c0c0300000003;
   0x3000000030000f00300000003000300030003f00300cc3c0300000003003c3c03000000030003c003003c3c030000f0030000f0030003cf03000c0c0300000003;
   0x3000000030000f0030003000300030003000f000300cc3c03000ffc03003c3c03003c3c03000ff003003c3c030000f00300003c030003cf0300033f0300000003;
   0x3000000030000f0030003000300030003000f000300cc3c03000ffc03003c3c03003c3c03000ff003003c3c030000f00300003c030003cf0300033f0300000003;
   0x3000000030000f00300000003000cc003003fc00300cc3c03003c3c03003c3c03003c3c030003c003003c3c030000f003000ffc030003ff0303f300030007c003;
   0x3000000030000f00300000003000cc003003fc00300cc3c03003c3c03003c3c03003c3c030003c003003c3c030000f003000ffc030003ff0303f30003001ff003;
   0x300000003000ff003003ff003000cc003003cf00300cff003003c3c03003c3c03003c3c030003c003003c3c03000ff003003c3c0300f0fc030300c003003c7803;
   0x300000003000ff003003ff003000cc003003cf00300cff003003c3c03003c3c03003c3c030003c003003c3c03000ff003003c3c0300f0fc030300c00300701c03;
   0x3000000030000f0030000000300303003003c3c0300cc0003003c3c03003c3c03003c3c030003c003003c3c030000f003003c3c03003fcf0303f0c00300e10e03;
   0x3000000030000f0030000000300303003003c3c0300cc0003003c3c03003c3c03003c3c030003c003003c3c030000f003003c3c03003fcf0303f0c0030047c403;
   0x3000000030000f0030003000300303003003c3c0300cc0003003c3c03003c3c03003c3c030003c003003c3c030000f003003c3c03000f0f0300303003000fe003;
   0x3000000030000f0030003000300303003003c3c0300cc0003003c3c03003c3c03003c3c030003c003003c3c030000f003003c3c03000f0f0300303003001c7003;
   0x3000000030000f0030000000300c00c03000c3c0300cc0003003c3c03003c3c03000ff0030003c003000ff0030000f003003c3c03003fcf0303f0300300082003;
   0x3000000030000f0030000000300c00c03000c3c0300cc0003003c3c03003c3c03000ff0030003c003000ff0030000f003003c3c03003fcf0303f0300300010003;
   0x300000003003ff0030000000300fffc030003f00300cc0003003c3c03000ff0030003c0030003c0030003c0030000f003000ff00300f0fc030000000300038003;
   0x300000003003ff0030000000300fffc030003f00300cc0003003c3c03000ff0030003c0030003c0030003c0030000f003000ff00300f0fc030000000300010003;
   0x300000003000000030000000300000003000000030000000300000003000000030000000300000003000000030000000300000003000000030000000300000003;
   0x300000003000000030000000300000003000000030000000300000003000000030000000300000003000000030000000300000003000000030000000300000003;
   0x300000003000000030000000300000003000000030000000300000003000000030000000300000003000000030000000300000003000000030000000300000003;
   0x300000003000000030000000300000003000000030000000300000003000000030000000300000003000000030000000300000003000000030000000300000003;
   0x300000003000000030000000300000003000000030000000300000003000000030000000300000003000000030000000300000003000000030000000300000003;
   0x300000003000000030000000300000003000000030000000300000003000000030000000300000003000000030000000300000003000000030000000300000003;
   0x3ffffffffffffffffffffffffffffffffffffffffffffffffffffffffffffffffffffffffffffffffffffffffffffffffffffffffffffffffffffffffffffffff;
   0x3ffffffffffffffffffffffffffffffffffffffffffffffffffffffffffffffffffffffffffffffffffffffffffffffffffffffffffffffffffffffffffffffff;
   0x300000003000300030000000300000003000000030000000300000003000000030000000300000003000000030000000300000003000000030000000300000003;
   0x300000003000300030000000300000003000000030000000300000003000000030000000300000003000000030000000300000003000000030000000300000003;
   0x3000000030000c00300000003000000030000000300000003000000030000000300000003000000030000000300000003000000030000000300303f0300000003;
   0x3000000030000c00300000003000000030000000300000003000000030000000300000003000000030000000300000003000000030000000300303f0300000003;
   0x30030f003000000030000000300000003000000030000000300030003000300030000000300000003000000030000000300000003000000030030300300000003;
   0x30030f003000000030000000300000003000000030000000300030003000300030000000300000003000000030000000300000003000000030030300300000003;
   0x3000f0c03000ff0030000000300000003000f0003000ff0030000c0030000c003000000030000000303c3c3c3000ff003003ffc0300030003000c3f0300000003;
   0x3000f0c03000ff0030000000300000003000f0003000ff0030000c0030000c003000000030000000303c3c3c3000ff003003ffc0300030003000c3f0300000003;
   0x300000003003c3c030003000300000003000f0003003c3c030000000300000003000000030000000303c3c3c300303c03003c000300030003000c300300000003;
   0x300000003003c3c030003000300000003000f0003003c3c030000000300000003000000030000000303c3c3c300303c03003c000300030003000c300300000003;
   0x300000003003c3c03000cc00300c3000300030003003c3c03000ff003000ff00303c3c3c3003ff00303c3c3c300003c03003c00030003000300033f0300000003;
   0x300000003003c3c03000cc00300c3000300030003003c3c03000ff003000ff00303c3c3c3003ff00303c3c3c300003c03003c00030003000300033f0300000003;
   0x300000003003c3c03003030030030c003000c0003000f3c03003c3c03003c0c0303c3c3c3003c3c0303c3c3c300003c03003c0003000000030333000300000003;
   0x300000003003c3c03003030030030c003000c0003000f3c03003c3c03003c0c0303c3c3c3003c3c0303c3c3c300003c03003c0003000000030333000300000003;
   0x300000003003ffc0300c00c03000c300300000003003c3c03003c3c03003ff00303c3c3c3003c3c0303c3c3c3003f3c03000f0003000000030330c00300000003;
   0x300000003003ffc0300c00c03000c300300000003003c3c03003c3c03003ff00303c3c3c3003c3c0303c3c3c3003f3c03000f0003000000030330c00300000003;
   0x300000003003c3c030030300300030c030000000300f03c03003c3c03003c3c0303c3c3c3003c3c0303c3c3c3003c3c030003c0030000000303f0c00300010003;
   0x300000003003c3c030030300300030c030000000300f03c03003c3c03003c3c0303c3c3c3003c3c0303c3c3c3003c3c030003c0030000000303f0c0030007c003;
   0x300000003003c3c03000cc003000c30030000000300f03c03003c3c03003c3c0303c3c3c3003c3c0303c3c3c3003c3c030003c0030000000303003003000fe003;
   0x300000003003c3c03000cc003000c30030000000300f03c03003c3c03003c3c0303c3c3c3003c3c0303c3c3c3003c3c030003c0030000000303003003001c7003;
   0x300000003003c3c03000300030030c0030000000300f03c03003c3c03003c3c0300c3c303003c3c0300c3c303003c3c030003c003000000030300300300082003;
   0x300000003003c3c03000300030030c0030000000300f03c03003c3c03003c3c0300c3c303003c3c0300c3c303003c3c030003c003000000030300300300010003;
   0x300000003003c3c030000000300c3000300000003003f3c03000ff003003ff003003c3c03003ff003003c3c03000ff0030003c003000000030000000300038003;
   0x300000003003c3c030000000300c3000300000003003f3c03000ff003003ff003003c3c03003ff003003c3c03000ff0030003c003000000030000000300010003;
   0x3000000030000000300000003000000030000000300000003000000030000000300000003003c0003000000030000000300000003000000030000000300000003;
   0x3000000030000000300000003000000030000000300000003000000030000000300000003003c0003000000030000000300000003000000030000000300000003;
   0x3000000030000000300000003000000030000000300000003000000030000000300000003003c0c03000000030000000300000003000000030000000300000003;
   0x3000000030000000300000003000000030000000300000003000000030000000300000003003c0c03000000030000000300000003000000030000000300000003;
   0x3000000030000000300000003000000030000000300000003000000030000000300000003000ff003000000030000000300000003000000030000000300000003;
   0x3000000030000000300000003000000030000000300000003000000030000000300000003000ff003000000030000000300000003000000030000000300000003].
Definition bold_rows_4 : list N :=
  [0x3ffffffffffffffffffffffffffffffffffffffffffffffffffffffffffffffffffffffffffffffffffffffffffffffffffffffffffffffffffffffffffffffff;
   0x3ffffffffffffffffffffffffffffffffffffffffffffffffffffffffffffffffffffffffffffffffffffffffffffffffffffffffffffffffffffffffffffffff;
   0x300000003000000030000000300000003000000030000000300000003000000030000000300000003000000030000000300000003000000030000000300000003;
   0x300000003000000030000000300000003000000030000000300000003000000030000000300000003000000030000000300000003000000030000000300000003;
   0x300000003000cc0030000000300000003000000030000000300000003000000030000000300000003000000030000000300000003000000030000000300000003;
   0x300000003000cc0030000000300000003000000030000000300000003000000030000000300000003000000030000000300000003000000030000000300000003;
   0x3000ff00300000003000000030000000300000003000000030000c0030000c0030000000300000003000000030000000300000003000c00030000000300000003;
   0x3000ff00300000003000000030000000300000003000000030000c0030000c0030000000300000003000000030000000300000003000c00030000000300000003;
   0x300000003003ff003000c300300000003003cf003000ff00300030003000300030000000300003c03003c3c03003c3c03000ff00300030003000ffc0300000003;
   0x300000003003ff003000c300300000003003cf003000ff00300030003000300030000000300003c03003c3c03003c3c03000ff00300030003000ffc0300000003;
   0x3000000030000f0030000000300000003003cf00300300c0300000003000000030000000300003c03003c3c03003c3c03003c3c030003c003003c3c0300000003;
   0x3000000030000f0030000000300000003003cf00300300c0300000003000000030000000300003c03003c3c03003c3c03003c3c030003c003003c3c0300000003;
   0x3000000030000f003003c3c0300030c03000c300300c3f303000ff003000ff003003c3c03000ffc03003c3c03003c3c03003c3c030003c003003c3c0300000003;
   0x3000000030000f003003c3c0300030c03000c300300c3f303000ff003000ff003003c3c03000ffc03003c3c03003c3c03003c3c030003c003003c3c0300000003;
   0x3000000030000f003003c3c03000c30030030c00300cc3303003c3c03003c0c03003c3c03003c3c03000ff003003c3c03000ff0030003c003003c3c0300000003;
   0x3000000030000f003003c3c03000c30030030c00300cc3303003c3c03003c0c03003c3c03003c3c03000ff003003c3c03000ff0030003c003003c3c0300000003;
   0x300000003000ff003003c3c030030c0030000000300c3f303003c3c03003ff003000ff003003c3c030003c003003ffc03003c3c030003c003003cff0300000003;
   0x300000003000ff003003c3c030030c0030000000300c3f303003c3c03003ff003000ff003003c3c030003c003003ffc03003c3c030003c003003cff0300000003;
   0x3000000030000f003003c3c0300c300030000000300cc3303003c3c03003c3c030003c003003c3c03000ff003003c3c03003c3c030003c003003c3c0300000003;
   0x3000000030000f003003c3c0300c300030000000300cc3303003c3c03003c3c030003c003003c3c03000ff003003c3c03003c3c030003c003003c3c0300000003;
   0x3000000030000f003003c3c030030c0030000000300cc3303003c3c03003c3c03000ff003003c3c03003c3c03003c3c03003c3c030003c003003c3c0300000003;
   0x3000000030000f003003c3c030030c0030000000300cc3303003c3c03003c3c03000ff003003c3c03003c3c03003c3c03003c3c030003c003003c3c0300000003;
   0x3000000030000f003003c3c03000c30030000000300300c03003c3c03003c3c03003c3c03003c3c03003c3c03003c3c03003c3c030003c003003c3c0300000003;
   0x3000000030000f003003c3c03000c30030000000300300c03003c3c03003c3c03003c3c03003c3c03003c3c03003c3c03003c3c030003c003003c3c0300010003;
   0x300000003003ff003003ff00300030c0300000003000ff003000ff003003ff003003c3c03003c3c03003c3c03003c3c03000ff00300030003000ffc0300038003;
   0x300000003003ff003003ff00300030c0300000003000ff003000ff003003ff003003c3c03003c3c03003c3c03003c3c03000ff00300030003000ffc0300010003;
   0x30000000300000003003c000300000003000000030000000300000003000000030000000300000003000000030000000300000003000c00030000000300000003;
   0x30000000300000003003c000300000003000000030000000300000003000000030000000300000003000000030000000300000003000c00030000000300000003;
   0x30000000300000003003c0c0300000003000000030000000300000003000000030000000300000003000000030000000300000003000000030000000300000003;
   0x30000000300000003003c0c0300000003000000030000000300000003000000030000000300000003000000030000000300000003000000030000000300000003;
   0x30000000300000003000ff00300000003000000030000000300000003000000030000000300000003000000030000000300000003000000030000000300000003;
   0x30000000300000003000ff00300000003000000030000000300000003000000030000000300000003000000030000000300000003000000030000000300000003;
   0x3ffffffffffffffffffffffffffffffffffffffffffffffffffffffffffffffffffffffffffffffffffffffffffffffffffffffffffffffffffffffffffffffff;
   0x3ffffffffffffffffffffffffffffffffffffffffffffffffffffffffffffffffffffffffffffffffffffffffffffffffffffffffffffffffffffffffffffffff;
   0x3000000030000c0030000000300000003000000030000000300000003000000030000000300000003000000030000000300000003000000030000000300000003;
   0x3000000030000c0030000000300000003000000030000000300000003000000030000000300000003000000030000000300000003000000030000000300000003;
   0x30000000300030003000c300300000003000000030000000300000003000000030000000300000003000000030000000300000003000000030000000300000003;
   0x30000000300030003000c300300000003000000030000000300000003000000030000000300000003000000030000000300000003000000030000000300000003;
   0x3000c0c0300000003000000030000000300000003000000030003c0030003c00300000003000000030000000300000003000000030000c0030000000300000003;
   0x3000c0c0300000003000000030000000300000003000000030003c0030003c00300000003000000030000000300000003000000030000c0030000000300000003;
   0x30003f003003ff003003c3c030000000300000003000ff003000c3003000c3003000000030003c003003c3c03000ff003000ff003000300030000000300000003;
   0x30003f003003ff003003c3c030000000300000003000ff003000c3003000c3003000000030003c003003c3c03000ff003000ff00300030003000000030007c003;
   0x3000000030000f003003c3c03000000030300000300300c0300000003000000030000000300000003003c3c030003c003003c3c03000f00030000000300183003;
   0x3000000030000f003003c3c03000000030300000300300c0300000003000000030000000300000003003c3c030003c003003c3c03000f00030000000300600c03;
   0x3000000030000f003003c3c030000000300fffc0300c3c303000ff003000ff003003c3c030003c003003c3c030003c003003c3c03000f00030000000300800203;
   0x3000000030000f003003c3c030000000300fffc0300c3c303000ff003000ff003003c3c030003c003003c3c030003c003003c3c03000f00030000000301000103;
   0x3000000030000f003003c3c030000000300f0f30300cc3303003c3c03003c0c03003c3c030003c003003c3c030003c003003c3c03000f00030000000302000083;
   0x3000000030000f003003c3c030000000300f0f30300cc3303003c3c03003c0c03003c3c030003c003003c3c030003c003003c3c03000f00030000000304000043;
   0x300000003000ff003000ff0030000000300f0f00300c03303003c3c03003ff003003c3c030003c003000ff0030003c003003c3c03000f00030030300302000083;
   0x300000003000ff003000ff0030000000300f0f00300c03303003c3c03003ff003003c3c030003c003000ff0030003c003003c3c03000f00030030300301000103;
   0x3000000030000f0030003c0030000000300f0f00300cc3303003c3c03003c3c03003c3c030003c0030003c0030003c003003ff003000f0003000cc00300800203;
   0x3000000030000f0030003c0030000000300f0f00300cc3303003c3c03003c3c03003c3c030003c0030003c0030003c003003ff003000f0003000cc00300400403;
   0x3000000030000f0030003c0030000000300f0f00300c3c303003c3c03003c3c03003c3c030003c0030003c0030003c003003c0003000f00030003000300200803;
   0x3000000030000f0030003c0030000000300f0f00300c3c303003c3c03003c3c03003c3c030003c0030003c0030003c003003c0003000f00030003000300101003;
   0x3000000030000f0030003c00303c3c3c300f0f00300300c03003c3c03003c3c03003c3c030003c0030003c0030003c003000f0003000f0003000cc00300082003;
   0x3000000030000f0030003c00303c3c3c300f0f00300300c03003c3c03003c3c03003c3c030003c0030003c0030003c003000f0003000f0003000cc00300044003;
   0x300000003003ff0030003c00303c3c3c300303003000ff003000ff003003ff003003ff0030003c0030003c003000ff0030003f003000300030030300300028003;
   0x300000003003ff0030003c00303c3c3c300303003000ff003000ff003003ff003003ff0030003c0030003c003000ff0030003f003000300030030300300010003;
   0x30000000300000003000000030000000300000003000000030000000300000003003c0003000000030000000300000003000000030000c0030000000300000003;
   0x30000000300000003000000030000000300000003000000030000000300000003003c0003000000030000000300000003000000030000c0030000000300000003;
   0x30000000300000003000000030000000300000003000000030000000300000003003c0c0300000003000000030000000300000003000000030000000300000003;
   0x30000000300000003000000030000000300000003000000030000000300000003003c0c0300000003000000030000000300000003000000030000000300000003;
   0x30000000300000003000000030000000300000003000000030000000300000003000ff00300000003000000030000000300000003000000030000000300000003;
   0x30000000300000003000000030000000300000003000000030000000300000003000ff00300000003000000030000000300000003000000030000000300000003].
Definition bold_rows_5 : list N :=
  [0x3ffffffffffffffffffffffffffffffffffffffffffffffffffffffffffffffffffffffffffffffffffffffffffffffffffffffffffffffffffffffffffffffff;
   0x3ffffffffffffffffffffffffffffffffffffffffffffffffffffffffffffffffffffffffffffffffffffffffffffffffffffffffffffffffffffffffffffffff;
   0x300000003000300030000000300000003000000030000000300000003000000030000000300000003000000030000000300000003000000030003000300000003;
   0x300000003000300030000000300000003000000030000000300000003000000030000000300000003000000030000000300000003000000030003000300000003;
   0x3000000030000c0030000000300000003000000030000000300000003000000030000000300000003000000030000000300000003000000030000c00300000003;
   0x3000000030000c0030000000300000003000000030000000300000003000000030000000300000003000000030000000300000003000000030000c00300000003;
   0x300030003000000030000000300000003000000030000000300000003000000030000000300000003000000030000000300000003000000030000000300000003;
   0x300030003000000030000000300000003000000030000000300000003000000030000000300000003000000030000000300000003000000030000000300000003;
   0x3000000030003c0030030000300000003000f000303033f03000c3003000c300300000003000f0003003ffc03003c00030000000300030003003c3c0300000003;
   0x3000000030003c0030030000300000003000f000303033f03000c3003000c300300000003000f0003003ffc03003c00030000000300030003003c3c0300000003;
   0x3000000030003c003000c0003000000030003c00303cf0c0300000003000000030000000300000003003c0003003c00030000000300333003003c3c0300000003;
   0x3000000030003c003000c0003000000030003c00303cf0c0300000003000000030000000300000003003c0003003c00030000000300333003003c3c0300000003;
   0x3000000030003c003000c0003000000030003c00303330c03000ff003000ff003003ffc03000f0003003c0003003c00030003c003000fc003003c3c0300000003;
   0x3000000030003c003000c0003000000030003c00303330c03000ff003000ff003003ffc03000f0003003c0003003c00030003c003000fc003003c3c0300000003;
   0x3000000030003c00300030003000000030003c00303030c03003c3c03003c0c03003c0003000f0003000f0003003c00030003c00300333003003c3c0300000003;
   0x3000000030003c00300030003000000030003c00303030c03003c3c03003c0c03003c0003000f0003000f0003003c00030003c00300333003003c3c0300000003;
   0x3000000030003c00300030003000000030003c00300000003003c3c03003ff003000f0003000f00030003c003003c00030000000300030003000ff00300000003;
   0x3000000030003c00300030003000000030003c00300000003003c3c03003ff003000f0003000f00030003c003003c00030000000300030003000ff00300000003;
   0x3000000030003c00300030003000000030003c00300000003003c3c03003c3c030003c003000f00030000f003003c3c0300000003000000030003c00300000003;
   0x3000000030003c00300030003000000030003c00300000003003c3c03003c3c030003c003000f00030000f003003c3c0300000003000000030003c00300000003;
   0x3000000030003c0030000c003000000030003c00300000003003c3c03003c3c030000f003000f000300003c03003c3c0300000003000000030003c00300000003;
   0x3000000030003c0030000c003000000030003c00300000003003c3c03003c3c030000f003000f000300003c03003c3c0300000003000000030003c00300000003;
   0x3000000030003c0030000c003000000030003c00300000003003c3c03003c3c0300003c03000f000300003c03003c3c030003c003000000030003c00300000003;
   0x3000000030003c0030000c003000000030003c00300000003003c3c03003c3c0300003c03000f000300003c03003c3c030003c003000000030003c00300000003;
   0x3000000030003c00300000003000000030003c00300000003000ff003003ff003003ffc03000f0003003ffc03000ff0030003c003000000030003c00300000003;
   0x3000000030003c00300000003000000030003c00300000003000ff003003ff003003ffc03000f0003003ffc03000ff0030003c003000000030003c00300000003;
   0x3000000030000000300000003000000030003c00300000003000000030000000300000003000f0003000000030000000300000003000000030000000300000003;
   0x3000000030000000300000003000000030003c00300000003000000030000000300000003000f0003000000030000000300000003000000030000000300000003;
   0x3000000030000000300000003000000030000f00300000003000000030000000300000003000f0c03000000030000000300000003000000030000000303ffffc3;
   0x3000000030000000300000003000000030000f00300000003000000030000000300000003000f0c03000000030000000300000003000000030000000303ffffc3;
   0x30000000300000003000000030000000300000003000000030000000300000003000000030003f003000000030000000300000003000000030000000300000003;
   0x30000000300000003000000030000000300000003000000030000000300000003000000030003f003000000030000000300000003000000030000000300000003;
   0x3ffffffffffffffffffffffffffffffffffffffffffffffffffffffffffffffffffffffffffffffffffffffffffffffffffffffffffffffffffffffffffffffff;
   0x3ffffffffffffffffffffffffffffffffffffffffffffffffffffffffffffffffffffffffffffffffffffffffffffffffffffffffffffffffffffffffffffffff;
   0x30003c0030003c003000000030000c003000000030000000300000003000000030000000300000003000000030000000300000003000000030000000300000003;
   0x30003c0030003c003000000030000c003000000030000000300000003000000030000000300000003000000030000000300000003000000030000000300000003;
   0x3000c3003000c30030000000300030003000000030000000300000003000000030000000300000003000000030000000300000003000000030000000300000003;
   0x3000c3003000c30030000000300030003000000030000000300000003000000030000000300000003000000030000000300000003000000030000000300000003;
   0x3000c300300000003000000030000000300000003000000030030f0030030f003000c000300000003000fc0030000000300000003000000030000000300000003;
   0x3000c300300000003000000030000000300000003000000030030f0030030f003000c000300000003000fc0030000000300000003000000030000000300000003;
   0x30003c0030003c00300000003000ff003000fc003000c0003000f0c03000f0c030003000300003c030003c00300f03c0300000003000000030003fc0300000003;
   0x30003c0030003c00300000003000ff003000fc003000c0003000f0c03000f0c030003000300003c030003c00300f03c0300000003000000030003fc0300000003;
   0x3000000030003c003003fc003003c3c03003c30030003000300000003000000030003000300003c030003c003003c3c0300000003000000030000f00300030003;
   0x3000000030003c003003fc003003c3c03003c30030003000300000003000000030003000300003c030003c003003c3c0300000003000000030000f00300030003;
   0x3000000030003c00300c03003003c3c03003fc0030000c003000ff003000ff00300030003003c3c030003c003000f3c030003c00300030003003ff003000fc003;
   0x3000000030003c00300c03003003c3c03003fc0030000c003000ff003000ff00300030003003c3c030003c003000f3c030003c00300030003003ff003000fc003;
   0x3000000030003c00300000c03003c3c03003cf00300000003003c3c03003c0c0300030003000f3c030003c0030003fc030003c0030003000300f0f003003ff003;
   0x3000000030003c00300000c03003c3c03003cf00300000003003c3c03003c0c0300030003000f3c030003c0030003fc030003c0030003000300f0f003003ff003;
   0x3000000030003c003003fff03003ffc03003cf00300000003003c3c03003ff0030000c0030003fc030003c0030000fc0300000003003ff00300f0f00300fffc03;
   0x3000000030003c003003fff03003ffc03003cf00300000003003c3c03003ff0030000c0030003fc030003c0030000fc0300000003003ff00300f0f00300fffc03;
   0x3000000030003c00300000c03003c3c03003fc00300000003003c3c03003c3c03000300030000fc030003c0030003fc03000000030003000300f0f003003ff003;
   0x3000000030003c00300000c03003c3c03003fc00300000003003c3c03003c3c03000300030000fc030003c0030003fc03000000030003000300f0f003003ff003;
   0x3000000030003c003000fff03003c3c030000000300000003003c3c03003c3c03000300030003fc030003c003000f3c030000000300030003003ff003000fc003;
   0x3000000030003c003000fff03003c3c030000000300000003003c3c03003c3c03000300030003fc030003c003000f3c030000000300030003003ff003000fc003;
   0x3000000030003c00300c03003003c3c03003ff00300000003003c3c03003c3c0300030003000f3c030003c003003c3c030003c003000000030000f00300030003;
   0x3000000030003c00300c03003003c3c03003ff00300000003003c3c03003c3c0300030003000f3c030003c003003c3c030003c003000000030000f00300030003;
   0x3000000030003c003003fc003003c3c030000000300000003000ff003003ff00300030003003c3c030003c00300f03c030003c003000000030003fc0300000003;
   0x3000000030003c003003fc003003c3c030000000300000003000ff003003ff00300030003003c3c030003c00300f03c030003c003000000030003fc0300000003;
   0x30000000300000003000000030000000300000003000000030000000300000003000c000300000003000fc0030000000300030003000000030000000300000003;
   0x30000000300000003000000030000000300000003000000030000000300000003000c000300000003000fc0030000000300030003000000030000000300000003;
   0x30000000300000003000000030000000300000003000000030000000300000003000000030000000300000003000000030000c003000000030000000300000003;
   0x30000000300000003000000030000000300000003000000030000000300000003000000030000000300000003000000030000c003000000030000000300000003;
   0x300000003000000030000000300000003000000030000000300000003000000030000000300000003000000030000000300000003000000030000000300000003;
   0x300000003000000030000000300000003000000030000000300000003000000030000000300000003000000030000000300000003000000030000000300000003].
Definition bold_rows_6 : list N :=
  [0x3ffffffffffffffffffffffffffffffffffffffffffffffffffffffffffffffffffffffffffffffffffffffffffffffffffffffffffffffffffffffffffffffff;
   0x3ffffffffffffffffffffffffffffffffffffffffffffffffffffffffffffffffffffffffffffffffffffffffffffffffffffffffffffffffffffffffffffffff;
   0x30000000300000003000000030030f0030000000300000003000000030003c0030000000300000003000000030000000300000003000000030000000300000003;
   0x30000000300000003000000030030f0030000000300000003000000030003c0030000000300000003000000030000000300000003000000030000000300000003;
   0x300000003000c300300000003000f0c03000000030000000300000003000c30030000000300000003000000030000000300000003000000030000000300000003;
   0x300000003000c300300000003000f0c03000000030000000300000003000c30030000000300000003000000030000000300000003000000030000000300000003;
   0x300000003000000030000000300000003000000030000000300030003000c30030003000300000003000030030000000300000003000000030000000300000003;
   0x300000003000000030000000300000003000000030000000300030003000c30030003000300000003000030030000000300000003000000030000000300000003;
   0x3000000030003c00300000003000ff003000fc003000c30030000c0030003c003000300030003c003000030030000f00300000003000000030000fc0300000003;
   0x3000000030003c00300000003000ff003000fc003000c30030000c0030003c003000300030003c003000030030000f0030000000300000003001cfc0300000003;
   0x3000000030003c00300000003003c3c03003cf003000000030000000300000003000300030003c0030000c0030000f003000f000300000003000fc00303000003;
   0x3000000030003c00300000003003c3c03003cf003000000030000000300000003000300030003c0030000c0030000f003000f0003000000030003f00303000003;
   0x3000000030003c003000c0003003c3c03003cf00300000003003c3c03000ff003000300030003c0030000c0030000f0030003c00300000003000f380303c00003;
   0x3000000030003c003000c0003003c3c03003cf00300000003003c3c03000ff003000300030003c0030000c0030000f0030003c00300000003000f000303c00003;
   0x3000000030003c003000f0003003c3c03003cf00300000003003c3c03003c0c03000300030003c003000300030000f0030000f00300000003003fc00300f00003;
   0x3000000030003c003000f0003003c3c03003cf00300000003003c3c03003c0c03000300030003c003000300030000f0030000f00300000003003fc00300f00003;
   0x3000000030003c0030003c003003ffc03003cf00300000003003c3c03003ff003000300030003c003000300030000f00300003c0300000003003cf003003c0003;
   0x3000000030003c0030003c003003ffc03003cf00300000003003c3c03003ff003000300030003c003000300030000f00300003c0300000003003cf003003c0003;
   0x3000000030003c0030003c003003c3c03000fc00300000003003c3c03003c3c03000300030003c003000c00030000f0030000f00300000003003c3c03000f0303;
   0x3000000030003c0030003c003003c3c03000fc00300000003003c3c03003c3c03000300030003c003000c00030000f0030000f00300000003003c3c03000f0303;
   0x3000000030003c003000f0003003c3c030000000300000003003c3c03003c3c03000300030003c003000c00030000f0030003c00300000003003c3c030003cf03;
   0x3000000030003c003000f0003003c3c030000000300000003003c3c03003c3c03000300030003c003000c00030000f0030003c00300000003003c3c030003cf03;
   0x3000000030003c003000c0003003c3c03003ff00300000003003f3c03003c3c03000300030003c003003000030000f003000f00030003c003000c3c030000fc03;
   0x3000000030003c003000c0003003c3c03003ff00300000003003f3c03003c3c03000300030003c003003000030000f003000f00030003c003000c3c030000fc03;
   0x3000000030003c00300000003003c3c030000000300000003003cf003003ff003000300030003c00300300003003ff003000000030003c0030003f00300003003;
   0x3000000030003c00300000003003c3c030000000300000003003cf003003ff003000300030003c00300300003003ff003000000030003c0030003f00300003003;
   0x30003c003000000030000000300000003000000030000000300000003000000030003000300000003000000030000000300000003000300030000000300000003;
   0x30003c003000000030000000300000003000000030000000300000003000000030003000300000003000000030000000300000003000300030000000300000003;
   0x3000300030000000300000003000000030000000300000003000000030000000300000003000000030000000300000003000000030000c0030000000300000003;
   0x3000300030000000300000003000000030000000300000003000000030000000300000003000000030000000300000003000000030000c0030000000300000003;
   0x30000c003000000030000000300000003000000030000000300000003000000030000000300000003000000030000000300000003000000030000000300000003;
   0x30000c003000000030000000300000003000000030000000300000003000000030000000300000003000000030000000300000003000000030000000300000003;
   0x3ffffffffffffffffffffffffffffffffffffffffffffffffffffffffffffffffffffffffffffffffffffffffffffffffffffffffffffffffffffffffffffffff;
   0x3ffffffffffffffffffffffffffffffffffffffffffffffffffffffffffffffffffffffffffffffffffffffffffffffffffffffffffffffffffffffffffffffff;
   0x3000000030000c003000000030030f003000000030000000300000003000000030000000300000003000000030000000300000003000000030000000300000003;
   0x3000000030000c003000000030030f003000000030000000300000003000000030000000300000003000000030000000300000003000000030000000300000003;
   0x3000000030003000300000003000f0c03000000030000000300000003000000030000000300000003000000030000000300000003000000030000000300000003;
   0x3000000030003000300000003000f0c03000000030000000300000003000000030000000300000003000000030000000300000003000000030000000300000003;
   0x3000cc00300000003000000030000000300000003000000030000c003000000030000c00300000003000fc0030000000300000003000000030003000300000003;
   0x3000cc00300000003000000030000000300000003000000030000c003000000030000c00300000003000fc0030000000300000003000000030003000300000003;
   0x3000330030003c00300000003000ff003000ff0030000000300030003000000030003000300000003000f0003030000c300000003000000030000c003000c0003;
   0x3000330030003c00300000003000ff003000ff0030000000300030003000000030003000300000003000f0003030000c300000003000000030000c003001e0003;
   0x3000000030003c00300000003003c3c03003c3c030000000300000003000000030003000300000003000f000303c003c3000000030000000300000003003f0003;
   0x3000000030003c00300000003003c3c03003c3c030000000300000003000000030003000300000003000f000303c003c3000000030000000300000003007f8003;
   0x3000000030003c0030000c003003c3c0300f00f03000c0003003c3c03000ff0030003000300ffffc3000f000303f00fc30000000300000003003c3c0300ffc003;
   0x3000000030003c0030000c003003c3c0300f00f03000c0003003c3c03000ff0030003000300ffffc3000f000303f00fc30000000300000003003c3c0300ffc003;
   0x3000000030003c0030003c003003c3c0300f00f0300fffc03003c3c0300303c030003000303c3c3c3000f000303fc3fc3003ffc0300000003003c3c03000c0003;
   0x3000000030003c0030003c003003c3c0300f00f0300fffc03003c3c0300303c030003000303c3c3c3000f000303fc3fc3003ffc0300000003003c3c03000c0003;
   0x3000000030003c003000f0003003c3c0300f00f0300030003003c3c0300003c03000c000303c3c3c3000f000303cffcc300000003003ff003003c3c03000c0003;
   0x3000000030003c003000f0003003c3c0300f00f0300030003003c3c0300003c03000c000303c3c3c3000f000303cffcc300000003003ff003003c3c03000c0003;
   0x3000000030003c003000f0003003c3c0300300c0300fffc03003c3c0300003c030003000303c3c3c3000f000303c3f0c3003ffc0300000003003c3c03000c0003;
   0x3000000030003c003000f0003003c3c0300300c0300fffc03003c3c0300003c030003000303c3c3c3000f000303c3f0c3003ffc0300000003003c3c03000c0003;
   0x3000000030003c0030003c003003c3c03000c30030000c003003c3c0300003c030003000303c3c3c3000f000303c0c0c30000000300000003003c3c03000c0003;
   0x3000000030003c0030003c003003c3c03000c30030000c003003c3c0300003c030003000303c3c3c3000f000303c0c0c30000000300000003003c3c03000c0003;
   0x3000000030003c0030000c003003c3c03000c300300000003003f3c0300303c030003000303c3c3c3000f000303c000c30000000300000003003c3c03000c0003;
   0x3000000030003c0030000c003003c3c03000c300300000003003f3c0300303c030003000303c3c3c3000f000303c000c30000000300000003003c3c03000c0003;
   0x3000000030003c00300000003000ff003003c3c0300000003003cf003000ff0030003000303c3c3c3000f000303c000c30000000300000003003ff003000c0003;
   0x3000000030003c00300000003000ff003003c3c0300000003003cf003000ff0030003000303c3c3c3000f000303c000c30000000300000003003ff003000c0003;
   0x3000000030000000300000003000000030000000300000003000000030003c0030000c00300000003000fc003000000030000000300000003003c0003000c0003;
   0x3000000030000000300000003000000030000000300000003000000030003c0030000c00300000003000fc003000000030000000300000003003c0003000c0003;
   0x30000000300000003000000030000000300000003000000030000000300030003000000030000000300000003000000030000000300000003003c0c0300000003;
   0x30000000300000003000000030000000300000003000000030000000300030003000000030000000300000003000000030000000300000003003c0c0300000003;
   0x3000000030000000300000003000000030000000300000003000000030000c003000000030000000300000003000000030000000300000003000ff00300000003;
   0x3000000030000000300000003000000030000000300000003000000030000c003000000030000000300000003000000030000000300000003000ff00300000003].
Definition bold_rows_7 : list N :=
  [0x3ffffffffffffffffffffffffffffffffffffffffffffffffffffffffffffffffffffffffffffffffffffffffffffffffffffffffffffffffffffffffffffffff;
   0x3ffffffffffffffffffffffffffffffffffffffffffffffffffffffffffffffffffffffffffffffffffffffffffffffffffffffffffffffffffffffffffffffff;
   0x300000003000300030000000300000003000000030000000300000003000000030000000300000003000000030000000300000003000000030000000300000003;
   0x300000003000300030000000300000003000000030000000300000003000000030000000300000003000000030000000300000003000000030000000300000003;
   0x3000000030000c0030000000300000003000000030000000300000003000000030000000300000003000000030000000300000003000000030000000300000003;
   0x3000000030000c0030000000300000003000000030000000300000003000000030000000300000003000000030000000300000003000000030000000300000003;
   0x30000000300000003000000030000000300000003000000030003c003000300030000000300000003000000030000000300000003000000030000000300000003;
   0x30000000300000003000000030000000300000003000000030003c003000300030000000300000003000000030000000300000003000000030000000300000003;
   0x300000003000ff00300f3f00303fffc030000000303fffc03000c30030000c00300000003000000030003000300c00c03000000030000000300003c033ffff003;
   0x300000003000ff00300f3f00303fffc030000000303fffc03000c30030000c00300000003000000030003000300c00c03000000030000000300003c033ffff803;
   0x300000003003c3c0300003c03000f0f0300000003000f0f0300000003000000030000000300000003000cc00300c03c0300003c030000000300003c0330001c03;
   0x300000003003c3c0300003c03000f0f0300000003000f0f0300000003000000030000000300000003000cc00300c03c0300003c030000000300003c0330000e03;
   0x300000003003c3c0300ffff03000f0f0300ffff03000f0f03003c3c03000ff0030030f003000ffc030030300300c0fc030000f00300000003000ffc0331818703;
   0x300000003003c3c0300ffff03000f0f0300ffff03000f0f03003c3c03000ff0030030f003000ffc030030300300c0fc030000f00300000003000ffc0331c38383;
   0x300000003003c3c0300f03c03000f0f0303c3c0c3000f0f03003c3c03003c3c03000f0c03003c3c030000000300c3fc030003c00300000003003c3c0330e701c3;
   0x300000003003c3c0300f03c03000f0f0303c3c0c3000f0f03003c3c03003c3c03000f0c03003c3c030000000300c3fc030003c00300000003003c3c03307e00e3;
   0x300000003003c3c0300f03c0300ff0f0303c3ff0300ffff03003c3c03003c3c0300000003003c3c030000000300cfcc03000f000300000003003c3c03303c0073;
   0x300000003003c3c0300f03c0300ff0f0303c3ff0300ffff03003c3c03003c3c0300000003003c3c030000000300cfcc03000f000300000003003c3c03303c0073;
   0x300000003003c3c0300f03c03000f0f0303ffc3c3000f0f03003c3c03003ffc0300000003003c3c030000000300ff0c030003c00300000003003c3c03307e00e3;
   0x300000003003c3c0300f03c03000f0f0303ffc3c3000f0f03003c3c03003ffc0300000003003c3c030000000300ff0c030003c00300000003003c3c0330e701c3;
   0x300000003003c3c0300f03c03000f0f030003c3c3000f0f03003c3c0300003c0300000003003c3c030000000300fc0c030000f00300000003003c3c0331c38383;
   0x300000003003c3c0300f03c03000f0f030003c3c3000f0f03003c3c0300003c0300000003003c3c030000000300fc0c030000f00300000003003c3c0331818703;
   0x300000003003c3c0300f03c03000f0f030303c3c3000f0f03003f3c0300303c0300000003003c3c030000000300f00c0300003c030003c003003c3c0330000e03;
   0x300000003003c3c0300f03c03000f0f030303c3c3000f0f03003f3c0300303c0300000003003c3c030000000300f00c0300003c030003c003003c3c0330001c03;
   0x300000003000ff00300f03c0303fffc0300ffff0303ff0f03003cf003000ff00300000003003c3c030000000300c00c03000000030003c003000ffc033ffff803;
   0x300000003000ff00300f03c0303fffc0300ffff0303ff0f03003cf003000ff00300000003003c3c030000000300c00c03000000030003c003000ffc033ffff003;
   0x30003c0030000000300000003000000030000000300000003000000030000000300000003000000030000000300000003000000030000000300003c0300000003;
   0x30003c0030000000300000003000000030000000300000003000000030000000300000003000000030000000300000003000000030000000300003c0300000003;
   0x30000c0030000000300000003000000030000000300000003000000030000000300000003000000030000000300000003000000030000000300003c0300000003;
   0x30000c0030000000300000003000000030000000300000003000000030000000300000003000000030000000300000003000000030000000300003c0300000003;
   0x300030003000000030000000300000003000000030000000300000003000000030000000300000003000000030000000300000003000000030000000300000003;
   0x300030003000000030000000300000003000000030000000300000003000000030000000300000003000000030000000300000003000000030000000300000003;
   0x3ffffffffffffffffffffffffffffffffffffffffffffffffffffffffffffffffffffffffffffffffffffffffffffffffffffffffffffffffffffffffffffffff;
   0x3ffffffffffffffffffffffffffffffffffffffffffffffffffffffffffffffffffffffffffffffffffffffffffffffffffffffffffffffffffffffffffffffff;
   0x3000000030003c0030000000300000003000000030000000300000003000000030000000300000003000000030000000300000003000000030000000300000003;
   0x3000000030003c0030000000300000003000000030000000300000003000000030000000300000003000000030000000300000003000000030000000300000003;
   0x300000003000c30030000000300000003000000030000000300000003000000030000000300000003000000030000000300000003000000030000000300000003;
   0x300000003000c30030000000300000003000000030000000300000003000000030000000300000003000000030000000300000003000000030000000300000003;
   0x3000c30030000000300000003000000030000000300000003000000030000c0030003000300000003000000030000000300000003003000030000000300000003;
   0x3000c30030000000300000003000000030000000300000003000000030000c0030003000300000003000000030000000300000003003000030000000300000003;
   0x30003c003000ff00300fff0030000000300000003033fc003000c300300030003000300030000000300000003000ff003000ff003003000030000000300000003;
   0x30003c003000ff00300fff0030000000300000003033fc003000c300300030003000300030000000300000003000ff003000ff003003000030000000300000003;
   0x300000003003c3c0300f03c03000000030000000300f0f0030000000300000003000300030000000300000003003c3c03003c0c03000c00030040080330000003;
   0x300000003003c3c0300f03c03000000030000000300f0f0030000000300000003000300030000000300000003003c3c03003c0c03000c000300efdc0330000003;
   0x300000003003c3c0300f0ff0300ffff0300cff00300f0f003003c3c03000ff00300030003000ff00300000003003c3c03003c0003000c0003007ff80330000003;
   0x300000003003c3c0300f0ff0300ffff0300cff00300f0f003003c3c03000ff00300030003000ff00300000003003c3c03003c0003000c00030038700330000003;
   0x300000003003c3c0300f03c0303c3c3c3003c3c0300fcf003003c3c03003c3c0300030003003c3c0300000003003c3c03000f0003000300030070380330000c03;
   0x300000003003c3c0300f03c0303c3c3c3003c3c0300fcf003003c3c03003c3c0300030003003c3c0300000003003c3c03000f0003000300030060180330000e03;
   0x300000003003c3c0300f03c0303c3c3c3003c3c0300f3f003003c3c03003c3c0300000003003c3c0300000003003c3c030003c003000300030060180330000f03;
   0x300000003003c3c0300f03c0303c3c3c3003c3c0300f3f003003c3c03003c3c0300000003003c3c0300000003003c3c030003c003000300030060180330000f83;
   0x300000003003c3c0300f03c0303ffc3c3003f3c0300f0f003003c3c03003ffc0300030003003c3c0300000003003c3c030003c0030000c003006018033fffffc3;
   0x300000003003c3c0300f03c0303ffc3c3003f3c0300f0f003003c3c03003ffc0300030003003c3c0300000003003c3c030003c0030000c003007038033fffffc3;
   0x300000003003c3c0300f03c030003c3c3003cfc0300f0f003003c3c0300003c0300030003003c3c0300000003003c3c03000000030000c0030038700300000f83;
   0x300000003003c3c0300f03c030003c3c3003cfc0300f0f003003c3c0300003c0300030003003c3c0300000003003c3c03000000030000c003007ff80300000f03;
   0x300000003003c3c0300f03c030303c3c3003c3c0300f0fc03003f3c0300303c0300030003003c3c0300000003003c3c030003c0030000300300efdc0300000e03;
   0x300000003003c3c0300f03c030303c3c3003c3c0300f0fc03003f3c0300303c0300030003003c3c0300000003003c3c030003c003000030030040080300000c03;
   0x300000003000ff00300f03c0300ffff03000ff303003fc303003cf003000ff00300030003000ff00300ffff03000ff0030003c003000030030000000300000003;
   0x300000003000ff00300f03c0300ffff03000ff303003fc303003cf003000ff00300030003000ff00300ffff03000ff0030003c003000030030000000300000003;
   0x300000003000000030000000300000003000000030000000300000003000000030003000300000003000000030000000300000003000000030000000300000003;
   0x300000003000000030000000300000003000000030000000300000003000000030003000300000003000000030000000300000003000000030000000300000003;
   0x300000003000000030000000300000003000000030000000300000003000000030000000300000003000000030000000300000003000000030000000300000003;
   0x300000003000000030000000300000003000000030000000300000003000000030000000300000003000000030000000300000003000000030000000300000003;
   0x300000003000000030000000300000003000000030000000300000003000000030000000300000003000000030000000300000003000000030000000300000003;
   0x300000003000000030000000300000003000000030000000300000003000000030000000300000003000000030000000300000003000000030000000300000003].
Definition bold_rows_8 : list N :=
  [0x3ffffffffffffffffffffffffffffffffffffffffffffffffffffffffffffffffffffffffffffffffffffffffffffffffffffffffffffffffffffffffffffffff;
   0x3ffffffffffffffffffffffffffffffffffffffffffffffffffffffffffffffffffffffffffffffffffffffffffffffffffffffffffffffffffffffffffffffff].
(** codegen/src_data/bold.png: 514 columns, 514 rows *)
Definition bold_width : N := 514.
Definition bold_rows : list N :=
  concat [bold_rows_0; bold_rows_1; bold_rows_2; bold_rows_3; bold_rows_4; bold_rows_5;
    bold_rows_6; bold_rows_7; bold_rows_8].
