(** GENERATED by tools/gen_sheets.py -- do not edit.
    Pixels of a sprite sheet, one number for each row; bit x is set when the
    pixel in column x is black. *)
From Verif Require Import Prim.

Definition regular_rows_0 : list N :=
  [0x3ffffffffffffffffffffffffffffffffffffffffffffffffffffffffffffffffffffffffffffffffffffffffffffffffffffffffffffffffffffffffffffffff;
   0x3ffffffffffffffffffffffffffffffffffffffffffffffffffffffffffffffffffffffffffffffffffffffffffffffffffffffffffffffffffffffffffffffff;
   0x300000003000000030000000300000003000000030000000300000003000000030000000300000003000000030000000300000003000000030000000300000003;
   0x300000003000000030000000300000003000000030000000300000003000000030000000300000003000000030000000300000003000000030000000300000003;
   0x300000003000000030000000300000003000000030000000300000003000cc0030000000300000003000000030000000300000003000000030000000300000003;
   0x300000003000000030000000300000003000000030000000300000003000cc0030000000300000003000000030000000300000003000000030000000300000003;
   0x30000c003000000030000000300000003000000030000000300030003000000030000000300000003000000030000000300000003000000030000000300000003;
   0x30000c003000000030000000300000003000000030000000300030003000000030000000300000003000000030000000300000003000000030000000300000003;
   0x30003f00300030003000000030000c0030000000300030003000cc00300030003000000030000c003000ffc03000000030003c003000000030000000300000003;
   0x30003f00300030003000000030000c0030000000300030003000cc00300030003000000030000c003000ffc03000000030003c003000000030000000300000003;
   0x3000f3c0300030003000000030000000300000003000300030000000300030003000000030003000300300c03000ff003000c3003000000030000000300000003;
   0x3000f3c0300030003000000030000000300000003000300030000000300030003000000030003000300300c03000ff003000c3003000000030000000300000003;
   0x3003ccf03003ff003000000030000c00300000003003ff003000fc003000cc003000ff0030000000300300c0300300c0300300c03000000030000000300000003;
   0x3003ccf03003ff003000000030000c00300000003003ff003000fc003000cc003000ff0030000000300300c0300300c0300300c03000000030000000300000003;
   0x300fcffc300030003000000030000c00300f03c030003000300303003000cc003003030030000000300300c0300cfc30300300c03000000030000000303ffffe3;
   0x300fcffc300030003000000030000c00300f03c030003000300303003000cc003003030030000000300300c0300cfc30300300c03000000030000000304000013;
   0x300ff3fc3000300030000000300003003030cc3030003000300303003003030030030300300000003000ffc0300cc330300300c030000000300000003040000d3;
   0x300ff3fc3000300030000000300003003030cc3030003000300303003003030030030300300000003000ffc0300cc330300300c0300000003000000030c0000d3;
   0x3003fff0300030003000ff00300000c030303030300030003003ff00300303003003030030000000300000c0300cc330300300c0300000003000000030c0000d3;
   0x3003fff0300030003000ff00300000c030303030300030003003ff00300303003003030030000000300000c0300cc330300300c0300000003000000030c0000d3;
   0x3000f3c030003000300000003000c0c03030cc303000300030000300300fffc03003030030000000300000c03003fc30300300c0300000003000000030c0000d3;
   0x3000f3c030003000300000003000c0c03030cc303000300030000300300fffc03003030030000000300000c03003fc30300300c0300000003000000030c0000d3;
   0x30003f0030003000300000003000c0c0300f03c03000300030030300300c00c03003030030000000300000c0300000c03000c300300000003000000030c0000d3;
   0x30003f0030003000300000003000c0c0300f03c03000300030030300300c00c03003030030000000300000c0300000c03000c30030000000300000003040000d3;
   0x30000c003003ff003000000030003f0030000000300030003000fc00300c00c03000ff0030000000300000c030003f0030003c003000000030000000304000013;
   0x30000c003003ff003000000030003f0030000000300030003000fc00300c00c03000ff0030000000300000c030003f0030003c003000000030000000303ffffe3;
   0x300000003000300030000000300000003000000030000000300000003000000030000300300000003000000030000000300000003000000030000000300000003;
   0x300000003000300030000000300000003000000030000000300000003000000030000300300000003000000030000000300000003000000030000000300000003;
   0x300000003000300030000000300000003000000030000000300000003000000030000300300000003000000030000000300000003000000030000000300000003;
   0x300000003000300030000000300000003000000030000000300000003000000030000300300000003000000030000000300000003000000030000000300000003;
   0x300000003000000030000000300000003000000030000000300000003000000030000000300000003000000030000000300000003000000030000000300000003;
   0x300000003000000030000000300000003000000030000000300000003000000030000000300000003000000030000000300000003000000030000000300000003;
   0x3ffffffffffffffffffffffffffffffffffffffffffffffffffffffffffffffffffffffffffffffffffffffffffffffffffffffffffffffffffffffffffffffff;
   0x3ffffffffffffffffffffffffffffffffffffffffffffffffffffffffffffffffffffffffffffffffffffffffffffffffffffffffffffffffffffffffffffffff;
   0x30000c003000000030000000300000003000000030000000300000003000000030000000300000003000000030000000300000003000000030000000300000003;
   0x30000c003000000030000000300000003000000030000000300000003000000030000000300000003000000030000000300000003000000030000000300000003;
   0x300030003000000030000000300000003000000030000000300000003000300030000000300000003000000030000000300000003000000030000000300000003;
   0x300030003000000030000000300000003000000030000000300000003000300030000000300000003000000030000000300000003000000030000000300000003;
   0x300000003000000030000000300000003000000030000000300000003000cc0030000000300000003000000030000000300000003000000030000000300000003;
   0x300000003000000030000000300000003000000030000000300000003000cc0030000000300000003000000030000000300000003000000030000000300000003;
   0x3000ff003000000030000000300030003000000030003c003000cc003000300030000000300000003000ff0030003000300030003000300030000000300000003;
   0x3000ff003000000030000000300030003000000030003c003000cc003000300030000000300000003000ff0030003000300030003000300030000000300000003;
   0x300300c0300000003000000030000000300000003000c30030000000300030003000000030000000300300c03000300030003c003000300030000000300000003;
   0x300300c0300000003000000030000000300000003000c30030000000300030003000000030000000300300c03000300030003c003000300030000000300000003;
   0x300300c0300000003000000030003000300030003000c3003000fc003000cc003003fc003000fc00300300c03000cc00300030003000300030000000300000003;
   0x300300c0300000003000000030003000300030003000c3003000fc003000cc003003fc003000fc00300300c03000cc00300030003000300030000000300000003;
   0x300300c03000000030000000300030003000300030003c00300303003000cc003003030030030300300300c03000cc00300030003000300030000000303ffffe3;
   0x300300c03000000030000000300030003000300030003c00300303003000cc003003030030030300300300c03000cc00300030003000300030000000304000013;
   0x300300c03000000030000000300030003003ff003000000030030300300303003003030030030000300300c0300303003000300030003000300000003040007d3;
   0x300300c03000000030000000300030003003ff003000000030030300300303003003030030030000300300c03003030030003000300030003000000030c0007d3;
   0x300300c030003000300fffc03000300030003000300000003003ff0030030300300303003003fc00300300c03003030030003000300030003000000030c0007d3;
   0x300300c030003000300fffc03000300030003000300000003003ff0030030300300303003003fc00300300c03003030030003000300030003000000030c0007d3;
   0x300300c0300000003000000030003000300030003000000030000300300fffc03003030030030300300300c0300fffc030003000300030003000000030c0007d3;
   0x300300c0300000003000000030003000300030003000000030000300300fffc03003030030030300300300c0300fffc030003000300030003000000030c0007d3;
   0x300300c0300000003000000030003000300000003000000030030300300c00c03003030030030300300300c0300c00c030003000300000003000000030c0007d3;
   0x300300c0300000003000000030003000300000003000000030030300300c00c03003030030030300300300c0300c00c03000300030000000300000003040007d3;
   0x3000ff003000000030000000300030003003ff00300000003000fc00300c00c03003fc003003fc003000ff00300c00c0300030003000300030000000304000013;
   0x3000ff003000000030000000300030003003ff00300000003000fc00300c00c03003fc003003fc003000ff00300c00c0300030003000300030000000303ffffe3;
   0x300000003000000030000000300000003000000030000000300000003000000030030000300000003000300030000000300000003000000030000000300000003;
   0x300000003000000030000000300000003000000030000000300000003000000030030000300000003000300030000000300000003000000030000000300000003;
   0x300000003000000030000000300000003000000030000000300000003000000030030000300000003003c00030000000300000003000000030000000300000003;
   0x300000003000000030000000300000003000000030000000300000003000000030030000300000003003c00030000000300000003000000030000000300000003;
   0x300000003000000030000000300000003000000030000000300000003000000030000000300000003000000030000000300000003000000030000000300000003;
   0x300000003000000030000000300000003000000030000000300000003000000030000000300000003000000030000000300000003000000030000000300000003].
Definition regular_rows_1 : list N :=
  [0x3ffffffffffffffffffffffffffffffffffffffffffffffffffffffffffffffffffffffffffffffffffffffffffffffffffffffffffffffffffffffffffffffff;
   0x3ffffffffffffffffffffffffffffffffffffffffffffffffffffffffffffffffffffffffffffffffffffffffffffffffffffffffffffffffffffffffffffffff;
   0x300030003000000030000000300000003000000030000000300000003000000030000000300000003000000030000000300000003000000030000000300000003;
   0x300030003000000030000000300000003000000030000000300000003000000030000000300000003000000030000000300000003000000030000000300000003;
   0x30000c003000000030000000300000003000000030000000300000003000000030000000300000003000000030000000300000003000000030003000300000003;
   0x30000c003000000030000000300000003000000030000000300000003000000030000000300000003000000030000000300000003000000030003000300000003;
   0x300000003000000030030c003000000030000000300000003000c0003000000030000000300000003000000030000000300000003000000030003c00300000003;
   0x300000003000000030030c003000000030000000300000003000c0003000000030000000300000003000000030000000300000003000000030003c00300000003;
   0x300300c0300000003000c300300000003000000030000000300030003000ff0030000000300003003000ffc03000ffc03000fc003000cc0030003000300000003;
   0x300300c0300000003000c300300000003000000030000000300030003000ff0030000000300003003000ffc03000ffc03000fc003000cc0030003000300000003;
   0x300300c0300000003000c30030000000300000003000300030000000300300c03000000030000300300300c0300300c0300303003000cc0030003000300000003;
   0x300300c0300000003000c30030000000300000003000300030000000300300c03000000030000300300300c0300300c0300303003000cc0030003000300000003;
   0x300300c0300000003000000030000000300030003000fc0030003000300000c03003f3003000ff00300300c0300300c0300300c0300000003000fc00300000003;
   0x300300c0300000003000000030000000300030003000fc0030003000300000c03003f3003000ff00300300c0300300c0300300c0300000003000fc00300000003;
   0x300300c030000000300000003000000030000c003003330030003000300000c030000f0030030300300300c03000ffc0300300003000000030000000303ffffe3;
   0x300300c030000000300000003000000030000c003003330030003000300000c030000f0030030300300300c03000ffc0300300003000000030000000304000013;
   0x300300c030000000300000003003ff00300003003000330030003000300000c030000300300303003000ffc0300300c03000c000300000003000000030400ffd3;
   0x300300c030000000300000003003ff00300003003000330030003000300000c030000300300303003000ffc0300300c03000c000300000003000000030c00ffd3;
   0x300300c030000000300000003003000030000c003000330030003000300000c03000030030030300300030c0300300c030003000300000003000000030c00ffd3;
   0x300300c030000000300000003003000030000c003000330030003000300000c03000030030030300300030c0300300c030003000300000003000000030c00ffd3;
   0x300300c0300000003000000030030000300030003000330030003000300000c030000300300303003000c0c0300300c030000c00300000003000000030c00ffd3;
   0x300300c0300000003000000030030000300030003000330030003000300000c030000300300303003000c0c0300300c030000c00300000003000000030c00ffd3;
   0x300300c0300000003000000030000000300000003003330030003000300300c03000030030030300300300c0300300c030000300300000003000000030c00ffd3;
   0x300300c0300000003000000030000000300000003003330030003000300300c03000030030030300300300c0300300c030000300300000003000000030400ffd3;
   0x3000ff003000300030000000300000003000ff003000fc00300030003000ff00300003003000ff00300300c03000ffc03003ffc03000000030000000304000013;
   0x3000ff003000300030000000300000003000ff003000fc00300030003000ff00300003003000ff00300300c03000ffc03003ffc03000000030000000303ffffe3;
   0x300000003000300030000000300000003000000030003000300000003000300030000000300000003000000030000000300000003000000030000000300000003;
   0x300000003000300030000000300000003000000030003000300000003000300030000000300000003000000030000000300000003000000030000000300000003;
   0x3000000030000c0030000000300000003000000030000000300000003000c00030000000300000003000000030000000300000003000000030000000300000003;
   0x3000000030000c0030000000300000003000000030000000300000003000c00030000000300000003000000030000000300000003000000030000000300000003;
   0x300000003000000030000000300000003000000030000000300000003000300030000000300000003000000030000000300000003000000030000000300000003;
   0x300000003000000030000000300000003000000030000000300000003000300030000000300000003000000030000000300000003000000030000000300000003;
   0x3ffffffffffffffffffffffffffffffffffffffffffffffffffffffffffffffffffffffffffffffffffffffffffffffffffffffffffffffffffffffffffffffff;
   0x3ffffffffffffffffffffffffffffffffffffffffffffffffffffffffffffffffffffffffffffffffffffffffffffffffffffffffffffffffffffffffffffffff;
   0x30000c003000000030000000300000003000000030000000300000003000c00030000000300000003000000030000000300000003000000030000000300000003;
   0x30000c003000000030000000300000003000000030000000300000003000c00030000000300000003000000030000000300000003000000030000000300000003;
   0x30003300300000003000000030000000300000003000000030000000300030003000000030000000300000003000000030000000300000003000fc00300000003;
   0x30003300300000003000000030000000300000003000000030000000300030003000000030000000300000003000000030000000300000003000fc00300000003;
   0x300000003000000030030c00300f0000300000003000000030000c00300000003000000030000000300000003000000030000000300000003000c000300000003;
   0x300000003000000030030c00300f0000300000003000000030000c00300000003000000030000000300000003000000030000000300000003000c000300000003;
   0x300300c03000000030030c0030030000300000003000f000300030003003ff0030000000300000003000ff003000ff003003ffc0300330003000fc00300000003;
   0x300300c03000000030030c0030030000300000003000f000300030003003ff0030000000300000003000ff003000ff003003ffc0300330003000fc00300000003;
   0x300300c0300000003000c3003000c0003000000030000c0030000000300003003000000030000000300300c0300300c03000c000300fff0030000c00300000003;
   0x300300c0300000003000c3003000c0003000000030000c0030000000300003003000000030000000300300c0300300c03000c000300fff0030000c00300000003;
   0x300300c030000000300000003000c00030000c0030000c0030003000300003003000fc003000fc00300000c0300000c0300030003000cc003000fc00300000003;
   0x300300c030000000300000003000c00030000c0030000c0030003000300003003000fc003000fc00300000c0300000c0300030003000cc003000fc00300000003;
   0x300300c03000000030000000300030003000300030000c0030003000300003003003030030030300300000c0300000c030003c003003ffc030000000303ffffe3;
   0x300300c03000000030000000300030003000300030000c0030003000300003003003030030030300300000c0300000c030003c003003ffc030000000304000013;
   0x300300c03000000030000000300030003000c00030003fc0300030003000ff0030000300300003003000ff00300000c03000c00030003300300000003041fffd3;
   0x300300c03000000030000000300030003000c00030003fc0300030003000ff0030000300300003003000ff00300000c03000c000300033003000000030c1fffd3;
   0x300300c0300000003000000030000c30300030003000030030003000300003003000fc003000030030030000300000c030030000300000003000000030c1fffd3;
   0x300300c0300000003000000030000c30300030003000030030003000300003003000fc003000030030030000300000c030030000300000003000000030c1fffd3;
   0x300300c0300000003000000030000cc030000c00300003003000300030000300300300003000030030030000300000c030030000300000003000000030c1fffd3;
   0x300300c0300000003000000030000cc030000c00300003003000300030000300300300003000030030030000300000c030030000300000003000000030c1fffd3;
   0x300300c0300000003000000030000300300000003000030030003000300003003003030030030300300300c0300300c03000c0c0300000003000000030c1fffd3;
   0x300300c0300000003000000030000300300000003000030030003000300003003003030030030300300300c0300300c03000c0c030000000300000003041fffd3;
   0x3000ff0030030c0030000000300003003000ff003003ffc0300030003003ff003000fc003000fc003000ff003000ff0030003f003000000030000000304000013;
   0x3000ff0030030c0030000000300003003000ff003003ffc0300030003003ff003000fc003000fc003000ff003000ff0030003f003000000030000000303ffffe3;
   0x3000000030030c0030000000300000003000000030000000300000003000000030000000300000003000000030000000300000003000000030000000300000003;
   0x3000000030030c0030000000300000003000000030000000300000003000000030000000300000003000000030000000300000003000000030000000300000003;
   0x300000003000c30030000000300000003000000030000000300000003000000030000000300000003000000030000000300000003000000030000000300000003;
   0x300000003000c30030000000300000003000000030000000300000003000000030000000300000003000000030000000300000003000000030000000300000003;
   0x300000003000000030000000300000003000000030000000300000003000000030000000300000003000000030000000300000003000000030000000300000003;
   0x300000003000000030000000300000003000000030000000300000003000000030000000300000003000000030000000300000003000000030000000300000003].
Definition regular_rows_2 : list N :=
  [0x3ffffffffffffffffffffffffffffffffffffffffffffffffffffffffffffffffffffffffffffffffffffffffffffffffffffffffffffffffffffffffffffffff;
   0x3ffffffffffffffffffffffffffffffffffffffffffffffffffffffffffffffffffffffffffffffffffffffffffffffffffffffffffffffffffffffffffffffff;
   0x30000c0030000000300000003000000030000000300000003000000030030f0030000000300000003000000030000000300000003000000030000000300000003;
   0x30000c0030000000300000003000000030000000300000003000000030030f0030000000300000003000000030000000300000003000000030000000300000003;
   0x300030003000000030000000300000003000000030000000300000003000f0c03000000030000000300000003000000030000000300000003000fc00300000003;
   0x300030003000000030000000300000003000000030000000300000003000f0c03000000030000000300000003000000030000000300000003000fc00300000003;
   0x30000000300000003000300030000000300000003000000030003000300000003000000030000000300000003000000030000000300030003000c000300000003;
   0x30000000300000003000300030000000300000003000000030003000300000003000000030000000300000003000000030000000300030003000c000300000003;
   0x300300c03000300f30000c003000c000300303003000ff003000cc00300303c030000c00300300003003fff030003fc0300300003000fc003000fc00300000003;
   0x300300c03000300f30000c003000c000300303003000ff003000cc00300303c030000c00300300003003fff030003fc0300300003000fc003000fc00300000003;
   0x300300c030000c30f0000c00300030003000cc00300300c030000000300303c030000c003003000030000c003000c0c03003c000300333003000c000300000003;
   0x300300c030000c30f0000c00300030003000cc00300300c030000000300303c030000c003003000030000c003000c0c03003c000300333003000c000300000003;
   0x300300c030000330f0000000300030003003ff00300000c03000300030030cc030003f003003fc0030000c00300300c030033000300033003000fc00300000003;
   0x300300c030000330f0000000300030003003ff00300000c03000300030030cc030003f003003fc0030000c00300300c030033000300033003000fc00300000003;
   0x300300c030000330f00000003000fc003000300030000f003000300030030cc030000c003003030030000c00300300c030030c0030003c0030000000303ffffe3;
   0x300300c030000330f00000003000fc003000300030000f003000300030030cc030000c003003030030000c00300300c030030c0030003c0030000000304000013;
   0x300300c030f03ccf30000000300030003003ff003000f0c030003000300330c030000c003003030030000c00300300c0300303003000f00030000000305ffffd3;
   0x300300c030f03ccf30000000300030003003ff003000f0c030003000300330c030000c003003030030000c00300300c0300303003000f0003000000030dffffd3;
   0x300300c0330cc330300000003000300030003000300300c030003000300330c030000c003003030030000c00300300c0300300c0300330003000000030dffffd3;
   0x300300c0330cc330300000003000300030003000300300c030003000300330c030000c003003030030000c00300300c0300300c0300330003000000030dffffd3;
   0x300300c0330cc33030000000300030003000300030030f00300030003003c0c030000c003003030030000c00300300c0300fffc0300330003000000030dffffd3;
   0x300300c0330cc33030000000300030003000300030030f00300030003003c0c030000c003003030030000c00300300c0300fffc0300330003000000030dffffd3;
   0x300300c0330cc30c3000000030003000300030003000f000300030003003c0c030000c003003030030000c003000c0c030030000300333003000000030dffffd3;
   0x300300c0330cc30c3000000030003000300030003000f000300030003003c0c030000c003003030030000c003000c0c0300300003003330030000000305ffffd3;
   0x3000ff0030f03c033000000030003000300030003003000030003000300300c03000f0003003fc0030000c0030003fc0300300003000fc0030000000304000013;
   0x3000ff0030f03c033000000030003000300030003003000030003000300300c03000f0003003fc0030000c0030003fc0300300003000fc0030000000303ffffe3;
   0x3000000030000000300000003000300030000000300300c0300000003000000030000000300000003000000030000000300000003000300030000000300000003;
   0x3000000030000000300000003000300030000000300300c0300000003000000030000000300000003000000030000000300000003000300030000000300000003;
   0x30000000300000003000000030003000300000003000ff00300000003000000030000000300000003000000030000000300000003000000030000000300000003;
   0x30000000300000003000000030003000300000003000ff00300000003000000030000000300000003000000030000000300000003000000030000000300000003;
   0x30000000300000003000000030000c003000000030000000300000003000000030000000300000003000000030000000300000003000000030000000300000003;
   0x30000000300000003000000030000c003000000030000000300000003000000030000000300000003000000030000000300000003000000030000000300000003;
   0x3ffffffffffffffffffffffffffffffffffffffffffffffffffffffffffffffffffffffffffffffffffffffffffffffffffffffffffffffffffffffffffffffff;
   0x3ffffffffffffffffffffffffffffffffffffffffffffffffffffffffffffffffffffffffffffffffffffffffffffffffffffffffffffffffffffffffffffffff;
   0x300000003000300030000000300000003000000030000000300000003000000030000000300000003000000030000000300000003000000030000000300000003;
   0x300000003000300030000000300000003000000030000000300000003000000030000000300000003000000030000000300000003000000030000000300000003;
   0x300000003000cc0030000000300000003000000030000000300000003000c300300000003000000030000000300000003000000030000000300300c0300000003;
   0x300000003000cc0030000000300000003000000030000000300000003000c300300000003000000030000000300000003000000030000000300300c0300000003;
   0x3000000030000000300030003000000030000000300000003000000030000000300000003000000030000000300000003000000030000000300300f0300000003;
   0x3000000030000000300030003000000030000000300000003000000030000000300000003000000030000000300000003000000030000000300300f0300000003;
   0x3000000030003000300030003000000030000000300000003000cc003000ff003000000030000000300300c03003ff003003ffc0300fff003000c0c0300000003;
   0x3000000030003000300030003000000030000000300000003000cc003000ff003000000030000000300300c03003ff003003ffc0300fff003000c0c030007c003;
   0x300000003000300030000c0030000000300000003000000030000000300300c03000000030000000300300c030000300300000c0300c30c03000c0c03001ff003;
   0x300000003000300030000c0030000000300000003000000030000000300300c03000000030000000300300c030000300300000c0300c30c03000c0c03007c7c03;
   0x300030003000cc003000000030000000300c0c003000ff0030003000300300c0300303003000fc00300300c030000300300000c0300330c0300033f0300f01e03;
   0x300030003000cc003000000030000000300c0c003000ff0030003000300300c0300303003000fc00300300c030000300300000c0300330c0300033f0301c00703;
   0x300030003000cc003000000030030f00300c0c003003ffc030003000300300c03003030030030300300300c0300003003000ffc03000cf003033300030387c383;
   0x300030003000cc003000000030030f00300c0c003003ffc030003000300300c03003030030030300300300c0300003003000ffc03000cf00303330003071ff1c3;
   0x3000300030030300300000003000f0c0300303003003ffc030003000300300c03003030030030300300300c03000ff00300300003000300030330c003023c7883;
   0x3000300030030300300000003000f0c0300303003003ffc030003000300300c03003030030030300300300c03000ff00300300003000300030330c00300701c03;
   0x30003000300303003000000030000000300303003003ffc030003000300300c0300303003003ff00300300c030000300300300003003cc00303f0c00300e10e03;
   0x30003000300303003000000030000000300303003003ffc030003000300300c0300303003003ff00300300c030000300300300003003cc00303f0c0030047c403;
   0x30003000300fffc03000000030030f00300303003003ffc030003000300300c03003030030000300300300c03000030030030000300c3300303003003000fe003;
   0x30003000300fffc03000000030030f00300303003003ffc030003000300300c03003030030000300300300c03000030030030000300c3300303003003001c7003;
   0x30003000300c00c0300000003000f0c03000c0c03000ff0030003000300300c03003c30030030300300300c030000300300300c0300c30c030300300300082003;
   0x30003000300c00c0300000003000f0c03000c0c03000ff0030003000300300c03003c30030030300300300c030000300300300c0300c30c030300300300010003;
   0x30003000300c00c0300000003000000030033fc030000000300030003000ff0030033c003000fc003000ff003003ff003000ff003003c0c030000000300038003;
   0x30003000300c00c0300000003000000030033fc030000000300030003000ff0030033c003000fc003000ff003003ff003000ff003003c0c030000000300010003;
   0x300000003000000030000000300000003000003030000000300000003000000030000000300000003000000030000000300000003000000030000000300000003;
   0x300000003000000030000000300000003000003030000000300000003000000030000000300000003000000030000000300000003000000030000000300000003;
   0x300000003000000030000000300000003000003030000000300000003000000030000000300000003000000030000000300000003000000030000000300000003;
   0x300000003000000030000000300000003000003030000000300000003000000030000000300000003000000030000000300000003000000030000000300000003;
   0x300000003000000030000000300000003000000030000000300000003000000030000000300000003000000030000000300000003000000030000000300000003;
   0x300000003000000030000000300000003000000030000000300000003000000030000000300000003000000030000000300000003000000030000000300000003].
Definition regular_rows_3 : list N :=
  [0x3ffffffffffffffffffffffffffffffffffffffffffffffffffffffffffffffffffffffffffffffffffffffffffffffffffffffffffffffffffffffffffffffff;
   0x3ffffffffffffffffffffffffffffffffffffffffffffffffffffffffffffffffffffffffffffffffffffffffffffffffffffffffffffffffffffffffffffffff;
   0x300000003000300030000000300000003000000030000000300000003000000030000000300000003000000030000000300000003000000030000000300000003;
   0x300000003000300030000000300000003000000030000000300000003000000030000000300000003000000030000000300000003000000030000000300000003;
   0x300000003000cc0030000000300000003000000030000000300000003000c300300000003000000030000000300000003000000030000000300300c0300000003;
   0x300000003000cc0030000000300000003000000030000000300000003000c300300000003000000030000000300000003000000030000000300300c0300000003;
   0x30003000300000003000000030000000300000003000000030033c0030000000300000003000000030000000300000003000000030000000300300f0300000003;
   0x30003000300000003000000030000000300000003000000030033c0030000000300000003000000030000000300000003000000030000000300300f0300000003;
   0x3000cc003003ff0030000000300000003000f000300fff003000f300300300c0300000003000f000300c00c03003ff003000fc0030000f003000c0c0300000003;
   0x3000cc003003ff0030000000300000003000f000300fff003000f300300300c0300000003000f000300c00c03003ff003000fc0030000f003000c0c0300000003;
   0x300000003000030030000000300030003003000030033fc030000000300300c03000000030000c00300c00c03000030030000300300030c03000c0c0300000003;
   0x300000003000030030000000300030003003000030033fc030000000300300c03000000030000c00300c00c03000030030000300300030c03000c0c0300000003;
   0x300000003000030030003000300030003003f00030033fc03000f300300300c03003030030003f00300c00c030000300300000c030000cc0300033f0300000003;
   0x300000003000030030003000300030003003f00030033fc03000f300300300c03003030030003f00300c00c030000300300000c030000cc0300033f0300000003;
   0x3000000030000300300000003000cc0030030c0030033fc030030f00300300c03003030030000c0030030300300003003000ffc030000300303f300030007c003;
   0x3000000030000300300000003000cc0030030c0030033fc030030f00300300c03003030030000c0030030300300003003000ffc030000300303f30003001ff003;
   0x300000003000ff003003ff003000cc003003030030033f0030030300300300c03003030030000c00300303003000ff00300300c030000cc030300c003003c7803;
   0x300000003000ff003003ff003000cc003003030030033f0030030300300300c03003030030000c00300303003000ff00300300c030000cc030300c00300701c03;
   0x30000000300003003000000030030300300303003003300030030300300300c03000cc0030000c003000cc0030000300300300c030033030303f0c00300e10e03;
   0x30000000300003003000000030030300300303003003300030030300300300c03000cc0030000c003000cc0030000300300300c030033030303f0c0030047c403;
   0x30000000300003003000300030030300300303003003300030030300300300c03000cc0030000c003000cc0030000300300300c03000c030300303003000fe003;
   0x30000000300003003000300030030300300303003003300030030300300300c03000cc0030000c003000cc0030000300300300c03000c030300303003001c7003;
   0x300000003000030030000000300c00c03000c3003003300030030300300300c03000300030000c003000300030000300300300c030033030303f0300300082003;
   0x300000003000030030000000300c00c03000c3003003300030030300300300c03000300030000c003000300030000300300300c030033030303f0300300010003;
   0x300000003003ff0030000000300fffc030003c0030033000300303003000ff003000300030000c0030003000300003003000ff00300c0fc030000000300038003;
   0x300000003003ff0030000000300fffc030003c0030033000300303003000ff003000300030000c0030003000300003003000ff00300c0fc030000000300010003;
   0x300000003000000030000000300000003000000030033000300000003000000030000000300000003000000030000000300000003000000030000000300000003;
   0x300000003000000030000000300000003000000030033000300000003000000030000000300000003000000030000000300000003000000030000000300000003;
   0x300000003000000030000000300000003000000030033000300000003000000030000000300000003000000030000000300000003000000030000000300000003;
   0x300000003000000030000000300000003000000030033000300000003000000030000000300000003000000030000000300000003000000030000000300000003;
   0x300000003000000030000000300000003000000030000000300000003000000030000000300000003000000030000000300000003000000030000000300000003;
   0x300000003000000030000000300000003000000030000000300000003000000030000000300000003000000030000000300000003000000030000000300000003;
   0x3ffffffffffffffffffffffffffffffffffffffffffffffffffffffffffffffffffffffffffffffffffffffffffffffffffffffffffffffffffffffffffffffff;
   0x3ffffffffffffffffffffffffffffffffffffffffffffffffffffffffffffffffffffffffffffffffffffffffffffffffffffffffffffffffffffffffffffffff;
   0x300000003000c00030000000300000003000000030000000300000003000000030000000300000003000000030000000300000003000000030000000300000003;
   0x300000003000c00030000000300000003000000030000000300000003000000030000000300000003000000030000000300000003000000030000000300000003;
   0x3000000030003000300000003000000030000000300000003000000030000000300000003000000030000000300000003000000030000000300303f0300000003;
   0x3000000030003000300000003000000030000000300000003000000030000000300000003000000030000000300000003000000030000000300303f0300000003;
   0x30033c0030000000300000003000000030003000300000003000c0003000300030000000300000003000000030000000300000003000000030030300300000003;
   0x30033c0030000000300000003000000030003000300000003000c0003000300030000000300000003000000030000000300000003000000030030300300000003;
   0x3000f300300030003000000030000000300030003000fc003000300030000c003000000030000000303000303000ff003003ffc0300030003000c3f0300000003;
   0x3000f300300030003000000030000000300030003000fc003000300030000c003000000030000000303000303000ff003003ffc0300030003000c3f0300000003;
   0x300000003000300030003000300000003000c000300303003000000030000000300000003000000030300030300300c030030000300030003000c300300000003;
   0x300000003000300030003000300000003000c000300303003000000030000000300000003000000030300030300300c030030000300030003000c300300000003;
   0x300000003000cc003000cc0030000000300000003000c3003000fc003000fc00303030303003fc0030303030300000c03000c00030000000300033f0300000003;
   0x300000003000cc003000cc0030000000300000003000c3003000fc003000fc00303030303003fc0030303030300000c03000c00030000000300033f0300000003;
   0x300000003000cc003003030030000000300000003000330030030300300303003030303030030300300c30c0300000c03000c0003000000030333000300000003;
   0x300000003000cc003003030030000000300000003000330030030300300303003030303030030300300c30c0300000c03000c0003000000030333000300000003;
   0x3000000030030300300c00c030030c003000000030003300300303003003fc00300cccc030030300300cccc03003f0c0300030003000000030330c00300000003;
   0x3000000030030300300c00c030030c003000000030003300300303003003fc00300cccc030030300300cccc03003f0c0300030003000000030330c00300000003;
   0x3000000030030300300c00c03000c300300000003003c3003003030030030300300cccc030030300300cccc0300300c03000300030000000303f0c00300010003;
   0x3000000030030300300c00c03000c300300000003003c3003003030030030300300cccc030030300300cccc0300300c03000300030000000303f0c0030007c003;
   0x30000000300fffc030030300300030c030000000300c03003003030030030300300303003003030030030300300300c030000c0030000000303003003000fe003;
   0x30000000300fffc030030300300030c030000000300c03003003030030030300300303003003030030030300300300c030000c0030000000303003003001c7003;
   0x30000000300c00c03000cc003000c30030000000300c03003003030030030300300303003003030030030300300300c030000c003000000030300300300082003;
   0x30000000300c00c03000cc003000c30030000000300c03003003030030030300300303003003030030030300300300c030000c003000000030300300300010003;
   0x30000000300c00c03000300030030c00300000003003f3003000fc003003fc00300303003003fc00300303003000ff0030000c003000000030000000300038003;
   0x30000000300c00c03000300030030c00300000003003f3003000fc003003fc00300303003003fc00300303003000ff0030000c003000000030000000300010003;
   0x300000003000000030000000300000003000000030000000300000003000000030000000300300003000000030000000300000003000000030000000300000003;
   0x300000003000000030000000300000003000000030000000300000003000000030000000300300003000000030000000300000003000000030000000300000003;
   0x300000003000000030000000300000003000000030000000300000003000000030000000300303003000000030000000300000003000000030000000300000003;
   0x300000003000000030000000300000003000000030000000300000003000000030000000300303003000000030000000300000003000000030000000300000003;
   0x3000000030000000300000003000000030000000300000003000000030000000300000003000fc003000000030000000300000003000000030000000300000003;
   0x3000000030000000300000003000000030000000300000003000000030000000300000003000fc003000000030000000300000003000000030000000300000003].
Definition regular_rows_4 : list N :=
  [0x3ffffffffffffffffffffffffffffffffffffffffffffffffffffffffffffffffffffffffffffffffffffffffffffffffffffffffffffffffffffffffffffffff;
   0x3ffffffffffffffffffffffffffffffffffffffffffffffffffffffffffffffffffffffffffffffffffffffffffffffffffffffffffffffffffffffffffffffff;
   0x300000003000000030000000300000003000000030000000300000003000000030000000300000003000000030000000300000003000000030000000300000003;
   0x300000003000000030000000300000003000000030000000300000003000000030000000300000003000000030000000300000003000000030000000300000003;
   0x300000003000cc0030000000300000003000000030000000300000003000000030000000300000003000000030000000300000003000000030000000300000003;
   0x300000003000cc0030000000300000003000000030000000300000003000000030000000300000003000000030000000300000003000000030000000300000003;
   0x300000003000000030000000300000003000c3003000000030000c003000300030000000300000003000000030000000300000003000c00030000000300000003;
   0x300000003000000030000000300000003000c3003000000030000c003000300030000000300000003000000030000000300000003000c00030000000300000003;
   0x3000fc003003ff0030003300300000003000c30030000000300030003000c000300000003000030030030300300300c03000ff003000300030003fc0300000003;
   0x3000fc003003ff0030003300300000003000c30030000000300030003000c000300000003000030030030300300300c03000ff003000300030003fc0300000003;
   0x3000000030000300300000003000000030030c003000ff003000000030000000300000003000030030030300300300c0300300c0300030003000c0c0300000003;
   0x3000000030000300300000003000000030030c003000ff003000000030000000300000003000030030030300300300c0300300c0300030003000c0c0300000003;
   0x30000000300003003000c0c03000000030000000300300c03000fc003000fc00300303003000f3003000cc00300300c0300300c030000c00300300c0300000003;
   0x30000000300003003000c0c03000000030000000300300c03000fc003000fc00300303003000f3003000cc00300300c0300300c030000c00300300c0300000003;
   0x30000000300003003000c0c03000000030000000300c3f3030030300300303003003030030030f003000cc00300300c03000ff0030000c00300300c0300000003;
   0x30000000300003003000c0c03000000030000000300c3f3030030300300303003003030030030f003000cc00300300c03000ff0030000c00300300c0300000003;
   0x300000003000ff003000c0c0300030c030000000300cc330300303003003fc003000cc0030030300300030003003ffc0300300c030000c00300303f0300000003;
   0x300000003000ff003000c0c0300030c030000000300cc330300303003003fc003000cc0030030300300030003003ffc0300300c030000c00300303f0300000003;
   0x3000000030000300300033003000c30030000000300c3f30300303003003030030003000300303003000cc00300300c0300300c030000c00300300c0300000003;
   0x3000000030000300300033003000c30030000000300c3f30300303003003030030003000300303003000cc00300300c0300300c030000c00300300c0300000003;
   0x30000000300003003000330030030c0030000000300cc33030030300300303003000cc00300303003000cc00300300c0300300c030000c00300300c0300000003;
   0x30000000300003003000330030030c0030000000300cc33030030300300303003000cc00300303003000cc00300300c0300300c030000c00300300c0300000003;
   0x300000003000030030000c003000c30030000000300300c03003030030030300300303003003030030030300300300c0300300c0300030003000c0c0300000003;
   0x300000003000030030000c003000c30030000000300300c03003030030030300300303003003030030030300300300c0300300c0300030003000c0c0300010003;
   0x300000003003ff0030000c00300030c0300000003000ff003000fc003003fc00300303003003030030030300300300c03000ff003000300030003fc0300038003;
   0x300000003003ff0030000c00300030c0300000003000ff003000fc003003fc00300303003003030030030300300300c03000ff003000300030003fc0300010003;
   0x300000003000000030000300300000003000000030000000300000003000000030000000300000003000000030000000300000003000c00030000000300000003;
   0x300000003000000030000300300000003000000030000000300000003000000030000000300000003000000030000000300000003000c00030000000300000003;
   0x300000003000000030000300300000003000000030000000300000003000000030000000300000003000000030000000300000003000000030000000300000003;
   0x300000003000000030000300300000003000000030000000300000003000000030000000300000003000000030000000300000003000000030000000300000003;
   0x3000000030000000300000f0300000003000000030000000300000003000000030000000300000003000000030000000300000003000000030000000300000003;
   0x3000000030000000300000f0300000003000000030000000300000003000000030000000300000003000000030000000300000003000000030000000300000003;
   0x3ffffffffffffffffffffffffffffffffffffffffffffffffffffffffffffffffffffffffffffffffffffffffffffffffffffffffffffffffffffffffffffffff;
   0x3ffffffffffffffffffffffffffffffffffffffffffffffffffffffffffffffffffffffffffffffffffffffffffffffffffffffffffffffffffffffffffffffff;
   0x3000000030000c0030000000300000003000000030000000300000003000000030000000300000003000000030000000300000003000000030000000300000003;
   0x3000000030000c0030000000300000003000000030000000300000003000000030000000300000003000000030000000300000003000000030000000300000003;
   0x30000000300030003000cc00300000003000000030000000300000003000000030000000300000003000000030000000300000003000000030000000300000003;
   0x30000000300030003000cc00300000003000000030000000300000003000000030000000300000003000000030000000300000003000000030000000300000003;
   0x3003030030000000300000003000000030000000300000003000300030003000300000003000000030000000300000003000000030000c0030000000300000003;
   0x3003030030000000300000003000000030000000300000003000300030003000300000003000000030000000300000003000000030000c0030000000300000003;
   0x3000fc003003ff00300303003000000030000000300000003000cc003000cc00300000003000300030030300300030003000ff003000300030000000300000003;
   0x3000fc003003ff00300303003000000030000000300000003000cc003000cc00300000003000300030030300300030003000ff00300030003000000030007c003;
   0x30000000300003003003030030000000300000003000ff00300000003000000030000000300000003003030030003000300300c03000300030000000300183003;
   0x30000000300003003003030030000000300000003000ff00300000003000000030000000300000003003030030003000300300c03000300030000000300600c03;
   0x30000000300003003003030030000000300fffc0300300c03000fc003000fc0030030300300030003003030030003000300300c03000c00030000000300800203;
   0x30000000300003003003030030000000300fffc0300300c03000fc003000fc0030030300300030003003030030003000300300c03000c00030000000301000103;
   0x30000000300003003000cc003000000030030300300c3c30300303003003030030030300300030003000cc0030003000300300c03000c00030000000302000083;
   0x30000000300003003000cc003000000030030300300c3c30300303003003030030030300300030003000cc0030003000300300c03000c00030000000304000043;
   0x300000003000ff003000cc003000000030030300300c0330300303003003fc0030030300300030003000cc0030003000300300c03000c00030030300302000083;
   0x300000003000ff003000cc003000000030030300300c0330300303003003fc0030030300300030003000cc0030003000300300c03000c00030030300301000103;
   0x3000000030000300300030003000000030030300300c033030030300300303003000cc003000300030003000300030003003ff003000c0003000cc00300800203;
   0x3000000030000300300030003000000030030300300c033030030300300303003000cc003000300030003000300030003003ff003000c0003000cc00300400403;
   0x3000000030000300300030003000000030030300300c3c3030030300300303003000cc00300030003000300030003000300300003000c00030003000300200803;
   0x3000000030000300300030003000000030030300300c3c3030030300300303003000cc00300030003000300030003000300300003000c00030003000300101003;
   0x3000000030000300300030003000000030030300300300c03003030030030300300030003000300030003000300030003000c000300030003000cc00300082003;
   0x3000000030000300300030003000000030030300300300c03003030030030300300030003000300030003000300030003000c000300030003000cc00300044003;
   0x300000003003ff0030003000300c30c0300303003000ff003000fc003003fc003000300030003000300030003000300030003f003000300030030300300028003;
   0x300000003003ff0030003000300c30c0300303003000ff003000fc003003fc003000300030003000300030003000300030003f003000300030030300300010003;
   0x300000003000000030000000300000003000000030000000300000003000000030000c003000000030000000300000003000000030000c0030000000300000003;
   0x300000003000000030000000300000003000000030000000300000003000000030000c003000000030000000300000003000000030000c0030000000300000003;
   0x300000003000000030000000300000003000000030000000300000003000000030000c00300000003000000030000000300000003000000030000000300000003;
   0x300000003000000030000000300000003000000030000000300000003000000030000c00300000003000000030000000300000003000000030000000300000003;
   0x3000000030000000300000003000000030000000300000003000000030000000300003c0300000003000000030000000300000003000000030000000300000003;
   0x3000000030000000300000003000000030000000300000003000000030000000300003c0300000003000000030000000300000003000000030000000300000003].
Definition regular_rows_5 : list N :=
  [0x3ffffffffffffffffffffffffffffffffffffffffffffffffffffffffffffffffffffffffffffffffffffffffffffffffffffffffffffffffffffffffffffffff;
   0x3ffffffffffffffffffffffffffffffffffffffffffffffffffffffffffffffffffffffffffffffffffffffffffffffffffffffffffffffffffffffffffffffff;
   0x300000003000c00030000000300000003000000030000000300000003000000030000000300000003000000030000000300000003000000030003000300000003;
   0x300000003000c00030000000300000003000000030000000300000003000000030000000300000003000000030000000300000003000000030003000300000003;
   0x300000003000300030000000300000003000000030000000300000003000000030000000300000003000000030000000300000003000000030000c00300000003;
   0x300000003000300030000000300000003000000030000000300000003000000030000000300000003000000030000000300000003000000030000c00300000003;
   0x3000000030000000300c0000300000003000000030000000300000003000000030000000300000003000000030000000300000003000000030000000300000003;
   0x3000000030000000300c0000300000003000000030000000300000003000000030000000300000003000000030000000300000003000000030000000300000003;
   0x300030003000300030030000300000003000c000303033f03000cc003000cc0030000000300030003003ff0030030000300000003000000030018180300000003;
   0x300030003000300030030000300000003000c000303033f03000cc003000cc0030000000300030003003ff0030030000300000003000000030018180300000003;
   0x30000000300030003000c0003000000030003000303cf0c03000000030000000300000003000000030030000300300003000000030000c0030018180300000003;
   0x30000000300030003000c0003000000030003000303cf0c03000000030000000300000003000000030030000300300003000000030000c0030018180300000003;
   0x30000000300030003000c0003000000030003000303330c03000fc003000fc003003ff00300030003000c00030030000300000003000ccc030018180300000003;
   0x30000000300030003000c0003000000030003000303330c03000fc003000fc003003ff00300030003000c00030030000300000003000ccc030018180300000003;
   0x3000000030003000300030003000000030003000303030c0300303003003030030030000300030003000c000300300003000300030003f0030006600300000003;
   0x3000000030003000300030003000000030003000303030c0300303003003030030030000300030003000c000300300003000300030003f0030006600300000003;
   0x300000003000300030000c00300000003000300030000000300303003003fc003000c000300030003000300030030000300000003000330030006600300000003;
   0x300000003000300030000c00300000003000300030000000300303003003fc003000c000300030003000300030030000300000003000330030006600300000003;
   0x3000000030003000300000003000000030003000300000003003030030030300300030003000300030000c0030030000300000003000c0c030001800300000003;
   0x3000000030003000300000003000000030003000300000003003030030030300300030003000300030000c0030030000300000003000c0c030001800300000003;
   0x300000003000300030000000300000003000300030000000300303003003030030000c003000300030000c00300300c0300000003000000030001800300000003;
   0x300000003000300030000000300000003000300030000000300303003003030030000c003000300030000c00300300c0300000003000000030001800300000003;
   0x3000000030003000300000003000000030003000300000003003030030030300300003003000300030000300300300c0300000003000000030001800300000003;
   0x3000000030003000300000003000000030003000300000003003030030030300300003003000300030000300300300c0300000003000000030001800300000003;
   0x3000000030003000300000003000000030003000300000003000fc003003fc003003ff00300030003003ff003000ff00300030003000000030001800300000003;
   0x3000000030003000300000003000000030003000300000003000fc003003fc003003ff00300030003003ff003000ff00300030003000000030001800300000003;
   0x300000003000000030000000300000003000300030000000300000003000000030000000300030003000000030000000300000003000000030000000300000003;
   0x300000003000000030000000300000003000300030000000300000003000000030000000300030003000000030000000300000003000000030000000300000003;
   0x300000003000000030000000300000003000300030000000300000003000000030000000300030003000000030000000300000003000000030000000303ffffc3;
   0x300000003000000030000000300000003000300030000000300000003000000030000000300030003000000030000000300000003000000030000000303ffffc3;
   0x3000000030000000300000003000000030000c003000000030000000300000003000000030000f003000000030000000300000003000000030000000300000003;
   0x3000000030000000300000003000000030000c003000000030000000300000003000000030000f003000000030000000300000003000000030000000300000003;
   0x3ffffffffffffffffffffffffffffffffffffffffffffffffffffffffffffffffffffffffffffffffffffffffffffffffffffffffffffffffffffffffffffffff;
   0x3ffffffffffffffffffffffffffffffffffffffffffffffffffffffffffffffffffffffffffffffffffffffffffffffffffffffffffffffffffffffffffffffff;
   0x30000000300030003000000030000c003000000030000000300000003000000030000000300000003000000030000000300000003000000030000000300000003;
   0x30000000300030003000000030000c003000000030000000300000003000000030000000300000003000000030000000300000003000000030000000300000003;
   0x300030003000cc0030000000300030003000000030000000300000003000000030000000300000003000000030000000300000003000000030000000300000003;
   0x300030003000cc0030000000300030003000000030000000300000003000000030000000300000003000000030000000300000003000000030000000300000003;
   0x3000cc00300000003000000030000000300000003000000030033c0030033c003000c0003000000030003c0030000000300000003000000030000000300000003;
   0x3000cc00300000003000000030000000300000003000000030033c0030033c003000c0003000000030003c0030000000300000003000000030000000300000003;
   0x3000300030003000300000003000300030003c00300030003000f3003000f300300030003000030030000c00300300c0300000003000000030000600300000003;
   0x3000300030003000300000003000300030003c00300030003000f3003000f300300030003000030030000c00300300c0300000003000000030000600300000003;
   0x3000000030003000300ff000300030003000c00030000c003000000030000000300030003000030030000c003000c0c0300000003000000030000600300030003;
   0x3000000030003000300ff000300030003000c00030000c003000000030000000300030003000030030000c003000c0c0300000003000000030000600300030003;
   0x300000003000300030300c003000cc003000fc00300000003000fc003000fc00300030003003030030000c00300030c030000000300030003001fe003000fc003;
   0x300000003000300030300c003000cc003000fc00300000003000fc003000fc00300030003003030030000c00300030c030000000300030003001fe003000fc003;
   0x3000000030003000300003003000cc003000c300300000003003030030030300300030003000c30030000c0030000cc03000300030003000300606003003ff003;
   0x3000000030003000300003003000cc003000c300300000003003030030030300300030003000c30030000c0030000cc03000300030003000300606003003ff003;
   0x30000000300030003003ffc0300303003000fc0030000000300303003003fc0030000c003000330030000c00300003c0300000003003ff0030060600300fffc03;
   0x30000000300030003003ffc0300303003000fc0030000000300303003003fc0030000c003000330030000c00300003c0300000003003ff0030060600300fffc03;
   0x30000000300030003000030030030300300000003000000030030300300303003000300030000f0030000c0030000cc03000000030003000300606003003ff003;
   0x30000000300030003000030030030300300000003000000030030300300303003000300030000f0030000c0030000cc03000000030003000300606003003ff003;
   0x30000000300030003003ffc0300fffc03000ff00300000003003030030030300300030003000330030000c00300030c030000000300030003001fe003000fc003;
   0x30000000300030003003ffc0300fffc03000ff00300000003003030030030300300030003000330030000c00300030c030000000300030003001fe003000fc003;
   0x300000003000300030300c00300c00c030000000300000003003030030030300300030003000c30030000c003000c0c0300000003000000030000600300030003;
   0x300000003000300030300c00300c00c030000000300000003003030030030300300030003000c30030000c003000c0c0300000003000000030000600300030003;
   0x3000000030003000300ff000300c00c030000000300000003000fc003003fc00300030003003030030000c00300300c0300030003000000030000600300000003;
   0x3000000030003000300ff000300c00c030000000300000003000fc003003fc00300030003003030030000c00300300c0300030003000000030000600300000003;
   0x30000000300000003000000030000000300000003000000030000000300000003000c0003000000030003c0030000000300030003000000030000000300000003;
   0x30000000300000003000000030000000300000003000000030000000300000003000c0003000000030003c0030000000300030003000000030000000300000003;
   0x30000000300000003000000030000000300000003000000030000000300000003000000030000000300000003000000030000c003000000030000000300000003;
   0x30000000300000003000000030000000300000003000000030000000300000003000000030000000300000003000000030000c003000000030000000300000003;
   0x300000003000000030000000300000003000000030000000300000003000000030000000300000003000000030000000300000003000000030000000300000003;
   0x300000003000000030000000300000003000000030000000300000003000000030000000300000003000000030000000300000003000000030000000300000003].
Definition regular_rows_6 : list N :=
  [0x3ffffffffffffffffffffffffffffffffffffffffffffffffffffffffffffffffffffffffffffffffffffffffffffffffffffffffffffffffffffffffffffffff;
   0x3ffffffffffffffffffffffffffffffffffffffffffffffffffffffffffffffffffffffffffffffffffffffffffffffffffffffffffffffffffffffffffffffff;
   0x300000003000000030000000300c3c0030000000300000003000000030003c0030000000300000003000000030000000300000003000000030000000300000003;
   0x300000003000000030000000300c3c0030000000300000003000000030003c0030000000300000003000000030000000300000003000000030000000300000003;
   0x300000003000cc00300000003003c3003000000030000000300000003000c30030000000300000003000000030000000300000003000000030000000300000003;
   0x300000003000cc00300000003003c3003000000030000000300000003000c30030000000300000003000000030000000300000003000000030000000300000003;
   0x3000000030000000300000003000000030000000300000003000c0003000c30030003000300000003000030030000000300000003000000030000000300000003;
   0x3000000030000000300000003000000030000000300000003000c0003000c30030003000300000003000030030000000300000003000000030000300300000003;
   0x3000000030003000300000003000300030003c003000cc003000300030003c0030003000300030003000030030000300300000003000000030000f00300000003;
   0x3000000030003000300000003000300030003c003000cc003000300030003c003000300030003000300003003000030030000000300000003000cc00300000003;
   0x300000003000300030000000300030003000c300300000003000000030000000300030003000300030000c003000030030000000300000003000fc00303000003;
   0x300000003000300030000000300030003000c300300000003000000030000000300030003000300030000c0030000300300000003000000030003f00303000003;
   0x3000000030003000300000003000cc003000c30030000000300303003000fc00300030003000300030000c00300003003000c000300000003000f300303c00003;
   0x3000000030003000300000003000cc003000c30030000000300303003000fc00300030003000300030000c00300003003000c000300000003000f000303c00003;
   0x30000000300030003000c0003000cc003000c30030000000300303003003030030003000300030003000300030000300300030003000000030030c00300f00003;
   0x30000000300030003000c0003000cc003000c30030000000300303003003030030003000300030003000300030000300300030003000000030030c00300f00003;
   0x3000000030003000300030003003030030003c0030000000300303003003fc003000300030003000300030003000030030000c0030000000300303003003c0003;
   0x3000000030003000300030003003030030003c0030000000300303003003fc003000300030003000300030003000030030000c0030000000300303003003c0003;
   0x300000003000300030000c00300303003000000030000000300303003003030030003000300030003000c000300003003000030030000000300303003000f0303;
   0x300000003000300030000c00300303003000000030000000300303003003030030003000300030003000c000300003003000030030000000300303003000f0303;
   0x300000003000300030003000300fffc03000ff0030000000300303003003030030003000300030003000c0003000030030000c00300000003003030030003cf03;
   0x300000003000300030003000300fffc03000ff0030000000300303003003030030003000300030003000c0003000030030000c00300000003003030030003cf03;
   0x30000000300030003000c000300c00c030000000300000003003c300300303003000300030003000300300003000030030003000300000003000c30030000fc03;
   0x30000000300030003000c000300c00c030000000300000003003c300300303003000300030003000300300003000030030003000300000003000c30030000fc03;
   0x300000003000300030000000300c00c0300000003000000030033c003003fc003000300030003000300300003003ff003000c0003000300030003c00300003003;
   0x300000003000300030000000300c00c0300000003000000030033c003003fc003000300030003000300300003003ff003000c0003000300030003c00300003003;
   0x300030003000000030000000300000003000000030000000300000003000000030003000300000003000000030000000300000003000300030000000300000003;
   0x300030003000000030000000300000003000000030000000300000003000000030003000300000003000000030000000300000003000300030000000300000003;
   0x3000c00030000000300000003000000030000000300000003000000030000000300000003000000030000000300000003000000030000c0030000000300000003;
   0x3000c00030000000300000003000000030000000300000003000000030000000300000003000000030000000300000003000000030000c0030000000300000003;
   0x3000f0003000000030000000300000003000000030000000300000003000000030000000300000003000000030000000300000003000000030000000300000003;
   0x3000f0003000000030000000300000003000000030000000300000003000000030000000300000003000000030000000300000003000000030000000300000003;
   0x3ffffffffffffffffffffffffffffffffffffffffffffffffffffffffffffffffffffffffffffffffffffffffffffffffffffffffffffffffffffffffffffffff;
   0x3ffffffffffffffffffffffffffffffffffffffffffffffffffffffffffffffffffffffffffffffffffffffffffffffffffffffffffffffffffffffffffffffff;
   0x3000000030000c003000000030030f003000000030000000300000003000000030000000300000003000000030000000300000003000000030000000300000003;
   0x3000000030000c003000000030030f003000000030000000300000003000000030000000300000003000000030000000300000003000000030000000300000003;
   0x3000000030003000300000003000f0c03000000030000000300000003000000030000000300000003000000030000000300000003000000030000000300000003;
   0x3000000030003000300000003000f0c03000000030000000300000003000000030000000300000003000000030000000300000003000000030000000300000003;
   0x30033000300000003000000030000000300000003000000030000c003000000030000c003000000030003c0030000000300000003000000030003000300000003;
   0x30033000300000003000000030000000300000003000000030000c003000000030000c003000000030003c0030000000300000003000000030003000300000003;
   0x3000cc0030003000300000003000ff003000ff00300000003000300030000000300030003000000030003000300c00c0300000003000000030000c003000c0003;
   0x3000cc0030003000300000003000ff003000ff00300000003000300030000000300030003000000030003000300c00c0300000003000000030000c003001e0003;
   0x300000003000300030000000300300c0300300c0300000003000000030000000300030003000000030003000300f03c03000000030000000300000003003f0003;
   0x300000003000300030000000300300c0300300c0300000003000000030000000300030003000000030003000300f03c03000000030000000300000003007f8003;
   0x300000003000300030000000300300c0300c003030000000300303003000fc0030003000300f0f3030003000300cccc0300000003000000030030300300ffc003;
   0x300000003000300030000000300300c0300c003030000000300303003000fc0030003000300f0f3030003000300cccc0300000003000000030030300300ffc003;
   0x300000003000300030000c00300300c0300c00303000c0003003030030030300300030003030f0f030003000300c30c03000000030000000300303003000c0003;
   0x300000003000300030000c00300300c0300c00303000c0003003030030030300300030003030f0f030003000300c30c03000000030000000300303003000c0003;
   0x300000003000300030003000300300c0300c00303003ffc030030300300003003000c0003030303030003000300c00c03003ff003003ff00300303003000c0003;
   0x300000003000300030003000300300c0300c00303003ffc030030300300003003000c0003030303030003000300c00c03003ff003003ff00300303003000c0003;
   0x30000000300030003000c000300300c0300c0030300030003003030030000300300030003030303030003000300c00c030000000300000003000cc003000c0003;
   0x30000000300030003000c000300300c0300c0030300030003003030030000300300030003030303030003000300c00c030000000300000003000cc003000c0003;
   0x300000003000300030003000300300c0300300c030000c003003030030000300300030003030303030003000300c00c030000000300000003000cc003000c0003;
   0x300000003000300030003000300300c0300300c030000c003003030030000300300030003030303030003000300c00c030000000300000003000cc003000c0003;
   0x300000003000300030000c00300300c03000c3003003ffc03003c30030030300300030003030303030003000300c00c03003ff0030000000300030003000c0003;
   0x300000003000300030000c00300300c03000c3003003ffc03003c30030030300300030003030303030003000300c00c03003ff0030000000300030003000c0003;
   0x3000000030003000300000003000ff00300fc3f03000030030033c003000fc00300030003030303030003000300c00c03000000030000000300030003000c0003;
   0x3000000030003000300000003000ff00300fc3f03000030030033c003000fc00300030003030303030003000300c00c03000000030000000300030003000c0003;
   0x300000003000000030000000300000003000000030000000300000003000300030000c003000000030003c0030000000300000003000000030000c003000c0003;
   0x300000003000000030000000300000003000000030000000300000003000300030000c003000000030003c0030000000300000003000000030000c003000c0003;
   0x3000000030000000300000003000000030000000300000003000000030000c0030000000300000003000000030000000300000003000000030000c00300000003;
   0x3000000030000000300000003000000030000000300000003000000030000c0030000000300000003000000030000000300000003000000030000c00300000003;
   0x3000000030000000300000003000000030000000300000003000000030000000300000003000000030000000300000003000000030000000300003c0300000003;
   0x3000000030000000300000003000000030000000300000003000000030000000300000003000000030000000300000003000000030000000300003c0300000003].
Definition regular_rows_7 : list N :=
  [0x3ffffffffffffffffffffffffffffffffffffffffffffffffffffffffffffffffffffffffffffffffffffffffffffffffffffffffffffffffffffffffffffffff;
   0x3ffffffffffffffffffffffffffffffffffffffffffffffffffffffffffffffffffffffffffffffffffffffffffffffffffffffffffffffffffffffffffffffff;
   0x300000003000300030000000300000003000000030000000300000003000000030000000300000003000000030000000300000003000000030000000300000003;
   0x300000003000300030000000300000003000000030000000300000003000000030000000300000003000000030000000300000003000000030000000300000003;
   0x3000000030000c0030000000300000003000000030000000300000003000000030000000300000003000000030000000300000003000000030000000300000003;
   0x3000000030000c0030000000300000003000000030000000300000003000000030000000300000003000000030000000300000003000000030000000300000003;
   0x300000003000000030000000300000003000000030000000300030003000300030000000300000003000000030000000300000003000000030000000300000003;
   0x300000003000000030000000300000003000000030000000300030003000300030000000300000003000000030000000300000003000000030000000300000003;
   0x300000003000ff0030003c00303fcff030000000303ffc003000cc0030000c0030030f003000000030000c00300303c030000000300000003000030033ffff003;
   0x300000003000ff0030003c00303fcff030000000303ffc003000cc0030000c0030030f003000000030000c00300303c030000000300000003000030033ffff803;
   0x30000000300300c0300003003000300c300000003000330030000000300000003000f0c03000000030000c00300303c0300000003000000030000300330001c03;
   0x30000000300300c0300003003000300c300000003000330030000000300000003000f0c03000000030000c00300303c0300000003000000030000300330000e03;
   0x30000000300300c03003ffc03000300c300fcfc030003300300303003000fc00300000003000f3003000330030030cc030000300300000003000ff00331818703;
   0x30000000300300c03003ffc03000300c300fcfc030003300300303003000fc00300000003000f3003000330030030cc030000300300000003000ff00331c38383;
   0x30000000300300c0300303003000300c30303030300030c030030300300303003000000030030f003000330030030cc030000c003000000030030300330e701c3;
   0x30000000300300c0300303003000300c30303030300030c030030300300303003000000030030f003000330030030cc030000c0030000000300303003307e00e3;
   0x30000000300300c030030300300ff00c30303000300fffc03003030030030300300000003003030030000000300330c03000300030000000300303003303c0073;
   0x30000000300300c030030300300ff00c30303000300fffc03003030030030300300000003003030030000000300330c03000300030000000300303003303c0073;
   0x30000000300300c0300303003000300c303fffc030003030300303003003ff00300000003003030030000000300330c03000c00030000000300303003307e00e3;
   0x30000000300300c0300303003000300c303fffc030003030300303003003ff00300000003003030030000000300330c03000c0003000000030030300330e701c3;
   0x30000000300300c0300303003000300c300030303000303030030300300003003000000030030300300000003003c0c0300030003000000030030300331c38383;
   0x30000000300300c0300303003000300c300030303000303030030300300003003000000030030300300000003003c0c0300030003000000030030300331818703;
   0x30000000300300c0300303003000300c303030303000300c3003c300300303003000000030030300300000003003c0c030000c003000000030030300330000e03;
   0x30000000300300c0300303003000300c303030303000300c3003c300300303003000000030030300300000003003c0c030000c003000000030030300330001c03;
   0x300000003000ff0030030300303fcff0300fcfc0303ff00c30033c003000fc00300000003003030030000000300300c030000300300030003000ff0033ffff803;
   0x300000003000ff0030030300303fcff0300fcfc0303ff00c30033c003000fc00300000003003030030000000300300c030000300300030003000ff0033ffff003;
   0x300030003000000030000000300000003000000030000000300000003000000030000000300000003000000030000000300000003000000030000300300000003;
   0x300030003000000030000000300000003000000030000000300000003000000030000000300000003000000030000000300000003000000030000300300000003;
   0x30000c003000000030000000300000003000000030000000300000003000000030000000300000003000000030000000300000003000000030000300300000003;
   0x30000c003000000030000000300000003000000030000000300000003000000030000000300000003000000030000000300000003000000030000300300000003;
   0x300030003000000030000000300000003000000030000000300000003000000030000000300000003000000030000000300000003000000030000000300000003;
   0x300030003000000030000000300000003000000030000000300000003000000030000000300000003000000030000000300000003000000030000000300000003;
   0x3ffffffffffffffffffffffffffffffffffffffffffffffffffffffffffffffffffffffffffffffffffffffffffffffffffffffffffffffffffffffffffffffff;
   0x3ffffffffffffffffffffffffffffffffffffffffffffffffffffffffffffffffffffffffffffffffffffffffffffffffffffffffffffffffffffffffffffffff;
   0x3000000030000c0030000000300000003000000030000000300000003000000030000000300000003000000030000000300000003000000030000000300000003;
   0x3000000030000c0030000000300000003000000030000000300000003000000030000000300000003000000030000000300000003000000030000000300000003;
   0x300000003000330030000000300000003000000030000000300000003000000030000000300000003000000030000000300000003000000030000000300000003;
   0x300000003000330030000000300000003000000030000000300000003000000030000000300000003000000030000000300000003000000030000000300000003;
   0x3000cc0030000000300000003000000030000000300000003000000030000c0030003000300000003000000030000000300000003003000030000000300000003;
   0x3000cc0030000000300000003000000030000000300000003000000030000c0030003000300000003000000030000000300000003003000030000000300000003;
   0x300030003000ff003003fc003000000030000000300cff003000cc00300030003000300030000000300000003000ff003000ff00300300003000c300300000003;
   0x300030003000ff003003fc003000000030000000300cff003000cc00300030003000300030000000300000003000ff003000ff00300300003000c300300000003;
   0x30000000300300c0300303003000000030000000300300c03000000030000000300030003000000030000000300300c0300300c03000c00030003c00330000003;
   0x30000000300300c0300303003000000030000000300300c03000000030000000300030003000000030000000300300c0300300c03000c00030003c00330000003;
   0x30000000300300c030033fc0300fcfc0300cfc003003c0c0300303003000fc00300030003000fc0030000000300300c0300300c03000c0003000c300330000003;
   0x30000000300300c030033fc0300fcfc0300cfc003003c0c0300303003000fc00300030003000fc0030000000300300c0300300c03000c0003000c300330000003;
   0x30000000300300c0300303003030303030030300300330c03003030030030300300030003003030030000000300300c03000c00030003000300300c0330000c03;
   0x30000000300300c0300303003030303030030300300330c03003030030030300300030003003030030000000300300c03000c00030003000300300c0330000e03;
   0x30000000300300c030030300303030303003c30030030cc03003030030030300300000003003030030000000300300c03000300030003000300300c0330000f03;
   0x30000000300300c030030300303030303003c30030030cc03003030030030300300000003003030030000000300300c03000300030003000300300c0330000f83;
   0x30000000300300c030030300303ff03030033300300303c0300303003003ff00300030003003030030000000300300c030000c0030000c003000c30033fffffc3;
   0x30000000300300c030030300303ff03030033300300303c0300303003003ff00300030003003030030000000300300c030000c0030000c003000c30033fffffc3;
   0x30000000300300c0300303003000303030030f00300300c03003030030000300300030003003030030000000300300c030000c0030000c0030003c00300000f83;
   0x30000000300300c0300303003000303030030f00300300c03003030030000300300030003003030030000000300300c030000c0030000c0030003c00300000f03;
   0x30000000300300c0300303003030303030030300300300f03003c30030030300300030003003030030000000300300c030000000300003003000c300300000e03;
   0x30000000300300c0300303003030303030030300300300f03003c30030030300300030003003030030000000300300c030000000300003003000c300300000c03;
   0x300000003000ff0030030300300fcfc03000fcc03000ff0030033c003000fc00300030003000fc00300ffff03000ff0030000c003000030030000000300000003;
   0x300000003000ff0030030300300fcfc03000fcc03000ff0030033c003000fc00300030003000fc00300ffff03000ff0030000c003000030030000000300000003;
   0x300000003000000030000000300000003000000030000000300000003000000030003000300000003000000030000000300000003000000030000000300000003;
   0x300000003000000030000000300000003000000030000000300000003000000030003000300000003000000030000000300000003000000030000000300000003;
   0x300000003000000030000000300000003000000030000000300000003000000030000000300000003000000030000000300000003000000030000000300000003;
   0x300000003000000030000000300000003000000030000000300000003000000030000000300000003000000030000000300000003000000030000000300000003;
   0x300000003000000030000000300000003000000030000000300000003000000030000000300000003000000030000000300000003000000030000000300000003;
   0x300000003000000030000000300000003000000030000000300000003000000030000000300000003000000030000000300000003000000030000000300000003].
Definition regular_rows_8 : list N :=
  [0x3ffffffffffffffffffffffffffffffffffffffffffffffffffffffffffffffffffffffffffffffffffffffffffffffffffffffffffffffffffffffffffffffff;
   0x3ffffffffffffffffffffffffffffffffffffffffffffffffffffffffffffffffffffffffffffffffffffffffffffffffffffffffffffffffffffffffffffffff].
(** codegen/src_data/regular.png: 514 columns, 514 rows *)
Definition regular_width : N := 514.
Definition regular_rows : list N :=
  concat [regular_rows_0; regular_rows_1; regular_rows_2; regular_rows_3; regular_rows_4; regular_rows_5;
    regular_rows_6; regular_rows_7; regular_rows_8].
