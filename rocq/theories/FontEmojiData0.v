(** GENERATED by tools/gen_fonts.py from /repo/src/fonts/emoji.rs -- do not edit.
    DATA (src/fonts/emoji.rs:8191-24037), words 0 to 71679. *)
From Verif Require Import Prim FontDefs.

Definition emoji_data_0 : list N :=
  [0x171f01; 0x92492492; 0x49200000; 0x492c924; 0x92492006; 0x249649; 0x24924909; 0x30016db6;
   0x49e4b6ca; 0xc1870b25; 0x964b2492; 0x420c304b; 0x6cb24b6d; 0x92006902; 0x49649249; 0x24900300;
   0x124b2492; 0x49248018; 0x925924; 0x92492400; 0x800492c9; 0x24924900; 0x492; 0x48000000;
   0x171f01; 0x12492492; 0x59240000; 0x492c924; 0x92492124; 0x9225925b; 0x2492db41; 0x24972592;
   0x49249648; 0x9240924; 0x92492c92; 0x40090049; 0x24924924; 0x92027902; 0x4b64924b; 0x2c901658;
   0x125b6492; 0x5b64a5f6; 0xebb6db6c; 0xb6596424; 0xb24492c9; 0x24924920; 0x492; 0x49000000;
   0x202000; 0x9249248; 0x36db6db6; 0x5b6db6db; 0x7fffffff; 0xb6db6db6; 0x5b6db6db; 0x7ffc3fff;
   0xb6d92db6; 0x5b6c16db; 0x7ff01fff; 0xb6d92db6; 0x5b6096db; 0x7fe087ff; 0xb6c925b6; 0x5b6186db;
   0x7fe183ff; 0xb6cb65b6; 0x5b4582db; 0x7f8003ff; 0xb6c925b6; 0x5b0000db; 0x7f0000ff; 0xb64b64b6;
   0x5b0db05b; 0x7f0ff07f; 0xb6db6db6; 0x5b6db6db; 0x7fffffff; 0xb6db6db6; 0x5b6db6db; 0x7ffffffc;
   0x16db6db0; 0x1f2000; 0x12492490; 0xdb6db6da; 0xdb6db6df; 0xfffffff6; 0xdb6db6d6; 0xdb6db6ff;
   0xfe497fb6; 0xd925b6b6; 0xc001b7ff; 0x8003fdb6; 0x4b25b5b6; 0x1b0dbffc; 0x1e1fedb6; 0x592dadb0;
   0x6dffe0; 0xff6d92; 0x496d6d82; 0x436ffc0f; 0x87fb6cb6; 0x4b6b60b6; 0x1b7fe02c; 0x3fdb6492;
   0x5b5b6000; 0xdbffc001; 0xfedb6db6; 0xdadb6db6; 0xdfffffff; 0xf6db6db6; 0xd6db6db6; 0xcfffffff;
   0x96db6db2; 0x1f2000; 0x9249241; 0x6db6db6b; 0x6db6db67; 0xffffffeb; 0x6db6db7b; 0x6db6db3f;
   0xf807ff5b; 0x6496dbdb; 0x2d9fe; 0x7fad9; 0x2d96dec0; 0x6d06cf83; 0xff0fd6cb; 0x6c96f60b;
   0x6c167c1f; 0xf83eb65b; 0x64b7b05b; 0x60b3e0ff; 0xc1f5b2db; 0x25bd80da; 0xd9f80b0; 0x1fad9249;
   0x6ded8001; 0x6cff0007; 0xfd6d925b; 0x6f6db6db; 0x67ffffff; 0xeb6db6db; 0x7b6db6db; 0x1ffffffe;
   0xb6db6d8; 0x202000; 0x9249248; 0x36db6db6; 0x5b6db6db; 0x5b6db6db; 0xb6db6db6; 0x5b6db6db;
   0x5b6496db; 0xb6c925b6; 0x5b0002db; 0x5b0003db; 0xb64b65b6; 0x5b0582db; 0x5b0583db; 0xb64b65b6;
   0x5b0582db; 0x5b0583db; 0xb6c925b6; 0x5b0002db; 0x5b6003db; 0xb6db25b6; 0x5b6d82db; 0x5b6d83db;
   0xb6db65b6; 0x5b6d82db; 0x5b6d83db; 0xb6db65b6; 0x5b6db6db; 0x5b6dbedb; 0xb6db6db6; 0x5b6db6db;
   0x5b6db6d8; 0x12492490; 0x1f2000; 0x12492490; 0xdb6db6da; 0xdb6db6df; 0xfffffff6; 0xdb6db6d6;
   0xdb6db6ff; 0xffff7fb6; 0x4b6cb6b0; 0x360b7e0; 0x3c07d92; 0x4b64b596; 0x1b01be0c; 0x1e01ecb6;
   0x5965ac10; 0xd965f800; 0xc3c36492; 0xcb2d0486; 0xb0e0f04; 0x1b2d92; 0x49282c30; 0x300020;
   0x90592496; 0xd9580196; 0xd1f24b3f; 0xf2db6db6; 0xdadb6db6; 0xdfffffff; 0xf6db6db6; 0xd6db6db6;
   0xcfffffff; 0x96db6db2; 0x1f2000; 0x9249241; 0x6db6db6b; 0x6db6db67; 0xffffffeb; 0x6db6db7b;
   0x6db6db3f; 0xcba0bf5b; 0x25925bdb; 0xc0059fe; 0x8003ad9; 0x25b25ed8; 0x6db04ff0; 0x7fe0d6c9;
   0x6db2f6c3; 0x6d827f83; 0xff86b64b; 0x6d97b61b; 0x6c13fc1f; 0xf835b25b; 0x6cbdb0db; 0x60992082;
   0x1a49249; 0x25e00600; 0x2cc00c00; 0x7d6db64b; 0x6f6db6db; 0x67ffffff; 0xeb6db6db; 0x7b6db6db;
   0x1ffffffe; 0xb6db6d8; 0x202000; 0x9249248; 0x36db6db6; 0x5b6db6db; 0x49249249; 0xb6db6db6;
   0x5b6db6db; 0x49249249; 0xb6db6db6; 0x5b6db6db; 0x49249249; 0xb6db6db6; 0x5b25924b; 0x49048201;
   0xb25924b2; 0x592030d9; 0x48201049; 0xb2592cb2; 0x592030d9; 0x41201041; 0x924b2596; 0x4b25924b;
   0x49249249; 0xb6db6db6; 0x5b6db6db; 0x49249249; 0xb6db6db6; 0x5b6db6db; 0x49249249; 0xb6db6db6;
   0x5b6db6db; 0x49249248; 0x12492490; 0x1f2000; 0x12492490; 0x5b6db6da; 0xdb6db6dc; 0x92492496;
   0xdb6db6d6; 0xdb6db6e4; 0x924924b6; 0xdb6db6b6; 0xdb6db724; 0x92492592; 0x4b249400; 0x8001904;
   0x2092d96; 0x4b2ca432; 0x4824c000; 0x80016492; 0xc92561b2; 0x1664104; 0x24b2492; 0xcb280012;
   0x1b324924; 0x925b6db6; 0xdb5b6db6; 0xdb924924; 0x92db6db6; 0xdadb6db6; 0xdc924924; 0x96db6db6;
   0xd6db6db6; 0xc4924924; 0x92492492; 0x1f2000; 0x9249241; 0x6db6db63; 0x6db6db66; 0xdb6db6cb;
   0x6db6db7b; 0x6db6db36; 0xc924965b; 0x24965bd8; 0x1059b0; 0x2032c9; 0x6cb2dec1; 0x6082cc06;
   0xc101965b; 0x6596f05b; 0x41660b6; 0x80cb2db; 0x2cb782d8; 0x20b301b0; 0x406596d9; 0x65bd82c1;
   0x59b0482; 0x32c924b; 0x2dec0008; 0x2cd90010; 0x596d9259; 0x6f6db6db; 0x66db6db6; 0xcb6db6db;
   0x7b6db6db; 0x16db6db6; 0x9249248; 0x202000; 0x9249248; 0x36db6db6; 0x5b6db6db; 0x49249249;
   0xb6db6db6; 0x5b6db6db; 0x49249249; 0xb6db6db6; 0x5b6db6db; 0x49249249; 0xb6db6db6; 0x486000c1;
   0x48200041; 0x965b6492; 0x482580c1; 0x48240001; 0x924b2492; 0x41058059; 0x41048041; 0xb2cb24b2;
   0x430400d9; 0x49249249; 0xb6db6db6; 0x5b6db6db; 0x49249249; 0xb6db6db6; 0x5b6db6db; 0x49249249;
   0xb6db6db6; 0x5b6db6db; 0x49249248; 0x12492490; 0x1f2000; 0x12492490; 0x5b6db6da; 0xdb6db6dc;
   0x92492496; 0xdb6db6d6; 0xdb6db6e4; 0x924924b6; 0xdb6db6b2; 0xb2d9720; 0x2090592; 0x4b2c9596;
   0x86c1924; 0x10402db6; 0x5964a496; 0x300c024; 0x20164b2; 0x496505b2; 0x1060904; 0x20b2d96;
   0x5b2b0410; 0x58320020; 0x905b25b2; 0xd95b2db6; 0xdb924924; 0x92db6db6; 0xdadb6db6; 0xdc924924;
   0x96db6db6; 0xd6db6db6; 0xc4924924; 0x92492492; 0x1f2000; 0x9249241; 0x6db6db63; 0x6db6db62;
   0x4924924b; 0x6db6db7b; 0x6db6db12; 0x4924925b; 0x6db6dbcb; 0x65905882; 0x90012cb; 0x2c925e0b;
   0x20b04480; 0x412096c9; 0x65b2f601; 0xdb22402; 0x920b64b; 0x2d97b048; 0x2d910010; 0x48259659;
   0x6cbc1658; 0x20882090; 0x125b2d9; 0x2dedb6d9; 0x6c492492; 0x496db6db; 0x6f6db6db; 0x62492492;
   0x4b6db6db; 0x7b6db6db; 0x12492492; 0x9249248; 0x202000; 0x9249248; 0x36db6db6; 0x5b6db6db;
   0x7fffffff; 0xb6db6db6; 0x5b6db6db; 0x7fffffff; 0xb6db6db6; 0x5b6db6db; 0x49fcbe4f; 0x92d92d96;
   0x40608603; 0x48218241; 0xb64b65b2; 0x5825b2c1; 0x4007e201; 0x92cb6496; 0x4b65b25b; 0xf67c07b;
   0x964924b2; 0x40200601; 0x40341e01; 0xb6db6db6; 0x5b6db6db; 0x7fffffff; 0xb6db6db6; 0x5b6db6db;
   0x7fffffff; 0xb6db6db6; 0x5b6db6db; 0x7ffffffc; 0x16db6db0; 0x1f2000; 0x12492490; 0x5b6db6da;
   0xdb6db6dc; 0x92492496; 0xdb6db6d6; 0xdb6db6e4; 0x924924b6; 0xdb6db6b6; 0xdb6db724; 0x80490596;
   0x492d9590; 0x432c1920; 0x82482cb2; 0xc96cac86; 0x1960c904; 0x12416592; 0x4b656590; 0xcb064920;
   0x820b2db2; 0x492b2d86; 0x724904; 0x25b6db6; 0xdb5b6db6; 0xdb924924; 0x92db6db6; 0xdadb6db6;
   0xdc924924; 0x96db6db6; 0xd6db6db6; 0xc4924924; 0x92492492; 0x1f1f00; 0x12492490; 0x24924921;
   0xb6db6db4; 0x92492491; 0x2492492d; 0xb6db6da4; 0x92492488; 0x4124164; 0x965b6500; 0x2090448].
Definition emoji_data_1 : list N :=
  [0x120b6c; 0x92592924; 0x10482240; 0x20905924; 0xb2c94800; 0x82090009; 0x2c96d; 0x925a0924;
   0x80481249; 0x925b6c; 0x92d04824; 0x2400048; 0x4b2496c; 0xb6900924; 0x92249249; 0x25b6db6d;
   0xb4924924; 0x91249249; 0x2db6db6d; 0x84924924; 0x80000000; 0x201705; 0x5b6db6d8; 0x7ffe5b2c;
   0x7fff1b2e; 0xdb6d92cb; 0x7ffedb6c; 0x7ffffffe; 0xdb6db6db; 0x7ffe4324; 0x7edfcb26; 0xdb6d96d9;
   0x7dbe5b6c; 0x649ffffe; 0xd92db6db; 0x6d97fffe; 0x6db7fffe; 0xdb6db6db; 0x6cb7fffe; 0x67f7fffe;
   0xdb6db6db; 0x7ffffffe; 0x7ffffffe; 0x5b6db6d8; 0x4924920; 0x201705; 0x36c925b6; 0x5b6497ff;
   0x7fe007ff; 0xb6c925b6; 0x5b6497ff; 0x7fe007ff; 0xb6c925b6; 0x5b6497ff; 0x7fe497ff; 0xb6cb25b6;
   0x5b6497ff; 0x7fe497ff; 0xb6cb65b6; 0x5b6497ff; 0x7fe497ff; 0xb6c925b6; 0x5b6497ff; 0x7fe007ff;
   0xb6c925b6; 0x5b6497ff; 0x7fe007fe; 0x36c925b6; 0x9000248; 0x201705; 0x2db6db6c; 0x36db6db6;
   0xb6db6dfe; 0x6db6db6d; 0xb6db6db6; 0xb6db6dfe; 0x6db6db6d; 0x924925b6; 0xfe; 0x2492496d;
   0x124924b6; 0xfe; 0x2492496d; 0xb6; 0x924925fe; 0x7fffff6d; 0xffffffb6; 0xfffffffe;
   0x7fffff6d; 0xffffffb6; 0x7ffffffe; 0x3fffff6c; 0x12492490; 0x1f1804; 0x241; 0x6db6dfe3;
   0x6db6fff6; 0xdbffffeb; 0x6db6fffb; 0x6db7fff6; 0xdbffff5b; 0x6db6ffdb; 0x24b3ffb6; 0x6067fad9;
   0x6cb7fed9; 0x2c9ffdb2; 0x493fd6cb; 0x2dbff6c9; 0x6cffed92; 0x49feb6c9; 0x27ffb6c0; 0x3fff6d80;
   0x7ff5b659; 0x7ffdb6db; 0xffdb6fff; 0xffadb6db; 0xfc001249; 0x20000000; 0x201705; 0x3ffffffe;
   0x7ffffffe; 0x7fffffff; 0xbffb6ffe; 0x7ffcbfff; 0x7ffc9fff; 0xb7d92ff6; 0x7fe497ff; 0x7fe497ff;
   0xb6db6db6; 0x7f6db6ff; 0x7fedb7ff; 0xb6db6db6; 0x7fe497ff; 0x7fe003ff; 0xb6d92db6; 0x7fe017ff;
   0x7ff81fff; 0xb6d92db6; 0x7ffc3fff; 0x7ffc3ffe; 0x36db6db6; 0x9249248; 0x201705; 0x2db6db64;
   0xffff6d96; 0xffff2596; 0x6db64b24; 0xffff6db6; 0xfffffffe; 0x6cb6db6c; 0xc00f2592; 0xc20f65b2;
   0x6496db6c; 0xc24f3db6; 0xc00ffffe; 0x6596db6d; 0xf24ffffe; 0xf00ffffe; 0x6496db6d; 0xf25ffffe;
   0xfe7ffffe; 0x6db6db6d; 0xfffffffe; 0x7ffffffe; 0x2db6db6c; 0x12492490; 0x201705; 0x5b6db6d8;
   0x6db6db6c; 0x7ffffffe; 0xdb6db6db; 0x6dfeff6c; 0x7ffffffe; 0xdb7dbedb; 0x6dbfff6c; 0x7ffffffe;
   0xdb7ffedb; 0x6dbfff6c; 0x7ffffffe; 0xdb6ff6db; 0x6dffff6c; 0x7ffffffe; 0xdb6ff6db; 0x6db7db6c;
   0x7ffffffe; 0xdb6db6db; 0x6db6db6c; 0x7ffffffc; 0x5b6db6d8; 0x4924920; 0x201605; 0x36db6db6;
   0x7fffffff; 0x7fffffff; 0xb6db6db6; 0x7fffffff; 0x7fffffff; 0xb6db6db6; 0x7fffffff; 0x7fffffff;
   0xb6db6db6; 0x7fffffff; 0x7fffffff; 0xb6db6db6; 0x7fffffff; 0x7fffffff; 0xb6db6db6; 0x49249249;
   0x49249248; 0xb6db6db6; 0x49249249; 0x49249248; 0x16db6db2; 0x201705; 0x2db6db6c; 0x36db6db6;
   0xfffffffe; 0x6db6db6d; 0xb6db6db6; 0xfff9fffe; 0x6db6db6d; 0xb6db6db6; 0xffcb3ffe; 0x6db65b6d;
   0xb6cf6db6; 0xffcfbffe; 0x7ff6dfff; 0xffcb7ffe; 0xfff9fffe; 0x7ff6dfff; 0xffdf6ffe; 0xffdffffe;
   0x7fffffff; 0xfffffffe; 0x7ffffffe; 0x3ffffffc; 0x12492490; 0x1f1605; 0xb6db6db1; 0xb6db6db3;
   0xfffffff5; 0xb6db6dbd; 0xb6436d9f; 0xe403ffad; 0x924b6ded; 0x800b2cff; 0x7d6c; 0x924b6f64;
   0xb67e0; 0x7eb64; 0x925b7b00; 0x5b3f80; 0xff5b24; 0x92dbdb00; 0x96d9fe03; 0xfffadb25;
   0xb6dedb2d; 0xb6cfffff; 0xff96db6d; 0xb6000000; 0x201605; 0x16db6db2; 0x49249248; 0x49249248;
   0xb6db6db6; 0x49249249; 0x49249248; 0x92492492; 0x49249248; 0x58000; 0x924b6492; 0x4924b248;
   0x4b000; 0x924b6492; 0x49259248; 0x8000; 0x92492492; 0x49249249; 0x49249248; 0xb6db6db6;
   0x49249249; 0x49249248; 0x16db6db2; 0x1e1705; 0xb6db6db3; 0xffffffe1; 0xffffffa5; 0xb6db6d41;
   0x7ffff900; 0xbfffeb64; 0xb6db56c8; 0x2ffe5f00; 0x17fad924; 0x96d59249; 0x25860000; 0x1eb2c925;
   0xb524925f; 0xe0900bff; 0xa592db6d; 0x482ffff8; 0x5ffffe9; 0x6db6db57; 0xfffffe7f; 0xfffffadb;
   0x6db6c492; 0x49240000; 0x1f1605; 0xb6db6db1; 0xb6db6db3; 0xfffffff5; 0xb6db6dbd; 0xb6db6d9f;
   0xffffffad; 0xb6db6da4; 0x92492400; 0x124; 0x92492524; 0x92492000; 0x924; 0x92492924;
   0x92490000; 0x5b6d; 0xb6dbdb6d; 0xb6d9ffff; 0xfffadb6d; 0xb6dedb6d; 0xb6cfffff; 0xff96db6d;
   0xb6000000; 0x201705; 0x36db6db2; 0x7ffeb2ca; 0x7c7f931b; 0xb6db2596; 0x7fffb6db; 0x4fffffff;
   0x96db6db6; 0x5fef92cb; 0x7fcf8343; 0xb6db2db2; 0x7bffbbf8; 0x7fffffff; 0xb6db6db6; 0x7fffffff;
   0x7fffffff; 0xb6db6cb6; 0x7ffffe7f; 0x7f7ffe7f; 0xb6db6db6; 0x7f7fffff; 0x7ffffffe; 0x36db6db6;
   0x9249248; 0x1f1605; 0x2db6db6c; 0x6db6db2e; 0x4924924b; 0x6db6db6b; 0x6db6db32; 0x4924965b;
   0x6db6db5b; 0x6db6db92; 0x492492db; 0x6db6dadb; 0x6db6dc92; 0x492496db; 0x6db6d6db; 0x6db6c492;
   0x49249249; 0x24929249; 0x24932492; 0x49249249; 0x24949249; 0x24912492; 0x4925b6db; 0x6d800000;
   0x201804; 0x12482090; 0x3fff35fe; 0x6db65b6c; 0xb6db35b6; 0xffff37fe; 0x6db65b6d; 0xb6db35b6;
   0xffff37fe; 0x6db65b6c; 0x12493492; 0xb6db7db6; 0x6db6db6d; 0xfffffffe; 0xb6db7db6; 0x24925924;
   0xb6db35b6; 0xffff37fe; 0x6db65b6d; 0xb6db35b6; 0xffff37fe; 0x6db65b6d; 0x36db35b6; 0x3fff35fe;
   0x24924924; 0x201705; 0x24924924; 0x5b6db6db; 0x6db6db6c; 0x24924924; 0x5b6db6db; 0x6db6db6c;
   0x6db6db6c; 0xdb6db6db; 0x7ffedffe; 0x7ff3cffe; 0xdb65b6db; 0x7ff3cffe; 0x7ff3cffe; 0xdb6d96db;
   0x7ffedffe; 0x6db6db6c; 0x5b6db6db; 0x6db6db6c; 0x24924924; 0x5b6db6db; 0x6db6db6c; 0x24924924;
   0x9249248; 0x202000; 0x12492490; 0x5b6db6d8; 0x49249248; 0xb6db6db6; 0x5b6db6db; 0x49249249;
   0xb6d92db6; 0x5b6c16db; 0x49201249; 0xb6d92db6; 0x5b6016db; 0x49200249; 0xb6c925b6; 0x5b6186db;
   0x49208249; 0xb6cb65b6; 0x5b6582db; 0x49008249; 0xb6c925b6; 0x5b0002db; 0x49000049; 0xb64924b6;
   0x5b05b05b; 0x49049049; 0xb65b64b6; 0x5b2db2db; 0x49249249; 0xb6db6db6; 0x5b6db6db; 0x49249248;
   0x36db6db6; 0x9249248; 0x201804; 0x12000010; 0x3e4927be; 0x6d924b6c; 0xfe492cfe; 0xfe492cfe;
   0x6d925b6d; 0xfe4925fe; 0xfe493ffe; 0x6d925b6d; 0xfe496ffe; 0xfe49fffe; 0x6d92db6d; 0xfe4b3ffe;
   0xfe4bfffe; 0x6d96db6d; 0xfe4f7ffe; 0xfe49fffe; 0x6d96db6d; 0xfe5bfffe; 0xfe6ffffe; 0x6db6db6d;
   0x3edbfffe; 0x3edffffe; 0x24924924; 0x201804; 0x4800120; 0x3ff24ffc; 0x5b6496db; 0x7ff24bfe;
   0x7ff24ffe; 0xdb6496db; 0x7ff24bfe; 0x7ff24ffe; 0xdb6db6db; 0x7ff6fbfe; 0x7ff6effe; 0xdb65b6db;
   0x7ff6cbfe; 0x7ff3cffe; 0xdb6596db; 0x7ff2cbfe; 0x7ff24ffe; 0xdb6496db; 0x7ff24bfe; 0x7ff24ffe;
   0xdb6496db; 0x7ff24bfe; 0x3ff24ffc; 0x9200248; 0x201804; 0x9249240; 0x1ffffff8; 0xb6db6db6].
Definition emoji_data_2 : list N :=
  [0x5b6db6db; 0x7fffffff; 0xb6db6db6; 0x5b6db6db; 0x7fffffff; 0xb6db6db6; 0x5b6db6db; 0x7fffffff;
   0xb6db6db6; 0x5b6db6db; 0x7fffffff; 0xb6db6db6; 0x5b6db6db; 0x7fffffff; 0xb6db6db6; 0x5b6db6db;
   0x7fffffff; 0xb6db6db6; 0x5b6db6da; 0x1ffffff8; 0x12492490; 0x201804; 0x2400490; 0x3fc007fe;
   0x6db24bfc; 0xb6c927fe; 0xffc007fe; 0x6db24bff; 0xb6c927fe; 0xffc007fe; 0x6db24bff; 0xb6c927fe;
   0xffc007fe; 0x6db24bff; 0xb6c927fe; 0xffc007fe; 0x6db24bff; 0xb6c927fe; 0xffc007fe; 0x6db24bff;
   0xb6c927fe; 0xffc007fe; 0x6db24bff; 0x36c927fe; 0x3fc007fe; 0x24800124; 0x1f1705; 0x7ffffff9;
   0x6db6db6f; 0x6db6db67; 0xffffffeb; 0x6db6db7b; 0x6db6db3f; 0xffffff5b; 0x6db6dbdb; 0x6db6d9ff;
   0xf97ffadb; 0x65b6dedb; 0x65b6cdb6; 0xcb6d96db; 0x6db6f6db; 0x6db66db6; 0xdb6cb6db; 0x6db7b6db;
   0x6db36db6; 0xdb65b6db; 0x6dbdb6db; 0x6d892492; 0x49049249; 0x24000000; 0x201606; 0x12492492;
   0x49249248; 0x0; 0x92492492; 0x49249248; 0x0; 0x92492492; 0x5b6db6db; 0x5b6db6db;
   0xb6db6db6; 0x5b6db6db; 0x5b6db6db; 0xb6db6db6; 0x5b6db6db; 0x7fffffff; 0xb6db6db6; 0x5b6db6db;
   0x7fffffff; 0xb6db6db6; 0x5b6db6da; 0x5ffffff8; 0x12492490; 0x1f1804; 0x12492400; 0x7ffff801;
   0xb6db6497; 0xffff649f; 0xffffc00d; 0xb6db64bf; 0xffff24ff; 0xfff8006d; 0xb6d925ff; 0xfffb27ff;
   0xfff0036d; 0xb6c92fff; 0xfec93fff; 0xff801b6d; 0xb6c97fff; 0xfe49ffff; 0xf000db6d; 0xb24bffff;
   0xf64fffff; 0xe006db6d; 0x9247fffd; 0x920fffff; 0x124924; 0x80000000; 0x1f1804; 0x9249240;
   0x3fffffc2; 0x5b6db642; 0x5ffff644; 0x1fffe096; 0x5b6d96f6; 0x1f2c1624; 0x100824b6; 0x4b25b7b6;
   0x4b2db124; 0x925b6; 0x492dbdb2; 0x496d8921; 0x98492db2; 0x596ded92; 0x496c4820; 0x104964b6;
   0xd96f25ff; 0xd9620fff; 0xf0496db6; 0xd969ffff; 0xf907ffff; 0xf8092492; 0x48000000; 0x201705;
   0x92496d8; 0x12492db6; 0x492496db; 0x492496db; 0x92492db6; 0x492496db; 0x492496db; 0x92492db6;
   0x492496db; 0x492496db; 0x92492db6; 0x5b6db6db; 0x7ffff6db; 0xb6db6db6; 0x5b6db6db; 0x7ffff6db;
   0xb6db6db6; 0x5b6db6db; 0x7ffff6db; 0xb6db6db6; 0x5b6db6da; 0x5ffff6d8; 0x12492490; 0x1d1406;
   0x92492492; 0x49249240; 0x9200124; 0x96492492; 0xd9248016; 0xc002496d; 0x92492db6; 0x49007de0;
   0x492cb24; 0x925b6c92; 0x498009; 0x25b64925; 0x96c32400; 0x36001249; 0x64924924; 0x92480000;
   0x249249; 0x24924924; 0x80000000; 0x201804; 0x4920920; 0x3ffedb24; 0x5b6db6cb; 0x6db65b2e;
   0x7ffe0b24; 0xdb6db6db; 0x6db6db6c; 0x6dbe4ba4; 0xcb2db2cb; 0x619ecb27; 0x659ecb24; 0xcb6db6db;
   0x659edb6c; 0x659ffffe; 0xcb2db6db; 0x6cbedb6c; 0x7cfffffe; 0xdb6db6db; 0x6fb6db6c; 0x7ffffffe;
   0xdb6db6db; 0x6db6db6c; 0x3ffffffc; 0x9249248; 0x201406; 0x12492492; 0x49249248; 0x8000;
   0x92492492; 0x49259248; 0x18000; 0x924b6492; 0x4925b25f; 0x4093ff; 0x92596dfe; 0x482dffff;
   0x17ffff8; 0x96db6d92; 0x7ffdb648; 0x7ffd9000; 0xffdb6c92; 0xfb2db248; 0x48048000; 0x92492492;
   0x49249248; 0x201804; 0x2492490; 0x3ffffffc; 0x6db6db6c; 0xb6db6db6; 0xfffffffe; 0x6db6db6d;
   0xb6db6db6; 0x92492492; 0x24924924; 0x124b6492; 0x9e000; 0x2496d924; 0x124b6492; 0x92000;
   0x2496d924; 0x12492492; 0x92492492; 0x6db6db6c; 0xb6db6db6; 0xb6db6db6; 0x6db6db6c; 0x36db6db6;
   0x36db6db4; 0x24924924; 0x1f1605; 0x2492490; 0xe0000121; 0xb2492497; 0xf249249f; 0xe000d92d;
   0xb24b2cbf; 0xf2492cff; 0xf037d06d; 0xb2cb25ff; 0xf2db67ff; 0xfc90036d; 0xb6cb2fff; 0xfed93fff;
   0xfcc01b6d; 0xb6497fff; 0xfe49ffff; 0xff80db6d; 0xb6cbffff; 0xffcfffff; 0xff86db6d; 0xb6c7ffff;
   0xffc00000; 0x1f1704; 0x12492490; 0xb6db6db1; 0x6db2db65; 0xb6cb6dbd; 0xb64b6d9b; 0x6c02db2d;
   0xb2db6ded; 0x97f96cd9; 0x3ff2d96c; 0xb6c96f65; 0xb2496603; 0x5804b24; 0xb6c97b25; 0xfe4b360b;
   0xfc165b2d; 0xb2dbdb2d; 0xb2d9b64b; 0x25b2db24; 0xb6dedb25; 0xb6cdb64b; 0x6d96db6d; 0xb6d6db6d;
   0xb6000000; 0x201704; 0x12492490; 0x5b6db6d8; 0x4924924e; 0xb6db6db6; 0x5b6db6df; 0x492492ff;
   0xb6db6dfe; 0x5b6db7ff; 0x492497ff; 0x92492ffe; 0x4924bfff; 0xffff; 0x92497ffe; 0x4924bfff;
   0x1fff; 0x92492ffe; 0x5b6db7ff; 0x492492ff; 0xb6db6dbe; 0x5b6db6df; 0x4924925f; 0xb6db6db6;
   0x5b6db6d8; 0x1f1605; 0x12492490; 0x4924921; 0x92492495; 0x92092499; 0x2492d; 0x924924ac;
   0x804924d8; 0x20124964; 0x92492560; 0x20926c8; 0x24b6c; 0x92492b6c; 0x124936c8; 0x24125b25;
   0xb2495b0d; 0x8049b65b; 0x2402db6d; 0x924adb6c; 0x320db6d8; 0x2c96db6c; 0xb6c6db6d; 0xb6800000;
   0x201704; 0x9249048; 0x2db6d96c; 0x7fffd9fc; 0x5b6d96db; 0x6db6d96c; 0x7fffd9fe; 0x5b6d96db;
   0x6db6d96c; 0x7fffd9fe; 0x5b6d96db; 0x24925924; 0x7ffffffe; 0xdb6db6db; 0x24925924; 0x24925924;
   0xdb6d96db; 0x6db6d96c; 0x7fffd9fe; 0x5b6d96db; 0x6db6d96c; 0x7fffd9fe; 0x5b6d96db; 0x2db6d96c;
   0x201704; 0x12492490; 0x9249248; 0x49249248; 0xb6db6db6; 0x49249249; 0x49249248; 0xb6db6db6;
   0x49249249; 0x49249248; 0x92492492; 0x5b6db6db; 0x7fffffff; 0xfffffffe; 0x5b6db6db; 0x0;
   0x92492492; 0x49249249; 0x49249248; 0xb6db6db6; 0x49249249; 0x49249248; 0xb6db6db6; 0x9249248;
   0x1f1704; 0x24924920; 0x6db6db24; 0xffffffcb; 0x6db6db2b; 0x6db6db3f; 0xfffffa5b; 0x6db6d95b;
   0x6db6dbff; 0xffffd6db; 0x6db6dadb; 0x6db6cfff; 0xfffe96db; 0x6db6d6db; 0x6db67fff; 0xfff4b6db;
   0x6db6b6db; 0x6db62492; 0x4925b6db; 0x6db5b6db; 0x6c912492; 0x492db6db; 0x6d85b6db; 0x64000000;
   0x201704; 0x9249248; 0x2db6db6c; 0x7ffffffe; 0xdb6db6db; 0x7ff24bfe; 0x7fd00bfe; 0xdb65b6db;
   0x7f96d9fe; 0x7f8e49fe; 0xdb2d96db; 0x7e96497e; 0x7e80417e; 0xdb24b2db; 0x7e92497e; 0x7f82417e;
   0xdb2db2db; 0x7f9249fe; 0x7f8241fe; 0xdb6c96db; 0x7ff24bfe; 0x7ffe5ffe; 0x5b6db6db; 0x2db6db6c;
   0x202000; 0x9249248; 0x36db6db6; 0x5b6db6db; 0x49249249; 0xb6db6db6; 0x5b6db6db; 0x49249249;
   0xb6d925b6; 0x5b6002db; 0x49200249; 0xb6c965b6; 0x5b6182db; 0x49008249; 0xb6c965b6; 0x5b6002db;
   0x49200249; 0xb6c925b6; 0x5b0082db; 0x49048249; 0xb64b65b6; 0x5b0582db; 0x49008249; 0xb6c925b6;
   0x5b0002db; 0x49200249; 0xb6d925b6; 0x5b6db6db; 0x49249249; 0xb6db6db6; 0x5b6db6db; 0x49249248;
   0x12492490; 0x201704; 0x24800124; 0x36c921b6; 0x3f8001fe; 0x6d92496c; 0xb6c925b6; 0xff8101fe;
   0x6d92c96d; 0xb6cb65b6; 0xff83e1fe; 0x6d92d96d; 0xb6db6db6; 0xffdffdfe; 0x6db6d96d; 0xb6db6db6;
   0xff8fe1fe; 0x6d96c96d; 0xb6c925b6; 0xff8101fe; 0x6d92496d; 0xb6c925b6; 0xff8001fe; 0x6d92496c;
   0x36c921b6; 0x1f1704; 0x12492490; 0xb6db6db3; 0x6db6d965; 0xb6db6cbd; 0xb6db2c9b; 0x6db6592c].
Definition emoji_data_3 : list N :=
  [0xb6d96ded; 0xb6d964db; 0x64b0496d; 0xb6d92f6d; 0xb6d96659; 0x6cb2cb6d; 0xb2db7b6d; 0xb6db36db;
   0xdb65b6c; 0xb6dbdb6d; 0xb6d9b2db; 0x6db2cb6d; 0xb6dedb6d; 0xb6cdb6db; 0x6d96db6d; 0xb6d6db6d;
   0xb6000000; 0x201704; 0x12492490; 0x4b6db6d8; 0x796db6d8; 0xb6db6db6; 0x7f2db6db; 0x7fadb64b;
   0xb6db6d96; 0x4bedb64b; 0x4bfcb64b; 0xb6db6db6; 0x5b7f96db; 0x5b2ff2db; 0xb6cb6db6; 0x5b65fe5b;
   0x5b6cff5b; 0xb6db6db6; 0x5b6d97db; 0x5b6d97f8; 0xb6db6db6; 0x5b6db6ff; 0x5b6db65f; 0xb6db6d96;
   0x5b6db6c8; 0x201704; 0x24924924; 0x3fff7fbe; 0x7fffff9e; 0x6db6db2d; 0xffffff9e; 0xffffffbe;
   0x6db6db6c; 0x3e000; 0x3e000; 0x2496c924; 0x1243e492; 0x3e000; 0x6db6db6c; 0xb6dbedb6;
   0xb6dfedb6; 0x6db6db6c; 0xb6dbedb6; 0x124be492; 0x2496c924; 0x124be492; 0x124be492; 0x2496c924;
   0x124b6490; 0x201704; 0x249248; 0x24b6db6c; 0x6016db6c; 0x592db6db; 0x6496db6c; 0x7c02db6c;
   0xdb25b6db; 0x6c92db6c; 0x7f805b6c; 0xdb64b6db; 0x6d925b6c; 0x7ff00b6c; 0xdb6c96db; 0x6db24b6c;
   0x7ffe016c; 0xdb6d92db; 0x6db6496c; 0x7fffc02c; 0xdb6db25b; 0x6db6c92c; 0x7ffff804; 0x5b6db64b;
   0x2db6d924; 0x181704; 0x4924836; 0xdb6c3fff; 0xfc6db6db; 0xb6db6c7f; 0xdbfe6d92; 0xdbb6c36c;
   0x7fc3fe6d; 0x92dbb641; 0x2c7c003e; 0x6c925bb6; 0x412c7fc3; 0xfe6d92db; 0xb6c36c7f; 0xc3fe6db6;
   0xdbb6db6c; 0x7ffffe6d; 0xb6da36db; 0x6c000000; 0x1f1704; 0x4800120; 0x6d924b64; 0xdb00124b;
   0x6d925b6b; 0x6c925b76; 0xd800925b; 0x6c92db5b; 0x6492dbb6; 0xc00492db; 0x6496dadb; 0x2496ddb6;
   0x2496db; 0x24b6d6d9; 0x24b6edb0; 0x124b6d9; 0x25b6b6c9; 0x25b76d80; 0x925b6c9; 0x2db5b649;
   0x2dbb6c00; 0x492db649; 0x6d8db249; 0x6c800000; 0x201705; 0x2db6db64; 0xffff6d96; 0xffff2596;
   0x6db64b24; 0xfeff6db6; 0xfa5ffffe; 0x6db6db6c; 0xf7ff2592; 0xfffb65b2; 0x6db2db6c; 0xbffb3db6;
   0x9ffbfffe; 0x6db6db6d; 0xfffbfffe; 0xdffbfffe; 0x65b6db6d; 0xf6dffffe; 0xfefffffe; 0x6db6db6d;
   0xfffffffe; 0x7ffffffe; 0x2db6db6c; 0x12492490; 0x201705; 0x92496d8; 0x24924b6c; 0xffe;
   0x492496db; 0x24924b2c; 0xf0e; 0x492496db; 0x24924b6c; 0xffe; 0x492496db; 0x24924b6c;
   0x6db6dffe; 0xdb6db6db; 0x6db6db6c; 0x7ffffffe; 0xdb6db6db; 0x6db6db6c; 0x7ffffffe; 0xdb6db6db;
   0x6db6db6c; 0x7ffffffc; 0x5b6db6d8; 0x4924920; 0x201705; 0x125b6db6; 0x492db6da; 0x3ffedb;
   0x925b6db6; 0x492db6db; 0x3ffedb; 0x925b6db6; 0x492db6db; 0x3ffedb; 0x925b6db6; 0x492cb6db;
   0x3c3edb; 0x925b6db6; 0x492db6db; 0x3ffedb; 0x925b6db6; 0x492db6db; 0x3ffedb; 0x925b6db6;
   0x492db6db; 0x3ffed8; 0x125b6db6; 0x49000; 0x201705; 0x2db6db6c; 0x36db6db6; 0xfffffffe;
   0x6db6db6d; 0xb6db6db6; 0xffffffbe; 0x6db6db2d; 0xb6db6c96; 0xfffffe9e; 0x6db6db2d; 0xb6db6db6;
   0xfffffffe; 0x6db6db6d; 0xb6db6db6; 0xfffffffe; 0x6db6db6d; 0xb6db6db6; 0xfffffffe; 0x6db6db6d;
   0xb6db6db6; 0x3ffffffe; 0x2db6db6c; 0x2492490; 0x201705; 0x49249248; 0x24924924; 0x24924924;
   0x49249249; 0x24924924; 0x24924924; 0x49249249; 0x24924924; 0x24924924; 0x49249249; 0x24924924;
   0x7ffffffe; 0xdb6db6db; 0x6db6db6c; 0x7ffffffe; 0xdb6db6db; 0x6db6db6c; 0x7ffffffe; 0xdb6db6db;
   0x6db6db6c; 0x7ffffffe; 0x5b6db6d8; 0x4924920; 0x201705; 0x36c925b6; 0x5b6497ff; 0x7fe007ff;
   0xb6c925b6; 0x5b6497ff; 0x7fe007ff; 0xb6c925b6; 0x5b6497ff; 0x7fe007ff; 0xb6c925b6; 0x5b6497ff;
   0x7fe007ff; 0xb6c925b6; 0x5b6497ff; 0x7fe007ff; 0xb6c925b6; 0x5b6497ff; 0x7fe007ff; 0xb6c925b6;
   0x5b6497ff; 0x7fe007fe; 0x36c925b6; 0x248; 0x201705; 0x2db6db6c; 0xbffffffe; 0xfffffffe;
   0x24924924; 0x0; 0x0; 0x6db6db6c; 0xfffffdbe; 0xfffffc1e; 0x6db6d92d; 0xfffffc9e;
   0xfffffc9e; 0x6db6d96d; 0xfffffcbe; 0xfffffebe; 0x6db6db6c; 0x0; 0x0; 0x24924924;
   0xfffffffe; 0x7ffffffe; 0x2db6db6c; 0x12492490; 0x201705; 0x5b6db6d8; 0x7ffffffc; 0x7ffffffe;
   0xdb6db6db; 0x2492496c; 0x1fe; 0x492492db; 0xb6c; 0x24925ffe; 0xdb6db6db; 0x7fffdb0c;
   0x7fffff0e; 0xdb6db6db; 0x6db6df6c; 0xffe; 0x492492db; 0x16c; 0x2492497e; 0xdb6db6db;
   0x7ffffffc; 0x7ffffffe; 0x5b6db6d8; 0x4924920; 0x201705; 0x36db6db6; 0x7ffffffe; 0x7fffffff;
   0xb6db6db6; 0x7fffffff; 0x7fffffff; 0xb6db6db6; 0x7fffffff; 0x7fffffff; 0xb6db6db6; 0x7fffbeff;
   0x7ffffeff; 0x92492492; 0x49249249; 0x7fffffff; 0xb6db6db6; 0x49249248; 0x40040; 0xb6db6db6;
   0x7fffb6ff; 0x7ffff7fe; 0x36db6db6; 0x9249248; 0x201705; 0x2db6db6c; 0xbffffff6; 0xfffffff6;
   0x6db6db65; 0xfffffff6; 0xffffffbe; 0x6db6db2d; 0xffffffbe; 0xfffffffe; 0x6db6db6d; 0xfffffffe;
   0xfffffffe; 0x6db6db6d; 0xb6db6db6; 0x0; 0x24924924; 0x12492492; 0xfffffffe; 0x6db6db6d;
   0xfffffffe; 0x7ffffffe; 0x2db6db6c; 0x12492490; 0x1f1705; 0xb6db6db1; 0xb6db6db3; 0x2db6dbf5;
   0xb6db6dbc; 0x96db6fd9; 0x6db6ffa5; 0xb6db6de5; 0xb6df3ec9; 0x24be7d6d; 0xb2db6f6d; 0x96fff6db;
   0x25dfeb6d; 0xb6db7b6d; 0x9679b6df; 0xffff5b6d; 0xb6dbdbff; 0xfffdb7ff; 0xfffadb6d; 0xb6deffff;
   0xf3e7ffff; 0xffd6db6d; 0xb6024924; 0x90000000; 0x1f1605; 0x12492490; 0x12492490; 0x4;
   0x92492494; 0x92492480; 0x4000024; 0x924924a4; 0x92492400; 0x4800124; 0x96d92524; 0x92492000;
   0x4800924; 0x92492924; 0x92490001; 0x4004925; 0x92494924; 0x92480000; 0x24924; 0x924a4924;
   0x92400000; 0x24924; 0x92000000; 0x201705; 0x24924924; 0x12492496; 0x1e; 0x2492492d;
   0x124924b6; 0xfe; 0x24924b6d; 0x124925b6; 0xffe; 0x24925b6d; 0x12496db6; 0xfffffffe;
   0x6db6db6d; 0xb6db6db6; 0xfffffffe; 0x6db6db6d; 0xb6db6db6; 0xfffffffe; 0x6db6db6d; 0xb6db6db6;
   0x7ffffffe; 0x2db6db6c; 0x12492490; 0x1f2000; 0x49249248; 0x92492492; 0xdb6db6de; 0xdb6db6c4;
   0x92492496; 0xdb6db6f6; 0xc92db624; 0x800924b6; 0x492db7b6; 0xdb124; 0x100925b6; 0xd92dbdb6;
   0xd82d8924; 0x90492db6; 0xd96dedb6; 0xc16c4924; 0x80496db6; 0xcb6f6db6; 0xb624924; 0x124b6db2;
   0x5b7b6490; 0x5b124000; 0x925b2496; 0xdbdb0016; 0xd8924124; 0x92db6db6; 0xdedb6db6; 0xc4924924;
   0x96db6db6; 0xd6db6db6; 0x4924920; 0x201605; 0x3ffffffe; 0x7fffffff; 0x7fffffff; 0xfffffffe;
   0xffffffff; 0x7fffffff; 0xfffffffe; 0x7fffffff; 0x7fffffff; 0xb6db6db6; 0x5b6db6db; 0x7fffffff;
   0xb6db6db6; 0x5b6db6db; 0x7fffffff; 0xb6db6db6; 0x49249248; 0x49249248; 0x92492492; 0x49249248;
   0x49249248; 0x12492492; 0x201605; 0x2cb2db64; 0xbefb6d96; 0xf34f2596; 0x2592cb24; 0x96596db6;
   0xfe4ffffe; 0x6596db6c; 0x12492592; 0x9ef965b2; 0x6db6db6c; 0x924b3db6; 0x10086196; 0x6db6db6d].
Definition emoji_data_4 : list N :=
  [0xf2cb2cb2; 0x2400010; 0x2cb2db6c; 0xfe5ffffe; 0xb24b2c30; 0x24924924; 0x9ef9e596; 0x77dffffe;
   0x25965924; 0x1f1705; 0x12492490; 0xdb6db6ca; 0x49249248; 0x92492406; 0xdb6db252; 0x49249244;
   0x92490036; 0xdb6c9292; 0x49240224; 0x924001b6; 0xdb25b5b6; 0xd9279924; 0x920b0db6; 0xdb24adb6;
   0xd924c924; 0x92006db6; 0xdb256db6; 0xdb264924; 0x92036db6; 0xdb236db6; 0xdb024924; 0x92012492;
   0x48000000; 0x201804; 0x4924120; 0x3fffc3fc; 0x5b6db2db; 0x7fffcbfe; 0x7fffc3fe; 0xdb6db2db;
   0x7fffcbfe; 0x7fffc3fe; 0xdb6db2db; 0x7fffcbfe; 0x24924124; 0x49249249; 0x800; 0x24924124;
   0xdb6db2db; 0x7fffcbfe; 0x7fffc3fe; 0xdb6db2db; 0x7fffcbfe; 0x7fffc3fe; 0x5b6db2db; 0x7fffcbfc;
   0x3fffc3fc; 0x9248248; 0x201804; 0x9209240; 0x1ffd9ff8; 0xb6d92db6; 0x5b6d96db; 0x7ffd9fff;
   0xb6d92db6; 0x5b6d96db; 0x7ffdbfff; 0xb6db6db6; 0x492db249; 0x492fb248; 0xb6db6db6; 0x5b6db6db;
   0xcb000; 0xb6db6db6; 0x5b6db6db; 0x7ffdbfff; 0xb6d92db6; 0x5b6d96db; 0x7ffd9fff; 0xb6d92db6;
   0x5b6d96da; 0x1ffd9ff8; 0x12492490; 0x201804; 0x490; 0x3ff83ffe; 0x6db65b6c; 0xb6d93ffe;
   0xfff83ffe; 0x6db65b6d; 0xb6d93ffe; 0xfff83ffe; 0x6db65b6d; 0x924b6492; 0x16000; 0x2496c924;
   0x124b6492; 0x36000; 0x6db6db6c; 0xfff93ffe; 0xfff83ffe; 0x6db65b6d; 0xfff93ffe; 0xfff83ffe;
   0x6db65b6d; 0xbff93ffe; 0x3ff83ffe; 0x24900924; 0x1f1804; 0x9240; 0x3fff2; 0x4925b6da;
   0x492db6c0; 0x1fffd2; 0x496db6d2; 0x4b6db600; 0x10fffe92; 0x496db692; 0x4b6db000; 0x97fff492;
   0xcb6db492; 0xdbed8004; 0xbfffa492; 0x5b6da490; 0xdb6c0021; 0xfffd24b6; 0xdb6d2496; 0xdb60000f;
   0xffe92496; 0xdb6924b6; 0xdb00007f; 0xfe000092; 0x48000000; 0x202000; 0x12492490; 0x5b6db6d8;
   0x49249248; 0xb6db6db6; 0x5b6db6db; 0x49249249; 0xb6db25b6; 0x5b6000db; 0x49200049; 0xb6c924b6;
   0x5b0090db; 0x49049049; 0xb64b64b6; 0x5b05b0db; 0x49049049; 0xb64b64b6; 0x5b0db0db; 0x49049049;
   0xb64b64b6; 0x5b05b0db; 0x4904b049; 0xb6c964b6; 0x5b0000db; 0x49200049; 0xb6d924b6; 0x5b6c92db;
   0x49249249; 0xb6db6db6; 0x5b6db6db; 0x49249248; 0x36db6db6; 0x9249248; 0x201804; 0x12492490;
   0x3ffffffe; 0x6db6db6c; 0xfffffffe; 0xfffffffe; 0x6db6db6d; 0xb6db6db6; 0x12492492; 0x24925b24;
   0x12492c92; 0x12492492; 0x24924b24; 0x12492592; 0x12492492; 0x24925b24; 0x12496c92; 0x12492492;
   0x6db6db6c; 0xfffffffe; 0xfffffffe; 0x6db6db6d; 0x3ffffffe; 0x3ffffffe; 0x24924924; 0x201606;
   0x49249248; 0x24924924; 0x0; 0x4924b249; 0x2496d924; 0x12c800; 0x492c9249; 0x24924924;
   0x24966924; 0x5b6cb6db; 0x6db65b6c; 0x7ff66ffe; 0xdb6db6db; 0x6db6db6c; 0x7ffffffe; 0xdb6db6db;
   0x6db6db6c; 0x7ffffffe; 0x5b6db6db; 0x6db6db6c; 0x3ffffffc; 0x9249248; 0x201505; 0x9249248;
   0xb6db6db6; 0x5b6db6db; 0x49249249; 0xb6db6db6; 0x5b6db6db; 0x49249249; 0xb6db6db6; 0xffffffff;
   0x7fffffff; 0xfffffffe; 0xffffffff; 0x7fffffff; 0xfffffffe; 0xffffffff; 0x49249248; 0x12492492;
   0x49249248; 0x0; 0x12492492; 0x9249248; 0x201804; 0x12492490; 0x3ffffffe; 0x6db6db6c;
   0xfffffffe; 0xfffffffe; 0x6db6db6d; 0xfffffffe; 0x92496492; 0x24924924; 0x12492492; 0x12000;
   0x24924924; 0x124b2492; 0x12000; 0x2492c924; 0x12492492; 0xb6dbedb6; 0x7fffffff; 0xfffffffe;
   0xfffffffe; 0x7fffffff; 0xfffffffe; 0x3ffffffe; 0x24924924; 0x201804; 0x4924920; 0x3ffffffc;
   0x7fffffff; 0x7ffffffe; 0x7ffffffe; 0xfffffffb; 0x7ffffffe; 0x7ffffffe; 0x492492db; 0x201fe;
   0x281fe; 0x492d96db; 0x2496cbfe; 0x281fe; 0x492592db; 0x2492497e; 0x6db6db7e; 0x5b6db6db;
   0x6db6db6e; 0x6db6db7e; 0x5b6db6db; 0x6db6db6c; 0x2db6db6c; 0x9249248; 0x201705; 0x9249248;
   0xb6db6db6; 0x5b6db6df; 0x492497ff; 0xb6db6db6; 0x5b6db6ff; 0x492ff27f; 0xb6db6db6; 0x5b7f92df;
   0x5fff9acf; 0xb6db6db6; 0x5fffb6cf; 0x5fff92cf; 0xb6db6d96; 0x5b6f96df; 0x492ff27f; 0xb6db6db6;
   0x5b6db7ff; 0x492497ff; 0xb6db6db6; 0x5b6db6da; 0x9249248; 0x12492490; 0x201804; 0x12492490;
   0x3ffffffe; 0x6db6db6c; 0xfffffffe; 0xfffffffe; 0x6db6db6d; 0xb6db6db6; 0x12492492; 0x24925b24;
   0x12492c92; 0x12492492; 0x24924b24; 0x12492592; 0x12492492; 0x24925b24; 0x12496c92; 0x12492492;
   0x6db6db6c; 0xfffffffe; 0xfffffffe; 0x6db6db6d; 0x3ffffffe; 0x3ffffffe; 0x24924924; 0x201705;
   0x2db6db6c; 0x5b6db6db; 0x6db6db6c; 0x6db7fb6c; 0x5b6db6db; 0x6db6db6c; 0x24b64f24; 0x496db649;
   0x24b6db24; 0xd2cb00; 0x496db649; 0x24b2db24; 0xd2db00; 0x496db649; 0x24b6db24; 0x6df2cf6c;
   0xdb6db6db; 0x6db6db6c; 0x7ffffffe; 0xdb6db6db; 0x6db6db6c; 0x3ffffffc; 0x9249248; 0x201804;
   0x9249248; 0x7ffffffc; 0xb6db6db6; 0x7fffffff; 0x7ffeffff; 0xb6db6db6; 0x7feff7ff; 0x7fffffff;
   0xb6db6db6; 0x7f7ffeff; 0x7fffffff; 0xb6db6db6; 0x7f7ffeff; 0x7fffffff; 0xb6db6db6; 0x7f3ffeff;
   0x7fbfffff; 0xb6db6db6; 0x7fe7f7ff; 0x7ffeffff; 0xb6db6db6; 0x7fffffff; 0x7ffffffc; 0x12492490;
   0x1f2000; 0x24924924; 0x6db6db6c; 0x4924924b; 0x6db6db6b; 0x6db6db72; 0x4924925b; 0x6c92db5b;
   0x6002db92; 0x400492db; 0x6496dadb; 0x6416dc92; 0x482496db; 0x6cb6d6db; 0x60b6e490; 0x124b6d9;
   0x25b6b6c0; 0x5b72480; 0x925b6db; 0x2db5b6d8; 0x2db92490; 0x492db6d9; 0x6dadb001; 0x6dc92002;
   0x496d924b; 0x6d6d925b; 0x6e492492; 0x4b6db6db; 0x6b6db6db; 0x62492492; 0x4b6db6db; 0x9249248;
   0x201704; 0x4800; 0x12497c90; 0xfc00; 0x2492d924; 0x12497c92; 0xfc00; 0x2492d924;
   0x12497c92; 0xfc00; 0x6db6db6c; 0xfffffffe; 0xfffffffe; 0x6db6db6d; 0xfffffffe; 0x9249fc92;
   0x2492d924; 0x12497c92; 0xfc00; 0x2492d924; 0x12497c92; 0xfc00; 0x2492d924; 0x12497c90;
   0x1f1704; 0x12492490; 0x924b6d91; 0x24925925; 0xb6db2db4; 0x92496489; 0x24b6fb2d; 0xb6db6dac;
   0xb2db6c49; 0x2486496d; 0xb6cb6d2c; 0x96d96259; 0x25b24b6d; 0xb6db6b6c; 0x924912c9; 0x24925b2d;
   0xb6db4b24; 0x92489249; 0x2492db6d; 0xb6da4924; 0x92449249; 0x2496db6d; 0xb6524924; 0x92000000;
   0x201704; 0x12492490; 0x5fffbaf8; 0x7ffe3b48; 0xb6db2d96; 0x7fff92c9; 0x7b7fb7db; 0xb6db6db6;
   0x792fb6db; 0x782e9340; 0xb25b6db6; 0x7b6f9ad9; 0x610fbb78; 0xb65b6db6; 0x792fffff; 0x793fffff;
   0xb6db6db6; 0x492fffff; 0x682fffff; 0xb6db6db6; 0x7fffffff; 0x7fffffff; 0xb6db6db6; 0x5ffffff8;
   0x1f1704; 0x4924920; 0x24924920; 0x4924924b; 0x6db6db69; 0x24924922; 0x4904925b; 0x6d96db49;
   0x24924912; 0x492492db; 0x6db6da49; 0x24924890; 0x490496c9; 0x6d96d249; 0x24924492; 0x4924b6db;
   0x6db69249; 0x24922490; 0x4925b6d9; 0x6db49249; 0x24912492; 0x492db6db; 0x6d849249; 0x24000000].
Definition emoji_data_5 : list N :=
  [0x1f1704; 0x2400; 0x12496c80; 0x3f804; 0x924b6494; 0x924b6480; 0x1fc024; 0x925b24a4;
   0x925b2400; 0xfe016d; 0xb6db6f6d; 0xb6db67ff; 0xffffeb6d; 0xb6db7b6d; 0xb6db36db; 0x7fb64924;
   0xb6494924; 0xb6480001; 0xfc024925; 0xb24a4925; 0xb240000f; 0xe012492d; 0x9202492d; 0x90000000;
   0x201704; 0x12400490; 0x5b6497f8; 0x7fe007fe; 0xb6c925b6; 0x5b6497ff; 0x7fe007ff; 0xb6c925b6;
   0x5b6497ff; 0x7fe007ff; 0xb6c925b6; 0x5b6497ff; 0x7fe007ff; 0xb6c925b6; 0x5b6497ff; 0x7fe007ff;
   0xb6c925b6; 0x5b6497ff; 0x7fe007ff; 0xb6c925b6; 0x5b6497ff; 0x7fe007ff; 0xb6c925b6; 0x5b6497f8;
   0x1f2000; 0x12492490; 0x5b6db6da; 0xdb6db6dc; 0x92492496; 0xdb6db6d6; 0xdb6db6e4; 0x924924b6;
   0xc925b6b6; 0xc005b724; 0x800925b6; 0xd92db5b6; 0xd82db924; 0x90492db6; 0xc96dadb2; 0x16dc920;
   0x2496db2; 0x4b6d6d92; 0xb6e4924; 0x124b6db6; 0x5b6b6db0; 0x5b724920; 0x925b6db2; 0xdb5b6d82;
   0xdb924904; 0x92db6d96; 0xdadb6db6; 0xdc924924; 0x96db6db6; 0xd6db6db6; 0xc4924924; 0x92492492;
   0x1f1704; 0x12492490; 0xb6db6db1; 0x6db6db65; 0xb6db6dbd; 0xb6db6d9b; 0x6db6db2d; 0xb6db6ded;
   0xb6db6c49; 0x24924924; 0x92492524; 0x92492249; 0x24924924; 0x92492924; 0x92491249; 0x24925b6d;
   0xb6dbdb6d; 0xb6d9b6db; 0x6db2db6d; 0xb6dedb6d; 0xb6cdb6db; 0x6d96db6d; 0xb6d6db6d; 0xb6000000;
   0x201704; 0x2412480; 0x5be5a7c0; 0x19e7c7c2; 0x16db6d96; 0x4b25b659; 0x41a7c07b; 0xb2cb64b6;
   0x5925b2cb; 0x7c000; 0xb6db6db6; 0x5b6db6db; 0x7fffffff; 0xb6db6db6; 0x5b6db6db; 0x4927f248;
   0x924b6492; 0x5925a64b; 0x6b07c60f; 0xb65b6592; 0x5825b6c1; 0x6067c678; 0xb2db6db6; 0xbe5a7c8;
   0x201704; 0x24924924; 0x36db6db6; 0x7f7f7cfe; 0x6db6db6d; 0xf2492496; 0xf249249e; 0x6d92496d;
   0xf6c925b6; 0xf6c925be; 0x6db2db6d; 0xf6db6db6; 0xf6d93d9e; 0x6db65b6d; 0xf6db6db6; 0xf6c9a5be;
   0x6db24b6d; 0xf6c925b6; 0xf64924be; 0x6c92496d; 0xf2492496; 0xf6db6dbe; 0x6db6db6c; 0x36db6db6;
   0x201704; 0x8000; 0x492c920; 0x3c000; 0x4b2592c8; 0x2592c964; 0x783c1e0; 0x4b2592c9;
   0x2492c924; 0x3c000; 0x4925b249; 0x6db6db6c; 0x7ffffffe; 0xdb6db6db; 0x6db6db6c; 0x2493c924;
   0x49259249; 0x2492c924; 0x103c000; 0x4b2592c9; 0x2592c964; 0x3c000; 0x49259248; 0x492c920;
   0x1f1704; 0x12492490; 0xb6db6db1; 0x6db6db65; 0xb6db6d95; 0xb6db6c8b; 0x6db6c82d; 0xb6db64ad;
   0xb6db245b; 0x6db0016d; 0xb6c9256d; 0xb6c922db; 0x7e800b6d; 0xb6492b6d; 0xb24916d9; 0x20005b64;
   0x92495b64; 0x9248b600; 0x2d924; 0x924ac924; 0x92448000; 0x164924; 0x92424924; 0x92000000;
   0x201704; 0x24000; 0x12436490; 0x3e000; 0x2496c924; 0x124b6492; 0x36000; 0x24964924;
   0x124b6492; 0x36000; 0x6db65b6c; 0xb6db6db6; 0xfe4924fe; 0x6c92496d; 0xb6db6db6; 0x924b6492;
   0x24964924; 0x124b6492; 0x36000; 0x24964924; 0x124b6492; 0x36000; 0x2496c924; 0x12436490;
   0x201704; 0x9249248; 0x2db6db6c; 0x7ffffffe; 0x5b6db6db; 0x6db6db6c; 0x7ffffffe; 0xdb6db6db;
   0x6db6db6c; 0x2492c924; 0x49259249; 0x2492c924; 0x2497e924; 0x4925b249; 0x2493c924; 0x24924924;
   0x5b6db6db; 0x6db6db6c; 0x6db6db6c; 0x5b6db6db; 0x6db6db6c; 0x6db6db6c; 0x5b6db6db; 0x2db6db6c;
   0x201605; 0x9249248; 0x0; 0x92492492; 0x4925b248; 0x259200; 0x925bec92; 0x493d9e48;
   0x3d9e00; 0x925b6c92; 0x496db648; 0x3ffe00; 0x925bec92; 0x497ffe48; 0x6ef600; 0x924b6492;
   0x5b6cb6db; 0x7ffeffff; 0xb6db6db6; 0x5b6db6db; 0x7fffffff; 0xb6db6db6; 0x5b6db6d8; 0x201605;
   0x12492490; 0x0; 0x24924924; 0x12492492; 0x3c00; 0x2492db24; 0x1249ff92; 0x3ff80;
   0x2496db64; 0x124bfff2; 0xbffe0; 0x6db2492d; 0xfff9249e; 0xfff8001e; 0x6db6492d; 0xffff24be;
   0xffff00fe; 0x6db6cb6d; 0xffffeffe; 0xfffffffe; 0x6db6db6c; 0x3edb6db6; 0x201605; 0x2db6db6c;
   0x36db6db6; 0xfffffffe; 0x6db6db6d; 0xb6db6db6; 0xfffffffe; 0x6db6db6c; 0x0; 0xb6db6db6;
   0x6db6db6d; 0xfffffffe; 0xfffffffe; 0x6db6db6d; 0xb6db6db6; 0x0; 0x6db6db6c; 0xb6db6db6;
   0xb6db6db6; 0x6db6db6d; 0xb6db6db6; 0x36db6db6; 0x2db6db6c; 0x1f1705; 0xb6c92db1; 0xb6c92ff3;
   0x6c925ff5; 0xb6496dbd; 0xb6497fdb; 0x6492ffad; 0xb24b6ded; 0xb24bfedb; 0x2497fd6d; 0x925b6f6d;
   0x925ff6d9; 0x24bfeb6c; 0x92db7b6c; 0x92ffb6c9; 0x25ff5b64; 0x96dbdb64; 0x97fdb649; 0x2ffadb24;
   0xb6dedb24; 0xbfe5b249; 0x7fd6d925; 0xb6000000; 0x90000000; 0x201705; 0x36db6db6; 0x79ffffdf;
   0x79feffdf; 0xb6db6db6; 0x797cbedf; 0x79feffdf; 0xb6db6db6; 0x7fffffff; 0x7fffffff; 0xfffb6fbe;
   0xffec96df; 0x7fe016ff; 0xffc925be; 0xffe497ff; 0x7fe003ff; 0xffc925fe; 0xffe497ff; 0x7fe017ff;
   0xfed92ffe; 0x7ffcbfff; 0x7ffffffe; 0x3fff7ffe; 0x9249248; 0x1f1705; 0x2db6db6c; 0x6db6db6c;
   0x4924925b; 0x6db6db6b; 0x6db6db72; 0x492496db; 0x6db6db09; 0x24925b00; 0x100b649; 0x2592d849;
   0x2496d800; 0x80db249; 0x6496c249; 0x2496c000; 0x402db6db; 0x6db6b6db; 0x6db7ffff; 0xffedb6db;
   0x6db5b6db; 0x6db3ffff; 0xffe5b6db; 0x6d849249; 0x24000000; 0x201605; 0x5b6db658; 0x6db6db2c;
   0x24925f3e; 0x4924965b; 0x24924b2c; 0x6db6c000; 0xdb6db249; 0x24924924; 0xf3e; 0x4924965b;
   0x6db6db2c; 0x7fffff3e; 0x49249249; 0x0; 0x24924924; 0xdb6db6db; 0x6db6db6c; 0x0;
   0x49249249; 0x6db6db6c; 0x7ffffffc; 0x5b6db6d8; 0x201705; 0x36db6db2; 0x7ffeb2ca; 0x7fff931b;
   0xb6db2596; 0x7f7fb6db; 0x7fffffff; 0xb6db6db6; 0x7b7f92cb; 0x7d7f8343; 0xb6db2db2; 0x7b7fbbf8;
   0x7b3fffff; 0xb6db6db6; 0x7b6fffff; 0x6bffffff; 0xb6db6db6; 0x7b3fffff; 0x7b3fffff; 0xb6db6db6;
   0x7fffffff; 0x7ffffffe; 0x36db6db6; 0x9249248; 0x1f1605; 0x2db24b6c; 0x6d924b6c; 0x4900124b;
   0x6d925b6b; 0x6c925b62; 0x4800925b; 0x6c92db5b; 0x6492db12; 0x492492db; 0x64b6dadb; 0x2496d892;
   0x402496db; 0x65b6d6d9; 0x6cb6c490; 0x4924b6d9; 0x25b6b6c9; 0x25b62480; 0x925b6c9; 0x2db5b649;
   0x2db12400; 0x4925b649; 0x6d800000; 0x1f1605; 0xb6db6db1; 0xfffffff3; 0xfffffff5; 0xb6db6dbf;
   0xffdfffdf; 0xff9fffad; 0xb6db6dff; 0xfedffeff; 0xe59ffd6d; 0xb6db6fff; 0xb6fff7ff; 0x24ffeb6d;
   0xb2db7ffd; 0xb7ffbffd; 0x27ff5b6c; 0xb6dbfffc; 0xbffdfff9; 0xfffadb6d; 0xb6dfffff; 0xffefffff;
   0xff96db6d; 0xb6000000; 0x201705; 0x12492db6; 0x4924bffe; 0x49249fff; 0x92492db6; 0x4924bfff;
   0x49249fff; 0x92492db6; 0x4924bfff; 0x49249fff; 0x92492df6; 0x4924bfff; 0x4924bfff; 0xb6db6df6;
   0x5b6dbfff; 0x5b6dbfff; 0xb6db6db6; 0x5b6dbfff; 0x5b6dbfff; 0xb6db6db6; 0x5b6dbfff; 0x5b6dbffe;
   0x36db6db6; 0x1248; 0x201605; 0x2db6db6c; 0x36db6d96; 0xb6db6c1e; 0x6db6d92d; 0xb6db24fe].
Definition emoji_data_6 : list N :=
  [0xb6d905fe; 0x6db24b6d; 0xb6c92ffe; 0xb2092ffe; 0x64925b6d; 0x82497ffe; 0x2497ffe; 0x64925b6d;
   0xb6492ffe; 0xb64127fe; 0x6db24b6d; 0xb6d925fe; 0xb6db20fe; 0x6db6d92d; 0xb6db6c9e; 0x36db6d86;
   0x2db6db6c; 0x1f2000; 0x49249248; 0x92492492; 0xdb6db6de; 0xdb6db6c4; 0x92492496; 0xdb6db6f6;
   0xd925b624; 0x800924b6; 0x4925b7b6; 0x805b124; 0x120925b2; 0xdb2dbdb6; 0xdb0d8924; 0x92092d92;
   0xd92dec00; 0xd86c4800; 0x90496c96; 0xc96f60b6; 0xc3624124; 0x24b65b6; 0x5b7b60b0; 0x5b124000;
   0x925b2492; 0xdbdb2016; 0xd8924024; 0x92db6db6; 0xdedb6db6; 0xc4924924; 0x96db6db6; 0xd6db6db6;
   0x4924920; 0x201705; 0x36db6db6; 0x5b6db6da; 0x7fffffff; 0xb6db6db6; 0x5b6c36db; 0x7ffc1fff;
   0xb6d92db6; 0x5b2496db; 0x7f0010ff; 0xb64924b6; 0x5b0490db; 0x7f6480ff; 0xb6d965b6; 0x5b6496db;
   0x7fe407ff; 0xb6c925b6; 0x5b6186db; 0x7fe583ff; 0xb6cb65b6; 0x5b6db6db; 0x7ffffffe; 0x36db6db6;
   0x9249240; 0x201705; 0x2db6db64; 0xfeff6d96; 0xfe7f2596; 0x6cb64b24; 0xfeff6db6; 0xdffffffe;
   0x6db6db6c; 0xffcf2592; 0xffcf65b2; 0x6db6db6c; 0xf7ff3db6; 0xfffffffe; 0x6db6db6d; 0xfffffffe;
   0xfffffffe; 0x6db6db6d; 0xfffffc3e; 0xfefffc3e; 0x6cb6db6d; 0xfefffffe; 0x7ffffffe; 0x2db6db6c;
   0x12492490; 0x201705; 0x5b6db6d8; 0x6db6db6c; 0x7ffffffe; 0xdb6db6db; 0x6db6db6c; 0x7ffffffe;
   0xdb6db6db; 0x6d96db6c; 0x0; 0x49249649; 0x24924924; 0x0; 0x49249649; 0x100800;
   0x24924924; 0xdb6db6db; 0x6db6db6c; 0x7ffffffe; 0xdb6db6db; 0x6db6db6c; 0x7ffffffc; 0x5b6db6d8;
   0x4924920; 0x201705; 0x36db6db6; 0x5b6db6da; 0x7fffffff; 0xb6db6db6; 0x5b6ff6db; 0x7feff7ff;
   0xb6db6db6; 0x49299648; 0x209000; 0x924b6492; 0x4924b248; 0x219000; 0x92592c92; 0x4924b248;
   0x243000; 0xb6d92db6; 0x7ffd9fff; 0x7fffffff; 0xb6db6db6; 0x7fffffff; 0x7ffffffe; 0x36db6db6;
   0x9249248; 0x201705; 0x2db6db6c; 0xfffffffe; 0xfffffffe; 0x6db6db6d; 0xfffffffe; 0xfffffffe;
   0x6db6db6d; 0xffc107fe; 0xffe187fe; 0x6db2cb6d; 0xffc927fe; 0xffcf67fe; 0x6db6cb6d; 0xb6cb65b6;
   0xfff92ffe; 0x6db6db6d; 0xb6db6db6; 0xfffffffe; 0x6db6db6d; 0xb6db6db6; 0x7ffffffe; 0x2db6db6c;
   0x12492490; 0x201804; 0x2492490; 0x3ffffffc; 0x6db6db6c; 0xb6db6db6; 0xfffffffe; 0x6db6db6d;
   0xb6db6db6; 0xfffffffe; 0x6db6db6c; 0x0; 0x0; 0x24924924; 0x12492492; 0x0;
   0x24924924; 0x92492492; 0xb6db6db6; 0x6db6db6d; 0xb6db6db6; 0xb6db6db6; 0x6db6db6c; 0x36db6db6;
   0x16db6db0; 0x4924920; 0x1f2000; 0x12492490; 0xb6db6db1; 0x24924925; 0xb6db6dbd; 0xb6db6d89;
   0x2492492d; 0x96db6dec; 0x16d86c48; 0x490496c; 0xb6c96f60; 0xb6c36240; 0x24024b65; 0xb64b7b04;
   0x921b1200; 0x125b24; 0x925bd800; 0xd89000; 0x92d96d; 0x92dec16d; 0x86c48048; 0x496cb6c;
   0x96f60b6c; 0x36241248; 0x24b65b65; 0xb7b65b65; 0xb1249249; 0x25b6db6d; 0xbdb6db6d; 0x89249249;
   0x2db6db6c; 0x24924924; 0x1f1705; 0x92db000; 0x24b6d925; 0x24b6c122; 0x497f8009; 0x25b6c929;
   0x25b60912; 0x4b6c0049; 0x2db64949; 0x2db04892; 0x59600249; 0x6db24a49; 0x65824492; 0x4900124b;
   0x6d92524b; 0x6c122497; 0xf800925b; 0x6c92925b; 0x609124bf; 0xc00492db; 0x649492db; 0x48125b6;
   0x248; 0x0; 0x201604; 0x12492490; 0x3ffffffe; 0x6db6db6c; 0xb6db6db6; 0xfffffffe;
   0x6db6db6d; 0xb6db6db6; 0xfffffffe; 0x6db6db6d; 0xb6db6db6; 0xfffffffe; 0x6db6db6c; 0x12492492;
   0x0; 0x24924924; 0x12492492; 0x0; 0x24924924; 0x12492492; 0x0; 0x24924924;
   0x12492490; 0x1f1705; 0x49000249; 0x6d925b6d; 0x24925b62; 0x4800124b; 0x6c92db69; 0x2492db12;
   0x4000925b; 0x6496db49; 0x2496d892; 0x492db; 0x24b6da49; 0x24b6c490; 0x2496d9; 0x25b6d249;
   0x25b62480; 0x124b6c9; 0x2db69249; 0x2db12400; 0x925b649; 0x6db49249; 0x6d892000; 0x49049001;
   0x24000000; 0x201406; 0x12492492; 0x5b6db6db; 0x7fffffff; 0xb6db6db6; 0x49249248; 0x8000;
   0x92492492; 0x4925b248; 0xef000; 0x924b6492; 0x4924b248; 0xef000; 0x924b6492; 0x49219248;
   0x8000; 0x92492492; 0x5b6db6db; 0x7fffffff; 0xb6db6db6; 0x49249248; 0x201804; 0x12492490;
   0x3ffffffe; 0x6db6db6c; 0xb6db6db6; 0xfffffffe; 0x6db6db6d; 0xb6db2db6; 0xffcb0dfe; 0x6db64b6d;
   0xb6cb2db6; 0xffe03ffe; 0x6db25b6d; 0xb6d92db6; 0xffff8ffe; 0x6db6db6d; 0xb6db2db6; 0xfffc7ffe;
   0x6db6db6d; 0xb6db6db6; 0xffff7ffe; 0x6db6db6c; 0x36db6db6; 0x3ffffffe; 0x24924924; 0x1f1705;
   0x49249249; 0x6db6db6d; 0x24924922; 0x4924924b; 0x6db6db69; 0x24924912; 0x49249249; 0x25924949;
   0x2d924800; 0x19800249; 0x6d924a48; 0x6d124000; 0xcc001249; 0x6c925249; 0x64922492; 0x4924b6db;
   0x6db7b6db; 0x6db36db6; 0xdb65b6db; 0x6dbdb6db; 0x6d8b6db6; 0xdb049249; 0x24000000; 0x201704;
   0x1000; 0x820bb60; 0xb6db6db6; 0x5b6f92db; 0x9209308; 0x96d96db6; 0x7b2fb6db; 0x412493c9;
   0x96c92596; 0x5f6db2cb; 0x7bef9b59; 0xb2cb2db6; 0x4924b2cb; 0x7b2df7df; 0xb6cb6db6; 0x49249248;
   0x493cf3cf; 0xb65b6db6; 0x49259658; 0x8208000; 0xb6db6db6; 0x7befbefa; 0x1041248; 0x201705;
   0x3ffffffc; 0x6db6db6c; 0xb6db6db6; 0xfffffffe; 0x6db6db6c; 0xb6db6db6; 0x92492492; 0x24924924;
   0x12492492; 0x412000; 0x24b25924; 0x12d96c92; 0xd96d80; 0x24924b24; 0x12490492; 0xb6db6db6;
   0x7fffffff; 0xfffffffe; 0xfffffffe; 0x7fffffff; 0xfffffffe; 0x3ffffffe; 0x24924924; 0x201705;
   0x24924924; 0x5b6db6db; 0x6db6db6c; 0x24924924; 0x5b6db6db; 0x6db6db6c; 0x24924924; 0x49249249;
   0x2492c924; 0x24000; 0x492db249; 0x24864124; 0x2c000; 0x49259249; 0x24924924; 0x24924924;
   0xdb6db6db; 0x7ffffffe; 0x7ffffffe; 0xdb6db6db; 0x7ffffffc; 0x3ffffffc; 0x9249248; 0x201804;
   0x9248048; 0x7fff99fc; 0xb6db6db6; 0x7fff96ff; 0x7fff9bff; 0xb6db6db6; 0x7fff96ff; 0x7fff9bff;
   0xb6db6db6; 0x49249649; 0x49249e48; 0xb6db6db6; 0x5b6db6db; 0x49249e48; 0xb6db2db6; 0x7fff96ff;
   0x7fff9bff; 0xb6db6db6; 0x7fff96ff; 0x7fff9bff; 0xb6db6db6; 0x7fff96fe; 0x7fff99fc; 0x12490490;
   0x1f1804; 0x2400000; 0x7f800b61; 0xb6c92db5; 0xb6492dbf; 0xfc005b6d; 0xb6496dad; 0xb2496dff;
   0xe002db6d; 0xb24b6d6d; 0x924b6fff; 0x16db6d; 0x925b6b6c; 0x925b7ff8; 0xb6db6c; 0x92db5b64;
   0x92dbffc0; 0x5b6db64; 0x96dadb24; 0x96dffe00; 0x2db6db24; 0xb6c6d924; 0xb6cff001; 0x6c124000;
   0x90000000; 0x1f2000; 0x12492490; 0xb6db6db1; 0x24924925; 0xb6db6dbd; 0xb6db6d89; 0x2492492d;
   0xb65b6ded; 0xb65b6c49; 0x2012496d; 0xb2db6f6d; 0xa0db6249; 0x924b6d; 0x96db7b6d; 0x6db1248;
   0x4925b6c; 0xb6dbdb68; 0x36d89240; 0x2492db65; 0xb6dedb41; 0xb6c49201; 0x2496db2d; 0xb6f6da0d].
Definition emoji_data_7 : list N :=
  [0xb6249009; 0x24b6d96d; 0xb7b6d96d; 0xb1249249; 0x25b6db6d; 0xbdb6db6d; 0x89249249; 0x2db6db6c;
   0x24924924; 0x1f1705; 0x18000009; 0x6c92496d; 0x6c924960; 0x780407c9; 0x6cb65b29; 0x6c92d900;
   0x7825c049; 0x2c964949; 0x2cb64800; 0x1fe00249; 0x2d924a49; 0x2d924000; 0xff00124b; 0x6d92525b;
   0x2d9200f0; 0xb8092c9; 0x259296c9; 0x25903c00; 0x3e5b249; 0x25b59249; 0x25a30000; 0x1040000;
   0x0; 0x201705; 0x12db6d90; 0x25b6db64; 0x92db6d92; 0xf25b6c96; 0x6cb6d92f; 0xfe4b64be;
   0xfe4b64be; 0x7f92c97f; 0xffc925fe; 0xffe927fe; 0x7ff25fff; 0xfff92ffe; 0xffe927fe; 0x7f92cbff;
   0xff4b64fe; 0xfe4b64be; 0x7c96d92f; 0xf25b6c96; 0xf25b6c96; 0x65b6db24; 0x12db6d92; 0x12db6d90;
   0x4924920; 0x201704; 0x24924924; 0x3ffffffe; 0x7ffffffe; 0x7fffffed; 0xfffffffe; 0xfffffffe;
   0x7fffff6d; 0xfffffffe; 0x124927fe; 0x24925b6d; 0x12492fbe; 0x7f9e; 0x24925b2d; 0x12492f9e;
   0xffe; 0x24924b6d; 0xb6db6dfe; 0xb6db6dfe; 0x6db6db6d; 0xb6db6dbe; 0xb6db6dbe; 0x6db6db6c;
   0x36db6db6; 0x1f1605; 0x9249240; 0x2; 0x49249242; 0x49249240; 0x12; 0x496c9252;
   0x4b6c9200; 0x1ff80092; 0x5b6c9292; 0xdb649001; 0xffe00492; 0xdb649496; 0xdb248007; 0xfe002496;
   0xd924a496; 0xd9240007; 0x80012492; 0x49252492; 0x49200000; 0x92492; 0x49012492; 0x48000000;
   0x202000; 0x9249248; 0x36db6db6; 0x5b6db6db; 0x49249249; 0xb6db6db6; 0x5b6db6db; 0x49209249;
   0xb6d96db6; 0x5b60b6db; 0x49209249; 0xb6c96db6; 0x5b60b6db; 0x49209249; 0xb6c96db6; 0x5b60b6db;
   0x49209249; 0xb6c96db6; 0x5b60b6db; 0x49209249; 0xb6c96db6; 0x5b60b6db; 0x49208249; 0xb6d925b6;
   0x5b6002db; 0x49200249; 0xb6d92db6; 0x5b6db6db; 0x49249249; 0xb6db6db6; 0x5b6db6db; 0x49249248;
   0x12492490; 0x201704; 0x24924924; 0x3ffffffe; 0x7ffffffe; 0x7fffffff; 0xfffffffe; 0xffffeffe;
   0x7ff6cfff; 0xb6db6db6; 0x124b6492; 0x6db6db6d; 0xffff7ffe; 0xffff7ffe; 0x6db6fb6d; 0xffff7ffe;
   0xffff7ffe; 0x6db65b6c; 0xb6db6db6; 0xfffb6ffe; 0x6db6db6d; 0xb6db6db6; 0xfffffffe; 0x6db6db6c;
   0x36db6db6; 0x201704; 0x9249248; 0x2db6db6c; 0x7ffffffe; 0x5b6db6db; 0x6db6db6c; 0x7ff25ffe;
   0xdb6cb6db; 0x6db24b6c; 0x7f924bfe; 0xdb6cb6db; 0x6d924b6c; 0x7f9249fe; 0xdb6db2db; 0x6d965b6c;
   0x7f9649fe; 0xdb65b6db; 0x6db24b6c; 0x7ff24bfe; 0xdb6db6db; 0x6db6db6c; 0x7ffffffe; 0x5b6db6db;
   0x2db6db6c; 0x201704; 0x12492490; 0x5ffffff8; 0x7ffffffe; 0xb6db6db6; 0x7fffffff; 0x7fffffff;
   0xb6db6db6; 0x5b6cb6db; 0x7fec37ff; 0xb6cb65b6; 0x5b6432db; 0x7f8003ff; 0xb6c925b6; 0x5b6492db;
   0x7f0000ff; 0xb64924b6; 0x5b2090db; 0x7f6db6ff; 0xb6db6db6; 0x7fffffff; 0x7fffffff; 0xb6db6db6;
   0x5ffffff8; 0x201704; 0x24924924; 0x36db6db6; 0x7ffffffe; 0x6db6db6d; 0xfff92ffe; 0xfffd3ffe;
   0x6db6db6d; 0xfffb7ffe; 0xfff93ffe; 0x6db65b6d; 0xf7d92db6; 0x10400410; 0x2cb2c924; 0xbefbefb6;
   0xf3cf3cb2; 0x24924924; 0x96596596; 0xfffffffe; 0x65965b6c; 0x12492492; 0x1e79e796; 0x6db6db6c;
   0x3ffffffe; 0x201605; 0x24924924; 0x24924924; 0x4924925b; 0x2492492c; 0x2492492c; 0x492492db;
   0x2492412c; 0x324; 0x492496cb; 0x24925b60; 0x5b20; 0xdb6db6db; 0x7fffdb60; 0x7ffffb24;
   0xdb6db64b; 0x7ffffb2c; 0x7fffff2c; 0x5b6db6db; 0x6db6db6c; 0x6db6db6c; 0x5b6db6db; 0x2db6db6c;
   0x201704; 0x12492490; 0x7f2db6d8; 0x7fadb6d8; 0xffcb6db6; 0x7fe5b6db; 0x7f6cb6db; 0xbfdb6db6;
   0x4f0fb6db; 0x6b2f96db; 0xb6dfedb6; 0x7b7ff2db; 0x7f3ffa5b; 0xb6dffcb6; 0x7feffe5b; 0x7fe7f2cb;
   0xb6d97df6; 0x7ffcf0f9; 0x7fffbbf8; 0xb6db6dfe; 0x7fffb7ff; 0x7ffff3ff; 0xb6db6dfe; 0x5b6db67c;
   0x201704; 0x24924924; 0x36db6db6; 0x7ffffffe; 0x6db6db6c; 0x92492492; 0xb6db6db6; 0x6db6db6d;
   0xb6db65b6; 0xffff00fe; 0x6db6596d; 0xb6db2cb6; 0xfffe7c3e; 0x6db6596d; 0xb6db2cb6; 0xffff24fe;
   0x6db6c96d; 0xb6db65b6; 0xffffeffe; 0x6db6db6c; 0x92492492; 0xfffffffe; 0x6db6db6c; 0x36db6db6;
   0x1f1605; 0x9249240; 0x2; 0x59249642; 0x49249640; 0xb0006412; 0xd924b656; 0x4b64b205;
   0x87f12096; 0x5b659292; 0x7fe49000; 0xffc00492; 0xdb249493; 0xff248007; 0xfe102596; 0xd964ac97;
   0xc9641904; 0x86612592; 0x5b652492; 0x4b200800; 0x10092492; 0x49012492; 0x48000000; 0x201704;
   0x12492490; 0x5b6db6d8; 0x5b6db6de; 0xb6db6db6; 0x5b6db6df; 0x5b6db6ff; 0xb6db6dbe; 0x5b6db6ff;
   0xff; 0x924924fe; 0x492490ff; 0xff; 0x924924fe; 0x492490ff; 0xff; 0x924925fe;
   0x5b6db6ff; 0x7fffffff; 0xb6db6dbe; 0x7fffffff; 0x7fffffff; 0xb6db6db6; 0x5b6db6d8; 0x201704;
   0x24924920; 0x3fff7db2; 0x7fff2d86; 0x6db6db2d; 0xffff2592; 0xffff6fb6; 0x6cb6db6d; 0xfeff6db6;
   0xffff2182; 0x6db6cb25; 0xf67f2db2; 0xfa7f3fb6; 0x6cb6db6d; 0xf6dffffe; 0xf2fffffe; 0x6db6db6d;
   0xf2cffffe; 0xf2cffffe; 0x6db6db6d; 0xfffffffe; 0xfffffffe; 0x6db6db6c; 0x3ffffffe; 0x1f1704;
   0x12492490; 0xb6db6db1; 0x24924925; 0xb6db6dbd; 0xb6db6c89; 0x2492492d; 0xb6db6ded; 0xb25b6449;
   0x2492496d; 0x92db6f6d; 0x92db2249; 0x24924b6d; 0x96db7b64; 0x92d91249; 0x24925b6d; 0xb6cbdb64;
   0xb6c89249; 0x2492db6d; 0xb6dedb6d; 0xb6449249; 0x2496db6d; 0xb6d6db6d; 0xb6000000; 0x202000;
   0x9249248; 0x36db6db6; 0x5b6db6db; 0x49249249; 0xb6db6db6; 0x5b6db6db; 0x49049249; 0xb6cb65b6;
   0x5b05a2db; 0x49008049; 0xb6c965b6; 0x5b60a2db; 0x49200049; 0xb6d925b6; 0x5b6c02db; 0x49240049;
   0xb6d925b6; 0x5b6c02db; 0x49200049; 0xb6c965b6; 0x5b60a2db; 0x49008049; 0xb64b65b6; 0x5b05a2db;
   0x49048049; 0xb6db65b6; 0x5b6db6db; 0x49249249; 0xb6db6db6; 0x5b6db6db; 0x49249248; 0x12492490;
   0x201704; 0x24924924; 0x36db6db6; 0x7ffffffe; 0x6db6db6d; 0xfffffffe; 0xfffffffe; 0x6db6db6d;
   0xffff7ffe; 0xfff83ffe; 0x6db25b6d; 0xfff80ffe; 0xfff00ffe; 0x6db24b6d; 0xfff80ffe; 0xfff80ffe;
   0x6db65b6d; 0xffff7ffe; 0xfffffffe; 0x6db6db6d; 0xfffffffe; 0xfffffffe; 0x6db6db6c; 0x36db6db6;
   0x201705; 0x2db6db6c; 0x36db6db6; 0xfffffffe; 0x6db6db6d; 0xb6db6db6; 0xfffffffe; 0x6db6db6c;
   0x12492492; 0x12000; 0x2496c924; 0x124b6492; 0x96000; 0x2496d924; 0x12496492; 0x10000;
   0x6db6db6c; 0xb6db6db6; 0xfffffffe; 0x6db6db6d; 0xb6db6db6; 0x3ffffffe; 0x2db6db6c; 0x12492490;
   0x1f1605; 0x92492490; 0x92492491; 0x24924924; 0x92492494; 0x92492489; 0x24224924; 0x92c924a4;
   0x93c92449; 0x27924924; 0x9f492524; 0xbe492249; 0x6e924925; 0x96492925; 0x9e49124d; 0x2c92492c;
   0x92494924; 0x92489249; 0x24924924; 0x924a4924; 0x92449249; 0x24924924; 0x92000000; 0x201705;
   0x36db6db6; 0x7fffffff; 0x7fffff7f; 0xb6db6db6; 0x7ffff24f; 0x7ffff24f; 0xb6db6c96; 0x7ffff24f].
Definition emoji_data_8 : list N :=
  [0x7fffffdf; 0xb6db6ff6; 0x7fffffff; 0x7fffffff; 0xb6db6db6; 0x5b6db6db; 0x7fffffff; 0xb6db6db6;
   0x5b6db6db; 0x7fffffff; 0xb6db6db6; 0x5b6db6db; 0x7ffffffe; 0x36db6db6; 0x9249248; 0x1f1605;
   0x2db6db6c; 0x7ffff96c; 0x7fffd2fb; 0x6db6db6b; 0xffffcb67; 0xffffd7db; 0x6db6db5b; 0x64be5b3a;
   0xc93ebedb; 0x65b6daf9; 0x24f2d9d2; 0x49f5f6c9; 0x2db6d7cb; 0x2f96cf9e; 0xefafb6db; 0x6db6bedb;
   0xfcb67fff; 0xfd7db6db; 0x6db0bfff; 0x25b1ffff; 0xebe5b6db; 0x6d800000; 0x201705; 0x5b6db6d8;
   0x6db6dffe; 0x7fe; 0x492496db; 0x6db6df06; 0x7fffff0e; 0x492496cb; 0x24924b6e; 0x7ffffffe;
   0xdb6db6db; 0x24924924; 0x0; 0xdb6db6db; 0x6db6db6c; 0x24924924; 0x49249249; 0x6db6db6c;
   0x7ffffffe; 0x49249249; 0x24924924; 0x6db6db6c; 0x5b6db6d8; 0x4924920; 0x201605; 0x36db6db6;
   0x7fffffff; 0x7fffffff; 0xb6db6db6; 0x7fffffff; 0x7fffffff; 0xb6db6db6; 0x49249248; 0x18000;
   0x92492492; 0x49219248; 0x18000; 0x924b6492; 0x4925b248; 0x48000; 0xb6db6db6; 0x5b6db6db;
   0x5b6db6db; 0xb6db6db6; 0x5b6db6db; 0x5b6db6d8; 0x36db6db6; 0x201705; 0x24924924; 0x12492492;
   0x12492492; 0x24924924; 0x92492492; 0x12492492; 0x24924924; 0xb6db6db6; 0xfffffffe; 0x6db6db6d;
   0xb6db6db6; 0xfffffffe; 0x6db6db6d; 0xb6db6db6; 0xfffffffe; 0x6db6db6d; 0xb6db6db6; 0xfffffffe;
   0x6db6db6d; 0xb6db6db6; 0x3ffffffe; 0x2db6db6c; 0x12492490; 0x1f1605; 0xb6db6db1; 0xb6db6db3;
   0xfffffff5; 0xb6db6dbd; 0xb6db6d9f; 0xffffffad; 0xb6db6da4; 0x92492400; 0x124; 0x92492524;
   0x92492000; 0x924; 0x92492924; 0x92491249; 0x24925b6d; 0xb6dbdb6d; 0xb6d89249; 0x2492db6d;
   0xb6dedb6d; 0xb6c49249; 0x2496db6d; 0xb6000000; 0x201705; 0x36db6db6; 0x5b6db6da; 0x7fffffff;
   0xb6db6db6; 0x5b6db6db; 0x7fffffff; 0xb6db6db6; 0x5b6db6db; 0x49249248; 0x12492492; 0x49249248;
   0x0; 0x12492492; 0x49249249; 0x7fffffff; 0xb6db6db6; 0x5b6db6db; 0x7fffffff; 0xb6db6db6;
   0x5b6db6db; 0x7ffffffe; 0x36db6db6; 0x9249248; 0x201605; 0x2db6db6c; 0x3ffffffe; 0xfffffffe;
   0x6db6db6d; 0xfffffffe; 0xfffffffe; 0x7fffffff; 0xfffffffe; 0xffff3ffe; 0x7ff7dfff; 0xffebfffe;
   0xffe3fffe; 0x7ff7dfff; 0xffff7ffe; 0xfffffffe; 0x7fffffff; 0xb6db6db6; 0x92492492; 0x6db6db6c;
   0xb6db6db6; 0x12492492; 0x2db6db6c; 0x1f2000; 0x49249248; 0x92492492; 0xdb6db6de; 0xdb6db6c4;
   0x92492496; 0xdb6db6f6; 0xdb65b624; 0x920924b6; 0xdb2db7b6; 0xd82db124; 0x904925b6; 0xd96dbdb6;
   0xc16d8924; 0x82492db6; 0xcb6dedb6; 0xb6c4924; 0x12496db6; 0x5b6f6db0; 0x5b624920; 0x924b6db2;
   0xdb7b6c82; 0xdb124004; 0x925b6496; 0xdbdb0016; 0xd8924924; 0x92db6db6; 0xdedb6db6; 0xc4924924;
   0x96db6db6; 0xd6db6db6; 0x4924920; 0x201705; 0x36db6db6; 0x5b6db6da; 0x7fffffff; 0xb6db6db6;
   0x5b6db6db; 0x7fffffff; 0xb6db6db6; 0x5b6db6db; 0x7fffffff; 0xb6db6db6; 0x5b6db6db; 0x7fffffff;
   0xb6db6db6; 0x5b6db6db; 0x7fffffff; 0xb6db6db6; 0x5b6db6db; 0x7fffffff; 0xb6db6db6; 0x5b6db6db;
   0x7ffffffe; 0x36db6db6; 0x9249248; 0x201605; 0x2db6db6c; 0x3ffffffe; 0xfffffffe; 0x6db6db6d;
   0xfffffffe; 0xfffffffe; 0x6db6db6d; 0xfffffffe; 0xfffffffe; 0x6db6db6d; 0xb6db6db6; 0x0;
   0x24924924; 0x12492492; 0x0; 0x24924924; 0x12492492; 0x0; 0x24924924; 0x12492492;
   0x0; 0x24924924; 0x1f1605; 0xb6c92db1; 0xb6c92db3; 0xff925ff5; 0xb6496dbd; 0xb6496d9f;
   0xfc92ffad; 0xb6db6ded; 0xb25b6cff; 0xe497fd6d; 0xb6db6f6d; 0x92db67ff; 0x24bfeb6d; 0xb6db7b6c;
   0xb6db3ff9; 0x25ff5b65; 0x96dbdb65; 0x96d9ffc9; 0x2ffadb24; 0xb6dedb24; 0xb6cffe49; 0x7f96d925;
   0xb6000000; 0x1f1605; 0x16db6db2; 0xb6db6db1; 0xfffffff5; 0xb6db6db5; 0xb6db6daf; 0xffffffad;
   0xb6db6dad; 0xb25b6d7f; 0xe497fd6d; 0xb6db6d6d; 0x965b6bff; 0x24bfeb6d; 0xb6db6b6d; 0x92db5ff9;
   0x25ff5b6d; 0xb6db5b6d; 0xb6daffff; 0xfffadb6d; 0xb6dadb6d; 0xb6d5ffff; 0xff82db6d; 0xb6400000;
   0x201705; 0x2db24b6c; 0xb6c927fe; 0xffc007fe; 0x6db24b6d; 0xb6c927fe; 0xffc007fe; 0x6db24b6d;
   0xb6c927fe; 0xffc007fe; 0x6db24b6d; 0xb6c927fe; 0xffc007fe; 0x6db24b6d; 0xb6c927fe; 0xffc007fe;
   0x6db24b6d; 0xb6c927fe; 0xffc007fe; 0x6db24b6d; 0xb6c927fe; 0x3fc007fe; 0x2db24b6c; 0x90;
   0x1f1705; 0x16db6000; 0xdb6db24a; 0xdb6d824d; 0xb6db0006; 0xdb6d9256; 0xdb6c126d; 0xb6d80036;
   0xdb6c92b6; 0xdb60936d; 0xb6c001b6; 0xdb6495b6; 0xdb049b6d; 0xb6000db6; 0xdb24adb6; 0xd824db6d;
   0xb0006db6; 0xd9256db6; 0xc126db6d; 0x80036db6; 0xc9236db6; 0x902db6c; 0x12492; 0x0;
   0x201804; 0x4924920; 0x3ffffffc; 0x5b6db6db; 0x2fffff7e; 0x27fffffe; 0x5b6db6db; 0x24bff93e;
   0x4bff83e; 0x4b6db25b; 0x2497f82e; 0x13f83e; 0x492db6db; 0x6492ff7e; 0x7c005ffe; 0xdb64b6db;
   0x7ff24bfe; 0x7ffe09fe; 0xdb6db2db; 0x7ffff97e; 0x7fffff2e; 0xdb6db6cb; 0x7fffffec; 0x3ffffffc;
   0x9249248; 0x201804; 0x1241240; 0x3fc3fc0; 0xb2db6d96; 0x797cbe4f; 0x787efe5f; 0xb65b6cb6;
   0x7f2ef2ff; 0x7feef3ff; 0xb6db6db6; 0x5fecb7fb; 0x4bfc3fc8; 0x92592c92; 0x492c9248; 0x4bfc3fc8;
   0xb6db6db6; 0x7fe7f7ff; 0x7feef3ff; 0xb6db6db6; 0x7f3cbe7f; 0x787efe5f; 0xb2db6d96; 0x49fcbfca;
   0x3fc3fc0; 0x2482480; 0x1f1804; 0x12400000; 0x7f924921; 0xb6c92db7; 0xfe492dbf; 0xfc92492d;
   0xb6496dbf; 0xf2496dff; 0xe492496d; 0xb24b6dff; 0x924b6fff; 0x24924b6d; 0x925b6ffc; 0x925b7ff9;
   0x24925b6c; 0x92db7fe4; 0x92dbffc9; 0x2492db64; 0x96dbff24; 0x96dffe49; 0x2496db24; 0xb6c7f924;
   0xb6cff249; 0x24124000; 0x90000000; 0x1f1705; 0x9249241; 0x24924921; 0x24924922; 0x49249249;
   0x24924929; 0x24924912; 0x4924925b; 0x6cb6dbdb; 0x64b6d890; 0x92d9; 0x2496ded8; 0x16c492;
   0x12496d9; 0x25b6f6d8; 0x5b66db0; 0xb6cb6cb; 0x2db7b6db; 0x2db3ffbf; 0xdff5b6db; 0x6dbdb6db;
   0x6d8fffff; 0xff049249; 0x24000000; 0x201804; 0x9249248; 0x5ffffff8; 0xb6db6db6; 0x5b6db6db;
   0x7fffffdf; 0xb6db6db6; 0x5b6db6cb; 0x7fffffcf; 0xb6db6db6; 0x5b6db6db; 0x7ffffecb; 0xb6db6db6;
   0x5b6db6db; 0x7ffffec9; 0xb6db6db6; 0x5b6db64b; 0x7ffffe49; 0xb6db6db6; 0x5b6db6db; 0x7ffffe49;
   0xb6db6db2; 0x5b6db6da; 0x5ffffff8; 0x12492490; 0x1f1705; 0x16db6db0; 0xdb6db6da; 0xdb6db6dd;
   0xb6db6db6; 0xdb6db6d6; 0xdb6db6ed; 0xb6db6db6; 0xdb2db6b6; 0xd82db76d; 0xb05b6db6; 0xd96db5b6;
   0x412dbb6c; 0x1b6db2; 0x496dadb0; 0x416ddb60; 0x92db6db6; 0xdb6d6d92; 0x4b6edb60; 0xb6db6db6;
   0xdb636db6; 0xdb62db6d; 0xb6012492; 0x48000000; 0x1f1705; 0x5b6db6d9; 0x6db6db6f; 0x6db6db67;
   0xffefffeb; 0x6db6db7b; 0x6c96db3f; 0xe925ff5b; 0x6db2dbdb; 0x6cb2d9fe; 0x4967fadb; 0x6496ded9].
Definition emoji_data_9 : list N :=
  [0x65b6cff3; 0x833fd6db; 0x6cb6f6c9; 0x65b67ff2; 0x4bfeb6db; 0x2db7b6db; 0x6db3fff7; 0xfff5b6db;
   0x6dbdb6db; 0x6d8b6db6; 0xdb049249; 0x24000000; 0x201804; 0x9241248; 0x5ffc3ff8; 0xb6d92db6;
   0x596c365b; 0x787c3e1f; 0xb2d92cb6; 0x596c365b; 0x783c3e0f; 0xb2592c96; 0x596c365b; 0x49241248;
   0x92492492; 0x8000; 0x49241248; 0xb6d92db6; 0x596c365b; 0x79fc3e7f; 0xb6d92db6; 0x596c365b;
   0x787c3e1f; 0xb2592c96; 0x596c365a; 0x5bfc3ef8; 0x12482490; 0x201804; 0x12492490; 0x3ffffffc;
   0x6db6db6c; 0xb6db6db6; 0xfffffffe; 0x6db6db6d; 0xb6db6db6; 0xfff93ffe; 0x6db65b6d; 0xb6db6db6;
   0xfffffdfe; 0x6db6db6d; 0xb6db6db6; 0xffcff5fe; 0x6db6db6d; 0xb6c925b6; 0xfff92ffe; 0x6db6db6d;
   0xb6db6db6; 0xfffffffe; 0x6db6db6c; 0x36db6db6; 0x3ffffffc; 0x24924924; 0x201804; 0x4920920;
   0x3ffedb24; 0x5b6db6cb; 0x7fff5b2e; 0x7ffe0b24; 0xdb6db6db; 0x7fffdb6c; 0x659e4ba4; 0xdb6db2cb;
   0x659ecb26; 0x659ecb24; 0xdb6db6db; 0x659ffffe; 0x649ffffe; 0xdb6db6db; 0x7dfffffe; 0x7dfffffe;
   0xdb6db6db; 0x7ffffffe; 0x7ffffffe; 0xdb6db6db; 0x7ffffffe; 0x3ffffffc; 0x9249248; 0x1f1804;
   0x9240000; 0xbffe0002; 0xdb6c92ca; 0xdb6c9247; 0xfff00496; 0xdb6496d6; 0xdb64923f; 0xff8024b6;
   0xdb2492b6; 0xdb2491ff; 0xfc0005b6; 0xd92495b6; 0xd9248fff; 0xe0002db6; 0xc924adb6; 0xc9247fff;
   0x16db6; 0x49256db6; 0x4923fff8; 0xb6db2; 0x492b6db2; 0x4917ffc0; 0x92480; 0x0;
   0x201705; 0x3ffffffc; 0x6db6db6c; 0xb6db6db6; 0xfffffffe; 0x6db6db6c; 0xfffffffe; 0xfffffffe;
   0x6db6db6d; 0xfffffffe; 0xfffffffe; 0x6db6db6d; 0x12492492; 0x12492492; 0x24924924; 0x12492492;
   0x12492492; 0x6db6db6c; 0xb6db6db6; 0x92492492; 0x6db6db6c; 0x36db6db6; 0x12492490; 0x4924920;
   0x201804; 0x4924920; 0x3ffffffc; 0x5b6db6db; 0x7ffffffe; 0x7ffffffe; 0xdb6db6db; 0x7db6db7e;
   0x7db6db7e; 0xdb6cb6db; 0x7db65b7e; 0x7db61b7e; 0xdb6db6db; 0x7db69b7e; 0x7db61b7e; 0xdb6db6db;
   0x7db65b7e; 0x7db6db7e; 0xdb6db6db; 0x7db6db7e; 0x7ffffffe; 0xdb6db6db; 0x7ffffffc; 0x3ffffffc;
   0x9249248; 0x201804; 0x9249248; 0x7ffffffc; 0xbffb6ffe; 0x7fffffff; 0x7fffffff; 0xffdb6dfe;
   0xfffdbfff; 0x7fffffff; 0xb6db6db6; 0x5b6db6db; 0x7fffffff; 0xb6db6db6; 0x5b6db6db; 0x7fffffff;
   0xb6db6db6; 0x5b6db6db; 0x49249249; 0xb6db6db6; 0x49249249; 0x49249248; 0xb6db6db6; 0x49249248;
   0x9249248; 0x12492490; 0x201804; 0x12000090; 0x3fc001fc; 0x6d924b6c; 0xffc925b6; 0xffc001fe;
   0x6d924b6c; 0xffc925b6; 0xffcb21fe; 0x6d96cb6d; 0xffcb25b6; 0xffc921fe; 0x6d96cb6d; 0xffc925b6;
   0xffc101fe; 0x6d924b6d; 0xffc925b6; 0xffc121fe; 0x6d924b6d; 0xffc925b6; 0xffc001fe; 0x6d924b6c;
   0xbfc925b6; 0x3fc001fc; 0x24800124; 0x201704; 0x24924924; 0x36dbffbe; 0x1249ff9e; 0x2492ffef;
   0xb6dbfff6; 0xb6dbe7f2; 0x2492cbe7; 0x9249e5f2; 0xffffe7f2; 0x6db6ffe7; 0x1249ff96; 0xb6dbff9e;
   0x6db6db6d; 0x12492492; 0x12492492; 0x6db6db6d; 0x92492492; 0x0; 0x6db6db6d; 0xb6db6db6;
   0x0; 0x6db6db6c; 0x36db6db6; 0x201704; 0x9249248; 0x2db6db6c; 0x7ffffffc; 0x5b6db6db;
   0x6db6db6c; 0x7ffffffe; 0x5b6db6db; 0x6db6db6c; 0x24924bfe; 0xfffff6db; 0x7ffffb6c; 0x7ffff96c;
   0xffffb6db; 0x7ffffb2c; 0x7fffff2e; 0x5b6db6db; 0x2492496c; 0x17e; 0x4924925b; 0x2492492c;
   0xe; 0x4924924b; 0x24924924; 0x202000; 0x9249248; 0x36db6db6; 0x5b6db6db; 0x49249249;
   0xb6db6db6; 0x5b6db6db; 0x49049049; 0xb64b64b6; 0x5b05b05b; 0x48048049; 0xb64b64b6; 0x5a05805b;
   0x48008049; 0xb64924b6; 0x5821805b; 0x48208009; 0xb6592cb6; 0x5820861b; 0x48200009; 0xb2592c96;
   0x5820161b; 0x48201209; 0xb2592c96; 0x586c161b; 0x48241209; 0xb6db6db6; 0x5b6db6db; 0x49249249;
   0xb6db6db6; 0x5b6db6db; 0x49249248; 0x12492490; 0x201704; 0x24924924; 0x33fffffe; 0x7afffffe;
   0x6cb6db6d; 0xbe5ffdbe; 0x9fcffcbe; 0x65b6db2d; 0xb2fbfc96; 0xb2f9fc9e; 0x6db65b6d; 0xb6df2dbe;
   0xb6cfeffe; 0x6db6db6d; 0xb6d9fdfe; 0xb6d97cfe; 0x6db65b6d; 0xb6db2f9e; 0xb6db67f6; 0x6db6db6d;
   0xb6db6cf6; 0xb6db6cbe; 0x6db6db2c; 0x36db6d96; 0x201704; 0x9249248; 0x3ffffffc; 0x7ffffffe;
   0xdb6db6db; 0x7fffcbfe; 0x7fff097e; 0xdb6c965b; 0x6db6492c; 0x6db0180c; 0x5b6cbe5b; 0x6db2592c;
   0x6db0180c; 0x5b6c964b; 0x6db2592c; 0x6db01c0c; 0x5b6cbe5b; 0x6db6592c; 0x6db6182c; 0x5b6dbedb;
   0x6db6ff6c; 0x6db6db6c; 0x5b6db6db; 0x2db6db6c; 0x201704; 0x12492490; 0x5b6db6d8; 0x5b6db6d8;
   0xb6db6db6; 0x5b6db6db; 0x5b6db6db; 0xb6db6db6; 0x49249249; 0x8000; 0x924b6492; 0x4925b248;
   0x5b000; 0x924b6492; 0x4925b248; 0x58000; 0x92492492; 0x49249249; 0x49249249; 0xb6db6db6;
   0x5b6db6db; 0x49249248; 0xb6db6db6; 0x5b6db6d8; 0x1f1704; 0x24800124; 0x6d924b6c; 0xdb001edb;
   0x6d925b6b; 0x6c925b76; 0xd800f6db; 0x6c92db5b; 0x6492dbb6; 0xc107b6db; 0x6596dadb; 0x2d96ddb6;
   0x1b3db6db; 0x6cb6d6d9; 0x6cb6edb2; 0xd9edb6db; 0x6db6b6c9; 0x25b76d82; 0xf6db6c9; 0x2db5b649;
   0x2dbb6c00; 0x7b6db649; 0x6d8db249; 0x6d800000; 0x1f1704; 0x12400490; 0xb6c92db1; 0x6c001b65;
   0xb6496dbd; 0xb6496d9b; 0x6000db2d; 0xb24b6ded; 0xb24b6cdb; 0x6d96d; 0x925b6f6d; 0x925b66d8;
   0x36cb6c; 0x92db7b6c; 0x92db36c0; 0x1b65b64; 0x96dbdb64; 0x96d9b600; 0xdb2db24; 0xb6dedb24;
   0xb6cdb000; 0x6d96d925; 0xb6d6d925; 0xb6000000; 0x201704; 0x12492490; 0x5b6db6d8; 0x7ffffffe;
   0xb6db6db6; 0x5b6db6db; 0x7fffffff; 0xb6db6db6; 0x5b6db6db; 0x0; 0x92492492; 0x49249248;
   0x8000; 0x924b6492; 0x49249248; 0x0; 0x92492492; 0x5b6db6db; 0x7fffffff; 0xb6db6db6;
   0x5b6db6db; 0x7fffffff; 0xb6db6db6; 0x5b6db6d8; 0x201704; 0x24924924; 0x36db6db6; 0x7ffffffe;
   0x6db6db6d; 0xb6db6db6; 0xfffffffe; 0x6db6db6d; 0xfffffffe; 0x12492492; 0x24924924; 0x12492492;
   0x0; 0x24924924; 0x12492492; 0x0; 0x6db6db6c; 0xb6db6db6; 0xfffffffe; 0x6db6db6d;
   0xb6db6db6; 0xfffffffe; 0x6db6db6c; 0x36db6db6; 0x201704; 0x9249048; 0x2db6d96c; 0x7fffd9fc;
   0x5b6d96db; 0x6db6d96c; 0x7fffd9fe; 0xdb6d96db; 0x6db6d96c; 0x7fffd9fe; 0x5b6d96db; 0x24925924;
   0x7ffffffe; 0xdb6db6db; 0x24925924; 0x24925924; 0xdb6d96db; 0x6db6d96c; 0x7fffd9fe; 0xdb6d96db;
   0x6db6d96c; 0x7fffd9fe; 0x5b6d96db; 0x2db6d96c; 0x111506; 0x30002; 0xc0058007; 0xe006d80d;
   0xb017cc16; 0xcb2db21f; 0xfbb6db60; 0x6c00ff0; 0xb6c06c8; 0xf860b65; 0x86db0fff; 0xcb6db6db;
   0x60000000; 0x201704; 0x24924924; 0x3ffffffe; 0x7ffffffe; 0x6db6db6d; 0xfffffffe; 0xfffffffe;
   0x6db6db6d; 0xfffffffe; 0xfffffffe; 0x6db6db6d; 0xfffffffe; 0x12492492; 0x6db6db6c; 0xfffffdfe].
Definition emoji_data_10 : list N :=
  [0xfffffcfe; 0x6db6d96d; 0xffffe8be; 0xfffff83e; 0x6db6d96d; 0xfffffdfe; 0xfffffffe; 0x6db6db6c;
   0x3ffffffe; 0x1f1704; 0x12490; 0x924b6d90; 0x2c924; 0x925b2db4; 0x92496480; 0x365924;
   0x92db6da4; 0x92d96c00; 0x864924; 0x96cb6d24; 0x96d96000; 0x5b24924; 0x92492924; 0x92490000;
   0x4924; 0x92494924; 0x92480000; 0x24924; 0x924a4924; 0x92400000; 0x124924; 0x92124924;
   0x92000000; 0x201704; 0x12492490; 0x5fffbaf8; 0x7ffe3b48; 0xb6db2d96; 0x7f7f92c9; 0x7f7fb7db;
   0xb6db6db6; 0x7fffb6db; 0x7ffe9340; 0xb6db6db6; 0x7fef9ad9; 0x7fefbb78; 0xb6db6db6; 0x7fffffff;
   0x7fffffff; 0xb6db6db6; 0x7fffffff; 0x7fffffff; 0xb6db6db6; 0x7f7fffff; 0x7fffffff; 0xb6db6db6;
   0x5ffffff8; 0x1f2000; 0x12492490; 0x5b6db6da; 0xdb6db6dc; 0x92492496; 0xdb6db6d6; 0xdb6db6e4;
   0x824924b6; 0xcb6cb6b6; 0xb60b724; 0x124125b6; 0x5b25b5b0; 0x5805b920; 0x90092db2; 0xc92dad82;
   0x2dc904; 0x10496d92; 0x596d6c10; 0x416e4800; 0x824b6c96; 0xcb6b6016; 0xb724024; 0x125b65b6;
   0x5b5b05b0; 0x5b920920; 0x92db2db2; 0xdadb6db6; 0xdc924924; 0x96db6db6; 0xd6db6db6; 0xc4924924;
   0x92492492; 0x201705; 0x2492496c; 0x124924b6; 0xd6; 0x24924965; 0x124924b6; 0x96;
   0x6db6d96d; 0xb6db6db6; 0xfffffffe; 0x6db6db6d; 0xb6db6db6; 0xfffffffe; 0x6db6db6d; 0xb6db6db6;
   0xfffffffe; 0x6db6db6d; 0xb6db6db6; 0xb6db6dfe; 0x6db6db6d; 0xb6db6db6; 0x36db6dfe; 0x2db6db6c;
   0x90; 0x1f2000; 0x49249248; 0x92492492; 0xdb6db6de; 0xdb6db6c4; 0x92492496; 0xdb6db6f6;
   0xd925b624; 0x800124b6; 0xc925b7b6; 0x5b120; 0x120125b2; 0x5b2dbd82; 0xdb0d8904; 0x92092d96;
   0xd92dec16; 0xd82c4824; 0x90496cb6; 0xc96f60b6; 0xc3624024; 0x24b64b6; 0x5b7b60b0; 0x5b124000;
   0x925b6492; 0xdbdb2016; 0xd8924024; 0x92db6db6; 0xdedb6db6; 0xc4924924; 0x96db6db6; 0xd6db6db6;
   0x4924920; 0x201705; 0x36db2490; 0x7fff9248; 0x7fff0000; 0xb6db2592; 0x7fff92c8; 0x7fff03c0;
   0xb6db2592; 0x7fff9248; 0x7fff0000; 0xb6db2492; 0x5b6d9248; 0xffff; 0x92496db6; 0x4924b6db;
   0xffff; 0x92c96db6; 0x49e4b6db; 0x180ffff; 0x92496db6; 0x4924b6db; 0xfffe; 0x12496db6;
   0x1248; 0x201705; 0x2db24b6c; 0x36c927b6; 0xffc007fe; 0x6db24b6d; 0xb6c927b6; 0xffc007fe;
   0x6db24b6d; 0xb6c927b6; 0xffc007fe; 0x6db24b6d; 0xb6c927b6; 0xffc007fe; 0x6db24b6d; 0xb6c927b6;
   0xffc007fe; 0x6db24b6d; 0xb6c927b6; 0xffc007fe; 0x6db24b6d; 0xb6c927b6; 0x7fc007fe; 0x2db24b6c;
   0x12400090; 0x201705; 0x5b6db6d8; 0x7ffffffc; 0x7ffffffe; 0xdb6db6db; 0x7ffffffe; 0x6db6db6c;
   0x49249249; 0x2492c924; 0x2c000; 0x4925b249; 0x2496c924; 0x3c000; 0x492db249; 0x2496c924;
   0x2c000; 0x49249249; 0x6db6db6c; 0x7ffffffe; 0xdb6db6db; 0x7ffffffe; 0x7ffffffe; 0x5b6db6d8;
   0x4924920; 0x201705; 0x36db6db6; 0x7f7fffff; 0x7f3fffff; 0xb6db6dbe; 0x7f2dffff; 0x7927ffff;
   0xb64b6dfe; 0x7925ffff; 0x7924ff7f; 0xb65b7fbe; 0x7b2fffff; 0x7b7fffff; 0xb6dbedf6; 0x7b7ff3fb;
   0x7bffffff; 0xb6fffdfe; 0x7ffffeff; 0x7fffffff; 0xb7ffffbe; 0x7fffff7f; 0x7ffffffe; 0x3ffffffe;
   0x9249248; 0x1f1705; 0x2db6db6d; 0x7fffffe7; 0xffffffc3; 0x6db6db2f; 0xfffff93f; 0xffffc01b;
   0x6db6497f; 0xfff249ff; 0xffe000db; 0x6d924bff; 0xfc924fff; 0xf80486db; 0x6c925fff; 0xfc927fff;
   0xf80036db; 0x6c92ffff; 0xfc93ffff; 0xff01b6db; 0x6d97ffff; 0xff97ffff; 0xff05b6db; 0x6d849249;
   0x24000000; 0x201705; 0x5b6db648; 0x7fffff24; 0x7fffff00; 0xdb6db649; 0x7fffff24; 0x7dbeff00;
   0xdb6cb649; 0x7c3e7f24; 0x7c3f1f00; 0xdb6db649; 0x7fff1f24; 0x7fff1f00; 0xdb6db649; 0x7dfe5f24;
   0x7cf87f00; 0xdb24b649; 0x7f82ff24; 0x7fd3ff00; 0xdb6db649; 0x7fffff24; 0x7fffff00; 0x5b6db648;
   0x4924800; 0x201705; 0x12492490; 0x9249248; 0x0; 0x92492492; 0x49249248; 0x0;
   0x92492492; 0x49249248; 0x0; 0x92492492; 0x49249248; 0x7fffffff; 0xb6db6db6; 0x5b6db6db;
   0x7fffffff; 0xb6db6db6; 0x5b6db6db; 0x7fffffff; 0xb6db6db6; 0x5b6db6db; 0x7ffffffe; 0x36db6db6;
   0x9249248; 0x201705; 0x2db6db6c; 0x36db6d96; 0xb2492d86; 0x6cb6db24; 0xb6cb2c92; 0xb2492d86;
   0x6c965b6c; 0x96492d96; 0x92492c00; 0x6cb2db24; 0xb2492c92; 0xb2492400; 0x6db64b2c; 0xb2492c92;
   0xb2492c96; 0x6db6db6d; 0xb6c92592; 0x92492592; 0x6db6db6d; 0xb6592d92; 0x32492592; 0x2db6db6c;
   0x90; 0x201705; 0x5b6db6d8; 0x7ffe5b2c; 0x7fff1b2e; 0xdb6d92cb; 0x7ffedb6c; 0x7ffffffe;
   0xdb6db6db; 0x7ffe4b24; 0x7fffcb26; 0xdb6d96d9; 0x6cbe5b6c; 0x64fffffe; 0xd96db6db; 0x6c9ffffe;
   0x64bffffe; 0xdb6db6db; 0x6cbffffe; 0x74bffffe; 0xdb6db6db; 0x7ffffffe; 0x7ffffffe; 0x5b6db6d8;
   0x4924920; 0x201705; 0x36db6db6; 0x7ffffffa; 0x7fffffff; 0xb6db6db6; 0x4924925b; 0xff;
   0x924925b6; 0x492496db; 0x49249fdf; 0xb6db6db6; 0x7fffb60b; 0x7ffffe0f; 0xb6db6d96; 0x5b6db64b;
   0x7ff; 0x924925b6; 0x492492db; 0x4924907f; 0xb6db6db6; 0x7fffffdb; 0x7ffffffe; 0x36db6db6;
   0x9249248; 0x201605; 0x3ffffffc; 0xfffffffe; 0xfffffffe; 0x7fffffed; 0xfffffffe; 0xfffffffe;
   0x6db6df6d; 0x124927fe; 0xffe; 0x24925b6d; 0x12497ffe; 0x7ffe; 0x24925b6d; 0x12492ffe;
   0x7fe; 0x6db6db6d; 0xb6db6dfe; 0xfffffffe; 0x6db6db6d; 0xb6db6db6; 0x3ffffffe; 0x2db6db6c;
   0x201705; 0x5b6db6d8; 0x6db6db6c; 0x7ffffffe; 0xdb6db6db; 0x6db64b6c; 0x7ffe49fe; 0xdb6db6db;
   0x6db2596c; 0x7ff2617e; 0xdb6db6db; 0x6db2db6c; 0x7ff3ed3e; 0xdb6db6db; 0x6db6636c; 0x7ff2497e;
   0xdb6cb6db; 0x6db6596c; 0x7ffe4bfe; 0xdb6db6db; 0x6db6db6c; 0x7ffffffc; 0x5b6db6d8; 0x4924920;
   0x201605; 0x36db6db6; 0x49249248; 0x49249248; 0xb6db6db6; 0x49249249; 0x49240248; 0xb6d924b6;
   0x49249249; 0x49200048; 0xb6d924b6; 0x49249249; 0x49200048; 0xb6d924b6; 0x49249249; 0x49200048;
   0xb6d924b6; 0x49249249; 0x49249248; 0xb6db6db6; 0x49249249; 0x49249248; 0x36db6db6; 0x201705;
   0x2db6db6c; 0xb6db6db6; 0xfffffffe; 0x6db6db6d; 0xb6db6db6; 0xfffffffe; 0x6db6db6c; 0x12492492;
   0x12000; 0x24964924; 0x12496492; 0x92000; 0x2496c924; 0x12492492; 0x10000; 0x6db6db6c;
   0xfffffffe; 0xfffffffe; 0x6db6db6d; 0xfffffffe; 0x7ffffffe; 0x2db6db6c; 0x12492490; 0x1f2000;
   0x24924924; 0x6db6db6c; 0x4924924b; 0x6db6db6b; 0x6db6db72; 0x4924925b; 0x6c92db5b; 0x6002db92;
   0x400092db; 0x2496dad8; 0x586dc90; 0x80496d9; 0x6cb6d6c1; 0x6c36e480; 0x4024b6c9; 0x25b6b6c0;
   0x1b72480; 0x125b6c9; 0x2db5b6c9; 0xdb92490; 0x92db6d9; 0x6dadb6d8; 0x6dc92480; 0x496db6cb;
   0x6d6db6cb; 0x6e492492; 0x4b6db6db; 0x6b6db6db; 0x62492492; 0x4b6db6db; 0x9249248; 0x201804].
Definition emoji_data_11 : list N :=
  [0x4924000; 0x3fffc800; 0x5b6db248; 0x7fffd924; 0x7fffc000; 0xdb6db249; 0x7fffc924; 0x7fffc800;
   0xdb6db249; 0x7fffc924; 0x7ffff800; 0xdb6db249; 0x7fffc924; 0x7ffff800; 0xdb6db249; 0x7fffd924;
   0x7fffc800; 0xdb6db249; 0x7fffd924; 0x7fffc000; 0xdb6db248; 0x7fffc924; 0x3fffc800; 0x9249000;
   0x202000; 0x12492490; 0x5b6db6d8; 0x49249248; 0xb6db6db6; 0x5b6db6db; 0x49249249; 0xb6d92db6;
   0x5b6002db; 0x49000249; 0xb6c925b6; 0x5b0580db; 0x49049049; 0xb64b64b6; 0x5b0db05b; 0x48049049;
   0xb65b6cb6; 0x582db05b; 0x48049049; 0xb6596cb6; 0x5b00b05b; 0x49009049; 0xb64964b6; 0x5b0082db;
   0x48000249; 0xb64925b6; 0x582496db; 0x48249249; 0xb6db6db6; 0x5b6db6db; 0x49249248; 0x36db6db6;
   0x9249248; 0x1f1705; 0x16d82db0; 0x5b6cb6ca; 0x4b6db64d; 0x96d36c36; 0xcb65b2d6; 0xcb6d96ed;
   0x86db2db6; 0xcb6db6b6; 0xcb65b62d; 0xb25b6492; 0xdb6c9092; 0x5b24916d; 0xfedb2db6; 0xdb6dadb7;
   0xff6ddb7f; 0xffdb6db6; 0xdb6d6dff; 0xff6edfff; 0xffdb6db6; 0xdb63ffff; 0xff67ffff; 0xff892492;
   0x49000000; 0x201804; 0x4800120; 0x3ff24ffc; 0x5b6496db; 0x7ff24bfe; 0x7ff24ffe; 0xdb6496db;
   0x7ff24bfe; 0x7ff24ffe; 0xdb6496db; 0x7ff24bfe; 0x7ff24ffe; 0xdb6496db; 0x7ff24bfe; 0x7ff24ffe;
   0xdb6496db; 0x7ff24bfe; 0x7ff24ffe; 0xdb6496db; 0x7ff24bfe; 0x7ff24ffe; 0xdb6496db; 0x7ff24bfc;
   0x3ff24ffc; 0x9200248; 0x201505; 0x1ffff7f8; 0xb6db6db6; 0x5b6d96db; 0x7fff927f; 0xb6db65b6;
   0x5b6d92db; 0x7fffd2ff; 0xb6db6db6; 0x7fffb27f; 0x7fff927f; 0xb6db24b6; 0x7fff927f; 0x7fff927f;
   0xb6db24b6; 0x7fff967f; 0x49249248; 0x12496592; 0x4924b2c8; 0x3200; 0x12492c92; 0x9249248;
   0x201606; 0x24924924; 0x12492492; 0x0; 0x24924924; 0x0; 0x12492492; 0x6db6db6d;
   0xb6db6db6; 0xfffffffe; 0x6db6db6d; 0xb6db6db6; 0xfffffffe; 0x6db6db6d; 0xb6db6db6; 0xfffffffe;
   0x6db6db6d; 0xb6db6db6; 0xfffffffe; 0x6db6db6c; 0x36db6db6; 0x3ffffffe; 0x24924924; 0x1f1705;
   0x49249249; 0x6db6db6f; 0x6496db62; 0x4924924b; 0x64b6db79; 0x24b6db12; 0x4924925b; 0x2db6dbc9;
   0x25b6d892; 0x492492db; 0x6db6dec9; 0x6db6c492; 0x492496db; 0x6db6d249; 0x24922492; 0x49249249;
   0x24929249; 0x2493ffff; 0xfff5b6db; 0x6dbdb6db; 0x6d8fffff; 0xff049249; 0x24000000; 0x202000;
   0x12492490; 0x5b6db6d8; 0x49249248; 0xb6db6db6; 0x5b6db6db; 0x49249249; 0xb6d925b6; 0x5b6002db;
   0x49000249; 0xb6c925b6; 0x5b0482db; 0x49048249; 0xb6cb65b6; 0x5b0582db; 0x49008249; 0xb6c925b6;
   0x5b6002db; 0x49200249; 0xb6d925b6; 0x5b6082db; 0x49208249; 0xb6c965b6; 0x5b0182db; 0x49048249;
   0xb6cb65b6; 0x5b2db2db; 0x49249249; 0xb6db6db6; 0x5b6db6db; 0x49249248; 0x36db6db6; 0x9249248;
   0x201804; 0x2492490; 0x3ffffffc; 0x6db6db6c; 0xb6db6db6; 0xfffffffe; 0x6db6db6d; 0xb6592db6;
   0xfe0120fe; 0x6d92596d; 0xb64924b6; 0xfe4820fe; 0x6db6c96d; 0xb6db6db6; 0xfffffffe; 0x6db6db6d;
   0xb6db6db6; 0xffc925fe; 0x6db6db6d; 0xb6db6db6; 0xfffffffe; 0x6db6db6c; 0x36db6db6; 0x3ffffffc;
   0x24924924; 0x201804; 0x4924920; 0x2ffffbfc; 0x4b6db6db; 0x65b6db64; 0x64fffbe6; 0xd96db6db;
   0x6cb6db2c; 0x7f9fff3e; 0xdb6db6db; 0x6db2db64; 0x7ff2f3e6; 0xdb6cb6db; 0x6db65b6c; 0x7ffe4ffe;
   0xdb6d96db; 0x6db6cb6c; 0x7ffff97e; 0xdb6db65b; 0x6db6db2c; 0x7fffff2e; 0x5b6db6cb; 0x6db6db64;
   0x3ffffff4; 0x9249248; 0x201804; 0x9000248; 0x1fe003fc; 0xb6d925b6; 0x5b6c93ff; 0x7ffc03ff;
   0xb6db25b6; 0x5b6d92ff; 0x7fff80ff; 0xb6db64b6; 0x5b6db27f; 0xbfff07f; 0x92db6cb6; 0x492db65f;
   0xffe1f; 0x924b6d96; 0x4924b64f; 0x48003fcf; 0xb6c92db6; 0x5b6492cb; 0x5b6c807b; 0xb6db6cb2;
   0x5b6db648; 0x1b6db6c8; 0x12492490; 0x1f1804; 0x12492490; 0x7ffffff9; 0xb6db6db7; 0xffffffbf;
   0xffffffed; 0xb6db6dbf; 0xffff6dff; 0xffffff24; 0x924b6c00; 0x5b6c00; 0xfff924; 0x92db6124;
   0x96db6000; 0x7ffc924; 0x96db0924; 0x92dbffff; 0xfffeffff; 0xfedbffff; 0xfedfffff; 0xfff7ffff;
   0xfedfffff; 0xffcfffff; 0xff924924; 0x92000000; 0x1f1705; 0x5b6d92d9; 0x6db6cb6f; 0x6db65b67;
   0xfffc9feb; 0x6db65b7b; 0x6db2db3f; 0xffe4ff5b; 0x6db2dbdb; 0x6d92d892; 0x49249249; 0x24924a49;
   0x24924492; 0x492496db; 0x64b6f6db; 0x65b67fff; 0xc9feb6db; 0x65b7b6db; 0x2db3fffe; 0x4ff5b6db;
   0x2dbdb6d9; 0x6d8b6db2; 0x5b049241; 0x24000000; 0x201604; 0x40; 0x1ffffe58; 0xb6db6d96;
   0x5b6db2cb; 0x7ffff7cf; 0xb6db6d96; 0x5b6db6cb; 0x7fffffc3; 0xb6db6d96; 0x5b6db6cb; 0x7ffffe1f;
   0xb6db6db6; 0x49249248; 0x0; 0x92492492; 0x49249248; 0x0; 0x92492492; 0x49249248;
   0x0; 0x12492492; 0x9249248; 0x201804; 0x12492010; 0x3fff3db0; 0x6db65b6c; 0xffff2d96;
   0xffff0792; 0x6db6db6c; 0xfeff6db6; 0xf01f2792; 0x6496cb24; 0xf25f65b2; 0xf04f0db2; 0x64b65b6c;
   0xf25ffffe; 0xf6dffffe; 0x6db6db6d; 0xfedffffe; 0xfefffffe; 0x6db6db6d; 0xfffffffe; 0xfffffffe;
   0x6db6db6d; 0xfffffffe; 0x3ffffffe; 0x24924924; 0x201605; 0x12492490; 0x0; 0x24925b24;
   0x12492d92; 0x3f80; 0x24925b24; 0x92492492; 0xffffe0fe; 0x6db6d96d; 0xb6db6db6; 0xfffffdfe;
   0x6db6db6d; 0xb6db6db6; 0xfffffffe; 0x6db6db6d; 0xb6db6db6; 0xfffffffe; 0x6db6db6d; 0xb6db6db6;
   0xfffffffe; 0x6db6db6c; 0x36db6db6; 0x201704; 0x9249048; 0x2db6d96c; 0x7fffd9fc; 0x5b6d96db;
   0x6db6d96c; 0x7fffd9fe; 0xdb6d96db; 0x6db6d96c; 0x7fffd9fe; 0x5b6d96db; 0x24925924; 0x7ffffffe;
   0xdb6db6db; 0x24925924; 0x24925924; 0x5b6d96db; 0x6db6d96c; 0x7fffd9fe; 0x5b6d96db; 0x6db6d96c;
   0x7fffd9fe; 0x5b6d96db; 0x2db6d96c; 0x201605; 0x9249248; 0x0; 0x92492492; 0x49249248;
   0x0; 0x92496592; 0x4924b6c9; 0x7ffcd3ff; 0xb6db65b6; 0x5b6c92db; 0x7ffc92ff; 0xb6db65b6;
   0x5b6cb6db; 0x7ffeff7f; 0xb6db6db6; 0x5b6d96db; 0x7fff93ff; 0xb6db6db6; 0x5b6db6db; 0x7fffffff;
   0xb6db6db6; 0x5b6db6d8; 0x1f1704; 0x4924920; 0x2db6db64; 0x4924924b; 0x6db6db6b; 0x6db6db62;
   0x4924925b; 0x6db6db5b; 0x6db6db12; 0x49249249; 0x24924849; 0x24924800; 0x249; 0x24924249;
   0x24924000; 0x36db; 0x6db6b6db; 0x6db76db6; 0xdb6db6db; 0x6db5b6db; 0x6dbb6db6; 0xdb6db6db;
   0x6d8db6db; 0x6d800000; 0x1f1605; 0x9249240; 0x2; 0x49249242; 0x49249240; 0x12;
   0x49249252; 0x49249200; 0x2400092; 0x59249292; 0x49249000; 0x924005b6; 0xc96db496; 0x4b248924;
   0x92492db6; 0x5b6da492; 0x49244924; 0x92496db6; 0xdb6d2492; 0x49224924; 0x924b6db6; 0xdb692492;
   0x49000000; 0x201704; 0x12400490; 0x5b6496d8; 0x7fe002da; 0xb6c925b6; 0x5b6496db; 0x7fe002db;
   0xb6c925b6; 0x5b6496db; 0x7fe002db; 0xb6c925b6; 0x5b6596db; 0x7fe582db; 0xb6cb65b6; 0x5b6596db].
Definition emoji_data_12 : list N :=
  [0x7fe002db; 0xb6c925b6; 0x5b6496db; 0x7fe002db; 0xb6c925b6; 0x5b6496db; 0x7fe002db; 0xb6c925b6;
   0x5b6496d8; 0x1f1704; 0x4924920; 0x2db6db64; 0x4924924b; 0x6db6db6b; 0x6db6db72; 0x4924925b;
   0x6db6db5b; 0x6db6db92; 0x482492db; 0x6cb6dadb; 0x2096dc92; 0x402496db; 0x25b6d6db; 0x5b6e492;
   0x4924b6d9; 0x6db6b6db; 0x6db72492; 0x4925b6db; 0x6db5b6db; 0x6db12492; 0x492db6db; 0x6d85b6db;
   0x6c800000; 0x201704; 0x9249248; 0x2db6db6c; 0x2db6db6c; 0x5b6db6db; 0x6db6db6c; 0x0;
   0x49249248; 0x24924924; 0x7ffffffe; 0xdb6db6db; 0x7ff65ffe; 0x7ff24ffe; 0xdb6cb6db; 0x7ffe5ffe;
   0x7ffe7ffe; 0xdb6db6db; 0x24924924; 0x0; 0x49249249; 0x6db6db6c; 0x6db6db6c; 0x5b6db6db;
   0x2db6db6c; 0x201704; 0x12492490; 0x7ffffff8; 0x7ffffffe; 0xfffffff6; 0xfffffffb; 0x7fffffff;
   0xb6db6db6; 0x492492db; 0x492497ff; 0xb6db6db6; 0x5b6db65b; 0x7ffffe0f; 0xb6db6d96; 0x5b6db6db;
   0x7fffffdf; 0xb6db6db6; 0x492492db; 0x492492ff; 0xb6db6db6; 0x5b6db6db; 0x5b6db6df; 0xb6db6db6;
   0x5b6db6d8; 0x201704; 0x4924920; 0x16db6db2; 0x12492496; 0x6db6db6d; 0xb6db6db6; 0x924924be;
   0x6db6db6d; 0xb6db6dbe; 0x124924fe; 0x2492496d; 0x124b25fe; 0x174f27fe; 0x27964b6d; 0x164b25fe;
   0x124925fe; 0x2492496d; 0xb6db6dbe; 0x924924be; 0x6db6db6d; 0xb6db6db6; 0x12492496; 0x6db6db6c;
   0x16db6db2; 0x201704; 0x9249248; 0x2db6db6c; 0x7ffffffe; 0xdb6db6db; 0x6db6db6c; 0x7ffffffe;
   0xdb6db6db; 0x6db6db6c; 0x0; 0x49249249; 0x24924924; 0x64000; 0x4924b249; 0x24964924;
   0x24000; 0x49249249; 0x6db6db6c; 0x7ffffffe; 0xdb6db6db; 0x6db6db6c; 0x7ffffffe; 0x5b6db6db;
   0x2db6db6c; 0x1f1704; 0x12492490; 0xb6db6db1; 0xffffffe5; 0xb6db6d95; 0xb6db6c8f; 0xfffff82d;
   0xb6db64ad; 0xb6db247f; 0xfff8416d; 0xb6cb656d; 0xb6c963ff; 0xfc004b6d; 0xb6592fff; 0xfe491fff;
   0xfc925b6d; 0xb6497fff; 0xfe48ffff; 0xfc02db6d; 0xb64bffff; 0xfe07ffff; 0xff96db6d; 0xb6d7ffff;
   0xfe000000; 0x201704; 0x24924924; 0x36db6db6; 0x7ffffffe; 0x6db6db6d; 0xfffffffe; 0xfffffffe;
   0x6db6db6d; 0xb6db6db6; 0x0; 0x24924924; 0x12492492; 0x400480; 0x24b24b24; 0x12492492;
   0x0; 0x24924924; 0xb6db6db6; 0xfffffffe; 0x7fffffff; 0xfffffffe; 0xfffffffe; 0x7ffffffc;
   0x3ffffffe; 0x201704; 0x9249248; 0x2db6db6c; 0x6db6db6c; 0x5b6db6db; 0x6db6db6c; 0x24924924;
   0xdb6db6db; 0x7ff6fffe; 0x7ff0fffe; 0xdb64bedb; 0x7c97df7e; 0x6c13ff2e; 0xdb2db6db; 0x6f96dfee;
   0x7fc0fffe; 0xdb65f6db; 0x7ff7fffe; 0x7ffffffe; 0x5b6db6db; 0x6db6db6c; 0x6db6db6c; 0x5b6db6db;
   0x2db6db6c; 0x202000; 0x9249248; 0x36db6db6; 0x5b6db6db; 0x49249249; 0xb6db6db6; 0x5b6db6db;
   0x49241249; 0xb6c925b6; 0x5b6002db; 0x49200249; 0xb6cb25b6; 0x5b6d82db; 0x49248249; 0xb6db25b6;
   0x5b6402db; 0x49200249; 0xb6c92db6; 0x5b00b6db; 0x49009249; 0xb6cb6db6; 0x5b05b6db; 0x49008249;
   0xb6c925b6; 0x5b6002db; 0x49200249; 0xb6d92db6; 0x5b6db6db; 0x49249249; 0xb6db6db6; 0x5b6db6db;
   0x49249248; 0x12492490; 0x201704; 0x24924920; 0x3fff7db2; 0x7fff2d86; 0x6db6db2d; 0xffff2592;
   0xffff6fb6; 0x6db6db6d; 0xfe7f6db6; 0xfe5f2182; 0x6db6cb25; 0xf6df2db2; 0xfe5f3fb6; 0x6db6db6d;
   0xb24bfffe; 0xf24ffffe; 0x6db6db6d; 0xf65ffffe; 0xf05ffffe; 0x6db6db6d; 0xfefffffe; 0xfffffffe;
   0x6db6db6c; 0x3ffffffe; 0x201705; 0x2db6db64; 0xffff6d96; 0xffff2596; 0x6db64b24; 0xffff6db6;
   0xfffffffe; 0x6496db6c; 0xf64f2592; 0xf64f65b2; 0x6d96db6c; 0xf64f3db6; 0xf24ffffe; 0x6596db6d;
   0xf2dffffe; 0xf27ffffe; 0x6cb6db6d; 0xfefffffe; 0xfffffffe; 0x6db6db6d; 0xfffffffe; 0x7ffffffe;
   0x2db6db6c; 0x12492490; 0x201705; 0x5b6496d8; 0x7ff24bfe; 0x7ff24ffe; 0xdb6496db; 0x7ff24bfe;
   0x7ff24ffe; 0xdb6496db; 0x7ff24bfe; 0x7ff24ffe; 0xdb6496db; 0x7ff24bfe; 0x7ff24ffe; 0xdb6496db;
   0x7ff24bfe; 0x7ff24ffe; 0xdb6496db; 0x7ff24bfe; 0x7ff24ffe; 0xdb6496db; 0x7ff24bfe; 0x7ff24ffe;
   0x5b6496d8; 0x4800120; 0x201705; 0x36db6cb6; 0x7ffeb05f; 0x7ffef81f; 0xb6db6cb6; 0x7ffeb05f;
   0x7ffef81f; 0xb6db6cb6; 0x7ffeb05f; 0x7ffef81f; 0xb6db6cb6; 0x793e9249; 0x6c77ffff; 0xb6db6db6;
   0x5b3fffff; 0x781fffff; 0xb25b6db6; 0x7a6fffff; 0x7b7fffff; 0xb2db6db6; 0x7b7fffff; 0x7f7ffffe;
   0x36db6db6; 0x9249248; 0x201705; 0x2db6db6c; 0x36db7ffe; 0xfffffffe; 0x6db6db6d; 0x92493db6;
   0x12493c16; 0x2492592d; 0x12493c1e; 0x12493c9e; 0x6db6db6d; 0xb6db7dfe; 0xfffffffe; 0x6db6db6d;
   0x92492492; 0x12492492; 0x24924924; 0x12492492; 0x12492492; 0x6db6db6c; 0xb6db6db6; 0x3ffffffe;
   0x2db6db6c; 0x10; 0x201705; 0x5b6db6d8; 0x6db6db6c; 0x7ffffffe; 0x49249249; 0x0;
   0x0; 0x5b6db6db; 0x7ffffffe; 0x7ffffffe; 0xdb6db6db; 0x7ffffffe; 0x7ffffffe; 0xdb6db6db;
   0x7ffffffe; 0x7ffffffe; 0x5b6db6db; 0x0; 0x0; 0x49249249; 0x6db6db6c; 0x7ffffffc;
   0x5b6db6d8; 0x4924920; 0x201705; 0x36db6db6; 0x7fffffff; 0x7fffffff; 0xb6db6db6; 0x7fffffff;
   0x7fffffff; 0xb6db6db6; 0x49249248; 0x0; 0x92492492; 0x49249248; 0x0; 0x92492492;
   0x49049248; 0x49249248; 0xb6db6db6; 0x5b6db6db; 0x7fffffff; 0xb6db6db6; 0x5b6db6db; 0x7ffffffe;
   0x36db6db6; 0x9249248; 0x201705; 0x2db6db6c; 0xfffffffe; 0xfffffe3e; 0x6db6db6d; 0xff5ffffe;
   0xffdfe7f6; 0x6d96db65; 0xffcbfff6; 0xffcbfffe; 0x6d92db6d; 0xffc97ffe; 0xffc97ffe; 0x6d925b6d;
   0xffc92fbe; 0xff4927fe; 0x6d924b6d; 0xfe4925fe; 0xfe4924fe; 0x6db6db6d; 0xf6db6dbe; 0x7249249e;
   0x2db6db6c; 0x12492490; 0x201705; 0x5b6db6d8; 0x6db6db6e; 0x7fffffee; 0xdb6db6df; 0x6db6db7f;
   0x7ffff97e; 0xdb6db2ff; 0x6db6cbef; 0x7ffe4f6e; 0xdb6c9e4f; 0x6db25f07; 0x7ff27f06; 0xdb6c9edf;
   0x6db64fef; 0x7fffcbfe; 0xdb6db2ff; 0x6db6d97f; 0x7ffffd3e; 0xdb6db6df; 0x6db6db6e; 0x7fffffe6;
   0x5b6db6d8; 0x4924920; 0x201605; 0x36db6db6; 0x5b6db658; 0x49249208; 0xb6db2db6; 0x5b6c96db;
   0x49249248; 0xb6d96db6; 0x5b6c96db; 0x492492c8; 0xb6db6db6; 0x5b6db6db; 0x492492c8; 0xb6db6db6;
   0x5b6db6db; 0x49249258; 0xb6db6db6; 0x5b6db6db; 0x49249248; 0xb6db6c96; 0x5b6db6db; 0x492492c8;
   0x36db6db6; 0x201705; 0x2db6db6c; 0xbffffffe; 0xfffffffe; 0x6db6db6d; 0xfffffffe; 0xfff93ffe;
   0x6db25b6d; 0xfff36ffe; 0xffc067fe; 0x6db25b6d; 0xffc337fe; 0xffc337fe; 0x6db25b6d; 0xffc967fe;
   0xffe1e7fe; 0x6db25b6d; 0xfff93ffe; 0xfffffffe; 0x6db6db6d; 0xfffffffe; 0x7ffffffe; 0x2db6db6c;
   0x12492490; 0x201705; 0x5b6db248; 0x7fffc964; 0x7fffc1e0; 0xdb6db2c9; 0x7fffcbec; 0x7fffc7f8;
   0xdb6db6d9; 0x7fffc9e4; 0x7fffc1e0; 0xdb6db249; 0x7fffc924; 0x7ffffffe; 0xdb6db6db; 0x7ffffffe].
Definition emoji_data_13 : list N :=
  [0x7ffffffe; 0xdb6db6db; 0x7ffffffe; 0x7ffffffe; 0xdb6db6db; 0x7ffffffe; 0x7ffffffe; 0x5b6db6d8;
   0x4924920; 0x201705; 0x36db6db6; 0x7ffffffe; 0x7fffffff; 0xb6db6db6; 0x7fffb7ff; 0x7fff83ff;
   0xb6db6cb6; 0x7ffff27f; 0x7ffffe7f; 0xb6cb6cb6; 0x7fe5fe5f; 0x7f87fe7f; 0xb6cb6cb6; 0x7feffe7f;
   0x7ffff87f; 0xb6db6cb6; 0x7fff92ff; 0x7fff97ff; 0xb6db6db6; 0x7fffffff; 0x7ffffffe; 0x36db6db6;
   0x9249248; 0x201705; 0x2db6dbfc; 0x3fffe7f2; 0xffffe7f6; 0x6db6cfed; 0xffff2f9e; 0xffff3fbe;
   0x6db67f6d; 0xfff97cfe; 0xfff9fcfe; 0x6db3fb6d; 0xffdbe7fe; 0xffcfe7fe; 0x6d9fdb6d; 0xffdf2ffe;
   0xfe7f3ffe; 0x6cfedb6d; 0xfef97ffe; 0xf3f9fffe; 0x67f6db6d; 0xf7ebfffe; 0x1fcffffe; 0x2f96db6c;
   0x12092490; 0x1f1605; 0xb6db6db0; 0xb6d96cb1; 0x2498d974; 0xb6d92cbc; 0xb6db6d89; 0x24ffffac;
   0xb6db6dec; 0x964b2449; 0x25964d6d; 0xb65b676d; 0xb2db6249; 0x2492496d; 0xb6db7b2c; 0xb6db1249;
   0x24925b6d; 0xb6dbdb2d; 0xb6d89249; 0x2492db65; 0xb6dedb24; 0xb6c49249; 0x2496db6d; 0xb6000000;
   0x201705; 0x36db7ffe; 0x7fffffff; 0x7ffffeff; 0xb6db7cbe; 0x7ffffe5f; 0x7ffff01f; 0xb6db7cbe;
   0x7ffff65f; 0x7ffffeff; 0xb6db7ffe; 0x7fffffff; 0x7fffffff; 0xb6db6db6; 0x7fffffff; 0x7fffffff;
   0xb6db6db6; 0x7fffffff; 0x7fffffff; 0xb6db6db6; 0x7fffffff; 0x7ffffffe; 0x36db6db6; 0x9249248;
   0x1f1705; 0x3db6db6d; 0xff96db6f; 0xff24924b; 0xff96db6b; 0xff96db63; 0xffa4925b; 0xff96db59;
   0xff96db92; 0xffe492d9; 0x7fb6dad9; 0x7ff2dc92; 0xffe496d9; 0x7ff2d6d9; 0x7ff2e492; 0x7ff4b6db;
   0x7ff2b6db; 0x3ff32492; 0x5ffdb6db; 0x2ff5b6db; 0x2ff12492; 0x4fe5b6db; 0x2f800000; 0x4000000;
   0x1f2000; 0x24924924; 0x6db6db6c; 0x4924924b; 0x6db6db6b; 0x6db6db72; 0x4924925b; 0x6492db5b;
   0x6000db92; 0x92db; 0x2496dadb; 0x2096dc92; 0x412496db; 0x65b6d6db; 0x5b6e492; 0x924b6db;
   0x2db6b6d8; 0x2db72490; 0x4925b6d9; 0x6db5b6c1; 0x6db92482; 0x492db6cb; 0x6dadb60b; 0x6dc92412;
   0x496db65b; 0x6d6db25b; 0x6e492492; 0x4b6db6db; 0x6b6db6db; 0x62492492; 0x4b6db6db; 0x9249248;
   0x201704; 0x4924920; 0x3ffffffc; 0x5b6db6db; 0x6db6db6c; 0x7ffffffe; 0xdb6db6db; 0x6db6db6c;
   0x7ffffffe; 0xdb6db6db; 0x6db6db6c; 0x7ffffffe; 0x5b6db6db; 0x24924924; 0x24924924; 0x49249249;
   0x24924924; 0x24924924; 0x49249249; 0x24924924; 0x24924924; 0x49249249; 0x24924924; 0x4924920;
   0x201804; 0x9249248; 0x7ffffffc; 0xbffffffe; 0x7fffffff; 0x7fffffff; 0x92492492; 0x49249248;
   0x0; 0xb6d92db6; 0x7ffcbfff; 0x7ff89fff; 0xb6d92db6; 0xfffd9fff; 0x7ffd9fff; 0xfff93ffe;
   0x5b6cb6db; 0x0; 0x92492492; 0x49249249; 0x7fffffff; 0xb6db6db6; 0x7fffffff; 0x7ffffffc;
   0x12492490; 0x201804; 0x12492490; 0x3ffffffe; 0x6db6db6c; 0x12496db6; 0xb6dbe6fe; 0x6db6db6d;
   0x12496db6; 0x1249edb6; 0x6db6db6d; 0x92496db6; 0xedb2; 0x6db6db6d; 0xb6db6db6; 0x0;
   0x6db6db6c; 0xb6db6db6; 0x12492492; 0x24924924; 0xb6db6db6; 0xb6db6db6; 0x24924924; 0x12492492;
   0x3ffffffe; 0x24924924; 0x1f1705; 0x49249249; 0x6db6db6f; 0x6db6db62; 0x4924924b; 0x6db6db7b;
   0x6492db12; 0x4924925b; 0x2592dbdb; 0x2492d892; 0x402492d9; 0x2496ded9; 0x496c492; 0x92496c9;
   0x24b6f6c9; 0x24b62482; 0x4124b6c9; 0x2db7b6cb; 0x2db12492; 0x4925b6db; 0x6dbdb6db; 0x6d892492;
   0x49049249; 0x24000000; 0x201804; 0x9249248; 0x5ffffff8; 0x36db6db6; 0x49249edb; 0x5b6df6cf;
   0xb6db6db6; 0x492496db; 0x4924dfdb; 0xb6db65b6; 0x4924b6db; 0xdbdb; 0xb6db6db6; 0x5b6db6db;
   0x0; 0xb6db6db6; 0x5b6db6db; 0x49249248; 0x92492492; 0x5b6db6db; 0x5b6db6db; 0x92492492;
   0x49249248; 0x5ffffff8; 0x12492490; 0x201804; 0x12490000; 0x3fffc000; 0x6db6c924; 0xffffe492;
   0x12490490; 0x24924b64; 0x12492492; 0xffffc490; 0x6db6cb64; 0xffffe492; 0x12490080; 0x24924924;
   0x12492492; 0xfffffffe; 0x6db6db6d; 0xfffffffe; 0x12492492; 0x24924924; 0x12492492; 0xfffffffe;
   0x6db6db6d; 0xbffffffe; 0x3ffffffe; 0x24924924; 0x201705; 0x24924924; 0x5b6db6cb; 0x6db6db64;
   0x24924924; 0x5b6db6cb; 0x6db64b6c; 0x6db6db6c; 0xdb6db6db; 0x24924924; 0x0; 0x49249249;
   0x24924924; 0x0; 0x49249249; 0x6db6db6c; 0x6db6db6c; 0x5b6db6db; 0x6db6db6c; 0x24924924;
   0x5b6db6db; 0x2db6db6c; 0x24924924; 0x9249248; 0x202000; 0x12492490; 0x5b6db6d8; 0x49249248;
   0xb6db6db6; 0x5b6db6db; 0x49249249; 0xb65b6cb6; 0x5b0db05b; 0x49049049; 0xb64b64b6; 0x5b0db05b;
   0x49049049; 0xb64b64b6; 0x5b0db05b; 0x49049049; 0xb64b64b6; 0x5b0db05b; 0x49049049; 0xb64b64b6;
   0x5b05b05b; 0x49048049; 0xb64b64b6; 0x5b0002db; 0x49000249; 0xb6c925b6; 0x5b6496db; 0x49249249;
   0xb6db6db6; 0x5b6db6db; 0x49249248; 0x36db6db6; 0x9249248; 0x161406; 0x92492524; 0x92400000;
   0x24924949; 0x24902000; 0x9649252; 0x49244900; 0x2592494; 0x92491240; 0x964925; 0x24924000;
   0x259249; 0x49249000; 0x92492; 0x52492400; 0x1f1705; 0x492492d9; 0x6c924b6f; 0x6c924b66;
   0xc92496cb; 0x64925b7b; 0x64925b36; 0x4924b65b; 0x2492dbdb; 0x2c92d9b2; 0x5925b2d9; 0x6d96ded9;
   0x6596cd92; 0xc92d96c9; 0x6cb6f6c9; 0x64b66c92; 0xc96cb64b; 0x25b7b64b; 0x25b36492; 0x4b65b249;
   0x2dbdb249; 0x2d892492; 0x5b048000; 0x24000000; 0x201705; 0x9249248; 0x12492492; 0x49249248;
   0x49249248; 0x92492492; 0x49249248; 0x49249248; 0xb6db6db6; 0x7ffdbfff; 0x7ff5bfff; 0xb6db6db6;
   0x7feff7ff; 0x7fffffff; 0xb6db6db6; 0x7fffffff; 0x7fffffff; 0xb6db6db6; 0x5b6db6db; 0x7fffffff;
   0xb6db6db6; 0x5b6db6da; 0x5ffffff8; 0x12492490; 0x201804; 0x12492010; 0x3fff3db0; 0x6db65b6c;
   0xffff2d96; 0xffff0792; 0x6db6db6c; 0xf6df6db6; 0xf2cf2792; 0x6db6cb24; 0xf65f65b2; 0xf25f0db2;
   0x6cb65b6c; 0xf65ffffe; 0xf24ffffe; 0x6cb6db6d; 0xf24bfffe; 0xd2cbfffe; 0x6496db6d; 0xf25ffffe;
   0xfefffffe; 0x6db6db6d; 0xfffffffe; 0x3ffffffe; 0x24924924; 0x1f1406; 0x92492490; 0x92492490;
   0x4; 0x92492494; 0x92492480; 0x24b24024; 0x96d924a4; 0x97f92440; 0x2d924964; 0xb6cb652c;
   0xb6492208; 0x2410092c; 0xb2c92924; 0x92490001; 0x20004924; 0x92494964; 0x92480040; 0x24924;
   0x92424924; 0x92400000; 0x201804; 0x9249248; 0x1ffffff8; 0xb6db6db6; 0x5b6db6db; 0x7fffffff;
   0xb6db6db6; 0x5b6db6db; 0x7ffeffff; 0xb6db6db6; 0x5b6cb6db; 0x7fe413ff; 0xb6c925b6; 0x5b6496db;
   0x7ffc1fff; 0xb6d92db6; 0x5b6d96db; 0x7ff59fff; 0xb6db6db6; 0x5b6db6db; 0x7fffffff; 0xb6db6db6;
   0x5b6db6da; 0x1ffffff8; 0x12492490; 0x201804; 0x12492490; 0x3ffffffe; 0x6db6db6c; 0xfffffffe;
   0xfffffff2; 0x6db6dbe5; 0xffffef96; 0xfffffcbe; 0x6db6d97f; 0xffffe5f6; 0xffffe792; 0x6db6df6d].
Definition emoji_data_14 : list N :=
  [0x92492fb6; 0xffffe796; 0x6db6dbef; 0xb6db7cfe; 0xb6db7cbe; 0x6db6db2f; 0xb6db6d96; 0xb6db6df2;
   0x6db6db7c; 0x36db6dbe; 0x16db6db6; 0x4924920; 0x1f2000; 0x12492490; 0x5b6db6da; 0xdb6db6dc;
   0x92492496; 0xdb6db6d6; 0xdb6db6e4; 0x824824b6; 0xcb6cb6b6; 0xb60b724; 0x124125b6; 0x5b25b5b6;
   0x1b0db924; 0x10092db2; 0x596dadb0; 0x416dc920; 0x82496db2; 0xcb6d6d82; 0xb6e4900; 0x124b6d92;
   0x5b6b6d80; 0xdb724900; 0x925b6c96; 0xdb5b6c16; 0xdb924824; 0x92db6cb6; 0xdadb6db6; 0xdc924924;
   0x96db6db6; 0xd6db6db6; 0xc4924924; 0x92492492; 0x1f1704; 0x12492010; 0xb6db64f3; 0xfff7c1f5;
   0xb6cb25bd; 0xb6db27df; 0xffbe0fad; 0xb6592ded; 0xb6d93ef9; 0x7df07d65; 0xb2c96f24; 0xb6c9f619;
   0xe4824b65; 0xb6db7925; 0xb6db320f; 0xffff592d; 0xb6dbdb6d; 0xb6d9ffff; 0xfffadb6d; 0xb6dedb6d;
   0xb6cfffff; 0xffd6db6d; 0xb6d6db6d; 0xb6000000; 0x201704; 0x12492490; 0x5b6dfef8; 0x7ffffefe;
   0xb6db6db6; 0x7ffff7df; 0x7ffff7cf; 0xb6db6db6; 0x7ffffbff; 0x7fffffff; 0xb6db6cb6; 0x7ffffeff;
   0x7ffffeff; 0xb6db6db6; 0x7fffffff; 0x7fffffff; 0xb6db6db6; 0x7fffffff; 0x7fffffff; 0xb6db6db6;
   0x7fffffff; 0x7fffffff; 0xb6db6db6; 0x5b6db6d8; 0x1f2000; 0x12492490; 0x5b6db6da; 0xdb6db6dc;
   0x92492496; 0xdb6db6d6; 0xdb6db6e4; 0x120924b2; 0x5b2d96b0; 0x582c1720; 0x90480592; 0xc96cb582;
   0xc060b904; 0x80412d96; 0x4965ac10; 0x4105c820; 0x82096cb2; 0xc92d6c82; 0x86e4004; 0x104b6496;
   0x496b6036; 0x3724024; 0x25b25b2; 0x5b5b05b0; 0x5b920920; 0x92db2db2; 0xdadb6db6; 0xdc924924;
   0x96db6db6; 0xd6db6db6; 0xc4924924; 0x92492492; 0x201704; 0x9249248; 0x2db6db6c; 0x7ffffffc;
   0x5b6db6db; 0x6d92db6c; 0x7c9fdb3e; 0xdb6db6db; 0x6db6db6c; 0x7ffffffe; 0xdb6db6db; 0x6db65b6c;
   0x7ffa5ffe; 0xdb6db6db; 0x6db24b6c; 0x7ff24bfe; 0xdb6db6db; 0x6db25b6c; 0x7ff25ffe; 0xdb6db6db;
   0x6db6db6c; 0x7fffdffe; 0x5b6db6db; 0x2db6db6c; 0x202000; 0x9249248; 0x36db6db6; 0x5b6db6db;
   0x49249249; 0xb6db6db6; 0x5b6db6db; 0x49049249; 0xb6cb65b6; 0x5b0580db; 0x49008249; 0xb6c925b6;
   0x5b6082db; 0x49200249; 0xb6d92db6; 0x5b6c16db; 0x49241249; 0xb6d92db6; 0x5b6016db; 0x49200249;
   0xb6c925b6; 0x5b0182db; 0x49008049; 0xb64b64b6; 0x5b05b0db; 0x49049049; 0xb6db6db6; 0x5b6db6db;
   0x49249249; 0xb6db6db6; 0x5b6db6db; 0x49249248; 0x12492490; 0x201704; 0x24924924; 0x36db6db6;
   0x7ffffffe; 0x6db6db6d; 0xfffffffe; 0xfffffffe; 0x6db6db6d; 0xfffffffe; 0x12492492; 0x24924924;
   0x12492492; 0x0; 0x24924924; 0x12492492; 0x0; 0x6db6db6c; 0xfffffffe; 0xfffffffe;
   0x7fffffff; 0xfffffffe; 0xfffffffe; 0x7ffffffc; 0x3ffffffe; 0x1f1605; 0x9249240; 0x2;
   0x492c9242; 0x49259240; 0x10492012; 0x49249252; 0x49249200; 0x12480092; 0x5b649292; 0x5be49020;
   0x33010492; 0xdb249492; 0xd9248021; 0xb0402496; 0xd924a492; 0x49240000; 0x12492; 0x49252492;
   0x49200124; 0x80092492; 0x49012492; 0x48000000; 0x202000; 0x9249248; 0x36db6db6; 0x5b6db6db;
   0x49249249; 0xb6db6db6; 0x5b6db6db; 0x49049249; 0xb6cb65b6; 0x5b0580db; 0x49008049; 0xb6c925b6;
   0x5b6082db; 0x49200249; 0xb6d92db6; 0x5b6016db; 0x49201249; 0xb6d92db6; 0x5b6c16db; 0x49241249;
   0xb6d92db6; 0x5b6c16db; 0x49241249; 0xb6d92db6; 0x5b6c16db; 0x49241249; 0xb6db6db6; 0x5b6db6db;
   0x49249249; 0xb6db6db6; 0x5b6db6db; 0x49249248; 0x12492490; 0x201704; 0x24924904; 0x36db6d96;
   0x36db6c16; 0x6db6d96c; 0xb6db64b6; 0xb6dbe5b2; 0x6db6cb6d; 0xb6db2db6; 0x2d9e; 0x2492db7f;
   0xb6db6cfe; 0xb6db65fe; 0x6db6dbff; 0xb6db6cfe; 0x12496cbe; 0x24925b6f; 0xffff2db6; 0xffff85b2;
   0x6db6cb6c; 0xffffe4b6; 0xfffffcb6; 0x6db6db2c; 0x3fffff96; 0x1f1704; 0x12492490; 0xb6db6db1;
   0x6db6db65; 0xb6db6dbd; 0xb6db6d99; 0x2db6db2d; 0xb6db6ded; 0xb6db6cdb; 0x6db6d96d; 0xb6db6f7d;
   0xb6db62ff; 0xedb6cbfd; 0xb6db7bed; 0xb6db17ff; 0x6db65fed; 0xb6dbdf6d; 0xb6d8bffb; 0x6db2ff6d;
   0xb6defb6d; 0xb6c5ffdb; 0x6d97fb6d; 0xb6d7db6d; 0xb6000000; 0x1f1704; 0x12492490; 0xb6db6db1;
   0x6db6db65; 0xb6db6d94; 0x92492409; 0x2492582d; 0xb6db64ad; 0xb6db247f; 0xfff8496d; 0xb6db25ff;
   0xffd923ff; 0xfc124fff; 0xfe492fff; 0xfe491fff; 0xfc925b6d; 0xb6495b6d; 0xb6489249; 0x24024924;
   0x924a4924; 0x92049249; 0x2596db6d; 0xb6d6db6d; 0xb6000000; 0x1f2000; 0x12492490; 0x5b6db6da;
   0xdb6db6dc; 0x92492496; 0xdb6db6d6; 0xdb6db6e4; 0x924924b6; 0xc924b6b6; 0xc000b724; 0x800125b6;
   0x4b6db5b6; 0xb6db924; 0x2492db6; 0x4b6dadb6; 0xb6dc924; 0x12496db6; 0x5b6d6db6; 0x1b6e4924;
   0x124b6db2; 0x5b6b6db0; 0x5b724920; 0x125b6492; 0x5b5b0000; 0x5b920000; 0x92db2496; 0xdadb6db6;
   0xdc924924; 0x96db6db6; 0xd6db6db6; 0xc4924924; 0x92492492; 0x1f2000; 0x9249241; 0x6db6db63;
   0x6db6db62; 0x4924924b; 0x6db6db7b; 0x6db6db12; 0x4924925b; 0x6db6dbdb; 0x6db6d892; 0x49249249;
   0x2c925e49; 0x20924092; 0x412492db; 0x6db6f6db; 0xdb60492; 0x92496db; 0x6db7b6d8; 0x6db02490;
   0x4924b6db; 0x6dbdb6c3; 0x6d800000; 0x249249; 0x25edb6db; 0x6c492492; 0x496db6db; 0x6f6db6db;
   0x62492492; 0x4b6db6db; 0x7b6db6db; 0x12492492; 0x9249248; 0x202000; 0x9249248; 0x36db6db6;
   0x5b6db6db; 0x5b6db6db; 0xb6db6db6; 0x5b6db6db; 0x5b65b2db; 0xb6cb65b6; 0x5b6db2db; 0x5bc7f3db;
   0xb64925b6; 0x5800001b; 0x5904925b; 0xb6cb65b6; 0x5b6db2db; 0x5b45b2db; 0xb6cb65b6; 0x5b65b2db;
   0x5b65b2db; 0xb6cb6db6; 0x5b65b6db; 0x5b61b6db; 0xb6d96db6; 0x5b6c16db; 0x5b6c06db; 0xb6db6db6;
   0x5b6db6db; 0x5b6db6db; 0xb6db6db6; 0x5b6db6db; 0x5b6db6d8; 0x12492490; 0x1f1f01; 0x2db6db6c;
   0x24924924; 0x4924924b; 0x6db6db69; 0x24924932; 0x4924125b; 0x6db65b49; 0x24904992; 0x92db;
   0x25b25a48; 0x24924c90; 0x480496c9; 0x2492d200; 0x26482; 0x4024b6c9; 0x6cb69209; 0x24932412;
   0x125b249; 0x24b49249; 0x24992492; 0x492db659; 0x2da49241; 0x24c92482; 0x96cb2cb; 0x2d249249;
   0x26492492; 0x4b6db6db; 0x61249249; 0x22492492; 0x9249249; 0x0; 0x1f1f00; 0x12492490;
   0x24924921; 0xb6db6db4; 0x92492491; 0x2492492d; 0xb6cb2da4; 0x92492489; 0x490496d; 0x92596d24;
   0x90492441; 0x24804b65; 0xb2496924; 0x92492240; 0x4125b6d; 0xb65b4924; 0x92491200; 0x2092d924;
   0xb25a4924; 0x92489249; 0x496c925; 0x96d24924; 0x92449248; 0x24b65b2c; 0xb6924924; 0x92240048;
   0x25b6db64; 0xb4924924; 0x91249249; 0x2db6db6d; 0x84924924; 0x80000000; 0x1f2000; 0x49249248;
   0xfffffff2; 0xdb6db6de; 0xdb6db6cf; 0xffffffd6; 0xdb6db6f6; 0xd36db67c; 0x82c13eb2; 0x4924b7b6;
   0xb05b3fc; 0x1e0ff5b2; 0x592dbd94; 0x8b659f31; 0x9ccfadb6; 0xdb6ded92; 0x496cff00; 0x3fd6db6].
Definition emoji_data_15 : list N :=
  [0xdb6f6db6; 0xdb67c000; 0x3eb6d96; 0xdb7b6596; 0xdb3fc33c; 0xff5b2cb2; 0xdbd86c90; 0xd9f2f83c;
   0xfadb6db6; 0xdedb6db6; 0xcfffffff; 0xd6db6db6; 0xd6db6db6; 0x4924920; 0x202000; 0x9249248;
   0x5b6db6d8; 0xb6db6db6; 0x5b6db6db; 0x5b6db6db; 0xb6db6db6; 0x5b6cb6db; 0x5b6c36db; 0xb64924b6;
   0x5820825b; 0x5864965b; 0xb6d96db6; 0x5b6d965b; 0x5c7d865b; 0xb65965b6; 0x5b01b05b; 0x5b25b25b;
   0xb6db6db6; 0x5b2492db; 0x5b0000db; 0xb6db6db6; 0x5b6c36db; 0x5b6c36db; 0xb6db6db6; 0x5924125b;
   0x5800001b; 0xb6db6db6; 0x5b6db6db; 0x5b6db6db; 0xb6db6db6; 0x5b6db6d8; 0x9249248; 0x1f2000;
   0x12492490; 0x7ffffffd; 0xb6db6db5; 0xb6db6dbf; 0xffffffed; 0xb6db6dad; 0xb6cb6dff; 0xfc1fff6d;
   0xb2db6d6d; 0xb21b6fff; 0xf97fb6c; 0xb6cb6b60; 0xb64b7f08; 0x83db2c; 0x92cb5b6d; 0xb6dbffdb;
   0x6dfedb24; 0x92dad824; 0x92dff8ff; 0xe7f6db6d; 0x96d6c36d; 0x96ffc7ff; 0x3fb6db6c; 0xb6b60924;
   0xb7ff8003; 0xfdb6db6d; 0xb5b6db6d; 0xbfffffff; 0xedb6db6d; 0x8db6db6d; 0x89249248; 0x1f2000;
   0x49249248; 0xfffffff2; 0xdb6db6de; 0xdb6db6cf; 0xffffffd6; 0xdb6db6f6; 0xcb2d967c; 0x92483eb2;
   0x4925b7b2; 0x4925b3fc; 0xf3fff5b6; 0xdb6dbd80; 0x659f24; 0x920fadb6; 0xdb6dec90; 0x496cf820;
   0x9ffd6db6; 0xdb6f6492; 0x4b67c924; 0x97eb6db6; 0xdb7b2492; 0x1b3e4027; 0x3f5b64b6; 0x5bd92d96;
   0x59f07f3c; 0xfadb6db6; 0xdedb6db6; 0xcfffffff; 0xd6db6db6; 0xd6db6db6; 0x4924920; 0x201f00;
   0x9249248; 0x9249248; 0xb6db6db6; 0x49249249; 0x49249248; 0xb6db2db6; 0x49249249; 0x49249248;
   0xb64924b6; 0x48000049; 0x49248248; 0xb6db65b6; 0x49248249; 0x49000248; 0xb65b64b6; 0x49249049;
   0x49000248; 0xb6492496; 0x49249249; 0x49249248; 0xb64925b6; 0x49249249; 0x49249248; 0xb65b65b6;
   0x49249249; 0x49009248; 0xb6cb65b6; 0x49249249; 0x49249248; 0xb6db6db6; 0x49249248; 0x1f1f00;
   0x12492490; 0x24924921; 0xb6db6db4; 0x92492491; 0x2492492d; 0xb6db6da4; 0x92492489; 0x496d;
   0x92496d24; 0x12412448; 0x24824b6c; 0x924b6920; 0x92241; 0x24125b65; 0xb65b4904; 0x90491209;
   0x2092db24; 0x92da4800; 0x2489049; 0x496d96d; 0x96d24124; 0x92448249; 0x24b6cb6c; 0xb6920924;
   0x12240248; 0x25b6db6d; 0xb4924924; 0x91249249; 0x2db6db6d; 0x84924924; 0x80000000; 0x1f1f00;
   0x9249240; 0x92492492; 0xdb6db6da; 0x49249244; 0x92492496; 0xdb6db6d2; 0x49249224; 0x924924b6;
   0x4925b690; 0x9120; 0x904125b6; 0xcb65b492; 0x49248904; 0x92092d92; 0x492da412; 0x48244824;
   0x90496db2; 0xd96d2492; 0x49224124; 0x824b6492; 0x4b692492; 0x49124924; 0x925b6cb6; 0xdb492492;
   0x48924924; 0x92db65b6; 0xda492492; 0x44924924; 0x96db6db6; 0xd2492492; 0x0; 0x202000;
   0x9249248; 0x7ffffffc; 0xb6db6db6; 0x5b6db6db; 0x7fffffff; 0xb6db6db6; 0x596da6db; 0x786c827f;
   0xb6c924b6; 0x596db65b; 0x7864861f; 0xb6cb24b6; 0x596d86db; 0x786586ff; 0xb6cb24b6; 0x596d86db;
   0x7864825f; 0xb6c924b6; 0x596db6db; 0x786692ff; 0xb6cb24b6; 0x596cb65b; 0x787cfe7f; 0xb6db6cb6;
   0x582c925b; 0x7c0c007f; 0xb6db6db6; 0x5b6db6db; 0x7fffffff; 0xb6db6db6; 0x5b6db6d8; 0x9249248;
   0x1f1f00; 0x12492490; 0x24924921; 0xb6db6db4; 0x92492491; 0x2492492d; 0xb6cb6da4; 0x92492489;
   0x2410496d; 0x92496d24; 0x2441; 0x24904b65; 0xb6d96924; 0x412209; 0x24025b25; 0xb65b4924;
   0x90491240; 0x92db24; 0x96da4924; 0x92489248; 0x2496d924; 0x96d24924; 0x92449249; 0x24b65b6c;
   0xb6924924; 0x92240001; 0x25b6db6d; 0xb4924924; 0x91249249; 0x2db6db6d; 0x84924924; 0x80000000;
   0x1f2000; 0x48000; 0x7fe000; 0xb64b000; 0x18003000; 0xb0002c02; 0xc0001406; 0x5b241009;
   0x92cc0832; 0x10c1086; 0x4b0c310c; 0x960c2410; 0x90c2c32; 0x59009824; 0x9001a000; 0x301e5b6;
   0xc3048124; 0x87050180; 0x1b0f2492; 0x18265f24; 0x20680c10; 0xc0482020; 0xc1104101; 0x2186506;
   0x8192406; 0x5030c008; 0x80590012; 0x80580016; 0x300020; 0x5b2580; 0xb6c00; 0x24000;
   0x201f00; 0x48000; 0x49000; 0x5b6c80; 0x1249240; 0x1249240; 0x6db6db0; 0x9249248;
   0x8000008; 0x164924b0; 0x9249248; 0x9049248; 0x365b25b6; 0x49240048; 0x49049048; 0xb6596cb6;
   0x49249049; 0x49049048; 0xb6596cb6; 0x49249049; 0x49049048; 0x365924b6; 0x49249248; 0x9049248;
   0x165b6db0; 0x9249248; 0x9009240; 0x6cb6db0; 0x1249240; 0x1249200; 0x5b6c80; 0x249000;
   0x1d1e01; 0x48000; 0x2db6000; 0x9248002; 0x4004002c; 0x580480; 0x202412; 0x102cb6c;
   0x86082490; 0x8412490; 0x44b6db00; 0x12492400; 0x92012009; 0x6016c024; 0x80490124; 0x24816c0;
   0x2d804904; 0x92024924; 0x110db6db; 0x4124920; 0x20924102; 0x36c9608; 0x4804048; 0x1201b0;
   0x1600249; 0x24001249; 0x20002db2; 0x1200; 0x0; 0x1f1e01; 0x49249249; 0x24924925;
   0x24924922; 0x49249249; 0x24924929; 0x24924912; 0x41600049; 0x25924949; 0x25924800; 0x1b000249;
   0x6d924a49; 0x6d924002; 0x59001259; 0x65925259; 0x65920092; 0xcb0096cb; 0x2d9296cb; 0x2d916016;
   0x9259649; 0x64b49601; 0x60800000; 0x249249; 0x24249200; 0x20000000; 0x1249249; 0x21249249;
   0x20000000; 0x9249249; 0x29249249; 0x0; 0x1a1e01; 0x400; 0x6c000; 0x2580000;
   0x2000001; 0x40020060; 0x801800; 0x5b2c001b; 0x6c0006db; 0x36d80; 0x16db000; 0x5b6c002d;
   0xb6800db6; 0xc0036db6; 0x1b6db00; 0xb6db602d; 0xb6c016db; 0x6006db60; 0x1b6c000; 0xdb60005b;
   0x600016c0; 0xb6000; 0x3600000; 0xc0000060; 0x2000; 0x0; 0x202000; 0x12492490;
   0x36db6db6; 0x65b6db6c; 0xb2db6db2; 0xb663fdb2; 0x6db6db64; 0xb6db6d86; 0xb6dbff96; 0x6db6db6c;
   0xb6db2db6; 0xbffbffb6; 0x6db6db6d; 0xb6db2dbe; 0xbffb7fbe; 0x6db6db6d; 0xb2db6dbe; 0xbfffefbe;
   0x6db6db6d; 0xb7df6dbe; 0xbfdffffe; 0x6db6db6d; 0xb7cf6cfe; 0xffeffffe; 0x6db6db6d; 0xffff6fbe;
   0xffffffbe; 0x6db6db6d; 0xfffb6cfe; 0xfffffefe; 0x6db6db6c; 0x3fff6ffe; 0x12492490; 0x202000;
   0x24924924; 0x12492490; 0x12492492; 0x2492c924; 0x12492492; 0x12492492; 0x2496d924; 0x12492492;
   0x12480492; 0x24924b24; 0x12492492; 0x12000092; 0x25924964; 0x12492492; 0x12000092; 0x2db2496c;
   0x12d92492; 0x12480092; 0x25b64964; 0x16db2492; 0x12490092; 0x2db6cb64; 0x36db6db2; 0x12492db2;
   0x6db6db6c; 0xb6db6db6; 0x92496db6; 0x6db6db6d; 0xb6db6db6; 0x124b6db6; 0x2db6db6c; 0x12492490;
   0x1f2000; 0x12492490; 0x92492491; 0x24924924; 0x92592494; 0x92492489; 0x24924924; 0x96d924a4;
   0x92492449; 0x20124925; 0x92492524; 0x92492248; 0x124964; 0x92592924; 0x92491200; 0x125b24;
   0x92594924; 0x92489000; 0x925924; 0x964ed924; 0x96cfffff; 0xffd6db6d; 0xb6f6db6d; 0xb66d92cb].
Definition emoji_data_16 : list N :=
  [0x6cb6db6d; 0xb7b6db6d; 0xb36db6db; 0x65b6db6d; 0xbdb6db6d; 0x9b6db6db; 0x2db6db6d; 0x24924924;
   0x202000; 0x12492490; 0x49249248; 0x49249248; 0xb6db6db6; 0x4925b649; 0x4925fe48; 0xb6db6db6;
   0x4925b649; 0x4925be48; 0xb6db6db6; 0x5b65b649; 0x59e5be5b; 0xb6db6db6; 0x5b65b65f; 0x59fffe7f;
   0xb2db6db6; 0x5bbf96df; 0x5fbfffff; 0xb6db6db6; 0x5befb6ff; 0x5fe7feff; 0xb6db6db6; 0x5bffb7df;
   0x7fffffdf; 0xb6db6db6; 0x7bfdb6ff; 0x7ffffe7f; 0xb6db6db6; 0x7bffb7ff; 0x7ffffffe; 0x36db6db6;
   0x9249248; 0x202000; 0x24924924; 0x12492490; 0x12492492; 0x2492d924; 0x12492492; 0x12492492;
   0x25b24b24; 0x12492492; 0x12400092; 0x2d924964; 0x12496492; 0x12007c92; 0x2592d924; 0x124b6c92;
   0x1201fc92; 0x2592db64; 0x16cb2c92; 0x1fc1fc92; 0x2db2db6c; 0x16cb2cbe; 0x1fc17cbe; 0x2db6db2d;
   0x13df6cbe; 0x1fdfeebe; 0x2db6db6d; 0x17ff6ffe; 0x1feffefe; 0x6db6db6d; 0xffff6fbe; 0x7fffffbe;
   0x6db6db6c; 0x12492490; 0x1f2000; 0x90000001; 0xb6000003; 0xff800005; 0xb6c00004; 0xb6c00009;
   0x25f00024; 0xb6d80024; 0x92d80049; 0x24f0016c; 0x96d8036c; 0x92d806c9; 0x24f00b6d; 0x96d81b6d;
   0x92d036d9; 0x24f05b6d; 0x96c00b6d; 0x92c002d9; 0x25c0036d; 0x96c0016d; 0x92c002d9; 0x2780036d;
   0xb600036c; 0x960002d9; 0x2c00036c; 0xb4000b6c; 0xb00006c9; 0x70000b65; 0xb0001b65; 0x80001649;
   0x80005b2d; 0x80004924; 0x202000; 0x16db6db0; 0x5b6db6d8; 0x7bffffee; 0xb6db6db6; 0x5b67b6fb;
   0x7f67f3e3; 0xb6db6d96; 0x5b6db6db; 0x7ffdbfff; 0xb6db6db6; 0x5b6db7db; 0x7ffdbfff; 0xb6db6db6;
   0x5b6db6db; 0x6fedb7ef; 0xb6db6db6; 0x5b6db6db; 0x7f7dbeff; 0xb6db6db6; 0x5b6db6db; 0x5bfdbfdb;
   0xb6db6db6; 0x5b6db6db; 0x7bfdbfdf; 0xb6db6db6; 0x5b6db6db; 0x5b6db6db; 0xb6db6db6; 0x5b6db6db;
   0x7ffdbffe; 0x36db6db6; 0x9249248; 0x1f1d03; 0x2c800; 0x124800; 0x249000; 0x5b6d800;
   0x4924800; 0x96c9000; 0x6db6d801; 0x20b64800; 0x2c9000; 0xb6d800; 0xb24000; 0x648000;
   0x1b6c000; 0x5924000; 0xb248000; 0x2db60000; 0x6c920002; 0xd925800b; 0x6db492db; 0x24912db2;
   0x492db6db; 0x6da49249; 0x24892492; 0x496db6db; 0x6d249249; 0x24492492; 0x496db6db; 0x61249249;
   0x0; 0x202000; 0x1000; 0x904800; 0x904800; 0x9249240; 0x4924920; 0x804900;
   0x249200; 0x124800; 0x124000; 0xdb000; 0x64000; 0x124000; 0x2db000; 0xb2d800;
   0xf6f800; 0x16db600; 0x1d6d900; 0x1ded9c0; 0x36db6c0; 0x596db60; 0x796df60; 0xb6db658;
   0x2f96db30; 0x3f9fdf38; 0x5b6db6d8; 0x6fb7db6c; 0x7fffff6c; 0x5b6db6d8; 0x7fb6fb6c; 0x7ffffffe;
   0xdb6db6db; 0x24924924; 0x202000; 0x12496db0; 0x5b6db6d8; 0x4b6df3fe; 0xb6db6db6; 0x5b6db6db;
   0x4365ffcf; 0xb6db6db6; 0x596db6db; 0x5b6db7ff; 0xb6db6db6; 0x5b65b6db; 0x5b25b6fb; 0xb6db6db6;
   0x5b6cb2db; 0x5fecb6db; 0xb6db6db6; 0x5b6d96db; 0x7bfc965b; 0xb6db6db6; 0x5b6db6db; 0x7ffffef9;
   0xb6db6db2; 0x5b6df6db; 0x7fffffdb; 0xb6db6db6; 0x7bfffffb; 0x7fffffff; 0xb6db6db6; 0x7fffffff;
   0x7ffffffe; 0x36db6db6; 0x9249248; 0x1f2000; 0x24000; 0x124800; 0x1249000; 0xdb64800;
   0x2d964800; 0x49249003; 0x6db6480b; 0x65b64812; 0x4924905b; 0x64b648db; 0x24b24892; 0x492496db;
   0x6d92565b; 0x6d924492; 0x4924b2db; 0x6d92925b; 0x6d922492; 0x492496db; 0x6c9092d9; 0x2c912492;
   0x492496d9; 0x248496c9; 0x24092492; 0x480496c9; 0x20049649; 0x20092492; 0x24b249; 0x49248;
   0x92480; 0x49200; 0x8000; 0x1f1f00; 0x90000; 0x492000; 0x924800; 0x12db6c00;
   0x925b6c01; 0x24924804; 0xb6db6c04; 0xb6db2009; 0x24924125; 0xb6db2124; 0xb6d92249; 0x24924924;
   0xb6d90924; 0x96491249; 0x24924924; 0xb2494925; 0x92489249; 0x24924b6c; 0x924a5b64; 0x92449249;
   0x2492db64; 0x9212db24; 0x92049249; 0x2012d924; 0x9012c924; 0x80249249; 0x16c924; 0x12c920;
   0x49200; 0x124900; 0x0; 0x202000; 0x12000; 0x249000; 0x249200; 0x25b6d80;
   0x16db6c0; 0x1249240; 0x12db6db0; 0x92db6d8; 0x9249248; 0x125b6db6; 0x4925b6d8; 0x49249248;
   0x125b6db6; 0x4925b65b; 0x49249249; 0x924b6c96; 0x4924964b; 0x49249249; 0x92492496; 0x4924924a;
   0x49249248; 0x12d96496; 0x9249248; 0x9249248; 0x125b6490; 0x96d9240; 0x1249240; 0x2596480;
   0x12c9200; 0x249200; 0x492400; 0x8000; 0x1f2000; 0x24000; 0x36d800; 0x1249000;
   0xd845800; 0x24104800; 0x48200203; 0x2020c809; 0x6492c812; 0x49249043; 0x58258c8; 0x4021810;
   0x8041650; 0x8065040; 0x20106080; 0x4000b6db; 0x6db6b6db; 0x24b70402; 0x59002; 0x1901008;
   0x4102010; 0x8243010; 0x288c8040; 0x21092492; 0x482db6cb; 0x2c298202; 0x20090400; 0x402d845b;
   0x2d90d8; 0x92480; 0x5b600; 0x9000; 0x1f2000; 0x92000; 0x5b6000; 0x5b6c800;
   0x16db6c00; 0xb6db6c01; 0x6db6d805; 0xb6db6c0d; 0xb6db685b; 0x6db6d96d; 0xb6db616d; 0xb6db62db;
   0x6db6cb6d; 0xb6db7b6d; 0xb6db36db; 0x6db65b6d; 0xb6dbdb6d; 0xb6d9b6db; 0x6db2db6d; 0xb6dedb6d;
   0xb6c5b6db; 0x6d96db6d; 0xb616db6d; 0xb62db6db; 0x6c36db6d; 0xb036db6d; 0x802db6db; 0x36db6c;
   0x36db60; 0x2db640; 0x16d900; 0x24000; 0x202000; 0x12000; 0x5b000; 0x5b600;
   0x25b6d80; 0x12db6c0; 0x2db6c0; 0x125b6db0; 0x96db6d8; 0x16db6d8; 0x12db6db6; 0x96db6d8;
   0x16db6d8; 0x12db6db6; 0x496db6db; 0x16db6db; 0x92db6db6; 0x496db6db; 0x96db6db; 0x92db6db6;
   0x496db6da; 0x16db6d8; 0x12db6db6; 0x96db6d8; 0x16db6d8; 0x12db6db0; 0x96db6d8; 0x2db6c0;
   0x25b6d80; 0x12db6c0; 0x5b600; 0xb6c00; 0x8000; 0x1d2000; 0x90000; 0x12d8000;
   0x16c0004; 0x96d80092; 0x5b600082; 0xdb60492d; 0xb60924b6; 0xd80105b6; 0xc4925b6d; 0x92496db6;
   0xb6db9; 0x24b6db24; 0x92db6c00; 0x16db7249; 0x6db64925; 0xb6d8002d; 0xb6e492db; 0x6c924b6d;
   0xb0105b6d; 0xc925b6d9; 0x2496db40; 0xb6d812; 0x4b6db049; 0x2db60001; 0x6db02496; 0xdb00125b;
   0x600002d8; 0x12d80; 0x1000; 0x1d1f01; 0x496000; 0x9258000; 0x58024; 0x925b0092;
   0x496c0080; 0x41604924; 0x96c92492; 0x58010002; 0xc492492d; 0x924924b6; 0x101b9; 0x24925b24;
   0x92496c00; 0x2037249; 0x24b64924; 0x92d80000; 0x6e49249; 0x6c924925; 0xb010082d; 0xc92492d9;
   0x24924b00; 0x125812; 0x49258049; 0x24b60000; 0x5800492; 0x5800124b; 0x48; 0x2400;
   0x0; 0x1f1f01; 0x492000; 0x492000; 0x0; 0x12492400; 0x92492400; 0x24004;
   0x92492404; 0x92492000; 0x120124; 0x92492124; 0x92492000; 0x924; 0x92492924; 0x92490001;
   0x4924; 0x92494924; 0x92480000; 0x24924; 0x92424924; 0x92400000; 0x20024924; 0x92024924].
Definition emoji_data_17 : list N :=
  [0x90009000; 0x124924; 0x90124924; 0x80008000; 0x124924; 0x24900; 0x0; 0x24000;
   0x0; 0x1f1f01; 0x592400; 0xc92400; 0x5800000; 0x16492400; 0xb2492401; 0x60804005;
   0xb249240d; 0x9249241b; 0x2006c; 0x9249256c; 0x924922c0; 0x20000b64; 0x92492b24; 0x92491601;
   0x5b24; 0x92495924; 0x9248b000; 0x2d924; 0x924ad924; 0x9245b040; 0x2006c924; 0x9206c924;
   0x92059200; 0x16c924; 0x90164924; 0x80058000; 0x164924; 0x64920; 0x48000; 0x24800;
   0x0; 0x1f2000; 0x10000; 0x2c9000; 0x16c9000; 0x6d80000; 0x5b649200; 0xdb649001;
   0xb6c12016; 0xdb249016; 0xdb24902d; 0xb60900b6; 0xd92491b6; 0xd924936d; 0xb0000db6; 0xc924adb6;
   0xc924db6d; 0x80006db6; 0x49256db6; 0x4924db6c; 0x36db2; 0x49236db2; 0x4926db60; 0xb6d92;
   0x490b6d92; 0x4816db00; 0x1b6c92; 0x401b6c92; 0x16d900; 0x1b6490; 0xb6480; 0x2c000;
   0x12000; 0x1f2000; 0x40000; 0xb6c000; 0x5b6c000; 0xb6d8000; 0x6db6c801; 0x6db64802;
   0xdb6c801b; 0x6db6485b; 0x6db640b6; 0xdb6c02db; 0x6db646db; 0x6db245b6; 0xdb6016db; 0x6db276db;
   0x6d926db6; 0xdb00b6db; 0x6d93b6db; 0x6c936db6; 0xd805b6db; 0x6c8db6db; 0x648b6db6; 0xc02db6db;
   0x642db6db; 0x201b6db6; 0x2db6d9; 0x202db6c9; 0x5b6d80; 0x2db648; 0x2db600; 0xb6000;
   0x48000; 0x1c1e02; 0x8000000; 0x10; 0x80; 0x0; 0x10000; 0x480000;
   0x0; 0x90000004; 0x80000000; 0x920; 0x4800; 0x8000; 0x920000; 0x4900000;
   0x1; 0x24000009; 0x20000010; 0x1248; 0x9240; 0x10000; 0x249200; 0x1249200;
   0x80000; 0x49249000; 0x49240000; 0x12; 0x40000000; 0x1f2000; 0x10000; 0x2db000;
   0x16db000; 0x6db6c00; 0x5b6db600; 0xdb6db601; 0xb6db6c16; 0xdb6db616; 0xdb6db02d; 0xb6db60b6;
   0xdb6db1b7; 0xdb6db36f; 0xb7fb6db6; 0xdb6dadbe; 0xdfeddb7d; 0xbfdb6db6; 0xdb6d6db6; 0xdb6cdb6d;
   0xb6db6db6; 0xdb636db6; 0xdb66df6f; 0xf6cb6db6; 0xdb0b6ffe; 0xd816dfed; 0xb01b6db6; 0xc01b6db6;
   0xc016db6c; 0x1b6db0; 0xb6d80; 0x2d900; 0x12000; 0x161f01; 0x480000; 0x80000000;
   0x900009; 0x400; 0x1240002; 0x40000000; 0x2480004; 0xf00003c0; 0x964001; 0x3c800000;
   0x249200; 0x49200100; 0x92400; 0x12480003; 0xf0004b60; 0x924000; 0x48001249; 0x249200;
   0x10000092; 0x49002490; 0x0; 0x90000000; 0x161f01; 0x480000; 0x90000000; 0x24000;
   0x4800000; 0x9200; 0x1240000; 0x490; 0x590001; 0xf0000b64; 0x964000; 0x8001249;
   0x249000; 0x400092; 0x40092400; 0x3f80016c; 0x80024900; 0x1000249; 0x20249200; 0x402492;
   0x40492400; 0x24; 0x0; 0x1d1f01; 0x492000; 0x9248000; 0x8000024; 0x92490092;
   0x49200000; 0x9004924; 0x92092492; 0x48000002; 0x4964924; 0x92792c92; 0x7c1f809; 0x2d96c925;
   0xf27f2507; 0x80c01249; 0x24924924; 0x92480000; 0x249249; 0x24924924; 0x901e4b80; 0x496db649;
   0x25fec900; 0x25b00012; 0x49248049; 0x24900040; 0x492; 0x48001249; 0x0; 0x2400;
   0x0; 0x1f1f01; 0x430000; 0x492000; 0x924000; 0x2db6000; 0x92492401; 0x24924801;
   0x92496004; 0x92492009; 0x24924164; 0x92496124; 0x92492049; 0x2492012d; 0x96cb0924; 0x92491249;
   0x24925924; 0x925b4924; 0x92481249; 0x24804924; 0x92c24924; 0x92449249; 0x2482c96c; 0x92024924;
   0x90049249; 0x2006c925; 0x80124924; 0x80009240; 0x25960; 0x24900; 0x0; 0x4000;
   0x0; 0x1f1f01; 0x2010080; 0x2010080; 0x20000; 0x12090400; 0x482000; 0x920000;
   0x2490000; 0x12490001; 0x24924024; 0x92492024; 0x92492049; 0x24920024; 0x92490024; 0x92480049;
   0x24800024; 0x92400024; 0x92000049; 0x24024924; 0x904a0124; 0x90400249; 0x20000924; 0x90004924;
   0x80009001; 0x4104; 0x80000100; 0x0; 0x800; 0x800; 0x0; 0x4000;
   0x0; 0x1f2000; 0x12492490; 0xdb6db6da; 0xdb6db6dd; 0xb6db6db6; 0xdb6db6d6; 0x496db6ec;
   0x924b6db6; 0x4b6db6b2; 0x4925b764; 0x92416db6; 0x4b25b5b2; 0x4925bb64; 0xb6db2; 0x492dad92;
   0x492ddb20; 0x5b6db2; 0x492d6c92; 0x492ed900; 0xb6d92; 0x492b6c92; 0x4976d800; 0x16db6492;
   0x5b5b6492; 0x5bb6c900; 0xb6db6d92; 0xdadb6d96; 0xddb6db0d; 0xb6db6db6; 0xd6db6db6; 0xcdb6db6d;
   0x92492492; 0x1d1d01; 0x12000000; 0x40000000; 0x12d; 0x800005bc; 0x780; 0x25b60;
   0x16f80; 0x3e000; 0x96d800; 0x5be000; 0xf80000; 0x25b60000; 0x16f80000; 0x3e000009;
   0x6d800005; 0xbe00000f; 0x8000025b; 0x2000016c; 0x800003e4; 0x96d8; 0x5b20; 0x2f800;
   0x2db000; 0xb64000; 0xb00000; 0x9200000; 0x24000000; 0x1f1f01; 0x10000; 0x10000;
   0x20000; 0x80000; 0x80401; 0x20000800; 0x80482400; 0x82482000; 0x4900000; 0x92480000;
   0x92480001; 0x24900004; 0x92480924; 0x92411209; 0x2482482c; 0x92494924; 0x92080001; 0x24000124;
   0x90000124; 0x90000000; 0x24924; 0x80124924; 0x0; 0x20924924; 0x80924924; 0x80000001;
   0x924924; 0x924920; 0x0; 0x924900; 0x0; 0x1d1704; 0x10000; 0x40000;
   0x200000; 0x2410010; 0x8040080; 0x200904; 0x82000492; 0x90; 0x24920; 0x92480;
   0x401; 0x24924924; 0x92492400; 0x1249; 0x24804924; 0x92400000; 0x249249; 0x24924924;
   0x80000000; 0x49249249; 0x24924900; 0x1d1f00; 0x8000; 0x40000; 0x480000; 0x1000010;
   0x8040120; 0x80400482; 0x9000492; 0x4924; 0x80012480; 0x480; 0x4924820; 0x92492480;
   0x2649; 0x24924924; 0x92400000; 0x49249; 0x24924924; 0x90000000; 0x9249249; 0x24924920;
   0x2; 0x49249200; 0x0; 0x400; 0x41008; 0x20808241; 0x4886186; 0x18008048;
   0x0; 0x1f1d02; 0x490000; 0x490000; 0x0; 0x92492404; 0x92492000; 0x24;
   0x92492024; 0x92492000; 0x124; 0x92492124; 0x92492000; 0x924; 0x92492124; 0x92490000;
   0x124; 0x92480000; 0x0; 0x60; 0x10000020; 0x10000040; 0x20004100; 0x82004020;
   0x2008040; 0x4020860; 0x10000804; 0x1008; 0x500c; 0x4000; 0x0; 0x1f1d02;
   0x92000; 0x490000; 0x0; 0x92492400; 0x92492400; 0x4; 0x92492024; 0x92492000;
   0x124; 0x92492524; 0x92492000; 0x124; 0x92492124; 0x92490000; 0x124; 0x92480000;
   0x1000; 0x4820; 0x12004120; 0x10008040; 0x20024120; 0x82400100; 0x2000000; 0x4000000;
   0x12024020; 0x10040040; 0x120120; 0x100; 0x0; 0x1d1d02; 0x490000; 0x1240000].
Definition emoji_data_18 : list N :=
  [0x24; 0x92480492; 0x49200000; 0x24924; 0x90092492; 0x40000000; 0x4924924; 0x92492492;
   0x9; 0x24924924; 0x92492400; 0x249; 0x24900004; 0x80000024; 0x2d0; 0x900;
   0x4800; 0x2db000; 0x924000; 0x800000; 0xb000000; 0x20000000; 0x2; 0x8;
   0x0; 0x1a1f00; 0x1240002; 0x4920036d; 0xb6016db6; 0xc0492490; 0x2db6db05; 0xb6db6164;
   0x9240b6db; 0x6c16db64; 0x4924900; 0xdb6d805b; 0x6db0024b; 0x60036db0; 0x6d9200; 0x9240005;
   0xb6c00096; 0xc00005b0; 0x2d800; 0x5b0000; 0x16400003; 0x6800002c; 0x900; 0x21b240;
   0x4124800; 0x4800092; 0x49209249; 0x24000000; 0x1f1d02; 0x12492492; 0x0; 0x0;
   0x92492490; 0x492480; 0x24; 0x924924a4; 0x92492400; 0x124; 0x92492524; 0x92492000;
   0x924; 0x92492924; 0x92490000; 0x4924; 0x92494924; 0x92480000; 0x24924; 0x924a4900;
   0x90000000; 0x124924; 0x92524900; 0x10000000; 0x924924; 0x92924924; 0x90000000; 0x4924924;
   0x90924924; 0x80000000; 0x1d1605; 0x12000; 0x248000; 0x0; 0x12492000; 0x49248000;
   0x40024; 0x92400092; 0x49000482; 0x40004924; 0x82012490; 0x82009; 0x20924924; 0x2492000;
   0x11241; 0x24904804; 0x92400000; 0x2248249; 0x20900004; 0x0; 0x8000000; 0x1c1c02;
   0x4960; 0x25b00; 0x124b000; 0x2cb60009; 0x2cb00092; 0xc8001659; 0x60049659; 0x492490;
   0xb2db602; 0x4b2c9024; 0xb6480596; 0xdb612596; 0x48125924; 0x2cb2db0; 0x12cb2401; 0x25920065;
   0xb6d80965; 0x92009649; 0x2cb6c; 0xb2c900; 0x1248000; 0x6db60009; 0x648000b2; 0x40000648;
   0x0; 0x1f1306; 0x201000; 0x2482400; 0x964b200; 0x4924b200; 0x92482402; 0x5964b602;
   0x49249204; 0x92492412; 0x5924b292; 0x49249124; 0x924824b6; 0x49249492; 0x49248924; 0x92092d96;
   0xd96ca492; 0x496c4924; 0x90482db6; 0x59642492; 0x49200000; 0x1d1d02; 0x2480; 0x49200;
   0x49000; 0x2c92000; 0x4b248000; 0x48200025; 0x96c00492; 0x49002092; 0x4002496c; 0x82492490;
   0x12480001; 0x24924804; 0x92490024; 0x92400249; 0x24804924; 0x90020124; 0x802492db; 0x924960;
   0x124900; 0x492db001; 0x24900001; 0x24800092; 0xd8000249; 0x1248; 0x2d80; 0x9000;
   0x0; 0x1f1f01; 0x58000; 0xb6c000; 0x1b6c000; 0xb6d9000; 0x2db6c000; 0x6db6c002;
   0x5b2d900b; 0x6db6c01b; 0x6db6c016; 0x596580db; 0x6db6c2db; 0x6db6c4b2; 0xcb2c96db; 0x6db616db;
   0x6db62cb2; 0x5964b6db; 0x6db7b6db; 0x6db16592; 0xc965b6db; 0x6dbdb6db; 0x6d9b2c96; 0x4b2db6db;
   0x6dedb6db; 0x6c7964b6; 0xf86db6db; 0x607db6df; 0x7ffffe; 0x2db6d8; 0xffe00; 0x12000;
   0x0; 0x1e1e01; 0x90; 0x2db0; 0x4900; 0x12400; 0x5b6000; 0x920000;
   0x12480100; 0xb2c09201; 0x4904; 0x2d82c; 0x49040; 0x124100; 0x36d800; 0x249000;
   0x824000; 0x160000; 0x240000; 0x100000; 0x1800000; 0x1000000; 0x4000000; 0x20000000;
   0x40000001; 0x8; 0x10; 0x40; 0x200; 0x400; 0x0; 0x192000;
   0x80000; 0x4000005; 0x80000360; 0x49000; 0x5b60003; 0x6d000092; 0xb6c0; 0x16db000;
   0x36d80036; 0xd8002db6; 0x124900; 0x16db6005; 0xb6c006db; 0x6802db6c; 0x5b6db02; 0x4b6482db;
   0x6db0b6db; 0x605b6db0; 0x5b6db636; 0xdb6dc924; 0x925b6db6; 0xc00fe000; 0x7f00001; 0xb000007c;
   0x1000; 0x1c2000; 0x90000; 0x900000; 0xb6d8002d; 0xb6c00249; 0x2400db6d; 0xb016db6d;
   0x81249248; 0x2db6db43; 0x6db6d816; 0x492586db; 0x6db6b6db; 0x6db92c92; 0xc96db6db; 0x6b6db6db;
   0x92492496; 0xdb6db6b6; 0xdb6db325; 0x96582db6; 0xdb616db6; 0xd816cb2c; 0x805b6db0; 0x25b6400;
   0x1f00000; 0x16c00001; 0xf800001f; 0x8000016c; 0x1f00; 0x9000; 0x1a1f00; 0x1000002;
   0xc000036c; 0x16d82; 0x400160b6; 0xb6db60; 0x16db6824; 0x92cb16db; 0x6096db6c; 0x4904902;
   0xd865b058; 0x24b61009; 0x48b0182; 0xdb009058; 0x40241220; 0x16036002; 0x40600080; 0x8005805;
   0x800b0080; 0x2402001; 0x6000002c; 0x900; 0x5b000; 0x900000; 0x24000006; 0xc00002c0;
   0x0; 0x1d1f00; 0x40000; 0x240000; 0x16d80000; 0xc9000082; 0x48005b2d; 0xb0012092;
   0xc0190490; 0xb65b60; 0x2412400; 0x12092001; 0x6cb6c304; 0x82482424; 0x124122d9; 0x6d96c904;
   0x904b4924; 0x824db6db; 0x2d924b21; 0x90924904; 0x816db6db; 0x4924920; 0x92c900; 0xb6db000;
   0x24924001; 0x24800016; 0xd8000049; 0x248; 0x2db0; 0x9200; 0x0; 0x1d1e01;
   0x8000000; 0x40000004; 0x10; 0x90; 0xb60; 0x12480; 0x92400; 0xb6c000;
   0x2db0000; 0x17f80001; 0x6d800005; 0xb600003f; 0xf00002db; 0x40000b6c; 0x7ff8; 0x1b6c0;
   0x6db00; 0x3ff800; 0x16db000; 0x5b6c000; 0x3fffc000; 0xdb6d9203; 0x6db6d80f; 0xffffc016;
   0xdb6c005b; 0x6d80005f; 0xfc0000b6; 0x40000000; 0x1c1f00; 0x20000; 0xb00000; 0x9000009;
   0x6c00005b; 0x20000492; 0x96c8; 0x24b240; 0x2492400; 0x496c8002; 0x4b240024; 0x92400496;
   0x490024b2; 0x40024924; 0x496480; 0x2492400; 0x4920000; 0x92480800; 0x90019000; 0x96c020;
   0x16120004; 0x81240248; 0xdb25b00; 0x24924002; 0x4924001b; 0x6d800049; 0x20000090; 0x1600;
   0x0; 0x1f1e01; 0x40000; 0x82000; 0x248000; 0x248000; 0x490000; 0x1640000;
   0x1640004; 0x2480012; 0x4b2c9012; 0x49649024; 0x92492096; 0xc9648496; 0x49248924; 0x12492492;
   0x4964a492; 0x49640924; 0x92480592; 0x59200192; 0x58000100; 0xb0002492; 0xc8002496; 0x4800492c;
   0x90012cb2; 0x48092492; 0x40024824; 0x80092092; 0x40012090; 0x20120; 0x80080; 0x0;
   0x132000; 0x20001e; 0x207bec06; 0xdb01fdb0; 0x3ffe0b6d; 0xb1f6da3f; 0xffedb6db; 0xfb6dffff;
   0xf6db6dfd; 0xb6dffff9; 0x6db63edb; 0x43fff0b6; 0xdb0b6d80; 0x2d801b6c; 0x1b6c016; 0xc001b000;
   0x8000100; 0x100004; 0x8000; 0x8000200; 0x1d1f00; 0x80000; 0x1200000; 0x9240000;
   0x92490012; 0x49240092; 0x4920096c; 0x92402592; 0x490124f2; 0x40925b64; 0x82496592; 0x124b2481;
   0x2db6c925; 0xb6d92124; 0x9e49125b; 0x6d924925; 0xb6404924; 0x920496cb; 0x2412592c; 0x90124924;
   0x492d9249; 0x24b24909; 0x24924936; 0x4924b049; 0x24920249; 0x24900d92; 0xdb001249; 0x20001009;
   0x90; 0x0; 0x1e2000; 0x104000; 0x208000; 0x920000; 0x24924002; 0x49240009;
   0x24900009; 0x6c900097; 0xf920025f; 0xe48012db; 0x648127ff; 0xc8009fff; 0x2004b6d9; 0x9fff2;
   0x27ffc8; 0x12db648; 0x25fe480; 0x97f9000; 0x96c9000; 0x92490002; 0x49240002; 0x49240800].
Definition emoji_data_19 : list N :=
  [0x92002402; 0x48046d96; 0xcb6cdb0c; 0xb6c36db2; 0xdb0b6db6; 0xd816db6d; 0x80092c92; 0x6800;
   0x4000; 0x161e00; 0x2000004; 0x10000000; 0x924009; 0x24800000; 0x9249252; 0x49240024;
   0x24b6c94; 0x92490049; 0x12db21; 0x24924012; 0x40249649; 0x49249000; 0x12490; 0x492000;
   0x924; 0x20000; 0x8003649; 0x60249240; 0x924805b6; 0xc8012480; 0x800000; 0x1d1c01;
   0x8000; 0x40004; 0x80582012; 0x43648092; 0x9240b2d; 0xb6c82492; 0xc8012492; 0x4016db6d;
   0x80492490; 0x2492480; 0xdb2db00; 0x92492400; 0x9249205b; 0x6db60b24; 0x92484924; 0x9245b6db;
   0x6d86c924; 0x90124924; 0x806db6db; 0x4924920; 0x24924902; 0xcb6db609; 0x4924840; 0x4924400;
   0x5b6c1000; 0x24900000; 0x161e01; 0x12000048; 0x2c800; 0x900002; 0x40001640; 0x241000;
   0x10402492; 0x2490409; 0x2410192c; 0x30120104; 0x48001049; 0xd808208; 0x20820b6; 0x1b012480;
   0x4100020; 0x82c00104; 0x1000; 0x4b00009; 0x2400; 0x6c0000; 0x40000100; 0x80000;
   0x1c1e01; 0x1000; 0x100b6; 0x640490; 0x9004900; 0x90092c16; 0x40490090; 0x920900;
   0x2196400; 0xc90000; 0x4800000; 0xb208002d; 0x82401248; 0x2402db65; 0x90364b24; 0x1241240;
   0x2d82c800; 0x20140000; 0x600003; 0x6400005b; 0x60000492; 0x1b6d8; 0x492c0; 0x480c00;
   0x1018000; 0xc0000; 0xc00000; 0x8000000; 0x1d2000; 0x2000400; 0x9009000; 0x4804800d;
   0xb05b0092; 0x1242490; 0x926db61; 0xb6c92492; 0x49492492; 0x49b6db6d; 0x82492490; 0x2492400;
   0x25b6c000; 0x12480004; 0x924802db; 0x6db00924; 0x92404924; 0x922db6db; 0x6c924924; 0x94924924;
   0x9b6db6d8; 0x24904900; 0x24824002; 0xca2d8008; 0x20100001; 0x30; 0x240; 0x1000;
   0x16000; 0x40000; 0x1f2000; 0x10000; 0x30000; 0x60000; 0x1a0000; 0x2580000;
   0x4fa8000; 0x16db0000; 0x16da0000; 0x3ff80000; 0x36d80000; 0xb6c10018; 0xffc20069; 0xb6da2b6d;
   0xb6595fff; 0xffff1b6d; 0xb6db1b6d; 0xb6d83fff; 0xfff2db6d; 0xb6dadb6d; 0xb6c0ffff; 0xff80db6d;
   0xb6005b6d; 0xb0003fff; 0xdb6d; 0x8002cb2d; 0x80000200; 0x800; 0x1800; 0x1000;
   0x4000; 0x4000; 0x1e2000; 0x1000000; 0x2000000; 0x8000000; 0x50000000; 0x80000002;
   0xb6; 0x164; 0x2492; 0x16db0; 0x3025920; 0x10092480; 0x48db6d86; 0xd9b6d824;
   0x92492092; 0x76db65b6; 0x2592196c; 0x92482495; 0xb6d96d9b; 0x6c82d924; 0x9209256d; 0xb05b6259;
   0x60964924; 0x82485b6c; 0x6d89640; 0x5824900; 0x1206d800; 0x162c8000; 0x24920000; 0x5900000;
   0x8000000; 0x1d1e01; 0x1000000; 0x8000000; 0x80000082; 0x410; 0x1860; 0x80;
   0x200402; 0x1100124; 0xb0402492; 0x412491; 0x416cb24; 0x2492420; 0x124920c1; 0x24b64104;
   0x92490824; 0x9240125b; 0x6c804924; 0x90024924; 0x802cb659; 0x4924920; 0x24924912; 0x5b2c9049;
   0x24920049; 0x24900492; 0x59001249; 0x20001248; 0x2480; 0x0; 0x202000; 0x92000;
   0x2db200; 0x7cfe00; 0x2d96d80; 0x364b640; 0x164f240; 0x12d96c90; 0x96db248; 0x97ff248;
   0x12db6492; 0x496db248; 0x4964f248; 0xb6c96c96; 0x5b24b64b; 0x7f24be5f; 0xb6c96db6; 0x5b64b6db;
   0x7fe4fffe; 0x36db6db6; 0x92db248; 0x49000; 0x1b6c00; 0x249000; 0x249000; 0x5b6c00;
   0x249200; 0x249200; 0x5b6c00; 0x249200; 0x249200; 0x5b6c00; 0x249000; 0x1f2000;
   0x100; 0x0; 0x41000; 0x904000; 0x924000; 0x9248000; 0x6db6c003; 0x6c96c007;
   0xfb7df05b; 0x6db6c0db; 0x6db6c1ff; 0xffffc6db; 0x6db6c6db; 0x6db6dfff; 0xffffb6db; 0x6db6b6db;
   0x6db7ffff; 0xfffdb6db; 0x6db5b6db; 0x6db3ffff; 0xffcdb6db; 0x6d8db6db; 0x6d1fffff; 0xfc2db6db;
   0x682db6db; 0x601fffff; 0xc02db6db; 0x2db6d8; 0xfff80; 0xdb600; 0x9000; 0x1d1f01;
   0x18; 0x100; 0x800; 0x5b000; 0x320000; 0x5900000; 0x5b600003; 0x6d00001b;
   0x600001b6; 0xc00016d8; 0x1b6c0; 0x5b6d00; 0xb6db000; 0x5b6d806d; 0xb6d805b6; 0xdb006db6;
   0xd806db6d; 0x805b6db6; 0x2db6d80; 0x2db6db01; 0xb6db600d; 0xb6da00db; 0x6db0036d; 0xb6001b6d;
   0xa000b6db; 0x2db60; 0x6d800; 0x248000; 0x0; 0x1d1f01; 0x10; 0x40;
   0x200; 0x2002000; 0x48040012; 0x4020016d; 0x92000492; 0xd8002496; 0xc036db6d; 0x86d925b0;
   0x36c92d83; 0x6db6db2d; 0xb6db696d; 0xb6db06db; 0x6db65b6d; 0xb6c0db6d; 0xb60db6db; 0x6c36db6d;
   0xb5b6db6d; 0xdb6db6db; 0x6db6db7b; 0x6db6dbb6; 0xdb6db6db; 0x6db616df; 0xfdb16db6; 0xcb05b6da;
   0x597c0; 0x482c00; 0x0; 0x1a1d01; 0x2000; 0x40000; 0x41000b6d; 0x800124b0;
   0x2492401; 0x25b6c024; 0x92484924; 0x9224b2cb; 0x64924921; 0x24924896; 0x4b259249; 0x24949249;
   0x26592496; 0x49249252; 0x49248925; 0x92c92492; 0x48492492; 0x24964b24; 0x92492024; 0x92481249;
   0x24024924; 0x124900; 0x9248001; 0x24800000; 0x1d1407; 0xb0; 0x1680; 0x5e200;
   0x2db2000; 0x5b6d8007; 0xffe4036d; 0xb6406db6; 0xdb0fffff; 0x5b6db6d; 0x96df6d90; 0x3ffffc89;
   0x6db6ca25; 0xb6db610f; 0xffc0065b; 0x6cb0092d; 0x96004800; 0x8000b258; 0x5b00; 0x0;
   0x1f1f01; 0xb6c00; 0xb6c00; 0x924800; 0x16db6cb0; 0x124b6f81; 0x24927805; 0xb6db6004;
   0x924b0009; 0x2492406d; 0xb6db0124; 0x92490249; 0x24920b6d; 0xb6db0924; 0x92481249; 0x24905b6d;
   0xb6d84924; 0x92409249; 0x2482db6d; 0xb6c24924; 0x92049249; 0x2416db6d; 0xb4124924; 0x90249249;
   0x2036db6d; 0x80124924; 0x249248; 0x36db60; 0x124900; 0x49000; 0x24000; 0x0;
   0x201f01; 0x2; 0x9; 0x9048; 0x1b6c90; 0x49640; 0x49240; 0x4924b0;
   0x1249248; 0x1249248; 0x124925b6; 0x9249248; 0x9249248; 0x124924b6; 0x9249248; 0x9249248;
   0x124924b6; 0x49249248; 0x49249248; 0x92492496; 0x49249248; 0x49249200; 0x92492480; 0x49249200;
   0x49249200; 0x12492400; 0x49249200; 0x9249000; 0x12492000; 0x9248000; 0x1240000; 0x480000;
   0x1c1b04; 0x24000001; 0x0; 0x240; 0x1200; 0x0; 0x240000; 0x1201000;
   0x2; 0x49248012; 0x48040000; 0x490; 0x1002480; 0x4000; 0x2492000; 0x12490000;
   0x24000020; 0x92480904; 0x92400008; 0x20124; 0x90100924; 0x80001249; 0x24024921; 0x20024800;
   0x8000000; 0x181e02; 0x12000; 0x9200006; 0xc0004364; 0x92400; 0x96d800db; 0x60004924;
   0xb6d900; 0x5b600049; 0x240036d8; 0x24b6402; 0x49200492; 0x124800; 0x12480024; 0x92001249;
   0x124900; 0x24920092; 0x49009248; 0x249200; 0x92480012; 0x48002490; 0x124000; 0x2400004].
Definition emoji_data_20 : list N :=
  [0x80000000; 0x1a2000; 0x200000; 0x14000003; 0x2460; 0xb6d800; 0x124b0000; 0x92c1005b;
   0x6db01b6d; 0xb61fffff; 0xcb6db6d9; 0x6db6db7f; 0xffffedb6; 0xdb6db6db; 0x6fffffff; 0xb6db6db6;
   0xdb6db7ff; 0xfffedb6d; 0xb65b6db6; 0xdfffffe3; 0x6db6d96d; 0xb6d81fff; 0xfe05b6db; 0x1b6db60;
   0x3ffff806; 0xdb6c00db; 0x6c001e5f; 0x10480; 0x1a1f01; 0x300900; 0x60b6001; 0x86c00043;
   0x6800096c; 0x3d800; 0xdb6d8049; 0x24901249; 0x249b6db6; 0xc924924a; 0x4924926d; 0xb6db6492;
   0x49292492; 0x49b6db6d; 0x924924a4; 0x924926db; 0x6db04924; 0x92124924; 0x8b6db6c1; 0x24924049;
   0x24902db6; 0xdb049249; 0x249240; 0x16db6002; 0x49200092; 0x48000804; 0x0; 0x1a1f01;
   0x180; 0x3000; 0x180000; 0x6000002; 0x180; 0x12c000; 0x12580004; 0x90000249;
   0x24920; 0x4924012; 0x49241249; 0x24049249; 0x2492490; 0x49249012; 0x49240924; 0x92012492;
   0x40492490; 0x24924804; 0x92490124; 0x92001249; 0x20024920; 0x924800; 0x49248001; 0x24800009;
   0x480; 0x0; 0x1f1f01; 0x482d80; 0x2d82480; 0x4924920; 0x16db6db0; 0x12492480;
   0x24924805; 0xb6db6c04; 0x96492409; 0x2c92486d; 0xb6db6124; 0xb2492249; 0x24924b6d; 0xb6db692c;
   0x92491259; 0x24925b6d; 0xb6db4964; 0x924892c9; 0x2490db6d; 0xb6da4b24; 0x92409649; 0x2482db6d;
   0xb6025924; 0x92049a49; 0x2006db6d; 0xb0025924; 0x80049248; 0x2db60; 0x24900; 0x9000;
   0x24000; 0x0; 0x1b1f01; 0x16400; 0xb64000; 0x1248000d; 0xb60002db; 0x20004920;
   0x36d900; 0xb640000; 0x800000; 0x20800002; 0x0; 0x30c0; 0x80000; 0x1000000;
   0xc0600120; 0x1001fc17; 0xc0db45b6; 0x2db4db67; 0xfffffd6d; 0xb6db76db; 0x6db7ffff; 0xfeb6db6d;
   0xab6db6d9; 0xffffff1b; 0x6db6c1b6; 0x1b681fc1; 0xfc00900b; 0x0; 0x1a1f01; 0x2c9000;
   0x24920009; 0x24802db6; 0xd80db2c8; 0xffdf285; 0xb6db61b6; 0xdb6c6fbf; 0xffb2db6d; 0xb6db6db5;
   0xbfffffdb; 0x6db6db6d; 0xb6d7ffef; 0xb96db6db; 0x25b6db0f; 0xffffc1b6; 0xdb603659; 0x600fbff8;
   0x2db6c00; 0xdb6d0037; 0xdf800b6d; 0xa0036db0; 0x7ffc00; 0xdb60001; 0xb600002f; 0x200;
   0x0; 0x1e1d01; 0x96c800; 0x9249000; 0x24124803; 0x2cb65812; 0x49249049; 0x209246db;
   0x65b2a492; 0x49240249; 0x2491965b; 0x2db92492; 0x49049249; 0x246db6db; 0x68c92492; 0xc324924b;
   0x1b6db6db; 0x96db6db0; 0x492c9246; 0x5b6db2fc; 0x92492e7e; 0x4925f9b6; 0xc96dbbff; 0x97ff07ff;
   0xfff46db6; 0xdb6c496d; 0xb2412492; 0x490b6db6; 0xd8024924; 0x80000000; 0x191e01; 0x5b6c809;
   0x24920492; 0x492c92d9; 0x6924fe48; 0x92ff2092; 0x5b2c2db6; 0xc807cfac; 0x6db6401; 0xb24b00f9;
   0x25805924; 0x80364b00; 0x927c001; 0x25b0004b; 0x600025f0; 0x6cb000; 0x1f2c000f; 0x90000592;
   0x1e400; 0xd60000; 0x36800005; 0x800003c0; 0x2c000; 0xa00000; 0x40000000; 0x1d1d02;
   0x80; 0x1200; 0x200000; 0x16c92000; 0xdb248002; 0x4800006d; 0xb00005b6; 0xc0002492;
   0x2db6c; 0x5f6db0; 0x12f92481; 0x6db6d80d; 0xb7db6024; 0x9e4806db; 0x6db01b6d; 0xf6004927;
   0x8005b6d8; 0x16db00; 0x924800; 0xb6d8000; 0x25b60000; 0x24900090; 0x5b000241; 0x60000000;
   0x2000; 0x8000; 0x0; 0x1d1d02; 0x90; 0x200; 0x0; 0x12000;
   0x248000; 0x0; 0x92000016; 0x40000090; 0x5b60; 0xb6d80; 0x2492001; 0x6db6c00d;
   0xb6d80124; 0x920016db; 0x6c005b6d; 0x80024924; 0x2db6d8; 0x1b6db00; 0x4924800; 0x5b6d8003;
   0x6db60009; 0x248000b6; 0xdb0002db; 0x60000249; 0x2db0; 0xb600; 0x0; 0x1e1e01;
   0x90000; 0x2db6000; 0xdb6c000; 0x92490005; 0xb6db005b; 0x6db60124; 0x92480b6d; 0xb6d836db;
   0x6db04924; 0x9246db6d; 0xb6ed96db; 0x2c924924; 0x91b6db6d; 0xbb6db6db; 0x24b65b24; 0x6db6db6e;
   0xdbfff641; 0x2fffc91b; 0x6db6db36; 0xfffdb04b; 0xfff242db; 0x6db605bf; 0xff6802ff; 0xfc8016db;
   0x6c002fff; 0xd8003fff; 0xb6d8; 0x2c80; 0x0; 0x1c1d02; 0x90000; 0x480000;
   0x4; 0x92000024; 0x90000000; 0x24924; 0x124900; 0x1; 0x24924809; 0x24920000;
   0x1249; 0x24809249; 0x24000000; 0x1249249; 0x492d9240; 0x1fff0092; 0xdb6c949f; 0xff2401ff;
   0xf8092db6; 0xc949fff2; 0x401fff80; 0x92db6c94; 0x9fff2401; 0xfff8012d; 0xb6c8016d; 0xb0000000;
   0x1e1b05; 0x492400; 0x4924800; 0x0; 0x92492009; 0x24924000; 0x124; 0x92491249;
   0x24924000; 0xa4924; 0x925c9249; 0x24900000; 0x2924924; 0x95249249; 0x67800007; 0x8d92496c;
   0x5b6497d8; 0x7fffffc1; 0x6db6db06; 0xdb6db00f; 0xffffc01b; 0x6db60036; 0xdb6c007f; 0xff8000db;
   0x6c0000b6; 0xc0000048; 0x0; 0x201409; 0x1000; 0x0; 0x492480; 0x1249240;
   0x1200000; 0x12d92490; 0x9249248; 0x8200000; 0x16592492; 0x9249248; 0x9240008; 0x964b24b2;
   0x49249241; 0x41249240; 0x32596c96; 0x8249208; 0x8000040; 0x2c92590; 0x1249200; 0x49000;
   0x1f1f00; 0x10000001; 0x64900001; 0xb6d92000; 0x12492000; 0xd; 0xb6c9002d; 0xb6490000;
   0x0; 0x92490004; 0x92490009; 0x2092006c; 0x924b0124; 0x92490240; 0x4920924; 0x924b0924;
   0x92491241; 0x4904924; 0x92584924; 0x92409041; 0x4825924; 0x96424924; 0x92049249; 0x24064924;
   0x9406c925; 0xb0049249; 0x2016cb6c; 0x80124924; 0x41040; 0x124920; 0x24900; 0x0;
   0x1f1c02; 0x2400; 0x12000; 0x24000; 0x1b2000; 0x492000; 0x4920000; 0xb2090024;
   0x80000048; 0x164; 0x92480100; 0x92400000; 0x4800125; 0xb6490125; 0xb648005b; 0x2580496d;
   0xb6c8096d; 0xb640025f; 0x64024b6d; 0x92484b6c; 0x920002c8; 0x20124924; 0x92904924; 0x82000000;
   0x124924; 0xb0124924; 0x80049248; 0x25900; 0x0; 0x201a05; 0x2db6d80; 0x9249248;
   0x9248008; 0x36d92496; 0x49249248; 0x49240000; 0xb6d92492; 0x49249249; 0x49240000; 0x36d92492;
   0x49249248; 0x9240008; 0x16db2490; 0x9249248; 0x9240008; 0x16db2490; 0x9249248; 0x9240008;
   0x16db2490; 0x9249248; 0x9240008; 0x16db2490; 0x9249248; 0x9240008; 0x16db6db0; 0x9249240;
   0x1a1d02; 0xb6c000; 0xb6d8007f; 0xf7c0b6d9; 0x6c327b2d; 0xc9649e6; 0x5965b2c9; 0x25b6f249;
   0x25996592; 0xd924925a; 0x49249665; 0x92cb6c92; 0x496f2492; 0x59b64b2c; 0xb6496d8f; 0xf65fe6db;
   0x6db0db6d; 0xb63fffff; 0x9b6db6c3; 0x6db6d8ff; 0xfffe2db6; 0xdb0db6db; 0x63fffff0; 0xb6db6c12;
   0x49240000; 0x1d1f01; 0xe8000005; 0xb000003f; 0xc00001ff; 0xc0000b6d; 0x80007ffe; 0x1fffe;
   0x16db6c; 0x7ffff0; 0x1fffc80; 0xdb64900; 0x3fc92000; 0xfe49000b; 0x6492003e; 0x924800e4].
Definition emoji_data_21 : list N :=
  [0x924006c9; 0x24001924; 0x90004924; 0x59248; 0x124900; 0x120000; 0x1249240; 0x4924900;
   0x0; 0x49248003; 0x2492000f; 0x24b000b6; 0xdb0000ff; 0xe0000048; 0x0; 0x1c1d02;
   0x920; 0x4900; 0x49000; 0x920000; 0x24900002; 0x49000049; 0x20001249; 0x490;
   0x1249200; 0x9248000; 0x12; 0x48000492; 0x40004800; 0x492480; 0x2492000; 0x24900004;
   0x92000024; 0x90000249; 0x5920; 0x24800; 0x248000; 0xc100001; 0x10; 0x600;
   0x8000; 0x0; 0x1c1c02; 0x90; 0x2c00; 0x96c000; 0x16da0001; 0xb6c0000b;
   0x6c00016d; 0x8000496c; 0x496c0; 0x1b6d800; 0x2496c002; 0x4920025b; 0x6c809249; 0x490;
   0x124b600; 0x9249000; 0x80002; 0x49000012; 0x48000100; 0x2490; 0x82400; 0x800000;
   0x10080004; 0x40; 0x800; 0x0; 0x1e1e01; 0x40000; 0x16c0000; 0x16db0000;
   0xdf7c0016; 0xdb6c006d; 0xb6d801f7; 0xd9ec05b6; 0xdb6c1f6d; 0xb6d87f9e; 0xfbe16db6; 0xdb42ff6d;
   0xb601ffbe; 0xf85b6db6; 0xd1b2fb6f; 0x8601fffc; 0x32cb6db1; 0x2497ff24; 0x921be025; 0xb64b24c9;
   0x25904104; 0x86000b24; 0xb2493e4b; 0xe4907f3f; 0x8002db6c; 0x9007fff0; 0x7ff00; 0x16d800;
   0x58000; 0x0; 0x1a1e01; 0x1240; 0x2db6002; 0x49240492; 0x49025b6d; 0x824924b0;
   0x92492449; 0x64b64920; 0x2524800; 0x9240001; 0x24000049; 0x4802cb2; 0x49049249; 0x1249248;
   0x96c92412; 0x49248492; 0x4922db24; 0x92492492; 0x12492489; 0x6c924924; 0x92484924; 0x9204b649;
   0x924920; 0x24924002; 0x49240009; 0x20000000; 0x1d1d02; 0x492000; 0x1248000; 0x24;
   0x92490092; 0x49200002; 0x4000496d; 0x92012492; 0x40012002; 0x4964924; 0x92492492; 0x2490009;
   0x65964925; 0x92592000; 0x824012c9; 0x24924b24; 0x92400924; 0x802496c9; 0x24924964; 0x80120900;
   0x96db240; 0x24b64800; 0x800012; 0x49248009; 0x24800000; 0x92; 0x40000208; 0x0;
   0x111c03; 0x2400090; 0x249; 0x924000; 0x492492; 0x48000049; 0x24924920; 0x92492;
   0x49240001; 0x24924924; 0x24920492; 0x1248092; 0x40924024; 0x90124012; 0x48049000; 0x48004800;
   0x1c1f00; 0x20000; 0x900000; 0x4920000b; 0x6d800259; 0x24002492; 0x400db6db; 0x1249248;
   0x12492482; 0x4b6d9012; 0x49248000; 0x92002492; 0x49292492; 0x49000000; 0x2492492; 0x92492499;
   0x96c; 0x924b6924; 0x92491249; 0x2482db6d; 0xb016db6d; 0x81249248; 0xdb6db00; 0x24924002;
   0x4924005b; 0x6d800249; 0x24000492; 0x1240; 0x0; 0x1a1f00; 0x80000; 0x9200002;
   0x48000924; 0x80012480; 0x492400; 0x2496c024; 0x96d80005; 0xff2492db; 0x64925b6c; 0x1fff92;
   0x4b6d924b; 0x6db4007f; 0x66d92db6; 0x49249252; 0x4924836d; 0xb6d82db6; 0xd8092490; 0x1b6db00;
   0x12490004; 0x9200005b; 0x100; 0x4000; 0x16c0001; 0x24800049; 0x240025b2; 0x0;
   0x1e1905; 0x20000; 0x5b6c800; 0x5b2db001; 0xfcf3c01b; 0x6d96c0b6; 0xdb6d827b; 0xfff716db;
   0x6db66db2; 0x5b6dfe41; 0x2cbdb601; 0x6d9b6402; 0xdb7df259; 0xff6db6db; 0x66db6db6; 0xcbe597f9;
   0x5b6db6d8; 0x96d96c82; 0x5fff9212; 0xdb6d9224; 0x92492012; 0x49240092; 0x49240024; 0x92000002;
   0x0; 0x1d1e01; 0x48000; 0x1248000; 0x36db0002; 0x59240013; 0xc9200b6d; 0xb6c02492;
   0x4b012492; 0x4836db6d; 0xb2492d92; 0x52497c93; 0x6db6db65; 0x925924a4; 0x924926db; 0x6db6c92d;
   0x9259497c; 0x93cdb6db; 0x6d924924; 0xb2924924; 0x936db6db; 0x4b24920; 0x27924902; 0xdb6db009;
   0x25b24009; 0x279000b6; 0xdb600249; 0x24000249; 0x490; 0x0; 0x1f1f01; 0x1600;
   0x2400; 0xb600; 0x5b600; 0xb2c00; 0x2db600; 0x16db600; 0x4be400; 0x96db600;
   0x496db401; 0x807b2006; 0xc96db016; 0x496d807e; 0x4b01b6; 0x496c05b6; 0x49601ffc; 0x406db6;
   0x49016db2; 0x4803fff4; 0xb6db2; 0x480b6db2; 0x4017ffe0; 0xb6db2; 0xb6d90; 0x17ff00;
   0xb6c00; 0xb6800; 0x17c000; 0xb0000; 0x80000; 0x0; 0x1f1f00; 0x100;
   0xb00; 0x1e00; 0x5a00; 0xd800; 0x1fe00; 0x5b2db00; 0xdb6db00; 0x4beffe01;
   0x2596d803; 0x596d006; 0xf0c801b; 0x2cb0005b; 0x21b000f2; 0x4be000c9; 0x6d800209; 0x2d800412;
   0x20006db; 0x240012cb; 0x20017f87; 0xc00db64b; 0x2db61b; 0x7ffcb0; 0x6db2c0; 0x2da000;
   0xf8000; 0x2d8000; 0x2c0000; 0x780000; 0x600000; 0x0; 0x1f1f00; 0x2000;
   0xb2000; 0x124800; 0xcb6c00; 0x25b6c00; 0xc925c00; 0x32db6c00; 0x96db2c01; 0x24925805;
   0xb64b6804; 0x924b6009; 0x2492402d; 0x924b6025; 0x92490049; 0x2492016d; 0x925a0165; 0x964803c9;
   0x2590036d; 0xb6c00324; 0x968003c9; 0x64000b6d; 0xb0004b6d; 0x800082d9; 0x20124; 0x120000;
   0x200000; 0x800000; 0x4800000; 0x8000000; 0x20000000; 0x0; 0x1f1706; 0xb6000;
   0x1fe000; 0xfff000; 0x2db6000; 0x7ffe000; 0x7ffc000; 0x96db2000; 0x92c92001; 0x2492402c;
   0x9249642c; 0x92490059; 0x2492096c; 0x925b2164; 0x92580059; 0x25b0496d; 0xb6c9416d; 0xb6000049;
   0x20004924; 0x92404800; 0x2401000; 0x24005b6d; 0xb0000924; 0x0; 0x171f01; 0x200000;
   0x40000160; 0x92000; 0x12400249; 0x2c06492c; 0x2c9258b2; 0x4964924b; 0xe104be44; 0x92596492;
   0x4b080096; 0x2596db25; 0x96c94124; 0x932db6d9; 0x24924249; 0x248b6db6; 0xc9249202; 0x49240924;
   0x90092490; 0x12490049; 0x24804924; 0x924800; 0x5b600009; 0x0; 0x1f1e01; 0x40000;
   0xf0000; 0x12c0000; 0x6c0000; 0xf80002; 0x4b6c0000; 0xb600000; 0x7c00012; 0x4b200012;
   0x49200000; 0x12000012; 0x49200012; 0x49200020; 0x492; 0x49240492; 0x49000000; 0x92012492;
   0x49200492; 0x48000900; 0x92492; 0x49200092; 0x40000000; 0x80492492; 0x48400000; 0x8000000;
   0x592492; 0xc0492492; 0x124920; 0x92400; 0x0; 0x1e2000; 0x2db6db60; 0xffffffcf;
   0xffffff9b; 0x6db6dbf6; 0xcbecbfff; 0x2ff2e6d9; 0x6db6fc92; 0xdb2ff203; 0xe4b9b24b; 0x6dbf64b6;
   0xdbff9eff; 0x2e6db6db; 0x6fdb6ff6; 0xffffffff; 0x9b6db6db; 0xf6ffffff; 0xcbedb6e6; 0xdb2492fc;
   0x9e4925d2; 0x600019b6; 0xc924bf2f; 0x92497cb8; 0x40066db2; 0x492fdbed; 0xb6ffffff; 0xff9b6db6;
   0xdbffffff; 0xffffffff; 0xe6db6db6; 0x84924924; 0x1e1807; 0x800000; 0x16492005; 0xb6db640b;
   0x6592582c; 0x92492164; 0xb6db6649; 0x6c92d800; 0x924bc924; 0xb6c99249; 0x24b64124; 0x92f2496d;
   0xb66496d9; 0x2df24925; 0xb5b6496d; 0x8fedb6da; 0x3ffffff0; 0x6db6db60; 0xfffffe03; 0xfffff80b;
   0x6db6c017; 0xfffc000f; 0xffc0000b; 0x6c000000; 0x202000; 0xb200; 0x3ff00; 0x1fff80].
Definition emoji_data_22 : list N :=
  [0x2db6c0; 0x364960; 0xf20178; 0x16c9258; 0x1f0002c; 0x1f0002c; 0x36c925b; 0x1b0002e;
   0x3b0002e; 0x36c925b; 0x7b6482e; 0x7b0480e; 0x36c924b; 0x1b6490e; 0x1b0480e; 0x16c925a;
   0x1f6083c; 0xf6003c; 0x16d92d8; 0x7fecbe0; 0xfffdfe0; 0x5b6db6c0; 0x7fc2fb00; 0x7f804000;
   0xdb000000; 0x7f800000; 0x7f000000; 0x5b000000; 0x4000000; 0x142000; 0x80412402; 0x4140201b;
   0x4324824; 0x148201b6; 0x43248241; 0x48201b64; 0x32482494; 0x8249b65b; 0x64824948; 0x48b00b0;
   0x48048480; 0x48b00b04; 0x484004; 0x8b00b040; 0x4840048; 0xb00b0400; 0x4840048b; 0xb04004;
   0x840048b0; 0xb040000; 0x1f2000; 0x800; 0x25000; 0x48000; 0xb24000; 0x4964000;
   0x49249001; 0x65965809; 0x24924812; 0x49249049; 0x2cb25849; 0x2cb24892; 0x49249249; 0x65924249;
   0x64920492; 0x49241649; 0x24921249; 0x24900092; 0x4901925b; 0x64959249; 0x24bb0000; 0x6d9249;
   0x25ac9249; 0x25db0000; 0xb6d9249; 0x6c6d9249; 0x6cdb2016; 0xf16db6db; 0x616db6db; 0x7f6df0;
   0x2db6c0; 0x49000; 0x1c1f01; 0x16d80004; 0xb2400009; 0x2000036d; 0x80004920; 0x9200;
   0x16d800; 0x920000; 0x9200001; 0x6c000009; 0x20000092; 0x16d8; 0x9200; 0x92000;
   0x32d8000; 0x49240004; 0x924000b6; 0xd96c8492; 0x49244920; 0xb6d92; 0x49492492; 0x44920000;
   0xb6d92484; 0x92492449; 0x2400016d; 0x92480920; 0x92000000; 0x24; 0x0; 0x141f01;
   0x12490492; 0x48000009; 0x24924000; 0x94000096; 0xdb65b6d8; 0x7fff8b6d; 0xb65fff85; 0xfff836db;
   0xbfc00b; 0xfc002d80; 0x1200002; 0xc000; 0x2000020; 0xc0000; 0x20000200; 0xc00002;
   0x12000; 0x6d800924; 0x924002; 0x48000000; 0x161f01; 0x10000060; 0x8000; 0x592404f;
   0x24902c00; 0x92c9250; 0x44100; 0x10db2480; 0x96480258; 0x20064b00; 0x4900012; 0x40003600;
   0x200000; 0x80000400; 0x80000; 0x20000100; 0x20000; 0x8000040; 0x8000; 0x20000b6;
   0xc0092480; 0x4900024; 0x80000000; 0x191f01; 0x16480005; 0x92000249; 0x2db00; 0x924802;
   0x492002db; 0x2491b249; 0x490002; 0x5b649200; 0x59248024; 0x92406592; 0x58092490; 0x492480d;
   0xb6db092c; 0x92009249; 0x1b6db60; 0x24924012; 0x492016db; 0x60009240; 0x80000; 0x3000002;
   0x120; 0xb6c00; 0x2490001; 0x24800024; 0x80000000; 0x1d1f01; 0x492490; 0x1249240;
   0x0; 0x92492092; 0x49248400; 0x24924; 0x92492492; 0x48402492; 0x4824924; 0x90492490;
   0x80492489; 0x5965920; 0x92492100; 0x9249120b; 0x2cb24124; 0x92420124; 0x92241659; 0x64824924;
   0x84024924; 0x492cb2c9; 0x24924909; 0x24924812; 0x59659009; 0x24920009; 0x24900092; 0x49200249;
   0x24001249; 0x20012492; 0x0; 0x201f01; 0x812480; 0x41049240; 0x8000000; 0x10492480;
   0x8049248; 0x8; 0x90016492; 0x50009241; 0x9240; 0x2492d82; 0x1249241; 0x240;
   0x12492d82; 0x49249241; 0x48001240; 0x92492d92; 0x41249248; 0x41249248; 0x82592d90; 0x41249240;
   0x41249240; 0x82d92480; 0x41248000; 0x41248000; 0x92d90000; 0x49248000; 0x1248000; 0x2590000;
   0x1248000; 0x1248000; 0x2490000; 0x1d1d01; 0x90000002; 0x12; 0x48000125; 0xa0000492;
   0x40002490; 0x5b24; 0x92490; 0x490480; 0x1b25900; 0x12492400; 0x90412003; 0x25964004;
   0x92490004; 0x10480259; 0x65900924; 0x92400904; 0x12009659; 0x64024924; 0x90024104; 0x259648;
   0x924900; 0x904000; 0x9648000; 0x24900000; 0x24000002; 0x48000009; 0x0; 0x1f1f01;
   0x30492426; 0x90492481; 0x20000801; 0xb2492534; 0x92492409; 0x480d; 0x92492da4; 0x92492449;
   0x2496c; 0x924b6d24; 0x92492240; 0x24b64; 0x924b2924; 0x92491200; 0x105924; 0x92594924;
   0x92489000; 0x82c924; 0x92c24924; 0x92448000; 0x4064924; 0x96124924; 0x90240000; 0x20324924;
   0xb0924924; 0x81200001; 0x1924925; 0x84824904; 0x8; 0x4004000; 0x0; 0x1f1f01;
   0x30; 0xb0; 0x160; 0x5b0; 0x580; 0xc000; 0x34000; 0x36000;
   0x3c000; 0x4b2000; 0x2492000; 0x3c000005; 0xb609200f; 0xfe09007f; 0xfc00016d; 0xb0480b7f;
   0xf048187f; 0xc000596d; 0x8242c97c; 0x60078; 0x164960; 0x124960; 0x10380380; 0x124b00;
   0x125800; 0x38f000; 0x16c000; 0x160000; 0x3c0000; 0x100000; 0x0; 0x1c1e01;
   0x400000; 0x2000000; 0x24; 0x92000124; 0x10001201; 0x124924; 0x80924920; 0x1241001;
   0x2c924849; 0x24924000; 0x9249; 0x24909249; 0x24092492; 0x12cb6d8; 0x1964b281; 0x9c432812;
   0xcb6d8196; 0x4b2809c4; 0x32012cb6; 0xd81964b2; 0x809c4320; 0x12cb6d80; 0x964b2009; 0xc432012c;
   0xb6d80964; 0xb2001041; 0x0; 0x1c1e01; 0x6400016b; 0x60005bff; 0xc02ff6db; 0x6db6b6db;
   0x6dbffc93; 0xff6db6db; 0x6b6db6db; 0xffc93ff6; 0xdb6db6b7; 0xdb7dbfff; 0x97ff6db6; 0xdb6ffdb7;
   0xfffeffff; 0xf65b6d96; 0x2db6c00; 0x3fffc005; 0xb6db006d; 0x96d007f9; 0xff80db4d; 0xb016d96d;
   0x81ff87f8; 0x2db0db63; 0x6d86da30; 0xf07cf60b; 0x58200c0; 0x28000403; 0x0; 0x1f1e01;
   0x2c00180; 0x6c00580; 0xf961f00; 0x36db6d80; 0xb6db6c00; 0x24fe4804; 0x92d924a4; 0x92d92400;
   0x7f00124; 0x96c92524; 0x96c92000; 0x3f800124; 0xb6490125; 0xb6490001; 0xfc000925; 0xb2480925;
   0xb248000f; 0xe000492d; 0x9240492d; 0x9240007f; 0x2496c; 0x9202496c; 0x920003f8; 0x124b64;
   0x90124b64; 0x90001fc0; 0x925b24; 0x80925b24; 0x9200; 0x0; 0x1f1f01; 0x800300;
   0x800800; 0x1001200; 0x5925800; 0x4924000; 0x3259001; 0x6db65803; 0xc965802; 0x182c901b;
   0x6cb2c058; 0x6db2c092; 0x412480db; 0x65b602db; 0x6db60192; 0x492c06db; 0x6db016db; 0x6db025f6;
   0xff2096db; 0x6c90925b; 0x24912492; 0x49059249; 0x25a59249; 0x2c812492; 0x4925b24b; 0x6424b6d9;
   0x20412490; 0x4024924b; 0x249248; 0x92480; 0x49200; 0x0; 0x1f1f01; 0x30000;
   0xb0000; 0x160000; 0x25b0000; 0x12d92001; 0x24924805; 0xb6db6c04; 0x92492049; 0x6492496d;
   0xb6db612f; 0xb2f9225f; 0xa5f24b6d; 0xb6db697f; 0x97c912fd; 0x2f925b6d; 0xb6db4967; 0x9648924f;
   0x2492db6d; 0xb6da492c; 0x92449249; 0x2c96db6d; 0xb692fbef; 0xf225ffff; 0xa436db6d; 0xb016fbe4;
   0x8024f3c9; 0xb6db6c; 0x924924; 0x249240; 0x124900; 0x0; 0x181f01; 0x100000;
   0x48000048; 0x1000; 0x480000; 0x480001b6; 0xdb00; 0xc90001; 0xb28002d9; 0x3db00;
   0x5b6c006; 0xdb6002d9; 0x2005b640; 0x6d96002; 0xc96025b6; 0xd812db68; 0x124b602d; 0x96d836cb;
   0x6c36cb6c; 0x6db6dbb6; 0xdb2c007c; 0xb600; 0x7e0000; 0x78000010; 0x0; 0x1d2000].
Definition emoji_data_23 : list N :=
  [0x240000; 0x16db6002; 0xdb6d801f; 0xfffc016d; 0xb6d80db6; 0xdb61ffff; 0xff86db6d; 0xb6592492;
   0x43c00000; 0x2c924925; 0xb000000f; 0x8000005b; 0x24924b64; 0x92491f01; 0x8000b259; 0x2c96c964;
   0xb2580000; 0x1649249; 0x25924924; 0xa8004002; 0x49259200; 0x24924800; 0x482; 0x49240009;
   0x24800000; 0x90492; 0x40000248; 0x0; 0x2000; 0x1d1f00; 0x248000; 0xbfd8001;
   0xb6db0016; 0xdb6c01ff; 0xfffc1b6d; 0xb6d16db6; 0xdb0fffff; 0xfcb24924; 0x92c00000; 0x1e000001;
   0x6492492d; 0x9249247c; 0x2d9; 0x24925b25; 0x92c8f80c; 0x1e0592c9; 0x64b64b24; 0x92c00000;
   0xb249249; 0x2c924920; 0x20012; 0x49249001; 0x24924000; 0x2412; 0x49200049; 0x24000000;
   0x492; 0x200; 0x0; 0x1f1f00; 0x248000; 0x2ffe000; 0xb6db600; 0x5b6db600;
   0xfffffc02; 0xdb6db606; 0xdb6db60f; 0xfffffc36; 0x492490b0; 0x1e0; 0x1b2; 0x49248592;
   0x49248f84; 0x92482d96; 0xdb642c96; 0x4b24792c; 0x96496db6; 0xdb6d64b2; 0x5923c924; 0x92436db6;
   0xdb2b2496; 0x49020924; 0x80482492; 0x48002492; 0x40000120; 0x2412492; 0x12492; 0x0;
   0x12480; 0x2400; 0x0; 0x1e1f00; 0x124000; 0x3ff2000; 0xb6db6003; 0x6db6c00f;
   0xffff806d; 0xb6db02db; 0x6db60fff; 0xfff85924; 0x92498000; 0x70000; 0x364924; 0x926c9249;
   0x21f24924; 0xd96db6c; 0x9b2db6d8; 0x649e4d23; 0x6db6db66; 0xdb6db6d9; 0x249248db; 0x6db6d992;
   0xdb6c8001; 0x2490124b; 0x25900092; 0x49000009; 0x48249; 0x24000492; 0x40000000; 0x9248;
   0x2400; 0x0; 0x1d1f00; 0x248000; 0xbfd8001; 0xb6db0016; 0xdb6c01ff; 0xfffc1b6d;
   0xb6d16db6; 0xdb0fffff; 0xfcb24924; 0x92c00000; 0x1e000001; 0x6492492d; 0x9249247c; 0x3fffe2db;
   0x6db65b2f; 0xb7d9ff7d; 0xbeddb6db; 0x6db6db6f; 0xb6f6db6d; 0xfb6db6db; 0x2cb6fb6c; 0xf7f812;
   0x4b259001; 0x24924000; 0x2f802412; 0x59200049; 0x24000000; 0x492; 0x200; 0x0;
   0x1f1f00; 0x248000; 0x2ffe000; 0xb6db600; 0x5b6db600; 0xfffffc02; 0xdb6db606; 0xdb6db60f;
   0xfffffc36; 0x492490b0; 0x1e0; 0x1b2; 0x49248592; 0x49248f80; 0x2d92; 0x49242c96;
   0x4b24780c; 0x6016492; 0x49256492; 0x5923c000; 0x32492; 0x490b2492; 0x49020024; 0x482492;
   0x48002492; 0x40000000; 0x2412492; 0x12492; 0x0; 0x12480; 0x2400; 0x0;
   0x202000; 0x9249248; 0x5b6db6d8; 0xb6db6db6; 0x5b64b6db; 0x5b6496db; 0xb6db6db6; 0x5b2492db;
   0x4b2412cb; 0xb2c92596; 0x5924925b; 0x5920025b; 0xb64924b6; 0x5924125b; 0x5800005b; 0xb64924b6;
   0x5b2412db; 0x5f20025b; 0xb64924b6; 0x5924925b; 0x492412cb; 0xb6d92db6; 0x5b6496db; 0x5b6416db;
   0xb6cb65b6; 0x5b6cb2db; 0x5b2cb2db; 0xb6db6db6; 0x5b2db2db; 0x5b3dbadb; 0xb6db6db6; 0x5b6db6d8;
   0x9249248; 0x1f2000; 0x12492490; 0x6db25b6d; 0xb6db6cb5; 0xb6db60bb; 0x6d92c06d; 0xb6db65ad;
   0x96db05db; 0xc964b6d; 0x96d96d6d; 0x96d96edb; 0x2496db6d; 0xb6db2b64; 0xb65b36c9; 0x24b25b64;
   0xb2cb5b64; 0x925b82c8; 0x25f6c924; 0x96da4920; 0x96ddb640; 0x24b6d924; 0xb6d64924; 0xb6ecb249;
   0x6db6cb6c; 0xb6b6592c; 0xb760b259; 0x2d92cb6c; 0x9582cb6c; 0x1b0616d8; 0x2cb65b6c; 0x8db6db6d;
   0x89249248; 0x101e00; 0x1200fe0; 0x16d85b6c; 0x7ffeb6db; 0x5b6d7fff; 0xb6db5b6d; 0x7ffeb6db;
   0x5b6c1ffc; 0x16d80b60; 0xfe002c0; 0x1000100; 0x2c00340; 0x1000200; 0x1000000; 0x12004000;
   0x40008000; 0x201e01; 0x40000; 0x20b0030; 0x1048048; 0x1048048; 0x2014080; 0x49040;
   0x4bc40; 0x10c36c80; 0x25be40; 0x7be40; 0x20b6d20; 0x2ff640; 0x3ff700; 0xb65b6d86;
   0x12fb6cb; 0x1efb2cb; 0x30db6d86; 0x1fdb6c0; 0x1fff240; 0x12db6db0; 0x9edb650; 0x3ffe58;
   0x101b6db0; 0x805b6d8; 0x4800ffc8; 0x90002db6; 0x402016d8; 0x82002f8; 0x100000b6; 0x48000018;
   0x1d1e01; 0x40000; 0x580000; 0x3c00000; 0x1b000005; 0x940000b0; 0x78002480; 0xc8124804;
   0x924960b2; 0x424f87d2; 0x25b65b64; 0x96c12c95; 0xbf09fcd9; 0x6836c965; 0x80db2fe4; 0x87f9b6c3;
   0x2db2d900; 0xb61f0800; 0x9060b041; 0x20920; 0x4104000; 0xc3218043; 0x4020300; 0x900012;
   0xc92c0048; 0x20a00201; 0x4000002; 0x48; 0x0; 0x1d1d02; 0x6000c00; 0x58003000;
   0x4a008004; 0xb00b0092; 0xc0680412; 0x100402c; 0x164001b0; 0x58000c82; 0x40024b24; 0x800b2c10;
   0xc86080; 0xdb6c300; 0x3e582c03; 0xf041601b; 0x196016c; 0x16580fe0; 0x1000b603; 0xc06c00c;
   0x303f0020; 0x836802c8; 0x2d801a6b; 0xfc00c1b6; 0xc005b058; 0x12c3c0; 0x860c00; 0x3200000;
   0x1800000; 0x1f1c02; 0x82000; 0x186000; 0x104000; 0x12412400; 0x92432400; 0x800024;
   0xb2d964a5; 0xf24be403; 0xe487c02d; 0x96cb642f; 0x965f2008; 0xc160124; 0x92490124; 0x32490000;
   0x20000900; 0x80080001; 0x80000001; 0xd; 0x80000024; 0x40; 0x4c; 0x108;
   0x210; 0x820; 0x860; 0x1040; 0x4100; 0x0; 0x1c1f00; 0x40000;
   0x400000; 0x19000002; 0x48000020; 0x80000490; 0x40002492; 0x20920; 0x592480; 0x2492000;
   0x24800025; 0xb648096d; 0x92009249; 0x2012db6d; 0x80924b6c; 0x249243; 0x25b6d809; 0x6d920092;
   0x492036db; 0x6d8092d9; 0x20092492; 0x36db6d8; 0x5b6db6c4; 0x924924b6; 0xdb6dbdb6; 0xdb6c4924;
   0x924b6db6; 0xdb492492; 0x40000000; 0x1e1e01; 0x1000200; 0xc8601605; 0x92006002; 0xd8008016;
   0xd005816d; 0xe05b07ff; 0xc1262db6; 0x1b6cfffc; 0xfef9fff3; 0xffeb6d96; 0xdb720b24; 0x92400480;
   0xa5b25b2; 0xdc82c904; 0x90430080; 0x32582591; 0x6480c924; 0x9201acac; 0x961b2c49; 0x2cb2d924;
   0x92492b25; 0x86c9165b; 0x2c924924; 0x924a5b21; 0xb2c5b6c9; 0x6d96db2f; 0xb2b6d86d; 0xb12480db;
   0x20000000; 0x1c1f00; 0x40; 0x400; 0x4801b012; 0x40240124; 0x4924b2; 0xc84924b0;
   0x40004300; 0x124b6480; 0x92412c00; 0x4924124; 0xb6c84924; 0x92400049; 0x92496c; 0x80000004;
   0x2c0000; 0x2d800803; 0x6c904492; 0x5980924b; 0x2c849253; 0x64092636; 0x124b2d8; 0x492d9644;
   0x927fe092; 0x4b6c8492; 0x5b644925; 0xb0000000; 0x8000000; 0x40000000; 0x121f00; 0x2000080;
   0x580049; 0x12400b; 0x6c092482; 0x49206db0; 0x24920924; 0x81b6c012; 0x40008002; 0x58004900;
   0x12400b2c; 0x1040041; 0x2cb004; 0x90012400; 0xb2c01248; 0x49200db; 0x60492402; 0x9016590;
   0x24800000; 0x202000; 0x24924924; 0x36db6db6; 0x325b6db6; 0x64b6cb6d; 0xb25b25b6; 0x800b24b6;
   0x6496d96d; 0x924b64b6; 0x800b64b6; 0x6496d96d; 0xb25b6cb6; 0xb25b2cb2; 0x6db64b6d; 0xb6d924b2;
   0xb6d924b2; 0x6db6cb6d; 0xb6db25b2; 0xb6db25b2; 0x6d96db6c; 0xb64b25b6; 0xb60b2592; 0x6c96db6c].
Definition emoji_data_24 : list N :=
  [0xb64b6d96; 0xb8036c92; 0x6c96db6d; 0xb2496db2; 0xb001edb2; 0x6492db6d; 0xb6db6d92; 0x32496d92;
   0x6db6db6c; 0x12492490; 0x1f2000; 0x12400490; 0xb6c02db1; 0xe4804be5; 0xb6c16d8f; 0x9603679e;
   0x2d96cfac; 0xb6db6df9; 0xb6db4ee7; 0xffffdd6d; 0xb6db6fef; 0xb6fb77ff; 0xffffeb6d; 0xb6db7f7d;
   0xb7df3fff; 0xfffe5b6d; 0xb6da7bed; 0xbef8ffff; 0xfff0db6d; 0xb6c2df6d; 0xf781ffff; 0xfe02db2d;
   0xb606ff3f; 0xb007fe7f; 0xe006d96d; 0x8016d96d; 0x803ff3ff; 0x36db6c; 0xb6fb6c; 0xfffff0;
   0x1b6db60; 0x924900; 0x1e1e01; 0x30000; 0x3e0000; 0x16c0000; 0x16d80000; 0x7ffc0006;
   0xdb6c002d; 0xb6d801ff; 0xffe00db6; 0xdb60db7f; 0xb6c3ffff; 0xff1b6db6; 0xdbb6df2d; 0xb0ffff9f;
   0xc2db6db6; 0x1b6d960; 0x3fffc80; 0x16db6c00; 0x3db6c800; 0xffff0005; 0xb6d9000f; 0xedf2003f;
   0xffc8006d; 0xb64000ff; 0xfc8001ff; 0xc200036d; 0x100003f8; 0x20000300; 0x80000804; 0x0;
   0x102000; 0x16c84b64; 0x4fe4b6db; 0x4b644fe4; 0xb6db4b64; 0x4fe4b6db; 0x4b644fe4; 0xb6db4b64;
   0xfe006d0; 0x3600120; 0x2400920; 0x9001248; 0x49244924; 0x12484924; 0x1241248; 0x9240820;
   0x2400100; 0x111e01; 0x1200492; 0x4924124; 0x80924492; 0x49201280; 0x9900924; 0x2420102;
   0x41209240; 0x49204920; 0x2400120; 0x1240249; 0x1248124; 0x90492024; 0x91241248; 0x4a40244;
   0x2410080; 0x8008; 0x172000; 0x240001; 0x2c000778; 0x5b6c00; 0x592c00f6; 0x7802db60;
   0x2d9600c; 0x964036db; 0x40365b00; 0x249204b6; 0xd80db6d9; 0x1b6db66d; 0xb6db0db6; 0xc81b6d93;
   0x2db6532d; 0xb6425b60; 0x8b2d860a; 0x2c100200; 0x200b2580; 0x16c0003; 0xe0004b64; 0xdb6c05;
   0xb6d806db; 0x6c124920; 0x191f00; 0x24924909; 0x24924000; 0x49249; 0x29249248; 0x12690092;
   0x59252492; 0x49005f20; 0x12db64a4; 0xb6d9205b; 0x6c025b6c; 0x94924924; 0x30004b; 0x2db29249;
   0x24800600; 0x9259252; 0x49249024; 0xd2012cb6; 0x4a492492; 0x180024; 0x96494924; 0x92409348;
   0x492c929; 0x24924800; 0x9249; 0x24000000; 0x1f1f00; 0x12492490; 0x92492490; 0x4000804;
   0x92492494; 0x92492489; 0xfc02f92d; 0xb65b6caf; 0xb24be45f; 0xe4b3e96d; 0xf2fb657f; 0x92ffa07f;
   0xfe097c; 0x92f92964; 0x92490000; 0x4924; 0x92494924; 0x92480200; 0x4024924; 0x924a5924;
   0xb244fe01; 0xfc97db25; 0xb656792f; 0x9a2ef25f; 0x74b6f97d; 0xb2bfc93f; 0x903f807f; 0x4b6496c;
   0x94924924; 0x80000000; 0x24924924; 0x0; 0x1e1605; 0x12492491; 0xb6db6dbd; 0xcdb24df6;
   0x66c9b76d; 0xb6db6e59; 0x24964060; 0x180964; 0x92c91649; 0x25901800; 0x6025924; 0xb2459249;
   0x64060001; 0x8096492c; 0x91649259; 0x1800060; 0x25924b26; 0xff6dbfdd; 0x99b26ddb; 0x6c9edbff;
   0xdb6ffc49; 0x24924000; 0x1e1f00; 0x200000; 0xc00000; 0x3000000; 0x1b000000; 0xb6000002;
   0xf8000016; 0xd800002d; 0xb00005f7; 0xc0016db6; 0xc006db6d; 0x801feffe; 0xdb6db6; 0x1b6db6c;
   0x3df25f0; 0x16db6db0; 0x2db6db60; 0x1fc9fd80; 0xb6db6d81; 0x6db6db00; 0xfffbfc05; 0xb6db600b;
   0x6db20007; 0xf7c0002d; 0xb600005b; 0x6000002f; 0x8000016d; 0x800002d8; 0x160; 0xb00;
   0x0; 0x1f1c03; 0x2000; 0x180; 0xfe0; 0x12d80; 0x2580; 0x4100;
   0x92c80; 0x32c08; 0x2086c; 0x92592164; 0xb6490101; 0x24920325; 0xb6d80225; 0xb6480401;
   0x24101924; 0x92480124; 0x92480000; 0x900; 0x80404800; 0x408000; 0x4820004; 0x16020000;
   0x12040000; 0x900020; 0x800000; 0x0; 0x100; 0x0; 0x1e2000; 0x20000;
   0x40000; 0x920000; 0x25b20000; 0x4b040000; 0x4120048; 0x203605a0; 0x41681209; 0x7c03049;
   0x2d810002; 0x41040; 0x2086c8; 0x20412c10; 0x4004f800; 0x1b21b21b; 0xb04b00b0; 0x40040042;
   0xc16c8600; 0x12482000; 0x9208012; 0x49040120; 0x824807f0; 0x9200db2; 0x5b601924; 0x820004b0;
   0x21b2; 0x4104; 0x10010; 0x5b01b0; 0x900120; 0x201d03; 0x360000; 0x10580000;
   0xfe490000; 0x6db68000; 0x96cb0000; 0x2c90000; 0x20b2c800; 0x10592400; 0xd2400; 0x2016db40;
   0x100b2d80; 0x1e480; 0x2032db00; 0x10096d80; 0x2c80; 0x24b25b00; 0x10082580; 0x5e0;
   0x2030096c; 0x100824b6; 0x201e; 0x2030082d; 0x10082412; 0x10; 0x24b24924; 0x10082410;
   0x10; 0x20300804; 0x10; 0x1e1f00; 0xb6000; 0x1b6d800; 0x1e002001; 0x9000600e;
   0x60; 0x100; 0x80600; 0x3000; 0xc000; 0x2060000; 0x20180004; 0xb030012d;
   0xb100067b; 0x260009e4; 0xac00db6c; 0x40019249; 0x8002492b; 0x2016db1a; 0x4025b269; 0x924adb;
   0x1b6d4b0; 0x3241a40; 0x4903600; 0xd81e000; 0x49038001; 0x240c001b; 0x6c180030; 0x58600000;
   0x21000001; 0x0; 0x1f1d03; 0x10000; 0x0; 0x24000000; 0xb6080084; 0x96000409;
   0x3e10482d; 0xb6596425; 0xf041004f; 0xe080016d; 0xb008257c; 0xb00021f9; 0xf800436d; 0xb049632f;
   0xf048003f; 0xf080006d; 0xb240007f; 0xf000007f; 0xf000006d; 0xb000003f; 0xf000007f; 0xe000002d;
   0x8000003f; 0x8000001f; 0x2d; 0x80000005; 0x80000003; 0x5; 0x80000004; 0x0;
   0x1e1a03; 0x8000; 0x1b0000; 0x1ff0000; 0xb6c0004; 0xb6d8003e; 0xd96005b6; 0xcb400b6d;
   0x960024b6; 0x580165b6; 0xc006cb6d; 0x800f3ffc; 0x5b6db0; 0x8b7ffe0; 0xb07fffc3; 0xd2db6db6;
   0x6fb6fffd; 0xfbfbfffd; 0xb6db6d9b; 0xefb7ff66; 0xfecffc2d; 0xb6d96079; 0x2ca3c1ed; 0xff03036d;
   0xb60806db; 0x60000000; 0x1f2000; 0x12492490; 0x5b6db6da; 0xdb6db6dc; 0x92492496; 0xdb6db6d6;
   0xdb60b6e4; 0x920024b6; 0x5b24b6b0; 0x800b720; 0x10012592; 0x4925b580; 0x4005b900; 0x80092c92;
   0xc92dac02; 0x165c800; 0x2416c92; 0x4b2d6000; 0xe4000; 0xb6492; 0x496b0000; 0x720000;
   0x5b2492; 0x4b580000; 0x43900000; 0x82d92496; 0xdad80016; 0xdc924924; 0x96db6db6; 0xd6db6db6;
   0xc4924924; 0x92492492; 0x202000; 0x24000; 0x2db000; 0xb6d900; 0xb00b00; 0x16002c0;
   0x5800160; 0x4000060; 0xb000040; 0xc000020; 0xc000020; 0x1801b058; 0xc024820; 0xc824820;
   0x1961b018; 0x2c90482c; 0x7c10083e; 0xd820101b; 0x7c10083e; 0x7c10083e; 0xd820101b; 0x7c10083e;
   0x7c10083e; 0xd820101b; 0x7c12083e; 0x7c12083e; 0x582d96c8; 0x120920; 0x20920; 0x16c0;
   0x920; 0x900; 0x200; 0x201b03; 0x48000; 0x5b6c00; 0x1249200; 0x12d9240;
   0x6db6db0; 0x92d96c8; 0x92f9248; 0x16db6db0; 0x4b2496c8; 0x4f249248; 0xb6db6db6; 0x4b249249;
   0x4b249248; 0xb6db6db6; 0x49249049; 0x49249008; 0xb25b6c16; 0x49249200; 0x9240200; 0x12580580;
   0x9240200; 0x9241200; 0x6d92d80; 0x1249240; 0x1249200; 0x5b6c00; 0x49000; 0x1f2000].
Definition emoji_data_25 : list N :=
  [0x92000; 0xb6db6c0; 0x1ffffec0; 0x77fffd80; 0xdb6db600; 0xdb6dbe01; 0xfffffc06; 0xdb6db007;
   0xfffff00f; 0xffffe036; 0xdb6d803f; 0xffff807f; 0xffff00b6; 0xdb6c01ff; 0xfffc03ff; 0xfff005b6;
   0xdb600fff; 0xffc01fff; 0xff802db6; 0xdb006db6; 0xda005b6d; 0xb0016db6; 0xd8016db6; 0xc016db6d;
   0xb05b6db6; 0xdafb6db6; 0xffffdbff; 0xf6db6db6; 0xc2fffffe; 0xbfffe0; 0x4b6c80; 0x1a1e01;
   0x16c0000; 0x24000001; 0x30; 0x400; 0x0; 0x400000; 0x48000000; 0x920;
   0x92400; 0x9; 0x24900904; 0x82400000; 0x1249249; 0x20924100; 0x492; 0x4924b249;
   0x247dbfff; 0x16dfedb6; 0xdbfdb1fe; 0xff7edb7f; 0xb6db6ff6; 0xd7cffdfb; 0x6dfedb6d; 0xffdb492d;
   0xb2400000; 0x1e1d01; 0x900000; 0x1200000; 0x1; 0x24800002; 0x49000009; 0x20000259;
   0x24000492; 0x48000040; 0x92c8; 0x20092482; 0x40001000; 0x249249; 0x490492; 0x40;
   0x92492c8; 0x2092490; 0x8200; 0x49259640; 0x12492400; 0x240002; 0x492c9000; 0x92490000;
   0x9000012; 0x49200004; 0x92000000; 0x92; 0x40000024; 0x0; 0x1f1f01; 0x24800000;
   0x25900000; 0xfe00001; 0x2d924001; 0x7f92c803; 0xf807f001; 0x64b6c900; 0x4bfc900; 0x1fc0200;
   0xb25800; 0x27800; 0xe2d9; 0x2d92c3f9; 0x3f9387f0; 0x7f0716d9; 0x6d9617c9; 0x7c940fc0;
   0xfc01b6db; 0x6db5b6db; 0x6dab6db6; 0xdb4db6db; 0x6dadb6db; 0x6d5b6db6; 0xda6db6db; 0x6d6db6db;
   0x6adb6db6; 0xd36db6db; 0x636db6db; 0x6db6db6; 0x9249248; 0x0; 0x1f1f01; 0x92490;
   0x92490; 0x124920; 0x4b2d90; 0x5b2c80; 0x924900; 0x2c96480; 0x2492400; 0x4924800;
   0x12496000; 0x12492240; 0x24924924; 0x92d90924; 0x92c81249; 0x24905b2d; 0x96405b2d; 0x92409249;
   0x2402c924; 0x90024924; 0x49248; 0x125920; 0x125920; 0x59200; 0x16d900; 0x124800;
   0x249000; 0x924000; 0x920000; 0x240000; 0x100000; 0x0; 0x201706; 0x1249200;
   0x7ffffb0; 0xf7ffff0; 0x1f3ffef8; 0x3e5ffdfc; 0x1f6ff6f8; 0x3fe7f35c; 0x3edbedbe; 0x7f7ffefc;
   0x3f3ffefc; 0x3edffdfe; 0x7ffffffc; 0x7feff7fc; 0x37dbedf6; 0x7feff7fe; 0x7feff7fe; 0xb6db6db6;
   0x7ffc3fff; 0x7f3c1eff; 0xb60000b6; 0x7800005f; 0x7800001e; 0x10000012; 0x1e1f01; 0x249000;
   0x2492000; 0x240002; 0x4b6c9004; 0xb6d90002; 0x492400b6; 0xdb64096d; 0xb6c804bf; 0xf9012db6;
   0xdb22db25; 0xb6417c97; 0xc85b6596; 0xc8b6492d; 0x925924f2; 0x16db65b2; 0x2d964b64; 0x97493c85;
   0xb6cb6c8f; 0xec96d97f; 0xbef923fd; 0xb6db2fdf; 0x6db23f7d; 0xb240fbed; 0xb640bfdb; 0x6400ff24;
   0x8003f924; 0x800f9248; 0x180000; 0x4800; 0x0; 0x201704; 0x9249248; 0x3ffffffc;
   0x7ffffffe; 0xdb6db6db; 0x6db6df6c; 0xcb2cd60; 0xcb25965b; 0x24b24924; 0x4324c20; 0xdb25b6db;
   0x2cb24964; 0xc330c60; 0xcb25964b; 0x24b2c924; 0x630cc30; 0xcb24965b; 0x24b24924; 0x4324c20;
   0xcb65965b; 0x6db6df6c; 0x7ffffffe; 0x5b6db6db; 0x3ffffffc; 0x202000; 0x48000; 0x5b6c00;
   0x7ffe00; 0x1ffffc0; 0x6db6da0; 0xfffffe0; 0xffffff8; 0x16db6db0; 0x1ffcbff8; 0x3fe017fc;
   0x36cb65b6; 0x7fe7f3fe; 0x7f86f3fe; 0xb6cb65b6; 0x7f27f2ff; 0x7f07e0ff; 0xb64b64b6; 0x7f2cb2ff;
   0x7f0cf0ff; 0xb6cb65b6; 0x7fe5b3fe; 0x7fe083fc; 0x36d92db6; 0x1ffcbff8; 0x1ffffff8; 0x16db6db0;
   0xfffffe0; 0x3ffffc0; 0x2db6d80; 0x7ffe00; 0x2ff000; 0xb6000; 0x181e01; 0x2c0000;
   0xb6000092; 0x36d80; 0x5b6c004; 0x92401b6d; 0xb02d82d8; 0x248249db; 0x25b66d92; 0xdb64924b;
   0xdb6db66d; 0xb6df0c92; 0x7fcb6db2; 0xdb6fb6f; 0xb7e3db6d; 0xb661b7ff; 0x61f7ff5b; 0x6db62db6;
   0x780c3678; 0xb6cb004; 0x36c000b7; 0xc0016d80; 0x360000; 0x10000000; 0x1f1f01; 0x80000;
   0x80000; 0x0; 0x90480000; 0x80400000; 0x4; 0x86c00004; 0x6000008; 0x400002c;
   0x16db0060; 0xb7ff0001; 0x7ffe0365; 0xb6db0b65; 0xffff124f; 0xfffe492d; 0xbefa497f; 0xfff800ff;
   0xfffa4b6d; 0xb7da4bff; 0xffe007ff; 0xffd24b6d; 0xb6d25fff; 0xfe001fff; 0xfc925b7f; 0xb4927fff;
   0xf0003fff; 0xc0905b6d; 0x80805ffc; 0x1fc0; 0xb00; 0x0; 0x192000; 0x924921b;
   0x6db6d6db; 0x6dafffff; 0xfb6db6da; 0xdb00b5ff; 0x801f6d92; 0x4b5b0002; 0xbf8001ed; 0xb2496b60;
   0x57f000; 0x3db6492d; 0x6c001aff; 0xc00fb6c9; 0x2dadb65b; 0x5fff7ff6; 0xdb6db5b6; 0xdb6bffff;
   0xfedffff6; 0xffffff7f; 0xffffffff; 0xffdfffff; 0xefffffff; 0xfffffbff; 0xfffdffff; 0xfc2db6d8;
   0x1f1e01; 0x6c900001; 0x24924000; 0x49249003; 0x6db6c009; 0x24924002; 0x49248019; 0x6db60048;
   0x24920010; 0x400c0; 0x100240; 0x100080; 0x200600; 0x801200; 0x800400; 0x1003000;
   0x4009000; 0x4002000; 0x801b600; 0x20049200; 0x24812400; 0x490db601; 0x6da49201; 0x24892002;
   0x496db00b; 0x6c248009; 0x24490012; 0x4824005b; 0x60000049; 0x10; 0x0; 0x1f1e01;
   0x400; 0x3600; 0x1200; 0x2406; 0xc000b012; 0x40001004; 0x80002016; 0x8002;
   0x8008004; 0x12010010; 0x5b040010; 0x48040020; 0x90080080; 0x58200080; 0x40200100; 0x80480400;
   0xc16c0402; 0x1240804; 0x2482d86; 0xb602490; 0x9204920; 0x2016c30; 0x12480; 0x4124;
   0x101b6; 0x490; 0x920; 0xdb0; 0x480; 0x0; 0x1f1a05; 0xb2000000;
   0x92000001; 0x24000004; 0x92000000; 0x10000000; 0x24000000; 0xb2012400; 0x90092400; 0x20124800;
   0xb2492400; 0x90492001; 0x20120000; 0x90490000; 0x90480001; 0x20900004; 0x92480004; 0x92480001;
   0x20900004; 0x82400004; 0x92400009; 0x24800004; 0x92000004; 0x92000009; 0x24000024; 0x90000024;
   0x80000000; 0x1f1f01; 0x12000000; 0x58000000; 0xd8000007; 0xf0000006; 0xc0000016; 0xc0000027;
   0x80000012; 0xc0000002; 0x40000000; 0x80000002; 0xcb000002; 0x5b000000; 0xbf000002; 0xdb000002;
   0x4b000000; 0x96400006; 0x5b600032; 0x4b600024; 0x3e00192; 0x5b600090; 0x43600020; 0x97c00016;
   0x5b000082; 0xfb000127; 0xfc0000b6; 0xd8000496; 0xc000013f; 0x800004b6; 0x5b0; 0x100;
   0x0; 0x202000; 0x12492492; 0xfffffffe; 0x6db6db6d; 0xfffffffe; 0xf7ffeff6; 0x65b6cb65;
   0x93cbe7d2; 0xc3c3e7c2; 0x65b6cb65; 0x93cbe7d2; 0xc3c3e7c2; 0x65b6cb65; 0x93cbe7d2; 0xc3c3e7c2;
   0x65b6cb65; 0x93cbe7d2; 0xc3c3e7c2; 0x65b6cb65; 0x93cbe7d2; 0xc3c3e7c2; 0x65b6cb65; 0x92c92592;
   0xc0c18182; 0x6592c925; 0x92c92592; 0xc0c18182; 0x6592c925; 0x92c92592; 0xc0c18182; 0x6592cb25;
   0xf7dbefb6; 0x12492492; 0x1d1c02; 0x2000000; 0x8000000; 0x40000024; 0x90; 0x480;
   0x24900; 0x92400; 0x12000; 0x124800; 0x490000; 0x2480000; 0x20904000; 0x92400004].
Definition emoji_data_26 : list N :=
  [0x92000049; 0x24100120; 0x90000924; 0x90009249; 0x24824; 0x24120; 0x249240; 0x920900;
   0x904800; 0x1249000; 0x24924000; 0x24000000; 0x40200000; 0x1f1e01; 0xc000000; 0x64000001;
   0x24000002; 0x40000009; 0x60000009; 0x20000004; 0x40000009; 0x60800000; 0x24800000; 0x49200001;
   0x6d800001; 0x2c800002; 0x5900000b; 0x6d00000b; 0x24000013; 0x4800005b; 0x2c900049; 0x24900092;
   0x4920005b; 0x2db00009; 0x24800003; 0x4900000b; 0x2d800009; 0x6c000012; 0xf800005b; 0x6800004b;
   0xe0000092; 0xc00000db; 0x48; 0x0; 0x1f1f01; 0x180000; 0x680002; 0x496c9248;
   0x93e92490; 0x36002c0; 0xdc00240; 0x19000480; 0x1b001692; 0x5f249224; 0xbe492400; 0x5800b000;
   0x78009000; 0xf0012002; 0xd805a496; 0xf924897e; 0xf24900b6; 0xc02c01b6; 0xc024036d; 0x80480cb6;
   0x1692db6; 0x49225f74; 0x92402d80; 0xb002c00; 0x9006000; 0x12004c00; 0x5a493c92; 0x48937924;
   0x90036000; 0x3e000; 0x20000; 0x0; 0x1d1e01; 0x8000041; 0xb0000592; 0xc0009292;
   0xc02c9b6d; 0xb6db24b6; 0xdb2425b6; 0xc902db6d; 0xb6092db2; 0x40092492; 0x496db60; 0x12492480;
   0x492409; 0x25b6c024; 0x92490120; 0x24816c9; 0x2d804924; 0x92024900; 0x902db249; 0x924924;
   0x4924000; 0x5b6d9201; 0x24924809; 0x249200b6; 0xdb6c8249; 0x24901249; 0x24836db6; 0xdb049249;
   0x20000000; 0x1f1f00; 0x48000; 0x92000; 0x16db200; 0x9249200; 0x12492400; 0x5b6db002;
   0x49248004; 0x12490412; 0x5b6c9010; 0x49249020; 0x92492092; 0xdb649492; 0x49248924; 0x92092496;
   0xdb24a492; 0x48244924; 0x904924b6; 0xd9252492; 0x49224924; 0x824125b6; 0xc9292492; 0x49020924;
   0x92092db6; 0x48082492; 0x8024924; 0xb6db6; 0x92492; 0x124920; 0xb6d90; 0x92400;
   0x0; 0x1e1d02; 0x1000000; 0x2000000; 0x200000; 0x3600004; 0x16400000; 0x49000002;
   0xdb00000d; 0x90000016; 0x400001b6; 0xb6c; 0x2580; 0x416d80; 0x86d800; 0x6492000;
   0x36db6000; 0x2db64000; 0x1fc90004; 0x96db0009; 0x2db20000; 0x17d80124; 0x96c80249; 0x25900000;
   0x3ce4924; 0x96d89249; 0x25900000; 0x124924; 0x92249249; 0x20000000; 0x1f1f00; 0x48000;
   0x4f2000; 0xb6db000; 0x93c9000; 0x92792402; 0xdb6db407; 0xc9e4b007; 0x93c9e036; 0xdb6db096;
   0x4f2f912c; 0x9e5d25b6; 0xdb6da4b2; 0x79648934; 0xf2c92db6; 0xdb6dffff; 0xfffeffff; 0xfffd6db6;
   0xdb6d2f9e; 0x59224d3c; 0xb24b6db6; 0xdb4964f2; 0xc912c9e4; 0xd21b6db6; 0xd80f2793; 0xc03e4f25;
   0x805b6db6; 0x80493c92; 0x127920; 0x5b6d80; 0x9e400; 0x0; 0x1a1d02; 0x324000be;
   0x4b209f80; 0xf806c96d; 0x92f92f92; 0x7e03e01b; 0x6db6592f; 0x964903e0; 0x3e65b65b; 0x64be4be4;
   0xf80f9b6; 0xc96dbe4b; 0x2d9f80f8; 0x6c96d92; 0xf92f927e; 0x3e01b05; 0xb6580016; 0x49000000;
   0x40000060; 0x2400; 0x10000; 0x1800000; 0x90000004; 0x600; 0x4000; 0x1d1f00;
   0x8000; 0x40048005; 0x80da0036; 0x8b6000be; 0x4900016d; 0xb40001b2; 0x400005f0; 0xb64;
   0x2490; 0x0; 0x4924900; 0x32492000; 0x82000001; 0x6c920805; 0xb2c0082d; 0x8305b6db;
   0x2c16d960; 0x92cb00; 0xb6db400; 0x25b6c000; 0x5960012; 0x5b6c8049; 0x2db60000; 0x3c902492;
   0xdb649249; 0x6d900001; 0x24492496; 0xc9249249; 0x0; 0x1f1f00; 0x8000; 0x12012000;
   0x5b05b000; 0x5b04a000; 0x9e090000; 0x1b6d8000; 0xb640000; 0x3c80000; 0xb640000; 0x9240000;
   0x16; 0x49240032; 0x49000000; 0x80002006; 0xc9202016; 0xc920082c; 0xb3c12cb2; 0xc3016db6;
   0xcb2c; 0xb6db6; 0x96db6; 0x5964; 0x496db6; 0x40492db6; 0x40000b64; 0x824925b6;
   0xca4925b6; 0x40000124; 0x124924b2; 0x12492492; 0x0; 0x1f1f00; 0x1000; 0x6012000;
   0x1b05b000; 0x5b049000; 0x17c92000; 0xb6d8000; 0xb640000; 0x3d80000; 0x36c8000; 0x9240000;
   0x6; 0x49240016; 0x49040004; 0x12; 0xc9202006; 0xd960090c; 0xb0c12db2; 0xc1016db2;
   0xc1004b65; 0x96db6; 0x96db6; 0x5b2c; 0x492db6; 0x40492db6; 0x40000b64; 0x824925b6;
   0xca4924b6; 0x40000124; 0x24924b6; 0x42492492; 0x0; 0x1d1f00; 0x8000; 0x40048005;
   0x80da0036; 0x8b6000be; 0x4900016d; 0xb40001b6; 0xc00005f4; 0xb64; 0x2490; 0x0;
   0x4924900; 0x32492000; 0x82000001; 0x6c920805; 0xb2c0082d; 0x8305b2db; 0x2c16d960; 0x92cb00;
   0xb6db400; 0x25b6c000; 0x25960012; 0x5b6c8049; 0x2db60000; 0x3c902492; 0xdb649249; 0x6d900001;
   0x24492496; 0xc9249249; 0x0; 0x1d1f00; 0x10012000; 0xc0048007; 0xc124006d; 0x96d800b6;
   0x5b0000b2; 0x5800016d; 0x800005b6; 0x580; 0x5b20; 0x92480; 0x2000000; 0x64924800;
   0x92490000; 0xb008120b; 0x6cb0586d; 0xa2024b0c; 0x182db6d0; 0xb6cb00; 0x4b65800; 0x4b6db001;
   0x2db64000; 0x24960092; 0x5b6c8249; 0x2db20001; 0x64b12492; 0xdb249249; 0x6c800001; 0x2492492;
   0x40000000; 0x1f1f00; 0x12000; 0x16012000; 0x3c024000; 0xb61b6000; 0xb6492000; 0xf920000;
   0x16c80000; 0x6d80000; 0x5f00000; 0x12c90000; 0x12480008; 0x2c; 0x92480004; 0x92080001;
   0x2000480d; 0xb2c0482d; 0xb2c01259; 0x6182db65; 0x8202db6c; 0x92d8; 0x12db6c; 0x125b6c;
   0x1258; 0x925b6d; 0x80924b6d; 0x80000249; 0x4924b6d; 0x9492496c; 0x80000048; 0x24924924;
   0x0; 0x151f00; 0x40000; 0x3c002ff0; 0x6db001f; 0xe4000f00; 0x320000; 0x1000;
   0x160002c; 0x80016400; 0x16410059; 0x403c000; 0x2d9000b0; 0x78000; 0x1b00017c; 0xfe000;
   0xb6400281; 0xc9; 0x832400; 0x10000180; 0x1000020; 0x16000; 0x2c00000; 0x131f00;
   0x30001; 0xf0003f00; 0xdb000c8; 0x180002; 0x40002000; 0x24000b40; 0x5900010; 0x58200;
   0xd9000900; 0x6c8006c; 0x48003; 0x6c00b680; 0x6c001b6; 0x92000; 0x924108; 0x20110000;
   0x40008400; 0x8000100; 0x580000; 0x161f00; 0x10000; 0x1e00007f; 0x2d800; 0x7800012;
   0x1000; 0x1000004; 0x16400; 0x2400008; 0x5904; 0xb24002; 0x40001600; 0x2c0000;
   0x900005b0; 0x1b6000; 0x6f80016c; 0x80020000; 0xb240; 0x21040004; 0x800; 0x400080;
   0x24000; 0x12800000; 0x151e01; 0x20000; 0x4920; 0x1248000; 0x240; 0x2;
   0x2c00; 0x590002c; 0x8002c820; 0xb208078; 0x5b200; 0x160000f0; 0x36000; 0x2f8001fc;
   0x16c800; 0x51200000; 0x19201064; 0x80020000; 0x30002000; 0x400002c; 0x5800; 0x141f00;
   0x10000; 0x48000000; 0x900004; 0x80000000; 0x9000040; 0x240005; 0xa0016400; 0x20000d8;
   0x2016c900; 0x24000d90; 0x16c0002; 0x4000db00; 0x16d0006c; 0xdb000; 0x24800000; 0x92410490].
Definition emoji_data_27 : list N :=
  [0x8400008; 0x104000; 0x80000800; 0x1600000; 0x161e01; 0x8000; 0x92; 0x12000;
   0x4; 0x80004800; 0x100005b; 0x9000; 0x2000016; 0x41002c90; 0x900005; 0x90000b00;
   0x240001; 0x6c0006d8; 0x1be000; 0x5b200082; 0x2c; 0x90084920; 0x81000002; 0x1000;
   0x20000090; 0x4a000; 0x151f00; 0x40000; 0x340027f0; 0x6db000b; 0x64000f00; 0x360000;
   0x40001000; 0x160002d; 0x80016400; 0x16c10059; 0x2403c900; 0x2d9000b0; 0x78000; 0x1b00017c;
   0xfe000; 0xb6c00289; 0x1008cb; 0x20832400; 0x10000180; 0x1000020; 0x16000; 0x2c00000;
   0x141f00; 0x30000; 0xd8000fc0; 0x1b6000d; 0x8000c800; 0xb000040; 0x240005; 0xa0016400;
   0x124000d9; 0x2016c901; 0x24802d90; 0x16c0002; 0x4000db00; 0x16d0006c; 0x800db601; 0x64801208;
   0xb6c10490; 0x8400088; 0x104001; 0x80000800; 0x1600000; 0x161f00; 0x10000; 0x1600007e;
   0x2d800; 0x5800012; 0x3200; 0x1200004; 0x16c00; 0x2400009; 0x5b24; 0xb24002;
   0x48001640; 0x6c0000; 0x900005b0; 0x1b6000; 0x6f80016d; 0x80020800; 0x800b6c0; 0x61248204;
   0x80800; 0x400080; 0x24000; 0x12800000; 0x151f00; 0x40000; 0x34002ff0; 0x6db000b;
   0x6c000f20; 0x360000; 0xc0001000; 0x160002d; 0x80016400; 0x16c1005b; 0x2c03f900; 0x2db000b0;
   0x78000; 0x1b00017c; 0xfe000; 0xb6c0028b; 0x1008db; 0x61832404; 0x10000180; 0x3000020;
   0x1e000; 0x2c00000; 0x161f00; 0x30000; 0x360000fc; 0x6d800; 0xd800032; 0xb000;
   0x3200024; 0x16800; 0x16c00049; 0xdb2c; 0x5b2c012; 0x4800b640; 0x16c0000; 0x90000db0;
   0x5b6000; 0x6f80036d; 0x80164800; 0x4820b6c1; 0x1240204; 0x82000; 0x40400180; 0x20000;
   0x16000000; 0x161f00; 0x10000; 0x1600007e; 0x2d800; 0x5a0001e; 0x3600; 0x1200004;
   0x16c00; 0x6c00009; 0xdb2c; 0x1b6c002; 0x48003640; 0x6c0000; 0x900005b0; 0x1b6000;
   0x6f80016d; 0x80060a00; 0x820b6c0; 0x61648204; 0x80800; 0x50400080; 0x24000; 0x12800000;
   0x151f00; 0x40000; 0x3e003ff0; 0x7ff001f; 0xec000f60; 0x360002; 0xc0001c00; 0x160002d;
   0x8001ec00; 0x16c100db; 0x2c03fb00; 0x2db001b0; 0x78000; 0x1b00017c; 0xff000; 0xb6c0028b;
   0x1018db; 0x61836c06; 0x10000180; 0x3000020; 0x1e000; 0x2c00000; 0x161f00; 0x30000;
   0x3e0000fc; 0x7d800; 0xd80003e; 0xb000; 0x3200024; 0x36800; 0x16c0004b; 0xdb2c;
   0x5b6c012; 0x5800b640; 0x16c0000; 0x90000db0; 0x5b6000; 0x6f80036d; 0x80165800; 0x7820b6c1;
   0x416d0604; 0x182000; 0x40400180; 0x20000; 0x16000000; 0x141f01; 0xf0000; 0xfc000fc0;
   0x1f6000d; 0x8000d800; 0xb0002c0; 0x2c000d; 0xa0016c10; 0x12c100db; 0x6016d801; 0x24000d80;
   0x6c0002; 0xc000db00; 0x16d80167; 0x800c1609; 0x6085b608; 0xb6c10400; 0x18400188; 0x104001;
   0x80000900; 0x200000; 0x161f01; 0x10004; 0x92000248; 0x124800; 0x4800000; 0x9000;
   0x300000c; 0x16c00; 0x240000d; 0x5924; 0xb20003; 0xc0001600; 0x6c0001; 0xf00005b0;
   0x1be000; 0x7e000164; 0x80020010; 0xb240; 0x1000204; 0x800; 0x40400190; 0x2c000;
   0x2000000; 0x141f01; 0x48000; 0x24000240; 0x480002; 0x0; 0x2c800160; 0x120016;
   0x4000b200; 0x900016c; 0x900b2000; 0x900016c0; 0xb0000b; 0x60016d80; 0xb6000b6; 0x164800;
   0x80420000; 0xc9008600; 0xc; 0x180002; 0xc0000400; 0x100000; 0x141f01; 0x90000;
   0x48000480; 0x900004; 0x80000000; 0x90002c0; 0x240004; 0x80016400; 0x20000d9; 0x2016c800;
   0x24000d80; 0x6c0002; 0xc000db00; 0x16c80164; 0x41001; 0x20840000; 0x92410400; 0x8400008;
   0x104001; 0x80000900; 0x200000; 0x1f1f01; 0x36c00; 0xfe800; 0x3fc000; 0x5b2000;
   0x90000; 0x20; 0x480060; 0xd80040; 0x1f80160; 0x92d80360; 0x7c00240; 0xf800b60;
   0x16011b60; 0xf6001243; 0xfc005b6d; 0xb000db7c; 0xf0009278; 0xe002496d; 0x800209e5; 0x8004004b;
   0x16492c; 0x9036480c; 0xb2249000; 0x24b6c924; 0xb7b6c920; 0x1124b240; 0x25b6db24; 0xbdb6db6d;
   0x89249249; 0x4924924; 0x0; 0x201f01; 0x6c00; 0xbe00; 0xf800; 0x6400;
   0x3000; 0x40000000; 0x80012c00; 0x4005b600; 0x4007fe00; 0xb05b6d80; 0x5864fec0; 0x4800f8c0;
   0xb6016cb0; 0x5b01b008; 0x4907f000; 0xb6cb6800; 0x5b6c3000; 0x492c3000; 0xb25b2800; 0x402cb000;
   0x4004b000; 0xb2492d80; 0x59201248; 0x4b201049; 0xb6c92496; 0x5b64900b; 0x492c9001; 0xb6db6c96;
   0x5b6db6db; 0x49249248; 0x12492490; 0x1f1f01; 0x5800; 0xf800; 0x1f000; 0x2c008;
   0x64010; 0x40018; 0x320040; 0x1f60090; 0xfff00c0; 0x2db602c0; 0x1f60480; 0x7c406c0;
   0xd8256c0; 0x7d002491; 0xfe0036db; 0x6c00b6df; 0x380104b8; 0x60019259; 0x60048249; 0xc0090093;
   0x800d924b; 0x242d9209; 0x2ccb2400; 0x496db249; 0x2d6db248; 0x2e492490; 0xb6db6c9; 0x236db6db;
   0x62492492; 0x49249249; 0x0; 0x1f1f01; 0x12400; 0x92000; 0x0; 0x492000;
   0x90000; 0x20; 0x480060; 0xd80040; 0x1f80160; 0x92d80364; 0x7c00240; 0xf800b60;
   0x16011b60; 0xf6001243; 0xfc005b6d; 0xb000db7c; 0xf0009278; 0xe002496d; 0x800209e5; 0x8004004b;
   0x16492c; 0x9036480c; 0xb2249000; 0x24b6c924; 0xb7b6c920; 0x1124b240; 0x25b6db24; 0xbdb6db6d;
   0x89249249; 0x4924924; 0x0; 0x201f01; 0x2400; 0x1200; 0x0; 0x2400;
   0x1000; 0x40000000; 0x80016c00; 0x4005b600; 0x4007fe00; 0xb05b6d80; 0x5864fec0; 0x4800f8c0;
   0xb6016cb0; 0x5b01b008; 0x4907f000; 0xb6cb6800; 0x5b6c3000; 0x492c3000; 0xb25b2800; 0x402cb000;
   0x4004b000; 0xb2492d80; 0x59203248; 0x4b201049; 0xb6c92496; 0x5b64900b; 0x492c9001; 0xb6db6c96;
   0x5b6db6da; 0x49249248; 0x12492490; 0x1f1f01; 0x4800; 0x4800; 0x0; 0x24008;
   0x24010; 0x18; 0x360040; 0x1f60090; 0xfff00c0; 0x2db602c1; 0x21f60480; 0x7c406c0;
   0xd8256c0; 0x7d006491; 0xfe0036db; 0x6c00b6df; 0x380104b8; 0x60019259; 0x60048249; 0xc0090093;
   0x800d924b; 0x242d9209; 0x2ccb2400; 0x496db249; 0x2d6db248; 0x2e496490; 0xb6db6c9; 0x236db6db;
   0x62492492; 0x49249249; 0x0; 0x1f1f01; 0x36c00; 0xb6800; 0x1fc000; 0x5b6000;
   0x90000; 0x20020; 0x580060; 0x2d80040; 0x5fa0160; 0xb2d90364; 0x87c80240; 0xf820b60;
   0x16011b60; 0xf6011243; 0xfc005b6d; 0xb000db7c; 0xf0009278; 0xe002496d; 0x800209e5; 0x8004024b;
   0x16492c; 0x9036480c; 0xb2249000; 0x24b6c964; 0xb7b6c920; 0x1124b240; 0x25b6db64; 0xbdb6db6d].
Definition emoji_data_28 : list N :=
  [0x89249249; 0x4924924; 0x0; 0x201f01; 0x2c00; 0x3600; 0x7200; 0x6c00;
   0x3200; 0x40001000; 0x80016c00; 0x4005b600; 0x4007fe00; 0xb05b6d80; 0x5964fec0; 0x4800f8c0;
   0xb6016cb0; 0x5b01b008; 0x4907f000; 0xb6cb6800; 0x5b6c3000; 0x492c3000; 0xb25b2800; 0x402cb000;
   0x400cb000; 0xb2492d80; 0x59203248; 0x4b201049; 0xb6c92496; 0x5b64900b; 0x492c9001; 0xb6db6c96;
   0x5b6db6db; 0x49249248; 0x12492490; 0x1f1f01; 0x5800; 0xd800; 0x1f000; 0x2c008;
   0x24010; 0x40018; 0x360040; 0x1f60090; 0xfff00c1; 0x2db602c1; 0x21f60480; 0x7c406c0;
   0xd8256c0; 0x7d006491; 0xfe0036db; 0x6c00b6df; 0x380104b8; 0x60019259; 0x60048249; 0xc0090093;
   0x800d924b; 0x242d9209; 0x2ccb2410; 0x496db249; 0x2d6db248; 0x2e496490; 0xb6db6c9; 0x2b6db6db;
   0x62492492; 0x49249249; 0x0; 0x1f1f01; 0x36c00; 0xb6800; 0x1fc000; 0x5b6000;
   0xb0000; 0x20020; 0x590060; 0x2da0040; 0x5fa0160; 0xb2db0364; 0x87c80240; 0xf820b60;
   0x160b1b60; 0xf6011243; 0xfc005b6d; 0xb000db7c; 0xf0009278; 0xe002496d; 0x800209e5; 0x8004024b;
   0x164b2c; 0x9036480c; 0xb2249008; 0x24b6c964; 0xb7b6c920; 0x1124b240; 0x25b6db64; 0xbdb6db6d;
   0x89249249; 0x4924924; 0x0; 0x201f01; 0x2c00; 0x3600; 0xfe00; 0x6c00;
   0x3600; 0x40003000; 0x80016c00; 0x4005b600; 0x4007fe00; 0xb05b6d80; 0x5964fec0; 0x4800f8c0;
   0xb6016cb2; 0x5b01b008; 0x4907f000; 0xb6cb6800; 0x5b6c3000; 0x492c3000; 0xb25b2800; 0x402cb000;
   0x400cb000; 0xb2592d80; 0x59203248; 0x4b201049; 0xb6c96496; 0x5b64900b; 0x492c9001; 0xb6db6c96;
   0x5b6db6db; 0x49249248; 0x12492490; 0x1f1f01; 0x5800; 0xd800; 0x1f000; 0x2c008;
   0x6c010; 0x40018; 0x360040; 0x1f60090; 0xfff00c1; 0x2db602c1; 0x21f60480; 0x7c486c0;
   0xd82d6c0; 0x7d006491; 0xfe0036db; 0x6c00b6df; 0x380104b8; 0x60019259; 0x60048249; 0xc0090093;
   0x800d924b; 0x242d9209; 0x2ccb2410; 0x496db259; 0x2d6db248; 0x2e496490; 0xb6db6c9; 0x2b6db6db;
   0x62492492; 0x49249249; 0x0; 0x1f2000; 0x2000; 0x27800; 0xff800; 0x5fe000;
   0xf7c000; 0xf0020; 0xb0040; 0x120060; 0x2db0160; 0x17fb0241; 0x27f6036d; 0x86cb0b60;
   0x78b1240; 0x3f021b60; 0xb6015b65; 0xfc00924f; 0x7800db6c; 0xb0024960; 0xe0048249; 0x80064965;
   0x80120127; 0x802c060d; 0x2036492c; 0xb2b64824; 0x972592c0; 0x25b6c924; 0x95b6d924; 0x3924b248;
   0x2db6db6d; 0x8db6db6d; 0x89249248; 0x1f2000; 0x1000; 0x1f000; 0x7f000; 0x7a000;
   0xf8000; 0x2d8000; 0x2c0000; 0x580080; 0xb6c0180; 0x1ffc0100; 0xf7f80596; 0xcb6c0d80;
   0x1f2c0900; 0x3e0f2d82; 0xd805ed87; 0xf800493f; 0xf0016db0; 0xc00325f0; 0xc00209e3; 0x80092596;
   0x190596; 0x12082c; 0x805b24b2; 0xd9db24b2; 0x58964940; 0x12db6592; 0x5edb6490; 0x44925920;
   0x96db6db6; 0xd6db6db6; 0x4924920; 0x201f01; 0x3c00; 0x7c00; 0xfe00; 0x7c00;
   0x80006c00; 0x40003000; 0x4000b000; 0xa0036c00; 0x4007fe00; 0x482cff80; 0xb2d96d80; 0x5800f040;
   0x4900f008; 0xb6036c06; 0x5b07f000; 0x492fb000; 0xb6db2800; 0x492c3000; 0x402cb000; 0x92592800;
   0x480cb000; 0x482c1200; 0xb6592cb2; 0x5b24325b; 0x4924b009; 0xb6d96496; 0x5b6c920b; 0x49259249;
   0xb6db6db6; 0x5b6db6d8; 0x9249248; 0x1f1f01; 0x2400; 0x49000; 0x49000; 0x10000;
   0x48010; 0x48020; 0x90030; 0x16c00b0; 0x1fc0120; 0x1f801b2; 0x436405b0; 0x3c00920;
   0x1f800db0; 0x5b00adb2; 0xfe004927; 0xbc006db6; 0x580124b0; 0x70024124; 0xc00324b2; 0xc0090093;
   0xc0160006; 0x901b2496; 0x5b5b2412; 0x4b92c900; 0x12db6492; 0x4adb6c92; 0x1c925924; 0x16db6db6;
   0xc6db6db6; 0xc4924924; 0x0; 0x1f1f01; 0x1000; 0x4800; 0x24000; 0x40000;
   0x24000; 0x20000; 0x240040; 0x5b600c0; 0xffe0080; 0x7bfc02cb; 0x65b606c0; 0xf960480;
   0x1f0616c1; 0x6c0236c3; 0xfc00249f; 0xf800b6d8; 0x600192f8; 0x600104f1; 0xc00492cb; 0xc824b;
   0x90016; 0x402d9259; 0x6ced9209; 0x2c4b2400; 0x96db249; 0x2f6db248; 0x22492c92; 0x4b6db6db;
   0x6b6db6db; 0x2492490; 0x0; 0x201f01; 0x1000; 0x2400; 0x1000; 0x1000;
   0x80002400; 0x40001000; 0x40009000; 0xa0036c00; 0x4007fe00; 0x4804ff80; 0xb0496d80; 0x5800f040;
   0x4900f000; 0xb6036c02; 0x5b07f000; 0x492fb000; 0xb6db2800; 0x492c3000; 0x402cb000; 0x92596800;
   0x480cb000; 0x48001200; 0xb6492cb2; 0x5b24125b; 0x49240009; 0xb6d92496; 0x5b6c920b; 0x49259249;
   0xb6db6db6; 0x5b6db6d8; 0x9249248; 0x1d1f00; 0x4900024a; 0x4800926d; 0xb00b6cb6; 0xc0248092;
   0x1240b6c; 0xb6c02db2; 0x48012492; 0x4006db6c; 0x1b6480; 0x492400; 0x1b6c000; 0x6490000;
   0x12400001; 0x24800004; 0x92000120; 0x10001249; 0x20004924; 0x20800; 0x249240; 0x924900;
   0x920800; 0x49248001; 0x24920009; 0x24000092; 0x49000249; 0x20001209; 0x2490; 0x9200;
   0x0; 0x1f1f01; 0x1249201; 0x24924921; 0x24924922; 0x9249048; 0x24924928; 0x24924110;
   0x49248241; 0x24920841; 0x24920882; 0x49241249; 0x24904209; 0x24904402; 0x49008209; 0x24821249;
   0x24920492; 0x49201249; 0x24800049; 0x12; 0x48; 0x48; 0x90; 0x240;
   0x240; 0x480; 0xb6c8; 0x5b6d8; 0x92490; 0x2db6d8; 0x6db6c0; 0x492480;
   0x0; 0x1f1f00; 0x1000; 0x2000; 0xb000; 0x2c8000; 0x480c02; 0x364b614;
   0xb25b230; 0x24324a0; 0x925b680; 0x92db104; 0x924b21b6; 0xdb6c31b2; 0x79600124; 0xf24005b2;
   0xcb000db2; 0xcb000925; 0x90002db6; 0xd8002db6; 0xd8000b04; 0x98002c02; 0xd8006c00; 0x48004800;
   0x90032d80; 0xd0030402; 0x40020260; 0x80030d82; 0x80010c02; 0x0; 0x30000; 0xc0000;
   0x0; 0x1f1e01; 0x2400; 0x3000; 0x49000; 0x490402; 0x1643606; 0x161f20c;
   0x243e430; 0x925b6c0; 0x12db784; 0x92593db6; 0xdb6c10b6; 0x5b6c0124; 0xf24005b2; 0xdb6005b2;
   0x4b000924; 0x92000db6; 0xda000d96; 0xd8000904; 0x96002d80; 0x5a002400; 0x48004800; 0x10d80;
   0x48010182; 0x10020164; 0x10490; 0xc0010402; 0x0; 0x10000; 0x30000; 0x0;
   0x1f2000; 0x1000; 0x6000; 0x1a000; 0x248000; 0x482406; 0xb60b610; 0xb25b060;
   0xf2480; 0x492db100; 0x92db324; 0x924965b6; 0xfb6cb5b2; 0xfb600125; 0xd2400db6; 0xdb002d92;
   0xd8000927; 0x90002db6; 0xd8002db6; 0xd8000a24; 0xb0006c02; 0xd8016800; 0xd0021800; 0x90032c02;
   0x40080406; 0x400209a0; 0x800b0d82; 0x32006; 0x20000; 0x80000; 0x80000; 0x100000].
Definition emoji_data_29 : list N :=
  [0x1f1f00; 0x1000; 0x2000; 0xb000; 0x2d8000; 0x490c02; 0x364b614; 0xb25b230;
   0x24f24a0; 0x92db680; 0x92db104; 0x924b21b6; 0xdb6c31b2; 0x79600124; 0xf24005b2; 0xcb000db2;
   0xcb000925; 0x90002db6; 0xd8002db6; 0xd8000b04; 0x98002c02; 0xd8006c00; 0x48004800; 0x90032d80;
   0xd0030402; 0x40020260; 0x80030d82; 0x80010c02; 0x0; 0x30000; 0xc0000; 0x0;
   0x1f1e01; 0x2c00; 0xb000; 0x4b000; 0x490402; 0x1643606; 0x161f20c; 0x243e430;
   0x92db6c0; 0x12db784; 0x92593db6; 0xdb6c10b6; 0x5b6c0124; 0xf24005b2; 0xdb6005b2; 0x4b000924;
   0x92000db6; 0xda000d96; 0xd8000904; 0x96002d80; 0x5a002400; 0x48004800; 0x10580; 0x48010182;
   0x10020164; 0x10490; 0xc0010400; 0x0; 0x10000; 0x30000; 0x0; 0x1f2000;
   0x1000; 0x6000; 0x1a000; 0x248000; 0x482406; 0xb60b610; 0xb259060; 0xf2480;
   0x492db100; 0x92db324; 0x924965b6; 0xfb6cb5b2; 0xfb600125; 0xd2400db6; 0xdb002d92; 0xd8000927;
   0x90002db6; 0xd8002db6; 0xd8000a24; 0xb0006c02; 0xd8016800; 0xd0021800; 0x90032c02; 0x40080406;
   0x400209a0; 0x800b0d82; 0x32006; 0x20000; 0x80000; 0x80000; 0x100000; 0x1f1e01;
   0x3840000; 0x2d96c000; 0x7cbfc001; 0xf1ffc003; 0x65b6c00f; 0x2fffc01c; 0x7ffff059; 0x6db6c04b;
   0x27ffc01f; 0x1fffc05b; 0x2db6c2f9; 0x27ffc7ff; 0xfff86db; 0x2db69ff9; 0x2ffe1fff; 0xffe36db;
   0x2db63fff; 0x2ffc7ffe; 0x1bf0b6db; 0x2d90ffff; 0x2f807ffe; 0x1c00b6db; 0x6580ffff; 0xe701ffff;
   0x1e00b6d9; 0x6c00fff9; 0xe0007fc7; 0xc000365b; 0x1658; 0x0; 0x1e1e01; 0x900000;
   0x24b20002; 0x492c0000; 0x100049; 0x24b00092; 0x49200000; 0x803249; 0x24806492; 0x49008000;
   0x4059249; 0x2c092492; 0x58200000; 0x21649249; 0x62c92492; 0x1000008; 0x4b249258; 0x964924b0;
   0x9000042; 0x5b249604; 0xb6492c00; 0x49001012; 0xdb258024; 0xb64b0002; 0x49240092; 0xdb600124;
   0xb6800002; 0x48000096; 0xc000012c; 0x0; 0x1f1d03; 0x124000; 0x124800; 0x0;
   0x924920; 0x4800000; 0x0; 0x24800100; 0x24000000; 0x48001; 0x2416c001; 0x20b6c000;
   0x1078009; 0x4960249; 0x4960c02; 0xc36db; 0x2490b6da; 0x24b1fff0; 0x4901b6db; 0x6d949249;
   0x24912492; 0x492db6db; 0x6da49249; 0x24892492; 0x496db6db; 0x6d249249; 0x24492492; 0x4b6db6db;
   0x61249249; 0x20000000; 0x1f1d03; 0x92000; 0x492000; 0x0; 0x2492480; 0x2400080;
   0x0; 0x12000000; 0x12000000; 0x20000; 0x905b0004; 0x804b0000; 0x120124; 0x824a0124;
   0x12480000; 0x904924; 0x12404924; 0x92400049; 0x2482db6d; 0xb64a4924; 0x92449249; 0x2496db6d;
   0xb6d24924; 0x92249249; 0x24b6db6d; 0xb6924924; 0x91249249; 0x25b6db6d; 0xb4924924; 0x80000000;
   0x201d03; 0x92000; 0x49000; 0x0; 0x92490; 0x240008; 0x0; 0x480002;
   0x240000; 0x200; 0x480d80; 0x2412c0; 0x1040; 0x24824b0; 0x9241250; 0x49240040;
   0xb6d824b0; 0x5b6c1240; 0x49241240; 0xb6db6d92; 0x49249249; 0x49249248; 0xb6db6db6; 0x49249249;
   0x49249248; 0xb6db6db6; 0x49249249; 0x49249248; 0xb6db6db6; 0x49249248; 0x1f1d03; 0x124800;
   0x124800; 0x0; 0x924920; 0x4800000; 0x0; 0x24800100; 0x24000000; 0x48001;
   0x2416c001; 0x20b6c000; 0x1078009; 0x4960249; 0x4960c82; 0x2c36db; 0x2490b6da; 0x24a1fff0;
   0x4901b6db; 0x6d949249; 0x24912492; 0x492db6db; 0x6da49249; 0x24892492; 0x496db6db; 0x6d249249;
   0x24492492; 0x4b6db6db; 0x61249249; 0x20000000; 0x1f1d03; 0x92000; 0x492000; 0x0;
   0x2492480; 0x2400080; 0x0; 0x12000000; 0x92000000; 0x20000; 0x905b0004; 0x804b0000;
   0x920124; 0x824a0124; 0x12480000; 0x904924; 0x16c04924; 0x92400049; 0x2482db6d; 0xb64a4924;
   0x92449249; 0x2496db6d; 0xb6d24924; 0x92249249; 0x24b6db6d; 0xb6924924; 0x91249249; 0x25b6db6d;
   0xb4924924; 0x80000000; 0x201d03; 0x92000; 0x49200; 0x0; 0x92490; 0x240008;
   0x0; 0x480002; 0x240000; 0x200; 0x480d80; 0x12412c0; 0x1040; 0x2482cb0;
   0x9241250; 0x49240240; 0xb6d824b0; 0x5b6c1240; 0x49241240; 0xb6db6d92; 0x49249249; 0x49249248;
   0xb6db6db6; 0x49249249; 0x49249248; 0xb6db6db6; 0x49249249; 0x49249248; 0xb6db6db6; 0x49249248;
   0x1f1e02; 0x10000; 0x2d9000; 0x249000; 0x492480; 0x36492c0; 0x9001200; 0x12000080;
   0x5b000200; 0x48000000; 0x90090002; 0xd82d8002; 0x416d8004; 0x824f0016; 0xb6c0492; 0x92c1924;
   0x12586db6; 0x5b616db4; 0x4963ffe4; 0x92036db6; 0xdb292492; 0x49224924; 0x925b6db6; 0xdb492492;
   0x49124924; 0x92db6db6; 0xda492492; 0x48924924; 0x96db6db6; 0xc2492492; 0x40000000; 0x1f1e02;
   0x40000; 0x364000; 0x924800; 0x1249200; 0x5965b00; 0x4804100; 0x9000200; 0x6c000001;
   0x24000002; 0x4804000b; 0x60b60009; 0x1b60012; 0x124025b; 0xdb40248; 0x24902490; 0x4920b6d9;
   0x6d809249; 0x24812492; 0x4905b6db; 0x6c949249; 0x24892492; 0x492db6db; 0x6da49249; 0x24492492;
   0x496db6db; 0x6d249249; 0x22492492; 0x4b6db6db; 0x69249249; 0x0; 0x201e02; 0x40000;
   0xb6000; 0x49200; 0x49248; 0x1b2590; 0x240008; 0x240000; 0x580002; 0x240000;
   0x240200; 0x580d80; 0x12416c0; 0x1241240; 0x2d82db0; 0x9241250; 0x49241240; 0xb6d82db0;
   0x5b6c9240; 0x49249240; 0xb6db6d92; 0x49249249; 0x49249248; 0xb6db6db6; 0x49249249; 0x49249248;
   0xb6db6db6; 0x49249249; 0x49249248; 0xb6db6db6; 0x49249248; 0x1f1e02; 0x90000; 0x2d9000;
   0x2db200; 0x492480; 0x36db6c0; 0xb4412c0; 0x12000080; 0x5b000200; 0x58000000; 0x90090002;
   0xd82d8006; 0xc16d8004; 0x824f0036; 0xb6c04b6; 0xb6c1924; 0x12d86db6; 0x5b616db4; 0xd943ffe4;
   0x92036db6; 0xdb292492; 0x49224924; 0x925b6db6; 0xdb492492; 0x49124924; 0x92db6db6; 0xda492492;
   0x48924924; 0x96db6db6; 0xc2492492; 0x40000000; 0x1f1e02; 0x40000; 0x36c000; 0xb6c900;
   0x1249200; 0x5b6db00; 0xd904300; 0x9000200; 0x6c000201; 0x6c000002; 0x4804000b; 0x60b6000b;
   0x61b60012; 0x12402db; 0xdb416d8; 0x2db02490; 0x4920b6d9; 0x6d81b6d9; 0x65812492; 0x4905b6db;
   0x6c949249; 0x24892492; 0x492db6db; 0x6da49249; 0x24492492; 0x496db6db; 0x6d249249; 0x22492492;
   0x4b6db6db; 0x69249249; 0x0; 0x201e02; 0x48000; 0xb6000; 0xdb240; 0x249248;
   0x5b6db4; 0x2c0008; 0x240000; 0x5a0002; 0x6c0000; 0x240200; 0xd80d80; 0x16c16c0;
   0x12412c0; 0x6d82db0; 0xb6c36d0; 0x49241240; 0xb6d86db0; 0x5b6cb6c0; 0x49249240; 0xb6db6d92].
Definition emoji_data_30 : list N :=
  [0x49249249; 0x49249248; 0xb6db6db6; 0x49249249; 0x49249248; 0xb6db6db6; 0x49249249; 0x49249248;
   0xb6db6db6; 0x49249248; 0x1f1e02; 0xb0000; 0x2db000; 0x6db240; 0xdb6d80; 0x36db6c0;
   0xb4412c0; 0x16800180; 0x5b000200; 0x5a000000; 0xb0090002; 0xd82d8006; 0xc16d800d; 0x83df00b6;
   0x8b6c05b6; 0x1b6c1f6e; 0x37f86db6; 0x5b616db6; 0xdb43ffe4; 0x92036db6; 0xdb292492; 0x49224924;
   0x925b6db6; 0xdb492492; 0x49124924; 0x92db6db6; 0xda492492; 0x48924924; 0x96db6db6; 0xc2492492;
   0x40000000; 0x1f1e02; 0xc8000; 0x36c000; 0xb6d900; 0x16db600; 0x5b6db00; 0xd904300;
   0x1b000200; 0x6c000301; 0x6c000002; 0xd804000b; 0x60b6000b; 0x61b60036; 0x83e402db; 0xdb416da;
   0x2db02db6; 0x5be0b6d9; 0x6d81b6d9; 0x65836d92; 0x4905b6db; 0x6c949249; 0x24892492; 0x492db6db;
   0x6da49249; 0x24492492; 0x496db6db; 0x6d249249; 0x22492492; 0x4b6db6db; 0x69249249; 0x0;
   0x201e02; 0x48000; 0x1b6400; 0xdb640; 0x2db6d8; 0x5b6db4; 0x2c0248; 0x2c0008;
   0x5a0006; 0x6c0000; 0x6c0200; 0xd80d80; 0x16c16c0; 0x16c3ec0; 0x6d86db0; 0xb6c36d0;
   0x492437c0; 0xb6d86db0; 0x5b6cb6c0; 0x49249240; 0xb6db6d92; 0x49249249; 0x49249248; 0xb6db6db6;
   0x49249249; 0x49249248; 0xb6db6db6; 0x49249249; 0x49249248; 0xb6db6db6; 0x49249248; 0x1f1d03;
   0x124800; 0x124800; 0x0; 0x924920; 0x4800000; 0x0; 0x24800100; 0x24000000;
   0x48001; 0x2416c001; 0x20b6c000; 0x1078009; 0x4960249; 0x4960c82; 0x2c36db; 0x2490b6da;
   0x24b1fff0; 0x4901b6db; 0x6d949249; 0x24912492; 0x492db6db; 0x6da49249; 0x24892492; 0x496db6db;
   0x6d249249; 0x24492492; 0x4b6db6db; 0x61249249; 0x20000000; 0x1f1e02; 0x10000; 0x0;
   0x492400; 0x492480; 0x0; 0x2402080; 0x12000080; 0x0; 0x92000000; 0x90090000;
   0x120004; 0x90db0004; 0x824b0000; 0x920924; 0x12480924; 0x12580000; 0x4904924; 0x96404924;
   0x92009249; 0x2496db6d; 0xb6d24924; 0x92449249; 0x24b6db6d; 0xb6924924; 0x92249249; 0x25b6db6d;
   0xb4924924; 0x91249249; 0x24924924; 0x80000000; 0x1f1e02; 0x40000; 0x0; 0x249200;
   0x1249200; 0x0; 0x9000200; 0x9000200; 0x0; 0x48000002; 0x40040000; 0x5b0012;
   0x416c0012; 0x12c0000; 0x2080496; 0x9282cb0; 0x49204920; 0x2416db2; 0x49036d92; 0x49024924;
   0x924b6db6; 0xdb692492; 0x49124924; 0x925b6db6; 0xdb492492; 0x48924924; 0x92db6db6; 0xda492492;
   0x44924924; 0x92492492; 0x40000000; 0x1e2000; 0x11; 0x800000bf; 0x3fc; 0x12c90f64;
   0x16c12fc8; 0x7f80f001; 0xf601002d; 0x90400019; 0x20000044; 0x80000924; 0x80001658; 0x7878;
   0xdb60; 0x1b600; 0x7f800; 0x16c000; 0x2d8000; 0xfe0000; 0x5b00000; 0xb600000;
   0x3d800001; 0x6c000006; 0x58000018; 0x60000051; 0x82; 0x0; 0x1040; 0x2080;
   0x8600; 0x41000; 0x1e2000; 0x20000003; 0x40000066; 0x3d8; 0x25920fd1; 0xd821980;
   0x7f04f201; 0xfe000043; 0x28800092; 0x40000008; 0x249; 0x492; 0x1048; 0xb2c0;
   0x36d00; 0x49000; 0x2db000; 0x5b0000; 0x1240000; 0x3600000; 0x16c00000; 0x5b000000;
   0xda000005; 0xb0000014; 0xc00000b2; 0xc0000104; 0x0; 0x480; 0x4100; 0x10400;
   0x12000; 0x1e2000; 0x4000000a; 0xc00000df; 0x1be; 0x92416b2; 0xb60b7c0; 0x3f806401;
   0xee008086; 0x49000104; 0x82000000; 0x492; 0x40000924; 0x2010; 0x16580; 0x2cb00;
   0x12000; 0x1b6000; 0x360000; 0x480000; 0x2d80000; 0xd800000; 0x36000001; 0xb6000003;
   0x2800000c; 0x80000061; 0x80000048; 0x0; 0x820; 0x1200; 0x4800; 0x20800;
   0x1e2000; 0x11; 0x800000bf; 0x3fc; 0x12090f64; 0x2412fc8; 0x2480f000; 0x10024;
   0x90400009; 0x24000024; 0x924; 0x80001649; 0x7938; 0xdb60; 0x1b600; 0x7f800;
   0x16c000; 0x2d8000; 0xfe0000; 0x5b00000; 0xb600000; 0x3d800001; 0x6c000006; 0x58000018;
   0x60000051; 0x82; 0x0; 0x1040; 0x2080; 0x8600; 0x41000; 0x1e2000;
   0x20000003; 0x40000066; 0x3d8; 0x24120fd1; 0x4821980; 0x904f200; 0x41; 0x20800082;
   0x40000008; 0x259; 0x492; 0x1048; 0xb2c0; 0x36d00; 0x49000; 0x2db000;
   0x5b0000; 0x1240000; 0x3600000; 0x16c00000; 0x5b000000; 0xda000005; 0xb0000014; 0xc00000b2;
   0xc0000104; 0x0; 0x480; 0x4100; 0x10400; 0x12000; 0x1e2000; 0x4000000a;
   0xc00000df; 0x1be; 0x92416b2; 0x900b7c0; 0x12006400; 0x8082; 0x49000104; 0x82000012;
   0x492; 0x40000924; 0x2010; 0x16580; 0x2cb00; 0x12000; 0x1b6000; 0x360000;
   0x480000; 0x2d80000; 0xd800000; 0x36000001; 0xb6000003; 0x2800000c; 0x80000061; 0x80000048;
   0x0; 0x820; 0x1000; 0x4800; 0x20800; 0x1e2000; 0x11; 0x800000bf;
   0x3fc; 0x92492f64; 0x16c12fc8; 0x6d82f021; 0xf6010065; 0xb0400019; 0x24000164; 0x90000b6d;
   0x800016d9; 0x7978; 0xdb60; 0x1b600; 0x7f800; 0x16c000; 0x2d8000; 0xfe0000;
   0x5b00000; 0xb600000; 0x3d800001; 0x6c000006; 0x58000018; 0x60000051; 0x82; 0x208;
   0x1040; 0x2180; 0x8600; 0x41000; 0x1e2000; 0x20000003; 0x40000066; 0x3d9;
   0x24924fd3; 0xd821990; 0x5b04f201; 0xfc100043; 0x68800096; 0xc0000209; 0x20001659; 0x20002c96;
   0x1248; 0xb6c0; 0x36d00; 0x49000; 0x2db000; 0x5b0000; 0x1240000; 0x3600000;
   0x16c00000; 0x5b000000; 0xda000005; 0xb0000014; 0xc00000b2; 0xc0000104; 0x410; 0xc80;
   0x4100; 0x10400; 0x12000; 0x1e2000; 0x4000000a; 0xc00000df; 0x1be; 0x492496b2;
   0xb61b7c4; 0x36086410; 0xca208086; 0xd9000104; 0x82000012; 0x4b2; 0xc0000964; 0x2490;
   0x16d80; 0x2db00; 0x12000; 0x1b6000; 0x360000; 0x480000; 0x2d80000; 0xd800000;
   0x36000001; 0xb6000003; 0x2800000c; 0x80000061; 0x80000048; 0x0; 0x860; 0x1200;
   0x4800; 0x20800; 0x1e2000; 0x11; 0x800000bf; 0x20000bfc; 0x92c92f64; 0x16c12fc8;
   0x6d86f021; 0xfe01006d; 0xb0c0001b; 0x64000164; 0x90000b6d; 0x800016db; 0x7978; 0xdb60;
   0x1b600; 0x7f800; 0x16c000; 0x2d8000; 0xfe0000; 0x5b00000; 0xb600000; 0x3d800001;
   0x6c000006; 0x58000018; 0x60000051; 0x186; 0x208; 0x1040; 0x2180; 0x8600;
   0x41000; 0x1e2000; 0x20000003; 0x40000066; 0x13d9; 0x24924fdb; 0xd82d990; 0x5b04f201].
Definition emoji_data_31 : list N :=
  [0xfc1000c3; 0x68800196; 0xc3000209; 0x200016d9; 0x60002db6; 0x1248; 0xb6c0; 0x36d00;
   0x49000; 0x2db000; 0x5b0000; 0x1240000; 0x3600000; 0x16c00000; 0x5b000000; 0xda000005;
   0xb0000014; 0xc00000b2; 0xc0000104; 0x410; 0xca0; 0x4100; 0x10400; 0x12000;
   0x1e2000; 0x4000000a; 0xc00000df; 0x1be; 0x492496b6; 0xb61b7cc; 0x36886411; 0xfe208086;
   0xd900010d; 0xa2000412; 0x8000cb6; 0xc0001964; 0x2490; 0x16d80; 0x2db00; 0x12000;
   0x1b6000; 0x360000; 0x480000; 0x2d80000; 0xd800000; 0x36000001; 0xb6000003; 0x2800000c;
   0x80000061; 0x800000ca; 0x120; 0x860; 0x3200; 0x4800; 0x20800; 0x1e2000;
   0x11; 0x800000bf; 0x20000bfd; 0x92c96f64; 0x17c12fc8; 0x7f86f021; 0xfe11006f; 0xb8c0029b;
   0x6400037f; 0x90000b6f; 0x800016db; 0x7ff8; 0xdb60; 0x1b600; 0x7f800; 0x16c000;
   0x2d8000; 0xfe0000; 0x5b00000; 0xb600000; 0x3d800001; 0x6c000006; 0x58000018; 0x60000051;
   0x186; 0x218; 0x1040; 0x2180; 0x8600; 0x41000; 0x1e2000; 0x20000003;
   0x40000066; 0x400013d9; 0x25d24fdb; 0xf82d990; 0x7f04f211; 0xfe3000c3; 0x68800196; 0xc300021f;
   0x200016d9; 0x60002db6; 0x1348; 0xb6c0; 0x36d00; 0x49000; 0x2db000; 0x5b0000;
   0x1240000; 0x3600000; 0x16c00000; 0x5b000000; 0xda000005; 0xb0000014; 0xc00000b2; 0xc0000104;
   0x410; 0xca0; 0x4100; 0x10400; 0x12000; 0x1e2000; 0x20000025; 0x800000fd;
   0x10002199; 0x25924f64; 0xfc13f4c; 0x3f886211; 0xfe324067; 0xf8c0012d; 0xa600025b; 0x20000d7c;
   0x8000196c; 0x3258; 0x4900; 0x2db00; 0x5b000; 0x124000; 0x360000; 0x16c0000;
   0x900000; 0xd800000; 0x5b000001; 0x6c000003; 0x28000016; 0xc0000041; 0xcb; 0x410;
   0x1840; 0x3200; 0x10400; 0x1000; 0x1e1f00; 0x40000009; 0xc000006b; 0x2000037e;
   0x49249670; 0x4801ac8; 0x2482d410; 0x48208001; 0x9; 0x24000092; 0x8000201; 0x16c9;
   0x6cb0; 0xf3c0; 0x1b600; 0x36c00; 0xfc000; 0x2d8000; 0xd80000; 0x3e00000;
   0xb600000; 0x36000000; 0xdc000006; 0x5800000c; 0xb0000032; 0x80000082; 0x0; 0x0;
   0x2180; 0xca00; 0x0; 0x1e2000; 0x90000013; 0xc00000e6; 0x12fc; 0x92492ff0;
   0x9003990; 0x4904b920; 0x92010002; 0x40000096; 0xc1000124; 0x10000010; 0x2c96; 0x5960;
   0x12080; 0x36d80; 0x6d800; 0x92000; 0x5b0000; 0xb60000; 0x2c80000; 0x16c00000;
   0x2d800000; 0xb6000005; 0xb0000018; 0x60000061; 0x80000104; 0x208; 0x0; 0x4100;
   0x8600; 0x20000; 0x1e2000; 0x20000025; 0x800000fd; 0x199; 0x24924f60; 0x2003f44;
   0x12086201; 0x24124004; 0x10000104; 0x82000249; 0x20000020; 0x96c; 0x3258; 0x4900;
   0x2db00; 0x5b000; 0x124000; 0x360000; 0x16c0000; 0x900000; 0xd800000; 0x5b000001;
   0x6c000003; 0x28000016; 0xc0000041; 0x48; 0x410; 0x0; 0x1200; 0x10400;
   0x1000; 0x121f00; 0x400090; 0x5b041b; 0x4024803; 0x6c906c90; 0x79202cb6; 0x4b6c12d;
   0x8186d880; 0xd8201602; 0xb600160; 0x58002d; 0x800da003; 0xfc00b600; 0x36c00480; 0x2080040;
   0x100008; 0x20000000; 0x12080; 0x20900000; 0x101e01; 0x10016c1; 0x9040904; 0x16590924;
   0x1201659; 0x9244124; 0x82d8c124; 0xc12482d8; 0x1240124; 0xd8016c; 0x2400da; 0x16c0124;
   0xcb0164; 0x10402cb; 0x3040104; 0x2080104; 0x131e01; 0x12000d8; 0x24249204; 0x92006d90;
   0x6c900c9; 0x32c809; 0x6c082482; 0xb6020b6; 0x4024101; 0xb0001b00; 0x1200058; 0x48000;
   0x90002c80; 0x2400048; 0x124001; 0x20000000; 0x9000410; 0x20; 0x90020900; 0x121f00;
   0x400090; 0x5b241b; 0x4024903; 0x6c902c90; 0x92025b6; 0x4b6c12d; 0x8186d880; 0xd8201602;
   0xb600160; 0x58002d; 0x800da003; 0xfc00b600; 0x36c00480; 0x2080040; 0x100008; 0x20000000;
   0x12080; 0x20900000; 0x101e01; 0x10016c1; 0x9040904; 0x16d90924; 0x1201659; 0x9244124;
   0x82d8c124; 0xc12482d8; 0x1240124; 0xd8016c; 0x2400da; 0x16c0124; 0xcb0164; 0x10402cb;
   0x3040104; 0x2080104; 0x131e01; 0x12000d8; 0x24249204; 0x82006d90; 0x2c90049; 0x32d809;
   0x6c082482; 0xb6020b6; 0x4024101; 0xb0001b00; 0x1200058; 0x48000; 0x90002c80; 0x2400048;
   0x124001; 0x20000000; 0x9000410; 0x20; 0x90020900; 0x121f00; 0x400090; 0x5b2c1b;
   0x4024903; 0x6db06c90; 0x79242db6; 0x4b6c12d; 0x8186d880; 0xd8201602; 0xb600160; 0x58002d;
   0x800da003; 0xfc00b600; 0x36c00480; 0x2980041; 0x100008; 0x60082000; 0x12080; 0x20900000;
   0x111e01; 0x1000b60; 0x82412120; 0x816db049; 0x2404902d; 0xb6092420; 0x9220b618; 0x248c1244;
   0x6c00490; 0x24800d8; 0xb60009; 0x1b4016; 0xc0092003; 0x2c028801; 0x4016580; 0xc1002080;
   0x20800820; 0x131e01; 0x12000d8; 0x2c249204; 0x92406db0; 0x2c900c9; 0x2036d809; 0x6c082482;
   0xb6020b6; 0x4024101; 0xb0001b00; 0x1200058; 0x48000; 0x90002c80; 0x2400048; 0x124001;
   0x20000400; 0x19600410; 0x820020; 0x90020900; 0x121f00; 0x400090; 0x5b2c1b; 0x4024b03;
   0x6db06cb0; 0x79242db6; 0x4b6c12d; 0x8186d880; 0xd8201602; 0xb600160; 0x58002d; 0x800da003;
   0xfc00b600; 0x36c00480; 0x2d800cb; 0x300018; 0x600a2800; 0x8012080; 0x20900000; 0x111e01;
   0x1008b61; 0x82416120; 0x916db059; 0x6c0c902d; 0xb6092420; 0x9220b618; 0x248c1244; 0x16c00490;
   0x24800d8; 0xb60009; 0x1b4016; 0xc0092003; 0x2c028801; 0x4016580; 0xc1002080; 0x20800820;
   0x131e01; 0x12000d8; 0x2c249604; 0x92406db0; 0x6db00cb; 0x2036d809; 0x6c082482; 0xb6020b6;
   0x4024101; 0xb0001b00; 0x1200058; 0x48000; 0x90002c80; 0x2400048; 0x12c003; 0x20002400;
   0x19600410; 0x820020; 0x90020900; 0x111f00; 0x4000b0; 0x5860d8; 0x60b6584b; 0x3c5b6c3e;
   0xdb196d89; 0x6d905b08; 0x2d882d82; 0xb6101b0; 0xb0006c; 0x360036; 0xc00d801f; 0xe006d801;
   0xb000c800; 0xcb00b200; 0x61005960; 0x10400020; 0x9240000; 0x131f00; 0x800048; 0x4090402;
   0xc16024b0; 0x496016d; 0xb016c802; 0xc905b6c0; 0xc9204124; 0x61b6100; 0x90001200; 0x5b00049;
   0x90002; 0xd8002480; 0x490016c; 0x124002; 0x4800b600; 0x18200104; 0xc30020; 0x90001200;
   0x20900000; 0x121f00; 0x200020; 0x10480c2d; 0x9604b6c1; 0x3df0b6d8; 0x16db0492; 0x65b621b;
   0x610240c1; 0x6c182d80; 0x92001b0; 0xb60004; 0x8002c002; 0x48001200; 0x19000920; 0x2080064].
Definition emoji_data_32 : list N :=
  [0x218008; 0x60041000; 0x86000080; 0x10480000; 0x111f00; 0x4000b0; 0x5800d8; 0x60b64849;
   0x201b2412; 0x49092409; 0x6d905b08; 0x2d882d82; 0xb6101b0; 0xb0006c; 0x360036; 0xc00d801f;
   0xe006d800; 0x90000000; 0x49000200; 0x4100; 0x10400000; 0x9240000; 0x131f00; 0x800048;
   0x4090002; 0xc1202490; 0x490016c; 0x90164802; 0x4805b6c0; 0xc9204124; 0x61b6100; 0x90001200;
   0x5b00049; 0x90002; 0xd8002480; 0x490016c; 0x124002; 0x4800b600; 0x18200104; 0xc30020;
   0x90001200; 0x20900000; 0x121f00; 0x200020; 0x1048042d; 0x92048601; 0x2480b648; 0x16480492;
   0x65b021b; 0x610240c1; 0x6c182d80; 0x92001b0; 0xb60004; 0x8002c002; 0x48001200; 0x19000920;
   0x80024; 0x208000; 0x41000; 0x2000000; 0x10480000; 0x1f160a; 0x80; 0x0;
   0x2080; 0x2000; 0x2090d; 0x800b6c05; 0xb6d92009; 0x3ff24005; 0xb6db0000; 0x97c80019;
   0x2492416c; 0xb6cb6124; 0x9249600d; 0x2480d92d; 0xb2c17b25; 0x9603c243; 0x2402c164; 0x9608c300;
   0x1e599600; 0x3cf2d800; 0x16c04000; 0x12000000; 0x1f120d; 0x248000; 0x490002; 0xcb258002;
   0x9248004; 0x92490016; 0xdb6d9032; 0xdb649064; 0x924920b6; 0xcb6d9192; 0xd9649124; 0xb04925b6;
   0x5b6d85b6; 0x4b6c8ff4; 0x93fd2db6; 0xdb6dadb6; 0xdb6c5f24; 0x97c82c00; 0xb000000; 0x1f1f01;
   0x8; 0x30; 0xd8; 0x7e0; 0xf80; 0x3600; 0x4bc00; 0x496000;
   0x16d8000; 0x12c0000; 0x12480000; 0x5b6c0000; 0x4b200004; 0x92400016; 0xdb200012; 0x49000124;
   0x900005b6; 0xc8000492; 0x40004924; 0x16db2; 0x124b0; 0x1249e0; 0x5b6db0; 0x492fa0;
   0x927fe0; 0x5b6d80; 0x497d80; 0x90fe00; 0x496c00; 0x12000; 0x0; 0x1d2000;
   0x90000; 0x1240000; 0x40240005; 0x92480092; 0x49200002; 0x100492c; 0x92092492; 0x48490082;
   0x5964b24; 0x92492490; 0x82402089; 0x25924924; 0x92492400; 0x24812c9; 0x6c924924; 0x92484100;
   0x659649; 0x2c924924; 0x94820024; 0x4b2c9649; 0x24924909; 0x4900096; 0x59249049; 0x24920008;
   0x8024b2; 0x59001249; 0x20008240; 0x12480; 0x8000; 0x1d1d03; 0x80000002; 0x10;
   0x120; 0x480; 0x400; 0x4800; 0x12000; 0x92000; 0x160000; 0x580000;
   0x2480000; 0x5800000; 0x36000000; 0x92000003; 0x6002000d; 0x80580824; 0x8245b0d8; 0xc36c360;
   0xb1ff0924; 0x9b6c36d8; 0x6db0db63; 0xff024936; 0xd80db0db; 0x1603f8; 0xd80; 0x1000;
   0x0; 0x1f1b03; 0x80000000; 0x80000001; 0x5; 0x80000004; 0x9; 0xc;
   0x4; 0x8; 0xc; 0x80000004; 0x80000009; 0x2000002d; 0xb6d96025; 0xfff9000b;
   0xfff2002d; 0xb6db002f; 0xffc8000b; 0xff900000; 0x96400000; 0x1240; 0xdb60; 0x2db60;
   0x3ffc0; 0x6db00; 0x7ff00; 0x5b000; 0x0; 0x1e1e01; 0x9000; 0x7f809;
   0xb6d812; 0xb6db000; 0x3fffe241; 0x6db6c486; 0xdb6d807f; 0xfffe02db; 0x6db005b6; 0xdb601fff;
   0xff80b6db; 0x6d016db6; 0xd807ffff; 0xe02db6db; 0x5b6db6; 0x3ffff0; 0x36db6c0; 0x2db6c00;
   0x9fff000; 0x5b6d8004; 0x96d80010; 0xfe00490; 0x59000900; 0x12000; 0x96000; 0x120000;
   0x480000; 0xc00000; 0x0; 0x1f1d03; 0x10000; 0x80000; 0x100000; 0x480000;
   0x400000; 0x7860000; 0x16da0000; 0x3ed80001; 0xe7f80005; 0x96d8000f; 0x96d8001f; 0x2dd0006d;
   0xb6d801fd; 0xbe7803cf; 0xfe780b2d; 0xb6d80f2d; 0xf6f03e4f; 0xfce0db6d; 0xb6c2fbed; 0xb7c7ffff;
   0x7d96db6d; 0xb63fdb6d; 0xb67fffff; 0xfcb6db6d; 0xb5b6db6d; 0xb3249249; 0x35b6db6d; 0xb4924924;
   0x80000000; 0x201e02; 0x1200000; 0x2c00480; 0x3600240; 0x3600000; 0x2d82490; 0x36c1248;
   0x3680000; 0x6d80490; 0xb6c0000; 0xb6c0000; 0x16d80000; 0x1b6c0000; 0x9640000; 0x16db2400;
   0x1b649200; 0x5b249200; 0xb6db6c80; 0x49649200; 0x1e49200; 0x2db6580; 0x1649240; 0x1249200;
   0x16db6590; 0xb249248; 0x49248308; 0xb6db2596; 0x49249649; 0x49249248; 0x36db6db6; 0x9249248;
   0x1f1f01; 0x410000; 0xb24000; 0x12d96000; 0x16c96001; 0xfe0c005; 0x96c9600c; 0xb6c94018;
   0x7f83c064; 0xb6cb0165; 0xb64003c1; 0xfc000325; 0xb0000b00; 0x80000001; 0x5; 0x80000004;
   0x8; 0xc; 0x8; 0x18; 0xb6d; 0x80004964; 0x80009249; 0x2016db6d;
   0xb6124924; 0x97249249; 0x25b6db6d; 0xb1b6db6d; 0xb1249249; 0xb6db64; 0x24800; 0x0;
   0x1d1f01; 0x2c00; 0x5b000; 0x208000; 0x100b0002; 0x80080; 0xf625b24; 0xb61b24b2;
   0xd800249f; 0xc5b6db6d; 0xca0; 0x7f00; 0x6d800; 0x196000; 0x18300c0; 0xcb00800;
   0x96c00006; 0xf6018019; 0x60924141; 0x85b60e0c; 0x5b60b6d3; 0x6d825900; 0x164800; 0x160b000;
   0xc020000; 0x60180002; 0x600018; 0x50003ff; 0xfc000db6; 0xc0000000; 0x1f1b04; 0x16000400;
   0x36003c00; 0xe6007c05; 0x96c16c0c; 0x964f2c09; 0x2c9a4c2d; 0xb2d92c25; 0x92492c4b; 0x924d6d;
   0x92d92d65; 0x925b26c1; 0xb20b25; 0x92db0124; 0x92c90040; 0x21900964; 0xb2d80924; 0x96480000;
   0xc804924; 0x96d04924; 0x92401008; 0x2592c; 0x24964; 0x40; 0x124964; 0xb6db6c;
   0x1249240; 0x0; 0x201f01; 0x12492492; 0x49249248; 0x49249248; 0x92496c92; 0x4925b649;
   0x4925b648; 0x924b6c92; 0x4925b648; 0x4924b648; 0x96cb6c92; 0x5965b65b; 0x4964b65f; 0x96cb6cb6;
   0x5b6db65f; 0x49ff965f; 0x96db6db6; 0x5bffb7ff; 0x4bffb6ff; 0x96db6cb6; 0x5befb6ff; 0x5bffb7ff;
   0xb6db6db6; 0x7bffb7df; 0x7bffb7ff; 0xb6db6db6; 0x7bfdb6ff; 0x7bffb7ff; 0xb6db6db6; 0x7bffb7ff;
   0x7bffb7fc; 0x12db25b0; 0x191c02; 0x80000; 0x600000d; 0x80000f60; 0x69840; 0x5b65009;
   0xe5b004d2; 0x780db6da; 0xffc9607; 0xfe498db6; 0xdb637c92; 0x58be4b20; 0xb6db6c25; 0x92d812c9;
   0x2416db6d; 0x84924902; 0x492482db; 0x6db0964b; 0x605f27f0; 0x5b6db612; 0x49ec0924; 0x92092496;
   0x52492490; 0x1d1d01; 0x90000; 0x240000; 0x1200004; 0xb6c80012; 0x49240092; 0x49004924;
   0x92492492; 0x49092492; 0x40b6db6d; 0x82f9e590; 0x7cf3c01; 0x2cb2d805; 0xf3cb200f; 0x9e780259;
   0x65b00be7; 0x96401f3c; 0xf004b2cb; 0x6017cf2c; 0x803e79e0; 0x96596c0; 0x2f9e5901; 0x3cf2c816;
   0xdb6db049; 0x24920000; 0x12492; 0x49249249; 0x24800000; 0x1f1e02; 0x40; 0x480;
   0x1240; 0x1240; 0x2400; 0x9009200; 0xb009000; 0x12012000; 0xd8008002; 0x49000004;
   0x92400006; 0xcb000012; 0xc9000124; 0x900005b6; 0x59000492; 0x59004924; 0x92006db6; 0xdb002492;
   0x49004924; 0x92016db6; 0xcb032492; 0x49024904; 0x92096c92; 0x48092c92; 0x48024800; 0x2496492].
Definition emoji_data_33 : list N :=
  [0x4a492492; 0x40000000; 0x2492492; 0x0; 0x1f2000; 0x2000000; 0x5b000040; 0x5b040240;
   0x16580480; 0x5b6c1240; 0xdb649204; 0x92402416; 0x5b609230; 0x4b409020; 0x82410082; 0xcb000002;
   0xb000004; 0x2000016; 0x8000010; 0x18000020; 0x100000b0; 0x40000080; 0x100; 0x580;
   0x592; 0x924; 0x80016db6; 0xc0012492; 0x48124924; 0x90db6db6; 0xdac92492; 0xd8924924;
   0x92db6db6; 0xc2db6db6; 0x924920; 0x92400; 0x201f01; 0x49249248; 0x24924924; 0x24924804;
   0x59249249; 0x6c924004; 0x7c924000; 0xdb6c9249; 0x7fb64924; 0x7ff64924; 0xdb6d9249; 0x7df6cb24;
   0x7ffecb24; 0xdb6db6c9; 0x7dfecb64; 0x7dfecb64; 0xdb6db6c9; 0x7dfedb64; 0x7dfedb64; 0xdb6db6d9;
   0x6db6db6c; 0x24925b6c; 0x5b6db6db; 0x6db2db6c; 0x24924bec; 0x5b6db6db; 0x6c92db6c; 0x24924924;
   0x5b6db6db; 0x6d92496c; 0x24924924; 0x9249248; 0x1f1c03; 0x40000; 0xb05800; 0x20b0c020;
   0xc02002c3; 0x40804301; 0x800100; 0x1000002; 0x4920000; 0x25920802; 0xcb4c804b; 0x2db6484b;
   0x2cb64196; 0x496592c9; 0x6c9656cb; 0x6db60592; 0x492092db; 0x6d929249; 0x24902000; 0x25925b;
   0x24b5925b; 0x258320b6; 0x592cb2d9; 0x65acb6d9; 0x6c192db2; 0xc82596cb; 0x2005b6c9; 0x2480;
   0x0; 0x1c1d02; 0x40000; 0x400000; 0x1b000002; 0xd8000020; 0x82000c96; 0x500164b6;
   0x160160; 0x6592d00; 0xb2496008; 0x2c020324; 0xb2581924; 0x92c01041; 0x12c92c; 0x80924920;
   0x1001001; 0x24924809; 0x24920000; 0x1249; 0x2480924b; 0x20010030; 0x12c96c8; 0x924b200;
   0x4100b6; 0xdb6db5b6; 0xdb6c4924; 0x92400000; 0x1f1c03; 0xc0000; 0xb60000; 0x1960100;
   0x10c8200; 0x2c96cb00; 0x64978900; 0xc00f120b; 0x64965819; 0x64964810; 0x400c92c9; 0x6496da49;
   0x64964010; 0x80482c9; 0x2c96c249; 0x24920080; 0x40241249; 0x24b61249; 0x24900000; 0x1209249;
   0x2584924b; 0x20082012; 0x402d9259; 0x60249259; 0x400092; 0x16db6db; 0x6f6db6db; 0x62492492;
   0x40000000; 0x1f1c04; 0x12000; 0x90000; 0x120000; 0x490000; 0x90492481; 0x20924904;
   0x924924a4; 0x92492400; 0x4900124; 0x96c92524; 0x92492009; 0x24924b24; 0xb6496924; 0x92490049;
   0x24925925; 0xb24b4924; 0x92480249; 0x2492c92d; 0x925a4924; 0x92401249; 0x2492496c; 0x92524924;
   0x92009249; 0x24924b64; 0x92b6c92c; 0x900c9249; 0x20924924; 0x90000000; 0x1f1f01; 0x2c000;
   0x16c000; 0x6db000; 0x5b6d800; 0x4924000; 0x1240000; 0x25b64000; 0x24920000; 0x9200001;
   0x2db20001; 0x2d900000; 0x8000009; 0x2c900049; 0x24920480; 0x40243649; 0x24b69249; 0x24922492;
   0x924b2cb; 0x2cb49249; 0x24912490; 0x49259249; 0x25a49249; 0x24892482; 0x492cb2cb; 0x2d249249;
   0x24480402; 0x49249649; 0x2924b649; 0x22402012; 0x49249249; 0x0; 0x1e1f01; 0xb0000;
   0x120000; 0x480000; 0x2480000; 0x4800000; 0x12000004; 0xb6000009; 0x24000024; 0x90004924;
   0x92449249; 0x24924924; 0x92924924; 0x91249249; 0x25b6db6d; 0xadb6db6d; 0xdb6db6d9; 0xfff6dfeb;
   0x6db6db76; 0xd96db67f; 0xfdbffadb; 0x6db6ddb6; 0xdb6d9e5f; 0x3f9eb2d9; 0x6cb7e592; 0xc9679703;
   0xa5acb65b; 0x2dd964b6; 0x59ffc0ff; 0xe36d92db; 0x0; 0x1f1f01; 0x92000; 0xb2000;
   0x164000; 0x5b0000; 0x5b0000; 0x300000; 0x2480000; 0x2480000; 0x24920024; 0x92492124;
   0x92492241; 0x24924925; 0xb6c92924; 0x92490249; 0x24925b24; 0x925b4924; 0x92480049; 0x2402496d;
   0xb24a4924; 0x92409000; 0x496c924; 0x96d24924; 0x92041249; 0x24b65b6c; 0xb6924924; 0x90240001;
   0x24925b24; 0x9492db24; 0x80009200; 0x4924924; 0x80000000; 0x1d1f01; 0xb0000; 0x16c0000;
   0x9200005; 0x92c80032; 0x49600480; 0x9005924; 0x960b2492; 0x58492492; 0x4c924924; 0x92492492;
   0x9; 0x24924924; 0x92492524; 0x924936db; 0x6db64b6d; 0xb642496c; 0x920596d9; 0x60925b24;
   0x8082f820; 0xb2db2c1; 0x24be4901; 0x7f04016; 0x5b658249; 0x7c92020f; 0xe0812c92; 0x4b249249;
   0x24000000; 0x2480012; 0x40000000; 0x1f2000; 0x12492490; 0x24924925; 0xb6db6db5; 0xb6db6db9;
   0x2492492d; 0xb6db6dad; 0xb6db6dc9; 0x2492496d; 0xb6db6c24; 0x92492400; 0x165; 0x96cb2165;
   0x96cb23cf; 0x2c960b2c; 0x92590b2c; 0xb2d91258; 0x61905b2c; 0x96d84b65; 0x96c89643; 0x34c2d964;
   0xb2c24924; 0x92400000; 0x124924; 0x92b6db6d; 0xb7249249; 0x25b6db6d; 0xb5b6db6d; 0xb9249249;
   0x2db6db6d; 0x8db6db6d; 0x89249248; 0x1f1f01; 0x9240001; 0x6db60003; 0x6db60002; 0x49240009;
   0x24900009; 0x24800012; 0x41049059; 0x65b6d849; 0x24b6d892; 0x9249249; 0x24924a49; 0x24924490;
   0x41249659; 0x65965249; 0x25920000; 0x9249249; 0x2db29249; 0x2c912410; 0x49259659; 0x65949249;
   0x24800002; 0x492cb2cb; 0x2ca49249; 0x24490412; 0x49249249; 0x25249249; 0x20490092; 0x496d92db;
   0x296c9249; 0x480000; 0x0; 0x201f01; 0x9240240; 0x36db05b0; 0x7fff86d8; 0x5b6d8248;
   0x924905b0; 0x492482c0; 0x92412c8; 0xb2cb6db6; 0x4924bfff; 0x92436db; 0x92492492; 0x49249259;
   0x9241658; 0xb2cb24b2; 0x49249659; 0x16f8; 0x924925b2; 0x49249659; 0x9241658; 0xb2cb24b2;
   0x49249249; 0x1248; 0xb2cb2db6; 0x49249659; 0x9241248; 0x92492db6; 0x49249249; 0x1201248;
   0x92d92db6; 0x4b6496d8; 0x1200248; 0x1e2000; 0x24920; 0x1bfd80; 0xcb6500; 0x1964800;
   0x6192000; 0x324b4000; 0x64960001; 0x218000c; 0x96500019; 0x64800067; 0x8200016d; 0xb4000249;
   0x60000801; 0x5b6db6d; 0x9b7db6db; 0x24924921; 0x65924922; 0xd9249209; 0x20820859; 0x65965892;
   0x49248249; 0x249236db; 0x6db67ff6; 0x416dfff9; 0x25f5b6db; 0x6d8b64b6; 0xc8248249; 0x216d96db;
   0x62492db2; 0x1240; 0x1f2000; 0x49240; 0x492480; 0x249200; 0x1259200; 0xb0000;
   0x16c9000; 0x92c9000; 0x2790000; 0xb648000; 0x49248000; 0x80492; 0x49248db6; 0x49258920;
   0x2012492; 0x4924a492; 0x49244904; 0x12496596; 0xcb256592; 0x49624820; 0x90492492; 0x492b2492;
   0x49124104; 0x925965b2; 0xc9492492; 0x48920000; 0x12cb2592; 0x4acb2592; 0xc4904b24; 0x96592cb2;
   0x52492c92; 0x800; 0x1f2000; 0x9248; 0x12490; 0x4924a; 0xdb049245; 0xb7092496;
   0x4b2db6d6; 0xd824923f; 0xf0492416; 0xc1249212; 0x1249024; 0x2492492; 0x4b6db492; 0x49248924;
   0x80002db6; 0x4924a492; 0x49244924; 0x92496db2; 0x49252492; 0x49224924; 0x924b6d96; 0xdb692492;
   0x49124924; 0x92492492; 0x49492492; 0x48924924; 0x92db65b6; 0xda492492; 0x44924924; 0x96db2db6;
   0xd2d925b2; 0x900120; 0x1e1e02; 0x8040200; 0x10080400; 0x40201002; 0xc160b004; 0x2010000;
   0xb0; 0x582c0361; 0xa0d00000; 0x2c16; 0xb00f87c; 0x3c012080; 0x40090482; 0x40361b0d].
Definition emoji_data_34 : list N :=
  [0x87ffffff; 0xb6db6db6; 0x6db6db6d; 0xfffffffd; 0xb6db6d9f; 0x7fbfdf7c; 0xfa7d7f65; 0xb2d967df;
   0xeff7dfff; 0xffffdb6d; 0xb6d9f3fb; 0xe5f7cfa7; 0xd7f6db6d; 0xb67fffff; 0xfc924924; 0x80000000;
   0x1e2000; 0x1249200; 0xffffc00; 0x6db6d800; 0xffffc00f; 0xffffc05b; 0x6db601b6; 0xdb6c07ff;
   0xfff836db; 0x6db16db6; 0xdb67ffff; 0xffadb6db; 0x6c5b6db6; 0xd9ffffff; 0xeb6db6db; 0x76db6db6;
   0x7ffffffa; 0xdb6db6d5; 0xb6db6d9f; 0xfffffeb6; 0xdb6db16d; 0xb6db67ff; 0xffff8db6; 0xdb6c1b6d;
   0xb6d07fff; 0xff816db6; 0xd802db6d; 0xb003ffff; 0x1b6db6; 0x3ffff0; 0x492480; 0x1e1e01;
   0x92000; 0xdb6000; 0x1b60000; 0x16d80000; 0xb6d80000; 0x24800000; 0x10000165; 0xb2c0024b;
   0x65800965; 0x96005b25; 0xb001b24b; 0x6016db6d; 0x80b6db6d; 0x80249248; 0x0; 0x4924900;
   0x5b6db601; 0x6db6db1b; 0x6db6db12; 0x49248000; 0x49; 0x249201b6; 0xdb601249; 0x2480b6db;
   0x6d812492; 0x49049249; 0x246db6db; 0x6e492492; 0x40000000; 0x1d1b04; 0x40000045; 0x190;
   0x1080; 0x8b00; 0xb6800; 0x6f4000; 0x3724924; 0x924b6db6; 0x4a5b6db2; 0x2db6db6c;
   0x96db6c94; 0x92492449; 0x2db2492c; 0xb6592924; 0x9208b249; 0x24b24800; 0x92524004; 0x11249649;
   0x24924124; 0xa4020022; 0x492c9249; 0x24824948; 0x4004492; 0xdb249249; 0x24920000; 0x201705;
   0x5b6db6d8; 0x7ffffffc; 0x7ffffffe; 0xdb6db6db; 0x6db6db6c; 0x6db6db6c; 0x5b6db6db; 0x24924924;
   0x24924924; 0x49249249; 0x24924924; 0x24924924; 0x5b6db6db; 0x6db6db6c; 0x6db6db6c; 0x5b6db6db;
   0x6db6db6c; 0x7ffffffe; 0xdb6db6db; 0x7ffffffe; 0x7ffffffe; 0x5b6db6d8; 0x4924920; 0x201605;
   0x12492492; 0x49249248; 0x49249248; 0x92492492; 0x49249249; 0x49249248; 0x92492492; 0x49249249;
   0x49249248; 0x92492492; 0x49249248; 0x0; 0x92492492; 0x49249248; 0x49249248; 0x92492492;
   0x49249249; 0x49249248; 0x92492492; 0x49249248; 0x49249248; 0x12492492; 0x191d02; 0x24800109;
   0x20004000; 0x249249; 0x29249248; 0x492; 0x49252492; 0x49000000; 0x924924a4; 0x92492000;
   0x124924; 0x94924924; 0x249; 0x24929249; 0x24800000; 0x48249240; 0x241000; 0x80000;
   0x8000002; 0x100; 0x10000; 0x400000; 0x20000020; 0x800; 0x201705; 0x5b6db6d8;
   0x7ffedffc; 0x7ff01ffe; 0xdb6496db; 0x7ff24bfe; 0x7fe647fe; 0xdb6cb6db; 0x7ff24bfe; 0x7ff00ffe;
   0xdb6c96db; 0x7cf25f7e; 0x7cf25f3e; 0xd92db65b; 0x7d92c93e; 0x7ff00bfe; 0xdb6c96db; 0x7d92cb7e;
   0x7c97c93e; 0xd96db65b; 0x7cffff7e; 0x7fffff7e; 0x5b6db6d8; 0x4924920; 0x201705; 0x124b6490;
   0x927f248; 0x7c000; 0x924b6492; 0x4927f248; 0x7c000; 0x924b6492; 0x4927e248; 0x4927f249;
   0xb6db6db6; 0x7fffffff; 0x7fffffff; 0xb6db6db6; 0x5b6ff6db; 0x7c000; 0x924b6492; 0x4927f248;
   0x7c000; 0x924b6492; 0x4927f248; 0x7c000; 0x124b6490; 0x8000; 0x1f1605; 0x25b6db64;
   0x25b6db20; 0x3fffe01; 0x25b6d92b; 0x25b6c97e; 0x1fc02db; 0x25b24b5b; 0x24925bfe; 0x100fedb;
   0x2496dadb; 0x2496dffe; 0x3ff6d9; 0x24b6d6c9; 0x2496ff80; 0x402fb64b; 0x6496b24b; 0x6497003f;
   0xf80492db; 0x6c9096db; 0x6c903fff; 0xf804b6db; 0x6c800000; 0x1f1606; 0x24924924; 0x24924924;
   0x200001; 0x24b2d921; 0xdb2d920; 0xfe5b60b; 0x2db6c90b; 0x2d965907; 0x5fac304b; 0x6db64adb;
   0x6db6dc97; 0xffff96db; 0x6db6d6db; 0x6db6e4f7; 0xdb64b6db; 0x6db6b6db; 0x6db725b6; 0xcb65b6db;
   0x6db1b6db; 0x6db12492; 0x49009249; 0x24000000; 0x1a1f01; 0x10b; 0x60004db6; 0xc96dfffb;
   0x7cffffff; 0x36db6db7; 0xfffff3ff; 0xfffcdb6d; 0xb6dfffff; 0xcffffff3; 0x6db6db7f; 0xffff3fff;
   0xffcdb6db; 0x6dfffffc; 0xffffff36; 0xdb6db7ff; 0xfff182ff; 0xfc4025b6; 0xc0000040; 0x1000;
   0xb0000; 0x1000000; 0x4000002c; 0x400; 0x10000; 0xb00000; 0x10000000; 0x1e2000;
   0x24000; 0x248000; 0x24924001; 0x6492c006; 0xc9258009; 0x2496005b; 0x6db20492; 0x49201249;
   0x249096c9; 0x6c812492; 0x49049249; 0x2425924b; 0x26492492; 0x41240249; 0xb6492d9; 0x12492490;
   0x49209246; 0xd924b6ec; 0x92492c12; 0x492491b6; 0xc96da124; 0x92490492; 0x492004b6; 0xd9200924;
   0x92002492; 0x480125b2; 0x40004b24; 0x2480; 0x6c00; 0x4000; 0x1b1f00; 0x20000;
   0x600000; 0x4000001; 0x60000006; 0x40; 0x9648; 0x496400; 0x48002; 0x4b240124;
   0x92000002; 0x40092492; 0x4924900; 0x24; 0x92491249; 0x24800000; 0x924924; 0x49249200;
   0x49; 0x24900492; 0x49000000; 0x49240; 0x492400; 0x0; 0x49000004; 0x90000000;
   0x400; 0x0; 0x202000; 0x240; 0x920; 0x920; 0x2c3248; 0x304024;
   0x104904; 0x120925b; 0x4804024; 0x4024; 0x900921b; 0x4804924; 0x4024; 0x1009248;
   0xc924; 0x4920; 0x1b6c0; 0x20900; 0x20000; 0x40000; 0x100000; 0x100000;
   0x200000; 0x800000; 0x800000; 0x3000000; 0x5000000; 0xe000000; 0x18000000; 0x3c000000;
   0x70000000; 0xc0000000; 0x20000000; 0x1e1f00; 0x4; 0x40; 0x119; 0x1bb6;
   0xc9201049; 0x24804040; 0x2d900000; 0xb200000; 0x4001000; 0x24000000; 0x58000000; 0x20040041;
   0x60000082; 0x8; 0x1008018; 0x10080; 0x0; 0x41000600; 0x2000002; 0x36;
   0x181e4; 0x20f90; 0x6d80; 0x62cb00; 0xc03c00; 0x16000; 0x18060000; 0x30180000;
   0x40400002; 0x0; 0x162000; 0x49000f; 0xfe001ff0; 0x4b6c819; 0x6cb02492; 0x432db2d0;
   0x5b440124; 0x90db6d81; 0xb6db0fff; 0xfc36db6d; 0x6db6f5be; 0xfbedb6db; 0x5f7dfdff; 0xfff36db6;
   0xd6db6c09; 0x24905b6d; 0x80b6da02; 0x492006db; 0xdb600; 0x12400036; 0xc0017c00; 0x7fe002d;
   0xb0004900; 0x191a03; 0x92492424; 0x92490000; 0x124924; 0x94924920; 0x249; 0x24929249;
   0x24000000; 0x49249252; 0x49248000; 0x92492; 0x4a492490; 0x124; 0x92494924; 0x92000000;
   0x24924929; 0x24924000; 0x49249; 0x25249248; 0x92; 0x4924a492; 0x49000000; 0x1a1a03;
   0x12492492; 0x49248000; 0x24924; 0x92492492; 0x40000009; 0x24924924; 0x92490000; 0x249249;
   0x24924924; 0x92; 0x49249249; 0x24900000; 0x2492492; 0x49249240; 0x924; 0x92492492;
   0x49000000; 0x24924924; 0x92492400; 0x9249; 0x24924924; 0x80000000; 0x191a03; 0x24924949;
   0x24926492; 0x492db6db; 0x6924924c; 0x924925b6; 0xdb6d2492; 0x49924924; 0xb6db6da4; 0x92493249;
   0x2496db6d; 0xb4924926; 0x492492db; 0x6db69249; 0x24c92492; 0x5b6db6d2; 0x49249924; 0x924b6db6;
   0xda492493; 0x2492496d; 0xb6db0924; 0x92400000; 0x1a1a03; 0x5b6db65b; 0x6db6c249; 0x24936db6].
Definition emoji_data_35 : list N :=
  [0xdb6db6db; 0x924924d; 0xb6db6db6; 0xdb6c2492; 0x4936db6d; 0xb6db6db0; 0x924924db; 0x6db6db6d;
   0xb6c24924; 0x936db6db; 0x6db6db09; 0x24924db6; 0xdb6db6db; 0x6c249249; 0x36db6db6; 0xdb6db092;
   0x49245b6d; 0xb6c92492; 0x40000000; 0x1a1a03; 0xb6db6d96; 0xdb6dbdb6; 0xdb6edb6d; 0xb6db6db6;
   0xf6db6dbb; 0x6db6db6d; 0xb6dbdb6d; 0xb6edb6db; 0x6db6db6f; 0x6db6dbb6; 0xdb6db6db; 0x6dbdb6db;
   0x6edb6db6; 0xdb6db6f6; 0xdb6dbb6d; 0xb6db6db6; 0xdbdb6db6; 0xedb6db6d; 0xb6db6f6d; 0xb6dbb6db;
   0x6d96db6d; 0x80000000; 0x1f1709; 0x360000; 0xb60000; 0xb6c1000; 0x2db6d800; 0x6db65000;
   0xdb6c8003; 0x6db6d80b; 0x6db2c016; 0xdb6d801b; 0x6db6c05b; 0x6db6c0b6; 0xdb6f80db; 0x6db6c2db;
   0x6db6c5b6; 0xdb6db2db; 0x6db682db; 0x6c9100b6; 0x40018048; 0x40000; 0x10000; 0x5b6db;
   0x6c009249; 0x20000000; 0x1c140c; 0x2400; 0x92000; 0x120024; 0x92400924; 0x92000001;
   0x124924; 0x924920; 0x201; 0x24925809; 0x24924400; 0x209249; 0x249c1249; 0x24000000;
   0x8000000; 0xc0000004; 0xb6; 0xdb000092; 0x40000000; 0x1f1709; 0x92; 0x16db6c80;
   0x24924921; 0xb6db6d85; 0xb6db6d89; 0x24924f2d; 0xb6db6dad; 0xb6db6c49; 0x2492496d; 0xb6db6d6d;
   0xb6db6a49; 0x2492496d; 0xb6d90b6d; 0xb6c01249; 0x24804b6d; 0xb6000b6d; 0xb6001200; 0x24001800;
   0xb0005800; 0x80001001; 0x4004; 0x4; 0x0; 0x1f1b05; 0x400; 0xb200;
   0x8000; 0x10000; 0x49258002; 0xdb6c9607; 0xfff93c16; 0xdb6db63f; 0xfffd9dff; 0xffff3db6;
   0xdb6db7ff; 0xffffffff; 0xffffedb6; 0xdb6dafff; 0xffec6fff; 0xffc06db6; 0xdb013fff; 0xf8037fff;
   0xf0036db6; 0xc009fc97; 0x8019e00e; 0x36036; 0x30030; 0x60060; 0x80080; 0x80080;
   0x0; 0x201707; 0x120; 0x480; 0xfe0; 0xd925b60; 0x1ff92fb0; 0x1ff83ff0;
   0x6db65b60; 0xfffd2ff4; 0xfffc0ffe; 0x6db64b6d; 0xfff925fe; 0xfff921fe; 0x6db6cb6c; 0x97fbe400;
   0x7c3e000; 0x496d800; 0x164be000; 0xe012000; 0xd924800; 0x2492000; 0x0; 0x4004000;
   0x2002000; 0x1f150b; 0x1000; 0x16000; 0x82d9240; 0x5b6d9200; 0x96db2692; 0xdb6c9612;
   0x5b6c9224; 0x96c92496; 0x4b249612; 0x4b201024; 0x92400492; 0x49200092; 0x49000120; 0x2002480;
   0x9002480; 0x8004800; 0x10002400; 0x48002400; 0x40004800; 0x90002002; 0x40000000; 0x20150b;
   0x40; 0x1040; 0x16590; 0x9249258; 0x9249258; 0x16592492; 0x4924924b; 0x4924900b;
   0x92496c12; 0x49249200; 0x49249000; 0x92492400; 0x49009000; 0x49001000; 0x12000400; 0x8001000;
   0x8000000; 0x12000400; 0x8001200; 0x9000200; 0x2000480; 0x1d1f01; 0x400; 0x1040;
   0x40000; 0x496000; 0x1040000; 0x8200000; 0x96000002; 0x48000012; 0x40000124; 0x480;
   0x2400; 0x5b6d800; 0x92492024; 0x924b02db; 0x6db60924; 0x92484924; 0x924db6db; 0x6c924924;
   0x94924924; 0x5b6db649; 0x24924009; 0x249200b6; 0xdb6c0249; 0x24800249; 0x24002db6; 0x50009241;
   0x49208; 0x92400; 0x0; 0x1e1f01; 0xb000000; 0x3e000003; 0xc0000016; 0x8060;
   0x32180; 0xd8c00; 0x2c1800; 0xf86000; 0xff90000; 0x1b660b20; 0xffcc7ff7; 0xff1b6db6;
   0xd83fffff; 0xb0fffffa; 0x2db6da0; 0xfffff00; 0x3ffff801; 0xb6db6003; 0xffbf000f; 0xf6fc002d;
   0xb6d800fc; 0x27c003e0; 0x1f000b40; 0x36003e01; 0xf800f803; 0xe002d00d; 0x800c801b; 0x1b806c;
   0xa00100; 0x0; 0x1d1f01; 0x2000000; 0x48000000; 0x20; 0x400; 0x202000;
   0x1020000; 0x12c80000; 0x48400002; 0x40000025; 0x90090092; 0x490401; 0x24964904; 0x92492404;
   0x92480249; 0x24900924; 0x92004924; 0x80049249; 0x124920; 0x920100; 0x1249200; 0x24804800;
   0x20020002; 0xc0240048; 0x900040; 0x4800580; 0x48008201; 0x20001009; 0x80010; 0x0;
   0x1d1f01; 0x92000; 0x2d8000; 0x1240160; 0x36d80482; 0x5b200402; 0x7900586d; 0xb6414092;
   0x4b082490; 0x48b0db6d; 0x828125b0; 0x10092483; 0x60b60824; 0x6400120; 0x12001601; 0x6c104804;
   0x92c24004; 0x922c00db; 0x6090012c; 0x84800960; 0x5b01b6c1; 0x28125809; 0x219240b6; 0xdb6c0249;
   0x24800249; 0x24002db6; 0xc0009248; 0x9240; 0x12000; 0x0; 0x1f140c; 0x8000000;
   0x20000000; 0x60004002; 0x4000b00b; 0x6db6b; 0x16db12; 0x24925b; 0x2db6c9db; 0x6db6d892;
   0x492402db; 0x6db006db; 0x6d800492; 0x490016db; 0x6c0016db; 0x6c002492; 0x400036db; 0x6000361b;
   0x2412; 0x8040; 0x0; 0x201907; 0xb2000000; 0x5b000000; 0x49000000; 0x36000000;
   0x1b000000; 0x8001000; 0x30016d80; 0x1801b6c0; 0x8049248; 0x300b6db0; 0x182db6d8; 0x92492f8;
   0x36db6db6; 0x1b6db6d9; 0x9249248; 0x16db6db6; 0xb6db6c8; 0x9249248; 0x16db6db0; 0xb6db640;
   0x1249240; 0x2db6d80; 0x1249200; 0x249000; 0x92000; 0x1d1b05; 0x240; 0x1200;
   0x12000; 0xc8000; 0x40024; 0x2d80490; 0x9212480; 0x49124925; 0xb0492412; 0x52492091;
   0x24924b04; 0x92492424; 0x92492249; 0x24960924; 0x92484924; 0x92449249; 0x6d124924; 0x90924924;
   0x892496db; 0x24924920; 0x24924902; 0x496db049; 0x24924249; 0x24902492; 0x49000000; 0x1f1f01;
   0x2db0000; 0x12490000; 0x249a0001; 0xb6db2004; 0x924b6009; 0x92802c; 0x80410024; 0x10048;
   0x160; 0x120; 0x240; 0x800b00; 0x2c80900; 0x481200; 0x105800; 0x584804;
   0x80489009; 0x92c16d; 0x82c24124; 0x82448249; 0x4960b6d; 0x96d20924; 0x12241008; 0x24b2d86c;
   0xb6924024; 0x91248049; 0x25b6c16d; 0x84920124; 0x81200048; 0x800120; 0x0; 0x201c04;
   0x10000190; 0x100003c0; 0x300007d8; 0xb0000db0; 0x40001ed8; 0x40001e48; 0xb6d92d96; 0x7b6db6c3;
   0x19249200; 0x16db6d80; 0x1b6db600; 0x9249200; 0x16db6c00; 0xb6db600; 0x1249200; 0x2c96d80;
   0x36016c0; 0x1600240; 0x25801a0; 0x32c0240; 0x1000200; 0x2c16c20; 0x161b040; 0x210040;
   0x100000; 0x200000; 0x300000; 0x180000; 0x1d160a; 0x12492490; 0x49249240; 0x200124;
   0x92492492; 0x49248002; 0x49024924; 0x96c92492; 0x59000492; 0xe4924b2d; 0x92492490; 0x92489;
   0x24925824; 0x92492000; 0x480249; 0x24804924; 0x90000000; 0x800db258; 0x370b60; 0x905800;
   0x1008000; 0x1f1d01; 0x400; 0x2400; 0x4800; 0x2400; 0x2400; 0x4;
   0x92420; 0x96400; 0x4104; 0x80492524; 0x92492000; 0x924; 0x92490924; 0x92400000;
   0x924; 0x92080924; 0x90000000; 0x4924; 0x90004924; 0x80000000; 0x24924; 0x20024;
   0x0; 0x120020; 0x100100; 0x0; 0x100; 0x800000; 0x0; 0x1e1c04].
Definition emoji_data_36 : list N :=
  [0x24900; 0x49200; 0x124800; 0x4924000; 0x9248000; 0x20000049; 0x24920492; 0x49240009;
   0x109249; 0x25912492; 0x4b000000; 0x4249249; 0x26492492; 0x40000000; 0x9249248; 0x92492400;
   0x2; 0x49249004; 0x92490000; 0x92; 0x49200124; 0x92000000; 0x492; 0x48000800;
   0x80000000; 0x10; 0x0; 0x1f1f01; 0x4800900; 0x2d801b00; 0x41009243; 0x186db00;
   0x2412c910; 0x4024961b; 0xc36db43; 0x20165882; 0x412490cb; 0x2db6da01; 0x6db65c02; 0x4924960b;
   0x6db6d01b; 0x6db22012; 0x492430db; 0x25b082db; 0x10492; 0x196db; 0x416db; 0x82492;
   0xcb6ca; 0x20b6c8; 0x12490; 0x25b618; 0x25b658; 0x492090; 0x2db2c0; 0x2d86c0;
   0x92400; 0x249000; 0x0; 0x1c1f00; 0x200; 0x7800; 0x6d8000; 0x36d0000;
   0x30700006; 0x4b000012; 0x40000034; 0x100024b4; 0x92400; 0x4920; 0x12484904; 0x92400000;
   0x4924924; 0xb4924924; 0x69; 0x24924b49; 0x24920000; 0x1249; 0x24009249; 0x20000000;
   0x1249240; 0x1249000; 0x0; 0x49000002; 0x8000020; 0x80000492; 0x2080; 0x0;
   0x111e01; 0x1e00060; 0x58003c; 0xc000b; 0x24; 0x90092400; 0x49249; 0x24900004;
   0x92496496; 0x724eb24b; 0x24924249; 0x12db2492; 0x4809024b; 0x2492c901; 0xe0496492; 0x59203c09;
   0x2c900b00; 0x201e01; 0x8000000; 0x10000000; 0x8000200; 0x8000e40; 0x4000d80; 0x1ecb;
   0x3001e4e; 0x2c02db6; 0x603e48; 0x241e48; 0xb6d90; 0xb600; 0x19700; 0x36c00;
   0x4b600; 0xcfe00; 0x1b6d00; 0x259200; 0x279200; 0x4b6c00; 0x2f9200; 0x279200;
   0x10db6c00; 0x41259200; 0x41249200; 0x82db6c00; 0x41249200; 0x41248200; 0x12db4d80; 0x9248200;
   0x1f1c03; 0x480; 0x1900; 0x90006d80; 0x9001ec91; 0x2003e96c; 0x364a0; 0xf2400;
   0x164860; 0xb65b2424; 0xb6480049; 0x2490006d; 0xb6c80124; 0x92400249; 0x2480036d; 0xb6400924;
   0x92000249; 0x24001b2d; 0xb0000924; 0x90001201; 0x2000d805; 0x80025805; 0x80048009; 0x12c02c;
   0x12002c; 0x240048; 0x86012c; 0x960120; 0x0; 0x1f150a; 0x249000; 0x4924800;
   0x24924800; 0x49249001; 0x24925801; 0x2492c902; 0x49249209; 0x24924949; 0x24924892; 0x49249249;
   0x24924a49; 0x24924092; 0x49240249; 0x24900249; 0x24800492; 0x49001249; 0x24001249; 0x20000400;
   0x40001201; 0x20001001; 0x0; 0x1e1e02; 0x6416c02e; 0xd96d82cf; 0x64924b9b; 0x6db6dbbe;
   0xdb6df1e9; 0x2493e6db; 0x6db6cdb6; 0xdb6c3249; 0x2490b6db; 0x6d836db6; 0xdb04fa4f; 0xa46db6db;
   0x6e5b6db6; 0x482fffc8; 0x1b6db6db; 0x97ffff92; 0xffffe46; 0x5b6db2ec; 0xf7fbe493; 0xcfee1196;
   0xdb6cbb2f; 0xffcb05ff; 0xffe46db6; 0xdf68dbff; 0xf6c125fe; 0x49036db6; 0xd802db6c; 0x80002480;
   0x0; 0x1f1c03; 0x2480; 0x4920; 0x25b6db0; 0x12492490; 0x24924921; 0xb6db6d84;
   0x92492489; 0x2492492d; 0xb6db6c24; 0x9249e449; 0x2493c96d; 0xb6db6124; 0xb2492249; 0x24925b6d;
   0xb6db0924; 0xb6c91249; 0x2d92db6d; 0xb65a4924; 0x92489249; 0x2496db6d; 0xb2d04924; 0x92409249;
   0x402db6d; 0x96024924; 0x10048048; 0x2016c16c; 0x80120120; 0x0; 0x1f1f00; 0x48000;
   0x5b2000; 0x36db000; 0xb6db000; 0x36db6000; 0xdb6db002; 0xdb6db005; 0xb6db6016; 0xdb6d8016;
   0xdb6d802d; 0xb6db00b6; 0xdb6c00b6; 0xdb6c016d; 0xb6d801b6; 0xdb6001b6; 0xdb40036d; 0xb60005b6;
   0xdb000df7; 0xd8005bef; 0xb6016db6; 0xda016db6; 0xd812db6d; 0xb25b6db6; 0xdbdb6db6; 0xd896d96c;
   0x901b61b6; 0x25b00b6; 0x4db0006d; 0x96c800b6; 0xd6000016; 0x0; 0x1a1d02; 0x92480;
   0x1249000; 0x8000925; 0x92092492; 0x40080401; 0x24924824; 0x92480020; 0x12049649; 0x4924921;
   0x201008b2; 0x49241649; 0x24858048; 0x2d92c90; 0x5b249016; 0xc0200b64; 0x96016c92; 0x5b0000;
   0x2db24805; 0xb248002c; 0x1649; 0x24920; 0x0; 0x49240001; 0x20000000; 0x1e1e02;
   0x2c8; 0x2db0; 0x1b200; 0x2d9600; 0xdb6c00; 0x36da000; 0x1b6d8000; 0xb6d80002;
   0xd8000016; 0xd000006d; 0x800001b6; 0x5b6; 0x1b60; 0x6c00; 0x36c00; 0x16d000;
   0x5b4000; 0x2db0000; 0x2db0002c; 0xb6c0016d; 0xb60006db; 0x60001b6d; 0x8000db6c; 0x1b6d8;
   0x2db60; 0x6d900; 0x8000; 0x20000; 0x0; 0x1f1e00; 0x40; 0x180;
   0x40600; 0xcb800; 0x19f000; 0x25b0c0; 0x86ff200; 0x18dffc00; 0x192db000; 0x1b7fe000;
   0x1fffc016; 0xdb6d8037; 0xffec0001; 0xff000012; 0xdb6c00f7; 0xfbfc03ff; 0xf8400db6; 0xd8003ffe;
   0x9800fff9; 0x98036db2; 0x1803fff6; 0x1fffe4; 0x1b6d90; 0x7ffe30; 0xfff820; 0x2db6000;
   0x3ff0000; 0x7fe0000; 0x6c80000; 0x0; 0x1f1e01; 0x200200; 0xb01800; 0xe07800;
   0x1e0c000; 0xb60000; 0x1fe0000; 0x3fc0000; 0xdb40000; 0xff00000; 0x1fe00049; 0x24924049;
   0x24924012; 0x49201259; 0x6cb25249; 0x24922482; 0x4824125b; 0x6c9212ff; 0xfc9007ff; 0xfc0006db;
   0x6c000249; 0x20000492; 0x400016db; 0x3fff; 0x3ffc; 0x36d8; 0x1240; 0x400;
   0x1000; 0x3000; 0x0; 0x1f1f00; 0x2000; 0x1cc000; 0x1b4000; 0x7f0000;
   0x1ffc000; 0x6db0000; 0x7ff0000; 0x3ffe0020; 0xb6db0461; 0xb7db084f; 0xfffe216d; 0xb6db61ef;
   0xbfdb00ff; 0xfffe016d; 0xb6d8036d; 0xf6d807ff; 0xfff0db6d; 0xb6da5b6f; 0xbec83fff; 0xff805b6d;
   0xb600fb7d; 0xf601ffff; 0xf806db6d; 0xb016fbfd; 0xb027ffff; 0x3086db6c; 0x3007df68; 0x7ffc0;
   0x2db00; 0x20800; 0x0; 0x1f1708; 0x16c00; 0x36800; 0x124004; 0x5b600c;
   0x2c92009; 0x492482d; 0x96db6c2c; 0x12496449; 0x2493c86d; 0xb6dbe064; 0x964b2049; 0x2c92416d;
   0xb6db6324; 0xb2490249; 0x24961b6d; 0xb6d81b25; 0xb2f89249; 0x2592d96d; 0xb6c2c124; 0x92048049;
   0x2416016c; 0x80000300; 0x0; 0x1e1f00; 0x400000; 0x1200000; 0x1200000; 0x2400000;
   0x9000000; 0x49200000; 0x92400012; 0x490000b2; 0x49020124; 0x90002492; 0x400965b2; 0x40124924;
   0x8049249e; 0x24b64b2; 0x4924924; 0x12492490; 0x92492491; 0x24924904; 0x92492424; 0x92492449;
   0x24924004; 0x92480824; 0x92488049; 0x24800024; 0x90000124; 0x80000048; 0x100; 0x4800;
   0x48000; 0x0; 0x1d1605; 0x2000; 0x80d9000; 0x41248005; 0xb6db0016; 0xdb6c0016;
   0x49600b6d; 0xb6c86db6; 0xda49e792; 0x4db6db6d; 0x92db6db6; 0x92492499; 0x6db6db24; 0xb6492004;
   0x9249001b; 0x6db60025; 0x92400124; 0x920016db; 0x60004924; 0x920; 0xb600; 0x1e130d;
   0x120020; 0x2d90480; 0x16db2d81; 0x6db45904; 0xb259242d; 0xb6cb60db; 0x6d920324; 0xb2401b6d].
Definition emoji_data_37 : list N :=
  [0xb600b6db; 0x6c02c92c; 0xb036db6d; 0x800db6d8; 0x16db60; 0xb24b00; 0x1201200; 0x4804800;
   0x2c02c000; 0x40040000; 0x191e01; 0x240000; 0x12000092; 0x40002490; 0x124800; 0x92490024;
   0x92401249; 0x20164964; 0x5927802; 0xc924024b; 0x64809249; 0x492482; 0x49249292; 0x49244924;
   0x92492492; 0x52492489; 0x24904924; 0x924a4924; 0x90040201; 0x24924949; 0x24920000; 0x49249;
   0x1249200; 0x12; 0x48000000; 0x1c1c03; 0x24800; 0x20000; 0x200000; 0x24900009;
   0x24000092; 0x40001249; 0x9248; 0x93c80; 0x1259200; 0x49249004; 0x92490092; 0x49292492;
   0x48924924; 0x2492490; 0x92492401; 0x24920024; 0x92400124; 0x92001249; 0x4924; 0x24900;
   0x8000; 0x820000; 0x4100000; 0x41000008; 0x20000000; 0x1c1e02; 0x40000; 0x4920001;
   0x24900012; 0x49000249; 0x24001249; 0x20012492; 0x2c92c0; 0x9e4b200; 0x92492012; 0x5b248092;
   0x49200924; 0x92012492; 0x48092492; 0x924920; 0x12492484; 0x92492441; 0x24904924; 0x92494124;
   0x90001249; 0x4920; 0x24800; 0x48000; 0x900000; 0x20800002; 0x8000049; 0x20000200;
   0x0; 0x1d1a03; 0x1b6c00; 0x16db000; 0xbff8100; 0x36db0c00; 0xdbec6007; 0xffe2c06d;
   0xb6db65b6; 0xd97fffff; 0xcdb6db6d; 0x97db6db0; 0x3fffff03; 0x6db6d80d; 0xfedb003f; 0xfff816db;
   0x6d805b6d; 0xb003ffff; 0x800db6d8; 0x16db40; 0x3ff800; 0x16d8000; 0x4100000; 0x20800002;
   0x8000008; 0x20000000; 0x1d2000; 0x40000; 0xfc0000; 0x5900002; 0x49400049; 0x2e00004b;
   0xf80005b6; 0xc0003243; 0x18008; 0x1924b0; 0x18003c0; 0x1c000e01; 0xb2496c1e; 0x1c0f0;
   0xf0b24; 0x92587c00; 0x3e3e000; 0x1f364924; 0xb4f80007; 0xcfc0003f; 0x65924b2d; 0xb0000d98;
   0xc000e64b; 0x2496003c; 0x7001e0; 0x30016c9; 0x6c005b05; 0x90024824; 0x249248; 0x800000;
   0x1f1606; 0x492c920; 0x24924920; 0x49249243; 0x6db6db69; 0x64924b22; 0xc924965b; 0x6db6db4b;
   0x24925912; 0x4924925b; 0x6db6d849; 0x64b24093; 0xdf64805b; 0x6db60049; 0x7c900093; 0xf92002db;
   0x6db0024f; 0xe480049f; 0xc90006db; 0x6c00025b; 0x20000092; 0x58; 0x0; 0x1c2000;
   0x1000; 0x58000; 0x590000; 0xb680002; 0xdb00002d; 0x900005b6; 0x42002d92; 0x2002d83d;
   0x805b6420; 0x6d90200; 0x6d80412d; 0xb602096c; 0x800092c8; 0x96db60; 0x4924900; 0x9249009;
   0x2db60049; 0x24800092; 0x480090db; 0x58258; 0x100000; 0xb009002; 0x40058025; 0x5805b0;
   0x1b602582; 0x58024004; 0x80430090; 0x2000000; 0x1f1c03; 0x190; 0x5b0; 0xb20;
   0x2d80db0; 0x6d82d80; 0x4904800; 0xb6d86001; 0xb6c16001; 0x2480400d; 0xb6c3002d; 0xb6c30049;
   0x2482036d; 0xb6db0b6d; 0xb6d81249; 0x24904b6d; 0xb6d84b6d; 0xb6c09249; 0x24005b6d; 0xb0005805;
   0x80009009; 0x2c00d; 0x8002c024; 0x48048; 0x160068; 0x120120; 0x40200; 0x100200;
   0x0; 0x1e1c03; 0x80c000; 0xb058000; 0x24120001; 0x6cb45802; 0xdb61b009; 0x2483c05b;
   0x6db6c1b6; 0xdb640249; 0x248036db; 0x6c016db6; 0xd8049249; 0x202db6db; 0x40db6db6; 0x1249248;
   0x1b6db6c0; 0x86db6c00; 0x9249000; 0xd96d8001; 0xb01b0002; 0x240036; 0x1600160; 0x6c00480;
   0x8000d80; 0x58004001; 0x80000000; 0x12010; 0x0; 0x1d1f00; 0x10000002; 0xc8000002;
   0x4000002d; 0xb64000b6; 0xdb000492; 0x48005b6d; 0xb0016db6; 0xc0092492; 0xb6db6c; 0x6db6d80;
   0x92497403; 0x6db6d82d; 0xb6db6124; 0x92c916db; 0x6db65b25; 0xb6da4924; 0x926db2db; 0x64b61b20;
   0x904000; 0x1b040000; 0x6c000001; 0x20000006; 0xc160001b; 0x2c000049; 0x200000b6; 0x58;
   0x40; 0x400; 0x0; 0x201e01; 0x1000240; 0x9200240; 0x16d82db0; 0x9241248;
   0x49241248; 0xb2482496; 0x49241249; 0x49249248; 0x925b6c92; 0x49249248; 0x49249248; 0x32db6d96;
   0x9249248; 0x9249240; 0x2db6d90; 0x12c9240; 0x13cba40; 0x2db6d80; 0x13cbe40; 0x13cba00;
   0xdb6d80; 0x2c9200; 0x249200; 0x25b6c80; 0xb6c96c8; 0x5b2492c8; 0xb64920b6; 0x8008050;
   0x8000018; 0x10000010; 0x1f1d03; 0x20924924; 0x20924920; 0x1; 0x24924921; 0x24924902;
   0x1008209; 0x2c964b09; 0x3c9e4910; 0x783c12c9; 0x6cb25849; 0x64b24880; 0x40209649; 0x24925049;
   0x24924092; 0x49200249; 0x24901249; 0x24902492; 0x49209649; 0x2c909649; 0x2c812492; 0x4904b249;
   0x64849249; 0x24892492; 0x48249249; 0x24249249; 0x20092492; 0x40249249; 0x49240; 0x0;
   0x1d1f00; 0x20b0080; 0x492c9202; 0x49249125; 0xb6d92493; 0xff24a493; 0xc926492c; 0x92492492;
   0x49092492; 0x4092db24; 0x864be490; 0x324924c3; 0x64925b0d; 0x92596825; 0xd2e9024b; 0x2d92497c;
   0xba4a4ba5; 0xd2cc964b; 0x2cf24924; 0xf780000f; 0x89259249; 0x3e002c; 0xf00332; 0x4b24b3c0;
   0x3c700; 0x382496; 0x49000058; 0x2c0; 0x2480; 0x0; 0x1a2000; 0x80000010;
   0x1400; 0x6c000; 0x16480002; 0x52000089; 0x6000c924; 0x480900; 0x120c8009; 0x60900120;
   0x24004812; 0xc0640240; 0x4809041; 0xb6d90; 0x9249000; 0x4924002d; 0xb6002492; 0x4009a4f0;
   0x5b6db00; 0x924b2024; 0x92483649; 0x2d024924; 0x80900120; 0xd924b609; 0x20920240; 0x24816c96;
   0xc0040040; 0x1c1c03; 0x900000b4; 0x80002448; 0x24b24; 0x925b4924; 0x92449249; 0x24b24964;
   0xb4924924; 0x9249241; 0x25924849; 0x24924092; 0x49249249; 0x2494964b; 0x2449e4ba; 0x492c96c9;
   0x4964b244; 0x92492492; 0x49249492; 0xd9244824; 0x804124b2; 0x48092492; 0x40924920; 0x2d96400;
   0x12490000; 0x24800000; 0x90000000; 0x1e1f01; 0x1040000; 0x6180000; 0x5b600006; 0xdb60002c;
   0x96800192; 0x480005b6; 0xd800196d; 0x900024b6; 0x40036db6; 0xc8024be4; 0x90092492; 0x40db6cb6;
   0xd8924924; 0xb2492492; 0xf6db25b6; 0x6492c920; 0x924b6c05; 0xb6db6c19; 0x24824064; 0x9009016d;
   0xb0480249; 0x924; 0x1b60; 0xb240; 0x4900; 0x2db00; 0x49200; 0x124800;
   0x124800; 0x0; 0x1f1d03; 0x240; 0x5b60; 0x4920; 0x1208; 0x5819;
   0x20004012; 0x4000805b; 0xc058; 0x80; 0xc0; 0xb6c200; 0x5b6c400; 0x49249601;
   0x6db6960b; 0x6db62412; 0x492436db; 0x6db6b6db; 0x6db12492; 0x4b21b6db; 0x6db1b6db; 0x6d812492;
   0x4905b6db; 0x6d85b6db; 0x6c092492; 0x480db6db; 0x60049249; 0x20012492; 0x49248; 0x0;
   0x1f1f01; 0x6400; 0x2d90800; 0x2ffe4001; 0xb6db6007; 0xfedbc00f; 0xecb7802d; 0xb6db003d;
   0xb6db0079; 0x2492016d; 0xb6d8016d; 0xb6d80249; 0x25900b6d; 0xb6d80b6d; 0xb6c81249; 0x2c905b6d;
   0xb6c05b6d; 0xb6c09249; 0x2482db6d; 0xb6c2db6d; 0xb6449249; 0x2496d96d; 0xb616d96d; 0xb6248049].
Definition emoji_data_38 : list N :=
  [0x24b6c02d; 0xb6b6002d; 0xbd240009; 0x75b6002d; 0xb5b0002d; 0x89200009; 0x24800024; 0x0;
   0x1d1f01; 0xb0000; 0x6c0000; 0x9240005; 0xb6d80036; 0xdb600092; 0x49001b6d; 0xb60165b2;
   0xc0092492; 0xb6db6c; 0x164924b0; 0x92c9648b; 0x6db6db2c; 0xf2796527; 0x93c916db; 0x6db65964;
   0xb2c24924; 0x920db6db; 0x60b25b25; 0x80924924; 0x1b6db6c0; 0x64924b01; 0x2ffe4816; 0xdb6d804b;
   0xff90024f; 0xf4800db6; 0xd8001249; 0x1248; 0x12480; 0x0; 0x1f1e02; 0x1601600;
   0x1fe97f82; 0xdb6db6c3; 0xff24bfcf; 0xf2493f96; 0xdb6db6ff; 0xc924bf7f; 0x9249feb6; 0xdb6db7fe;
   0x4965f1fd; 0xd2ebe5b6; 0xdb6d8797; 0xcbaf8f2e; 0x974f05b6; 0xdb6c0492; 0x49200924; 0x92402c96;
   0x4b6024be; 0x4900497c; 0x920164b2; 0x480124b2; 0x48004924; 0x80002592; 0x2590; 0xf00;
   0x2d00; 0x2c00; 0x7800; 0x2000; 0x0; 0x201d01; 0x10000002; 0x48048008;
   0x48049048; 0xb64924b6; 0x59249258; 0x49249248; 0xb64924b6; 0x59249248; 0x49249248; 0x32492496;
   0x9249248; 0x9249248; 0x164924b2; 0x4f2492e8; 0x4f2492e8; 0x96db6db2; 0x496db649; 0x49249248;
   0x92db6d92; 0x497dbec9; 0x493cbe48; 0x12db6d92; 0x496db648; 0x9249248; 0x12db6d90; 0x92db648;
   0x1249240; 0x24b6480; 0x49000; 0x1f1c02; 0x2400080; 0x4800920; 0x32c02ca0; 0x92082481;
   0x30924c04; 0xb6db2d84; 0x92492408; 0x2492080d; 0xb6db6004; 0x92492049; 0x2492416d; 0xb6db6124;
   0x92490249; 0x24925b6d; 0xb6db492c; 0x96491249; 0x2492db6d; 0xb6da4924; 0x92489200; 0x24924924;
   0x92424924; 0x92000000; 0x24924; 0x90024924; 0x80000000; 0x24924; 0x900; 0x0;
   0x1f1f01; 0x2000480; 0x12402480; 0x24804904; 0xb6416d85; 0xb6496d89; 0x2492492d; 0xb2496cad;
   0x92496c49; 0x2492496c; 0x92496564; 0x924962c9; 0x24924324; 0x924b0124; 0x92480049; 0x2480096c;
   0x96480964; 0xbe4003c9; 0x7c004b64; 0xb2404b24; 0xf2001201; 0x20024924; 0x92024964; 0x90009249;
   0x36cb2d; 0xb0b6cb2d; 0xb1240009; 0x24b24925; 0x81824904; 0x0; 0x4000; 0x0;
   0x1d1c02; 0x20000023; 0x336; 0xb6c8; 0x164248; 0x8224b2; 0x592992db; 0x648cb6db;
   0x44b6db6; 0x416db6db; 0xb0592c0; 0x32db6582; 0xcf679416; 0x633cb165; 0xb6cb0592; 0xcb2c2416;
   0x162496c; 0x92092592; 0x48402c80; 0x44b2d964; 0x92cfe5b0; 0x27c2000; 0x25b20000; 0x96400000;
   0x9200000b; 0x60000024; 0x0; 0x1d1d01; 0x10000082; 0x40001212; 0x9164; 0x92496c92;
   0x4925a000; 0x264924; 0x92492492; 0x49000000; 0x4924924; 0x92492490; 0x9; 0x2c92c925;
   0x924f200e; 0x701259; 0x25924924; 0x92400000; 0x49249; 0x20124924; 0x3f800; 0x92db240;
   0x24fe4800; 0x5f00002; 0x4b240001; 0x24800009; 0xa00000b6; 0x40000248; 0x0; 0x1e2000;
   0x8048040; 0x596d96c5; 0x96db6592; 0x492492b6; 0xdb6d912d; 0xb6db2492; 0x4924adb6; 0xdb6c5b6d;
   0xb6d82492; 0x49036db6; 0xdb06db6d; 0xb4092492; 0x40db6db6; 0xc5b7dbed; 0x925f3f92; 0xb6db6db1;
   0x6df6fb64; 0x964b24ad; 0xb6db6d5b; 0x2496d924; 0xb6492b6d; 0xb6db164b; 0xfcb6092f; 0x92405b6d;
   0xb6c09249; 0x2c004964; 0x8002db6c; 0xb6c0; 0x4800; 0x4000; 0x1e2000; 0x2000080;
   0xb6492d83; 0x64925b1d; 0x80002e6c; 0x92496fc9; 0x2492ff00; 0x19924; 0x924b3249; 0x24900000;
   0x424924; 0x9204be5f; 0x2000f87c; 0x96db6c; 0x813ddef9; 0xf77be0; 0x25b6db20; 0x4f65be40;
   0x3f83f009; 0x6c96c912; 0xc0049000; 0x2480024b; 0x6d920407; 0xf804000f; 0x80001249; 0x24800000;
   0x8000040; 0x96c8; 0x2c80; 0x1000; 0x8000; 0x1d1307; 0x2492400; 0x49249002;
   0x4924902d; 0x925904b2; 0x49e427f2; 0x5f225b25; 0xb64bfc97; 0xf94fe4bf; 0x44b64b6c; 0x97f92ff2;
   0x9fc97e89; 0x6c96d925; 0x924f2124; 0x92490249; 0x24900924; 0x92000924; 0x90009249; 0x0;
   0x1c1d01; 0xc300; 0x1e7800; 0x1e78000; 0xcb00000; 0x678000c6; 0x63000640; 0x6000e003;
   0x2c20; 0x5b000; 0x7f8000; 0x1ff80000; 0xdb00001f; 0xf80001ff; 0x80c30cb0; 0x1e780001;
   0xe700000c; 0xb2000c64; 0x3000e007; 0x60860; 0x2c200; 0x7e0000; 0xdb00001; 0xff80001f;
   0xf80002db; 0x1ef8; 0x0; 0x1f1f01; 0xc00; 0x2c00; 0x4800; 0x16c00;
   0x36400; 0x24800; 0x1b6c00; 0x596400; 0x492c80c; 0x16db6c28; 0xb6c92041; 0xe492016d;
   0xb6c80b2d; 0xb6401279; 0x2410196d; 0xb65b59ed; 0x96de9349; 0x24bccb6d; 0xb6dadb64; 0xb6c4ba49;
   0x2496db6c; 0xb216db24; 0x249240; 0x36db60; 0x36d900; 0x249200; 0xb6db00; 0xb6db00;
   0x249200; 0x124800; 0x0; 0x1d1704; 0x12000480; 0x48008000; 0x124; 0x80492402;
   0x8000000; 0x24924; 0x92402000; 0x49012002; 0x44964925; 0x825805b2; 0x1fc02fc9; 0x6d92db05;
   0xf00be42f; 0x800f1259; 0x24b20100; 0x2480000; 0x249249; 0x24804100; 0x0; 0x9201240;
   0x24004000; 0x201d02; 0x16c800; 0x5ffc00; 0x7ffe00; 0x1b6db00; 0x3fb6f80; 0x7f80ff0;
   0xdb24b68; 0x1fc105f8; 0x3fc1a1fc; 0x6d96c96c; 0xbf0fe0fe; 0xff0ff0fe; 0x6d96d96d; 0xff0fe0fe;
   0x7f0fe0fe; 0x6d96c96c; 0x3fc101fc; 0x1fc007f8; 0xdb24b60; 0x7f92ff0; 0x3ffff80; 0x1b6db00;
   0x3fffc00; 0x3ffe000; 0x5b24000; 0x7c00000; 0xfc00000; 0xd800000; 0x10000000; 0x1d1306;
   0x48000; 0x1e58000; 0xb24b0006; 0x5b240082; 0xdb04092d; 0xb65801be; 0x40480fe2; 0x192db2c;
   0x960bfdb0; 0x405ffd80; 0x25b6d920; 0x16ff6000; 0x37f80049; 0x6db24005; 0xb6080005; 0x80000249;
   0x20000120; 0x0; 0x141d02; 0x12490092; 0x48092409; 0x24924924; 0x94000892; 0x49649249;
   0x40000924; 0x96492494; 0x2089249; 0x24924908; 0x20012492; 0x9248080; 0x40124920; 0x92480000;
   0x80249009; 0x24800000; 0x2490012; 0x48000000; 0x24900024; 0x0; 0x161d02; 0x2490024;
   0x92009248; 0x5925849; 0x24912002; 0x4b249252; 0x49244000; 0x92c92d94; 0x92491001; 0x4b25921;
   0x24924082; 0x59648; 0x9249000; 0x120124b2; 0x2492000; 0x800924; 0x80124800; 0x249;
   0x20049200; 0x12; 0x48002480; 0x171e01; 0x240005; 0xb64025b2; 0x40492481; 0x6db6c924;
   0x96524924; 0xdb6db659; 0x24929249; 0x26db6db2; 0xc92d9492; 0x4906db6d; 0x824b2404; 0x924816db;
   0x6c164920; 0x24924036; 0xdb001249; 0x249200; 0xb6d80092; 0x48012490; 0x5b6c004; 0x92400124;
   0x8005b600; 0x4900000; 0x171f01; 0x49000b; 0x6d801b6d; 0x8096db02; 0xdb6d86db; 0x6d849249;
   0x36db6db6; 0xdb6c6492; 0x59b6db69; 0xb6db6124; 0xb2cdb6db; 0xdb6db0b; 0x24922db6; 0xd82db6d0;
   0x92c802d; 0xb6c02db6; 0x492c01; 0x6db6016d; 0xb0024920; 0x36db003; 0x6d800249; 0xb6c00].
Definition emoji_data_39 : list N :=
  [0x36c0000; 0x40000000; 0x161f01; 0x16c001b; 0x6d81b6db; 0x7fffc36; 0xdb6d6db7; 0xc7b6df2d;
   0xb6dbfb6d; 0xb7edbffb; 0x6db6fedb; 0x6cfb7ff2; 0xdb6db5b6; 0xdb1fdf6c; 0x36db607d; 0xb6c1f7fb;
   0x5b6d80b; 0x6db02db7; 0xc06db600; 0xdb6c036d; 0xa00b6d80; 0x36da005b; 0x6000db60; 0x1b60000;
   0x40000000; 0x171d02; 0x2492012; 0x49200492; 0xb24b20; 0x92490100; 0x2049249; 0x24924908;
   0x912492; 0xd9249240; 0x40208124; 0x92412492; 0x201000b; 0x24920924; 0x90020900; 0x9258009;
   0x24800008; 0x492400; 0x49240000; 0x4920; 0x2492000; 0x249; 0x4800; 0x191d02;
   0x90000; 0x12000000; 0x920; 0x24800; 0x1; 0x24000049; 0x0; 0x249000;
   0x9200000; 0x492; 0x92400; 0x4; 0x92400124; 0x80000000; 0x924901; 0x24924080;
   0xb249; 0x65249248; 0x92; 0x49248c92; 0x4b03c007; 0x80c92580; 0x2480000; 0x171d02;
   0x480000; 0x48000000; 0x24000; 0x12400000; 0x9240; 0x920000; 0x492; 0x49200;
   0x24; 0x90002490; 0x1; 0x24800924; 0x80000000; 0x49248249; 0x24808001; 0x16492492;
   0x49248400; 0x8924924; 0xb24965e0; 0x3c0b24b; 0x124000; 0x191d02; 0x580000; 0x12000009;
   0xb60; 0x24000; 0x1200003; 0x6c000249; 0x12480; 0x16d8000; 0x49200024; 0x90002db0;
   0x92400; 0x4920005; 0xb6c00124; 0x80009240; 0x5b6d803; 0x24920492; 0x4925b6db; 0x65249248;
   0x924924b6; 0xdb6dac92; 0x4b07492e; 0x2db6c00; 0x12480000; 0x1a2000; 0x40000; 0x1000001;
   0xb00000b0; 0x2400; 0x16c000; 0x6d80000; 0x920000db; 0x40001b60; 0x24800; 0x36d8001;
   0x6d800049; 0x20002db6; 0x5b6c0; 0x1248000; 0xb6d80016; 0xdb000492; 0x4006db6c; 0x2db6d80;
   0x924962db; 0x6db65b6d; 0xb6d24924; 0x9b6db6d9; 0x6db6d80f; 0x24be00b6; 0xd90016d8; 0x1000;
   0x1a2000; 0x80000; 0x2000001; 0x6000006c; 0x5b00; 0xda000; 0x5b00001; 0x6c0000b6;
   0xc00036d0; 0xdb400; 0x6db0000; 0xdb600036; 0xd8001b6c; 0xb6d80; 0x2db6000; 0x6db4002d;
   0xb6000b6d; 0x8005b6d8; 0x5b6db03; 0xedb7f9b6; 0xdb6cb6db; 0x6dafb6df; 0x66db6db4; 0xfb6dbe1f;
   0xdb7c016d; 0xb60005b6; 0x2400; 0x191d02; 0x480000; 0x12000000; 0x920; 0x24000;
   0x1; 0x24000249; 0x0; 0x1248000; 0x49200000; 0x2490; 0x92400; 0x4;
   0x92400124; 0x80000000; 0x4924801; 0x24920080; 0x1049249; 0x61249248; 0x10002092; 0x4924ac92;
   0x4b07000e; 0x2c92c00; 0x2480000; 0x201605; 0x82000; 0xcb000; 0x249000; 0x5b6c00;
   0x6db600; 0x1249200; 0x2db6d80; 0xb6492d8; 0x9000048; 0xb24b6496; 0x5b7ffedb; 0x5ffffff8;
   0x36db6db6; 0x1b7ffed8; 0x92ff640; 0x6db6db0; 0x36db6c0; 0x1249200; 0xdb6d80; 0x2db600;
   0x49000; 0x12000; 0x1f1706; 0x80000003; 0xe400003d; 0xb6db6db1; 0xf6db6df3; 0xe5b6cfc5;
   0xb6db6d85; 0xb6db6c03; 0x25b25001; 0xb6db4005; 0xb6db0009; 0x2d92000d; 0xb6d8002d; 0xb6d80049;
   0x6c90006d; 0xb6c0016d; 0xb6c0004b; 0x6480016d; 0xb600036d; 0xb400025b; 0x2000036d; 0x8000016c;
   0x80000048; 0x0; 0x161f00; 0x20000; 0x20000000; 0x8000; 0x9000000; 0x2000;
   0x2400000; 0x800; 0x900000; 0x9208; 0x1241000; 0x92492; 0x92492000; 0x24924;
   0xa4924800; 0x9249; 0x29249200; 0x2492; 0x40492480; 0x924; 0x90124900; 0x49;
   0x20000000; 0x161f00; 0x80000; 0x10000000; 0x20000; 0x4000000; 0x8000; 0x1000000;
   0x2000; 0x400000; 0x4824; 0x4904000; 0x249208; 0x49249000; 0x92482; 0x12492400;
   0x24924; 0x84924800; 0x9249; 0x21249200; 0x2492; 0x40092400; 0x24; 0x80000000;
   0x172000; 0x80000; 0x8000010; 0x5800; 0x400000; 0x800002c0; 0x20000; 0x4000016;
   0x1000; 0x200004; 0xb0c02482; 0x4249044b; 0x6d964924; 0x10924822; 0xdb6cb249; 0x20849241;
   0x16db6c12; 0x49242492; 0x48b6db60; 0x92492124; 0x9200b6d9; 0x924801; 0x248000b6; 0x1000;
   0x182000; 0x10000; 0x5800004; 0x80000b00; 0x58000; 0x480000b; 0x580; 0x48000;
   0xb000005; 0x80000480; 0x4b0d01; 0x6d960124; 0x9236db2c; 0x5b6d9649; 0x2492b6db; 0x2c5b6db0;
   0x492490b6; 0xdb6c5b6d; 0xb0492490; 0x36db685b; 0x6db00924; 0x9016db60; 0xb6d8001; 0x248002db;
   0x2400; 0x182000; 0x20000; 0x3000003; 0x6c0; 0xb0000; 0x3000006; 0xc0000b00;
   0x30000; 0x6c0000b; 0x304; 0x36cb02; 0x5b0d06db; 0xc2db6db; 0x36db2c36; 0xdb2c6db6;
   0xd8b6db2c; 0x36db2c6d; 0xb6d8b6db; 0x6c36db68; 0x6db6d836; 0xdb6016db; 0x602db6c0; 0x16db6006;
   0xdb0005b6; 0x4800; 0x171e01; 0x40000; 0x24; 0x2000; 0x1; 0x20000100;
   0x0; 0x9000008; 0x0; 0x2482002; 0x41200000; 0x24924924; 0x92080000; 0x1249241;
   0x24904000; 0x92492; 0x9249200; 0x4924; 0x90492480; 0x49; 0x24804924; 0x0;
   0x49000000; 0x171f00; 0x80000; 0x48000000; 0x124900; 0x12490000; 0x49249; 0x4924800;
   0x2492; 0x48249248; 0x104; 0x92412492; 0x40000008; 0x24924924; 0x90000002; 0x41240209;
   0x0; 0x80000; 0x48000000; 0x4000; 0x2400000; 0x200; 0x120000; 0x10;
   0x0; 0x161f00; 0x120001; 0x24000000; 0x1249002; 0x49200000; 0x492484; 0x92490000;
   0x924921; 0x24924000; 0x249248; 0x41249000; 0x92492; 0x10492400; 0x20924; 0x24120000;
   0x200; 0x40000; 0x80; 0x10000; 0x20; 0x4000; 0x8; 0x0;
   0x162000; 0x480004; 0x90001248; 0x1b6d809; 0x24902492; 0x416db642; 0x49240924; 0x90db6db4;
   0x92491249; 0x24b2db6d; 0x24924492; 0x492cb6db; 0x41249104; 0x920b2d90; 0x10480001; 0xb00;
   0x100000; 0x400002c0; 0x40000; 0x100000b0; 0x10000; 0x400002c; 0x4000; 0x171f00;
   0x490000; 0xdb000492; 0x16db00; 0xb6db0124; 0x9205b6db; 0xdb6db09; 0x24922db6; 0xd86db6d8;
   0x4924936d; 0xb6cb2db6; 0xd24924d9; 0x6db6596d; 0xb0924902; 0xcb6c860b; 0x20001200; 0x580000;
   0x58000090; 0x2c000; 0x2c00004; 0x80001600; 0x160000; 0x240000b0; 0x0; 0x192000;
   0x90000; 0x16c0005b; 0x6c005b6d; 0x8036db40; 0x1b6db01b; 0x6db016db; 0x6c0b6db6; 0xb6db6c6;
   0xdb6d832d; 0xb6c16db6; 0xd8db6db0; 0x61b6d86d; 0xb6da596d; 0xb62c36d8; 0x2c36d80b; 0x2c800006;
   0x680; 0x58000; 0xc00000; 0xd00000b0; 0x1800; 0x1a0000; 0x16000003; 0x340;
   0x4000; 0x161f00; 0x480000; 0x90000000; 0x924809; 0x24900000; 0x1249202; 0x49240000].
Definition emoji_data_40 : list N :=
  [0x492494; 0x92490000; 0x124925; 0x24924000; 0x249249; 0x41249000; 0x92490; 0x10400000;
   0x900; 0x100000; 0x240; 0x40000; 0x90; 0x10000; 0x24; 0x0;
   0x1d1604; 0x8000; 0x0; 0x92480002; 0x49000000; 0x924; 0x12400; 0x0;
   0x924924; 0x92492492; 0x40000001; 0x24920004; 0x92480000; 0x249; 0x24000924; 0x80000000;
   0x49248; 0x124900; 0x0; 0x1248000; 0x4920000; 0x1f1406; 0x492000; 0x2490000;
   0x0; 0x92480000; 0x90000000; 0x24; 0x924924a4; 0x92492400; 0x124; 0x92400124;
   0x92000000; 0x924; 0x92000924; 0x90000000; 0x4924; 0x80004924; 0x80000000; 0x4924;
   0x4920; 0x0; 0x201804; 0x1000; 0x9000; 0x4b6000; 0x1249000; 0x1248000;
   0x16c90000; 0x9200000; 0x9249248; 0x36db6db6; 0x49249249; 0x49249248; 0xb6db6000; 0x49249000;
   0x49249000; 0xb6db6000; 0x49248000; 0x49248000; 0x36db6000; 0x9248000; 0x9248000; 0x16db0000;
   0x1248000; 0x240000; 0x480000; 0x1f1804; 0x2000; 0x24000; 0x25b6000; 0x16db0000;
   0x24920001; 0xb6c80005; 0xb0000009; 0x2492492d; 0xb6db6c6d; 0xb6db6c49; 0x24924b6d; 0xb6492b6d;
   0xb6001249; 0x24001b6d; 0xb0001b6d; 0xb0001249; 0x5b6d; 0x80005b6d; 0x80009248; 0xdb68;
   0x5b60; 0x1240; 0x900; 0x0; 0x201704; 0x5800; 0x16000; 0x4b6000;
   0x5b6d000; 0x6db6000; 0x16d90000; 0x2db24924; 0x36db6db6; 0x36db6db6; 0x6db6db6d; 0xb6db6db6;
   0xb6db6000; 0x6db6d000; 0xb6db6000; 0xb6db6000; 0x6db6c000; 0x36db6000; 0x36db6000; 0x2db6c000;
   0x16db0000; 0x6db0000; 0x5b68000; 0x2db0000; 0x1f1704; 0x2000; 0x10000; 0x0;
   0x12490000; 0x92480000; 0x4; 0x90000024; 0x92492400; 0x124; 0x92492524; 0x92492000;
   0x924; 0x92000924; 0x90000000; 0x4924; 0x80004924; 0x80000000; 0x4924; 0x4920;
   0x0; 0x4920; 0x4900; 0x0; 0x1f1704; 0x80000; 0x90000; 0x0;
   0x492400; 0x92400; 0x0; 0x12424; 0x92492400; 0x124; 0x92492424; 0x92492000;
   0x0; 0x92492000; 0x92490000; 0x0; 0x92490000; 0x92480000; 0x4; 0x92400004;
   0x92400000; 0x24; 0x90000024; 0x80000000; 0x1d1704; 0x80000; 0x1200000; 0x0;
   0x12480000; 0x49200000; 0x0; 0x92492492; 0x48000000; 0x4924924; 0x92492492; 0x0;
   0x924900; 0x12492400; 0x1; 0x24920004; 0x92480000; 0x249; 0x24000924; 0x80000000;
   0x9240; 0x24800; 0x1f1704; 0x80000; 0x490000; 0x124000; 0x5b6400; 0x492400;
   0x124800; 0x496c24; 0x92492449; 0x2492496d; 0xb6db6124; 0x92492000; 0x24924000; 0xb6db6000;
   0x92490001; 0x24920005; 0xb6d90004; 0x92480009; 0x2490002d; 0xb6c00004; 0x92000009; 0x2400002d;
   0xb0000024; 0x80000000; 0x201704; 0x90000; 0xd8000; 0x49200; 0xb6d80; 0x5b6c0;
   0x9248; 0x124925b0; 0x5b6db6d8; 0x49249248; 0xb6db6db6; 0x5b6db6db; 0x49248; 0xb6db6;
   0x5b6db; 0x49248; 0x36db6; 0x5b6d8; 0x49248; 0x36db4; 0xb6d8; 0x9240;
   0x16db0; 0xb640; 0x1f1704; 0x160000; 0x164000; 0x2d9000; 0x36db00; 0x36db00;
   0x25b609; 0x2492db1b; 0x6db6dab6; 0xdb6db6db; 0x6db6d8db; 0x6db6d800; 0x5b6db000; 0x6db6c001;
   0x6db6c002; 0xdb6d8001; 0x6db60003; 0x6db60006; 0xdb6c000b; 0x6db0000b; 0x6d800016; 0xdb00001b;
   0x6c00005b; 0x60000000; 0x1f1704; 0x80000; 0x80000; 0x0; 0x492400; 0x492400;
   0x0; 0x12424; 0x92492400; 0x124; 0x92492124; 0x92492000; 0x0; 0x92492000;
   0x92490000; 0x4; 0x92480004; 0x92480000; 0x24; 0x92400004; 0x92000000; 0x24;
   0x90000024; 0x80000000; 0x1c1704; 0x12000000; 0x92000000; 0x124; 0x92484924; 0x92400200;
   0x924924; 0x94924924; 0x8208209; 0x24924949; 0x24924082; 0x8209249; 0x24849249; 0x24082082;
   0x9249248; 0x49249240; 0x82082092; 0x49248492; 0x48000920; 0x12480; 0x92000; 0x0;
   0x1d1704; 0x12000000; 0x49000000; 0x24; 0x92490092; 0x49240410; 0x4964; 0x92492492;
   0x49082080; 0x4492cb2c; 0x92492490; 0x10410409; 0x25965924; 0x92492020; 0x8208124b; 0x2cb24924;
   0x92404104; 0x10259659; 0x20924904; 0x924000; 0x9240000; 0x24900000; 0x1d1804; 0x2400000;
   0x49200002; 0x4924002d; 0xb6d92092; 0x49248492; 0x49245b6d; 0xb6c12596; 0x49092492; 0x49b6db6d;
   0x924b2cb2; 0x92492493; 0x6db6db24; 0x96596524; 0x924916db; 0x6db6492c; 0xb2424924; 0x922db6db;
   0x64965924; 0x924000; 0xb6d8000; 0x24900000; 0x24800000; 0x1e1804; 0x4800000; 0x5b240001;
   0x2492000b; 0x6db6d816; 0xdb6db059; 0x249242db; 0x6db6cdb6; 0xdb6c1649; 0x2490b6db; 0x6db36db6;
   0xdb059649; 0x246db6db; 0x68db6db6; 0xc1659659; 0x1b6db6d8; 0xb6db6db2; 0x59659646; 0xdb6db60d;
   0xb6c92012; 0xdb0000b6; 0xd800006d; 0xb0000092; 0x0; 0x1d1904; 0x16400000; 0xdb600006;
   0xdb64006d; 0xb6db25b6; 0xdb6d2fbe; 0xfb6edb6d; 0xb6cb6db6; 0xdb5f7df7; 0xddb6db6d; 0x96df6db6;
   0xbefbefab; 0x6db6db6d; 0xbefbeb7d; 0xf7df16db; 0x6db6db6d; 0xb6c6fbef; 0xbe2db6db; 0x61bedb64;
   0x5ffc000; 0x1b6d0000; 0x6db00001; 0x6d800002; 0x48000000; 0x1d1704; 0x2400000; 0x49000000;
   0x24; 0x92492092; 0x49248402; 0x5924; 0x92412492; 0x49080410; 0x40b24924; 0x82492492;
   0x10082081; 0x64924924; 0x92492420; 0x104112c9; 0x24b24924; 0x92404000; 0x90259659; 0x60924920;
   0x124000; 0x9248000; 0x24900000; 0x201f01; 0x16000000; 0x8201000; 0x41200000; 0x86002480;
   0x48009240; 0x48000000; 0x10412480; 0x9009240; 0x0; 0x12492490; 0x1049240; 0x8000;
   0x2092490; 0x1249248; 0x1000; 0x12492490; 0x9249240; 0x40200; 0x12492480; 0x9249208;
   0x40008; 0x12492480; 0x9249208; 0x8; 0x12492412; 0x9249041; 0x40; 0x2492586;
   0x248208; 0x48; 0x10; 0x1f1f01; 0x2c000000; 0x20804000; 0x9000003; 0x24024808;
   0x20024802; 0x1008; 0x20924808; 0x20924810; 0x208041; 0x4924048; 0x24924000; 0x8200049;
   0x24924049; 0x24920002; 0x8200249; 0x24901249; 0x24900010; 0x8009249; 0x24809249; 0x24000080;
   0x49249; 0x21849249; 0x4000400; 0x8049248; 0x24049240; 0x24000002; 0x8249259; 0x20049049;
   0x2; 0x8; 0x0; 0x1f1f00; 0x2000000; 0x24000000; 0x92406000; 0x92012000;
   0x2002480d; 0x900b6024; 0x10492008; 0x20924021; 0x82db6024; 0x82492049; 0x492412c; 0x36db0024].
Definition emoji_data_41 : list N :=
  [0x92490041; 0x2492016d; 0xb6db0124; 0x92480249; 0x24901b6d; 0xb6c04924; 0x92009249; 0x2402db6d;
   0xb0424924; 0x90049249; 0x16db6d; 0x86124924; 0x10049248; 0x2416db60; 0x90124904; 0x90249248;
   0x2016d925; 0x80124004; 0x0; 0x1f1f00; 0x8000000; 0x10000002; 0xc9018002; 0x9059004;
   0x80092012; 0x402db002; 0x406d8000; 0x80592032; 0xc36da086; 0xb6d8104; 0x12590030; 0xdb6d00b2;
   0xdb6c0124; 0x925805b6; 0xdb6c0db6; 0xdb680924; 0x92406db6; 0xdb406db6; 0xdb004964; 0x90036db6;
   0xd90b6db6; 0xc1024b24; 0x821b6db6; 0x81b6db0; 0x8124920; 0x805b6d82; 0xd85b6d92; 0x40124920;
   0x805b6492; 0x5b2010; 0x0; 0x1f1e01; 0x8000000; 0x64805801; 0x480c002; 0x801f409;
   0x6416d809; 0x2816d802; 0x586ff009; 0x61b6d803; 0x45b6d806; 0xbefe04b; 0x2db6c018; 0x6db60032;
   0xfbef80db; 0x6db602db; 0x6db605be; 0xdbec16db; 0x6db036db; 0x6d806dbe; 0xdb00b6db; 0x6c01b6db;
   0x68836df6; 0xc105b6db; 0x440db6db; 0x40b7db6; 0x82db6d8; 0x642db6c1; 0x1b6d92; 0x2db649;
   0x600db009; 0x0; 0x1f1f00; 0x2000000; 0x24000000; 0x92402000; 0x92010000; 0x2000400d;
   0x80092024; 0x10092008; 0x104020; 0x82492024; 0x82492040; 0x4124; 0x12490020; 0x92490000;
   0x20800124; 0x92490124; 0x92480008; 0x20800924; 0x92404924; 0x92000040; 0x20024924; 0x90424924;
   0x90000000; 0x24924; 0x86124924; 0x10001000; 0x24124920; 0x90124904; 0x90000048; 0x20124925;
   0x80124004; 0x0; 0x171d02; 0x2400002; 0x40000080; 0x124000; 0x12000004; 0x49000;
   0x4800001; 0x2592; 0x249200; 0x8000124; 0x92492402; 0x49; 0x20124900; 0x0;
   0x48001248; 0x100000; 0x2480082; 0x40048000; 0x124924; 0x2492000; 0x1249; 0x24800;
   0x181d02; 0x900002; 0x40000000; 0x4b000; 0x2400000; 0x40000480; 0x124000; 0x2400025;
   0x92401249; 0x20020000; 0x24924812; 0x40240000; 0x248008; 0x92000400; 0x2480; 0x9120004;
   0x24; 0x80091240; 0x4000000; 0x4924802; 0x49200000; 0x9240; 0x490000; 0x171f00;
   0x1000002; 0xb00; 0x90000; 0x120002d8; 0x25800; 0x4800016; 0xc0001200; 0x1241005;
   0xb2d804b2; 0x48092490; 0x2db65824; 0x90484900; 0x116c8059; 0x24004240; 0xb6002; 0xc9200252;
   0x4004db00; 0x16490010; 0x1201205b; 0x25b04924; 0x80924900; 0x5b640049; 0x20000000; 0x181f01;
   0x1200002; 0xd0000160; 0x12000; 0x6d8000b; 0x60000960; 0x16c000; 0x1b600009; 0x40036db;
   0x205b2db0; 0x4b2490b6; 0xdb6c5b60; 0xb4492012; 0xb6c02c5b; 0x104900; 0x2b6000d; 0x5b001649;
   0x1236c0; 0xc1b6016; 0x9201216; 0xd96c0b6d; 0xb0012490; 0x2db6001; 0x6d800004; 0x0;
   0x182000; 0x400000; 0xc00001b0; 0x2d800; 0x2f80005; 0xb00006f0; 0x6e000; 0xda00016;
   0xc00017c9; 0x2d96c0; 0x37db6037; 0xdb606db6; 0xd8b6d86c; 0xbec02c6d; 0x8018b6c0; 0xcb60004;
   0x6d800b36; 0x800d36c0; 0xc2d801b; 0x16c02c16; 0xc02c0db2; 0xd806db6c; 0x2db6005; 0xb6d000db;
   0x60000800; 0x171d02; 0x2400002; 0x40000080; 0x120000; 0x92000020; 0x4b000; 0x4800001;
   0x12412; 0x1249200; 0x48000964; 0x92092412; 0x49; 0x20124900; 0x10000002; 0x48001248;
   0x900000; 0x2400482; 0x40040000; 0x124924; 0x12492000; 0x1249; 0x124800; 0x1c1d02;
   0x2000; 0x90000; 0x0; 0x12000000; 0x90000000; 0x120; 0x900; 0x0;
   0x24924009; 0x24900012; 0x1249; 0x24849249; 0x24400400; 0x9249249; 0x49249240; 0x400092;
   0x49249492; 0x49240920; 0x12492; 0x49092492; 0x40020000; 0x12592490; 0x92492400; 0x124;
   0x92480924; 0x92000000; 0x1b1d02; 0x9000; 0x80000; 0x0; 0x48000024; 0x0;
   0x2400; 0x20000; 0x124; 0x92009249; 0x20024800; 0x4924924; 0x49249200; 0x40006db;
   0x24922492; 0x49249200; 0x1249249; 0x12492492; 0x49000092; 0x49248924; 0x92492480; 0x5b6492;
   0x44924924; 0x80400024; 0x92492249; 0x24800000; 0x1a1e01; 0x8000; 0x580000; 0x9000002;
   0x160; 0x2400; 0x90000; 0x5800000; 0x90000024; 0x1249641; 0x24924049; 0x24922db6;
   0xdb649249; 0x25249249; 0xb6db6d92; 0x49249492; 0x4926db6d; 0xb6492492; 0x5249249b; 0x6db6d924;
   0x92494924; 0x924db6db; 0x60924924; 0x24924936; 0xdb6c86d9; 0x24800000; 0x1c1f01; 0x1000;
   0x160000; 0xb00000; 0x9000001; 0x6000000b; 0x90; 0x16c0; 0xb000; 0x90002;
   0xdb6c00b6; 0xdb604b6c; 0x920b6db6; 0xd85b6db6; 0xc492c924; 0xb6db6db5; 0xb6db6d49; 0x2c924b6d;
   0xb6db5b6d; 0xb6d1b6c9; 0x2436db6d; 0xb5b6db6d; 0x192c9243; 0x6db6db1b; 0x6db6c092; 0xc92416db;
   0x6d81b6db; 0x60092490; 0x0; 0x1c2000; 0x2000; 0x60000; 0xd80000; 0x16000001;
   0x6000002d; 0x80000160; 0x1600; 0xd800; 0x16c000; 0x16c005b; 0x6d8016db; 0x6c03fff6;
   0xc06db6db; 0x6b6db6db; 0xffff6db6; 0xdb6db636; 0xdb6db3ff; 0xf6db6db6; 0xdb636db6; 0xdb3fff6d;
   0xb2db6db6; 0x36db6db3; 0xfff6db2d; 0xb6db616d; 0xb6db16ff; 0x6db2db6d; 0xb616db6d; 0x80249240;
   0x1a1d02; 0x12000; 0x200000; 0x4; 0x80000080; 0x0; 0x120000; 0x2400000;
   0x49248; 0x924900; 0x24800092; 0x59249249; 0x24940200; 0x2db6492; 0x49249240; 0x8000925;
   0x92492492; 0x49492000; 0x24964924; 0x92492524; 0x800036c9; 0x24824924; 0x90020000; 0xc9649209;
   0x24920000; 0x1a1f00; 0x12492402; 0x49240002; 0x4924; 0x92092492; 0x42480009; 0x24924924;
   0x92490020; 0x249249; 0x24924924; 0x92; 0x49249249; 0x24949200; 0x2492492; 0x49249242;
   0x48000924; 0x92402492; 0x40000000; 0x4800; 0x90000; 0x1; 0x20000020; 0x0;
   0x48000; 0x800000; 0x12; 0x0; 0x1c1f00; 0x2492400; 0x92492009; 0x20000125;
   0x92490924; 0x92409200; 0x325924; 0x90924924; 0x9240003; 0x6d924949; 0x24924400; 0x40009249;
   0x24949249; 0x24492400; 0x9249249; 0x49249240; 0x92400016; 0xd9248092; 0x49200000; 0x12;
   0x40000090; 0x0; 0x12000; 0x90000; 0x0; 0x12000000; 0x90000000; 0x20;
   0x0; 0x1c1f00; 0x4924801; 0x6d924012; 0x492482db; 0x6db61259; 0x24912492; 0x492db6db;
   0x61249249; 0x12492492; 0xdb6db632; 0x49249124; 0x92496db6; 0xdb612592; 0x49124924; 0x96db6db6;
   0x92492491; 0x2492482d; 0xb6db0124; 0x92400049; 0x2400000d; 0x80000120; 0x200; 0xd800;
   0x120000; 0x1200000; 0xd800001; 0x20000002; 0x48; 0x0; 0x1b1f00; 0x12492403;
   0x6db6c124; 0x92491b6d; 0xb6c5b6db; 0x6cb6c924; 0xadb6db6a; 0xdb6db649; 0x249256db; 0x6db76db6].
Definition emoji_data_42 : list N :=
  [0xdb249649; 0x2b6db6db; 0xb6db6db6; 0xd92495b6; 0xdb6ddb6d; 0xb6c96c92; 0x42db6db0; 0x2db6d800;
   0x12490000; 0x2d00000; 0x6c000004; 0x80000360; 0x3600; 0x24000; 0x1b00000; 0x1b000001;
   0x58; 0x0; 0x1c2000; 0x16d92401; 0xb6db601f; 0xfdb6c36d; 0xb6db1b6d; 0xb6d1ffdb;
   0x6d36db6d; 0xb5b6db6d; 0x3ffdb6d3; 0x6db6db5b; 0x6db6d7b7; 0xdb6db6db; 0x6db5b6db; 0x6d7ffdb6;
   0xdb6db6db; 0x5b6db6c5; 0xffdb6c36; 0xdb6d81b6; 0xdb600125; 0xb4000016; 0xc00000b0; 0xb00;
   0x16800; 0x1b0000; 0x1b00000; 0x16000000; 0xb000000b; 0x60; 0x100; 0x1a1f00;
   0x12492012; 0x49240492; 0x24924; 0x92492492; 0x52480009; 0x24924924; 0x92494920; 0x2db249;
   0x24924924; 0x800092; 0x49249249; 0x24949200; 0x2496492; 0x49249202; 0x4800096c; 0x92412492;
   0x40000000; 0x4800; 0x80000; 0x1; 0x20000120; 0x0; 0x48000; 0x800000;
   0x12; 0x0; 0x1f2000; 0x800000; 0x0; 0x40000001; 0x4004801; 0x24800;
   0x8200; 0x4924940; 0x24924810; 0x8209049; 0x24924809; 0x24924802; 0x8209049; 0x2492c249;
   0x24920000; 0x8201249; 0x24921249; 0x24920000; 0x8249249; 0x24b09249; 0x24800000; 0x9049249;
   0x2c049249; 0x20000002; 0x4124924b; 0x4249248; 0x80; 0x40249249; 0x249211; 0x10010;
   0x40040041; 0x40; 0x1f1f00; 0x2000000; 0x82000001; 0x4000001; 0x90012c01; 0x90092001;
   0x820000; 0x12492c20; 0x92492040; 0x20824004; 0x92492024; 0x92492008; 0x20824124; 0x924b0924;
   0x92490000; 0x20804924; 0x92484924; 0x92480000; 0x20124924; 0x92c24924; 0x92400000; 0x4124924;
   0xb0124924; 0x82000001; 0x412492c; 0x16124920; 0x241; 0x124b21; 0x80124821; 0x80048041;
   0x100040; 0x0; 0x201e01; 0x41000000; 0x41001000; 0x10c02d80; 0x8001240; 0x8209248;
   0x5b6db0; 0x40249258; 0x41249240; 0x12db6db2; 0x1249248; 0x9249248; 0x16db6db6; 0x9249248;
   0x9249248; 0x36db6db6; 0x4924924b; 0x49249248; 0x36db6db6; 0x49249258; 0x49249240; 0xb6db6db0;
   0x492492c8; 0x49249208; 0x16db6d82; 0x9249600; 0x9249000; 0x2db6010; 0x1249208; 0x1240008;
   0x580182; 0x1f2000; 0x800000; 0x800; 0x40001201; 0x402d801; 0x82d800; 0x1249200;
   0x2db6db40; 0x6db6d810; 0x4924904b; 0x6db6c81b; 0x6db6d812; 0x4924b2db; 0x6db6c2db; 0x6db60492;
   0x492416db; 0x6db636db; 0x6db62492; 0x492db6db; 0x6db1b6db; 0x6d812492; 0x4b0db6db; 0x6c2db6db;
   0x60092492; 0xc12db6db; 0x42db6d8; 0x924b0; 0x402db6c9; 0x2db611; 0xb2010; 0x402c0041;
   0x40; 0x1f1f00; 0x2000000; 0x82002001; 0x400c801; 0x90036c01; 0x920b6801; 0xcb7d800;
   0x36db6c20; 0xb6db7c43; 0x7df7e02d; 0xb6db602d; 0xb6db60df; 0x7df7e36d; 0xb6db4b6d; 0xb6db16db;
   0x7df85b6d; 0xb6db5b6d; 0xb6dcb6db; 0x7dfadb6d; 0xb6d6db6d; 0xb7c5b6db; 0x7e16db6d; 0xb036db6d;
   0xf26db6df; 0x4b6db6c; 0x16b6db78; 0x6db7c1; 0xb6db21; 0x80b6d821; 0x807f8041; 0x960040;
   0x0; 0x201e01; 0x41000000; 0x41000000; 0x10c02580; 0x8001240; 0x8000208; 0x4b24b0;
   0x40249248; 0x40001040; 0x12492492; 0x1249248; 0x8208; 0x12492496; 0x9249248; 0x1040;
   0x12492492; 0x9249249; 0x208; 0x12492496; 0x49249248; 0x40; 0x924924b0; 0x49249248;
   0x208; 0x12492482; 0x9249200; 0x1000; 0x2496010; 0x1248208; 0x240008; 0x480182;
   0x1d1207; 0x200; 0x40000004; 0x80012092; 0x48000; 0x244904; 0x82492402; 0x49290000;
   0x924924; 0x92492492; 0x400001; 0x24924920; 0x92492400; 0x80000049; 0x24920124; 0x12400000;
   0x1201; 0x20000000; 0x1d1009; 0x12000492; 0x48001252; 0x40009324; 0x90092490; 0x4824a480;
   0x1264924; 0x92492492; 0x49000000; 0x924924; 0x82492490; 0x2000401; 0x24924804; 0x92492000;
   0x48; 0x4900000; 0x1f1306; 0x100; 0x4000000; 0x48000201; 0x6c001b01; 0x20804902;
   0x4100921b; 0x6412db49; 0x24024992; 0x480490db; 0x6db6d849; 0x24924092; 0x492482db; 0x6db60249;
   0x24920492; 0x492006db; 0x6db00248; 0x24800490; 0x49001241; 0x24000000; 0x1f1307; 0x2000090;
   0x4000120; 0xb60005b1; 0xb6010da1; 0x2402492d; 0xb4c86dad; 0xb0996d89; 0x2012492d; 0xb65b6c6d;
   0xb6db6849; 0x2492416d; 0xb6db616d; 0xb6db0049; 0x2492036d; 0xb6d8036d; 0x36d80248; 0x24800360;
   0x36000100; 0x10000000; 0x201307; 0x5800120; 0x168001b0; 0x1fc001f0; 0x2d86436c; 0x36ca65b6;
   0x3fc267fe; 0x6db64b6d; 0xb6db6db6; 0x3ffb6dfe; 0x2db6db6c; 0x36db6db4; 0x16fb6fb0; 0xdb6db68;
   0x16db6db0; 0x6fb6fb0; 0x5b65b60; 0x2d82d80; 0xd80d80; 0x900900; 0x1f1307; 0x12000080;
   0x12000480; 0x4; 0x90402484; 0x90482489; 0x20004924; 0x920124a4; 0x92492400; 0x20100024;
   0x92492124; 0x92492000; 0x124; 0x92490124; 0x92480000; 0x924; 0x12400120; 0x12000000;
   0x100; 0x10000000; 0x1f1c02; 0x200000; 0x400000; 0x1041000; 0x1040000; 0x2080410;
   0x49209050; 0x48249000; 0x92492016; 0x4924b012; 0x49249024; 0x92492092; 0x49248092; 0x49248124;
   0x92490492; 0xd92404b2; 0xc92419e4; 0x93c86596; 0xcb2d6596; 0xdb604924; 0x924124b6; 0x49012492;
   0x49024924; 0x90092492; 0x48092492; 0x48124924; 0x90492492; 0x40492492; 0x40000000; 0x1d1107;
   0x492000; 0x1248000; 0x4; 0x92480012; 0x49000000; 0x924; 0x90002492; 0x40000002;
   0x364960; 0x2d92d80; 0x16082c09; 0x2c96c924; 0x92492400; 0x249; 0x24900124; 0x92000000;
   0x1f0c0a; 0xb6d92db7; 0xf6fbedbb; 0xa4bfc975; 0xb6db6da4; 0x92cb2589; 0x259a4b0d; 0xb61b6c2c;
   0x96592c69; 0x3832586d; 0xb05b606d; 0x805b0048; 0x120000; 0x202000; 0x9249248; 0x36db6db6;
   0x5b6db6d8; 0x49249248; 0xb6db6db6; 0x5b6db6db; 0x49259248; 0xb6db6db6; 0x5b6db6d9; 0x4927d248;
   0x96cb65b2; 0x4b27f2c8; 0x4927f248; 0x924b6492; 0x492db249; 0x492ff248; 0x925b6c92; 0x492db249;
   0x493ffa48; 0x925b6c92; 0x496db649; 0x497ffe48; 0x92db6d92; 0x496db649; 0x497ffe48; 0x92db6d92;
   0x492db649; 0x492ff248; 0x925b6c92; 0x4925b248; 0x9259248; 0x12492490; 0x1f1c02; 0x2400480;
   0x24800920; 0xb6c96db5; 0xb6c96db1; 0x2492492d; 0xb6db6d8d; 0xb6db6d89; 0x2492492d; 0xb6db6c2d;
   0xb6db6449; 0x2492416d; 0xb6db602d; 0xb6d80049; 0x2490016d; 0xb6d8016d; 0xb6c00249; 0x24800b6d;
   0xb6c00b6d; 0xb6001249; 0x24005b6d; 0xb6005b6d; 0xb0009249; 0x2002db6d; 0xb006db6d; 0xb0049249;
   0x16db6d; 0x80124924; 0x0; 0x192000; 0x1248003; 0x6db000db; 0x68006db0; 0x6db600;
   0x1b6d0004; 0xb2000db6; 0xc00b6db0; 0x4b6c805; 0xb6d8016d; 0xb6009249; 0xb65b40; 0x6d96c012].
Definition emoji_data_43 : list N :=
  [0x492016c3; 0x6c0db2d8; 0x2402406; 0xd86d85b0; 0x1b624804; 0x90da05b0; 0xb6016c49; 0x925b00;
   0xb616c02d; 0x8920124b; 0x6006dad0; 0x1b02000; 0x40040040; 0x1d1f01; 0x1000; 0x4024000;
   0x24100002; 0xdb600009; 0x24000009; 0x200001b6; 0x80000248; 0x1240; 0x12400; 0x49000;
   0x248000; 0x16db0000; 0x5b240002; 0x4920016d; 0xb6c00596; 0x59002492; 0x4806db6d; 0xb0492c92;
   0x42492492; 0x6db6db6c; 0x92492484; 0x9249245b; 0x6db6c124; 0x92480124; 0x924016db; 0x6c000924;
   0x80000920; 0x9200; 0x0; 0x1c1f01; 0x2cb2c00; 0xb0416009; 0x12016c; 0x96d81b60;
   0xb6809209; 0x2016d96d; 0x81b6db6c; 0x9259243; 0x6db6d81b; 0x6db6c092; 0x49243649; 0x2d85b249;
   0x6c4b0006; 0x4b6492db; 0x5b2496c4; 0xb24964b6; 0xdb6dbdb6; 0xdb6d4b24; 0x964b6db6; 0xdb096db2;
   0x40024900; 0xdb6000; 0x6db0000; 0x2490000d; 0xb600006d; 0xb0000249; 0x4920; 0x0;
   0x161f01; 0xc00c050; 0x1818006; 0xa001010; 0x204000; 0x8200058c; 0xa3000; 0x69b0036b;
   0x6016cd80; 0x5a6d82d8; 0xdb6d8165; 0x96010010; 0x0; 0x0; 0x0; 0x9249;
   0x616db601; 0xffc005b6; 0xc00b6c00; 0xda0002d; 0x80005800; 0x1600001; 0x0; 0x1e1c03;
   0x5b6000; 0x2db6000; 0x25b64000; 0x96d90005; 0xb6db2049; 0x6d924924; 0x92491b6d; 0xb6db324b;
   0x24b04924; 0x92c2cb6d; 0x960412c9; 0x20004924; 0x2db60; 0x4b240; 0x124900; 0xb6d800;
   0x12c9000; 0x4924000; 0x2db60000; 0x4b240001; 0x2490000b; 0x6d800012; 0xc9000049; 0x240006db;
   0x6c0024b2; 0x40000248; 0x0; 0x1f1f01; 0x24000; 0x24000; 0x8000; 0x4924800;
   0x5b6c800; 0x96c9001; 0x6db6d801; 0x6db6d802; 0x4f3c901b; 0x6db6d85b; 0x6db6c092; 0xc96482db;
   0x6db6c6db; 0x6db6c492; 0x492496db; 0x6db636db; 0x6db62492; 0x4925b6db; 0x6db1b6db; 0x6db12492;
   0x492db6db; 0x6dadb6db; 0x6dc92492; 0x496db6db; 0x6d6db6db; 0x6c492492; 0x4b6db6db; 0x636db6db;
   0x42492492; 0x1249248; 0x0; 0x1f1e01; 0x92000; 0x492000; 0x120000; 0x2412000;
   0x12012000; 0x0; 0x80010004; 0x924b2009; 0x6db6406d; 0xb6d96165; 0xb6d960cb; 0x6db2836d;
   0xb6cb0b2d; 0xb6cb165b; 0x6d961b6d; 0xb658596d; 0xb6d8b6db; 0x6db2db6d; 0xb6c2db6d; 0xb6c5b6db;
   0x6d96db6d; 0xb616db6d; 0xb62db6db; 0x6cb6db6d; 0xb5b6db6d; 0xb16db6db; 0x65b6db6d; 0xb5b6db6d;
   0x81249248; 0x0; 0x1f130a; 0x4924900; 0x24924900; 0x49249241; 0x64925961; 0x24924842;
   0x49249049; 0x24925909; 0x24925b12; 0x49248049; 0x24920049; 0x24920092; 0x49240249; 0x24921249;
   0x24902492; 0x49201249; 0x24909249; 0x24802492; 0x49009249; 0x24000000; 0x1f1c04; 0x100;
   0x300; 0x1600; 0x5b00; 0xdb00; 0x5b600; 0x5b6db00; 0xdb6df00; 0x1f6dbe00;
   0x6db6d801; 0xedb7f803; 0xdbff800b; 0x6db6000f; 0x6df8001f; 0xdfe0005b; 0x6c8000db; 0x700001b7;
   0xc00016db; 0x36de; 0x16df0; 0x5b6c0; 0xdb600; 0x1bfc00; 0x6db000; 0x17c0000;
   0x1e00000; 0x1000000; 0x0; 0x1f1d02; 0x800; 0x1a00; 0x3e00; 0x5b00;
   0xda00; 0x7fe00; 0x5b6d800; 0xff6d800; 0x1fffd000; 0x2db6c801; 0x2db64802; 0xffe01009;
   0x6d92401b; 0x6c92001f; 0xf80400db; 0x649002db; 0x648005fe; 0x16d9; 0x200036f9; 0x20007fc2;
   0x1b6c8; 0x5b640; 0x1fe080; 0x6d9200; 0x16c9000; 0x3f80000; 0x3640000; 0x1200000;
   0x0; 0x1f1c03; 0x8; 0xb0; 0x2d0; 0x16c0; 0x3f80; 0x1b6c0;
   0x5b600; 0xffe00; 0x2db600; 0x6db000; 0x3fff000; 0xb6db000; 0xb7fc000; 0x3fff8000;
   0xdb6d0000; 0xde0c0007; 0xf8180016; 0xd0200036; 0xc060007f; 0x80c16db6; 0x10b6dbc; 0x31ffff0;
   0x65b6da0; 0x8db6d80; 0x19ffff00; 0x32db6c00; 0x40000000; 0x40000000; 0x200f0e; 0x480000;
   0x1680000; 0x3f80000; 0x2d80010; 0x36c0248; 0x1fc1248; 0x2d96db6; 0x16c96db; 0x1fc9249;
   0x16db6db6; 0x496db0db; 0x49ff8049; 0xb6db00b6; 0x5b6c00db; 0x49200048; 0x1f2000; 0x2480;
   0x24920; 0x36db0; 0x36580; 0x24900; 0x1b6d80; 0x1b2c00; 0x124800; 0x5b6c00;
   0xd96000; 0x924000; 0x2db6000; 0x6cb0000; 0x4920000; 0x16db0000; 0x36580000; 0x24900001;
   0xb6d80005; 0xb6c00009; 0x2480002d; 0xb6c0016d; 0xb6c00249; 0x24801b6d; 0xb6005b6d; 0xb604924b;
   0xfcb6db6d; 0xb1b6db7f; 0xf12497ef; 0xedb6db0d; 0xbffff80f; 0x89249009; 0x1d1e01; 0x640000;
   0xb6580006; 0xdb800032; 0x1c00096c; 0x800067f0; 0x13fc2; 0x7002db2d; 0xb01ff9c0; 0xd0ff8e13;
   0xdb65b6c; 0x3fe07f91; 0xff03fe8b; 0x6816d87f; 0x80ffc1fc; 0x7fe16d0; 0x2db07f01; 0xff81fc07;
   0xf80db05b; 0x603fc1fc; 0xfe0fe0; 0x360b600; 0xc07f800; 0x3fc000; 0x36c0000; 0x3f800000;
   0xfc000006; 0xc0000018; 0x0; 0x1e1e01; 0xb2000; 0x2db6000; 0xdb6c000; 0xb6db0005;
   0xb6db000b; 0x6db0002d; 0xb6c0016d; 0xb6c006db; 0x6d000b6d; 0xb000db6d; 0xb001b6db; 0x6006db6d;
   0x8036db6c; 0x2db6d0; 0xb6db00; 0x1b6da00; 0x36db000; 0xdb6c000; 0x2db60000; 0x5b600000;
   0x6d80000b; 0x6d8000b6; 0xdb2016db; 0x6d80b6db; 0x6d836db6; 0xdb2db6db; 0x6c6db6db; 0x6e492492;
   0x40000000; 0x1d1e01; 0x1200000; 0xb6c00002; 0x49000012; 0x4800036d; 0xb0002492; 0x12490;
   0x6db6d; 0x804925b6; 0x2492db0; 0x2db6db60; 0x925b6d80; 0x92db6c0b; 0x6db6c024; 0xb6db0125;
   0xb6d806db; 0x6da0496d; 0xb6024b6d; 0xb16db6db; 0x492db60; 0x2492db02; 0x492db000; 0x36c000;
   0x1b60000; 0x5b6d800b; 0x6db4005b; 0x6db005b6; 0xdb001249; 0x24000000; 0x1d1e00; 0x48000;
   0x1ff8000; 0xb6db0007; 0xfffc00ff; 0xfff80b6d; 0xb6c07fff; 0xff03ffff; 0xfc36db6d; 0xb0ffffff;
   0x8fdf7ffc; 0x6cb2cb61; 0x92492f0c; 0x38c9; 0x2492cb24; 0x924b0060; 0x18049249; 0x64925926;
   0x92004020; 0x124b249; 0x492c920; 0x0; 0x49249001; 0x64b20001; 0x24800092; 0x49000249;
   0x24000000; 0x2490; 0x0; 0x1c1c02; 0x2492000; 0x92490000; 0x124; 0x92400924;
   0x92000000; 0x924924; 0x84924924; 0x9; 0x24924849; 0x24924000; 0x9249; 0x24849249;
   0x24010030; 0x92c9649; 0x4924b240; 0x10010092; 0x5b248492; 0xc9200004; 0x12492; 0x400964b2;
   0x124900; 0x125b2400; 0x12490000; 0x4; 0x92000000; 0x1d1f00; 0x40000; 0x1fc0000;
   0xb6db0016; 0xdb6c00ff; 0xffe00b6d; 0xb6c06db6; 0xdb07ffff; 0xf836db6d; 0xa2db6db6; 0x1f5deff0;
   0x6db6db45; 0x92492c3c; 0x924962db; 0x6db6c924; 0x924849e4; 0xb245b6db; 0x6d92792c; 0x92924924;
   0x8b6db6d9; 0x496c920; 0x24924802; 0xdb6db009; 0x64b20049; 0x249000b6; 0xdb000249; 0x20001249].
Definition emoji_data_44 : list N :=
  [0x2d90; 0x1200; 0x0; 0x1d1f00; 0x48000; 0x17f8000; 0xb6db0006; 0xdb6c00ff;
   0xfff80b6d; 0xb6c06db6; 0xdb03ffff; 0xfc36db6d; 0xb0db6db6; 0x87dffffc; 0x6db6db61; 0xb6db6d0c;
   0x924978db; 0x6db6cb6d; 0xb6db4964; 0x9a4db6db; 0x6d96db6d; 0xb692c924; 0x936db6db; 0x5b6db60;
   0x24924902; 0xdb6db00b; 0x6db6c00b; 0x6d9000b6; 0xdb6002db; 0x6c000249; 0x2db0; 0x1200;
   0x0; 0x1e1f00; 0x90000; 0x1ff8000; 0x1fffa000; 0xffffc007; 0xffff803f; 0xffff81ff;
   0xfffe07ff; 0xfff83fff; 0xffe0ffff; 0xffc3ffff; 0xff0f6db6; 0xf83edb6d; 0xf0fb6db7; 0xc3db6db6;
   0x2db6db6c; 0xbefb7df1; 0xb7db6dbb; 0x6fb7db2d; 0xbedf6c6d; 0xb6db685b; 0x6db6816d; 0xfed8036d;
   0xb6d806fb; 0x7d801bff; 0xf6005b6d; 0xb000b6db; 0x5b6c; 0xdb60; 0x9200; 0x0;
   0x1c1d01; 0x248000; 0x24924001; 0x24920092; 0x49201249; 0x24809249; 0x24092492; 0x41249248;
   0x49249244; 0x92492412; 0x49248492; 0x49244000; 0x492492; 0x49492492; 0x40180104; 0x92c92494;
   0x9e4b2400; 0x100924; 0xb2490924; 0x92400040; 0x124924; 0x80964b20; 0x249000; 0x24924001;
   0x24900000; 0x49; 0x20000000; 0x1c1d01; 0x402000; 0x5b6d8007; 0xfffc007f; 0xfff00db6;
   0xdb01ffff; 0xf81fffff; 0x82db6db6; 0x3ff9ffc3; 0xfc07fc6c; 0x924b63a4; 0x925e3000; 0xc64925;
   0x9632c934; 0xc30c030c; 0x24925961; 0x24924800; 0xb000249; 0x24901249; 0x24830596; 0xc64b6c9;
   0x6324925e; 0x780001e6; 0xc924b6fe; 0x4927ffe0; 0x7f6c12; 0x1200000; 0x1a1c02; 0x2492000;
   0x49240000; 0x4924; 0x90092492; 0x1; 0x24924924; 0x92480000; 0x249249; 0x24924920;
   0x92; 0xc9649249; 0x2c901003; 0x24b2592; 0x49249240; 0x3000124; 0x92482492; 0x48006580;
   0x2496c924; 0x92492400; 0x9249; 0x24924924; 0x90000002; 0x41240200; 0x1c1d01; 0x209000;
   0x2d96c003; 0x6db600ff; 0xffe016db; 0x6d81b6db; 0x681fffff; 0xc36db6d8; 0x5b6db6c7; 0xf64bfc36;
   0xdb6da592; 0x492c7924; 0x92cb6db6; 0xdb59e4b2; 0xc49e4b24; 0xb6db6db4; 0x92492409; 0x2492416d;
   0xb6d81924; 0x92c192d9; 0x2c36db6d; 0x8592d92c; 0x792493cb; 0x6db6db5b; 0x2496c782; 0x483e9009;
   0x1b00000; 0x1c1d01; 0x60b000; 0x1fdf8006; 0xdb6c00b6; 0xdb600fff; 0xff016db6; 0xd81b6db6;
   0xc1ffdffc; 0x36db6d85; 0xb6db6c7f; 0x2497c36d; 0xb6da5b6d; 0xb6c7964b; 0x2cb6db6d; 0xb5b6db6c;
   0x4964b24b; 0x6db6db5b; 0x6db6c092; 0x492016db; 0x6d81b6db; 0x6c793fd2; 0xc36db6da; 0x5b6db6c7;
   0xf2497eb6; 0xdb6db582; 0xd92c4804; 0x80400000; 0x1c1d01; 0x596000; 0x3f9fc007; 0xffff007f;
   0xfff01fff; 0xff83ffff; 0xf83fffff; 0x83fffffc; 0x3ff6ffe3; 0xffb7fc3f; 0xfb7fc7db; 0x6dbe3edb;
   0x6deffdb7; 0xdf6db6db; 0x6b6db7df; 0xf7db7df6; 0xdb6db636; 0xdf6d816d; 0xf6d82db6; 0xdb436db6;
   0xdc3effed; 0xc7db6dbe; 0xfedb6dff; 0xedb6ff7f; 0xb6dfefe5; 0xb67fd009; 0x1b00000; 0x1a1c01;
   0x208000; 0x48240024; 0x92402492; 0x48092492; 0x4924924; 0x92492124; 0x92489249; 0x24924924;
   0x84800022; 0x49249249; 0x24925040; 0xc192c96; 0x492492c9; 0x41003024; 0x92492492; 0xc9200010;
   0x124924; 0x92596484; 0x7f80249; 0x6c924924; 0x92520000; 0x99249249; 0x20920900; 0x1f2000;
   0x120000; 0x960000; 0x1240000; 0xdb60000; 0x2db60000; 0x49240009; 0x6db6405b; 0x6db6c017;
   0xffe4005b; 0x6db6005b; 0x6db00032; 0x4900004b; 0x6da20059; 0x24844030; 0x40008249; 0x25100249;
   0x24220010; 0x40249; 0x8800249; 0x21100490; 0x201248; 0x64801240; 0x8800000; 0x48049249;
   0x6c2d92d8; 0x60492490; 0x36db6d9; 0x965b6cb; 0x2492482; 0x1b6db6c8; 0x9249208; 0x1e2000;
   0x2090000; 0x24920000; 0x4; 0x92490049; 0x24900000; 0x124; 0x92400249; 0x24000000;
   0x4924; 0x80009248; 0x2000c; 0x16cb20; 0x249640; 0x181000; 0x4924820; 0x92480c0;
   0x800120; 0x24921b00; 0x4920b600; 0x24024809; 0x2416d002; 0x402d8000; 0x920049; 0x1b02492;
   0x436006c0; 0x4249649; 0x492c92; 0x4000c001; 0x9259240; 0x10; 0x141f01; 0x160003f;
   0xc006da00; 0xffe00ffe; 0x16db00b; 0x65008000; 0x12590092; 0x40002000; 0x24800124; 0x120002;
   0x48001200; 0x40124; 0xb0092d84; 0x48b25b; 0x24924949; 0x248b6c92; 0x5b249492; 0x49b65b65;
   0x92db4824; 0x8b25b200; 0x24000000; 0x1d1f00; 0x5b2000; 0xb6d8000; 0xffff802d; 0xb6db01b6;
   0xdb6c0fff; 0xffe0db6d; 0xb6cb6db6; 0xda792492; 0x45924924; 0xb6000000; 0xf000000b; 0x2492496c;
   0x924923e0; 0x164b; 0x2592d92c; 0x964f0060; 0x602c964b; 0x25b24924; 0x97000000; 0x5924b249;
   0x4924900; 0x90; 0x49248001; 0x24920000; 0x12092; 0x49000249; 0x20000000; 0x2490;
   0x0; 0x192000; 0x80000; 0xb64002ff; 0xfc16db6d; 0xb5fed920; 0x5ffd805b; 0x6d801fdb;
   0xe40ffff0; 0xb6db003; 0xffec81a7; 0x86406d92; 0x404d2c90; 0x6060004; 0x92400124; 0x80000000;
   0x924800; 0x24900002; 0x40000248; 0x9000; 0x12; 0x49200f92; 0x7a1fc93f; 0x96db6daf;
   0xf65fe7ff; 0x3ffadb6d; 0xb6924924; 0x201e02; 0x240000; 0x492000; 0x1248000; 0x1249000;
   0x2492000; 0x9249000; 0x9248000; 0x124b2000; 0x9259000; 0x8658000; 0x12cb6000; 0x925b000;
   0x5f000; 0x2496000; 0x1249000; 0x208000; 0x5b6580; 0x2486c0; 0x8f80; 0x6c96d80;
   0xb24b6c0; 0x90096f0; 0x16c96db0; 0x4b64b258; 0x4920921c; 0xb2cb65b6; 0x4924939b; 0x69249390;
   0xb24925b0; 0x49241200; 0x1e1f01; 0x400000; 0x1200000; 0x5b6c0001; 0xb6d80016; 0xdb6000b6;
   0xdb60016d; 0xb68001bf; 0xfc000db6; 0xd8001b64; 0xc0006003; 0x124b6; 0x2c920; 0x30400;
   0x492480; 0x924800; 0x80000; 0x2d90000; 0xff20000; 0x12400000; 0x92400001; 0x24920004;
   0x1248012d; 0x96d91249; 0x25904924; 0x9646db6d; 0xb6649649; 0x2c124924; 0xb1b6db6d; 0x81249249;
   0x0; 0x1f2000; 0x2492490; 0x2492490; 0x4924920; 0x36db6db0; 0x3ffb2d80; 0x7ffa4901;
   0xb6db6d87; 0xfff96c0f; 0xfff0482d; 0xb6db6c3c; 0x92cb6041; 0x192416c; 0xb2d96124; 0xb2490060;
   0x40120924; 0x96db0924; 0x92480040; 0x24900b6c; 0xb6d80bed; 0xb6c00241; 0x2480c92d; 0xb6c0c92d;
   0xb6008049; 0x2402496d; 0xb6104124; 0x90000000; 0x492c920; 0x492c920; 0x78000; 0x24964900;
   0x120000; 0x202000; 0x490000; 0x16d8000; 0x1658000; 0x6db6000; 0xb6db000; 0x9659000;
   0x16db6c00; 0xb6db000; 0x9659000; 0x16db6c00; 0x1b6db600; 0x9659000; 0x6cb6000; 0xbe5f000;
   0x1e1c000; 0x2c96002; 0x12c9001; 0x40008; 0x2492012; 0x1248008; 0x240000; 0x490010;
   0x240018; 0x0; 0x2c96030; 0xb24b240; 0x9209240; 0xb6cb6db0; 0x5b2cb640; 0x49249200].
Definition emoji_data_45 : list N :=
  [0xb6db6db0; 0x49249200; 0x1d2000; 0x580000; 0xbe80000; 0xffe0000d; 0xb6c000ff; 0xfe0007ff;
   0xf0005b6d; 0x8001ed9e; 0x92030; 0xb24b00; 0x2496c00; 0x30e0001; 0x2cb20004; 0x92400000;
   0x80000049; 0x24000124; 0x80000120; 0x9640; 0x24924; 0x80004924; 0x802c9248; 0x24924929;
   0x249249b6; 0x5b65b249; 0x24921249; 0x20916cb6; 0x4b649249; 0x24249249; 0x224b6db6; 0x249240;
   0x1f2000; 0x492490; 0x2492490; 0x0; 0x12c92490; 0x17f80000; 0x7ff00001; 0xb6d92487;
   0xfff9040f; 0xfff2002d; 0xb6c9243c; 0x92c92041; 0x192016c; 0xb2492124; 0xb2490060; 0x40900924;
   0x92490924; 0x92480040; 0x24800924; 0x92480925; 0x92400243; 0x2400492c; 0x9240490c; 0x90000000;
   0x164924; 0x90b04164; 0x916002d8; 0x5b2cb60; 0xdb2cb60; 0x1b2796c0; 0x2db6db40; 0x24924900;
   0x202000; 0x80000; 0x2c0000; 0x248000; 0x2db6000; 0x36db000; 0x1249000; 0x6db6000;
   0x36db000; 0x1249000; 0x6db6000; 0xb6cb000; 0xe001000; 0x6c92000; 0x9659000; 0x418000;
   0x2492000; 0x12c9000; 0x40000; 0x2492082; 0x12480c3; 0x2400c3; 0x490096; 0x2400db;
   0x58; 0x2492030; 0xb24b018; 0xb003018; 0x16db6c30; 0x4b6db218; 0x82db018; 0x965b6cb0;
   0x9249008; 0x1d1f01; 0x200000; 0xfe00001; 0xb6c0001f; 0xff0000ff; 0xf8000b6d; 0xb0007ff7;
   0x3ec98; 0x124961; 0x80892000; 0x410000; 0x24964100; 0x10400c00; 0x10010049; 0x64100124;
   0x90480104; 0x16c8; 0x24004900; 0x90000000; 0x48048; 0x920100; 0x12; 0x49249048;
   0x6c924003; 0x922496; 0x4b6c90c1; 0x6db0020b; 0x6dc92cb6; 0xd8008049; 0x0; 0x1e1f01;
   0x60; 0x200; 0x800900; 0x2db05b02; 0xffe4900f; 0xff82405b; 0x6d8601ff; 0xfc2007ff;
   0x300016c9; 0x60306493; 0x101904c; 0x40492c8; 0x2c0b2480; 0x40041000; 0x1259000; 0x2492000;
   0x0; 0xb240000; 0x16c00000; 0x8000006; 0x4b00007c; 0x960001f0; 0x9000db2; 0x5b205be5;
   0x92c02fb0; 0x4b092d92; 0x4b924924; 0x90002492; 0x52492492; 0x40000000; 0x182000; 0x240000;
   0xdb00016d; 0x800325c0; 0x6db600b; 0x6db00f24; 0xf016db60; 0x1b6db01f; 0xfff0b6db; 0x6cf92cbe;
   0xf9009fb2; 0xcb2d7925; 0x96100004; 0x12592001; 0x24800000; 0x24b20; 0x12c8000; 0x249;
   0x200f24b0; 0xf24f016; 0xcb6c4f2c; 0xb24f3cf2; 0xb6db6c4f; 0x24b20f24; 0xf0964964; 0x1a2000;
   0x1004; 0x901b0090; 0xff00007; 0xfe12416d; 0x92487ce0; 0x19004b; 0x5920900; 0x92000004;
   0x1240240; 0x24004000; 0xcb0; 0x5964921b; 0x69248248; 0xb6c16d92; 0x482d8090; 0x9225b21;
   0xb20904b6; 0x42400489; 0x6c82406c; 0x2480900; 0x1205b009; 0x1900120; 0x24000812; 0xc0240640;
   0x81980e; 0x60cb0594; 0x1c2000; 0x1001001; 0x6c06d81b; 0x60ffc1ff; 0xffc36d9; 0x6d81b60f;
   0x6c092090; 0x416c0258; 0x9201200; 0x92000016; 0xc02480b0; 0x1200100; 0x16c06; 0x580920b6;
   0xc0920924; 0x36d96d84; 0x920b6409; 0x2012016c; 0x96d84924; 0x36049241; 0x2096c024; 0x90b60120;
   0x9401201; 0x6c024009; 0x40120080; 0x12006c0; 0x24008401; 0x200ce032; 0x16c0658; 0x1b2000;
   0x2000401; 0xb00b605b; 0x41fe1ff8; 0x7fe2db0d; 0xb66db3fb; 0xd940821; 0x6d824816; 0xc0248248;
   0x803681; 0x24036002; 0x200000; 0x5b60b604; 0x901b6092; 0x9242db0; 0x5b264b05; 0xb0492092;
   0x36c92d91; 0x2482d904; 0x80480360; 0x9248b601; 0x2006c024; 0x1b00920; 0x1b009003; 0x601000c8;
   0x900d80; 0x4007b009; 0xe06582d8; 0x1b2000; 0x4000803; 0xfc06c0ff; 0xc1fe1ff8; 0x7fe7f70b;
   0x6c7fe1f3; 0x8ffc3200; 0xdb05922d; 0xb04901f4; 0x1006d80; 0x4802c004; 0x780000; 0x36c16589;
   0x2436d124; 0x82485b68; 0xb6c4920b; 0x60924124; 0x25b61b26; 0x4865b209; 0x41232d9; 0x4806c10;
   0x48048009; 0x16c0240; 0x32002402; 0x40008096; 0x1201900; 0x203301c; 0xc0cb0594; 0x1a1f01;
   0x2c00000; 0xfc00003e; 0xb00; 0x32000; 0x400000; 0x24000004; 0x100; 0x1b000;
   0x120000; 0x4000006; 0xc0000248; 0x1240; 0x1b0400; 0x9208000; 0x4020006c; 0xd80;
   0x96000; 0x5b60000; 0xb6000021; 0x80003058; 0x4161800; 0x8c060002; 0x81400640; 0x6000d81f;
   0x110580; 0x0; 0x171d01; 0x590002; 0xdb000492; 0x40b6db01; 0xb6db0124; 0x920db6db;
   0x2db6db49; 0x6d936db6; 0x5964925a; 0x1001b24; 0x92492492; 0x504020c9; 0x64924925; 0x92020102;
   0x49249249; 0x24900240; 0x24b2482; 0x49240080; 0x4012db20; 0x12db2000; 0x90001248; 0x24000;
   0x1a1e00; 0x40000; 0x36d8001f; 0xff002fff; 0xd016db6c; 0x7ffff81; 0xffffe0db; 0x6db67fff;
   0xff9fffff; 0xeb6db6db; 0xffffff7f; 0xff97edb6; 0xc967b249; 0x79e4020c; 0x12c96492; 0x79348010;
   0x8004924; 0x92092492; 0x10001; 0x25b24024; 0x92400000; 0x8000b6d9; 0x16d900; 0x900000;
   0x49200009; 0x20000000; 0x171905; 0x240000; 0x924; 0x492400; 0x249; 0x24024924;
   0x12; 0x49209249; 0x200c0604; 0x925924b2; 0x59202010; 0x24924924; 0x92480020; 0x24b240;
   0x24924008; 0x12db2; 0x12d9000; 0x9000124; 0x80012400; 0x171d01; 0x480000; 0x49000000;
   0x124900; 0x92490000; 0x49249; 0x4924800; 0x2492; 0x49249248; 0x124; 0x92492492;
   0x40402049; 0x64924925; 0x92020102; 0x49249249; 0x24900240; 0x24b2482; 0x49240080; 0x4012db20;
   0x12db2000; 0x90001248; 0x24000; 0x1a2000; 0x1000005; 0xb00001f0; 0x7c00; 0x164000;
   0x6c00001; 0x9000004b; 0x1900; 0x24000; 0x1640000; 0x2480000d; 0x20000592; 0x4800f6db;
   0x3ff7c0; 0x6db6002; 0xdb6c003f; 0xfb001b68; 0xb00f7c16; 0x3ffe480; 0x6db0c03f; 0xfe5b0f6f;
   0x87edb6c3; 0x6c32c823; 0x4920082; 0xc960304b; 0x200c1608; 0x2010400; 0x1b1f01; 0xb00000;
   0x1f000003; 0x58; 0x400; 0x8000; 0x12c0001; 0xb2400006; 0x48000096; 0x920;
   0x12000; 0x5b0000; 0x5b04000; 0xffc8002d; 0xb6c002db; 0x6c025ffc; 0x80b6db60; 0x1964160c;
   0x20c040cb; 0x6cb624b2; 0xd3041650; 0x204d964b; 0x72492df1; 0x925b032; 0x9240365; 0x92803d82;
   0x40016010; 0x0; 0x191f01; 0x480000; 0xbec0007f; 0xe000db6c; 0xbfff00; 0x7fff801b;
   0x6d801ed9; 0x600c0030; 0x3249002; 0x69640030; 0x30012c92; 0x92400; 0x900004; 0x92400124;
   0x80001200; 0x124000; 0x4800010; 0x800364b; 0x3c96c0; 0xbe0164b6; 0xcb6c3db2; 0xc91ef920;
   0x96db64bd; 0xb6d82249; 0x24124924; 0x90000000; 0x1f1d03; 0x40000; 0x1b60000; 0x5b60000;
   0xb6d0000; 0x6db60000; 0x6db60000; 0xdb2c0003; 0x6c900009; 0x24900000; 0x120000b; 0x2480004b;
   0x2c800000; 0x800004b; 0x24000049; 0x20000012; 0x400002db; 0x20100249; 0xb00000; 0x1e00248].
Definition emoji_data_46 : list N :=
  [0x5b00240; 0x5a00002; 0x305925b; 0xc3f827f; 0x207f8cff; 0x416db6db; 0x1ffb7f9; 0x3fffff0;
   0xb6db6c8; 0x0; 0x172000; 0x24000d; 0xb6006db6; 0x80d92d83; 0x6cb68b64; 0xb61ec96e;
   0x5b6db65b; 0x6db0ffff; 0xe0db6580; 0xc9250190; 0x42025964; 0x2492000; 0x80001259; 0x20124900;
   0x16; 0x480016c0; 0x40000; 0x12000092; 0x480091; 0x6c92d920; 0x82400180; 0x9259249;
   0x2792401e; 0x492c92; 0x181f00; 0x920001; 0xffc00b6d; 0xb00ffff8; 0x3ffff85b; 0x6db67fff;
   0xff7fffff; 0xdb6db67f; 0xffdfffba; 0xfdb2496; 0x64924be0; 0x3c925; 0x926592c9; 0x180c049;
   0x25922492; 0x49001000; 0x492c9224; 0x924800fe; 0x4b6d92; 0x27ffc804; 0xff40092d; 0x90049240;
   0x1; 0x24800092; 0x0; 0x1f2000; 0x40000; 0x480000; 0xb6c0000; 0xb6c0000;
   0x12480000; 0xdb680012; 0xdb648027; 0xf7f900b6; 0xdb6c00b6; 0xfb6c0025; 0xb64000b6; 0xdb000092;
   0x58040030; 0xf00804b2; 0xc9018492; 0x4a200020; 0x4004b2; 0x480c0492; 0x11000120; 0x2002db0;
   0x40602480; 0xc8000000; 0x92002482; 0xc8092400; 0xc0120120; 0x82db6db2; 0x2db6592; 0x492c924;
   0x16db6d90; 0x16db6c90; 0x4924020; 0x1f1d02; 0x12492400; 0x12492000; 0x0; 0x92492000;
   0x92492000; 0x0; 0x92480000; 0x92480001; 0x24800004; 0x92400004; 0x92400007; 0xc00002c;
   0x92000124; 0x92000001; 0x120124; 0x90580124; 0x80d80049; 0x90096c; 0x86d80124; 0x6c00000;
   0x4800920; 0x36c00920; 0x36001240; 0x24125b24; 0x30925924; 0xb000; 0x492c925; 0x8492c920;
   0x0; 0x141d02; 0x4900024; 0x80000000; 0x49200249; 0x4; 0x92002490; 0x2080049;
   0x20024800; 0x48005b2; 0x248000; 0x4920; 0x124b0100; 0x9064964b; 0x24921249; 0x26db24b6;
   0xc9296492; 0x6d92db64; 0xb6904926; 0x4b6c325b; 0x0; 0x1f1f00; 0x248000; 0x2ffe000;
   0xb6db600; 0x5b6db600; 0xfffffc02; 0xdb6db606; 0xdb6db60f; 0xfffffc36; 0x492490b0; 0x1e0;
   0x1b2; 0x49248592; 0x49248f80; 0x2d92; 0x49242c96; 0x4b24780c; 0x6016492; 0x49256492;
   0x5923c000; 0x32492; 0x490b2492; 0x49020024; 0x482492; 0x48002492; 0x40000000; 0x2412492;
   0x12492; 0x0; 0x12480; 0x2400; 0x0; 0x191f01; 0x2c800b; 0x6db617ff;
   0x6d8bff92; 0x416db6c0; 0x7b6dc01f; 0xffe00db6; 0xd0037fb0; 0x924000; 0x9248002c; 0x92000608;
   0x164b20; 0x4924000; 0x8000249; 0x20009248; 0x92000; 0xb640002; 0x48000000; 0x12400;
   0x249200f; 0x20be1b6d; 0xb6dffb7f; 0xcffc9ffb; 0x6db6dbff; 0x6ffd2492; 0x48000000; 0x1f1e02;
   0x920000; 0x920000; 0x1248000; 0x24920000; 0x24920000; 0x49240001; 0x24b00001; 0x25900002;
   0x4b800009; 0x6d90000b; 0x2f800012; 0x1f000049; 0x6c800049; 0x2c000002; 0x58000049; 0x6080005b;
   0x25800092; 0x1f000249; 0x2c00164b; 0x6c012492; 0xff05b25b; 0x6c05b25b; 0x2c092092; 0x5e65b2c9;
   0x2d24924b; 0x2dc92496; 0x5b24b259; 0x2f249279; 0x2000092; 0x0; 0x1d1d02; 0x2c80000;
   0x5b640002; 0xdb60006d; 0xb6c001b6; 0xdb000db6; 0xd8005b64; 0x80012490; 0x0; 0x924900;
   0x2492000; 0x30f0001; 0x2cb20004; 0x92480000; 0x8000004b; 0x24000124; 0x80000000; 0x9240;
   0x24800; 0x100; 0x25b6c0; 0x4925b21; 0x2492e8b6; 0xdb2d9249; 0x64925249; 0x24b16db6;
   0xdb649249; 0x2c000000; 0x202000; 0x249248; 0x1249248; 0x2db6db6; 0x164b6d9; 0x1009248;
   0x2492cb6; 0x12496d9; 0x1248; 0x2492cb6; 0x12496d9; 0x248; 0x2492cb6; 0x12496c9;
   0xe18240; 0x2c924b6; 0x9249249; 0x41000; 0x2492db6; 0x12496d9; 0x1248; 0x2492db6;
   0x124b6d9; 0x1009248; 0x2496db6; 0x12412d8; 0x248; 0x12492490; 0x492c1200; 0x2c0000;
   0x92592480; 0x492c9200; 0x40000; 0x1f2000; 0x90000; 0x960000; 0x16db0000; 0x16db0000;
   0x24b20001; 0xb6db0001; 0xb6da0001; 0x2590000d; 0xb6d8002d; 0xb6d8005b; 0x2d90002d; 0xb6c0002c;
   0x9e000078; 0x7c00016c; 0xb2000164; 0xb0010248; 0x2002092c; 0x80080924; 0x80480248; 0x100b64;
   0x2400920; 0x2000000; 0x4004920; 0x1002c920; 0x30248248; 0x40b64b6c; 0x81b24b69; 0x1249242;
   0xdb6db64; 0x2db2db68; 0x9209200; 0x1f1d02; 0x490000; 0x2490000; 0x0; 0x12490000;
   0x12490000; 0x0; 0x92480000; 0x92480001; 0x41800005; 0x92400024; 0x96400000; 0x20000025;
   0x92000024; 0x90000009; 0x12d; 0x90000124; 0x80000009; 0x124; 0x92580124; 0x92409049;
   0x2486db6c; 0xb6124924; 0x92249241; 0x24b6db65; 0xb0924924; 0x91249209; 0x5b2db6d; 0x84924924;
   0x0; 0x1f1e02; 0x2492492; 0x2480000; 0x0; 0x12492490; 0x12492000; 0x4000;
   0x92492480; 0x92490000; 0x20004; 0x92496404; 0x9249000f; 0xc12002c; 0x924b2124; 0x92480001;
   0x4900124; 0x92590124; 0x92400049; 0x2480096c; 0x92c80924; 0x92000001; 0x20004924; 0x92424904;
   0x9205801b; 0x36496d; 0x90b6596c; 0x164f258; 0x5b6cb6c; 0x5b6db60; 0x9249240; 0x0;
   0x1d2000; 0x200000; 0x1000000; 0xb6c00016; 0xdb000092; 0x48000b6d; 0xa0006db6; 0x12490;
   0x16db60; 0x592400; 0x2412000; 0x24924000; 0x92480001; 0x83000049; 0x2c800124; 0x90000020;
   0x92c8; 0x824920; 0x82024804; 0x102d9041; 0x92010c; 0x960; 0x9003609; 0x2480c0c0;
   0x4022d92; 0x5928b6db; 0x20819ff8; 0x4596db2; 0x5165b641; 0x1249008; 0x1f1d02; 0x490000;
   0x2490000; 0x0; 0x12490000; 0x92480000; 0x4; 0x92480004; 0x2400000; 0x25;
   0x96400024; 0x96410008; 0x120124; 0x92000024; 0x90000000; 0x900124; 0x8248016c; 0x82400048;
   0x4800124; 0x2000120; 0x12000240; 0x24024924; 0x90120924; 0x90001200; 0x92592d; 0xb092592d;
   0xb000805b; 0x6492c96d; 0xb492096d; 0x80000000; 0x1f1e01; 0x40; 0x160; 0x100;
   0x1240; 0x4925b60; 0x24904900; 0x1001; 0x24905001; 0x24904000; 0x1009; 0x24804009;
   0x2480c00e; 0x18018059; 0x2402c249; 0x24020002; 0x40249; 0x20000249; 0x92; 0x12d9;
   0x248; 0x2010; 0x1b258; 0x59249; 0xfe4b6; 0x402db2db; 0x6125b649; 0x60012012;
   0x4b24b249; 0x69259249; 0x0; 0x182000; 0x100000; 0xb600016d; 0x8005b6c0; 0x792c00b;
   0x6db00db6; 0xd00f92f8; 0x1b6db02d; 0xb6d87fff; 0xded96d96; 0xe4924f60; 0x830f5965; 0x96249248;
   0x100001; 0x2c800492; 0x40009200; 0x16c8000; 0x92000082; 0xb65b0; 0xc92702e; 0x82785b6d;
   0xb62c9279; 0x2e92794b; 0x6db22c92; 0x79040040; 0x1c2000; 0x6000400; 0xfe01201f; 0xe000036d;
   0x82481f70; 0x9243f300; 0x365824; 0x80920120; 0x8001201; 0x2402c809; 0x120010; 0x1201240].
Definition emoji_data_47 : list N :=
  [0x2480920b; 0x2c092092; 0x436d96d8; 0x920b6c0; 0x92012016; 0xc96d8492; 0x3640920; 0x12096c02;
   0xd90b6012; 0xb60120; 0x16c02480; 0x96012009; 0x12006c; 0x2400940; 0x12008001; 0x2016c065;
   0x80820120; 0x1b2000; 0x4800802; 0xd804807f; 0x800016d8; 0x24836d82; 0x487ce000; 0xb6c1240;
   0x92012412; 0x402401b2; 0x9204900; 0x90012002; 0x580490; 0x2480cb04; 0x9009216d; 0x86db1249;
   0x6d824904; 0x90b6416c; 0x892496c0; 0x2402481b; 0x4b665b0; 0x9003601; 0x200d8049; 0xd80480;
   0x1b008006; 0x4004806c; 0x2000980; 0x40032816; 0xc0920124; 0x1a2000; 0x16002006; 0xc00407fe;
   0xdb04; 0x925b6092; 0x1fd80003; 0x6c12496d; 0x82480900; 0x120db00b; 0x1b00920; 0x2c004016;
   0x402412c8; 0x25849209; 0x22db05b6; 0x4920b612; 0x4824896d; 0x96d92412; 0xd9090492; 0x25b21b01;
   0xb049246c; 0x4816c0; 0x24064004; 0x80900020; 0x4b009019; 0x20240; 0x812c06; 0x40240208;
   0x1c2000; 0x6000400; 0xfe01201f; 0xe00003ff; 0x82483ff0; 0x9243ff00; 0x36d824; 0x81b60120;
   0x1fe01201; 0x6c02c80b; 0x601200f8; 0x12016c0; 0x2480b20b; 0x2c092092; 0x436d96d8; 0x5920b6c6;
   0x92012036; 0xd96d8492; 0xc3644924; 0x12096c22; 0xd94b6412; 0xb60120; 0x16c02480; 0x96012009;
   0x12006c; 0x2400940; 0x12008001; 0x2016c065; 0x80820120; 0x1b1f01; 0x200000; 0x1;
   0x20000090; 0x0; 0x9000; 0x0; 0x8000002; 0xc0000024; 0x480; 0x16000;
   0x120000; 0x2400000; 0xb2c00009; 0x4000120; 0x8000580c; 0xd8000; 0xb00000; 0x2d800006;
   0xd000024a; 0xb2c0; 0x20182802; 0x9050002; 0xc1600228; 0x14002303; 0x800420b6; 0x420900;
   0x0; 0x181e01; 0x490002; 0x490005b6; 0xc016db60; 0x1249242d; 0xb6d836db; 0x6c124924;
   0x6db6db36; 0xdb2c1249; 0x464924b; 0x32492410; 0x46592; 0xc993c9a4; 0x3018025; 0x92c99249;
   0x24000800; 0x24b64812; 0x59240008; 0x59248; 0x2cb2002; 0x49000492; 0x40024900; 0x0;
   0x12000000; 0x171e01; 0x200000; 0x4924; 0x82492480; 0x1249; 0x24924924; 0x92;
   0x49249249; 0x24000004; 0x92492492; 0x49200000; 0x2492c925; 0x92c90301; 0x81249649; 0x24924800;
   0x12592; 0x9249200; 0x8000924; 0x900b2580; 0x2490009; 0x24000924; 0x0; 0x9000000;
   0x171906; 0x2490002; 0x49000000; 0x924900; 0x92490000; 0x49249; 0x4924801; 0x812592;
   0x49249648; 0x804092c; 0x92492492; 0x40000009; 0x2c92092c; 0x90004800; 0x4924804b; 0x2c801248;
   0x492400; 0x49200000; 0x4800; 0x181c03; 0x4924002; 0x49200000; 0x249248; 0x12492400;
   0x2492; 0x48124924; 0x24; 0x92481249; 0x24000000; 0x2592c993; 0xc9a40301; 0x802592c9;
   0x92492400; 0x80024b6; 0x48125924; 0x80005; 0x924802cb; 0x20024900; 0x4924002; 0x49000000;
   0x1200; 0x1c2000; 0x400000; 0x92000008; 0x164; 0x920; 0xc000; 0x14c000;
   0x920000; 0xd200000; 0x6400000b; 0x20000072; 0x6c8; 0x3249; 0x324b0; 0x6db6c0;
   0x36df000; 0x32ff0002; 0xdb6c0036; 0xd16003ff; 0x92006db0; 0xd003ff86; 0x3ff86c; 0x16db05b5;
   0xb6d82c41; 0x2482020d; 0xa6004124; 0x90061249; 0xb0d860; 0x4020000; 0x1b2000; 0x200000;
   0x2000000; 0x12; 0x100; 0x0; 0x80000; 0x2480002c; 0x9000096c; 0x1240;
   0x4800; 0xb60000; 0xb200000; 0x6400001b; 0x6d8005b6; 0xd800bed9; 0x6db6c0; 0x16df6c06;
   0x59458186; 0x592c1965; 0x96812cb2; 0x48cb6496; 0x48b2c97d; 0x821b7c21; 0x26db0641; 0x24806862;
   0x9006d86c; 0x240200; 0x191d03; 0x492000; 0x92400000; 0x4924; 0x124900; 0x9;
   0x24800249; 0x20006080; 0x164b200; 0x49240000; 0x80002492; 0x92480; 0x920000; 0xb6400024;
   0x80000000; 0x325800; 0x7c9e00b2; 0xb00b64b; 0x616f96d8; 0xb3c924b6; 0xdb65adb6; 0xc1524920;
   0x16db6cb4; 0x92492000; 0x1f1d03; 0x120000; 0xb60000; 0x36d8000; 0x2db60000; 0x2db60000;
   0xdb6c0001; 0x6d960003; 0x24900006; 0x8200009; 0x25b0000b; 0x24800006; 0x8000049; 0x24800049;
   0x24000002; 0x25b; 0x2000025b; 0x20000092; 0x600249; 0x1b00248; 0x5b00080; 0x3209249;
   0x487821f; 0xc1f843f; 0x106d96db; 0x61ffb3ff; 0x3ff67f2; 0x36db6c9; 0x9249240; 0x0;
   0x172000; 0x590006; 0xdb003d97; 0xc0b65b61; 0xb25b4764; 0xb78db6db; 0x3c924b3b; 0xfffc6db6;
   0xd8249240; 0x2c; 0x92013cb2; 0x606001; 0x2490012c; 0x80004800; 0x9248009; 0x24000240;
   0x92000; 0x9000010; 0x964964; 0x90482d00; 0xc92c9; 0x2493c920; 0x7802496; 0x49001200;
   0x1a1f00; 0x90000; 0x9200000; 0x924; 0x90092492; 0x1; 0x24924024; 0x92480000;
   0x49249; 0x24924920; 0x12; 0x49249249; 0x24801008; 0x24b2592; 0x49e4d240; 0x40200924;
   0x92492492; 0x48000400; 0x4924900; 0x92492000; 0x1249; 0x24024924; 0x0; 0x9248001;
   0x24900000; 0x490; 0x0; 0x1f2000; 0x120000; 0x960000; 0x1240000; 0xdb60000;
   0x2db60000; 0x49240009; 0x6db6405b; 0x6db6c017; 0xffe4005b; 0x6db6005b; 0x6db00032; 0x4900005b;
   0x6da200d9; 0x248440b2; 0x690082db; 0x6d100259; 0x24220492; 0x400416db; 0x8801249; 0x21100490;
   0x2016d8; 0x64801240; 0x8802480; 0x4804b649; 0x6c2d92d8; 0x60492490; 0x36db6d9; 0x965b6cb;
   0x2492482; 0x1b6db6c8; 0x9249208; 0x1d1f01; 0x12492002; 0x49248000; 0x124; 0x92400492;
   0x49000000; 0x4924; 0x80012490; 0x92480; 0x924900; 0x6492000; 0x32490001; 0x6db60005;
   0x92400024; 0x920002db; 0x60340924; 0x82c04924; 0x1201b6c1; 0x6c02d80d; 0xb0124024; 0x816c02d8;
   0x4900b60; 0x24804812; 0xdb21b24b; 0x6486005f; 0x1125b2; 0x49049649; 0xc001000; 0x22492492;
   0x0; 0x141f01; 0x160005b; 0x4007fe00; 0xb6c00db6; 0xff200b; 0x6d00c920; 0x49200b6;
   0xc8049200; 0x49200b6c; 0x4b2000; 0x90001600; 0x920041; 0x20592d82; 0x49642412; 0x45b2c96d;
   0xb2424924; 0x5b2496c9; 0x2424924d; 0x96db64b6; 0xc2092401; 0x24000000; 0x202000; 0x48000;
   0x5b6c00; 0x16db6c0; 0x3ffffc0; 0x6db6db0; 0xb6db6d8; 0xffffff8; 0x16db6db4; 0x1b249248;
   0x1c000000; 0x36492492; 0x1b000000; 0x1f000000; 0x365b6db2; 0x1b249248; 0x1f269248; 0x36db6db6;
   0x19269249; 0x19249248; 0x36db6db6; 0x19249248; 0x19249240; 0x104b6d90; 0x249240; 0x0;
   0x92496c90; 0x249240; 0x0; 0x10092480; 0x49200; 0x0; 0x2000; 0x181f01;
   0x16c8025; 0xffc87ff2; 0xff5b6db6; 0xdfed80f; 0xbef00b6d; 0xb20ffff0; 0xffff00b; 0x6db20cb6;
   0x500c9240; 0x96db205; 0x93c80492; 0x400b6db0; 0x4924004; 0x9240036d; 0x8000b640; 0x920001].
Definition emoji_data_48 : list N :=
  [0x6c800092; 0x49240; 0x5b6db67f; 0xb6fe7f92; 0xffdb6db6; 0x6fb7ffff; 0xf7ffcb6d; 0xb6000000;
   0x1f1f01; 0x80000; 0x480000; 0x4920000; 0x12490000; 0x92480001; 0x24900004; 0x92480004;
   0x92c00009; 0x27800025; 0xb6c00025; 0x9640004d; 0x7c80012d; 0xb6000125; 0xb2000249; 0x7000016d;
   0xb0000125; 0x80000249; 0x2c000b6c; 0x36000924; 0xb0009249; 0xfc06db6d; 0xb016c96d; 0xb02c9249;
   0x7896db65; 0xb0964b24; 0xb324924d; 0xf496d92d; 0xbc924964; 0x9d2492ec; 0x2c924b48; 0x0;
   0x1f1f01; 0x400000; 0x2480000; 0x5b20000; 0xb6db0000; 0xb6db0001; 0x6db60005; 0xb6db0005;
   0xb6d8000f; 0xffb0000d; 0xb6c0002c; 0x92c00069; 0x2480006d; 0xb600012c; 0xb2000049; 0x2400016d;
   0xb000012c; 0x90000249; 0xb6d; 0x80000964; 0x248; 0xb64; 0x90000924; 0x90001249;
   0xe416db2d; 0xb6924925; 0x91249249; 0x25b6db6d; 0xb492c92c; 0x89249259; 0x24924924; 0x0;
   0x1d1f01; 0x6db6db0; 0x5b6db642; 0x5b24922d; 0xb6cb60b6; 0xdb2d87ff; 0xc9245b6d; 0xb6c36db6;
   0x5b1ffcf2; 0x48b6db2d; 0x86492cb6; 0x32492411; 0x6db6d905; 0x92496c24; 0x924922db; 0x6c920924;
   0xb6d84924; 0x9245b6db; 0x6c12d96d; 0xb0924924; 0x8b6db6d8; 0x2496db61; 0x4124912; 0x4925b241;
   0x4800008; 0x124b2; 0x48049649; 0x3800; 0x2496490; 0x0; 0x1f2000; 0x240000;
   0x5b60000; 0xdb60000; 0x4b240001; 0x6db60003; 0x6db60002; 0x5924000b; 0x6db0001b; 0x6db00036;
   0xcb6000db; 0x6db0005b; 0x6d8000ba; 0x790002d9; 0x6c0002f9; 0xe40005d2; 0xc8000259; 0x20121249;
   0x100492; 0x16d8; 0x8016c8; 0x4802480; 0x90036c0; 0xc009200; 0x20012480; 0x406db6d9;
   0x16492d9; 0x2492492; 0xb6db6c8; 0x1b64b6c8; 0x12492490; 0x49249240; 0x1e2000; 0x80000;
   0x2db0000; 0x2db60000; 0xfff80005; 0xb6d0001b; 0x6d80007f; 0xf700036d; 0xb6000659; 0x20001924;
   0xc000db6d; 0x8000b248; 0x24920; 0x16db20; 0x259200; 0x924800; 0x5b6c000; 0x96c8000;
   0x4900000; 0x2db24900; 0x49249001; 0x20000059; 0x6db6c492; 0x49241249; 0x2491b65b; 0x2db92492;
   0x49249249; 0x246db6cb; 0x62492492; 0x48049248; 0x9249248; 0x1f1f01; 0x924924; 0x4104904;
   0x240000; 0x25b64920; 0x2db60020; 0x7ffc0001; 0x6db6c903; 0x6db00107; 0xff30000b; 0x6db64819;
   0x24804832; 0x4900005b; 0x6db24059; 0x24824092; 0x480002db; 0x6d920249; 0x20120492; 0x400016db;
   0x6c9012d9; 0x900493; 0x96cb; 0x24809240; 0x810410; 0x2d925b; 0x246c10d8; 0xd820b4;
   0x36cb2d8; 0xb6d96d8; 0x16cbadb0; 0x9259240; 0x0; 0x1f1f01; 0x590000; 0x2db0000;
   0x4920000; 0x36db0000; 0xb6d80001; 0x24900005; 0xb6d80005; 0xb6d00009; 0x6c80002d; 0xb6c00024;
   0x92c00049; 0x2580016d; 0xb6000124; 0xb2000249; 0x2400036d; 0xb0000924; 0x80080249; 0x100b6c;
   0x6180b64; 0x10401240; 0x20801b60; 0x36c00900; 0x36001200; 0x24165964; 0x30924960; 0x803c92c1;
   0x4b6db21; 0x8486db24; 0x12db608; 0x24924904; 0x0; 0x1f1f01; 0x80000; 0xdb0000;
   0x7fe0000; 0x16db0000; 0x36db0000; 0x7ffe0001; 0xb6d80005; 0xb6580008; 0x10400c; 0x92410025;
   0x96400049; 0x24000024; 0x920b0024; 0x92000049; 0x2000016d; 0xb2480124; 0x82480249; 0x400036c;
   0x2400124; 0x2000240; 0xb60; 0x12024904; 0x10001201; 0x125b24; 0x90925825; 0xb000b04b;
   0x6492c96d; 0xb490c16d; 0xa0018249; 0x4820924; 0x80000000; 0x1e1f01; 0x60; 0x200;
   0x800900; 0x2db05b02; 0xdb64900f; 0xff82405b; 0x6d0601b6; 0xd82007ff; 0x300016db; 0x60306492;
   0x1019248; 0x405b6d8; 0x2c0b2480; 0x40249200; 0x16db003; 0x2492000; 0x9248000; 0x1b6c0000;
   0x16c00000; 0x49000006; 0xdb00007c; 0x960001f2; 0x49000db6; 0x5b205be5; 0x92c02fb0; 0x4b092d92;
   0x4b924924; 0x90002492; 0x52492492; 0x40000000; 0x182000; 0x240000; 0xdb00016d; 0x800325c0;
   0x6db600b; 0x6db00f24; 0xf016db60; 0x1b6db01f; 0xfff0b6db; 0x6cfb6dbe; 0xf9249fb6; 0xdb2d79e5;
   0x96192494; 0x16db6001; 0x2c800124; 0x8002db60; 0x16c8001; 0x248002db; 0x200f24b0; 0xf24f016;
   0xdb6c4f2c; 0xb24f3cf2; 0xb6db6c4f; 0x24b20f24; 0xf0964964; 0x1a2000; 0x8001005; 0xb01b07fe;
   0xb61ff87; 0xfeb6c16d; 0x9ed86ca4; 0x8219204b; 0x5b60900; 0x92000024; 0x812406c0; 0x24004800;
   0x100cb0; 0x5b64921b; 0x69248248; 0xb6c16d92; 0x482d8090; 0x9225b25; 0xb20904b6; 0x42400499;
   0x6c82406c; 0x2480900; 0x1205b009; 0x1900120; 0x24000812; 0xc0240640; 0x81980e; 0x60cb0594;
   0x1c2000; 0x1001; 0x2406d809; 0x20b6c000; 0xffc1241; 0x6d80920b; 0x6c000092; 0x416406d8;
   0x9201200; 0x10012012; 0x402d8010; 0x1600000; 0x12016c06; 0xd80920b6; 0xc0920924; 0x16c96d80;
   0x920b6409; 0x2012416c; 0x96d84924; 0x36009201; 0x2096c024; 0x90b60120; 0x9401201; 0x6c024009;
   0x40120080; 0x12006c0; 0x24008401; 0x200ce032; 0x16c0658; 0x1c2000; 0x1001000; 0xfa03e016;
   0xd06d81b6; 0xb6c3ff0; 0xffc36d96; 0xd81b60b2; 0xc0960920; 0x16c06d81; 0xb6012009; 0x2012006c;
   0x2c00b00; 0x12009209; 0x2036d96d; 0x84920b6c; 0x9209243; 0x6d96d849; 0x28b64492; 0x412496cb;
   0x6d94b641; 0x204b6412; 0x96c0249; 0xb601200; 0x94012006; 0xc0240094; 0x1200800; 0x12006c02;
   0x40096032; 0x820120; 0x1c2000; 0x2000401; 0xfc03c83f; 0xf05b03ff; 0x86d83ff0; 0xfdc3fb0d;
   0xb63ef064; 0x81ec0248; 0x2db05b01; 0x6c02c817; 0xc02400d8; 0x1b006c0; 0x24012402; 0x482db0db;
   0x612496d8; 0x32582482; 0xdb05b632; 0x492d8124; 0x92486d86; 0x5b296c22; 0x4186c024; 0xd82492;
   0x6c02400; 0x6c02400c; 0x8009006c; 0x24006c0; 0x2000c800; 0x9016c025; 0x81040208; 0x1b1f01;
   0x400000; 0x36000003; 0x200000e4; 0x1b00; 0x18000; 0x100000; 0xc000002; 0x40000048;
   0x16c0; 0x12000; 0x240000; 0xb640000; 0x92c00012; 0x80005b0; 0xc000580c; 0x90000;
   0x2d80000; 0x2d800004; 0xb000036c; 0x200b0c0; 0x121800; 0x5860022; 0xc0600218; 0xc004203;
   0x620f4; 0x200; 0x0; 0x171e01; 0x240005; 0xb6002db6; 0x492483; 0x6db60b6d;
   0xb6124924; 0x5b6db6db; 0x6db4b249; 0x22db6db6; 0x4924a492; 0x4916db6d; 0xb2c964a5; 0x92c9b6db;
   0x6c964b25; 0x24924db6; 0xdb649249; 0x924920d; 0xb6d80492; 0x48092480; 0x2db6c024; 0x92000924;
   0x2d9000; 0x4000000; 0x1a1e01; 0x9e4000; 0x5b6c00db; 0x6d803fff; 0xf81b6db6; 0xb6db6c3;
   0xfffff16d; 0xb6db6db6; 0xdb1fffff; 0xedb6db6d; 0xb6d96c7f; 0x924b96db; 0x6db6c92c; 0xb0924b24;
   0x5b6db609; 0x24b24249; 0x24916db6; 0xd8049648; 0x1249200; 0xb6db6012; 0x49200492; 0x4800db6c;
   0x92400; 0x2490000; 0x2d800004; 0x80000000; 0x181a05; 0xb60002; 0x49000249; 0x2005b6c0].
Definition emoji_data_49 : list N :=
  [0x2492012; 0x49202db6; 0xd8124924; 0x1249242d; 0xb6d892c9; 0x2493c9a4; 0x6db6db92; 0xc9249249;
   0x242db6d9; 0x12592412; 0x49242db6; 0xd8124920; 0x2492005; 0xb6c00249; 0x20024900; 0xb60000;
   0x8000000; 0x171d02; 0x2490002; 0x49000000; 0x924900; 0x92490000; 0x249249; 0x24924800;
   0x812492; 0xc9249240; 0x4924896d; 0xb64964b2; 0x52c964db; 0x6db64b25; 0x92924926; 0xdb6db249;
   0x24849249; 0x6db6c02; 0x49240492; 0x4016db60; 0x12490004; 0x920016c8; 0x20000; 0x1b2000;
   0x400002; 0x78000036; 0xf60; 0x1e400; 0x1b0000; 0x100000; 0x200000d; 0xb00000c8;
   0x1900; 0x2d800; 0x648000; 0xc920001; 0x6db6001f; 0xdb4003c9; 0xe400b6db; 0xf6db0;
   0x1ff8600; 0x5b68b00d; 0xb61800ff; 0xe1202db6; 0x5b07db05; 0xa27970f1; 0x86d90c10; 0x6d300004;
   0x8200c12d; 0xa02c1608; 0x100; 0x1a2000; 0x200000; 0x1f00000d; 0x80000180; 0x6000;
   0x120000; 0x2000000; 0x800036d8; 0x2c800; 0x120000; 0x1b600003; 0x200000c8; 0x6d92;
   0xdf6c0; 0x3ec9005; 0xb6db01b6; 0xfb01e5b6; 0xc0b6c82c; 0x1043258c; 0x1249225b; 0x6d30c364;
   0x16724921; 0xfb2cb6d9; 0x365860; 0x2c100d96; 0x4a00b60b; 0x40200; 0x181e02; 0x16d8001;
   0xb6c007ff; 0xc00b6db0; 0x5b6d00f; 0xfe700b6d; 0xb00c9250; 0xc924009; 0x6db00593; 0xc8049240;
   0xb6db004; 0x92400492; 0x40036d80; 0xb64000; 0x9200016c; 0x800192c0; 0x792c01b; 0x6db02f92;
   0xf83f9278; 0xdb6d966d; 0xb6c36592; 0x41db6d92; 0x6cb6cb24; 0x92410000; 0x201d03; 0x120000;
   0xb60000; 0x16d8000; 0x1b6c000; 0x5b6c000; 0xb6db000; 0x5b65800; 0x4925800; 0xb6db000;
   0x492d800; 0x4d3c800; 0xb6db000; 0x4924800; 0x4924000; 0x36db000; 0xb64000; 0xb64020;
   0x16d8058; 0x92407c; 0x12007c; 0x2d805b; 0x4124824; 0x3f107c20; 0x5b2cb640; 0x7f96ff60;
   0x7f9eff60; 0xdb6db6c0; 0x6df7d920; 0x24924800; 0x182000; 0x490003; 0xff800db6; 0xd816cb68;
   0x16c96c2d; 0x92d836cb; 0x6c32492c; 0x2db6d817; 0xff6c1e59; 0x300db6d0; 0x6c92002; 0xc9200db6;
   0xd8024920; 0x2492005; 0xb6c00249; 0x20024900; 0x1b6c000; 0x49000049; 0x4b640; 0x12486412;
   0x8242492; 0x49121824; 0x180024; 0xb6499259; 0x24000800; 0x191f00; 0x90000; 0x7ff0016d;
   0xb600db6d; 0x81ffffc1; 0x6db6d8db; 0x6db67fff; 0xff6db6db; 0x1b6db6df; 0xf649edb6; 0xdb632492;
   0x5992492d; 0xb6db6d65; 0x92cb92c9; 0x64b6db6d; 0xa4924922; 0x492492db; 0x6db09249; 0x20496c90;
   0x5b6db612; 0xdb64013f; 0xd2016db6; 0x492400; 0x24920005; 0xb6000124; 0x0; 0x1f2000;
   0x40000; 0x480000; 0xb6c0000; 0xb6c0000; 0x12480000; 0xdb680012; 0xdb648027; 0xf7f900b6;
   0xdb6c00b6; 0xfb6c0025; 0xb64000b6; 0xdb0000b6; 0xdb040134; 0xf60805b6; 0xd90185b6; 0xda20092c;
   0x80400db6; 0xc80c0db6; 0x11000b24; 0x2002db0; 0x40602db0; 0xc8004900; 0x92006d82; 0xc8096c00;
   0xc0124920; 0x82db6db2; 0x2db6592; 0x492c924; 0x16db6d90; 0x16db6c90; 0x4924020; 0x1f1d02;
   0x12492400; 0x12492000; 0x0; 0x92492000; 0x92492000; 0x0; 0x92480000; 0x92480001;
   0x490000d; 0x92c0002d; 0xb6c0004f; 0x2c80006d; 0xb680016d; 0xb600004b; 0x2412016d; 0xb058036d;
   0xb0d802cb; 0x900b6d; 0x86d80b6c; 0x6c00248; 0x4800b60; 0x36c01b60; 0x360032c0; 0x24125b24;
   0x30925924; 0xb000; 0x492c925; 0x8492c920; 0x0; 0x141f01; 0xc8005b; 0x6006da00;
   0x7ff00db6; 0x16db01e; 0xcb00db60; 0x16db012d; 0x900db600; 0x6da00248; 0x5b6002; 0xd8000480;
   0x5b20125; 0xb0100906; 0xc964b649; 0x2124926d; 0xb24b6c92; 0x964926d9; 0x2db64b69; 0x24926db6;
   0xc32db000; 0x40000000; 0x1d1f00; 0x5b2000; 0xb6d8000; 0xffff802d; 0xb6db01b6; 0xdb6c0fff;
   0xffe0db6d; 0xb6cb6db6; 0xda792492; 0x45924924; 0xb6000000; 0xf000000b; 0x2492496c; 0xb6db63e0;
   0x924916db; 0x6db2db6d; 0xb6dfc964; 0xf26db6db; 0x6db6db6d; 0xb7924924; 0xdb6db6c9; 0x4b6d900;
   0x4824090; 0x49248001; 0x2d920000; 0x20012092; 0x49000249; 0x20000000; 0x2490; 0x0;
   0x192000; 0x80000; 0xb64002ff; 0xfc16db6d; 0xb5fed920; 0x5ffd805b; 0x6d801fdb; 0xe40ffff0;
   0x36db002; 0xffec81ef; 0x96416db6; 0x405b6d90; 0x2796402d; 0xb6c00b6d; 0xb0009640; 0x1b6d800;
   0x6db00016; 0xc80016d8; 0x1b000; 0x480012; 0xdb200fb6; 0xfa1fc93f; 0x96db6daf; 0xf65fe7ff;
   0x3ffadb6d; 0xb6924924; 0x201e02; 0x240000; 0x492000; 0x1248000; 0x1249000; 0x2492000;
   0x9249000; 0x9249000; 0x124b6000; 0x96db000; 0x9e5d000; 0x12db6c00; 0x96db000; 0x12df000;
   0x2db6000; 0x36db000; 0x125e000; 0x2db6580; 0x16d86c0; 0x248f80; 0x6db6d80; 0xb6db6c0;
   0x192496f0; 0x16db6db0; 0x4b6db258; 0x4924921c; 0xb2db6596; 0x492c939b; 0x69249390; 0xb2492590;
   0x49241200; 0x1f1f01; 0x400000; 0x900000; 0x16db0000; 0x36db0001; 0x6db60005; 0xb6db0005;
   0xb6db0003; 0x6ff80005; 0xb6d8000d; 0xb6c00019; 0x24c0002d; 0xb6c0006d; 0xb6000059; 0x3400016d;
   0xb600016d; 0xb0000249; 0x20000b6d; 0x80000b6d; 0x800002d8; 0xb6c; 0xb64; 0x90001249;
   0x20025b2d; 0xb6124925; 0x9624924b; 0x25b6db6d; 0xb492c925; 0xb124924f; 0xdb6db6c; 0x4924924;
   0x0; 0x1f2000; 0x2492490; 0x2492490; 0x4924920; 0x36db6db0; 0x36db2d80; 0x7ff24901;
   0xb6db6d85; 0xb6d96c0f; 0xfff0482d; 0xb6db6c2d; 0xb6cb6069; 0x2592416d; 0xb6d9616d; 0xb6490269;
   0xe4120b6d; 0xb6db0b6d; 0xb2481249; 0x24901b6d; 0xb6d81b6d; 0xb6c016c9; 0x2480db6d; 0xb6c0db6d;
   0xb6009249; 0x2402596d; 0xb6104924; 0x90000000; 0x492c920; 0x492c920; 0x78000; 0x24964900;
   0x120000; 0x202000; 0x490000; 0x16d8000; 0x1658000; 0x6db6000; 0xb6db000; 0x9659000;
   0x16db6c00; 0xb6db000; 0x9659000; 0x16db6c00; 0x1b6db600; 0x9659000; 0x6cb6000; 0xbe5f000;
   0x9e5d000; 0x6d96802; 0x32cb001; 0x12c9008; 0x2db6012; 0x16d8008; 0x16d8008; 0xdb0010;
   0x6d8018; 0x248000; 0x2db6030; 0xb6db640; 0x9249240; 0xb6db6db0; 0x5b2cb640; 0x49249200;
   0xb6db6db0; 0x49249200; 0x1d2000; 0x580000; 0xb680000; 0xffe0000d; 0xb6c000b6; 0xda0007ff;
   0xf0005b6d; 0x80016db6; 0xf24a0; 0xb6db00; 0x6db6c00; 0x134f2001; 0x6db60005; 0xb6d80024;
   0xb20000db; 0x6c00036d; 0x80000b64; 0xb6c0; 0x2c924; 0x80024924; 0x806c9248; 0x24924929;
   0x249249b6; 0x5b65b249; 0x24921249; 0x20916cb6; 0x4b649249; 0x24249249; 0x224b6db6; 0x249240;
   0x1f2000; 0x492490; 0x2492490; 0x0; 0x12c92490; 0x17d80000; 0x7ff00001; 0xb6d92485;
   0xb6f9040f; 0xfff2002d; 0xb6c9242d; 0xb6c92069; 0x2592016d; 0xb649217d; 0xb6490269; 0xe4900b6d].
Definition emoji_data_50 : list N :=
  [0xb2490b6d; 0xb2481249; 0x64801b6d; 0x92481b6d; 0x924016cb; 0x24005b6c; 0x92405b0c; 0x90001200;
   0x165924; 0x90b04964; 0x916002d8; 0x5b2cb60; 0xdb2cb60; 0x1b2796c0; 0x2db6db40; 0x24924900;
   0x202000; 0x80000; 0x2c0000; 0x248000; 0x2db6000; 0x36db000; 0x1249000; 0x6db6000;
   0x36db000; 0x1249000; 0x6db6000; 0xb6db000; 0xf24b000; 0x6db6800; 0xb6db000; 0x9e59000;
   0x6db6800; 0x36db000; 0x12c9000; 0x2db6082; 0x16d80c3; 0x16d80c3; 0xdb0096; 0x6d80db;
   0x240058; 0x25b2030; 0xb2db018; 0xb243018; 0x16db6c30; 0x4b6db218; 0x82db018; 0x965b6cb0;
   0x9249008; 0x1d1f01; 0x200000; 0xfe00001; 0xb6c00016; 0xdb0000ff; 0xf8000b6d; 0xb0006db6;
   0x3ed98; 0x124961; 0x80c92400; 0x490000; 0x65964100; 0x92480c04; 0x1041005b; 0x6c10016d;
   0xb0480924; 0x800036d8; 0x2400db00; 0x90024800; 0xd8048; 0xb60100; 0x4900012; 0x5b249048;
   0x6c924003; 0x922496; 0x4b6c90c1; 0x6db0020b; 0x6dc92cb6; 0xd8008049; 0x0; 0x1d2000;
   0x80; 0x200; 0x1000; 0xb0030016; 0xd82481ff; 0xc1241b6d; 0x96c16db4; 0x80fffe0;
   0x40b6db04; 0x2db6c00; 0x1a496021; 0x6db60305; 0xb6d82c26; 0x9e4062db; 0x6c020b6d; 0x80004924;
   0x1b6d8; 0x6db00; 0x16c800; 0x16d8000; 0xdb60001; 0xe4b80016; 0xdb2c007b; 0x65b003ff;
   0x64b12db6; 0x496492c9; 0x25a00609; 0x2e496492; 0x48009249; 0x192000; 0x90000; 0x36c00079;
   0x70005b6c; 0x36db00; 0x1d27801b; 0x6db016db; 0x600fedf8; 0xb6db616; 0xdb6d8fed; 0xb7fb6db6;
   0xdbdb6dbc; 0xe5965c2d; 0xb6d80b6d; 0xb0009648; 0xb6d800; 0x2db60012; 0xd80006db; 0x4b600;
   0x6496006; 0xdb6c0596; 0x5903cb2e; 0x86db6db4; 0xb2cb2019; 0x25805b6d; 0xb2024920; 0x1c2000;
   0x6002c00; 0xfe03601f; 0xe0ffc36d; 0x96d81f70; 0xb6c3f30f; 0xfc36596d; 0x80920b6c; 0x8001201;
   0x2406d809; 0x360010; 0x1601240; 0x2c80920b; 0x6c092092; 0x436d96d8; 0x920b6c0; 0x92092416;
   0xc96d8492; 0x13640920; 0x12096c02; 0xdb0b6012; 0xb60120; 0x16c02480; 0xb6012009; 0x12006c;
   0x2400940; 0x12008001; 0x2016c065; 0x80820120; 0x1a2000; 0x10002002; 0x402d8000; 0x1fe2490d;
   0xb64905b6; 0xfdc9; 0x2436d124; 0x6d80900; 0x9205805b; 0x900b60; 0x2002c012; 0x16c1240;
   0x6d849009; 0x22db0db6; 0x4925b612; 0x41248b64; 0x96d92492; 0xd8090092; 0xd825b25; 0xb009046c;
   0x2403601; 0x2406c024; 0x1b00800; 0xc800901b; 0x800440; 0x20032816; 0xc1240248; 0x1a2000;
   0x16002c06; 0xc02d83fe; 0xff0db05; 0xb65b61b6; 0x9fd87ce3; 0x6c16d964; 0x82d80900; 0x9205b05b;
   0x60900b60; 0x24004816; 0x402c1248; 0x2d849209; 0x22db05b6; 0x4921b6d2; 0x4824896c; 0xb6d92412;
   0xd9090492; 0x65b21b01; 0xb049246c; 0x4816c0; 0x24064004; 0x80900020; 0x4b009019; 0x20240;
   0x812c06; 0x40240208; 0x1c2000; 0x6002c00; 0xfe03601f; 0xe0ffc3ff; 0x96d83ff0; 0xb6c3ff0f;
   0xfc36d96d; 0x81b60b6c; 0x1fe03201; 0x6c06d80b; 0x603600f8; 0x16016c0; 0x2c80b20b; 0x6c092092;
   0x436d96d8; 0x5920b6c6; 0x92092436; 0xd96d8492; 0xd3644924; 0x12096c22; 0xdb4b6412; 0xb60120;
   0x16c02480; 0x96012009; 0x12006c; 0x2400940; 0x12008001; 0x2016c065; 0x80820120; 0x1a1f01;
   0x2c00000; 0xd800003e; 0xb40; 0x36000; 0x480000; 0x2c000004; 0x100; 0x1b000;
   0x160000; 0x4800006; 0xc0000259; 0x1240; 0x1b0c00; 0x9218000; 0x4020006c; 0xd80;
   0x96000; 0x5b60000; 0xb6000021; 0x80003058; 0x4161800; 0x8c060002; 0x81400640; 0x6000d81f;
   0x110580; 0x0; 0x181e01; 0x590001; 0x6d800124; 0x9016db60; 0x1b6db009; 0x249036db;
   0x6c5b6db6; 0x492492b6; 0xdb6c5b6d; 0xb6492492; 0xb6db6c5b; 0x6db64925; 0x92b6db6d; 0xdb6db649;
   0x2592b6db; 0x6d5b6db6; 0x92c9036; 0xdb6c1b6d; 0xb0092490; 0x16db600b; 0x6db00124; 0x8002db60;
   0x16d8000; 0x24000000; 0x1a1f00; 0x40000; 0x36d80016; 0xdb002fff; 0xc016db6c; 0x6db6d81;
   0xffffe0db; 0x6db65b6d; 0xb69fffff; 0xeb6db6db; 0x6db6db7f; 0xffbfedb6; 0xdb65b6db; 0x69e7935c;
   0x36db6d96; 0xdb6da496; 0x4920db6d; 0xb61b6db6; 0x24b2481; 0x6db6c02d; 0xb6d80924; 0x9001b6db;
   0x36db00; 0x4924002; 0xdb60001b; 0x60000040; 0x0; 0x181b04; 0x240000; 0xb6000092;
   0x400b6db0; 0x5b6c004; 0x92401b6d; 0xb02db6d8; 0x2492481b; 0x6db42db6; 0xd82592c9; 0xdb6db66d;
   0xb6db2592; 0xc9db6db6; 0x6db6da24; 0xb6481b6d; 0xb42db6d8; 0x492480b; 0x6db005b6; 0xc0049240;
   0x36d8000; 0xb6000010; 0x0; 0x181e01; 0x480000; 0x24800000; 0x24920; 0x9249000;
   0x1249; 0x24092490; 0x12; 0x49644965; 0xb2092490; 0x16db6c5b; 0x6db24925; 0x92b6db6d;
   0xdb6db649; 0x2592b6db; 0x6d5b6db6; 0x92c9036; 0xdb6c1b6d; 0xb0092490; 0x16db600b; 0x6db00124;
   0x8002db60; 0x16d8000; 0x24000000; 0x1a2000; 0x1000005; 0xb00001b4; 0x7c00; 0x16c000;
   0x6c00001; 0x9000004b; 0x1900; 0x24000; 0x16c0000; 0x2d80000d; 0x200001b6; 0xc800f6db;
   0x3ff7c0; 0x6db6002; 0xdb6c003f; 0xfb001b6c; 0xb00f7c16; 0x3ffe480; 0x6db0c03f; 0xfe5b0f6f;
   0x87edb6c3; 0x6c32c823; 0x4920082; 0xc960304b; 0x200c1608; 0x2010400; 0x1b1f01; 0xb00000;
   0x1b000003; 0x20000058; 0x480; 0x8000; 0x12c0001; 0xb6400006; 0x480000b6; 0x1920;
   0x12000; 0x5b0000; 0xdb04000; 0xffc8002d; 0xb6c006db; 0x6c025ffc; 0x80b6db60; 0x1964160c;
   0x20c040cb; 0x6cb624b2; 0xd3041650; 0x604d964b; 0x72492df1; 0x925b032; 0x9240365; 0x92803d82;
   0x40016010; 0x0; 0x191f01; 0x480000; 0x36c0007f; 0xe0005b6c; 0x36db00; 0x7fff801b;
   0x6d8016db; 0x600f24b0; 0x36db002; 0xdb6c013c; 0xb2016db6; 0x5b6d80; 0x4b2000d; 0xb6c0036d;
   0x8000b640; 0xb6c000; 0x2db00012; 0x580036db; 0x3db6c0; 0xbe4964b6; 0xdb6c3db6; 0xc91ef920;
   0x96db64bd; 0xb6d82249; 0x24124924; 0x90000000; 0x1f1d03; 0x40000; 0x1b60000; 0x5b60000;
   0xb6d0000; 0x6db60000; 0x6db60000; 0xdb6c0003; 0x6db0000b; 0x6db00012; 0xcb20001b; 0x6da0005b;
   0x6d800092; 0x490000db; 0x6c0000db; 0x6c000092; 0x400002db; 0x601002db; 0xf00492; 0x1e002d8;
   0x5b006d8; 0x5a00482; 0x305925b; 0xc3f827f; 0x207f8cff; 0x416db6db; 0x1ffb7fb; 0x3fffff2;
   0xb6db6c8; 0x0; 0x172000; 0x24000d; 0xb6006db6; 0x80d92d83; 0x6cb68b64; 0xb61ec96e;
   0x5b6db65b; 0x6db0ffff; 0xe0db6d80; 0xdb6d0192; 0x4a02db6c; 0x6db6c04; 0x924016db; 0x6016db00;
   0x24920036; 0xd80036d8; 0x248000; 0xb6c000b6; 0x482491; 0x6cb2d920; 0x82400180; 0x9259249;
   0x2792401e; 0x492c92; 0x1a2000; 0x120000; 0x5b6c005b; 0x6d801fff; 0xe01b6db6; 0xb6db6c3].
Definition emoji_data_51 : list N :=
  [0xfffff16d; 0xb6da6db6; 0xdb1ffff3; 0xe5b6db6d; 0xb6db6c7c; 0x924b96db; 0x6da6db6d; 0xb1964b24;
   0xdb6db6db; 0x6db6c249; 0x24916db6; 0xdb2db6db; 0x9259241; 0xb6db60b6; 0xdb6c07ff; 0xf802db6d;
   0x805b6d80; 0x12492003; 0x6db0002d; 0xb0000120; 0x9000; 0x202000; 0x200000; 0x5b0000;
   0x6d8000; 0x1248000; 0x2db6000; 0x16d8000; 0xb24b200; 0xb6db6d80; 0x5bfff600; 0xbfff200;
   0x16db6c00; 0xb6db000; 0xfedb200; 0x6dbec32; 0xbedb201; 0xbfff201; 0x6db6432; 0x36db201;
   0x36da201; 0x2db6432; 0x17f8201; 0x17f8200; 0x5b01b6; 0x6d80c8; 0x7f8048; 0x16db6c30;
   0x4b6db200; 0x492d9200; 0xb6db6db0; 0x4b2cb240; 0x49249200; 0x92492490; 0x1d1f01; 0x12492002;
   0x49248000; 0x124; 0x92400492; 0x49000000; 0x4924; 0x80012490; 0x92480; 0x924900;
   0x6497000; 0x3fdf8003; 0x7df6000d; 0xb7d0006f; 0xfe0002db; 0x6c340b6d; 0x82c05b6c; 0x1201b6c1;
   0x6c17fb0d; 0xb03fc024; 0x816d02d8; 0x5b00b60; 0x3f804812; 0xdb21b24b; 0x6486005b; 0x1125b2;
   0x49049649; 0xc001000; 0x22492492; 0x0; 0x141f01; 0x16c007f; 0xe007fe00; 0xfff00ffe;
   0xfff01f; 0x6d00db70; 0xfbf01b6; 0xd80db600; 0x5f600b6c; 0x5b6001; 0xf80016c0; 0x1b200cb;
   0x20592d82; 0xc9642c12; 0x45b2c96d; 0xb2424924; 0x5b2496c9; 0x2424924d; 0xb6db65b6; 0xc2592401;
   0x24000000; 0x202000; 0x48000; 0x5b6c00; 0x16db6c0; 0x3ffffc0; 0x6db6db0; 0xb6db6d8;
   0xffffff8; 0x16db6db4; 0x1b249248; 0x1c000000; 0x36492492; 0x1b000000; 0x1f049240; 0x365b6db2;
   0x1b2db6d8; 0x1f3fb7f8; 0x36db6fb6; 0x1b6fb7db; 0x1f6fb7db; 0x36db6db6; 0x1b6db6db; 0x192dfec8;
   0x105b6d90; 0x249240; 0x9000; 0x92496c90; 0x249240; 0x0; 0x10092480; 0x49200;
   0x0; 0x2000; 0x181f01; 0x16c8025; 0xffd87ff2; 0xff5b6db6; 0xdfed80f; 0xbef00b6d;
   0xb20ffff0; 0xffff00f; 0xfff20dfe; 0xf00dfff0; 0xbedb20d; 0xf7d80dff; 0xd00b6db0; 0x5b6c005;
   0xf7c0036d; 0x8001fec0; 0x1fe8001; 0x6d8000b6; 0x4fe40; 0x5b6db67f; 0xb6fe7f92; 0xffdb6db6;
   0x6fb7ffff; 0xf7ffcb6d; 0xb6000000; 0x1f1e02; 0x920000; 0x920000; 0x1248000; 0x24920000;
   0x24920000; 0x49240001; 0x24b60001; 0x25b00002; 0xcfe0000b; 0xedb0000b; 0x6fb00017; 0xff40005b;
   0x6d80005b; 0x6c0000b7; 0xf80000db; 0x608002ff; 0x658001fe; 0x1f0002db; 0x2c0016db; 0x6c0127f2;
   0xff05b6db; 0x6c05b6db; 0x2c092d92; 0x5e65b6c9; 0x2d24b64b; 0x2dc92496; 0x5b24b259; 0x2f249279;
   0x2000092; 0x0; 0x1e1d02; 0x2c80000; 0x2db20000; 0xb6d8000d; 0xb6d8001b; 0x6db0006d;
   0xb6c0016d; 0xb60003ff; 0xfc000fff; 0xf0007b6d; 0x8000bedb; 0x3fbfc; 0x17db60; 0x2db6c0;
   0xb7da00; 0x1b6d800; 0xbff8000; 0xffe0000; 0x2db00000; 0x5b600001; 0x6c100003; 0x6db64016;
   0xc96d8249; 0x25d6b6db; 0x2db524b2; 0x49649249; 0x2dadb6db; 0x6c492492; 0xc0000000; 0x202000;
   0x249248; 0x1249248; 0x2db6db6; 0x17db6d9; 0x1ffd248; 0x3ffecb6; 0x3fff6d9; 0x7fff248;
   0x7fffcb6; 0xffff6d9; 0xffffa48; 0x6db7cb6; 0xf6db6c9; 0xfeff240; 0x6dbecb6; 0xb6db649;
   0x37fb000; 0x6db6db6; 0x37fb6d9; 0x3fff248; 0x2db6db6; 0x16db6d9; 0x16d9248; 0x2db6db6;
   0x12c12d8; 0xc0248; 0x12492490; 0x492c1200; 0x2c0000; 0x92592480; 0x492c9200; 0x40000;
   0x1f2000; 0x90000; 0x960000; 0x16db0000; 0x16db0000; 0x24b20001; 0xb6db0001; 0xb6da0001;
   0x2590000d; 0xb6d8002d; 0xb6d8005b; 0x2d90006d; 0xb6c0006c; 0x9e800078; 0x7d00036c; 0xb600036c;
   0xb401065d; 0x20020b6d; 0xa0080b6d; 0x804817ff; 0x101b6c; 0x2401b60; 0x20016c0; 0x4005b20;
   0x1002db20; 0x3024f648; 0x40b6db6c; 0x81b2db69; 0x1249242; 0xdb6db64; 0x2db2db68; 0x9209200;
   0x1f1f00; 0x2c0000; 0xff0000; 0xbff8000; 0x1fff8000; 0x3fff0000; 0xfffc0003; 0xfffc0007;
   0xfff80006; 0xdb70001e; 0xdb60003f; 0xbec000b6; 0xdf4000be; 0xdb00016f; 0xb60001b6; 0xd80001b6;
   0xd80003ff; 0xa00005b6; 0xc00005b6; 0x324; 0x592; 0x49600c92; 0x49025924; 0x921b6db2;
   0xd8492492; 0x48924904; 0x92db6d96; 0xc2492492; 0x44924824; 0x16cb6db6; 0x12492490; 0x0;
   0x1f1e02; 0x2492492; 0x2590000; 0x7fe0000; 0x17ff2490; 0x3fff2000; 0x7ffe4001; 0xffff2487;
   0xfff9000f; 0xfff2000d; 0xb6f9643d; 0xb6c9007f; 0x7f92006d; 0xbecb216d; 0xb64800df; 0xec90036d;
   0xb259036d; 0xb24007ff; 0x64800b6d; 0x92c80b6c; 0x920006d9; 0x20004b64; 0x92424b04; 0x9205861b;
   0x36496d; 0x90b6596c; 0x164f258; 0x5b6cb6c; 0x5b6db60; 0x9249240; 0x0; 0x1d2000;
   0x200000; 0x1000000; 0xb6c00016; 0xdb000092; 0x48000b6d; 0xa0006db6; 0x12490; 0x16db60;
   0x5b6400; 0x2ff6000; 0x2db6c001; 0xb6dc000f; 0xf7f000df; 0x7d80036d; 0xb4000bfd; 0x8000b6da;
   0x82db60; 0x8217ff04; 0x106db041; 0x1b6010c; 0x5b00960; 0x5b003609; 0x6c80c0cb; 0xe4022db6;
   0x5928b6db; 0x20819ff8; 0x4596db2; 0x5165b641; 0x1249008; 0x1f1e01; 0x200000; 0x1fe0000;
   0xffe0000; 0x3ffe0000; 0x7ffe0001; 0xfffe0003; 0xfffc000f; 0x6db00009; 0x24b00012; 0x4920004b;
   0x6c8000c9; 0x2c820092; 0x4924024b; 0x240002df; 0x680005ff; 0xe12006db; 0x649006fb; 0x48007fe;
   0x90016d8; 0x40006c0; 0x24000f80; 0x48049649; 0x20243649; 0x20002c00; 0x124b25b; 0x6124b25b;
   0x600100b6; 0xc92592db; 0x692412db; 0x0; 0x1f1e01; 0x40; 0x160; 0xb00100;
   0x3fc1240; 0x2ffe5b60; 0x7ffe4900; 0xfffc1003; 0xfff8500f; 0xfff0401f; 0xffe0101b; 0x6de0407b;
   0x6d80c0fe; 0xff0180db; 0x7d82c2db; 0x6c0201bf; 0xd80406db; 0x600006db; 0x600007fe; 0x16db;
   0x16d8; 0x3db0; 0x1b6d8; 0x5f6c9; 0xffcb6; 0x402db2db; 0x6125b649; 0x60012012;
   0x4b24b249; 0x69259249; 0x0; 0x182000; 0x100000; 0xb600016d; 0x8005b6c0; 0x792c00b;
   0x6db00db6; 0xd00f92f8; 0x1b6db02d; 0xb6d87fff; 0xfedf6db6; 0xfdb7ff7d; 0xf7ff5bed; 0xb62db6d8;
   0x5bec00b; 0x6db005b6; 0xc005ffc0; 0x36d8001; 0xb68000b6; 0xb6db0; 0xcb6702e; 0x9e785b6d;
   0xb62c9279; 0x2e92794b; 0x6db22c92; 0x79040040; 0x1a2000; 0x800b01f; 0xc03f8b6c; 0x3ff3ff8f;
   0xfcffc3ff; 0x2db0fbec; 0x947b6004; 0x7f81241; 0x6c12406d; 0x80800fe0; 0x5805b009; 0xb01240;
   0x2c8b6c36; 0xd92496d8; 0x4904922d; 0x90db6492; 0x4b602412; 0x4a36096c; 0x96c02431; 0xb00904d8;
   0x4921b00; 0x9006c024; 0x3200240; 0x6c02401b; 0x800c80; 0x905b009; 0x61040208; 0x1a2000;
   0x1000; 0x3f8124; 0x1ff92487; 0xfe0001ff; 0x84907f64; 0x921f7824; 0x3d81241; 0x6d82402d;
   0x80900fe0; 0x5801b009; 0x360240; 0x2d8b6c16; 0xd92486db; 0x492192a5; 0xb0db6492; 0x4b6c2412].
Definition emoji_data_52 : list N :=
  [0x4996c86c; 0x86c12491; 0xb001265b; 0x20901b00; 0x12024000; 0x816c0240; 0x64000809; 0x204b0;
   0x901900b; 0x60240208; 0x1c2000; 0x1001200; 0xfa03f016; 0xd07f81b6; 0xffc1f70; 0xffc36d9f;
   0xdc1920f6; 0xc0920b7c; 0x16c06d80; 0x920b6809; 0x203e006c; 0x2d00900; 0x16009209; 0x6036d96d;
   0x84920b6c; 0x92092c3; 0x6c96d849; 0x21b6c492; 0x512496cb; 0x6db4b641; 0x200b6012; 0x96c0249;
   0xb601200; 0x94012006; 0xc0240094; 0x1200800; 0x12006c02; 0x40096032; 0x820120; 0x1c2000;
   0x2002c01; 0xfc03f82d; 0xb0ffc36d; 0xffc3ff0; 0xffc2db0f; 0xbe36d1ed; 0x816407f8; 0x2db05b01;
   0x6c06d812; 0x403f8058; 0x5b002c0; 0x2c012402; 0xc82db0db; 0x612496d8; 0x12492482; 0xdb0db632;
   0x492d8124; 0x924a6d86; 0x5b296c22; 0x4386c024; 0x10d82492; 0x6c02400; 0x6c02400c; 0x8009006c;
   0x24006c0; 0x2000c804; 0x9016c025; 0x81040208; 0x1b1f01; 0xf80000; 0x3f00000f; 0xe00000fc;
   0x1b00; 0x1b000; 0x100000; 0xc000002; 0x40000048; 0x16c0; 0x16000; 0x250000;
   0xb6c0000; 0x92c00012; 0x80005b0; 0xc000580c; 0x90000; 0x2d80000; 0x2d800004; 0xb000036c;
   0x200b0c0; 0x121800; 0x5860022; 0xc0600218; 0xc004203; 0x620f4; 0x200; 0x0;
   0x181e01; 0x120001; 0x6d8005b6; 0xc0049248; 0x1b6db02d; 0xb6d82492; 0x485b6db6; 0x6db6da24;
   0xb6d85b6d; 0xb66db6da; 0x2db6d85b; 0x6db66db7; 0xdb6fb7db; 0xdb6db66d; 0xb6db6db6; 0xdb5b6db6;
   0x2dbed82d; 0xbed81b6d; 0xb00db6d8; 0xfffd80b; 0x6db005b6; 0xc001b6c0; 0x16d8000; 0x12000000;
   0x1a1f00; 0x160000; 0x37d8003f; 0xfe003fff; 0xe01ffffe; 0x7ffff83; 0xfffff0ff; 0xfffe7fff;
   0xff9fffff; 0xeffffffb; 0xffffff7f; 0xffdffff7; 0xdbe7fdbe; 0xf9f6db6c; 0x3edbef8f; 0xf6fbe6db;
   0x6db0db6d; 0xb636df6d; 0xb6db6c1; 0x6df6c05b; 0x7db00db6; 0xd801b6fb; 0x3ffe00; 0x16db6002;
   0xdb600016; 0xc0000160; 0x0; 0x191b04; 0x240000; 0x360000b6; 0xd8006db4; 0xb6db00;
   0xb6db006d; 0xb6c036db; 0x6036db6c; 0xdb6da16; 0xfb6d96fb; 0x7dadbedb; 0x66df6fb2; 0xdb6db7b6;
   0xdb6c5b7d; 0xb61b6db6; 0x6df6d03; 0x6fb6016d; 0xb6c05f6d; 0x802fffc0; 0xdb6c003; 0x6d8000b6;
   0xc0001640; 0x0; 0x191c03; 0x2492000; 0x92480000; 0x24924; 0x80924920; 0x49;
   0x24901249; 0x640124b0; 0xb6db602; 0xdb6d817d; 0xbec36db6; 0xdadf6fb5; 0x6fb7db6d; 0xb6db5b6d;
   0xb68db6db; 0x5b6db03; 0x6db6c0b7; 0xfb60b6db; 0x602fb7c0; 0x7ffe002; 0xdb6000b6; 0xd8001b60;
   0xb6000; 0x1c2000; 0xc00000; 0xbe00000f; 0xe000016c; 0xf60; 0xda00; 0x14c000;
   0x920000; 0xd200000; 0x6c00000b; 0x60000076; 0x6d8; 0x36d9; 0x37fb0; 0x6db6c0;
   0x36df000; 0x32ff0002; 0xdb6c0036; 0xd16003ff; 0x92006db0; 0xd003ff86; 0x3ff86c; 0x16db05b5;
   0xb6d82c41; 0x2482020d; 0xa6004124; 0x90061249; 0xb0d860; 0x4020000; 0x1b2000; 0x200000;
   0x1f000003; 0xe00000b6; 0xf00; 0xe000; 0x80000; 0x2480002c; 0x9000096c; 0x1640;
   0x24800; 0xb60000; 0xb200001; 0xe400005b; 0x6d8005b6; 0xd800fed9; 0x6db6c0; 0x16df6c06;
   0x59458186; 0x592c1965; 0x96852cb2; 0x48c36496; 0x48b2c97d; 0x821b7c21; 0x26db0641; 0x24806862;
   0x9006d86c; 0x240200; 0x191f01; 0x40000; 0x3fc0003f; 0xf8003ffe; 0x3fff00; 0x3fffc01f;
   0xffe00fff; 0xf006db78; 0x3b6d803; 0xfb7e00db; 0x7d80b6db; 0x1bfd80; 0xb6d8006; 0xdb60017f;
   0xb0016db0; 0x5b6000; 0xdb0000d; 0xb6001f6f; 0x802dfec0; 0x2db6d85b; 0xedb62cf6; 0x492db6d9;
   0x6b6db054; 0x924805b6; 0xdb2d2492; 0x48000000; 0x1f1d03; 0x120000; 0xb60000; 0x36d8000;
   0x2db60000; 0x2db60000; 0xdb6c0001; 0x6db60003; 0x6db00006; 0xdf60000b; 0x6db0001b; 0x6fa0003f;
   0xdfc000db; 0x6d8000db; 0x6c0000bf; 0xf80002db; 0x600002db; 0x601001b6; 0xc06002db; 0x1b002d8;
   0x5b007f0; 0x3a096c9; 0x487821f; 0xc1f843f; 0x106d96db; 0x61ffb3ff; 0x3ff67ff; 0x36db6db;
   0x9249248; 0x0; 0x172000; 0x590006; 0xdb003d97; 0xc0b65b61; 0xb25bc764; 0xb78db6db;
   0x3c924b3f; 0xfffc7fb6; 0xf87ff7c0; 0x7bef816d; 0xb6017df6; 0x2fbec0b; 0x6db00b7d; 0xb006fb40;
   0x1b6d801b; 0x6c001ff8; 0x5b6000; 0x1b40003f; 0x965b64; 0x92592d00; 0xc92c9; 0x2493c920;
   0x7802496; 0x49001200; 0x1a2000; 0x5b0000; 0x7ffc003f; 0xff001fff; 0xf01ffffe; 0x7ffff83;
   0xfffff9ff; 0xfffe7fff; 0xffbffffb; 0xe7fffb79; 0xfffedef6; 0xdb6d9edb; 0x6de7bedf; 0x7edb6db6;
   0xdbedf6f6; 0xfb7dbb6d; 0xb6d96db6; 0xdb1b7fb6; 0xdb6db41; 0xb7fb607f; 0xfff817ff; 0xfc02fffd;
   0x80bfff00; 0x1b6db003; 0x6db0005b; 0x600005b0; 0x9000; 0x1f2000; 0x120000; 0x960000;
   0x1240000; 0xdb60000; 0x2db60000; 0x49240009; 0x6db6405b; 0x6db6c017; 0xffe4005b; 0x6db6005b;
   0x6db00012; 0x4900004b; 0x6ca20059; 0x24844030; 0x40008249; 0x25100249; 0x24220010; 0x40249;
   0x8801249; 0x21100490; 0x201248; 0x64801240; 0x8800000; 0x48049249; 0x6c2d92d8; 0x60492490;
   0x36db6d9; 0x965b6cb; 0x2492482; 0x1b6db6c8; 0x9249208; 0x1e2000; 0x2090000; 0x24920000;
   0x4; 0x92490049; 0x24900000; 0x124; 0x92400249; 0x24000000; 0x4924; 0x80009248;
   0x20000; 0x12cb20; 0x249640; 0x181000; 0x4924820; 0x92480c0; 0x800120; 0x24921b00;
   0x4920b600; 0x24024809; 0x2406d002; 0x402d8000; 0x920049; 0x1b02492; 0x436006c0; 0x4249649;
   0x492c92; 0x4000c001; 0x9259240; 0x10; 0x141f01; 0x1200012; 0x40024800; 0x92400924;
   0x1249009; 0x24008000; 0x125900b2; 0x40002000; 0x24900124; 0x120002; 0x48001200; 0x40124;
   0xb0092d84; 0x48b25b; 0x24924949; 0x248b6c92; 0x5b249492; 0x49b65b65; 0x92db4824; 0x8b25b200;
   0x24000000; 0x1d1f00; 0x5b2000; 0xb6d8000; 0xffff802d; 0xb6db01b6; 0xdb6c0fff; 0xffe0db6d;
   0xb6cb6db6; 0xda792492; 0x45924924; 0xb6000000; 0xf000000b; 0x2492496c; 0x924923e0; 0x164b;
   0x2592d92c; 0x964f0060; 0xe02c964b; 0x25b24924; 0x97800000; 0x5924b249; 0x4924900; 0x90;
   0x49248001; 0x24920000; 0x12092; 0x49000249; 0x20000000; 0x2490; 0x0; 0x192000;
   0x80000; 0xb64002ff; 0xfc16db6d; 0xb5fed920; 0x5ffd805b; 0x6d801fdb; 0xe40ffff0; 0x36db002;
   0x5b648104; 0x82402c92; 0x404f2c90; 0x6060004; 0x92400124; 0x80001200; 0x924800; 0x24900002;
   0x40000248; 0x9000; 0x12; 0x49200f92; 0x7a1fc93f; 0x96db6daf; 0xf65fe7ff; 0x3ffadb6d;
   0xb6924924; 0x201e02; 0x240000; 0x492000; 0x1248000; 0x1249000; 0x2492000; 0x9249000;
   0x9249000; 0x124b2000; 0x9259000; 0x8658000; 0x12cb6000; 0x925b000; 0x5f000; 0x2596000].
Definition emoji_data_53 : list N :=
  [0x124b000; 0x248000; 0x25b6580; 0x2486c0; 0x8f80; 0x6c96d80; 0xb24b6c0; 0x190096f0;
   0x16c96db0; 0x4b64b258; 0x4920921c; 0xb2cb6596; 0x4924939b; 0x69249390; 0xb24925b0; 0x49249200;
   0x1e1f01; 0x400000; 0x1200000; 0x5b6c0001; 0xb6d80016; 0xdb6000b6; 0xdb60016d; 0xb6c00092;
   0x48000592; 0x48000924; 0x80002002; 0x124b2; 0x2c920; 0x30400; 0x492480; 0x924800;
   0x80000; 0x2490000; 0x24920000; 0x2000000; 0x92400001; 0x24920004; 0x1248012d; 0x96d91249;
   0x25904924; 0x9646db6d; 0xb6649649; 0x2c124924; 0xf1b6db6d; 0x81249249; 0x0; 0x1d1f01;
   0x6db6db0; 0x5b6db642; 0x4924922c; 0x96cb6092; 0x4b2d8492; 0x49244925; 0xb6c12496; 0x5b092492;
   0x4892492d; 0x824924b6; 0x12082411; 0x24b2d905; 0x92496c04; 0x1049224b; 0x24920924; 0xb6d80920;
   0x9244925b; 0x6c12496d; 0xb0800924; 0x8b24b6d8; 0x2496db61; 0x124912; 0x4925b241; 0x4800008;
   0x124b2; 0x48049649; 0x3800; 0x2496490; 0x0; 0x1f2000; 0x240000; 0x5b60000;
   0xdb60000; 0x4b240001; 0x6db60003; 0x6db60002; 0x5924000b; 0x6db0001b; 0x6db00036; 0xcb6000db;
   0x6db0005b; 0x6c8000b8; 0x780002d9; 0x6c0002f9; 0xe40001c2; 0xc0000259; 0x20120249; 0x100000;
   0x1658; 0x8016c8; 0x4800400; 0x8001240; 0xc009200; 0x20010080; 0x406c92d9; 0x16492d9;
   0x2492492; 0xb6db6c8; 0x1b64b6c8; 0x12492490; 0x49249240; 0x1c1f01; 0x490000; 0x12480001;
   0x24900024; 0x92000124; 0x90001049; 0x24924; 0x124900; 0x619000; 0x24920001; 0x65900000;
   0x40000249; 0x20001248; 0x2400; 0x5b000; 0x9249204; 0x900920b6; 0xc96d8492; 0x49244124;
   0x824925b2; 0x485b2cb2; 0x40924124; 0x965b2484; 0x92d92008; 0x2492012d; 0xb640492c; 0x92449249;
   0x24924924; 0x90000000; 0x1d1f01; 0x12480; 0x49200; 0x1249000; 0x12492000; 0x49240002;
   0x9200024; 0x92400092; 0x48000482; 0x4b2c; 0x80012490; 0x2000; 0x20124804; 0x90490024;
   0x804816db; 0x2d904924; 0x92024920; 0x2c96c9; 0x24924b25; 0xb0804924; 0xcb25b6d9; 0x6596db61;
   0x4925912; 0x4b6db049; 0x2db6c249; 0x24b204b6; 0xdb64925b; 0x6da49249; 0x66492492; 0x40000000;
   0x1f1f01; 0x92000; 0x492000; 0x924000; 0x2492000; 0x12492000; 0x24924000; 0x12490000;
   0x92490001; 0xc320000; 0xb2c80000; 0xb2c00000; 0x4; 0xb2400004; 0x92000001; 0x20000005;
   0x90000924; 0x92401240; 0x2480db64; 0xb6c24924; 0x92441249; 0x482d96d; 0x92135965; 0xb2040240;
   0x24124b64; 0x90125b24; 0x90049248; 0x2012db65; 0x84925b2d; 0x89249249; 0x24924924; 0x80000000;
   0x1f1f01; 0x92000; 0x492000; 0x924800; 0x2492000; 0x2492000; 0x4124000; 0x12492000;
   0x12490000; 0xc320000; 0x92480000; 0xb2c80000; 0x4000004; 0x92400004; 0x92000001; 0x20000005;
   0xb0000124; 0x92401240; 0x24805b64; 0xb6c04924; 0x92408249; 0x482496c; 0x9202d965; 0x92009241;
   0x2432cb64; 0x96124b24; 0x90241249; 0x20b2db65; 0x91b2db65; 0x89249249; 0x24924924; 0x80000000;
   0x1e1f01; 0x9240; 0x12480; 0x249200; 0x1249200; 0x2492000; 0x8248000; 0x49248000;
   0x92480002; 0x41000012; 0xcb200024; 0x92000002; 0x10092; 0x40124124; 0x490090; 0x16db2d90;
   0x24924900; 0x92480005; 0x92d92489; 0x24b2db04; 0x249252c; 0x96db624b; 0x2db6c904; 0x9259c925;
   0xb6d8924b; 0x6db24924; 0x96564b6d; 0xb62cb6db; 0x6c924925; 0x94924924; 0x80000000; 0x1f1f01;
   0x92400490; 0x92402491; 0x24804924; 0x92412494; 0x92492489; 0x24924924; 0x920924a4; 0x92492440;
   0x44841965; 0x90596565; 0x80596000; 0x964; 0x82592924; 0x2490240; 0x900b20; 0x2c80920;
   0x12401240; 0x2482db60; 0xb6ce4924; 0x92441249; 0x492d96d; 0x92f35965; 0xb2240240; 0x24924b64;
   0x97925b24; 0x9104b248; 0x2592db25; 0xbc925924; 0x89249249; 0x24924924; 0x80000000; 0x201f01;
   0x12400492; 0x49201249; 0x49201248; 0x92482492; 0x49241249; 0x41241048; 0x92482492; 0x49241249;
   0x18640608; 0x92482492; 0x59641658; 0x1000040; 0x92492492; 0x49249248; 0x9249240; 0x16db6db0;
   0x9249240; 0x249200; 0x92592d92; 0x5924925b; 0x49040249; 0xb6c965b6; 0x5b2cb2db; 0x49243249;
   0xb6c925b6; 0x5b6496db; 0x49249249; 0xb6d92db6; 0x5b2492db; 0x49249249; 0x92492492; 0x1f1f01;
   0x24900925; 0x24900924; 0x49201249; 0x24924929; 0x24824922; 0x49049249; 0x24924949; 0x24124910;
   0x40241059; 0x64965849; 0x20924810; 0x40259; 0x964249; 0x924090; 0x2412c8; 0x4b20240;
   0x4900490; 0x920b6c9; 0x6db5925b; 0x24b90492; 0x92c96d9; 0x6ca492d9; 0x34c92092; 0x416496c9;
   0x256496c9; 0x26492482; 0x4b64b6c9; 0x692496cb; 0x62492492; 0x49249249; 0x0; 0x1f1f01;
   0x92400490; 0x92402491; 0x24804924; 0x92412494; 0x92492488; 0x24924924; 0x920924a4; 0x92492440;
   0x44841965; 0x90596565; 0x80596000; 0x964; 0x82592924; 0x2490240; 0x900b20; 0x2c80920;
   0x12401240; 0x2482db60; 0xb6ce4924; 0x92441249; 0x492d96d; 0x92f35965; 0xb2240240; 0x24924b64;
   0x97924b24; 0x91049248; 0x2592db65; 0xbd96db2d; 0x89249249; 0x24924924; 0x80000000; 0x201f01;
   0x12400492; 0x49201249; 0x49201248; 0x92482492; 0x49241249; 0x41241048; 0x92482492; 0x49241249;
   0x18640608; 0x92482492; 0x59641658; 0x1000040; 0x92492492; 0x49249248; 0x9249240; 0x16db6db0;
   0x9249240; 0x249200; 0x92592d92; 0x5924925b; 0x49040249; 0xb6c925b6; 0x5b2cb2db; 0x49243249;
   0xb6c925b6; 0x5b2492db; 0x49249249; 0xb6d92db6; 0x5b6cb6db; 0x49249249; 0x92492492; 0x1f1f01;
   0x24900925; 0x24900924; 0x49201249; 0x24924929; 0x24824922; 0x49049249; 0x24924909; 0x24124910;
   0x40241059; 0x64965849; 0x20924810; 0x40259; 0x20964249; 0x924092; 0x2416c9; 0x4b29248;
   0x4902490; 0x921b6c9; 0x6db5925b; 0x24b90492; 0x92c96d9; 0x6cac92d9; 0x34c92092; 0x416496c9;
   0x256496c9; 0x2ec92482; 0x4b64b6c9; 0x6924b249; 0x32492492; 0x49249249; 0x0; 0x1f1f01;
   0x92400490; 0x92402491; 0x24804924; 0x92412494; 0x92492489; 0x24924924; 0x920924a4; 0x92492440;
   0x44841965; 0x90596565; 0x90596000; 0x20000964; 0x92592924; 0x92490249; 0x24904b6d; 0xb6c84924;
   0x92408249; 0x2402cb25; 0xb24ec924; 0x92c49000; 0x2496db2c; 0xb6f6cb3d; 0xb6248241; 0x24b6c92d;
   0xb7b6c92d; 0xb1259249; 0x25b6cb6d; 0xbdb2496d; 0x89649249; 0x24924924; 0x80000000; 0x201f01;
   0x12400492; 0x49201249; 0x49201248; 0x92482492; 0x49241249; 0x41241048; 0x92482492; 0x49241249;
   0x18640608; 0x92482492; 0x59641658; 0x1040040; 0x92482492; 0x49241248; 0x49040240; 0x96c805b0;
   0x49240240; 0x49241240; 0xb6d82db2; 0x4924924b; 0x48249049; 0xb24b6496; 0x4b65964b; 0x41248249].
Definition emoji_data_54 : list N :=
  [0xb2cb6496; 0x4925924b; 0x490c9249; 0xb65b6cb6; 0x4925b65b; 0x49249249; 0x92492492; 0x1f1f01;
   0x24900925; 0x24900924; 0x49201249; 0x24924929; 0x24824922; 0x49049249; 0x24924909; 0x24124910;
   0x40241059; 0x64965849; 0x20924810; 0x40259; 0x20965249; 0x924092; 0x2416c9; 0x4b29248;
   0x4902490; 0x921b6d9; 0x6db5925b; 0x24b90492; 0x92c96d9; 0x6ca492d9; 0x34c92092; 0x416496c9;
   0x252496c9; 0x26492482; 0x4b65b6c9; 0x6b65b6cb; 0x72492492; 0x49249249; 0x0; 0x1f2000;
   0x2000080; 0x24800920; 0x92402494; 0x92412491; 0x24824924; 0x924924a4; 0x92092488; 0x24104924;
   0x92492424; 0x90492461; 0x80986165; 0x92596124; 0x82492040; 0x20100925; 0xb6494924; 0x924806c9;
   0x2490496d; 0xb6424924; 0x92008241; 0x2096c924; 0xb2d6c924; 0xb6e59308; 0x24b6cb2d; 0xb6b64924;
   0xb7248209; 0x25b6cb2d; 0xb5b24b25; 0xb9249249; 0x2db6cb6d; 0xadb6db6d; 0x89241249; 0x1f1f00;
   0x40000; 0x480000; 0x9248000; 0x9240000; 0x12480000; 0x49240000; 0x49240000; 0x92080002;
   0x49200012; 0x49200005; 0x6400016; 0x49000092; 0x59000000; 0x80000096; 0x48000092; 0x40000020;
   0x4b6; 0x40000492; 0x24; 0x492; 0x49600492; 0x49024124; 0x921b6db2; 0xd8492492;
   0x48924904; 0x92db6d96; 0xc2492492; 0x44924824; 0x16cb6db6; 0x12492490; 0x0; 0x1f1e02;
   0x2492492; 0x2480000; 0x920000; 0x16d92490; 0x12492000; 0x24924000; 0xb6d92480; 0x92490001;
   0x2412000c; 0x92496404; 0x92490007; 0xc92002c; 0x924b2124; 0x92480001; 0x4900124; 0x92590124;
   0x92400048; 0x2480096c; 0x92c80924; 0x92000001; 0x20004924; 0x92424904; 0x9205801b; 0x36496d;
   0x90b6596c; 0x164f258; 0x5b6cb6c; 0x5b6db60; 0x9249240; 0x0; 0x1d2000; 0x200000;
   0x1000000; 0xb6c00016; 0xdb000092; 0x48000b6d; 0xa0006db6; 0x12490; 0x16db60; 0x5b6400;
   0x2492000; 0x2492c000; 0x92480001; 0x83000049; 0x2c800124; 0x90000020; 0x9248; 0x824920;
   0x82024804; 0x102d9041; 0x92010c; 0x960; 0x9003609; 0x2480c0c0; 0x4022d92; 0x5928b6db;
   0x20819ff8; 0x4596db2; 0x5165b641; 0x1249008; 0x1f1d02; 0x490000; 0x2490000; 0x4920000;
   0x12490000; 0x92480001; 0x24900004; 0x92480004; 0x90000008; 0x25; 0x96400024; 0x92410008;
   0x120025; 0x92000024; 0x90000000; 0x900124; 0x8248016c; 0x82400048; 0x4800124; 0x2000120;
   0x12000000; 0x24024924; 0x90120924; 0x90001200; 0x92592d; 0xb092592d; 0xb000805b; 0x6492c96d;
   0xb492096d; 0x80000000; 0x1f1e01; 0x40; 0x160; 0x100100; 0x1241240; 0x24925b60;
   0x24904900; 0x49241001; 0x24905001; 0x24904002; 0x48201009; 0x24804009; 0x2480c00e; 0x18018059;
   0x2402c049; 0x24020002; 0x40249; 0x20000249; 0x90; 0x12d9; 0x248; 0x2010;
   0x1b258; 0x59249; 0xfe4b6; 0x402db2db; 0x6125b649; 0x60012012; 0x4b24b249; 0x69259249;
   0x0; 0x182000; 0x100000; 0xb600016d; 0x8005b6c0; 0x792c00b; 0x6db00db6; 0xd00f92f8;
   0x1b6db02d; 0xb6d87fff; 0xded96db6; 0xe4924f60; 0x830f5965; 0x96249248; 0x100001; 0x2c800492;
   0x40009200; 0x16c8000; 0x92000082; 0xb65b0; 0xc92702e; 0x82785b6d; 0xb62c9279; 0x2e92794b;
   0x6db22c92; 0x79040040; 0x191f01; 0x400000; 0x48000090; 0x4800; 0x90000; 0x2000000;
   0xb00; 0x24000; 0x1200001; 0x60000048; 0x2000; 0x2c8000; 0x9200004; 0x80000580;
   0x16080; 0xb00000; 0xb608006c; 0x2001600; 0xb2c020; 0x2cb00010; 0x50003058; 0x2c1400;
   0x18080016; 0xb001183; 0xc0000120; 0x0; 0x181d01; 0x480001; 0xb6c002db; 0x60024920;
   0x2db6d816; 0xdb6c1249; 0x246db6da; 0x36db2c16; 0x49046db2; 0x4b324924; 0x10000464; 0x924a1249;
   0x24030180; 0x2592c992; 0x49240000; 0x249248; 0x12592400; 0x8002492; 0x48124920; 0x2490005;
   0xb6c00249; 0x20000000; 0x920000; 0x191d01; 0x80000; 0x49200092; 0x49024924; 0x82492490;
   0x92492049; 0x24904924; 0x92124924; 0x89249249; 0x24925249; 0x24912480; 0x49249248; 0x4b259221;
   0x80c82592; 0xc90964b2; 0x40000004; 0x92492124; 0x92400040; 0x124920; 0x4924800; 0x4920025b;
   0x64009248; 0x0; 0x9240000; 0x171905; 0x490002; 0x49000000; 0x124900; 0x92490000;
   0x49249; 0x4924800; 0x2492; 0x49249248; 0x804092c; 0x96492492; 0x40000009; 0x2492092c;
   0x90004800; 0x49249049; 0x24801248; 0x5b6400; 0x49200000; 0x4900; 0x181c02; 0x924002;
   0x49200000; 0x49248; 0x12492400; 0x2492; 0x48124924; 0x24; 0x92481249; 0x24000000;
   0x24924812; 0x49240301; 0x802592c9; 0x92492400; 0x2492; 0x48125924; 0x80024; 0x92481249;
   0x20024900; 0x5b6c002; 0x49200000; 0x9200; 0x1c1f01; 0x9200001; 0x64000019; 0x200000d0;
   0x1640; 0x9000; 0x90000; 0x6c0000; 0xf200000; 0xf2000006; 0x50000032; 0x300;
   0x6db6; 0x8003edf0; 0x365f00; 0x2db6c00; 0x37db6003; 0xff12006d; 0xb0c0036d; 0x86003ff8;
   0x6006db05; 0xb0b6f87c; 0x32783c3; 0x2db64841; 0x24a00412; 0x4900b0d9; 0x600406c9; 0x402000;
   0x0; 0x1b1f01; 0x100000; 0x4800002; 0x40000000; 0x200; 0x2000; 0x240002;
   0xdb000004; 0x90000092; 0x580; 0x2c800; 0x90000; 0x6d92001; 0x6fb6000d; 0xb2400b6d;
   0xb005b6fb; 0x96fb60; 0x24964b06; 0x596580c3; 0xc9032db; 0x65822db2; 0x5804964b; 0xfb60b6d9;
   0x82196c10; 0xc2405b6; 0x9b001b61; 0xb0012010; 0x0; 0x191e02; 0x490000; 0x12400049;
   0x20004924; 0x124900; 0x9248009; 0x24800249; 0x20002090; 0x164b200; 0x59640004; 0x10002492;
   0x96480; 0x4; 0x9240012d; 0x80001200; 0x124000; 0x24900018; 0xf00b64b; 0x607d92f8;
   0x3fc13c36; 0xdb65adf6; 0xc9567920; 0x16db6cb4; 0xb2db2a49; 0x24900000; 0x1f1d03; 0x80000;
   0xb60000; 0x6db0000; 0x16db0000; 0x2db60000; 0xb6db0001; 0xb6c80003; 0x24900004; 0x9258000c;
   0x92400003; 0x6000024; 0x96400024; 0x92000001; 0x124; 0x90000124; 0x9000005b; 0x16c;
   0x80d80124; 0x2f80000; 0x3d00920; 0x2c04924; 0x647c01f; 0xc16c96d; 0x903fd97f; 0xa1ffb3ff;
   0x81b6db6c; 0x87bfdfe4; 0x9249240; 0x0; 0x172000; 0x2590016; 0xdb003db7; 0x1b65b05;
   0xb25b0f64; 0xb72db6db; 0x24924c7f; 0xffb86db6; 0xd0249240; 0x40000124; 0xb20124d0; 0x418009;
   0x24900924; 0x80004000; 0x9240009; 0x24001240; 0x492000; 0x49000000; 0x964965; 0xb0416d00;
   0x800492c9; 0x2487c900; 0x6002496; 0x49001000; 0x1f2000; 0x90482010; 0x90d96091; 0x25ffe924;
   0x96db6494; 0x96db6489; 0x3fffc924; 0xb6db24a4; 0xb6db2441; 0x7ff20924; 0xb6d92524; 0xb6c92041].
Definition emoji_data_55 : list N :=
  [0x7c820964; 0xb24b2924; 0x2590200; 0x104920; 0x2494900; 0x2488000; 0x124800; 0x24a4000;
   0x2448000; 0x4920000; 0x12500000; 0x2000000; 0x96c02d; 0xb2b6c02d; 0x91248049; 0x25b6c16d;
   0xbdb6036d; 0x892402c9; 0x2db60b6d; 0xa4900924; 0x201c00; 0x82400; 0x2cb600; 0x3ffe00;
   0x5b6c00; 0x6db600; 0x7ffe00; 0x125b6c90; 0x496db648; 0x493ffe48; 0x925b6c92; 0x492db249;
   0x4927f248; 0x924b6492; 0x49249249; 0x49201248; 0x92482492; 0x49241248; 0x1200040; 0x96582cb2;
   0x49641658; 0x8000200; 0x92482492; 0x49641248; 0x600200; 0x92480492; 0x49600248; 0x0;
   0x12000092; 0x191f00; 0x120000; 0x24900092; 0x48009249; 0x1249240; 0x92492092; 0x49242492;
   0x49124924; 0x92492484; 0x92492241; 0x924924; 0x90924924; 0x4301824b; 0x259292c9; 0x64806030;
   0x9249242; 0x49249000; 0x80012492; 0x48492490; 0x924004; 0x92480124; 0x92001200; 0x924900;
   0x24920000; 0x249; 0x0; 0x1f2000; 0x400000; 0x2c80000; 0x4900000; 0x16d80000;
   0x36d80000; 0x24900025; 0xb6d9006f; 0xb6fb004f; 0xfff2016d; 0xb6d8006d; 0xb6c000c9; 0x24800365;
   0x92c02124; 0x92880061; 0x84101965; 0x96031924; 0x94407040; 0x7080d924; 0xb018cb65; 0xa201c2cf;
   0x8406c92d; 0x80c7c97c; 0x92041219; 0x2416db60; 0xb0364960; 0x812492c1; 0x5b6db64; 0x5b24b24;
   0x9249648; 0x2db6db20; 0x24924820; 0x1c1f00; 0x10410000; 0x92480000; 0x924; 0x92004924;
   0x90000000; 0x924920; 0x4924800; 0x40008009; 0x24920049; 0x24800480; 0xa009249; 0x600c924a;
   0xc30c20; 0x9249208; 0xc924a2ce; 0x20e24b2; 0x4965bf92; 0x5e6cf961; 0xe24b64b6; 0xdb7925c6;
   0xc4000824; 0x12d905b4; 0x96482c01; 0xe000092d; 0x92184964; 0x90000600; 0x924921; 0x80000000;
   0x151f01; 0x40001f; 0xc0016d80; 0x2ffe01ff; 0xf016db40; 0xff2c07c0; 0x702c92c1; 0x92c80482;
   0x492583; 0x24980c21; 0xc0b2db03; 0xc9601a01; 0x24b604; 0x92c02016; 0x6496419; 0x2490cb24;
   0x8db648b6; 0x4925b249; 0x1b25b764; 0xb6cb05b6; 0x325b6000; 0x20000000; 0x191d00; 0x490000;
   0xb6c002ff; 0xfc02db6d; 0x81b6db43; 0xfffff0db; 0x6db0b24b; 0x2c400002; 0x49249240; 0x0;
   0x92492; 0x42492490; 0x124; 0x92484924; 0x92018060; 0x24925929; 0x64924000; 0x492c9;
   0x2024b240; 0x12; 0xc92400b6; 0xc0000b00; 0x492000; 0x2400000; 0x192000; 0x80000;
   0x16c002ff; 0xfc16db6d; 0xb5bfd920; 0x5fff801b; 0x6db01fdb; 0xf007fff8; 0x36db603; 0xff2f81e4;
   0x7c12492; 0x404924b0; 0x21860824; 0x92480924; 0x9606020f; 0x5924b01; 0xe593c0f0; 0xc3e0b64b;
   0x603c92f0; 0x16002006; 0xc96c0fb2; 0xdf07fb7f; 0x86db6db7; 0xfedff1ff; 0xfff8db6d; 0xb6124924;
   0x1e1d03; 0x1240000; 0x2480000; 0x9240002; 0x49240004; 0x92400012; 0x49000092; 0x59000125;
   0x92000407; 0x80024b6; 0x4002496c; 0x800121f2; 0x92590; 0x924b20; 0x2410c80; 0x25b2580;
   0x24b25b00; 0x2007c00; 0xb25b6c0b; 0x64b6d03f; 0x83fbe16c; 0x96db42d9; 0x3d960960; 0xf25f5b65;
   0xb65992d9; 0x28b64b24; 0xa276db6d; 0x90249248; 0x20000000; 0x1d1e02; 0x1600000; 0xb6d80006;
   0xdb600036; 0xdb60036d; 0xb6800db6; 0xd8006dff; 0xc002db6c; 0x1fedf0; 0xf90780; 0xd925b00;
   0x32496003; 0x98618019; 0x65960064; 0x92c00704; 0x7003649; 0x6c00cb65; 0x80070b3c; 0x6c92d0;
   0x1f25b20; 0x4124900; 0x5b6cb64b; 0x6c92d95b; 0x249645b6; 0xdb6d96cb; 0x24b2b249; 0x258b6db6;
   0xdb249249; 0x20000000; 0x1f2000; 0x924920; 0x4924920; 0x9249240; 0x2db6db60; 0x2ff6cb20;
   0x7ffc1201; 0x6db65b03; 0xfff6591f; 0xfff4905b; 0x6db6d87f; 0xe7f2c8f2; 0x3c48249; 0x2596c649;
   0x25924c30; 0xc3241249; 0x25b63249; 0x2c927010; 0x7920b249; 0x6db1f24b; 0xed93e587; 0xc905b25b;
   0x6d87927f; 0x6c8f00be; 0x482c92db; 0x6c6c92d9; 0x20d925b0; 0x36db6c0; 0xb6db6c0; 0x16d96d80;
   0x1b6db680; 0x49249200; 0x1d2000; 0x480000; 0x1b600002; 0x4b20002d; 0xb6c001b6; 0xd8000496;
   0x4000db6d; 0x800b6db6; 0x492cb0; 0x5b6db00; 0x16db6c00; 0xf6496003; 0x6cb20027; 0x97c8013c;
   0x3e4006c9; 0x64024924; 0xb00bc101; 0x804c9258; 0x4f2d9e0; 0x17820f04; 0x1b25b059; 0xec97c103;
   0x100836; 0xdb6082df; 0xe586125f; 0x24216db6; 0xd90db65b; 0x8249248; 0x42db6db2; 0x9249200;
   0x1f2000; 0x580000; 0x2f80000; 0xffe0000; 0x36db0000; 0xffff0001; 0xfffe0005; 0xb6d8000f;
   0xf6f8001f; 0x20f0006c; 0x92d80064; 0x9240000c; 0x30c0032c; 0xb2c00124; 0x92000e08; 0x6001b24;
   0xb600196c; 0xb0003c49; 0xe000d925; 0xa000f92d; 0x92408049; 0x2482d924; 0x92d6d924; 0x922d9249;
   0x24b6db65; 0xb0b64924; 0x916c9209; 0x25b6db2d; 0x85b24924; 0x9249248; 0x2496db6c; 0x20124920;
   0x1f2000; 0x492490; 0x2492490; 0x900000; 0x16d92490; 0x3ff80000; 0xfff80005; 0xb6d9248f;
   0xfff9001f; 0xfff2006d; 0xb2d9247c; 0x93c80040; 0xd20324; 0x92cb2124; 0x92480861; 0x86901924;
   0x96591924; 0xb2407040; 0x7480d965; 0xb2c8f967; 0x9201f00f; 0x2406c92d; 0xb646492c; 0x90048058;
   0x36496c; 0x92b64b6c; 0x916c02d8; 0x5b65b60; 0x5b65b60; 0xb64b6c0; 0x2db2db00; 0x24924900;
   0x1d2000; 0x400000; 0xb200000; 0x4900000d; 0xb60000b6; 0xd8000492; 0x40005b6d; 0x80036db0;
   0x92480; 0x1b6db00; 0x16f96c00; 0xfe41e003; 0x24920024; 0x92480104; 0x10400659; 0x24004924;
   0xb003c101; 0x800c9258; 0x4f2d9e4; 0x17820f20; 0x9b25b2c9; 0xec97cb63; 0x105b16; 0x4960b2c9;
   0x24820600; 0x20116db6; 0xc945b6d9; 0x400f6c0; 0x22cb6d92; 0x81249008; 0x1d1e02; 0x200000;
   0xfe00001; 0xb6c0001f; 0xff0001ff; 0xfc001b6d; 0xb0007fff; 0xc00ffcbe; 0x36c961; 0x82400580;
   0x10000410; 0x24924904; 0x12416030; 0x1800c9; 0x25920f24; 0x96487820; 0xf041b6cb; 0x241fc97c;
   0x80fe0be0; 0x3249648; 0x4924100; 0x800012; 0x5b249048; 0x6096c003; 0xb62496; 0x4b6c9041;
   0x6db00209; 0x24c92092; 0x48000000; 0x1f1f01; 0x80; 0x80; 0x800100; 0x6d82d80;
   0x3ff82480; 0xfff84805; 0xb6d8200f; 0xfff8201f; 0xfff0002d; 0xb2d0207c; 0x93c060c0; 0x1c0c32c;
   0xb2cb6324; 0x92030e41; 0x6001924; 0x96081924; 0xb0003040; 0x7000d965; 0xb000f967; 0x8001f00f;
   0x6d96d; 0x7c96c; 0x7d3c8; 0x16db6d; 0x8096db25; 0x80049249; 0x4924925; 0x8492c925;
   0x88009249; 0x24924924; 0x0; 0x182000; 0x80000; 0xb60002db; 0x3c9e0; 0x5b6c006;
   0xdb600749; 0xe00db6d8; 0x16db681f; 0xfff86db6; 0xdbfed97f; 0xfe003f6c; 0x925bb2cb; 0x2c38431c;
   0x2c92581e; 0x493c1c08; 0x3c2cb658; 0x1e597c1e; 0x1782d92; 0xd8164960; 0xe49702d; 0xb6d81659;
   0x641e4974; 0x6db6db16; 0x49640649; 0x60249248; 0x1c2000; 0x1001; 0x2406d809; 0x20ffc000].
Definition emoji_data_56 : list N :=
  [0xffc1241; 0x6da0921f; 0x2c000190; 0x6164125a; 0x9219240; 0x10180612; 0x4164a010; 0x196c0000;
   0xf3c16c16; 0x581b60b2; 0xc0920920; 0x16c96d80; 0xb6036409; 0x203e016c; 0x92d84b64; 0x36009001;
   0x2092406d; 0x90920b68; 0x9001200; 0x24024009; 0x120080; 0x240; 0x20008001; 0x200c6033;
   0x16c0258; 0x192000; 0x800901b; 0xb616c1; 0x7f8ff8ff; 0xfb6cb6de; 0xcb3dbd24; 0x1a0f6d96;
   0x4b490492; 0xa48208cd; 0x82c96120; 0xf6708078; 0x75b6192f; 0x6d065892; 0x4124b6c1; 0x6c2d925b;
   0x12483f16; 0xd92d95b2; 0xb604804; 0x904825b2; 0x12036c09; 0x920900; 0x12024000; 0x200001;
   0x20004008; 0x4016c03; 0x306582d8; 0x1a2000; 0x8001005; 0xb05b65b6; 0x1ffdff87; 0xffb6c36d;
   0x96d8fcf5; 0x96380cdb; 0xd921b63; 0x92c2c0c4; 0x316c3258; 0x2c064b09; 0x183cdb0; 0x5965b619;
   0x21248248; 0xb6c16d96; 0xd82d8492; 0xfe25b61; 0xb29b0cb6; 0x42412489; 0x2496d824; 0x2d80900;
   0x92049009; 0x900000; 0x24000012; 0x240240; 0x19806; 0x60cb0190; 0x1c2000; 0x1001001;
   0x7c06d81f; 0xe0ffc3ff; 0xffc3ff9; 0x6da3f71f; 0x2c3f7190; 0x636d125a; 0x1b619241; 0xbe180616;
   0xc164a0b4; 0x196c0300; 0xf3c16c16; 0x581b60b2; 0xc0920924; 0x36d96d85; 0xb6836449; 0x283e0b6c;
   0x92d84b64; 0x36049041; 0x2092426d; 0x94924b68; 0x9001200; 0x24024009; 0x120080; 0x240;
   0x20008001; 0x200c6033; 0x16c0258; 0x192000; 0x9009; 0xb61241; 0x7f8000ff; 0xf924b6da;
   0x493dbc00; 0x1a0f6496; 0x4b492492; 0x840208c5; 0x82c96120; 0xf6708078; 0x7596192f; 0x25065892;
   0x124b6c1; 0x6c2d925b; 0x2403f16; 0xc12d95b0; 0xb624804; 0x92db25b2; 0xb6036c49; 0x920900;
   0x12004000; 0x1; 0x20004008; 0x400cc03; 0x306402d8; 0x1a2000; 0x800100d; 0xb05b65b6;
   0x1ffdff87; 0xffb6db6d; 0xb6d8fcfc; 0x93380edb; 0x6d92c923; 0x92d248c4; 0x316c3258; 0x2c064b09;
   0x183cdb0; 0x59659619; 0x21648248; 0xb6c16d96; 0xc82d8490; 0xfe25b21; 0xb21b04b6; 0x4640248b;
   0x6c96d86d; 0x82d80900; 0x92048009; 0x900000; 0x24000010; 0x240240; 0x19806; 0x604b0190;
   0x1c2000; 0x1001001; 0x6c06d81b; 0x60ffc7ff; 0x8ffc36d9; 0x6da5b69f; 0x2c793990; 0x636d925a;
   0x5b699244; 0xb2980616; 0xc164a0b0; 0x196c0100; 0xf3c16c16; 0x581b60b2; 0xc0960924; 0x36d96d84;
   0xb6036449; 0x3e036c; 0x92d84b64; 0x36049241; 0x2096c06d; 0x91b60b68; 0x9201200; 0x6c024009;
   0x120000; 0x6c0; 0x20008001; 0x200cc033; 0x16c0258; 0x1b2000; 0x2002405; 0xf60b60ff;
   0xe5fe1ffc; 0xfff7ffad; 0xb6fdf3db; 0xdfbe683b; 0x6dd64b76; 0xd924aefb; 0x208c36cb; 0x258360f6;
   0x707c1e1c; 0x5b6192cd; 0xb41961b6; 0x81242db0; 0x5b06db25; 0xb0c920fc; 0x36cb2d99; 0x6c82d924;
   0x80491b6d; 0x96ccb603; 0x6c16c024; 0x81900120; 0x1b000003; 0x60000048; 0x100980; 0x4003b00c;
   0xc06402d8; 0x1b1f01; 0xb00000; 0x5f00001f; 0x200002c8; 0x6c00; 0xc0000; 0x1200000;
   0x36000002; 0xc00000b6; 0xb00; 0x10000; 0x590000; 0x5900000; 0x9040002d; 0x900002c0;
   0x4808; 0x16c100; 0x1680000; 0x2580000b; 0x60100196; 0x10090c0; 0x2c3001; 0x6030003;
   0xc0600030; 0x18000301; 0x80002078; 0xd80; 0x8000000; 0x1c1e01; 0xb0000; 0x2d90001;
   0x2490002d; 0xb6c00b6d; 0xb6009249; 0x2016db6d; 0x81b6db6c; 0x9249243; 0x6db6da5b; 0x6c96c492;
   0x4024b649; 0x25b59249; 0x2c480000; 0x4b24964b; 0x4964b254; 0x60304b2; 0x4924b592; 0x492c4804;
   0x4b2492; 0x5b592492; 0xc483d824; 0xb65b25b5; 0xb2496c4b; 0x164b6c; 0x92db5900; 0x2c00000;
   0x4000000; 0x201d01; 0x4b000; 0x37f800; 0xffff00; 0x36db6c0; 0x7ffffe0; 0x7ffffe0;
   0xb6db6d8; 0xffffff8; 0x1ffffff8; 0x1b6db6d8; 0x3ffff9fc; 0x3ffff87c; 0x5b6db25a; 0x7fbe497c;
   0x7f90083e; 0xd92c925b; 0x7c92593e; 0x7c10083e; 0xd924925b; 0x7c92493e; 0x7c02403c; 0x5b24925a;
   0x7c92497c; 0x3f06607c; 0x1b25b2d8; 0xf9249f8; 0xfc003f0; 0x96496c0; 0x101800; 0x181904;
   0x920000; 0x49000000; 0x49240; 0x2492000; 0x492; 0x48124920; 0x24; 0x92481249;
   0x24000000; 0x2592c993; 0xc9a40301; 0x802592c9; 0x12492400; 0x8000492; 0x48024920; 0x4b0004;
   0xb6400249; 0x0; 0x920000; 0x1c1d01; 0x90000; 0x2480000; 0x24; 0x92400124;
   0x92000000; 0x124924; 0x80924920; 0x1; 0x24924849; 0x24924000; 0x9249; 0x24949249;
   0x24000000; 0x9249649; 0x4964b240; 0x6030092; 0x49249492; 0x49240004; 0x92492; 0x49492492;
   0x4003d800; 0x925b2494; 0x92492400; 0x924; 0x92484800; 0x2400000; 0x1c2000; 0x200000;
   0x9e000016; 0xc00001f2; 0xf00; 0x16c00; 0x80000; 0x920000; 0x6c00000; 0xf200000f;
   0x2000006d; 0x320; 0x3000; 0x6db60; 0x3edf00; 0x365f000; 0x2db6c003; 0x7db4003f;
   0xf12006db; 0xc0036d8; 0x6003ff86; 0x6db05b; 0xb6f87c0; 0x32783c32; 0xdb648412; 0x4a004124;
   0x900b0d96; 0x406c90; 0x4020000; 0x1b2000; 0x100000; 0x1f00000d; 0xb00000d8; 0x1c00;
   0x6c000; 0x0; 0x400005b; 0x60000096; 0x12c0; 0x4b400; 0x5b0000; 0x1200000;
   0xd900002f; 0xf20001f6; 0x48016db6; 0xb6df60; 0x12df6c04; 0x92c960cb; 0x2cb01861; 0x9206db6c;
   0xb045b64b; 0x2092c97f; 0x6c36db30; 0x432d8201; 0x8480b6d3; 0x60036c36; 0x240200; 0x171e02;
   0x240003; 0xfc001ffc; 0x5b6c00; 0xfffc03ff; 0xfc06db6c; 0x1ff9783c; 0x80f89249; 0x20924961;
   0xc304492; 0x4904924b; 0xc041e2c; 0x92583c92; 0x787961f1; 0x6c96c1fc; 0x9f82f83c; 0x364b60f;
   0x65b63fc1; 0x74db6d96; 0xdb6c1196; 0x4826db6c; 0xb2cb6484; 0x92410000; 0x1e1e02; 0x200000;
   0xc00000; 0xb200000; 0xdb600005; 0xb6c00012; 0x490000b6; 0xdb00036d; 0xb0000482; 0x40006492;
   0xc000c925; 0x2080; 0x92490; 0x124900; 0x82000; 0x2492000; 0x4924000; 0xc00000;
   0x12c80d80; 0x24805f00; 0xf424; 0x920162e1; 0xd864f84; 0x3e185b2d; 0xb641fefb; 0xf907ffff;
   0xc836db6d; 0x906ffff9; 0x924920; 0x0; 0x172000; 0x240003; 0xdf005b6d; 0x80db2d81;
   0xb25b86d9; 0x6d9ed96d; 0xbc924b36; 0xdb6c3ffb; 0xf07ff3e0; 0xb64b6192; 0x4b830003; 0xcb2cb0c;
   0xb2ce1800; 0x186cb258; 0x6492e0e1; 0x21c16596; 0xc3e49f07; 0xc03e0b24; 0xb04a2412; 0x90002649;
   0x24924964; 0x9003c002; 0x4b24924f; 0x24801200; 0x1c1e01; 0x120000; 0x6db0001; 0xfff8007f;
   0xffc00b6d; 0xb600ffff; 0xf01fffff; 0x81b6db6c; 0x3fffffe7; 0xfffdfe5b; 0x6d96c7fb; 0x24be7c00;
   0x3ed9249; 0x2d749249; 0xe70c0606; 0xd964b2d6; 0x4f269660; 0x407d92; 0x492d7496; 0x49e78000;
   0x1ed92492; 0xd7c92cbe; 0x7c1fc3ed; 0xb2496d7f; 0x924fe7f8; 0x1fe5b04; 0x96c24000; 0x14000000].
Definition emoji_data_57 : list N :=
  [0x1f2000; 0x10000; 0x820000; 0x2db0000; 0x6d80000; 0x4900000; 0x36d80004; 0xb6d9004b;
   0xedfa406d; 0xb6db006d; 0xfed8004b; 0x6c90002d; 0xb6c00124; 0x92402008; 0x2080412c; 0xb2880924;
   0x92110041; 0x402092c; 0x94404924; 0x908802d8; 0x20104b64; 0xa2004924; 0x84400000; 0x824924;
   0x96064960; 0xb02cb648; 0xb6db6c; 0x80b2db61; 0x81649241; 0x5b6db64; 0x5b6db0c; 0x1249000;
   0x1d1e02; 0x12492000; 0x49248000; 0x24; 0x92480492; 0x49000000; 0x4924; 0x80012492;
   0x92010; 0x924900; 0x2492400; 0x2080001; 0x2cb20004; 0x92482000; 0x1024b; 0x24360924;
   0x92d80160; 0x12449649; 0x6c124925; 0xb0004024; 0x892410d8; 0x25920b60; 0xd800812; 0x5924b249;
   0x6482000e; 0x1124b2; 0x48049249; 0x4000000; 0x20000000; 0x141d02; 0x2480012; 0x40000001;
   0x24900924; 0x12; 0x49009248; 0x1240124; 0x90092480; 0x20012d9; 0x964800; 0x20012490;
   0x92d8000; 0x58325b24; 0x92484124; 0x8b6d925b; 0x6485b249; 0xb6496592; 0x5b592dbb; 0x25b6412d;
   0x80000000; 0x191e00; 0x90000; 0x7fb0016d; 0xb600db6d; 0x81ffffc1; 0x6db6d8db; 0x6db47c82;
   0x5e2c9249; 0x200; 0x492; 0x49200000; 0x0; 0x92492424; 0x92490000; 0x2012c924;
   0xa4f25920; 0x40040249; 0x24909249; 0x24002000; 0x9249002; 0x4924002d; 0xc0002db0; 0x92000;
   0x0; 0x90000000; 0x171f01; 0x3c002d; 0xb6cb7fb6; 0xdaffe491; 0x6db641ed; 0xb643fbfc;
   0xb6db00b; 0xffb20249; 0x492490; 0x49249000; 0x225964; 0x82596400; 0x1259; 0x24124920;
   0x900092; 0xc9209249; 0x48004; 0x92480792; 0xf81f65fc; 0x6db6d9fd; 0xb7fbff7f; 0xfb6db6cf;
   0x7ff6d249; 0x24800000; 0x201e02; 0x80000; 0x248000; 0x248000; 0x2492000; 0x1249000;
   0x1249000; 0x12492400; 0x9249000; 0x9259000; 0x124b6400; 0x9259200; 0x867c000; 0x124b6400;
   0x925b000; 0x8049000; 0x12496400; 0x924b600; 0x82c1f80; 0x12c92d80; 0xb64b6c0; 0x1fe4ffc0;
   0x16c96db0; 0x1be5b6d8; 0x4be1f278; 0xb6cb6db6; 0x4965921b; 0x4926921e; 0x36db6db6; 0x792c9610;
   0x8000200; 0x1e1f01; 0x800000; 0x5900000; 0x5b600003; 0x6db0001b; 0x6db000b6; 0xdb6002db;
   0x6d8006db; 0x24000492; 0x40000000; 0x9249; 0x92492; 0x8200; 0x259640; 0x2492480;
   0x208000; 0x92c9000; 0x92492000; 0xb600002; 0x5b240004; 0x92480002; 0x9200096; 0xdb6c036c;
   0x92c82d92; 0x4f216db2; 0xdb26db64; 0x925b2492; 0x48db6db6; 0xc9b2492d; 0x82400000; 0x0;
   0x1f2000; 0x1249240; 0x2492490; 0xb6db6d8; 0x192db6c0; 0x10090480; 0x492d96c0; 0x4924b600;
   0x82412; 0x492cb612; 0x492db000; 0x12092; 0x4925b092; 0x492c8020; 0x800104b2; 0xc9258492;
   0x49240000; 0x824b2; 0x4b6c2492; 0x5b600120; 0x12412592; 0x5b612492; 0xdb004100; 0x920924b6;
   0xdb0b24b6; 0xd8324964; 0x92d965b2; 0x42db65b0; 0x5b64b60; 0x16db6d80; 0x16db6d80; 0x24924800;
   0x1f2000; 0x480000; 0x4960000; 0x16db0000; 0x36db0001; 0x2cb20001; 0xb6db0005; 0xb6d80009;
   0x6590002d; 0xb6d8006d; 0xb6d8005b; 0x2d90016d; 0xb640013c; 0xb2000078; 0x70000965; 0xb2000965;
   0x90010001; 0x4964; 0x90484924; 0x80400240; 0x824b64; 0x82024924; 0x2001000; 0x4024920;
   0x3012cb20; 0x25fe40; 0x1b6db61; 0x85b2cb64; 0x9259248; 0xdb6db4c; 0x2db2db20; 0x9249200;
   0x1e1d02; 0x1248000; 0x12490000; 0x2; 0x49240004; 0x92400000; 0x92; 0x49000924;
   0x92000082; 0x2596; 0x40024924; 0x80002080; 0x92c90; 0x924920; 0xb6000; 0x25b2400;
   0x4924000; 0x92000; 0x92492483; 0x6492492d; 0x9249256d; 0xb6db66d9; 0x24925b64; 0x9048db2d;
   0x92d9b649; 0x2486c924; 0x9236db6d; 0xb0649249; 0x20000000; 0x1f2000; 0x924924; 0x924920;
   0x0; 0x24924920; 0x24900020; 0x1; 0x24924901; 0x24900100; 0x49; 0x24964849;
   0x24900800; 0x249; 0x24b24259; 0x64824030; 0xc0001249; 0x25921249; 0x24120090; 0x92d9;
   0x2c9092c9; 0x20900080; 0x49249; 0x64809248; 0x48b00b0; 0x2d92d9; 0x246d92d9; 0x22d905b0;
   0x36cb6d0; 0xb6cb6c0; 0x16d86d80; 0x1b6db680; 0x49249200; 0x1f2000; 0x80000; 0x580000;
   0x4920000; 0x16da0000; 0x36d80001; 0x24900001; 0xb6d80005; 0xb6d00009; 0x2480002d; 0xb6c00024;
   0x92c00040; 0x124; 0x92000124; 0x92000061; 0x80000965; 0x90000924; 0x90000040; 0x4924;
   0x86104b64; 0x904002c0; 0x20824924; 0x32c20924; 0xb6001000; 0x6c164960; 0xb0124960; 0x802002c1;
   0x4b6db21; 0x8496db24; 0x10db608; 0x25b6d90c; 0x4924820; 0x1c1d03; 0x2480000; 0x12400000;
   0x124; 0x90000924; 0x80000000; 0x924924; 0x4924820; 0x9; 0x2492184b; 0x2c828010;
   0x40009249; 0x20049249; 0x20002000; 0x492d9248; 0x49649200; 0x2000092; 0x49248412; 0x8200000;
   0x92592; 0x48496092; 0x40160124; 0x92c96db4; 0x960b6c00; 0x60b6c92c; 0x96db0020; 0x92400000;
   0x1d1d03; 0x400580; 0x9201200; 0x49004; 0x920b2092; 0x48240000; 0x4924; 0x82012490;
   0x0; 0x924905; 0x92492436; 0x2080081; 0x2c920324; 0x92480000; 0x80000249; 0x2400496c;
   0x90000300; 0x49248; 0x124900; 0xf27800; 0xb6d9201; 0x7ff6d801; 0x7c924092; 0xcb258249;
   0x64921008; 0x249124b2; 0x49640249; 0x24800000; 0x192000; 0x480000; 0xb6c00079; 0x60005b6c;
   0x36db00; 0x7927805b; 0x6d8016db; 0x600f6df0; 0xb6db616; 0xdb6d9d24; 0x92eb2492; 0x5e4924b1;
   0x19c0825; 0x96480924; 0x90001200; 0x4924901; 0x25920002; 0xc0009249; 0x249240; 0x1e496016;
   0xdb60079e; 0x5813cf3c; 0x86db6d84; 0xf24b2079; 0x27805b6d; 0x90124920; 0x1a2000; 0x16002007;
   0xc02407fe; 0xdb04; 0x927f6092; 0x5f58000b; 0x24124924; 0x82490800; 0x1205904b; 0x20900924;
   0x24004012; 0x41249658; 0x24849209; 0x22db05b6; 0x5b60b602; 0x402d896c; 0x6c86c12; 0xd9090092;
   0x25b21b40; 0x900b6024; 0x2581241; 0x6c824000; 0x80900000; 0x48009009; 0x240; 0x12c06;
   0x40240208; 0x1c2000; 0x2002400; 0xb601201f; 0xe000036d; 0x92481b60; 0x9243f300; 0x36d924;
   0x80960924; 0x9201201; 0x6c12c809; 0x20924010; 0x12012c1; 0x2481960b; 0x2c092092; 0x436d96d8;
   0x1b60b640; 0x92036016; 0xc92d84b6; 0x43604924; 0x12096c06; 0xd9492436; 0x80900120; 0x12406d80;
   0x90012008; 0x24; 0x2400800; 0x12008001; 0x2016c025; 0x80820120; 0x1b2000; 0x5800802;
   0xd804807f; 0x800016d8; 0x24936d92; 0x487ce000; 0xb6c1248; 0xb6092412; 0x402405b6; 0x9245b04;
   0x92012002; 0x580492; 0x2d80cb04; 0x9009216d; 0x82d836d9; 0x2d824905; 0xb0b6c96c; 0x8b6416c1;
   0x2402489b; 0xcb66090; 0x1b601201; 0x2404805b; 0x480400; 0x1000002; 0x40048024; 0x80].
Definition emoji_data_58 : list N :=
  [0x32816; 0xc0920104; 0x1a2000; 0x16002007; 0xc02407fe; 0xff84; 0x927fe092; 0x5ff8000b;
   0x6c12496f; 0x82491fc0; 0x120db04b; 0x21b40924; 0x3c004016; 0x412496d8; 0x24849209; 0x22db05b6;
   0x5b60b612; 0x482d8b6d; 0x86cb6cb2; 0xd9890c92; 0x25b21b40; 0x90cb6024; 0x2581241; 0x6c824000;
   0x80900000; 0x48009009; 0x240; 0x12c06; 0x40240208; 0x1c2000; 0x6002401; 0xf601201f;
   0xf000036d; 0x92487f78; 0x9247f380; 0x325924; 0x84928924; 0x48081203; 0x2592c809; 0x924010;
   0x1200241; 0x2481960b; 0x2c182092; 0x416c16d8; 0xb60b640; 0x92036016; 0xc92d84b6; 0x43600b60;
   0x12096c06; 0xd91b6436; 0x80b60120; 0x16c06d80; 0x80012000; 0x24; 0x2400000; 0x12000001;
   0x2016c025; 0x80820120; 0x1b2000; 0x4800802; 0xd80480ff; 0xe00036d8; 0x24936d92; 0x487cf000;
   0x1b6c1249; 0xb2c92432; 0x58240db6; 0x9244904; 0x92012002; 0x580492; 0x2480cb04; 0x9009216d;
   0x82d816c9; 0x2d824905; 0xb0b6496c; 0x8b6416c1; 0x6c02481b; 0x44b665b0; 0x1b60b601; 0x242db05b;
   0x480400; 0x1000002; 0x40048004; 0x0; 0x32016; 0xc0820104; 0x1a2000; 0x16002006;
   0xc82407fe; 0x2db44; 0x92db6092; 0x7fdc000b; 0x6d924b6d; 0x8249c930; 0x122db64b; 0x21b00924;
   0x2c004016; 0x412496d8; 0x24859609; 0x22db05b6; 0x5b60b612; 0x482d896d; 0x86c96c12; 0xd91b0092;
   0x2db21b41; 0xb44b6024; 0x24836c1; 0x6c824000; 0x80900000; 0x48009009; 0x240; 0x12c06;
   0x40240208; 0x1c2000; 0x6002401; 0xfe01203f; 0xf00003ff; 0x92487ff8; 0x9247ff80; 0x36d924;
   0x87b78924; 0x7ff81203; 0x6d92c80b; 0x609240b8; 0x12006c1; 0x2481b60b; 0x2c0b6092; 0x436d96d8;
   0x5b60b644; 0x92036036; 0xd92d84b6; 0xc3604b64; 0x12096c06; 0xd95b6436; 0x80920120; 0x16c06d80;
   0x94012008; 0x6c; 0x2400800; 0x12000001; 0x2016c025; 0x80820120; 0x1b1f01; 0x200000;
   0x9; 0x20000090; 0x0; 0x49000; 0x400000; 0x8000002; 0xc000006c; 0x480;
   0x16000; 0x320000; 0x2400000; 0xb2c0001b; 0x4000360; 0x8000580c; 0xd8000; 0xb00000;
   0x2d800016; 0xd000024a; 0xb2c0; 0x20182802; 0x9050002; 0xc1600228; 0x14002303; 0x800460b6;
   0x400900; 0x0; 0x1c1e01; 0x120000; 0x1240001; 0x6db0005b; 0x6d800492; 0x4900b6db;
   0x600db6db; 0x2492490; 0x5b6db6c2; 0xdb6db625; 0xb20925b6; 0xc96c6c92; 0x4b624000; 0x12d92492;
   0xd64b2496; 0x20c0606d; 0x964b2d64; 0x92496200; 0x2016d92d; 0x92d64924; 0x96241041; 0x2d92d92d;
   0x6c96cb62; 0x4120b25b; 0x2496c6d9; 0x25b62400; 0x1248000; 0x24000000; 0x1d1a03; 0x2492400;
   0x49249000; 0x24; 0x92490092; 0x49200000; 0x4924; 0x92092492; 0x48000000; 0x4924924;
   0x92492490; 0x9; 0x24924924; 0xb2592401; 0x80c01259; 0x2c924964; 0xb2480020; 0x2492c9;
   0x24924924; 0x80020800; 0x492db249; 0x24b64900; 0x900012; 0x49248009; 0x24800000; 0x171a04;
   0x480002; 0x48000000; 0x924900; 0x92480000; 0x49248; 0x4924800; 0x12492; 0x49249240;
   0x8000924; 0xb24964b2; 0x40c06049; 0x24924924; 0x90004000; 0x49248049; 0x24801ec0; 0x25b2402;
   0x49200000; 0x24900; 0x400000; 0x191d01; 0x480000; 0x12000000; 0x24924; 0x924900;
   0x49; 0x24909249; 0x24000000; 0x49249252; 0x49248000; 0x92492; 0x4a492490; 0x4020125;
   0x92494925; 0x92008040; 0x24924929; 0x24924002; 0x40049249; 0x25249248; 0xcc0092; 0x5b24a492;
   0x49000000; 0x12492494; 0x2402000; 0x1a1f01; 0x12400006; 0x48000180; 0x4900; 0x190000;
   0x6400001; 0x2c00006d; 0x80000d20; 0x59000; 0xb20000; 0x3c800006; 0xc90003db; 0x6800ffdf;
   0x1b6d80; 0xb6db000; 0xffec006d; 0xb2c03df0; 0x500fff92; 0x1b6c300; 0xfff96c3d; 0xbe1fb6db;
   0xdb0cb20; 0x8c124802; 0xb2580c1; 0x2c803058; 0x20080410; 0x0; 0x1b1f01; 0x900000;
   0x9000000; 0x48; 0x480; 0x8000; 0x12c0001; 0xb6800006; 0x58000096; 0xb60;
   0x12000; 0x5b0000; 0x5b00000; 0xffc8002d; 0xb6c002db; 0x68025ffc; 0x80b6db60; 0x1964160c;
   0x20c040cb; 0x6cb624b2; 0xd3041650; 0x2445964b; 0x72492df1; 0x924b032; 0x9240365; 0x92803d82;
   0x40016010; 0x0; 0x171c04; 0x2490002; 0x49000000; 0x124900; 0x92490000; 0x49248;
   0x4924800; 0x2596; 0x48259640; 0x125; 0x92412492; 0x90009; 0x2c920924; 0x90020300;
   0x5b258059; 0x2f81f24f; 0x6d96d96; 0xf965bcf2; 0x41b6db24; 0x96db0524; 0x92089249; 0x20000000;
   0x1e1d03; 0x580000; 0x2d80000; 0x2db00000; 0x9240000d; 0xb6c0005b; 0x6d800124; 0x92000b65;
   0xb6001649; 0x60004104; 0x8000c925; 0x4b2c8; 0x10c320; 0x124900; 0x249000; 0x120000;
   0x4b64020; 0x96402c0; 0xf00; 0x24805b02; 0x4800b478; 0x380c2c9; 0x2d862f86; 0x7f20fe79;
   0xfc81b6db; 0x6c0fffff; 0xc83fffff; 0x6db6d9; 0x0; 0x162000; 0x24001b; 0x6c01b6da;
   0x6c96c36; 0xcb696c96; 0xc7b25bad; 0xb6db5b6d; 0xb12ffe41; 0x24920249; 0x24000000; 0x4b248092;
   0x49004100; 0x12492024; 0x92400240; 0x4b64809; 0x6c900080; 0x1249202; 0x9204800; 0x92d925b4;
   0x8209000c; 0x925925; 0x24f24007; 0x80249649; 0x1c1d01; 0x120000; 0x4920000; 0x49;
   0x24800249; 0x24000000; 0x49249; 0x1249248; 0x2; 0x49249212; 0x49248000; 0x2492;
   0x49212492; 0x48004020; 0x24b2492; 0x92496490; 0x4020024; 0x92492924; 0x92490009; 0x24924;
   0x92924924; 0x90019800; 0x2496c921; 0x24924800; 0x249; 0x24921009; 0x800000; 0x202000;
   0x200000; 0x5b0000; 0x6d8000; 0x1248000; 0x2db6000; 0x16d8000; 0xb24b200; 0xb6db6d80;
   0x5bfff600; 0xbfff200; 0x16db6c00; 0xb6db400; 0x9249600; 0x16db6c32; 0x19659601; 0x19659601;
   0x16db6c32; 0x192c9601; 0x1d249e01; 0x16db6c32; 0x1b2cb601; 0xf24fe00; 0x16db6db6; 0xb2430c8;
   0xb24b048; 0x16db6c30; 0xb2cb200; 0xb2cb200; 0x36db6c30; 0x4b2cb240; 0x4b6db200; 0x12492410;
   0x1d1f01; 0x12492002; 0x49248000; 0x124; 0x92400492; 0x49000000; 0x4924; 0x80012490;
   0x12400; 0x924900; 0x16492c00; 0x92492003; 0x6db60024; 0x96480124; 0x924006db; 0x6c345924;
   0xb2c3c927; 0x920db6d9; 0x6cb2db6d; 0xb7f25f24; 0x9b6db2d8; 0x64920b60; 0x24804812; 0xd921b24b;
   0x64860018; 0x1124b2; 0x49049249; 0xc001000; 0x22492482; 0x0; 0x141f01; 0x120005b;
   0x7fe00; 0xb6d00db6; 0x3fff01b; 0x6d82d928; 0x249281b6; 0xd82592c2; 0x492c1b6d; 0x82cb2c3c;
   0xb381b6d8; 0xc920041; 0x60192d82; 0x49642412; 0x45b2c96d; 0xb242d924; 0x5b2496c9; 0x246492cd;
   0x96db64b6; 0xc2096401; 0x24000000; 0x1a1e00; 0x240000; 0xb6d80036; 0xdb003fff; 0xe016db6c].
Definition emoji_data_59 : list N :=
  [0x6db6d81; 0xfe5fe0db; 0x25b60820; 0x86000000; 0x9249248; 0x0; 0x492; 0x49009249;
   0x20249248; 0xb6db6d92; 0x492c949a; 0x4f26db6d; 0xb6492492; 0x52090081; 0x25b24024; 0x92480924;
   0x9000b6d9; 0x16d900; 0x920000; 0x5b000001; 0x0; 0x171f01; 0x2d90097; 0xff23ff97;
   0xfdb6db61; 0xbfdb03ef; 0xbc05b6d9; 0xffff81f; 0xfff06db6; 0xc96d92c0; 0x4924836d; 0xb6c92492;
   0x1249241b; 0x6db45924; 0xb0f24960; 0xdb6d82cb; 0x6583f25f; 0x6db6c06; 0x492c0f92; 0xf8b6db6d;
   0xfedbfbfd; 0xbff5b6db; 0x6dfeffff; 0xffffa5b6; 0xdb000000; 0x1f1d03; 0x240000; 0x4920000;
   0x4920000; 0x9240001; 0x24920001; 0x24920002; 0x49240009; 0x2d900009; 0x2d900012; 0x5f20004b;
   0x6d90004b; 0x3c800092; 0x7900025b; 0x6c800249; 0x64000492; 0x4b0012db; 0x2d800249; 0x2c003c97;
   0xfc01b6db; 0x6c01b25b; 0x2c0bf4be; 0x7c2db6db; 0x6c25f2d9; 0x2c496792; 0x7d6db6d8; 0x6d25b259;
   0x234924b2; 0xb2492c0; 0x0; 0x1e1f01; 0x800000; 0x9200000; 0x2d90000b; 0x6db00016;
   0xdb60005b; 0x6d8002db; 0x6d8005b6; 0xd8001fff; 0xf000b6db; 0x60016c96; 0x8007924e; 0x2db6d8;
   0xcb2ca0; 0x32cb380; 0xb6db600; 0x32592800; 0xe924e002; 0xdb6d800d; 0x965a001e; 0x49f000b6;
   0xdb640165; 0x92480492; 0x49e42db6; 0x5b6cdb24; 0x964b6492; 0x491b6db6; 0xdbb65925; 0x92d92496;
   0x42492492; 0x0; 0x1e1f01; 0x36db6d8; 0x16db6d90; 0x4b649242; 0xdb6cb605; 0xb6d96c1f;
   0xff2490b6; 0xdb6d836d; 0xb65b0fff; 0xf9246db6; 0xcb62db2d; 0x96c92492; 0x411b6db6; 0xc8925925;
   0xb2492492; 0x46db6c92; 0x2c925b6c; 0xf249e491; 0xb6db6d8b; 0x2db6db3f; 0x92f9246d; 0xb6db60c9;
   0x2db6c124; 0x92495b24; 0xb6d9b24b; 0x6006c92d; 0x8036db6d; 0x806db6d8; 0x1b65b60; 0x4924920;
   0x0; 0x1d2000; 0x1240000; 0x9600005; 0xb6c00016; 0xdb000092; 0xc8001b6d; 0xb0006db6;
   0x80012590; 0x36db60; 0x2db6d80; 0x16cb6400; 0x6db6c004; 0xb27b0027; 0x87c800db; 0x2c800964;
   0xb2014924; 0xb009b6db; 0x96492c; 0x12f2d9e0; 0x136db609; 0x2d92d821; 0xe497c106; 0xdb2c101b;
   0x6c80c24f; 0xe4842db6; 0xdb21b2cb; 0x61049249; 0x85b6db6; 0x436cb6c2; 0x9209200; 0x1f2000;
   0x240000; 0x2f80000; 0xb6c0000; 0x5b6c0000; 0xfffe0002; 0xdb6c0006; 0xdb6c000f; 0xf2780036;
   0xdb680032; 0x49600024; 0x924001b6; 0xdb600096; 0x49000124; 0x92000db6; 0xdb000c92; 0x5800196c;
   0xb0006db6; 0xd0006c96; 0xc000f924; 0x80016492; 0x49616492; 0x4906c924; 0x925b6db2; 0xd85b2492;
   0x48b64904; 0x92db6d96; 0xc2d92492; 0x45b24824; 0x16cb6db6; 0x12492490; 0x20000000; 0x1f1e02;
   0x2592492; 0x2d90000; 0xffe0000; 0x36db2490; 0xb6db2001; 0xfffe4005; 0xb6d9248d; 0xb6d9001f;
   0x24f2006d; 0xb6d96424; 0x9249004d; 0x3492036d; 0xb6cb2324; 0x96480649; 0x2c901b6d; 0xb659196c;
   0xb2403a59; 0xe480db6d; 0xb2c8d92d; 0x9200824b; 0x2002cb2c; 0x9246c96c; 0x922d905b; 0xb6cb6c;
   0x90b60b6c; 0x16c16d8; 0x5b65b60; 0x5b65b60; 0x9249240; 0x0; 0x1d2000; 0x200000;
   0x1000000; 0xb6c00016; 0xdb000092; 0x48000b6d; 0xa0006db6; 0x12490; 0x16db60; 0x5b6500;
   0xaf96c00; 0x6db6c004; 0x924b0024; 0x924800db; 0x6d800925; 0x92004924; 0xb001b6db; 0x96492c;
   0x82f2d9e4; 0x136db641; 0x2d92d90d; 0xe497c966; 0x5b2c3619; 0x2480c0c1; 0x24022d92; 0x5828b6db;
   0x20819ff8; 0x4596db2; 0x5165b641; 0x1249008; 0x1f1d02; 0x480000; 0x2d80000; 0x7fe0000;
   0x36db0000; 0xb6da0001; 0xfffe0005; 0xb6d8000d; 0xb6d8001b; 0x24b00064; 0x92580024; 0x92410049;
   0x2482032c; 0xb2c00324; 0x92000608; 0xc901b2c; 0xb648196c; 0xb2403a59; 0xe480db6d; 0xb200d92d;
   0x92008243; 0x24024b24; 0x10020904; 0x90001600; 0x92592d; 0xb092592d; 0xb000805b; 0x6492c96d;
   0xb492096d; 0x80000000; 0x1e1e01; 0x80; 0x580; 0x4800800; 0x3fc12405; 0xb6cb6c1b;
   0x6d92407f; 0xfe08036d; 0xb45016db; 0x60807fe7; 0xc042db6d; 0x820d925a; 0xc324938; 0x30b6db60;
   0xb32cb281; 0xc924e04; 0x2db6d800; 0xd924a001; 0xe497800b; 0x6db60036; 0x4968007d; 0x27c002db;
   0x6d8005f6; 0xc90017f9; 0x6c8096cb; 0x6d8124b2; 0x4b000201; 0x24649649; 0x2e496492; 0x40000000;
   0x182000; 0x100000; 0xb600016d; 0x8005b6c0; 0x792c00b; 0x6db00db6; 0xd00f92f8; 0x1b6db02d;
   0xb6d87fff; 0xfedb6db6; 0xec925f7c; 0x925f5b6d; 0xb62c9258; 0x3c92581b; 0x6db02c92; 0x583cb678;
   0x1b6db02d; 0x92d80c92; 0x780b6db0; 0xcb6782e; 0xbe785b6d; 0xb62c9278; 0x2e92784b; 0x6db22c92;
   0x78040040; 0x1a2000; 0x800901f; 0xc07c8b6c; 0x36dbff96; 0xdaffc7f7; 0xadb2db6c; 0x94592804;
   0x124a124b; 0x6d92412c; 0xa0806938; 0x580db609; 0x5961240; 0x648b6c36; 0xd36d96d8; 0x4904922d;
   0xb05b25b2; 0x4b612402; 0xd036896c; 0x82406d90; 0x90092048; 0x5b20900; 0x96024020; 0x12006c0;
   0x24024001; 0x480; 0x1305b009; 0xc1040200; 0x1a2000; 0x1000; 0x3f8124; 0x16d92486;
   0xdb0001f3; 0xc490db64; 0x92192c24; 0xe4b1243; 0x6d824064; 0xb090392c; 0x580db609; 0x192c248;
   0x648b6c16; 0xd96d82d8; 0x4920922d; 0xb05b25b2; 0x4b642412; 0xd996c86c; 0x2402d90; 0x90092249;
   0x25b60900; 0xb6024000; 0x81240240; 0x24000809; 0x490; 0x901900b; 0x60240208; 0x1c2000;
   0x1001000; 0xfa03e016; 0xd16d81b6; 0x1b6c3ff1; 0xffc36d96; 0xda1b61b2; 0xc0961924; 0x16c16da1;
   0xb6192409; 0x2192406c; 0x16da0b00; 0xb2c09209; 0x2c36d96d; 0x85b60b6c; 0x9209243; 0x6d92d84b;
   0x68364492; 0x436096c8; 0x6d949243; 0x60490412; 0x92406d9; 0x9003200; 0x80012002; 0x40240080;
   0x1200800; 0x12002402; 0x40096032; 0x820120; 0x1c2000; 0x2002401; 0xfc07c83f; 0xf0db63ff;
   0x96da3ff1; 0xfde3fb2d; 0xb63ef164; 0xa1ec124a; 0x2db2db61; 0x6c12ca17; 0xc1a4e0d8; 0xdb606c1;
   0x65816c06; 0x482db0db; 0x436d96d8; 0x32592482; 0xdb05b236; 0xc92d8124; 0x82d06da6; 0x5b282406;
   0xd9824024; 0x804825b2; 0x2402580; 0x24020004; 0x801b0024; 0x2400040; 0x4801; 0x3016c027;
   0x1040200; 0x1a2000; 0x8001007; 0xc03f8b6c; 0x16d9ff86; 0xdbfff1f3; 0xedb6db6c; 0x93192f24;
   0xce4b925b; 0x6db24864; 0xb090392c; 0x580db609; 0x192c248; 0x64832c16; 0xd96d82d8; 0x1b009225;
   0xb05b2490; 0x4b642412; 0xd996c86c; 0x6d02d90; 0x900920db; 0x25b60900; 0xb6000000; 0x81000240;
   0x24000800; 0x400; 0x901900b; 0x60240208; 0x1c2000; 0x1000; 0x3e012; 0x496d8092;
   0x1b6c0001; 0xffc12496; 0xda4921b2; 0xc0801924; 0x12496da0; 0x92192401; 0x192402c; 0x16da0900;
   0xb2c08209; 0x2c36d96d; 0x81b60b6c; 0xb609241; 0x6c92d809; 0x20364092; 0x36016c8; 0x6d94b643;
   0x60092012; 0x96c06d9; 0x9203200; 0x12002; 0x40240000; 0x1200000; 0x12000402; 0x400c6032].
Definition emoji_data_60 : list N :=
  [0x820120; 0x1c2000; 0x2002401; 0xfc07c82d; 0xb0db636d; 0x96da3ff9; 0xfde6db2d; 0xb636d964;
   0xa365924a; 0x6db2db63; 0x6d92ca12; 0x41a4e058; 0xdb602c1; 0x65812406; 0x482db0db; 0x436d96d8;
   0x16c92482; 0xdb05b232; 0x492d8024; 0x82d06da6; 0x5b296c06; 0xd9924024; 0x82db25b2; 0x16c02580;
   0x24020004; 0x801b006c; 0x2400040; 0x4801; 0x3006c027; 0x40200; 0x1a2000; 0x800100f;
   0xf83f8bff; 0x16dbffc6; 0xdbfff1f3; 0xffbedb6f; 0xb7192f6f; 0xce4bf6db; 0x6db6dc64; 0xb1f0392c;
   0x5b0db60b; 0x192c3c8; 0x648b6c16; 0xd96d82d8; 0x5b60922d; 0xb45b2492; 0x4b672412; 0xd996c86c;
   0x26d32d90; 0x904922db; 0x25b61b00; 0xb6024000; 0x81280240; 0x24000809; 0x420; 0x901900b;
   0x60240208; 0x1a1f01; 0x1600000; 0xb40000b6; 0x3c80; 0x16c000; 0x2480000; 0x9000001b;
   0x340; 0xc000; 0x6c0000; 0x2c800003; 0x200001b2; 0xb640; 0x258000; 0x6c10000;
   0xd8200016; 0x1b00; 0x800b6000; 0x2580001; 0x65800061; 0x80004860; 0x2c1600; 0xc060003;
   0x18000a0; 0x5800901f; 0x100240; 0x0; 0x1c1e01; 0x48000; 0x2480002; 0xdb6c0036;
   0xdb600924; 0x92016db6; 0xd81b6db6; 0x80924924; 0x36db6d85; 0xb6d96c49; 0x64964b6d; 0xb6db5b24;
   0x92c59249; 0x24b6db6d; 0xb5964b2c; 0x4964b24b; 0x6db6db59; 0x64b2d492; 0x4924b6db; 0x6db59249;
   0x2c492492; 0x4b6db6db; 0x592d92c4; 0x924924b6; 0xdb6db5b2; 0x496c4804; 0x2430000; 0x8000000;
   0x1f1d01; 0x48000; 0x5fe000; 0xb6db000; 0x5b6db600; 0xfffffc02; 0xdb6db002; 0xdb6db00f;
   0xfffff036; 0xdb6db036; 0xdb6da1ff; 0xffcfe5b6; 0xdb6da5b6; 0xcb2d8fe7; 0x924f2db6; 0xdb6dec92;
   0x592cf924; 0xb27d6db6; 0xdb6f6492; 0x4967c924; 0x93eb6db6; 0xdb6b2492; 0x5b1f4924; 0xbe5b6db6;
   0xd85b2d92; 0xd83e4927; 0xe05b6db6; 0xc00b24b0; 0x20100; 0x0; 0x181b03; 0x100000;
   0x49000049; 0x5b6c0; 0x2492002; 0x49200db6; 0xd8124920; 0x1249202d; 0xb6d81249; 0x24124924;
   0x6db6db92; 0xc92493c9; 0xa46db6db; 0x12492412; 0x49242db6; 0xd8124920; 0x12492005; 0xb6c8025b;
   0x20024920; 0x1b6c000; 0x49000008; 0x0; 0x1c1c03; 0x492000; 0x12490000; 0x124;
   0x92480924; 0x92000000; 0x124924; 0x80924924; 0x9001; 0x24964849; 0x24924012; 0x492096db;
   0x6c94964b; 0x240964b2; 0x96db6d9; 0x4964b240; 0x92492096; 0xdb6c9492; 0x49240124; 0x92092db6;
   0xc9492d92; 0x40124900; 0x925b6484; 0x92492400; 0x4000100; 0x80000; 0x1c2000; 0x800001;
   0xd00001f; 0xc00000db; 0x16c0; 0xe400; 0xc8000; 0x6c0000; 0x6c00000; 0xdb000006;
   0x50000064; 0x5b0; 0x6c90; 0x3d920; 0x5b6d80; 0x3db6c00; 0x35fe4005; 0xb6d8002d;
   0xb0c003ff; 0xc005b6c; 0xb007ff85; 0x803ff85b; 0xdb6c361; 0x2cb65820; 0x4960061b; 0x6400a0d8;
   0x200f0c86; 0x60b0d0; 0x48200; 0x1a2000; 0x480000; 0x1b00001e; 0x80000b60; 0x36000;
   0x480000; 0x24000021; 0x80004d60; 0x1b600; 0x168000; 0x5800006; 0xd80000d8; 0x3640;
   0xb6d80; 0x36db002; 0x796c016d; 0xb6c16db6; 0xc0410c90; 0x21861b0c; 0x32496325; 0x9a4882db;
   0x4db24925; 0xf4004d7a; 0xc925b640; 0x2d90060c; 0x64016c16; 0x40200; 0x161e02; 0x20000b;
   0x6c003ff8; 0x3ffe016; 0xdb607fff; 0xc1ffff0d; 0xb6d87f65; 0xf1a49243; 0x6db69249; 0x24492490;
   0xdb6da792; 0x4b1e492c; 0x36db69e5; 0xb3c7f25f; 0xdb6d81f; 0x25b03c97; 0x36db61e; 0xdb6c7b24;
   0x92db6c9d; 0xb6d85249; 0xb6db2d; 0x24924000; 0x1f1d03; 0x580000; 0xd80000; 0x4920000;
   0x36db0000; 0xb6d80001; 0x24920005; 0xb6d8000d; 0x92d80009; 0x2490002d; 0xb6c00024; 0x92c0004d;
   0x3480016d; 0xb6000124; 0x92000049; 0x2000016d; 0x8000016c; 0x80400249; 0xd0036c; 0x2d80120;
   0x7c00240; 0x782c92c; 0x617c03c; 0x103f987e; 0x20b6596c; 0x81fefbfd; 0x81fffff8; 0x5b6db6c;
   0x4924924; 0x0; 0x182000; 0xb60002; 0xdb6006cb; 0x602db6d8; 0x36c96c36; 0xc96c2db6;
   0xd832492c; 0x37ffec2d; 0xb6d816d9; 0x681e4978; 0x2db6d816; 0x4b2c1acb; 0x2c2db6d8; 0x12492c1a;
   0x493c2db6; 0xd8165b6c; 0x1e59782d; 0xb6d81649; 0x68124820; 0x2c9259b2; 0x8240008; 0x424b648;
   0x12582400; 0x180024b6; 0x48000800; 0x1c1e01; 0x48000; 0x3fd0002; 0xdb6c0036; 0xdb600fff;
   0xfe016db6; 0xd81b6db6; 0xc1fffffc; 0x36db6d85; 0xb6db6c7f; 0xfc9fcb6d; 0xb6db5b24; 0x96c79249;
   0x2eb6db6d; 0xbd964b2d; 0x7964b2fb; 0x6db6dbd9; 0x64b2d792; 0x492fb6db; 0x6dbd9249; 0x2d792493;
   0xeb6db6db; 0xdb2d96c7; 0xf2497eb6; 0xdb6db5b2; 0x496c7904; 0x3c30000; 0x8000000; 0x1f2000;
   0x400000; 0x2c80000; 0x4900000; 0x16d80000; 0x36d80000; 0x24900025; 0xb6d9006f; 0xb6fb004f;
   0xfff2016d; 0xb6d8006d; 0xb6c000c9; 0x2580036d; 0xb6c0236d; 0xb6880279; 0xe4101b6d; 0xb6031b6d;
   0xb4403259; 0x7080db6d; 0xb018db6d; 0xa201f7cf; 0x8406db6d; 0x80c6db6c; 0x92041219; 0x2416db61;
   0xb036d960; 0x8124b2c1; 0x5b6db64; 0x5b2cb24; 0x9249648; 0x2db6db20; 0x24924820; 0x1c1f00;
   0x10410000; 0x92480000; 0x924; 0x92004924; 0x90000000; 0x924920; 0x4924800; 0x40008009;
   0x24920049; 0x24800492; 0x4800b6db; 0x600db6da; 0xcb2ca0; 0xb6db608; 0xdb6da2ce; 0x964e24b6;
   0xdb65bdb6; 0xda6cf965; 0xe24b6db6; 0xdb7b6d86; 0xc4120824; 0x12d905b4; 0x96482c01; 0xe000092d;
   0x92184964; 0x90000600; 0x924921; 0x80000000; 0x151f01; 0x40001f; 0xc0016d80; 0x2db601ff;
   0xf016db40; 0xdb6c07d9; 0x702db6c1; 0xb6d804b6; 0x405b6d83; 0x6db00f6d; 0xc0b6db02; 0xdb601849;
   0x65b604; 0x92c02016; 0x6c9641b; 0x2490cb24; 0x8db648b6; 0x4925b249; 0x1b25b76d; 0xb6cb25b6;
   0x32db6001; 0x20000000; 0x1a1e00; 0x2c8000; 0x2db0005f; 0xff802db6; 0xd80db6da; 0xfffffc1;
   0xb6db60b2; 0x4b2c2000; 0x1124924; 0x90000000; 0x49; 0x24920924; 0x92404924; 0x912db6d8;
   0x6db6db09; 0x649a4db6; 0xdb6db6d9; 0x2c241209; 0x164b25b0; 0xc9648012; 0x49200b6d; 0xb2016db6;
   0xb6c00; 0x5b60000; 0xb6400004; 0x80000000; 0x192000; 0x80000; 0x16c002ff; 0xfc16db6d;
   0xb5bfd920; 0x5fff801b; 0x6db01fdb; 0xf007fff8; 0x36db602; 0xff6d81fd; 0x97c16db6; 0xc05b6db0;
   0x2596582d; 0xb6d80b6d; 0xb607964f; 0x5b6db01; 0x6db6c0f2; 0xcbe0b6db; 0x602db6d0; 0x16482006;
   0xdb6c0fb6; 0xdf07fb7f; 0x86db6db7; 0xfedff1ff; 0xfff8db6d; 0xb6124924; 0x1e1d03; 0x1240000;
   0x2480000; 0x9240002; 0x49240004; 0x92400012; 0x49000092; 0x59000125; 0xb2000497; 0xc8002db6;
   0xc0025b6d; 0x800125f2; 0xb6db0; 0x96db20; 0x2492c80; 0x2db6580; 0x25b65b00; 0x2487c00;
   0xb6db6c0b; 0x6db6d03f; 0x93fbe16d; 0xb6db42db; 0x7d960975; 0xf25f5b6d; 0xb65992d9; 0x28b64b24].
Definition emoji_data_61 : list N :=
  [0xa276db6d; 0x90249248; 0x20000000; 0x1e1f01; 0x200000; 0x2c00000; 0x5b600006; 0xdb60002d;
   0xb6d000b6; 0xdb6001b6; 0xdb000b6d; 0xb4001fff; 0xf0006db6; 0xc002db6d; 0x800f249e; 0x1b6db0;
   0xb6db60; 0x3c96580; 0x6db6c00; 0x2db6d800; 0xf249e001; 0xb6db000b; 0x6db6003f; 0x92f8006d;
   0xb6c800cb; 0x64b0012c; 0x92c85b6c; 0xb6d9b649; 0x2cb6d924; 0x9276db6d; 0xb66cb24b; 0x61b24924;
   0x84924924; 0x0; 0x1f1f01; 0x2db6db0; 0x2db6db0; 0x5b24920; 0x36db65b0; 0x36db2580;
   0xfffe0905; 0xb6db2d85; 0xb6d92c1f; 0xfff2482d; 0xb6d96c6d; 0xb6c960c9; 0x24c2436d; 0xb6c9636d;
   0xb6490679; 0xe6921b6d; 0xb64b1b6d; 0xb6d83249; 0x7c90db6d; 0xb6d8db6d; 0xb6c1f25f; 0xa486db6d;
   0xb6c6db2d; 0xb6049259; 0x2436596d; 0xb0b6596c; 0x16c92d8; 0x5b6db60; 0x5b6db60; 0xb6cb6c0;
   0x24924900; 0x0; 0x1f2000; 0x480000; 0x36d8000; 0xb6d8000; 0x16590000; 0xdb6d0002;
   0xdb6c0004; 0xb2c80016; 0xdb6c0016; 0xdb60006d; 0x96d801b6; 0xdb6001b6; 0xdb40033c; 0xba8005b2;
   0xdb000df2; 0xfa0019e5; 0x94002cb6; 0x58046db6; 0xf024f925; 0xe0416db6; 0xc1636db6; 0x8103c93e;
   0x20b6db6; 0x80b2cb0; 0x1012df20; 0x5b6db0; 0xc0dbedb2; 0x492c924; 0x6db6da6; 0x16db6d90;
   0x24924920; 0x12492400; 0x1e2000; 0x100000; 0x5b60000; 0x5b6c0001; 0xfff0000b; 0x6db00036;
   0xdb4001ff; 0xff0006db; 0x6c002db6; 0xd800f249; 0xe001b6db; 0xb6db6; 0x249648; 0x6db6c0;
   0x2db6d80; 0xf249e00; 0x1b6db000; 0xb6db6003; 0xf92f8006; 0xdb6c920c; 0xb2492412; 0x400015b6;
   0xdb6d9b64; 0x92496d92; 0x41236cb6; 0x4b66d924; 0x921b6490; 0x48db2d96; 0xd9b24924; 0x82092492;
   0x12492490; 0x1f1f01; 0x2492490; 0x2492490; 0x7f00000; 0x36d92490; 0xb6d80083; 0xfff8000d;
   0xb6d9248d; 0xb6d9047f; 0xeff2006d; 0xb6c9256d; 0xb6c92249; 0x25920b6d; 0xb6492b6d; 0xb6491e49;
   0x2c905b6d; 0xb2495b6d; 0xb248f2d9; 0xe480db6d; 0x924adb6d; 0x9247f25f; 0x2406db2c; 0x9246db64;
   0x22c92d8; 0xb65b6c; 0x91b64b68; 0x36416c0; 0x5b65b60; 0xdb0db40; 0x1b60b600; 0x24924900;
   0x0; 0x1d1f01; 0x2c80000; 0x5b600002; 0x4900002d; 0xb60001b6; 0xd8000492; 0x4000db6c;
   0xb6db0; 0x4b6480; 0x5b6db00; 0x36db6801; 0xb24b400b; 0x6db6006d; 0xb6d0032c; 0xb28016db;
   0x6c00db6d; 0xe207c92f; 0x102db6d9; 0x5b6db4c; 0x37927c61; 0xdb6db2d9; 0x65860b03; 0x243058b2;
   0xdb6182c9; 0x2c861649; 0x60316db6; 0xc30416d9; 0xc25b6c0; 0x62492482; 0x0; 0x1d1e02;
   0x200000; 0xfe00001; 0xb6c00016; 0xdb0000ff; 0xfc000b6d; 0xb0006db6; 0xc007fffe; 0x36db61;
   0x82492580; 0x10490410; 0x65964904; 0x924b6030; 0x821800c9; 0x65920b6d; 0xb648796c; 0xf041b6db;
   0x2416db6c; 0x80fe4be0; 0x32d9648; 0x4b64100; 0x800012; 0x5b249048; 0x6096c003; 0xb62496;
   0x4b6c9041; 0x6db00209; 0x24c92092; 0x48000000; 0x1f1f01; 0x80; 0x80; 0x800100;
   0x6d82d80; 0x36d82480; 0xfff84805; 0xb6d82005; 0xb6d8201f; 0xfff0002d; 0xb6d0206d; 0xb6c060e9;
   0x25c0c36d; 0xb6cb636d; 0xb6030679; 0xee001b6d; 0xb6081b6d; 0xb0003249; 0x7000db6d; 0xb000db6d;
   0x8001f25f; 0x6db6c; 0x7db6c; 0x7f7c8; 0x16db6d; 0x8096db25; 0x80049249; 0x4924925;
   0x8492c925; 0x88009249; 0x24924924; 0x0; 0x182000; 0x80000; 0xb60002db; 0x3c9e0;
   0x5b6c006; 0xdb600749; 0xe00db6d8; 0x16db681f; 0xfff86db6; 0xdbf6db6f; 0xfe497f6d; 0xb6dbb6db;
   0x6c3acb3c; 0x2db6d816; 0xdb6c1e49; 0x3c2db6d8; 0x16db6c1f; 0x49782db6; 0xd8165960; 0xe59702d;
   0xb6d81659; 0x641e4974; 0x6db6db16; 0x49640649; 0x60249248; 0x1c2000; 0x1001001; 0x6c06d81f;
   0xe0b6c1ff; 0xffc36d9; 0x6da1f71b; 0x6c0821b2; 0xc12416da; 0x921b6c0; 0x10196412; 0x416da010;
   0x1b6c0000; 0xf2c16c16; 0xd81b60b6; 0xc0920924; 0x16c96d80; 0xb61b6409; 0x203e416c; 0xb2da4b64;
   0x36009001; 0x2092406d; 0x90920b68; 0x9001200; 0x24025009; 0x120080; 0x1200240; 0x24008001;
   0x200c6033; 0x16c0258; 0x1a2000; 0x9004; 0x805b0490; 0x5b60001f; 0xfc924b6d; 0x92416da0;
   0x793ac9; 0x2db64905; 0xb68201ac; 0xe120b6d8; 0x2416da00; 0x7972cb0; 0xdb6db41b; 0x61249248;
   0xb6c36d96; 0xc92d8490; 0x4fe2db25; 0xb25b00b6; 0x2402491; 0x2096c824; 0x6d90900; 0x9204801b;
   0x900900; 0x4020012; 0x6c0040; 0x2005b00c; 0xc0cb05b0; 0x1a2000; 0x8001005; 0xb05b65b6;
   0x1b6dff87; 0xffb6c36d; 0x96d86db4; 0x92392cdb; 0xdb60901; 0xb6c240e4; 0xb16c36d8; 0x2c06db09;
   0x193cdb0; 0x5b65b61b; 0x69248248; 0xb6c36d96; 0xc82db492; 0xfe65b21; 0xb21b04b6; 0x42402499;
   0x2496d824; 0x2d80900; 0xb6049019; 0x900360; 0x24000812; 0x240240; 0x9819806; 0x60cb0190;
   0x1c2000; 0x1001001; 0x7c06d81f; 0xe0b6c3ff; 0xffc3ff9; 0x6da3f71b; 0x6c3f71b2; 0xc36d16da;
   0x1b61b6c1; 0xbe196416; 0xc16da0b4; 0x1b6c0300; 0xf2c16c16; 0xd81b60b6; 0xc0920924; 0x36d96d85;
   0xb69b6449; 0x283e4b6c; 0xb2da4b64; 0x36049041; 0x2092426d; 0x94924b68; 0x9001200; 0x24025009;
   0x120080; 0x1200240; 0x24008001; 0x200c6033; 0x16c0258; 0x1b2000; 0x400480b; 0x6c16c1ff;
   0xcb6c3ff9; 0xffcdb65b; 0x6cf965b6; 0xb80cf276; 0xc92db664; 0xb2db4882; 0x6b382416; 0xdb02016d;
   0xa0003cb8; 0xb2c36d89; 0x2836c124; 0x12485b61; 0xb6c5b04b; 0x601209fc; 0x2d825b22; 0xd805b049;
   0x9256d9; 0x2d916c06; 0xd8248049; 0x12006c0; 0x12000; 0x200090; 0x3600100; 0x80076019;
   0x80c805b0; 0x1a2000; 0x1004; 0x905b6492; 0x1b6c0007; 0xff92436d; 0x92486db0; 0x392e4b;
   0xdb64921; 0xb6c000e4; 0xb16436d8; 0x2c06db09; 0x193ccb0; 0x5b65961b; 0x69648248; 0xb6c36d96;
   0xc82db090; 0xfe65b21; 0xb21b04b6; 0x4640249b; 0x6c96d86d; 0x82d80900; 0x92048019; 0x900360;
   0x810; 0x240240; 0x9819806; 0x604b0190; 0x1c2000; 0x1001001; 0x6c06d81b; 0x60b6c7ff;
   0x8ffc36d9; 0x6da5b69b; 0x6c4929b2; 0xc36d96da; 0x4929b6c4; 0x92996416; 0xc16da0b0; 0x1b6c0100;
   0xf3c16c16; 0xd81960b6; 0xc0960924; 0x36d96d80; 0xb61b6409; 0x3e416c; 0xb2da4b64; 0x36049241;
   0x2096c06d; 0x91b64b68; 0x9201200; 0x6c025008; 0x120000; 0x1200240; 0x24008001; 0x200cc033;
   0x16c0258; 0x1c2000; 0xb001001; 0xfe03e03f; 0xf96d87ff; 0x9b6c7ff9; 0xffc3ef96; 0xda7b79b6;
   0xc7ff9b24; 0x36d96da7; 0xb69b6c0f; 0xe196c06c; 0x16da0b00; 0xb6c0b209; 0x2c36d96d; 0x85b60b6c;
   0x1b609243; 0x6d92d849; 0x2d364492; 0xc36496ca; 0x6db4b643; 0x60492412; 0x96c06d9; 0xb603600;
   0xdc012006; 0xc0240090; 0x1200800; 0x12006c02; 0x400c6032; 0x820120; 0x191f01; 0xc00002;
   0xd80001b4; 0x3f800; 0xdb0000; 0x16000000; 0x1b00; 0x2c000; 0x1200001; 0x600000d8].
Definition emoji_data_62 : list N :=
  [0x2400; 0x2d9000; 0x1b2c000c; 0x82000580; 0x80036080; 0xb00000; 0xb608006c; 0x2001600;
   0xb2c020; 0x2cb00010; 0x50003058; 0x2c1400; 0x18080016; 0xb001183; 0xc0040120; 0x0;
   0x1c1e01; 0x20000; 0x6db0000; 0xb6d80049; 0x24800b6d; 0xb600db6d; 0xb0049249; 0x1b6db6c;
   0x2db6db62; 0x4924925b; 0x6db6c6db; 0x6db62492; 0x492db6db; 0x6d6db6db; 0x624f2792; 0xdb6db6d6;
   0xdf6fb624; 0xb2492db6; 0xdb6d6db6; 0xdb624924; 0x92db6db6; 0xd6db6db6; 0x249fc92d; 0xb6db6c6d;
   0xb6db6249; 0x24925b24; 0x96c20000; 0x10000000; 0x1f1d01; 0x12000; 0x6db400; 0x16db000;
   0x1ffffc00; 0x5b6db600; 0xdb6db601; 0xfffffc06; 0xdb6db416; 0xdb6db03f; 0xffffe0b6; 0xdb6db1b6;
   0xdb6db3ff; 0xf64fedb6; 0xdb6dadb6; 0xdb6dff2c; 0x965f6db6; 0xdb6d6db6; 0xdb6ff964; 0xb2fb6db6;
   0xdb636db6; 0xdb67c924; 0x9fdb6db6; 0xdb1b6db6; 0xdb1fcfe5; 0xf81b6db6; 0xd05b6db6; 0xc006c96c;
   0x12d80; 0x0; 0x181a04; 0x240002; 0xdb00036d; 0x80092490; 0x16db600b; 0x6db00924;
   0x9016db6c; 0x1b6db009; 0x2490b6db; 0x6c5b6db6; 0x4b2592b6; 0xdb6d5b6d; 0xb6492592; 0x36db6c1b;
   0x6db00924; 0x9016db68; 0xb6db009; 0x7e9006db; 0x60016d80; 0x1248000; 0x59000000; 0x1a1c02;
   0x492000; 0x49200000; 0x4924; 0x90092492; 0x1; 0x24924924; 0x92480000; 0x802492d9;
   0x24925b24; 0x4924096; 0xdb6c92db; 0x6d909e4f; 0x225b6db2; 0x5bedf642; 0x5924896d; 0xb6c92db6;
   0xd9092492; 0x25b6db24; 0xb6db2404; 0xfe4092db; 0x64925b64; 0x90024802; 0x49241200; 0x1c2000;
   0x200000; 0x9e000016; 0xd00000f6; 0xfa0; 0x16c00; 0x84000; 0x920000; 0x6c00000;
   0xf600000f; 0x2000006d; 0x360; 0x3248; 0x6db60; 0x3edf00; 0x365f000; 0x2db6c003;
   0x7db4003f; 0xf12006db; 0xc0036d8; 0x6003ff86; 0x6db05b; 0xb6f87c0; 0x32783c32; 0xdb648412;
   0x4a004124; 0x900b0d96; 0x406c90; 0x4020000; 0x1b2000; 0x100000; 0x1f00000d; 0xb00000d8;
   0xd00; 0x6d800; 0xc0000; 0x2400005b; 0x600000b6; 0x12c0; 0x5b400; 0x5b0000;
   0x9200002; 0xd900002f; 0xf20005f6; 0x48016db6; 0xb6df60; 0x12df6c04; 0x92c960cb; 0x2cb01861;
   0x92065b6c; 0xb045b64b; 0x2092c97f; 0x6c36db30; 0x432d8201; 0x8480b6d3; 0x60036c36; 0x240200;
   0x171e02; 0x240003; 0x6c001ffc; 0x5b6c00; 0xdb6c03ff; 0xfc06db6c; 0x16db683f; 0xb2f0b6db;
   0x60b6db61; 0x2cb2c5b6; 0xdb05b6db; 0xf2c9e2d; 0xb6d82db6; 0xd87965f1; 0x6db6c17d; 0xbe82f93c;
   0x36db60f; 0x6db63fc9; 0x74db6d96; 0xdb6c1196; 0x4826db6c; 0xb2cb6484; 0x92410000; 0x1e1e02;
   0x200000; 0xc00000; 0xb200000; 0xdb600005; 0xb6c00012; 0x490000b6; 0xdb00036d; 0xb0000492;
   0x40006db6; 0xc000db6d; 0x12490; 0x1b6db0; 0x36db00; 0x492400; 0x2db6000; 0x5b6c000;
   0x12d90000; 0x36d80d80; 0x2d805f00; 0x9200f425; 0xb20162e1; 0xd864f84; 0x3e185b2d; 0xb641fefb;
   0xf907ffff; 0xf836db6d; 0xb06ffffb; 0x40924924; 0x0; 0x172000; 0x240003; 0xdf005b6d;
   0x80db2d81; 0xb25b86d9; 0x6d9ed96d; 0xbc924b36; 0xdb6c3fff; 0xf07ff7e0; 0xb6db61b6; 0xdb032c97;
   0xdb6db0d; 0xb6d81924; 0x986db6d8; 0x6db6c0fb; 0x65c16db6; 0xc36db607; 0xc93c0b2d; 0xb04a2c12;
   0x90002649; 0x24924964; 0x9003c002; 0x4b24924f; 0x24801200; 0x1c1e01; 0x120000; 0x6db0001;
   0xb6d8007f; 0xffc00b6d; 0xb600db6d; 0xb01fffff; 0x81b6db6c; 0x2db6db63; 0xfffdfe5b; 0x6db6c6db;
   0x6db67d92; 0x4bedb6db; 0x6d6db6db; 0x674f269e; 0xdb6db6d6; 0xdb6db674; 0xb249edb6; 0xdb6d6db6;
   0xdb67c924; 0x9edb6db6; 0xd6db6db6; 0x7c9fcbed; 0xb6db6d6d; 0xb6db67f9; 0x25fe5b24; 0x96c20000;
   0x14000000; 0x1f2000; 0x10000; 0x820000; 0x2db0000; 0x6d80000; 0x4900000; 0x36d80004;
   0xb6d9004b; 0xedfa406d; 0xb6db006d; 0xfed8004b; 0x6cb0006d; 0xb6c001ed; 0xb6c023df; 0x7d80437d;
   0xf6880b6d; 0xb6111efb; 0xfc021b6d; 0xb4407b6d; 0xf088fffb; 0xe010fb6f; 0xa203fb7f; 0x8447ffdf;
   0x865b2c; 0x96065b60; 0xb02cb648; 0xb6db6c; 0x80b2cb61; 0x81649241; 0x5b6db64; 0x5b6db0c;
   0x1249000; 0x1d1e02; 0x12492000; 0x49248000; 0x24; 0x92480492; 0x49000000; 0x4924;
   0x80012492; 0x90010; 0x1b6db40; 0x7db6e00; 0x77df7003; 0x6db6c01d; 0xf7dc20ff; 0xfee107db;
   0x6fb63f6d; 0xbad9ffff; 0xd24fb6df; 0x6c3edbe5; 0xb1f7df24; 0x8b6db0d8; 0x25b20b60; 0xd800812;
   0x5924b249; 0x6482000e; 0x1124b2; 0x48049249; 0x4000000; 0x20000000; 0x141f01; 0x20003f;
   0x800ffc00; 0xffe01fff; 0x1fff81f; 0xff83edb8; 0x3b6d83ff; 0xd836db01; 0xb6d83fff; 0x83edbc1f;
   0x6f81fff8; 0x16db0092; 0xd8180583; 0x65b25924; 0x85f248b6; 0xd925b648; 0x5b249b64; 0x965925b5;
   0xb6dbb6db; 0x6436d800; 0x20000000; 0x1a1e00; 0x90000; 0x3fd8005b; 0x6d801b6d; 0xb01ffffc;
   0xb6db6c3; 0x6db6d0f9; 0x4bc2c92; 0x49000001; 0x0; 0x92492400; 0x92; 0x48025b6d;
   0x90db6db6; 0xf7db7d9b; 0x6dbedb7d; 0xb6daf96c; 0xb66c964b; 0x4c97c961; 0x65f2c036; 0xdb6006db;
   0x6c00bff8; 0x1b6d00; 0x36d8000; 0x5b000005; 0x80000000; 0x181f01; 0xb60007; 0xffc8db6d;
   0xb66ff649; 0xdffd00b; 0x6db20fb7; 0xf80ffff8; 0x1f6db21f; 0xfef81ffe; 0xf81b6dbe; 0x3db6d83d;
   0xf7d81b6d; 0xb63db6d8; 0x3dbef81f; 0x6dbc3fb6; 0xf83ffef8; 0x1f6df83f; 0xb6f80cbe; 0x781b6db0;
   0x3fb6f83f; 0xb6fc5b6d; 0xb67fb7ff; 0x7ff7fe5b; 0x6db62492; 0x48000000; 0x1f1d03; 0x490000;
   0x2490000; 0x4920000; 0x12490000; 0x92490001; 0x24920004; 0x92c80004; 0x96c80009; 0x7fb0002d;
   0xb6d8002f; 0xbec0005f; 0x7f80016d; 0xb640016d; 0xb60002df; 0x64000b6d; 0xb600096d; 0x960003db;
   0x3e005b6d; 0xb600db6d; 0xb601feff; 0xbc06db6d; 0xb616db6c; 0xb625f7c9; 0x3cb6db6c; 0x3692d92c;
   0xb124f259; 0x25b6db61; 0x84924924; 0x0; 0x1e1f01; 0x400000; 0x1000000; 0x5b600005;
   0xb6d80016; 0xdb6000b6; 0xdb60036d; 0xb60005ff; 0xfc002fff; 0xf8007fef; 0xe003ffbf; 0x800f6dbe;
   0x3edb78; 0xff7de0; 0x3db6d80; 0xfb6df00; 0x3efb7800; 0xf6dbe003; 0xedb7800f; 0xfffe003f;
   0xb6f800fb; 0x6d9001e5; 0x92480b6d; 0x96da36c9; 0x2db0d924; 0x9266db6d; 0xb6ed9649; 0x64b64925;
   0x91b6db6d; 0x89249248; 0x0; 0x1e2000; 0x1249248; 0x12492490; 0x49249242; 0xdb6db605;
   0xffd96c1f; 0xff2090ff; 0xff2d83ff; 0xfe5b0fff; 0xf8247fff; 0xdb63ffff; 0x96cffffe; 0x91b6dba;
   0xc8b6db64; 0x13df7d80; 0x46fbefb6; 0x3db6d924; 0xf6fbe491; 0xb6dbed8f; 0x6dbedb3f; 0xfff9247d;
   0xb7db63fb; 0x7fb6c32f; 0x9e491b6c; 0xb6d8b24b; 0x6492c925; 0x8016db6d; 0x806db6d8; 0x1b65b60;
   0xdb6db60; 0x9249200; 0x1f2000; 0x490000; 0x2db0000; 0x5920000; 0xb6db0000; 0xb6db0001].
Definition emoji_data_63 : list N :=
  [0x2c920005; 0xb6d8000d; 0xb6d80019; 0x6490006d; 0xb6d8016d; 0xb6c000c9; 0x2dc0036d; 0xb6c0037c;
   0xf3000ef9; 0xe6001b6d; 0xb601396c; 0xb8087fff; 0xf000fb6d; 0xf058fb6f; 0xc043f7df; 0x8007db7f;
   0x607db7c; 0x120e3e58; 0x2016db60; 0x80b2fb60; 0x8125f241; 0x5b6db64; 0x5b2db64; 0x9249248;
   0x2db6db20; 0x24924920; 0x1e2000; 0xb20000; 0x3fc0000; 0x3ff80001; 0xfff0000f; 0xffe0007f;
   0xffc002ff; 0xff8007fe; 0xfe003ffb; 0xf800f6db; 0xe0036db7; 0x800df7de; 0x2db6d8; 0xdb6db0;
   0x3eff780; 0xf6dbe00; 0x3edb7800; 0xffffe003; 0xfb6f800f; 0xb6db241e; 0x492490b6; 0xc924936c;
   0x92490db2; 0x49246d96; 0xcb6edb24; 0x924b6490; 0x91b6db2; 0xd8b64924; 0x92492492; 0x464b6db6;
   0x20124920; 0x1f2000; 0x924924; 0x924920; 0x1200000; 0x2ff24920; 0x3ff80020; 0xfffc0003;
   0xfff2490f; 0xfff0011f; 0xfff0007f; 0xedf648ff; 0x6ff009f6; 0xdfc002db; 0x6db246db; 0xed824df7;
   0xdf001edb; 0x6d923edb; 0x7c127dfe; 0xf800f6db; 0xec91f6df; 0xe093fdbf; 0x8007f6df; 0x6485b658;
   0x48b2cb0; 0x2db6d9; 0x246cb2d9; 0x22d925b0; 0x36cb6d0; 0xb6cb6c0; 0x16d86d80; 0x1b6db680;
   0x49249200; 0x1f2000; 0x80000; 0x580000; 0x4920000; 0x16da0000; 0x36d80001; 0x24900001;
   0xb6d80005; 0xb6d00009; 0x2490002d; 0xb6c0006f; 0xf6c000ff; 0xefc0036d; 0xb6c0036d; 0xb7000efb;
   0xee001b6d; 0xb6003b6d; 0xb8007efb; 0xf000fb6d; 0xf610fb6f; 0xd043f7df; 0xa087db7f; 0x32c7db7c;
   0xb60c3e18; 0x6c16db60; 0xb012d960; 0x802092c1; 0x4b6db21; 0x8496db24; 0x10db608; 0x25b6d90c;
   0x4924820; 0x1c1e02; 0x200000; 0x2f80000f; 0xfc0001ff; 0xf8003fff; 0x7fff8; 0x7fffc0;
   0xfffbe40; 0xfb6de20c; 0x800e00b6; 0xdb618cb2; 0xcb28cb2c; 0xe00f6496; 0xf964f2; 0xfbedc04;
   0xf6dbe48f; 0xb6df20ff; 0xefe00fed; 0xbe48796d; 0x82001f00; 0x92d924; 0x84960924; 0x1601249;
   0x2c96db49; 0x60b6c006; 0xb6c92c9; 0x6db00209; 0x24000000; 0x1d1d03; 0x580580; 0xfe01201;
   0xffe4902f; 0xff8b21ff; 0xfc240fff; 0xf000ffff; 0x820ffffe; 0x7ffff0; 0x1b6db05; 0x9edb7c36;
   0xf7dfe083; 0x7df7033d; 0xb6f801ed; 0xf7c006db; 0x6e007b6d; 0xf003ffff; 0x800fb6f8; 0xfedfe0;
   0x3fffe00; 0x1b6d9201; 0x6ff6d801; 0x7c924092; 0xcb258249; 0x64921008; 0x249124b2; 0x49640249;
   0x24800000; 0x192000; 0x480000; 0xb6c00079; 0x60005b6c; 0xb6db00; 0x7927805b; 0x6d8016db;
   0x600f6df0; 0xb6db616; 0xdb6f9fff; 0xffebedb7; 0xdffb6df1; 0xffbef87d; 0xb6f81b6d; 0xbc0fbedc;
   0xfb6df03; 0xedb701f7; 0xff80f6db; 0xe07db6e0; 0x1e79e016; 0xdb60079e; 0x5813cf3c; 0x96db6d84;
   0xf24b2079; 0x27805b6d; 0x90124920; 0x1a2000; 0x16002c07; 0xc03f87fe; 0x1ff8db0f; 0xfe7f63ff;
   0xdf58fffb; 0x2436d924; 0x8fdb0803; 0xffc590db; 0x60903b7c; 0x240fff12; 0x43ed9658; 0x6da4920b;
   0x62db05b6; 0x5b61b6c2; 0x402db96c; 0x36c86c12; 0xd9090492; 0x65b21b40; 0x900b6424; 0x2481241;
   0x6d82400d; 0x80900260; 0x48019009; 0x260240; 0x9812c06; 0x40240208; 0x1c2000; 0x2002c00;
   0x900fec00; 0xffc124; 0x1ffe0921; 0xffe0001f; 0xfe1241ed; 0xe0921b6e; 0x901bfe1; 0x241ede09;
   0x21b6e010; 0x1ffe1241; 0xede1960b; 0x6c092096; 0x436d96d8; 0x1b61b6c0; 0x921b6416; 0xc92da4b6;
   0x43640924; 0x12096c06; 0xdb492436; 0x80900120; 0x12406d80; 0x90032008; 0x120024; 0x2500800;
   0x12008001; 0x2016c025; 0x80820120; 0x1c2000; 0x4805801; 0x6c07f81f; 0xe0ffc2db; 0xffe36d9;
   0xffe3e71f; 0xfe2db3db; 0x61241ede; 0x1241ffe0; 0xd93db612; 0x41ede024; 0x1ffe0580; 0xdbe16c16;
   0xd812402c; 0x82db0db6; 0x16c96d81; 0x2492d82d; 0xb25b616c; 0xb2da1240; 0x24a0d825; 0xb282406d;
   0x90240248; 0x4805b00; 0x24025000; 0x40240048; 0x1b00040; 0x24000402; 0xca05b; 0x1240208;
   0x1a2000; 0x16002c06; 0xc03f87fe; 0x1ff8db0f; 0xfe5b63ff; 0xdfd8fff3; 0x6c36d96d; 0x8fdb0903;
   0xffcdb0db; 0x61b03b7c; 0x2c0fff16; 0x43ed96d8; 0x6da4920b; 0x62db05b6; 0x5b61b6d2; 0x482dbb6d;
   0xb6c96c12; 0xd9090492; 0x65b21b40; 0x90cb6424; 0x2481241; 0x6d82400d; 0x80900260; 0x48019009;
   0x260240; 0x9812c06; 0x40240208; 0x1c2000; 0x6002c01; 0xf60fec1f; 0xf0ffc36d; 0x9ffe7f79;
   0xffe7f39f; 0xfe3259ed; 0xe4929b6e; 0x4809bfe3; 0x259ede09; 0x1b6e010; 0x1ffe0241; 0xede1960b;
   0x6c182096; 0x416c96d8; 0xb61b6c0; 0x921b6416; 0xc92da4b6; 0x43640b60; 0x12096c06; 0xdb1b6436;
   0x80b60120; 0x16c06d80; 0x80032000; 0x120024; 0x2500000; 0x12000001; 0x2016c025; 0x80820120;
   0x1c2000; 0x1001; 0x2407d809; 0x20ffc000; 0x1ffe1249; 0xfdf4921f; 0xfe0001ff; 0xe16496de;
   0x4921b6e0; 0x101fee12; 0x41ede030; 0x1f7c0101; 0xffc16416; 0xd81960b6; 0xc096096c; 0x16c96d80;
   0xb61b6409; 0x13e416c; 0xb2da4b64; 0x36009601; 0x2096c06d; 0xb1b64b68; 0x9203200; 0x24025000;
   0x320000; 0x1200040; 0x24000001; 0x200cc033; 0x16c0258; 0x1b2000; 0x400480b; 0x6c1fc1b6;
   0xcffe3ff9; 0xffedb65f; 0xfcd967f7; 0x992cfef6; 0xdb3db664; 0xb3dbc492; 0x7f786c1e; 0xdb02c1ed;
   0xe0403ff8; 0xb6c36d9b; 0x68b6c124; 0x16c85b61; 0xb6c5b24b; 0x601249fc; 0x2d925b22; 0xd945b649;
   0x9256db; 0x2d916c06; 0xd924804b; 0x12016c0; 0x12012000; 0x240090; 0x3600100; 0x8007601b;
   0x80c805b0; 0x1b2000; 0x8001006; 0xd82fb16d; 0x87ff3ff0; 0xffeb6dbf; 0xf9b6c7ef; 0xb65cfdf5;
   0xb6db6cdb; 0x63b6c964; 0x77f85b0d; 0xb60581db; 0xe0901ffc; 0x6d82db16; 0xd86da2c9; 0xc94b6c3;
   0x6d8b6416; 0xd92493f9; 0x4b6d3649; 0xb0cb6412; 0x924adb2; 0x5b68db05; 0xb20900b6; 0x2580d80;
   0x2400d804; 0x80130120; 0x6401200; 0x4c066019; 0x80960320; 0x1a1f01; 0x2c00000; 0xf80000ff;
   0x7f40; 0xb6000; 0x2780000; 0x6c00002c; 0x100; 0x1b000; 0x360000; 0x5800006;
   0xc00002d9; 0x1240; 0x1b0c00; 0xb618000; 0x5020006c; 0x2d80; 0x96000; 0x5b40001;
   0xb6000021; 0x80003058; 0x4161800; 0x8c060002; 0x81400640; 0x6000d81f; 0x110580; 0x0;
   0x1c1e01; 0x164000; 0x5b60000; 0x4920005b; 0x6d8006db; 0x6c012492; 0x482db6db; 0x16db6d8;
   0x12492486; 0xdb6db636; 0xdb6da12d; 0xb6c86db6; 0xdb6b6db6; 0xdb96fb7d; 0x96df6fb6; 0xb6fb6db9;
   0x6fb7d96d; 0xb6db6b6d; 0xb6db96df; 0x6d96db6d; 0xb6b6db6d; 0xb96ffec9; 0x6db6db6b; 0x6db6db92;
   0xdb6c86db; 0x6db6360b; 0x5810000; 0x8000000; 0x201d01; 0xb6000; 0x6ff600; 0x7ffe00;
   0x7ffffa0; 0x7ffffe0; 0x7ffffe0; 0x17fffff0; 0x1ffffff8; 0x1ffffff8; 0x1ffffff0; 0x7ffffffc;
   0x7ffffffe; 0x3fff6dfe; 0x7fffb6fe; 0x7fffbeff; 0xfedb6dbe; 0x7f7dbeff; 0x7f7dbefe; 0xfedb6dbe;
   0x7f6db6ff; 0x7f6ff6fe; 0x3edb6dbe; 0x7f6db6fe; 0x7feff7fc; 0x1fdb6dfc; 0x1fedb7f8; 0xfedb7f8].
Definition emoji_data_64 : list N :=
  [0x2db6d90; 0x2d9000; 0x181a04; 0x16d8001; 0xb6c005b6; 0xc00b6db0; 0xdb6d80d; 0xb6d81b6d;
   0xb02db6d8; 0x2db6d85b; 0x6db66db6; 0xdb6fb7db; 0xdb6db66d; 0xb7db6fb7; 0xdb5b6db6; 0x2db6d82d;
   0xbed81b6d; 0xb00db6d8; 0xdffd00b; 0x6db005b6; 0xc001b6c0; 0x16d8000; 0x36000000; 0x191d01;
   0x480000; 0x12000000; 0x24924; 0x924900; 0x49; 0x24909249; 0x24000000; 0x49249252;
   0x49648025; 0xf0096db6; 0x4adb6d90; 0x6fb7e16f; 0xb7d95bed; 0xb62df6fb; 0x2db6db2b; 0x6db6c1b7;
   0xdb84b6db; 0x656db6c8; 0x17ff6096; 0xdb64a5b6; 0xd9005b60; 0x125b6494; 0x2c02000; 0x1a2000;
   0x1000004; 0xf00001fe; 0x7f80; 0x17c000; 0x6d80001; 0x9000004b; 0x1b60; 0x3d800;
   0x16c0000; 0x2d80000f; 0x600001b6; 0xc000f6da; 0x3ff7c0; 0x6db6002; 0xdb6c003f; 0xfb001b6c;
   0xb00f7c14; 0x3ffe480; 0x6db0c03f; 0xfe5b0f6f; 0x87edb6c3; 0x6c32c823; 0x4920082; 0xc960304b;
   0x200c1608; 0x2010400; 0x1b1f01; 0xf00000; 0x7f00000f; 0xe00000f8; 0x2580; 0x48000;
   0x12c0001; 0xb6800007; 0xc80000b6; 0x1b60; 0x32000; 0x5b0000; 0xdb00001; 0xffc8002d;
   0xb6c006db; 0x6802dffc; 0x80b6db60; 0x1964160c; 0x20c040cb; 0x6cb624b2; 0xd3041650; 0x244d964b;
   0x72492df1; 0x925b032; 0x9240365; 0x92803d82; 0x40016010; 0x0; 0x171e02; 0x240000;
   0xfe000fff; 0x1fff00; 0xffff02ff; 0xfe07fffc; 0xffffc1f; 0xdb7c36db; 0x706fbee1; 0xb6db61be;
   0xfbc3fff7; 0xfb6df0f; 0xb6de1f7f; 0xf87db6f8; 0x7db7e0ff; 0xffc16db6; 0x816dbe07; 0xdf3c1b6d;
   0xb65bed96; 0xf3c906db; 0x6c925b6c; 0x14924822; 0x49248000; 0x1e1d03; 0x580000; 0x2d80000;
   0x2db00000; 0x9240000d; 0xb6c0005b; 0x6d800125; 0x92000b6d; 0xb60016db; 0x60005b6d; 0x8000db6d;
   0x5b6d8; 0x17df60; 0x36db00; 0x6db600; 0x1bfd000; 0x5b6c020; 0xb6c02c0; 0xdb00f00;
   0x2d805b02; 0x5800b478; 0x6380c2c9; 0x2d862f86; 0x7f20fe79; 0xfc81b6db; 0x6c0fffff; 0xd83fffff;
   0x606db6d9; 0x20000000; 0x162000; 0x24001b; 0x6c01b6da; 0x6c96c36; 0xcb696c96; 0xc7b25bad;
   0xb6db5b6d; 0xb1ffffc3; 0xffbf1ffb; 0x7c7f6df0; 0xdb6de7be; 0xfb1efbfc; 0x36db79ed; 0xb7c7ffdf;
   0xfb6de7f; 0x6df1fdff; 0xc3edbe06; 0x5b2c487c; 0x92d965b4; 0x8209000c; 0x925925; 0x24f24007;
   0x80249649; 0x1c1e01; 0x16c000; 0x7fe0003; 0xfffc007f; 0xffe007ff; 0xff01ffff; 0xf83fffff;
   0x83fffff8; 0x3fffffc7; 0xfffdfeff; 0xff6fffff; 0xf6ff7db6; 0xdbefedb6; 0xdffefb7d; 0xf7df6fbe;
   0xf6fb6dff; 0xefb7df7d; 0xb6dbef6d; 0xb6dffedf; 0x6df7db6d; 0xbefedb6d; 0xffeffeff; 0x7db6dbef;
   0xedb6ffff; 0xdb7ff7fb; 0x6dfefe0b; 0x7e30000; 0x8000000; 0x202000; 0x200000; 0x5b0000;
   0x6d8000; 0x1248000; 0x2db6000; 0x16d8000; 0xb24b200; 0xb6db6d80; 0x5bfff600; 0xbfff200;
   0x16db6c00; 0xb6db000; 0x9248200; 0x12492432; 0x9659201; 0x8618201; 0x12492432; 0x9249201;
   0x8241201; 0x125b2432; 0x92c9201; 0x9009200; 0x124925b6; 0x92410c8; 0xb24b048; 0x16db6c30;
   0xb2cb200; 0xb2cb200; 0x36db6c30; 0x4b2cb240; 0x4b6db200; 0x12492410; 0x1d1f01; 0x12492002;
   0x49248000; 0x124; 0x92400492; 0x49000000; 0x4924; 0x80012490; 0x12400; 0x924900;
   0x12492400; 0x90012001; 0x24920024; 0x92480104; 0x10400249; 0x24344924; 0x92c24104; 0x9204b649;
   0x6c92c92d; 0xb0820824; 0x892492d8; 0x24920b60; 0x24804812; 0xd921b24b; 0x64860018; 0x1124b2;
   0x49049249; 0xc001000; 0x22492482; 0x0; 0x141d02; 0x4900024; 0x80024800; 0x49201249;
   0x1249024; 0x92412490; 0x12080259; 0x24124901; 0x41024b2; 0x41249012; 0x1004920; 0x124b0100;
   0xb0249643; 0x24923249; 0x26db2436; 0xc9236492; 0x6d92db64; 0xb6b04b66; 0x4b6c325b; 0x0;
   0x191e00; 0x240000; 0xbfc001b6; 0xd8036db6; 0x1ffff81; 0xb6db616d; 0x96d8f203; 0x3c92492c;
   0x0; 0x1249; 0x24900000; 0x0; 0x49249092; 0x49240100; 0x804924b2; 0x52c93480;
   0x20100924; 0x924a4964; 0x90009000; 0x24924809; 0x249000f6; 0xc000b6c8; 0x249000; 0x2;
   0x40000000; 0x181f01; 0x59002d; 0xb6d8bffb; 0x6cbff924; 0x2db6d81e; 0xdb700fff; 0xf00db6d8;
   0x17ffe012; 0x49202492; 0x48124924; 0x10410424; 0x924812cb; 0x24104000; 0x24924812; 0x49241248;
   0x2024b648; 0x12492012; 0x200492; 0x4816c960; 0x3fcbfc6d; 0xb6da3fdb; 0xfc7fdbfe; 0x6db6dbff;
   0xfffe1249; 0x24000000; 0x1e1e02; 0x240000; 0x2480000; 0x9200000; 0x49200004; 0x92400012;
   0x49000092; 0x49000124; 0x92000496; 0x480024b6; 0x4002496c; 0x800125f2; 0x96590; 0x924b20;
   0x413c80; 0x2496400; 0x24b6cb00; 0x80487c04; 0x12496003; 0x64b6c03f; 0x83ffc16c; 0x96db02f9;
   0x3db609e0; 0xf27cdb65; 0xb658965b; 0x20b24b64; 0x82f6db6d; 0x9264b25e; 0x20800020; 0x80000000;
   0x1d1e02; 0x2c80000; 0x5b640002; 0xdb60006d; 0xb6c001b6; 0xdb000db6; 0xd8005b6d; 0x80012492;
   0x92490; 0x924900; 0x2492400; 0x10082001; 0x2cb20004; 0x92480020; 0x40024b; 0x24000924;
   0x90004120; 0x80049648; 0x124920; 0x804900; 0x96db6c0; 0x2d925b23; 0x6492e8b6; 0xdb2d92d9;
   0x649256c9; 0x24b16db6; 0xdb65b249; 0x2c240000; 0x0; 0x1f2000; 0x492490; 0x4924920;
   0x16db6db0; 0x165b6d90; 0x24924900; 0x925b2d80; 0x924b6c81; 0x24924804; 0x92596c24; 0x925b6449;
   0x24924124; 0x924b6124; 0x92592008; 0x20900925; 0x925b0965; 0x92491000; 0x24004924; 0x96d84924;
   0x96c88241; 0x24824b64; 0xb6c24924; 0xb6448049; 0x2402496d; 0xb616496d; 0xb02c92c9; 0x21b6cb64;
   0x85b24b60; 0xb6496c0; 0xdb6db40; 0x2db2db00; 0x9249200; 0x1d2000; 0x240000; 0x9600005;
   0xb6c00016; 0xdb000092; 0xc8001b6d; 0xb0006db6; 0x80012590; 0x36db60; 0x2db6d80; 0x16cb6400;
   0x6db6c004; 0xb2790027; 0x87c8005b; 0x2c800964; 0xb2014000; 0x10089249; 0x924924; 0x1290d920;
   0x112d9209; 0x24924820; 0x20020102; 0x4924101b; 0x2c80c24f; 0xe4842db6; 0xdb21b2cb; 0x61049249;
   0x85b6db6; 0x436cb6c2; 0x9209200; 0x1c1f00; 0x10000; 0x4900000; 0x92400024; 0x92000249;
   0x20004924; 0x80024924; 0x241240; 0x4924800; 0x25964002; 0x78e4004b; 0x2c800249; 0x24002000;
   0x40049248; 0x249240; 0x24b2402; 0xd925b012; 0x49248124; 0x24865b2; 0xcb692492; 0x49900b00;
   0x92d96db2; 0x124b2d80; 0x20904025; 0x96cb0125; 0xb648004b; 0x2002496c; 0x92924b24; 0x90000000;
   0x1d2000; 0x800; 0x24800; 0x1249000; 0x4920000; 0x24920002; 0x49200049; 0x24800041;
   0x24000492; 0x40009659; 0x30c8; 0x92480; 0x1249200; 0x4102d; 0xb2490492; 0x49242492;
   0x5822db64; 0x92092492; 0x48412482; 0x4c92596d; 0x924965b0; 0x3309658b; 0x2cb6db2c; 0x96db6000].
Definition emoji_data_65 : list N :=
  [0x324b02cb; 0x6db60b2d; 0xb6c00164; 0x962496db; 0x6c924b6d; 0x80000924; 0x1d2000; 0x40000;
   0x1240000; 0x12480002; 0x49200012; 0x49000124; 0x92000492; 0x40002412; 0x24924; 0x92480;
   0x4c3000; 0x4b2c800; 0x12490000; 0x82000009; 0x24900024; 0x9200010d; 0x9000b649; 0x6c124924;
   0x90924124; 0x8b2d965b; 0x24924921; 0x24924812; 0xdb65b249; 0x2d924001; 0x64100596; 0xcb2c1259;
   0x249002c9; 0x4492db6; 0xd92496db; 0x60001249; 0x1d2000; 0x8000; 0x1240000; 0x12480002;
   0x49200012; 0x49000124; 0x92000492; 0x48002412; 0x40024924; 0x96590; 0x4f1c80; 0x4b2c800;
   0x12492000; 0x80010009; 0x24900024; 0x92400125; 0x9200b649; 0x6c024924; 0x90124024; 0x832d965b;
   0x24924925; 0x20160122; 0xd96db249; 0x2596ca08; 0x2c106cb2; 0xd964924b; 0x24948249; 0x4db6db6;
   0x596db6db; 0x69249249; 0x1f2000; 0x200; 0x2400; 0x49240; 0x49200; 0x92480;
   0x249200; 0x1249200; 0x412400; 0x1249000; 0x9659000; 0xc32000; 0x9248000; 0x49248000;
   0x4100b6; 0xc9240492; 0x49240924; 0x96082db6; 0x49202492; 0x49204124; 0x82432496; 0x5b612496;
   0x5b00cc2d; 0x961b2cb6; 0xdb4b24b6; 0xd8800164; 0xb2cb2db6; 0xda4b25b6; 0xc0924925; 0x82cb6db6;
   0xc6cb6db6; 0x4924924; 0x1f1f00; 0x2000080; 0x24800920; 0x92402494; 0x92412491; 0x24824924;
   0x924924a4; 0x92092488; 0x24120924; 0x92492424; 0x90492461; 0x80986165; 0x92596124; 0x82492040;
   0x4100924; 0x92494924; 0x124906c8; 0x21b24b64; 0xb6ca4920; 0x92489241; 0x2496cb6d; 0x96d6496c;
   0x92e49249; 0x20b2db65; 0xb2b24b64; 0x972016c1; 0x5965b6c; 0xb5925b24; 0xb920b641; 0x6c92d925;
   0xa4924924; 0x80000000; 0x1f2000; 0x1000040; 0x92000482; 0x49009242; 0x49049244; 0x92092492;
   0x49049252; 0x49249220; 0x92482492; 0x482492b2; 0xc92cb1c7; 0x1238e596; 0x41659492; 0x49248000;
   0x90002496; 0xd924a492; 0x49244b24; 0x92c925b6; 0xd9252492; 0x49220904; 0x904b2c92; 0x4b7b2492;
   0x4b16c330; 0xb65b6cb2; 0xdbdb2c96; 0xd892000d; 0xb2db2cb6; 0xdedb2cb6; 0xc492496d; 0x96d925b6;
   0xf6c924b6; 0x24000024; 0x202000; 0x1000040; 0x9200248; 0x92482492; 0x49241248; 0x49241248;
   0x92482492; 0x49241249; 0x41241048; 0x92482492; 0x59641658; 0x18640618; 0x92482492; 0x49241248;
   0x1040040; 0x92482492; 0x49241249; 0x4b0412c0; 0x96d82db2; 0x49241249; 0x49241248; 0xb6db6db6;
   0x4925924b; 0x41258249; 0xb64b64b6; 0x4b65924b; 0x41058009; 0xb2cb6596; 0x592d924b; 0x482d9049;
   0xb24b6cb6; 0x4925b6db; 0x9248; 0x1f2000; 0x2000080; 0x24800920; 0x92402494; 0x92412491;
   0x24824924; 0x924924a4; 0x92092488; 0x24120924; 0x92492424; 0x90492461; 0x80986165; 0x92596124;
   0x82492040; 0x4100924; 0x92494924; 0x124906c8; 0x21b24b64; 0xb6ca4920; 0x924c9241; 0x2496cb6d;
   0x96d6496c; 0x92e49249; 0x20b2d965; 0xb2924b64; 0x93200241; 0x5965b2c; 0xb4924924; 0x99209241;
   0x2d96db6d; 0xadb6db6d; 0x89249249; 0x1f2000; 0x4800120; 0x24800920; 0x49009241; 0x24824929;
   0x24824922; 0x49049249; 0x24924949; 0x24124900; 0x48201259; 0x64965849; 0x20924882; 0x1208249;
   0x24924249; 0x24924002; 0x4900124b; 0x6c9296c9; 0x25b22492; 0x490492cb; 0x6c959249; 0x24bb0400;
   0x416db249; 0x6dadb249; 0x6dc92610; 0x5b6d965b; 0x6d6c9249; 0x6e490492; 0xdb6d965b; 0x6b6c925b;
   0x725904b6; 0xdb6db6db; 0x9249249; 0x1f2000; 0x480000; 0x2480000; 0x4920000; 0x12490000;
   0x92480001; 0x24900004; 0x92480004; 0x92480009; 0x20900024; 0x92400024; 0x9240000c; 0x3000012c;
   0xb2000124; 0x92000208; 0x4000924; 0x9000096c; 0x90001059; 0x20004924; 0x80004924; 0x92408049;
   0x2482d924; 0x92d6d924; 0x922d9249; 0x24b6db65; 0xb0b64924; 0x916c9209; 0x25b6db2d; 0x85b24924;
   0x9249248; 0x2496db6c; 0x20124920; 0x1f2000; 0x492490; 0x2492490; 0x0; 0x12c92490;
   0x12480000; 0x24900001; 0xb6d92484; 0x92490009; 0x2492002d; 0x92c92424; 0x92480000; 0x92012c;
   0xb24b2124; 0x92480061; 0x84900924; 0x92590924; 0x92401048; 0x24804964; 0x92c84964; 0x92009009;
   0x2402c92c; 0xb6424924; 0x90058058; 0x36496c; 0x92b64b6c; 0x916c02d8; 0x5b65b60; 0x5b65b60;
   0xb64b6c0; 0x2db2db00; 0x24924900; 0x1d2000; 0x400000; 0xb200000; 0x4900000d; 0xb60000b6;
   0xd8000492; 0x40005b6d; 0x80036db0; 0x92480; 0xb6db00; 0x6496400; 0x12012001; 0x24920024;
   0x92480104; 0x10400259; 0x24004924; 0x90020100; 0x80049248; 0x492d924; 0x14860920; 0x892492c9;
   0x24920b61; 0x105b16; 0x4960b2c9; 0x24820600; 0x20116db6; 0xc945b6d9; 0x400f6c0; 0x22cb6d92;
   0x81249008; 0x1f1d03; 0x490000; 0x2490000; 0x4920000; 0x12490000; 0x92490001; 0x24920005;
   0x92582004; 0x92480000; 0x100024; 0x92414024; 0x92490000; 0x20100124; 0x92400104; 0x92480208;
   0x400092c; 0x9248092c; 0x92401201; 0x24804924; 0x82004120; 0x92000000; 0x24024924; 0x90120b04;
   0x90001609; 0x2092592d; 0xb090592d; 0xb000805b; 0x6492c96d; 0xb0000124; 0x80000000; 0x1c1f01;
   0x200; 0x2000; 0x40058012; 0x41240924; 0x12412490; 0x58092482; 0x924820; 0x12492004;
   0x92480449; 0x804924; 0x920b4924; 0x80d430c8; 0x4925920; 0x84924804; 0x40208009; 0x24920049;
   0x64800496; 0x8009249; 0x20049248; 0x5c0680; 0x36db640; 0x5fe5b600; 0xbe492092; 0xd9258492;
   0x492c0020; 0x92492492; 0x4b002492; 0x40000000; 0x182000; 0x240000; 0xb6000193; 0xc0036d80;
   0x5b6c007; 0x92e00b6d; 0xb00db6d8; 0xfb6f81b; 0x6db06db6; 0xdbe4924b; 0xd9249664; 0x924b60c2;
   0xa496596; 0x24924804; 0x10080924; 0x9004b648; 0x4124809; 0x24900492; 0x480c8270; 0xb6db02c;
   0xbe782e9a; 0x785b6db6; 0x2c92780e; 0x92704b6d; 0xb2049240; 0x1b1f01; 0x200000; 0x24000009;
   0x20000090; 0x1000; 0x49000; 0x400000; 0x8000002; 0xc000006c; 0x480; 0x16000;
   0x320000; 0x6400000; 0xb2c0001b; 0x4000360; 0x8000580c; 0xd8000; 0xb00000; 0x2d800016;
   0xd000024a; 0xb2c0; 0x20182802; 0x9050002; 0xc1600228; 0x14002303; 0x800460b6; 0x420900;
   0x0; 0x1c1e01; 0x120000; 0x1240001; 0x6db0005b; 0x6d800492; 0x4900b6db; 0x600db6db;
   0x2492490; 0x5b6db6c2; 0xdb6db625; 0xb20925b6; 0xc96c6c92; 0x4b624000; 0x12d92492; 0xd64b2496;
   0x20c0606d; 0x964b2d64; 0x92496200; 0x2016d92d; 0x92d64924; 0x96241041; 0x2d92d92d; 0x6c96cb62;
   0x4120b25b; 0x2496c6d9; 0x25b62400; 0x1248000; 0x24000000; 0x1f1c01; 0x2000; 0x124800;
   0x2492400; 0x12492400; 0x24924800; 0x92492400; 0x92492401; 0x24924804; 0x92492024; 0x92492049;
   0x24924124; 0x92492124; 0x92492249; 0x20924; 0x9249492c; 0x96491018; 0xc124964; 0xb24a4964].
Definition emoji_data_66 : list N :=
  [0xb2488008; 0x92492c; 0x92424924; 0x92448208; 0x4124b6c; 0x92124b64; 0x90248241; 0x20124924;
   0x80024924; 0x0; 0x171904; 0x240000; 0x924; 0x80092400; 0x249; 0x24024924;
   0x12; 0x49241249; 0x20000004; 0x92492492; 0x59202010; 0x24b25924; 0x92490024; 0x24b248;
   0x24924001; 0x20012db2; 0x2d9000; 0x9000124; 0x80002400; 0x1a1c03; 0x2492000; 0x49240000;
   0x4924; 0x90092492; 0x1; 0x24924924; 0x92480000; 0x249249; 0x24924924; 0x92;
   0x49249259; 0x2490180c; 0x24b2592; 0x49249240; 0x1000925; 0xb2492492; 0x49002080; 0x2496c924;
   0x92d92400; 0x90009249; 0x24924924; 0x90000000; 0x40000200; 0x1c2000; 0x400000; 0x92000009;
   0x20000164; 0x920; 0xc000; 0x16c000; 0x960000; 0xd200000; 0x6d00000b; 0x20000072;
   0x6c0; 0x3240; 0x36c90; 0x6db680; 0x36df000; 0x32ff0002; 0xdb6c0036; 0xd16003ff;
   0x82006db0; 0xc003ff86; 0x3ff86c; 0x16db05b5; 0xb6d82c41; 0x2482020d; 0xa6004124; 0x90061249;
   0xb05860; 0x4020000; 0x1b2000; 0x200000; 0x12000002; 0x40000092; 0x900; 0x0;
   0x480000; 0x2580002c; 0xb000096d; 0x12c0; 0x4800; 0xb60000; 0xb600000; 0x6c00001b;
   0x6d8005b6; 0xd800bed9; 0x6db6c0; 0x16df6c06; 0x59458186; 0x592c1965; 0x92852cb2; 0x48c36c96;
   0x48b2c97d; 0x821b6c21; 0x26db0641; 0x24806862; 0x9006d86c; 0x240200; 0x171d03; 0x1240009;
   0x24001248; 0x492400; 0x49240092; 0x48024924; 0x12492024; 0x409249; 0x20965921; 0x4300492;
   0x49049249; 0x8041024; 0xb64824b2; 0x40480480; 0x2c96417c; 0x9e00f83c; 0xb64b61f; 0xe5b63bc9;
   0x24db6d96; 0xdb6c1092; 0x4826db6c; 0xb2492480; 0x1e1d03; 0x2c0000; 0x2d80000; 0x9200002;
   0xdb600005; 0xb6c00012; 0x490001b6; 0xdb000324; 0xb4000400; 0x40006492; 0xc0004924; 0x2080;
   0x96590; 0x124900; 0x10000; 0x492000; 0xb60000; 0x400180; 0x12400d80; 0x24805b00;
   0x746c; 0x92c123e1; 0xf861f84; 0x3f10db6d; 0xb6c1ffff; 0xfc07ffff; 0x8036db6c; 0x90249248;
   0x0; 0x162000; 0x24001b; 0x6c01b6da; 0x6c96c36; 0xcb696c96; 0xe7b25bad; 0xb6db5b6d;
   0xb12ffe41; 0x2c920249; 0x24080010; 0x4b248492; 0x49004104; 0x12492124; 0x92408201; 0x4b64809;
   0x6c902402; 0x41249202; 0x9204800; 0x92d924b4; 0x8209000c; 0x925925; 0x25f24007; 0x80249649;
   0x1f2000; 0x201001; 0x24b2d925; 0x25b6d922; 0x4ffff249; 0x2db6c929; 0x2db6c912; 0x5fff9249;
   0x6db64949; 0x6db24882; 0x7fe48249; 0x6db24a49; 0x6d924082; 0x790412c8; 0x24965240; 0x4920000;
   0x8009200; 0x24969200; 0x24900000; 0x40059001; 0x25bc8001; 0x25880000; 0x41240001; 0x24a00001;
   0x24092012; 0x412da05b; 0x256d80db; 0x224900b2; 0x4b6d82db; 0x7b6c06db; 0x12480592; 0x49241249;
   0x202000; 0x41000; 0x925b6c92; 0x496db649; 0x497ffe48; 0x92db6d92; 0x496db649; 0x497ffe48;
   0x92db6d92; 0x492db648; 0x93ffa48; 0x925b6c92; 0x492db248; 0xc218060; 0x964904b2; 0x49201248;
   0x200000; 0xb2480496; 0x49201248; 0x200200; 0xb2480496; 0x5920025b; 0x41200248; 0x92400492;
   0x49200248; 0x9200240; 0x96d80db2; 0x4b6c16d8; 0x49601659; 0xb6d82db6; 0x5b6c16db; 0x49601649;
   0x92482492; 0x1f2000; 0x82000; 0x6cb000; 0x16db000; 0x3fff000; 0xb6db000; 0xb6d8000;
   0x1fff0012; 0x5b6d9292; 0x5b6c9224; 0xbff92492; 0xdb649492; 0x5b249124; 0xbe492492; 0x4924a492;
   0x9248920; 0x10012492; 0x49242490; 0x49240980; 0x12416592; 0x5b212482; 0x49200800; 0x92c12;
   0xc9092412; 0x49004026; 0x496096; 0x48490092; 0x48000124; 0x10000492; 0x40002492; 0x40004924;
   0x80002492; 0x1f2000; 0x201000; 0xb2d800; 0x1b6d000; 0x7ffe000; 0xdb6c000; 0x2db6c010;
   0x1fff005b; 0x6db64949; 0x6db24892; 0x7fe492db; 0x6db24a49; 0x6d924492; 0x7924925b; 0x24925248;
   0x4920010; 0x8009258; 0x24929249; 0x2c902610; 0x19059641; 0x25949201; 0x24802000; 0x4024b209;
   0x24a4924b; 0x24012412; 0x124b049; 0x25249249; 0x22492492; 0xb6d9249; 0x29249249; 0x12492492;
   0x49249249; 0x1a1d01; 0x490000; 0x9200012; 0x49000924; 0x90092492; 0x2492481; 0x24924924;
   0x92484924; 0x92249249; 0x24924925; 0x24804992; 0x49249249; 0x24940000; 0x264b2592; 0x49e4d250;
   0x6030192c; 0x96492492; 0x49400402; 0x64924924; 0x92492520; 0x9609925b; 0x24924924; 0x94900126;
   0x49249248; 0x4024000; 0x1f1f01; 0x24900924; 0x24900924; 0x49209249; 0x24924929; 0x24824922;
   0x41049049; 0x24924909; 0x24124910; 0x40241059; 0x64965849; 0x20924800; 0x1000259; 0x24964249;
   0x24924092; 0x492416c9; 0x25b21249; 0x24900092; 0x8009249; 0x24959249; 0x24910482; 0x412d92cb;
   0x65adb249; 0x24892082; 0x496d924b; 0x6d6d9249; 0x24492412; 0x4b6db2db; 0x6b6d92c9; 0x22490492;
   0x49249249; 0x0; 0x192000; 0x800901b; 0x40b61ff1; 0x7f9ff8ff; 0xfb6cb6df; 0xcf3dbf21;
   0x1a0f6496; 0x4b490492; 0x840208c4; 0x82c96100; 0xf6700078; 0x7596192f; 0x6d065892; 0x4124b6c1;
   0x6c2d825b; 0x12403f16; 0xd12d95b0; 0xb604804; 0x904825b2; 0x12036c09; 0x920900; 0x12024000;
   0x200001; 0x20004008; 0x4016c03; 0x306582d8; 0x1a1f01; 0x12402402; 0x40248000; 0x4904;
   0x92492092; 0x40000001; 0x2c164824; 0x2490000; 0x1004904b; 0x20900924; 0x24024836; 0xc16596d8;
   0x64849209; 0x22db05b6; 0x5b20b602; 0x403f896c; 0x86c86c12; 0xd9090092; 0x24925b60; 0x900b6024;
   0x2481240; 0x24024000; 0x900000; 0x48009009; 0x660; 0x19832c06; 0x40000000; 0x1c2000;
   0x1001001; 0x6c06d81b; 0x60b6c1ff; 0xffc36d9; 0x6da1b61b; 0x2c092192; 0x416c12da; 0x9219240;
   0x92192416; 0xc16da0b0; 0x196c0100; 0xf2c16c16; 0xd81b60b2; 0xc0920924; 0x36d96d84; 0xb60b6409;
   0x203e416c; 0x92d84b64; 0x36049041; 0x2092406d; 0x90920b68; 0x9001200; 0x24024009; 0x120080;
   0x1200240; 0x24008001; 0x200c6033; 0x16c0258; 0x1c2000; 0x2002400; 0xd805b016; 0xd16d83ff;
   0x1ffc2db2; 0xdb636d96; 0xda3651e4; 0xe2db2db6; 0x16c16da1; 0x241ace0d; 0xa2db606c; 0x16da0241;
   0xe5c2db0d; 0xb636d06d; 0x81249248; 0x2db0db63; 0x6d92d812; 0x493f06db; 0x65b216c8; 0x2d882402;
   0x4904865b; 0x202406d8; 0x2402480; 0x4801b002; 0x40240004; 0x2000480; 0x1b000402; 0x16c033;
   0xcb05b0; 0x1c2000; 0x4000801; 0xfe0bec3f; 0xf0ffe3ff; 0xffe7ff1; 0xffc3ff1f; 0xbe3ff1fb;
   0xe1b61b6c; 0x2db1db60; 0xfa1dfe1b; 0x61b6c058; 0x1dbe0780; 0xffe1b60b; 0x6c2db0db; 0x42490c94;
   0x5b69b6c2; 0xdb05b624; 0x927f24b6; 0xd3646d86; 0x5b204864; 0x92c924b6; 0xd04825b2; 0x4805b00;
   0x92036004; 0x801b0048; 0x1300900; 0x32004801; 0x300cc033; 0x1960320; 0x1c1f01; 0x12402480].
Definition emoji_data_67 : list N :=
  [0x92092409; 0x20924124; 0x92480920; 0x92408208; 0x4124125; 0x80920924; 0x1008041; 0x2412c801;
   0x964000; 0x92416c1; 0x6581b60b; 0x2c092092; 0x416c96d8; 0xb603640; 0x9203e016; 0xc92d84b6;
   0x43600900; 0x12092406; 0xd90920b6; 0x80900120; 0x2402400; 0x90012008; 0x24; 0x2000800;
   0x1200c603; 0x3016c025; 0x80000000; 0x192000; 0x800101b; 0xb61ff0; 0x7f9ff87f; 0xeb6c36df;
   0xcf3fb321; 0x2096482; 0x48490092; 0x4000804; 0x80490100; 0x2000000; 0x5960b61; 0x2406d892;
   0x924b6c1; 0x6ca4805b; 0x12402496; 0xc12d9490; 0xb604804; 0x80d82492; 0xb601201b; 0x901b00;
   0x9206c024; 0x3601003; 0x200240d8; 0x401ec02; 0x786582d8; 0x1a1f01; 0x12402402; 0x40248000;
   0x4904; 0x92492092; 0x1; 0x2c164824; 0x2480000; 0x10049009; 0x900100; 0x32;
   0xc16d9248; 0x6da49209; 0x22db05b6; 0x4920b602; 0x4024896c; 0x96c82412; 0xd9090012; 0x25b20901;
   0xb0092024; 0x4816c0; 0x24064004; 0x80900020; 0x4b009019; 0x20660; 0x39832c16; 0x50000000;
   0x1c2000; 0x1001001; 0x6c06d81b; 0x60b6c1ff; 0xffc36d9; 0x6d81b60b; 0x6c092092; 0x416c06d8;
   0x9201200; 0x92012016; 0xc02d80b0; 0x1600100; 0x12016c06; 0xd80920b6; 0xc0920924; 0x36d96d80;
   0x920b6409; 0x2012416c; 0x96d84924; 0x36049241; 0x2096c024; 0x90b60120; 0x9401201; 0x6c024009;
   0x40120080; 0x12006c0; 0x24008401; 0x200ce032; 0x16c0658; 0x1c2000; 0x1001200; 0xfa03e016;
   0xd06d81b6; 0xb6c3ff0; 0xffc36d96; 0xd81b60b6; 0xc0960b20; 0x16c06d81; 0xb6036809; 0x2012006c;
   0x2c00b00; 0x16009209; 0x2036d96d; 0x84920b6c; 0x9209243; 0x6d96d849; 0x29b64492; 0x412496cb;
   0x6db4b641; 0x204b6412; 0x96c0249; 0xb601200; 0x94012006; 0xc0240094; 0x1200800; 0x12006c02;
   0x40096032; 0x820120; 0x1c2000; 0x2002c01; 0xfc03f83f; 0xf0ffc3ff; 0x8ffc3ff0; 0xffc3fb0f;
   0xbe3ef1ed; 0x81ec07f8; 0x2db05b01; 0x6c06d817; 0xc03f80d8; 0x5b006c0; 0x2c012402; 0xc82db0db;
   0x612496d8; 0x32592482; 0xdb0db632; 0x492d8124; 0x924a6d86; 0x5b296c22; 0x4386c024; 0x10d82492;
   0x6c02400; 0x6c02400c; 0x8009006c; 0x24006c0; 0x2000c804; 0x9016c025; 0x81040208; 0x1a2000;
   0x1002; 0x40040124; 0x12492482; 0x48492092; 0x4904924; 0x92092024; 0x81241; 0x24024024;
   0x80900100; 0x5800b009; 0x120240; 0x248b6c16; 0xd92486db; 0x49209225; 0xb05b6492; 0xb602402;
   0x4896c86c; 0x6c12491; 0xb001205b; 0x901b00; 0x12024000; 0x816c0240; 0x64000809; 0x204b0;
   0x901900b; 0x60240208; 0x1a2000; 0x1200200f; 0xd01f06db; 0x2db3ffcf; 0xfefef3ff; 0xdb2cb6db;
   0x25324a40; 0x4c9364b2; 0x496494c9; 0x2020324c; 0x160b6d12; 0x3e58410; 0x4966db2c; 0xb0db05b6;
   0x16c0240b; 0x6496c124; 0x6c84901; 0xb02d90db; 0x5b21b01; 0x240240b6; 0x36c1240; 0x24000000;
   0x480480; 0x9000; 0x20; 0x10018c06; 0x40410090; 0x191e02; 0x92412424; 0x90490000;
   0x124824; 0x94924920; 0x8040249; 0x4929249; 0x24080010; 0xb00b642; 0x40248820; 0x104b2c36;
   0xd2d80db1; 0x6c02496c; 0x82d94924; 0xb604805a; 0xda25b2b; 0x6036c490; 0x925b60b; 0x616c0248;
   0x12; 0x240080; 0x0; 0x2400081; 0xb009c008; 0x4000000; 0x1a2000; 0x8001007;
   0xc03f8b6c; 0x16d96d86; 0xdbff71f3; 0xedb6db6d; 0x92192f24; 0xce4bb6db; 0x6db2c864; 0xb090392c;
   0x580db609; 0x192c248; 0x64836c16; 0xd96d82d8; 0x5b20922d; 0xb05b2492; 0x4b642412; 0xd996c86c;
   0x6d12d90; 0x900922db; 0x25b61900; 0xb6024000; 0x81200240; 0x24000809; 0x400; 0x901900b;
   0x60240208; 0x1c2000; 0x9001001; 0xfa03e036; 0xd96d85b6; 0x9b6c7f79; 0xffc36d96; 0xda5b69b6;
   0xc6969b24; 0x36d96da5; 0xb69b6c0b; 0x2196c06c; 0x16da0b00; 0xb6c09209; 0x2c36d96d; 0x81b60b6c;
   0xb609243; 0x6d92d849; 0x29364492; 0x436096ca; 0x6db4b643; 0x60492412; 0x96c06d9; 0xb603600;
   0x80012006; 0xc0240090; 0x1200000; 0x12006c02; 0x400c6032; 0x820120; 0x1c2000; 0x6002c01;
   0xfc07f83f; 0xf0ffe3ff; 0x9ffe7ff9; 0xffe7fbbf; 0xbe7ed9ed; 0xe7ed9ffe; 0x6dbbdb63; 0x6d9ede17;
   0xc1ffe0d8; 0x2dbe06c1; 0xedc17c0e; 0xc82db0db; 0x436d96d8; 0x36d92482; 0xdb2db632; 0x492d8024;
   0xb2d26da6; 0x5b296c06; 0xdb924024; 0x92db25b2; 0x16c02d80; 0x6c03600c; 0x801b006c; 0x24004c0;
   0x20004801; 0x3006c037; 0x40200; 0x1a2000; 0x8001002; 0x40240124; 0x12492482; 0x49492092;
   0x64904924; 0x92092524; 0x80099241; 0x24924824; 0x90900904; 0x5804b209; 0x920248; 0x20832c16;
   0x596d82d8; 0x1b009225; 0xb05b2490; 0xb602402; 0xd896c86c; 0x6d02d80; 0x900920db; 0x25b60900;
   0x92000000; 0x1200240; 0x24000000; 0x400; 0x901900b; 0x60240208; 0x172000; 0x240002;
   0xd9005b2d; 0x80d92d85; 0xb25b16d9; 0x6d96db6c; 0x249248b6; 0xdb6cb6db; 0x60ff97c1; 0xb64b0492;
   0x49082082; 0xcb2ca24; 0x92487800; 0x1064b2d1; 0xe492c3c3; 0x67836596; 0xfe4be0f; 0xc07c1b25;
   0xb04b2590; 0x964b22db; 0x6db6db6d; 0xadbfdb56; 0xdb6db6db; 0x6da49248; 0x192000; 0x240000;
   0xb6c001b2; 0xd8036cb6; 0x1b24b01; 0xb65b616d; 0xb6d81249; 0x2836db6c; 0xdb6d803; 0xc90c02c9;
   0x2400924b; 0x4c0c80; 0x4b2c8012; 0x49200024; 0x12c90; 0x492000; 0x4800025; 0xb0000924;
   0x0; 0x920009; 0x25902492; 0x492db6db; 0xb6db6c5; 0xb7db65b6; 0xdb6f6db6; 0xd8924924;
   0x182000; 0x490002; 0xdb000d92; 0xd016cb68; 0x16496c2d; 0xb6d836db; 0x6c324924; 0x2db6d81e;
   0xdb7c1ef8; 0x780d9258; 0x1e493818; 0xc1300c92; 0x5812c920; 0xc; 0x92500249; 0x20004000;
   0xb64000; 0x49000000; 0x9200; 0x2c92012; 0x49246db6; 0xdbb6db6c; 0xb6ff6c6d; 0xb6dbb6db;
   0x6d924924; 0x172000; 0x240002; 0x49005b2d; 0x80d92d85; 0xb25b16d9; 0x6d96db6c; 0x249248b6;
   0xdb6c96db; 0x20009000; 0x92490092; 0x49002080; 0x4b2c804; 0x92480104; 0x24b240; 0x24924003;
   0x60012592; 0x1249200; 0x925; 0x904b2590; 0x964b22db; 0x6db6db6d; 0xadbfdb56; 0xdb6db6db;
   0x6da49248; 0x192000; 0x240000; 0xb2c001b2; 0xd8036cb6; 0x1b24b01; 0xb65b616d; 0xb6d81249;
   0x2836db6c; 0xdb6c802; 0x9040049; 0x24009259; 0xc0c00; 0x4b2c8012; 0x49200024; 0x12c90;
   0x492000; 0x4800025; 0xb0000924; 0x0; 0x920009; 0x25902492; 0x492db6db; 0xb6db6c5;
   0xb7db65b6; 0xdb6f6db6; 0xd8924924; 0x182000; 0x480002; 0xdb000d92; 0xd016cb68; 0x16496c2d;
   0xb6d836db; 0x6c324924; 0x2db6d812; 0xdb640049; 0x49248; 0x12492000; 0xc1000492; 0x4802c920;
   0x4; 0x92400249; 0x20004100; 0xb64000; 0x49000000; 0x9200; 0x2c92012; 0x49246db6;
   0xdbb6db6c; 0xb6ff6c6d; 0xb6dbb6db; 0x6d924924; 0x172000; 0x240002; 0x49005b2d; 0x80d92d85].
Definition emoji_data_68 : list N :=
  [0xb25b16d9; 0x6d96db6c; 0x249248b6; 0xdb6cb6db; 0x607f97c1; 0xb6db0492; 0x49092492; 0xdb6da24;
   0x92487924; 0x906db6d1; 0x6492c3cb; 0x67836db6; 0xb64b607; 0xc97c0b6d; 0xb04b2590; 0x964b22db;
   0x6db6db6d; 0xadbfdb56; 0xdb6db6db; 0x6da49248; 0x182000; 0x240001; 0xb6c00592; 0xc01b65b0;
   0x2d92d82c; 0x92585b6d; 0xb6249248; 0x2492481b; 0x6db00db6; 0x580c9250; 0xb6db00d; 0x93c00493;
   0x400b6db0; 0x4924004; 0x9240036d; 0x80009240; 0x924001; 0x6d800092; 0x9200; 0x496d926d;
   0xb6db6d92; 0xdadb6db6; 0x6db6db6d; 0xfedbdb6d; 0xb6249249; 0x192000; 0x490000; 0xb6c002c9;
   0x6c02d96d; 0x81b65b00; 0xc924a0db; 0x6db0b249; 0x2c192494; 0xb6db606; 0xdb2c01a4; 0x96016db6;
   0x80cb2c80; 0x279e402d; 0xb6c00924; 0x90049248; 0x1b6d800; 0x24900012; 0x480016d8; 0x9000;
   0x480012; 0xdb202db2; 0xc916cb2c; 0x96db6d85; 0xb6db66db; 0xedb2db6d; 0xb6924924; 0x172000;
   0x124000b; 0x6c00364b; 0x2d92d82; 0xd96d8c92; 0x4b16db6c; 0x32492c64; 0x9258b6db; 0x60b6db61;
   0xfd97c5b6; 0xdb05b6db; 0x965962d; 0xb6d82db6; 0xd87964f1; 0x6db6c16d; 0xb6c3cb2f; 0x8b6db60b;
   0x6db41649; 0x205b6db0; 0xdb6db1b2; 0xcb66db6d; 0xb6db6d8d; 0xbfdb36db; 0x6d924924; 0x182000;
   0x240001; 0xb6c00592; 0xc01b65b0; 0x2d92d82c; 0x92585b6d; 0xb6249248; 0x2492481b; 0x6db00db6;
   0xd80c9270; 0xb6db00d; 0xb6d80593; 0xc00b6db0; 0x5b6c004; 0x9240036d; 0xa005b6c0; 0xb64001;
   0x6d8000b6; 0x9200; 0x496d926d; 0xb6db6d92; 0xdadb6db6; 0x6db6db6d; 0xbedbdb6d; 0xb6249249;
   0x192000; 0x490000; 0xb6c002c9; 0x6c02d96d; 0x81b65b00; 0xc924a0db; 0x6db0b249; 0x2c192494;
   0xb6db606; 0xdb6c03fc; 0x96016db6; 0x80db6d80; 0x279e402d; 0xb6c00b6d; 0xb0049248; 0x1b6d800;
   0x6db00016; 0xc80016d8; 0x1b000; 0x480012; 0xdb202db6; 0xc916cb2c; 0x96db6d85; 0xb6db66db;
   0xedb2db6d; 0xb6924924; 0x172000; 0x124000b; 0x6c00364b; 0x2d92d82; 0xd96d8c92; 0x4b16db6c;
   0x32492c64; 0x9258b6db; 0x60ffdfe1; 0xffbfc7b6; 0xdb05b6db; 0xbfff62d; 0xf6d83db6; 0xf87bfdf1;
   0xedb6c1ed; 0xb7c3ffff; 0x8fedbe0f; 0xedfc1e7f; 0x305b6db0; 0xdb6db1b2; 0xcb66db6d; 0xb6db6d8d;
   0xbfdb36db; 0x6d924924; 0x182000; 0x240001; 0xb6c00592; 0xc01b65b0; 0x2d92d82c; 0x92585b6d;
   0xb6249248; 0x2c92581b; 0x6db00fb6; 0xf80fbef0; 0xb6db00d; 0xf7d80df7; 0xd80b6db0; 0x5bec005;
   0xbec0036d; 0xa005b6c0; 0x1ffc001; 0x6d8000b6; 0xfe00; 0x496d926d; 0xb6db6d92; 0xda5b6db6;
   0x6db6db6d; 0xfedbdb6d; 0xb6249249; 0x192000; 0x490000; 0xb6c002c9; 0x6c02d96d; 0x81b65b00;
   0xc924a0db; 0x6db0b249; 0x2c192494; 0xf6dbe07; 0xff7e03ff; 0xbf01edb7; 0x80df7d80; 0x7fbec03d;
   0xb6e00b6d; 0xb007bed8; 0x1b6d800; 0x6db0001f; 0xf80016d8; 0x1b400; 0xfc0012; 0xdb202db6;
   0xc916cb2c; 0x96db6d85; 0xb6db66db; 0xedb2db6d; 0xb6924924; 0x172000; 0x124000b; 0x6c00364b;
   0x2d92d82; 0xd96d8c92; 0x4b16db6c; 0x32492c64; 0x9248b6db; 0x60924901; 0x24020492; 0x49049249;
   0x8618024; 0x92482492; 0x48402081; 0x24924125; 0x92424b04; 0x9249209; 0x24900241; 0x205b25b0;
   0xdb2db1b2; 0xcb66db6d; 0xb6db6d8d; 0xbfdb36db; 0x6d924924; 0x182000; 0x240001; 0xb6c00592;
   0xc01b65b0; 0x2d92d82c; 0x92585b6d; 0xb6249248; 0x2492481b; 0x6db00492; 0x48040000; 0x9259004;
   0x93400083; 0x92490; 0x4924000; 0x10000124; 0x80009240; 0x920001; 0x24800092; 0x8000;
   0x4965926d; 0x92db6d92; 0xdadb6db6; 0x6db6db6d; 0xbedbdb6d; 0xb6249249; 0x192000; 0x490000;
   0xb6c002c9; 0x6c02d96d; 0x81b65b00; 0xc924a0db; 0x6db0b249; 0x2c092494; 0xb6db602; 0x49240120;
   0x2012492; 0x4b2c80; 0x27064025; 0x96400924; 0x90001200; 0x964800; 0x24900002; 0x400002c8;
   0x9000; 0x12; 0xcb202db2; 0xc916cb2c; 0x96db6d85; 0xb6db66db; 0xfdb2db6d; 0xb6924924;
   0x1e1f01; 0x10182030; 0x70e0e380; 0xdb01b605; 0xb60b6012; 0x48249092; 0x41248124; 0x82490482;
   0x9042490; 0x49204920; 0x92412082; 0x41096412; 0xc802c005; 0x80000010; 0x2cb0596; 0x696092c;
   0x1e6030c0; 0xb6c96d98; 0x7c10f801; 0xf003e02d; 0xb05b605f; 0xbe002c; 0x480120; 0x2400040;
   0x800000; 0x804; 0x10041008; 0x0; 0x182c305; 0x40008; 0x0; 0x1d1f01;
   0x18202040; 0xc3018605; 0xb01b6036; 0xc06d8092; 0x1240920; 0x12412482; 0x49010402; 0x812c025;
   0x80490090; 0x400080; 0x24804900; 0x90012000; 0x800100c9; 0x1960f2c; 0x1e585be0; 0xb7c4b649;
   0x6c87f10f; 0xe23f807f; 0x96c92d9; 0xff01fe0; 0x7f00fe02; 0xd805b009; 0x120000; 0x400;
   0x8000001; 0x4040008; 0x406082; 0xc1040208; 0x0; 0x1d1f01; 0x8203040; 0x61818305;
   0xb60b6816; 0xc02d8092; 0x1240924; 0x12482480; 0x49000402; 0x16482c; 0x90490092; 0x400080;
   0x24804900; 0x10002000; 0x80010059; 0x40920124; 0x6580f60; 0x1ec4b649; 0x6c93f927; 0xf20fc03f;
   0x16c82d9; 0x7f00fe0; 0x3f807f02; 0xd805b008; 0x20100000; 0x410; 0x8200000; 0x8;
   0x5860b0; 0xc1008201; 0x0; 0x1f1e01; 0x259000; 0x5fe000; 0x96db200; 0x96d9200;
   0x10000002; 0x5b6db202; 0xfffff201; 0xffffe016; 0xdb6db017; 0xd92f903f; 0x800f80b6; 0x492d90f2;
   0xc92e81e1; 0x821c0596; 0x4b2c8792; 0x49740f00; 0x80e02d92; 0x4b643c92; 0x4ba07c24; 0x1f016cb6;
   0x5b21fc92; 0xf903f805; 0xf00b6492; 0xd9490492; 0x48000000; 0x492492; 0x4a002480; 0x40000000;
   0x12492492; 0x40000000; 0x1d1e01; 0x209000; 0x4; 0x96c92012; 0x5b240000; 0x96d;
   0xb64127ff; 0xe9007fff; 0x8092db6c; 0x925b24f2; 0xc10301; 0x2492d924; 0x924d2400; 0x10600249;
   0x24924924; 0x92480004; 0x49249; 0x24924924; 0x90004900; 0x9249249; 0x24924920; 0x12;
   0x49249240; 0x4804800; 0x2492; 0x49248000; 0x100000; 0x492492; 0x48000000; 0x1d1f01;
   0x2492400; 0x9248000; 0xfe00024; 0xb6c90090; 0x240092; 0x4c005b6d; 0xb2097ff7; 0xc80fffbe;
   0x4b6d964; 0x93d92590; 0x1e400c09; 0x65964925; 0x926b2000; 0x820812c9; 0x24924b24; 0x96400020;
   0x249249; 0x24924924; 0x80024800; 0x49249249; 0x24924920; 0x92; 0x49249200; 0x24000;
   0x12492; 0x49240000; 0x800000; 0x2000000; 0x40000000; 0x1d1f01; 0x492400; 0x9249000;
   0x24; 0x92490080; 0x40000; 0x4924; 0x92412492; 0x48000000; 0x924924; 0x92492492;
   0x9; 0x25924924; 0x9e592400; 0xc0c01249; 0x24924924; 0x92480000; 0x249249; 0x24925924;
   0x90005800; 0x49249249; 0x24924920; 0x92; 0x49249241; 0x24824000; 0x12492; 0x49240249;
   0x800000; 0x2000000; 0x40000000; 0x1e1f01; 0x924800; 0x1249000; 0x1; 0x24924812].
Definition emoji_data_69 : list N :=
  [0x48000; 0x249; 0x24920492; 0x49240000; 0x9249; 0x24812492; 0x49000208; 0x24b259;
   0x24496592; 0x40009200; 0x9249249; 0x12492490; 0x2; 0x49249244; 0x92d92400; 0x1000092;
   0x49249924; 0x92490000; 0x40002492; 0x49264004; 0x400000; 0x92492; 0x49800000; 0x10000000;
   0x2000000; 0x40000000; 0x1d1f01; 0x2492400; 0x9248000; 0x24; 0x92490080; 0x240000;
   0x4924; 0x92092492; 0x48000000; 0x4924924; 0x92492490; 0x410009; 0x25964924; 0x92692000;
   0x82001249; 0x24924924; 0x92400020; 0x249249; 0x24924924; 0x80024800; 0x49249249; 0x24924920;
   0x800092; 0x49249200; 0x20024000; 0x12492; 0x49240000; 0x800000; 0x2000000; 0x40000000;
   0x1d1f01; 0x4b2400; 0x96d9000; 0x1ffc0024; 0xb6d90090; 0x240192; 0x4b005b6d; 0xb6416db6;
   0xd80fff9f; 0xc0b6db6c; 0x92c925b2; 0x1e492789; 0x6db6d925; 0x9e59643c; 0xd2cb12db; 0x6db64b24;
   0x92c87924; 0x9e25b6db; 0x6496592d; 0x90f2597c; 0x4b6db6c9; 0x2d925b21; 0xe492f896; 0x4b259241;
   0x24824009; 0x240124b6; 0xc9240249; 0x800000; 0x2000000; 0x40000000; 0x1e1f01; 0x924800;
   0x1249000; 0x920001; 0x25b24812; 0x40048001; 0x2490025b; 0x6db204b6; 0xdb2400ff; 0xec0096db;
   0x6c812c92; 0x49003249; 0x25b6db; 0x24496592; 0x40049240; 0x92db649; 0x124b2490; 0x1249002;
   0x4b6d9244; 0x92d92400; 0x9200092; 0x5b249924; 0x92490002; 0x48002492; 0x49264004; 0x400000;
   0x92492; 0x49800000; 0x10000000; 0x2000000; 0x40000000; 0x1d1f01; 0x2492400; 0x9248000;
   0xb600024; 0xb6c90090; 0x240092; 0x48004b6d; 0xb2096db6; 0xc803ffbe; 0x4b6db64; 0x92d92590;
   0x1e492c09; 0x6db6c925; 0xb27b2004; 0x924812db; 0x6d924b24; 0x96400924; 0x8024b6d9; 0x24925b24;
   0x80024800; 0x492d9249; 0x24924920; 0x4900092; 0x4b249200; 0x20024000; 0x12492; 0x49240000;
   0x800000; 0x2000000; 0x40000000; 0x1d1f01; 0x4b2400; 0x96d9000; 0x1ffc0024; 0xb6d90090;
   0x2401b2; 0x4b805b6d; 0xb6416db6; 0xd80fff9f; 0xc0b6db6c; 0x92db6db2; 0x1e492789; 0x6db6d925;
   0xbedb643c; 0xf2cb12db; 0x6db64b6d; 0xb6c8792c; 0x9e25b6db; 0x6496db6d; 0x90faf97c; 0x4b6db6c9;
   0x3fb6db21; 0xe492f896; 0x4b659241; 0x6d824009; 0x240124b6; 0xc9240249; 0x800000; 0x2000000;
   0x40000000; 0x1e1f01; 0x924800; 0x1249000; 0x920001; 0x25b24812; 0x40048001; 0x24b0025b;
   0x6db204b6; 0xdb2401ff; 0xee0096db; 0x6c812db6; 0xc900f649; 0x25b6db; 0x244b6db2; 0x40259240;
   0x96db6c9; 0x12db6c90; 0x1249002; 0x4b6d9244; 0x96d92400; 0x49200092; 0x5b249924; 0xb6490002;
   0x48002496; 0xc9264004; 0x400000; 0x92492; 0x49800000; 0x10000000; 0x2000000; 0x40000000;
   0x1d1f01; 0x2492400; 0x9248000; 0xbe00024; 0xb6c90090; 0x240092; 0x48005b6d; 0xb2096db6;
   0xc807ffbe; 0x4b6db64; 0x92db6d90; 0x1e492c09; 0x6db6c925; 0xb6fb200c; 0x925812db; 0x6d924b6d;
   0xb6400924; 0x8024b6db; 0x2492db64; 0x8002d900; 0x492db249; 0x24b64920; 0x4900092; 0x5b249200;
   0x24024000; 0x12492; 0x49240000; 0x800000; 0x2000000; 0x40000000; 0x1d1f01; 0x4b6400;
   0x9ff9000; 0x1ffe0024; 0xb6d90090; 0x2401f2; 0x5f805fff; 0xfe41ffff; 0xf80fffff; 0xc0bfdb7c;
   0x93fb6df2; 0x1fdb6f89; 0xedb6df27; 0xbefbe43d; 0xf7df13db; 0x6dbe4f6d; 0xb7c87b7d; 0xbe27b6db;
   0x7c9edb6f; 0x90fefffc; 0x4fedb7c9; 0x3fb6ff21; 0xf4b2f896; 0x5b659241; 0x6d82400b; 0x6c0124b6;
   0xc92402db; 0x800000; 0x2000000; 0x40000000; 0x1e1f01; 0x924800; 0x1249000; 0xb20001;
   0x25b24812; 0x40048003; 0x64b0025f; 0xfff204bf; 0xff2403ff; 0xfe0097db; 0x7c813db6; 0xe900fedf;
   0x8025b6fb; 0x244b6db2; 0x402fb7c0; 0x96db6c9; 0x12db6c90; 0x16db002; 0x4b6d9244; 0x97fb2400;
   0x5fe00092; 0x5b249925; 0xb6490003; 0xf8002496; 0xc9264004; 0x400000; 0x92492; 0x49800000;
   0x10000000; 0x2000000; 0x40000000; 0x1d1f01; 0x2492400; 0x9248000; 0xfe00024; 0xb6c90090;
   0x2401f2; 0x5e005fff; 0xf2097fff; 0xc80ffffe; 0x4bfdb74; 0x93db6f90; 0x1ffbfc09; 0x6fb6c927;
   0xbefb201d; 0xf7d812db; 0x6d924b6d; 0xb6401b7d; 0xe024b6db; 0x2492fb64; 0x8007ff00; 0x492db249;
   0x24b64920; 0x7f00092; 0x5b249200; 0x24024000; 0x12492; 0x49240000; 0x800000; 0x2000000;
   0x40000000; 0x1d1f01; 0x492400; 0x9249000; 0x9240024; 0x92490090; 0x240090; 0x900496d;
   0xb2412492; 0x48092492; 0x40924924; 0x92492492; 0x12000489; 0x25924924; 0x9e592420; 0xc0c11249;
   0x24924924; 0x92484800; 0x12249249; 0x24925924; 0x90905824; 0x49249249; 0x24924921; 0x20004092;
   0x49249241; 0x24824000; 0x12492; 0x49240249; 0x800000; 0x2000000; 0x40000000; 0x1e1f01;
   0x924800; 0x1249000; 0x100001; 0x24924812; 0x48001; 0x10024b; 0x6d920492; 0x49240049;
   0x24009249; 0x24812492; 0x49000209; 0x24b259; 0x24496492; 0x40008200; 0x9249249; 0x12492490;
   0x2; 0x49249244; 0x92c92400; 0x1000092; 0x49249924; 0x92490000; 0x2492; 0x49264004;
   0x400000; 0x92492; 0x49800000; 0x10000000; 0x2000000; 0x40000000; 0x1d1f01; 0x2492400;
   0x9248000; 0x9200024; 0x92490090; 0x240080; 0x8004b6c; 0x92092492; 0x48012412; 0x4924924;
   0x92492490; 0x410409; 0x25964924; 0x92692000; 0x82081249; 0x24924924; 0x92400020; 0x249249;
   0x24924924; 0x80024800; 0x49249249; 0x24924920; 0x92; 0x49249200; 0x20024000; 0x12492;
   0x49240000; 0x800000; 0x2000000; 0x40000000; 0x1c1c02; 0x492000; 0x12490000; 0x24;
   0x92400924; 0x92000000; 0x124924; 0x80924924; 0x1; 0x24924849; 0x24924000; 0x9249;
   0x24949249; 0x24006030; 0x9249649; 0x4964b240; 0x2000092; 0x4b249492; 0x49240000; 0x92492;
   0x49492d92; 0x4002f800; 0x924b2494; 0x92492400; 0x120; 0x90480000; 0x171c02; 0x2490002;
   0x49000000; 0x924920; 0x92490000; 0x49249; 0x24924900; 0x2492; 0x49249248; 0x124;
   0x92492492; 0x40402049; 0x64924924; 0x92000000; 0x49249049; 0x64800240; 0x2492482; 0x49240092;
   0x4002db20; 0x2490000; 0x248; 0x0; 0x1a1c02; 0x2490000; 0x49240000; 0x4924;
   0x90092492; 0x9; 0x24924924; 0x92490000; 0x249249; 0x24924924; 0x92; 0x49249249;
   0x2c90180f; 0x24b2592; 0x4924b200; 0x40000924; 0x92492492; 0x48000400; 0x4924900; 0x92490004;
   0x920002db; 0x64004924; 0x0; 0x1240000; 0x1c1c02; 0x492000; 0x12490000; 0x24;
   0x92400924; 0x92000000; 0x124924; 0x80924924; 0x1; 0x24924849; 0x24924000; 0x9249;
   0x24949249; 0x24006030; 0x92c9649; 0x4964b240; 0x2010092; 0x4b249492; 0x49240004; 0x92492].
Definition emoji_data_70 : list N :=
  [0x49492d92; 0x4002f800; 0x924b2494; 0x92492400; 0x120; 0x90480000; 0x171c02; 0x2490002;
   0x49000000; 0x924920; 0x92490000; 0x49249; 0x24924900; 0x2492; 0x49249248; 0x124;
   0x92492492; 0x40402049; 0x64b24924; 0x92000002; 0x49249049; 0x64800240; 0x2492482; 0x49240092;
   0x4002db20; 0x2490000; 0x248; 0x0; 0x1a1c02; 0x2490000; 0x49240000; 0x4924;
   0x90092492; 0x9; 0x24924924; 0x92490000; 0x249249; 0x24924924; 0x92; 0x49249249;
   0x2c90180f; 0x24b2592; 0x4924b200; 0x40000924; 0x92492492; 0x48000400; 0x4924900; 0x92492004;
   0x920002db; 0x64004924; 0x0; 0x1240000; 0x1c1c02; 0x492000; 0x12490000; 0x24;
   0x92400924; 0x92000000; 0x124924; 0x80924924; 0x1; 0x24964849; 0x24924012; 0x490092db;
   0x6c949249; 0x240964b2; 0x96db6d9; 0x4964b240; 0x92492096; 0xdb6c9492; 0xd9240924; 0x92092db6;
   0xc9492d92; 0x4012f900; 0x92db6494; 0x92492400; 0x24800120; 0x90480000; 0x171d02; 0x2490002;
   0x49000000; 0x924920; 0x92490000; 0x49249; 0x24924900; 0x24902492; 0xc9249248; 0x4924816d;
   0xb6c924b2; 0x524964db; 0x6db64925; 0x92924926; 0xdb6db049; 0x64809249; 0x2db6d82; 0x49240492;
   0x4806db60; 0x2490004; 0x920002d8; 0x24000; 0x1a1d02; 0x2490000; 0x49240000; 0x4924;
   0x90092492; 0x9; 0x24924924; 0x92490000; 0x80249259; 0x24924924; 0x24924892; 0xdb6c9249;
   0x2c909a4f; 0x225b6db2; 0x4b24b202; 0x4924896d; 0xb6c92492; 0x48092492; 0x5b6db00; 0x92492024;
   0x924002db; 0x64004924; 0x124800; 0x16c8000; 0x4000000; 0x1c1c02; 0x492000; 0x12490000;
   0x24; 0x92400924; 0x92000000; 0x124924; 0x80924924; 0x9001; 0x24964849; 0x25b24012;
   0x492096db; 0x6c94b6db; 0x640964b2; 0x96db6d9; 0x4b6db640; 0x964b2096; 0xdb6d94b6; 0xdb640924;
   0x92096db6; 0xc94b6db6; 0x4013f900; 0x92db6c94; 0x96db2400; 0x24800120; 0xb0480000; 0x191d02;
   0x2490000; 0x92400000; 0x24924; 0x80924900; 0x49; 0x24909249; 0x24002490; 0x965b212;
   0xdb6c8124; 0x92016db6; 0xc2db6d91; 0x2c96496d; 0xb6dbdb6d; 0xb6249249; 0x2db6db03; 0x6db68092;
   0xc900b6db; 0x606db6c0; 0x12db2006; 0xdb6001b6; 0xc0004920; 0x1b6000; 0x2400000; 0x1a1d02;
   0x2490000; 0x49240000; 0x4924; 0x90092492; 0x9; 0x24924924; 0x92490000; 0x802492d9;
   0x2492db24; 0x24924896; 0xdb6c96db; 0x6d90ba4f; 0x22db6db6; 0x5b6db602; 0x49248b6d; 0xb6d96db6;
   0xd8092c92; 0x5b6db00; 0xb6db6025; 0xb64006db; 0x6c00db6c; 0x124800; 0x16c8000; 0x24000000;
   0x1c1c02; 0x492000; 0x12490000; 0x24; 0x92400924; 0x92000000; 0x124924; 0x80924924;
   0x9001; 0x24964849; 0x2db24017; 0xfba096db; 0x6c94b6db; 0x640fedf6; 0x96db6d9; 0x4b6df640;
   0xfedf6096; 0xdb6d94b6; 0xfb640b6f; 0xb6096db6; 0xc94b6db6; 0x4017ff80; 0x92db6c94; 0x96db2400;
   0x2d800120; 0xb0480000; 0x191d02; 0x2490000; 0x92400000; 0x24924; 0x80924900; 0x49;
   0x24909249; 0x240024b0; 0xb65b212; 0xdb6c816f; 0xb6096db6; 0xc2df6db3; 0x6fb7d96f; 0xb7dbdb6d;
   0xb62db6db; 0x2db6db0b; 0x6fb6c1b7; 0xdb00b6db; 0x606db6c0; 0x17ffe016; 0xdb6001b6; 0xd0005b60;
   0x5b6000; 0x2400000; 0x1a1d02; 0x2490000; 0x49240000; 0x4924; 0x90092492; 0x9;
   0x24924924; 0x92490000; 0xd02492d9; 0x24b2db24; 0x25f6f896; 0xdb6c96db; 0x6d91bedf; 0x62df6db6;
   0x5bedf606; 0xfb7d8b6d; 0xb6d96db6; 0xd81b7fb6; 0x5b6db01; 0xb6db603f; 0xffd006db; 0x6c00db6c;
   0x16db00; 0x36d8000; 0x24000000; 0x1c1c02; 0x492000; 0x12490000; 0x24; 0x92400924;
   0x92000000; 0x124924; 0x80924924; 0x1; 0x24924849; 0x24924012; 0x9249; 0x24949249;
   0x24086030; 0x92c9649; 0x4964b240; 0x82010092; 0x4b249492; 0x49240804; 0x2092492; 0x49492d92;
   0x4002f800; 0x924b2494; 0x92492400; 0x120; 0x90480000; 0x171c03; 0x2492012; 0x49000000;
   0x924904; 0x92490000; 0x249249; 0x24924809; 0x4012492; 0x49249240; 0x924; 0xb24964b2;
   0x40c06049; 0x25924924; 0x92000000; 0x49648249; 0x24800000; 0x2492402; 0xc9600092; 0x24900;
   0x2490000; 0x240; 0x0; 0x191c03; 0x12492004; 0x92480000; 0x124924; 0x84924920;
   0x249; 0x24929249; 0x24000400; 0x49249252; 0x49248120; 0x96496; 0x4a592691; 0xc03092c;
   0x92c94924; 0x92200001; 0x24924909; 0x25924000; 0x9249; 0x20259640; 0x2490002; 0x49200092;
   0x40000000; 0x90000; 0x1a1f00; 0x80000; 0xb000006; 0x58000b6d; 0x800364b0; 0x3c92e01;
   0x6db6c02c; 0x92d81f24; 0xbe05b25b; 0x1b24b60; 0x7c927836; 0xdb6d12db; 0x6d8017fb; 0x2492492;
   0x49249240; 0x6030012c; 0x96482492; 0x48000000; 0x496c900; 0x92c90000; 0x249; 0x24005964;
   0x24800; 0x9248000; 0x24800000; 0x80; 0x0; 0x191f00; 0x160000; 0xd80001e;
   0xc00036d8; 0x2c9600; 0x3e4be036; 0xdb602d92; 0xd81e493c; 0x16c96d85; 0x924b03c9; 0x27c2db6d;
   0xb0b6db64; 0xbff9049; 0x249292c9; 0x64806030; 0x964b242; 0x592c8000; 0x24b2; 0x40092490;
   0x100004; 0x9248012d; 0x90001240; 0x124800; 0x4900000; 0x48; 0x0; 0x191f00;
   0x180000; 0x16000059; 0xe0005b6c; 0xb25b00; 0x7927805b; 0x6db03649; 0x601f24bc; 0x1b64b616;
   0xc92d8fa4; 0x97cb6db6; 0xc2db6db1; 0x2ffec96d; 0xb6db4925; 0x922492c9; 0x2db6db29; 0x24924092;
   0x4900b6db; 0x6024b240; 0x12492016; 0xdb6004b6; 0xc8004920; 0x5b6c00; 0x12480001; 0x20000120;
   0x0; 0x1a1f00; 0x80000; 0xb000006; 0x58000b6d; 0x800364b0; 0x3c92e01; 0x6db6c02c;
   0x92d81f24; 0xbe05b25b; 0x1b24b60; 0x7c927836; 0xdb6d96db; 0x6db4bfff; 0x26db6db6; 0x5b6db6d2;
   0x793c9b6d; 0xb6d86db6; 0xd8092492; 0x5b6db00; 0xb6db6024; 0x924006db; 0x6c00db6c; 0x16d900;
   0xb6d8001; 0x6d800009; 0x20000090; 0x0; 0x1a1f00; 0x160000; 0x6c00007; 0xb00006db;
   0x2c960; 0x1f25f00; 0xdb6d805b; 0x25b01e49; 0x3c0b64b6; 0xc16492c0; 0x7924f82d; 0xb6db2db6;
   0xdb6bffff; 0xd9b6db6d; 0xb6dbedad; 0xf6fb66db; 0x6db05b6d; 0xb216df6c; 0x36db681; 0x6df6c01b;
   0x7db00db6; 0xd801befb; 0x2ffe00; 0x6db4000; 0xdb600016; 0xc0000160; 0x0; 0x191f00;
   0x180000; 0x16000059; 0xe0005b6c; 0xb25b00; 0x7927805b; 0x6db03649; 0x601f24bc; 0x1b64b616;
   0xc92d8fa4; 0x97c36db6; 0xc2db6d90; 0x2ffe4124; 0x92494925; 0x92008040; 0x24b25921; 0x24920000;
   0x92c9; 0x2024b240; 0x12; 0x492004b2; 0xc8004920; 0x492400; 0x12480000; 0x120;
   0x0; 0x171c04; 0x900000; 0x2492; 0x249200; 0x124; 0x90012490; 0x9].
Definition emoji_data_71 : list N :=
  [0x24800924; 0x80061800; 0x49240049; 0x24000200; 0x492000; 0x59000030; 0x24800; 0x2400000;
   0x1924b; 0x5925b1b; 0x60b66d92; 0xdb6d96d8; 0xdb6db36d; 0xb6d92492; 0x40000000; 0x181c04;
   0x120000; 0x124; 0x80049240; 0x9; 0x24900492; 0x40000000; 0x9259004; 0x93400083;
   0x92490; 0x4924004; 0x10400b2c; 0xb007b6c0; 0x7d3c003; 0x6d8001ff; 0xc001ff80; 0x96d9025;
   0x92482492; 0x485b6db6; 0x24964924; 0x9249db6d; 0xb6249249; 0x191d03; 0x2492004; 0x92400000;
   0x24924; 0x80924900; 0x49; 0x24901249; 0x20000000; 0x9249206; 0x49640330; 0x32032cb2;
   0xc0c92480; 0x60004024; 0xb2500924; 0x90000000; 0x96c000; 0x25900000; 0x1249; 0x2d96c0;
   0x92c924b6; 0xdb6c2db6; 0xdb124964; 0x96db6db4; 0x92492000; 0x171c04; 0x900000; 0x2492;
   0x249200; 0x124; 0x90012490; 0x9; 0x24800924; 0x80061800; 0x49240049; 0x24000200;
   0x492000; 0x590000b0; 0x24800; 0x2400000; 0x8001b25b; 0x5925b1b; 0x60b66d92; 0xdb6d96d8;
   0xdb6db36d; 0xb6d92492; 0x40000000; 0x181c04; 0x120000; 0x124; 0x80049240; 0x9;
   0x24900492; 0x40000000; 0x9259004; 0x93c00083; 0x92490; 0x4924000; 0x10000124; 0x80049240;
   0x1; 0x24800092; 0x0; 0x9249025; 0x92482492; 0x485b6db6; 0x24964924; 0x9249db6d;
   0xb6249249; 0x191d03; 0x2492004; 0x92400000; 0x24924; 0x80924900; 0x49; 0x24901249;
   0x20000000; 0x9249202; 0x49640030; 0x30012cb2; 0x492480; 0x24; 0xb2400924; 0x90000000;
   0x96c800; 0x25900000; 0x1249; 0x2d96c0; 0x92c924b6; 0xdb6c2db6; 0xdb124964; 0x96db6db4;
   0x92492000; 0x171c04; 0x900000; 0x2492; 0x249200; 0x124; 0x90012490; 0x249000b;
   0x6d80092c; 0x80165900; 0x5b6c8049; 0x24009240; 0x2db6002; 0x5b0000b2; 0x2d800; 0x2400004;
   0x8001b6db; 0x5925b1b; 0x64b66db6; 0xdb6d96d8; 0xdb6db36d; 0xb6d92492; 0x40000000; 0x181c04;
   0x120000; 0x124; 0x80049240; 0x9; 0x24900492; 0x40009200; 0xb6d9005; 0x93c00493;
   0x400b6db0; 0x4924004; 0x92400b6d; 0xb005b6c0; 0x793c003; 0x6d8001b6; 0xc000ff00; 0x96d9025;
   0xb6482492; 0x485b6db6; 0x24964924; 0x9249db6d; 0xb6249249; 0x181e02; 0x920000; 0x924;
   0x90049248; 0x49; 0x24902492; 0x48001000; 0x496c9024; 0x92480492; 0x401b6db0; 0x2d93c834;
   0x93481b6d; 0xb0049248; 0x492480b; 0x6db00492; 0x40009240; 0x16d8000; 0x92000012; 0x1b6db0;
   0x2db2d824; 0x9248db6d; 0xb66db6db; 0x2492c949; 0x24920000; 0x171c04; 0x490002; 0x49000000;
   0x124900; 0x12480004; 0x8000b6c8; 0xb6c009; 0x24902db6; 0xc02db6c0; 0x4b3c806d; 0xb6006db0;
   0x492001; 0x6d80016d; 0x80004800; 0x16c0003; 0x6000b249; 0x6db6d96; 0xdb6dadb2; 0xdbb6db6c;
   0xb6db6d6d; 0xb6d89249; 0x20000000; 0x181c04; 0x920002; 0x49000000; 0x49240; 0x2492000;
   0x480004b6; 0x4002db20; 0x2c9200d; 0xb6d816db; 0x60024920; 0x5b6c006; 0xdb600659; 0x6005b6c0;
   0x6db6003; 0xffc001b6; 0xc000db00; 0xff002d; 0xb6d812d9; 0x24124924; 0x6db6db92; 0x4b249249;
   0x24249249; 0x181e02; 0x920000; 0x924; 0x90049248; 0x49; 0x24902492; 0x48001000;
   0x496d9025; 0xb6c80492; 0x401b6db0; 0x2db7d83d; 0x93d81b6d; 0xb00db6d8; 0xc92580b; 0x6db005b6;
   0xc000b640; 0x16d8000; 0xb6000012; 0x1b6db0; 0x2db6d824; 0x9248db6d; 0xb66db6db; 0x2492c949;
   0x24920000; 0x171c04; 0x490002; 0x49000000; 0x124900; 0x12480005; 0x8000b6c8; 0xb6c00b;
   0x6d902db6; 0xc02fbec0; 0x5f7d806d; 0xb6006db0; 0xdfe001; 0x6da0016d; 0x8000f800; 0x16c0003;
   0x6000b6d9; 0x6db6d96; 0xdb6dadb6; 0xdbb6db6c; 0xb6db6d6d; 0xb6d89249; 0x20000000; 0x181c04;
   0x920002; 0x49000000; 0x49240; 0x2492000; 0x480004b6; 0x4002db20; 0x3dbe00d; 0xb7d816db;
   0xe007dbe0; 0x5b6c006; 0xdb6007ff; 0xe007bee0; 0x7ffe003; 0xffc001ff; 0xc000ff00; 0xff002d;
   0xb6d812d9; 0x24124924; 0x6db6db92; 0x4b249249; 0x24249249; 0x181e02; 0x920000; 0x924;
   0x90049248; 0x49; 0x24902492; 0x48009200; 0x496d9025; 0xb6c80fb6; 0xc01b6db0; 0x3df7d83d;
   0xf7d81b6d; 0xb03db6d8; 0xdbed80b; 0x6db005b6; 0xc001ffc0; 0x16d8000; 0xb600003e; 0x1b6db0;
   0x2db6d824; 0x9248db6d; 0xb66db6db; 0x2492c949; 0x24920000; 0x171c04; 0x490002; 0x49000000;
   0x124900; 0x12480000; 0x9248; 0x924000; 0x2496; 0x40259640; 0x2000024; 0x92002490;
   0x90001; 0x2d80012c; 0x80000000; 0x1200001; 0x2000b009; 0x6c92d96; 0xc96dadb2; 0xdbb6cb6c;
   0xb6db6d6d; 0xb6d89249; 0x20000000; 0x181c04; 0x920002; 0x49000000; 0x49240; 0x2492000;
   0x492; 0x40024920; 0x410005; 0x92c802c9; 0x20004100; 0x4924002; 0x49200208; 0x20049240;
   0x2492002; 0x49000092; 0x40004900; 0x49002d; 0x92d812c9; 0x24124924; 0x6db6db92; 0x4b249249;
   0x24249249; 0x181e02; 0x920000; 0x924; 0x90049248; 0x49; 0x24902492; 0x48000000;
   0x49249024; 0x92480000; 0x92590; 0x2493c800; 0x83080924; 0x90049248; 0x100009; 0x24900492;
   0x40009200; 0x12c8000; 0x92000000; 0x1b65b0; 0x2db2d824; 0x9248db6d; 0xb66db6db; 0x2492c949;
   0x24920000; 0x1d1d01; 0x90000; 0x240000; 0x4; 0x92490092; 0x49240000; 0x4924;
   0x92412492; 0x48000000; 0x924924; 0x82492490; 0x1; 0x24924924; 0x92592401; 0x80e01259;
   0x25924924; 0x92480000; 0x49249; 0x24124924; 0x80004800; 0x1249240; 0x4924800; 0x4920002;
   0x5b640009; 0x24900000; 0x92; 0x40000048; 0x0; 0x1c1d01; 0x90000; 0x2480000;
   0x124; 0x92400924; 0x92000000; 0x924924; 0x84924924; 0x9; 0x24924849; 0x24920000;
   0x9249; 0x24849649; 0x2401e0f0; 0x92c9649; 0x49249240; 0x92; 0x49248092; 0x49200004;
   0x12492; 0x40092492; 0x24800; 0x2db6400; 0x12490000; 0x4; 0x92000024; 0x80000000;
   0x1d1d01; 0x90000; 0x1240000; 0x49240025; 0xb6d90092; 0x49200492; 0x49005b6d; 0xb2092492;
   0x48092492; 0x40b2d92c; 0x2492490; 0x9249248b; 0x6db6db24; 0xb2592527; 0x93c916db; 0x6db64924;
   0x924a4924; 0x9225b6db; 0x64124924; 0x924920; 0xb6db6c0; 0x24924800; 0x24924002; 0xdb6c0009;
   0x6c800049; 0x240000b6; 0xc0000248; 0x0; 0x1d1e01; 0x92000; 0x16d8000; 0x9240005;
   0xb6d90096; 0xdb640092; 0x49005b6d; 0xb6416db6; 0xd8092492; 0x40b6db6c; 0x82cb64b0; 0x1249248b;
   0x6db6db2d; 0xb6db6d25; 0xd2f936db; 0x6db65b6d; 0xb6da4924; 0x924db6db; 0x6c16db6d; 0x80925924;
   0x36db6c0; 0xdb6d800; 0x25964002; 0xdb6d000b; 0x6db00009; 0x240000b6; 0xd80002db; 0x240].
Definition emoji_data_72 : list N :=
  [0x0; 0x1e1e01; 0x16c000; 0x16d8000; 0x7b7c001; 0x6db6c002; 0xdb6d800f; 0x6dbe025b;
   0x6db205b6; 0xdb6417fb; 0x7f80b6db; 0x6d8165b6; 0x580596d9; 0x6c6db6db; 0x6edbedf6; 0xcb7fb7fb;
   0x1b7db6db; 0xb6db6db0; 0xdb6db6c2; 0xdb6db605; 0xb6db6006; 0xdfed8016; 0xdb6c006d; 0xb6d800bf;
   0xff6001b6; 0xdb000b6d; 0xb0000db6; 0xc0002db6; 0x1b60; 0x400; 0x0; 0x1c1d01;
   0x90000; 0x2480000; 0x124; 0x92480924; 0x92000000; 0x124924; 0x84924924; 0x1;
   0x24924809; 0x24924000; 0x9249; 0x2494964b; 0x2401e0b0; 0x92c92c9; 0x49249240; 0x92;
   0x49249092; 0x49200004; 0x12492; 0x48092492; 0x24800; 0x25b6400; 0x12490000; 0x4;
   0x92000024; 0x80000000; 0x1c1f00; 0x40000; 0xd80000; 0x5b600012; 0xd9000124; 0x90006db6;
   0xc00b6db6; 0x924924; 0x36db6d85; 0xb6db6c49; 0x24924b6d; 0x96db5b24; 0x96c48000; 0x24b24925;
   0xb5964b2c; 0x41209043; 0x24924a49; 0x64b24006; 0x3041249; 0x64849249; 0x24000400; 0x124b248;
   0x9249200; 0x2480002; 0x5b640012; 0xd9000000; 0x492; 0x2480; 0x0; 0x1c1f00;
   0x90000; 0xb00000; 0x36c00005; 0xb6000249; 0x24005b6d; 0xb016db6d; 0x81249248; 0x2db6db63;
   0x6db6d812; 0x492486db; 0x2db6b649; 0x25b12000; 0x486c9249; 0x632c964a; 0x10402086; 0x49249632;
   0x49648104; 0x20824b2; 0x49212492; 0x48000900; 0x496490; 0x2492400; 0x900004; 0xb6c80025;
   0xb2400009; 0x924; 0x80000900; 0x0; 0x1a1f00; 0x40000; 0xb000005; 0xb00005b6;
   0x40012490; 0x5b6db01; 0xb6db6024; 0x9248b6db; 0x6d96db6d; 0xb4924926; 0xdb6db6db; 0x24b6d249;
   0x249b6db6; 0xdb2d92cb; 0x4924926d; 0xb6db649e; 0x4d2d2793; 0x49b6db6d; 0x92492490; 0x9249205b;
   0x6db0092c; 0x92024924; 0x16db6c0; 0x24b64001; 0x249000b6; 0xd8000248; 0x0; 0x1c2000;
   0x40000; 0xd80000; 0x5b600012; 0xdb000124; 0x90006db6; 0xc00b6db6; 0x924920; 0x36db6d85;
   0xb6db6c49; 0x24924b6d; 0xb6db5b6d; 0xb6c49249; 0x24b6db6d; 0xb5b6db6c; 0x49249243; 0x6db6da5b;
   0x6db6c496; 0x4b2436db; 0x6da5b6db; 0x6c092492; 0x16db6d8; 0xb6db600; 0x92d92006; 0xdb6c0036;
   0xdb600124; 0x90000db6; 0x2d80; 0x4000; 0x1c2000; 0x90000; 0xb00000; 0x36c00005;
   0xb6000249; 0x24005b6d; 0xb016db6d; 0x81249248; 0x2db6db63; 0x6db6d812; 0x4b2486db; 0x6db6b6db;
   0x6db12fbe; 0xc86db6db; 0x636db6da; 0x165b2f86; 0xdb6db636; 0xfb6da36f; 0xb7d86df6; 0xfb636db6;
   0xd816df6d; 0x80db6db0; 0x16db6d80; 0x6ffec005; 0xb6db002d; 0xb6c002df; 0x6c000b6d; 0x80005b60;
   0x9000; 0x1a1f00; 0x40000; 0xb000005; 0xb00005b6; 0x40012490; 0x5b6db01; 0xb6db6024;
   0x9248b6db; 0x6d96db6d; 0xb4924926; 0xdb65b6db; 0x2496d200; 0x9b2492; 0x5b2592cb; 0x41209064;
   0xb259249e; 0x4d2d0603; 0x92c964; 0x92492490; 0x400049; 0x6c900924; 0x92000920; 0x25b240;
   0x4b24000; 0x4000092; 0x48000248; 0x0; 0x1d1d01; 0x48000; 0x4b0000; 0x9240000;
   0x40000024; 0x92400492; 0x49000082; 0x24b64; 0x90092492; 0x40000000; 0x4924920; 0x92492480;
   0x49; 0x2cb24925; 0x93c9203e; 0x1e0092d9; 0x64924b25; 0x92000000; 0x249249; 0x924924;
   0x1fc000; 0x496d9201; 0x25f24000; 0xf800012; 0x59200049; 0x24000000; 0x90; 0x0;
   0x1f1d01; 0x8000; 0x16c000; 0x924000; 0x1200000; 0x25924000; 0x24924000; 0x1200009;
   0x25b24009; 0x24924000; 0x49; 0x24924049; 0x24920000; 0x124b; 0x2d92125f; 0x2c92003e;
   0x7c009259; 0x6c929249; 0x64900000; 0x9249; 0x24809249; 0x240001b8; 0x49659; 0x200496c9;
   0x20000780; 0x49648; 0x9240; 0x0; 0x9200; 0x0; 0x1f1d01; 0x9000;
   0x16d800; 0x924000; 0x1249000; 0x2db6d800; 0x25964800; 0x49249003; 0x6db6d809; 0x25924012;
   0x4924805b; 0x6db6c049; 0x24924092; 0x492486db; 0x6db6d24f; 0x2f92249e; 0x5f24b6db; 0x6db69259;
   0x64902492; 0x4920b6db; 0x6d80924b; 0x248124fe; 0x4801b65b; 0x6c009279; 0x200127d2; 0x4005b6db;
   0x9248; 0x2480; 0x9200; 0x0; 0x1f1d01; 0x16000; 0x2db000; 0x6db000;
   0x2492000; 0x1b6db000; 0x5b6db000; 0x92d92002; 0xdb6db006; 0xdb6db024; 0x924920b6; 0xdb6db0b6;
   0xdb6d8124; 0x92490db6; 0xdb6dadb7; 0xdf6dc93f; 0xbe496db6; 0xdb6c6db6; 0xdb6c4924; 0x92416db6;
   0xdb616db6; 0xdb0049fc; 0x92016db6; 0xd8016ff6; 0xc0024be4; 0x80036db6; 0x16db0; 0x4920;
   0x12c80; 0x0; 0x1f1e00; 0x8000; 0xfc000; 0x2d8000; 0x16d8000; 0x17db6000;
   0x5b6db000; 0xdb7da005; 0xbffb6016; 0xdb6da036; 0xdb6d806d; 0xbedb01b6; 0xdb6d85b6; 0xdb6d8b6f;
   0xb6db2db6; 0xdb6dedbe; 0xff6cdbfd; 0xfed96df6; 0xfb6f6df6; 0xdb62db6d; 0xb6c36db6; 0xdb036db6;
   0xd806dffd; 0xb00b6cf6; 0xd00b6df6; 0xc006dfec; 0xb6db6; 0xb6db0; 0x2db00; 0x16c00;
   0x0; 0x1f1d01; 0x9000; 0x165800; 0x124000; 0x200000; 0x4924800; 0x24924800;
   0x1040001; 0x25b24809; 0x24924000; 0x49; 0x24924049; 0x24924000; 0x24b; 0x2592524f;
   0x2f92001e; 0x1f009259; 0x2c929259; 0x24900000; 0x9249; 0x24809249; 0x240000fe; 0x9259;
   0x24009279; 0x200007c0; 0x9249; 0x9248; 0x0; 0x9200; 0x0; 0x161f01;
   0x40009; 0x24009248; 0x10012; 0x49202492; 0x4004; 0x92484924; 0x90000003; 0x24961249;
   0x24410410; 0xcb2ca492; 0x491a0004; 0x325969e4; 0x92c786cf; 0xd96587f; 0x25f0fc07; 0xc3649602;
   0xdb6441fc; 0x92cb6cbc; 0x17c95049; 0x4b2db2f; 0xc965410; 0x41000000; 0x181e02; 0x2492001;
   0x24800000; 0x124920; 0x9249000; 0x1249; 0x20092490; 0x16; 0x49200924; 0xb0098190;
   0x12cb2009; 0x24900024; 0x25920; 0x1248000; 0x2400025b; 0x12480; 0x0; 0x49000124;
   0x80010080; 0x32c92c59; 0x2496412c; 0x82b2db2d; 0xd9659640; 0x20000; 0x181f01; 0x400004;
   0x92400249; 0x20004000; 0x4924802; 0x49200040; 0x49248; 0x12492400; 0x2c92; 0x581e493c;
   0x1841182c; 0x925812c9; 0x28100000; 0xc925802; 0x49200000; 0x4b640; 0x490000; 0x92;
   0x24900; 0x12010025; 0x92c83249; 0xc905904; 0x65b6cbb2; 0xcb0d1041; 0x4000000; 0x161f01;
   0x40009; 0x24009248; 0x10012; 0x49202492; 0x4004; 0x92484924; 0x90000001; 0x24920249;
   0x24010400; 0x4b2c8092; 0x49004100; 0x12592024; 0x924006c0; 0x4964809; 0x24900000; 0x1249202;
   0xdb6441fc; 0x92cb6cbc; 0x17c95049; 0x4b2db2f; 0xdb65410; 0x41000000; 0x182000; 0x240000;
   0x12000002; 0x92490; 0x4924000; 0x2000924; 0x90049240; 0x20009; 0x24902492; 0x48000000].
Definition emoji_data_73 : list N :=
  [0x9259004; 0x93400083; 0x92490; 0x4924000; 0x10000124; 0x80009240; 0x920001; 0x24800092;
   0x1200; 0x9249024; 0x92482082; 0x48596596; 0x6192cb20; 0x9209d96d; 0x96209209; 0x192000;
   0x480000; 0x12000000; 0x4924; 0x124800; 0x49; 0x24801249; 0x20000000; 0x9249202;
   0x49240000; 0x12492; 0x492c80; 0x7860025; 0x96400924; 0x90001200; 0x964800; 0x24900002;
   0x400012c8; 0x9000; 0x2; 0xc9200492; 0x48004020; 0x16596585; 0x92c96209; 0x2412cb6c;
   0xb6824904; 0x172000; 0x240001; 0x20000200; 0x492400; 0x49240010; 0x24924; 0x2492000;
   0x80009249; 0x20924921; 0x200205b2; 0x4b0492cb; 0x965922d; 0xb6d82492; 0x586924f1; 0x6db6c165;
   0xb6c3cb2f; 0xb6db60b; 0x24b41248; 0x200b6d90; 0x4bfcb093; 0xe8265b6c; 0xb64b2184; 0x124132db;
   0x65904904; 0x182000; 0x240000; 0x12000002; 0x92490; 0x4924000; 0x2000924; 0x90049240;
   0x20009; 0x24902492; 0x48040000; 0xb65b00d; 0x93c00493; 0x400b6db0; 0x4924004; 0x9240036d;
   0x80009240; 0x924001; 0x6d800092; 0x9200; 0x96d9024; 0x92482092; 0x48596d96; 0x6192cb20;
   0x9209d96d; 0x96209209; 0x192000; 0x480000; 0x12000000; 0x4924; 0x124800; 0x49;
   0x24801249; 0x20000000; 0x9249202; 0x49240100; 0x2016c96; 0xc0cb2c80; 0x6796402d; 0xb6d00924;
   0x90049248; 0x1b6d800; 0x24900012; 0x480016d8; 0x9200; 0x480002; 0xdb200492; 0x48004920;
   0x165b6585; 0x92c96209; 0x2412cb6c; 0xb6824904; 0x172000; 0x240001; 0x20000200; 0x492400;
   0x49240010; 0x24924; 0x2492000; 0x80009249; 0x20924901; 0x200285b6; 0xdb05b6db; 0x965962d;
   0xb6d82db6; 0xd87964f1; 0x6db6c16d; 0xb6c3cb2f; 0x8b6db60f; 0x6dbc1649; 0x200b6d90; 0x4bfcb093;
   0xe8265b6c; 0xb64b2184; 0x124132db; 0x65904904; 0x182000; 0x240000; 0x12000002; 0x92490;
   0x4924000; 0x2000924; 0x90049240; 0x20009; 0x24902492; 0x48040040; 0xb6db00d; 0xb7d80593;
   0xc00b6db0; 0x5b6c004; 0x9240036d; 0xa005b6c0; 0xb64001; 0x6d8000b6; 0x9200; 0x16d8024;
   0xb6482092; 0x48596d96; 0x6192cb20; 0x9209d96d; 0x96209209; 0x192000; 0x480000; 0x12000000;
   0x4924; 0x124800; 0x49; 0x24801249; 0x20000000; 0x9249202; 0x49240320; 0x2016db6;
   0xc0db6d80; 0x679e402d; 0xb6d00b6d; 0xb0049248; 0x1b6d801; 0x6db00016; 0xc80016d8; 0x5b600;
   0x480002; 0xdb2004b6; 0xc8004920; 0x165b6585; 0x92c96209; 0x2412cb6c; 0xb6824904; 0x172000;
   0x240001; 0x24000200; 0x492400; 0x49240010; 0x24924; 0x2492000; 0x80009249; 0x20924921;
   0x2012c7b6; 0xdb05b6db; 0xbfff62d; 0xb6d87db6; 0xf87bfdf1; 0xedb6c1ed; 0xb7c3ffff; 0x8fedbe0f;
   0xedbc1e7f; 0x700b6d90; 0x4bfcb093; 0xe8265b6c; 0xb64b2184; 0x124132db; 0x65904904; 0x182000;
   0x240000; 0x12000002; 0x92490; 0x4924000; 0x2000924; 0x90049240; 0x20009; 0x24902492;
   0x48048040; 0xb6db00d; 0xf7d80df7; 0xd80b6db0; 0x5b6c005; 0xbec0036d; 0xa005b6c0; 0x1ffc001;
   0x6d8000b6; 0xfe00; 0x96d9024; 0xb64820b6; 0x48596d96; 0x6192cb20; 0x9209d96d; 0x96209209;
   0x192000; 0x480000; 0x12000000; 0x4924; 0x124800; 0x49; 0x24801249; 0x20000000;
   0x9249202; 0x49240320; 0x1301edb7; 0xc0df6dc0; 0x7fbee03d; 0xb6d01b6d; 0xb007bed8; 0x1b6d801;
   0x6db6003f; 0xf80016d8; 0x5b600; 0xfc0002; 0xdb2004b6; 0xc8004b20; 0x165b6585; 0x92c96209;
   0x2412cb6c; 0xb6824904; 0x172000; 0x240001; 0x20000200; 0x492400; 0x49240010; 0x24924;
   0x2492000; 0x80009249; 0x20924901; 0x492; 0x49049249; 0x8618024; 0x92482492; 0x48402081;
   0x24924125; 0x92024b04; 0x9249209; 0x24900200; 0x200b6d90; 0x4bfcb093; 0xe8265b6c; 0xb64b2184;
   0x124132db; 0x65904904; 0x182000; 0x240000; 0x12000002; 0x92490; 0x4924000; 0x2000924;
   0x90049240; 0x20009; 0x24902492; 0x48000000; 0x9259004; 0x93400083; 0x92490; 0x4924000;
   0x10000124; 0x80009240; 0x920001; 0x24800092; 0x0; 0x9249024; 0x92482082; 0x48596596;
   0x6192cb20; 0x9209d96d; 0x96209209; 0x192000; 0x480000; 0x12000000; 0x4924; 0x124800;
   0x49; 0x24801249; 0x20000000; 0x9249202; 0x49240100; 0x2012492; 0x40492c80; 0x27064025;
   0x96400924; 0x90040008; 0x964800; 0x24900002; 0x400012c8; 0x9000; 0x2; 0x49200492;
   0x48004020; 0x16596585; 0x92c96209; 0x2412cb6c; 0xb6824904; 0x1c1f01; 0x24000; 0x1240001;
   0x2d900009; 0x24800492; 0x4800b6db; 0x600fffff; 0x3fffff8; 0x5b6db6c3; 0xfffffe7f; 0xffdfe5b6;
   0xd96c7fb2; 0x4be7c000; 0x3ed92492; 0xd7492496; 0x70c0606d; 0x964b2d64; 0xf2696700; 0x40fd92d;
   0x92d74964; 0x9e780001; 0xed92492d; 0x7c96cbe7; 0xc1f43edb; 0x2496d7f9; 0x24fe7f80; 0x1fe5b041;
   0x6c200001; 0x0; 0x1c1e01; 0x240000; 0x2480000; 0x49200012; 0x49000124; 0x90002492;
   0x40092492; 0x0; 0x12492480; 0x92492400; 0x124; 0x92484924; 0x92400000; 0x924924;
   0x94924924; 0x603009; 0x2c964949; 0x64b24002; 0x100924b; 0x24949249; 0x24000400; 0x9259249;
   0x492d9240; 0x2f80092; 0x4b249492; 0x49240000; 0x12090; 0x48000000; 0x1c1f01; 0x492000;
   0x2480000; 0x90002c; 0x9240036d; 0xb600ffff; 0xe016db6d; 0x81b6db6c; 0x1fffffc3; 0x6db6d85b;
   0x6db6c7ff; 0xc97eb6db; 0x6db5b249; 0x2c792492; 0xeb6db6db; 0xd964b2d7; 0x964b2fb6; 0xdb6dbd96;
   0x4b2d7924; 0x92fb6db6; 0xdbd92492; 0xd792493e; 0xb6db6dbd; 0xb2d96c7f; 0x2497eb6d; 0xb6db5b24;
   0x96c78000; 0x3c300000; 0x80000000; 0x1c1f01; 0x24000; 0x4920000; 0x49200049; 0x258002db;
   0x6c007fff; 0xe00db6db; 0x16db6d8; 0x3fffff82; 0xdb6db636; 0xdb6da7ff; 0xf2fe6db6; 0xdb6b6db6;
   0xdbfa4925; 0xf6db6db6; 0xb6db6dbf; 0x2c964f6d; 0xb6db6b6d; 0xb6dbf24b; 0x24f6db6d; 0xb6b6db6d;
   0xbfe5925f; 0x6db6db6b; 0x6db6dbfe; 0x4b2ff6db; 0x6db6b6db; 0x2da7e090; 0x5c240001; 0x60000000;
   0x1d1f01; 0x240000; 0x920000; 0x24000002; 0x5b24005b; 0x6da007ff; 0xff807fff; 0xfe07ffff;
   0xf03fffff; 0xc3fffffe; 0x1ffff7f8; 0xffffbfcf; 0xf6db7f3f; 0xdb6df3f6; 0xdb6fdf6d; 0xb6de7df6;
   0xfbe7efb7; 0xdfbedb6d; 0xbefb6db7; 0xefdbfdbf; 0x7db6db79; 0xf6db6f9f; 0xb7fb7efb; 0x6db7f3fd;
   0xb6ff1fef; 0xf7f9fedb; 0x7fc7fb6d; 0xfe3e0105; 0xf160000b; 0x0; 0x1c1f01; 0x492000;
   0x2480000; 0x90002c; 0x92400124; 0x92001249; 0x20124924; 0x80924920; 0x9249241; 0x24924849;
   0x24924492; 0x40249249; 0x24949249; 0x24480000; 0x49249249; 0x4964b244; 0x6030492; 0x49649492;
   0x49244004; 0x4924b2; 0x49492492; 0x44820824; 0x925b6494; 0x92d92449; 0x4024924; 0x92494924].
Definition emoji_data_74 : list N :=
  [0x92448000; 0x24100000; 0x80000000; 0x1f1e01; 0x6186080; 0x79e000; 0xffc000; 0xb6db6d81;
   0x96db6e03; 0xa7fe5805; 0xb6db6c0f; 0x96d9f87f; 0x2ff7f96d; 0xb6db6bfd; 0xb6dfe3ff; 0xffffc36d;
   0xb6db0f2d; 0xb65f1e59; 0xeebe5b2d; 0x96dafb2d; 0x92f9fedf; 0x2ffadb6d; 0xb6d2db6d; 0xb7c7ffff;
   0xff96db6d; 0xb6bec964; 0xbf7f9ed9; 0xfeb65b65; 0xb69ecb2f; 0x903fbe7f; 0xb6db6d; 0xb6db6c;
   0x49200; 0x0; 0x1d2000; 0x492480; 0xdb6db00; 0xf6df6c07; 0xffffe01b; 0x6db6817d;
   0xbed809ff; 0xd7c016db; 0x2d001fe0; 0xb0007c07; 0x8025b25a; 0x4b6c160; 0x23be0f12; 0xdb65b6db;
   0x6c96d249; 0x2dfe6db6; 0xdb6db6db; 0x6d84b6ff; 0xfc036db6; 0xd03f96fb; 0x1e017f8; 0x6492d80;
   0x7924b600; 0xb07f004; 0xb65b0016; 0xd96000bf; 0xdf00036d; 0xb0000db6; 0xc0003ff0; 0x5b00;
   0x1d1d01; 0x90000; 0x1240000; 0x0; 0x92400012; 0x49000000; 0xb24; 0x90003c92;
   0x4001f8b0; 0x416cb20; 0x10cb3c80; 0x2702009; 0x2d924024; 0x92490000; 0x1000124b; 0x6492493f;
   0x924003fc; 0x4b6d9; 0x2412ff24; 0x901ff800; 0x96d9208; 0x25f24020; 0x7800012; 0x49241249;
   0x24800000; 0x12492; 0x40048240; 0x0; 0x1d1f01; 0x492400; 0x9009000; 0x40008004;
   0x2010002; 0xd900001f; 0xf800096d; 0xb2002492; 0x40032493; 0x36db6c; 0x3ffeff0; 0x1ff87f81;
   0x6d92d807; 0xf24fe03e; 0x1f02c9; 0x24b41f2c; 0x93c06066; 0x6059659; 0x20124925; 0x80800004;
   0x1249240; 0x4924800; 0x1f00092; 0x4b249249; 0x24924000; 0x12492; 0x49209201; 0x24000000;
   0x80012; 0x0; 0x1e1f01; 0x924800; 0x1001000; 0x20000001; 0x4002; 0x9008008;
   0x20049; 0x24900092; 0x49000049; 0x24001249; 0x24002492; 0x48000000; 0x49249; 0x92492;
   0x0; 0x1249248; 0x2596480; 0x218000; 0x496c9200; 0x92492000; 0x12; 0x49240024;
   0x92400003; 0xf8002496; 0xc9264924; 0x92400000; 0x92492; 0x49124824; 0x90000000; 0x480010;
   0x0; 0x1d1f01; 0x492000; 0x8008000; 0x8004; 0x12080082; 0xd820043f; 0xf9000b6d;
   0x90002492; 0x40032496; 0xb6db6c; 0x2db6d80; 0x3ff97f01; 0x6db6d80d; 0xb25b607c; 0x927f06db;
   0x6db0193d; 0x96c0c9a4; 0x9e05b6db; 0x60324925; 0x924920; 0x36db600; 0x4b64800; 0x27f24092;
   0xdb6c9249; 0x24924009; 0x24012492; 0x49249209; 0x24000000; 0x80010; 0x0; 0x1d1f01;
   0x492400; 0x9009000; 0x40008004; 0x2010002; 0xd900001f; 0xf800096d; 0xb2002492; 0x40032493;
   0x36db6c; 0x2db6fb0; 0x1ff97f81; 0x6db6d805; 0xb6db603f; 0x925f02db; 0x6db41b6d; 0xb6c07967;
   0x9605b6db; 0x6016db6d; 0x80924924; 0x16db6c0; 0xdb6d800; 0x25fa4092; 0xdb6c924b; 0x6d924009;
   0x24012496; 0xc9209201; 0x24000000; 0x80012; 0x0; 0x1e1f01; 0x924800; 0x1001000;
   0x20000001; 0x804002; 0x1fe08009; 0xffe2004b; 0x7d900092; 0x49000349; 0x27801edb; 0x7c007fff;
   0xf803ffff; 0xf00ff6df; 0xe07fedff; 0x81fdb7fe; 0x3edb6f8; 0x1edb6fe0; 0x7b7fbf00; 0xdbedbe03;
   0xb6db7006; 0xdb6d8016; 0xdb6c002d; 0xb6d800f7; 0xfb8025b6; 0xdb264b6d; 0xb24005fe; 0x925b2;
   0x49124824; 0x90000000; 0x480010; 0x0; 0x1d1f01; 0x492000; 0x8008000; 0x8004;
   0x80082; 0x48200412; 0x41000924; 0x90002492; 0x40012492; 0x124920; 0x2492480; 0x12482401;
   0x24924804; 0x92492024; 0x480249; 0x24900924; 0x92404184; 0x10049659; 0x20124924; 0x0;
   0x1249200; 0x4924800; 0x5f00092; 0x4b249249; 0x24924000; 0x12492; 0x49249209; 0x24000000;
   0x80010; 0x0; 0x1d1f01; 0x492000; 0x1248000; 0x4; 0x92490092; 0x49240000;
   0x4924; 0x92412492; 0x48080000; 0x40b2492c; 0x97c925f2; 0x3fc03fc9; 0x6d92db2f; 0xfa5fe43f;
   0xf3ff12db; 0x2db24bfc; 0xffc80fe7; 0xf004b65b; 0x2412f9e4; 0x80024900; 0x9249240; 0x24924900;
   0x900002; 0x5b648009; 0x7c900001; 0x20000092; 0x48000048; 0x0; 0x400; 0x0;
   0x201d02; 0xc1000; 0xc1000; 0x82000; 0x402c9200; 0x407ffe03; 0x80db6d82; 0x416db683;
   0x43ffffc3; 0x82db6d82; 0x436db6c3; 0x43e183c3; 0x82c34582; 0x436186c3; 0x1be183d8; 0x36c345b4;
   0x36186c0; 0x3e597c0; 0x2db6d80; 0x36db6c0; 0x3ffffc0; 0x2db6d80; 0x6c1600; 0x7c1e00;
   0x582c00; 0x6c1600; 0x1000040; 0x2c00180; 0x30000c0; 0x1000040; 0x1f1f01; 0x6016d80d;
   0x20924824; 0x4924924b; 0x6db6db61; 0x24924922; 0x4924924b; 0x6db6db09; 0x24924812; 0x4924905b;
   0x6db6d84b; 0x64b6489f; 0xc9fc96db; 0x6db6d25b; 0x6db26497; 0xdf24b6db; 0x6db6925b; 0x6c9224ba;
   0x7925b6db; 0x6db09249; 0x24912492; 0x4925b6db; 0x6d8496db; 0x24092ffe; 0x480db6db; 0x6004b259;
   0x20092492; 0xdb6d8; 0x49240; 0x12480; 0x9000; 0x0; 0x1c1d02; 0x2492400;
   0x12492000; 0x124; 0x92480924; 0x92401001; 0x16c92c; 0x84be4be4; 0xff0ff09; 0x6d96d95f;
   0xf4ffc0ff; 0xff096d9; 0x6d94fe4f; 0xe40be0be; 0x9249249; 0x49249240; 0x400092; 0x5b249492;
   0xf924000d; 0x80012492; 0x48092492; 0x0; 0x2492400; 0x10410000; 0x24; 0x92400104;
   0x10000000; 0x1f2000; 0x9000; 0x3fc80; 0x2db6c0; 0x7fffc0; 0x3ffff80; 0xb6db680;
   0xfffbe00; 0x3ff87c00; 0x5b64b400; 0xff24b001; 0xf2006002; 0xc924a006; 0x59258004; 0x30432496;
   0x49250492; 0x492c0120; 0x101805b2; 0x49680dd2; 0x496009c4; 0x93c02d96; 0xcb006f92; 0x5f004fe0;
   0xfe016d92; 0xd8036d92; 0xd8024b04; 0x900b6d96; 0xd81b6db6; 0xc012cb65; 0x805b6db6; 0xc0db6db6;
   0x924924; 0x201f01; 0x1600; 0x16d80; 0x5ffc0; 0x7fff0; 0xb6db0; 0xffff8;
   0xffff8; 0x1b6db0; 0xd9258; 0xc1018; 0x92590; 0x492c8; 0x8380; 0x92492490;
   0x9249240; 0x1201000; 0x2d12490; 0x1609240; 0x1201200; 0x2d12c80; 0x1609200; 0x1200000;
   0x2d92490; 0x16d92d8; 0x1248248; 0x2db65b6; 0x16db6db; 0x12c9259; 0x2db6db6; 0x16db6db;
   0x1249248; 0x1d1f01; 0xb000; 0x5b6000; 0x3fff000; 0x7fff8005; 0xb6db003f; 0xfff801ff;
   0xcfc01b6c; 0xb6007d92; 0xf0032003; 0x8032492c; 0xcb2ca0; 0x6706049; 0x24925924; 0x92490024;
   0x20806c9; 0x24805924; 0x90004024; 0xd92d8; 0xb00900; 0x800000; 0x1b249201; 0x6d925901;
   0x24024836; 0xd96d82db; 0x65b60249; 0x24906db6; 0xdb05b6db; 0x6c008001; 0x20000000; 0x1f1e02;
   0x92490; 0x92480; 0x0; 0x492480; 0x2492480; 0x0; 0x12492400; 0x12492400;
   0x0; 0x92492000; 0x96492040; 0xc100924; 0x92490124; 0x92490048; 0x4000164; 0x92480364;
   0x924802c1; 0x24000b25; 0xb2401b24; 0x92401600; 0x5924; 0x9200db64; 0xb60096c1; 0x6c02db65].
Definition emoji_data_75 : list N :=
  [0xb606db6d; 0xb004b2d9; 0x6016db6d; 0xb036db6d; 0x80249249; 0x0; 0x201e02; 0x12480;
   0x9240; 0x0; 0x92490; 0x49248; 0x0; 0x92490; 0x49248; 0x0;
   0x92590; 0x493c8; 0x8380; 0x92492590; 0x9249240; 0x1201000; 0x2d12490; 0x1649240;
   0x1209200; 0x2d16c80; 0x1609200; 0x1200000; 0x2d92490; 0x16d92d8; 0x1248248; 0x2db65b6;
   0x16db6db; 0x12c9259; 0x2db6db6; 0x16db6db; 0x1249248; 0x1d1e02; 0x92400; 0x249000;
   0x0; 0x92490002; 0x49240000; 0x124; 0x92400492; 0x48000000; 0x25924; 0x80096590;
   0xe0c09; 0x24b24924; 0x92492004; 0x24000d9; 0x24900b04; 0x92000804; 0x8001b25b; 0x160124;
   0x100000; 0x3649240; 0x2db25b20; 0x24904906; 0xdb2db05b; 0x6cb6c049; 0x24920db6; 0xdb60b6db;
   0x6d801000; 0x24000000; 0x1f2000; 0x9000; 0x3fc80; 0x2db6c0; 0x6db6c0; 0x3ffff80;
   0xb6db600; 0xb6db600; 0x1ff97c00; 0x5b6db400; 0xdb24b001; 0xb2496002; 0xdb6da006; 0x59258104;
   0xb24b2db6; 0xdb6d2492; 0x492c0124; 0x925805b6; 0xdb680db2; 0x496009e4; 0xb3c02db6; 0xdb006d92;
   0x5b004fe4; 0xfe016db6; 0xd8036d92; 0xd8024b24; 0x900b6db6; 0xd81b6db6; 0xc012cb65; 0x805b6db6;
   0xc0db6db6; 0x924924; 0x201f01; 0x1200; 0x16d80; 0x1b6c0; 0x7ffe0; 0xb6db0;
   0xdb6d8; 0xffff8; 0xb6db0; 0xd9258; 0xc9258; 0x1b6db0; 0xc93c8; 0x104d3c8;
   0xb6cb6db0; 0x9249240; 0x1249240; 0x2db6db0; 0x1649240; 0x1209240; 0x2d16d80; 0x1609200;
   0x1201200; 0x2d92c90; 0x16d92d8; 0x1249248; 0x2db6db6; 0x16db6db; 0x12c9259; 0x2db6db6;
   0x16db6db; 0x1249248; 0x1e1f01; 0x4800; 0x16d800; 0x6db600; 0x7fff800; 0x2db6d800;
   0xdb6d8003; 0xff9f801b; 0x6db60036; 0xc96800c9; 0x24e006db; 0x6d800cb2; 0xca0433cb; 0x236db6db;
   0x624b2492; 0x1249248; 0x36db6c0; 0x16492480; 0x8249000; 0xd96d8005; 0x80490002; 0x1200036;
   0x4b24016d; 0x92d90092; 0x49240db6; 0xdb605b6c; 0xb6c02492; 0x49036db6; 0xd816db6d; 0xb0010002;
   0x40000000; 0x1f2000; 0x9000; 0x3fc80; 0x2db6c0; 0x6db6c0; 0x3ffff80; 0xb6db600;
   0xb6db600; 0x1ffd7c00; 0x5b6db400; 0xdb6db001; 0xf6496002; 0xdb6da006; 0xdb6d812c; 0xb26b2db6;
   0xdb6d2db6; 0xdb6c0924; 0xb25805b6; 0xdb680db6; 0xdb6009e5; 0xb3c02db6; 0xdb006db6; 0xdb004fe4;
   0xfe016db6; 0xd8036db6; 0xd8024b24; 0x900b6db6; 0xd81b6db6; 0xc012cb25; 0x805b6db6; 0xc0db6db6;
   0x924924; 0x201f01; 0x1600; 0x16d80; 0x5b6c0; 0x7ffe0; 0xb6db0; 0xdb6d8;
   0xffff8; 0x1b6db0; 0xdb6d8; 0xc9258; 0x1b6db0; 0xdb6d8; 0x4924d3c8; 0xb6db6db0;
   0xb65b6d0; 0x1249240; 0x2db6db0; 0x165b6c0; 0x120b640; 0x2d16d80; 0x160b600; 0x1201200;
   0x2d92c90; 0x16db6d8; 0x1249248; 0x2db6db6; 0x16db6db; 0x12c9259; 0x2db6db6; 0x16db6db;
   0x1249248; 0x1e1f01; 0x4800; 0x16d800; 0x6db600; 0x7fff800; 0x2db6d800; 0xdb6d8003;
   0xffdf801b; 0x6db60036; 0xdb6800c9; 0x24e006db; 0x6d800df6; 0xda04b3cb; 0x336db6db; 0x62db6db6;
   0x12c9648; 0x36db6c0; 0x165b6d80; 0x82d9000; 0xd96db005; 0x80db0002; 0x1200036; 0x4b64016d;
   0xb6d90092; 0x49240db6; 0xdb605b6d; 0xb6c02492; 0x49036db6; 0xd816db6d; 0xb0010002; 0x40000000;
   0x1f2000; 0xb000; 0xffd80; 0x3fffc0; 0x7fffc0; 0x3ffff80; 0xbffbf80; 0xffffe00;
   0x3ffffc00; 0x7fedfc00; 0xffedf001; 0xffdbe003; 0xdb6de007; 0xdb7d892f; 0xfeff2db6; 0xdb6f2dbe;
   0xdb6c0b7d; 0xfef805b6; 0xdb780df6; 0xdbe009ef; 0xf7c02db6; 0xdf806ff6; 0xdf004fed; 0xfe016db6;
   0xd8036db6; 0xd802497c; 0x900b6db6; 0xd81b6db6; 0xc012c925; 0x805b6db6; 0xc0db6db6; 0x924924;
   0x201f01; 0x3e00; 0x1ff80; 0x7ffc0; 0x7fff0; 0xffff0; 0xffff8; 0xffff8;
   0x1fffb8; 0xfbed8; 0xfbef8; 0x1b6db0; 0xdf7d8; 0x4b2df7d8; 0xb6db6db0; 0x5b65b6d0;
   0x365bed0; 0x2db6db0; 0x165b6c0; 0x121ffc0; 0x2d16d80; 0x160b600; 0x1203600; 0x2d92c90;
   0x16db6d8; 0x124b648; 0x2db6db6; 0x16db6db; 0x12c9259; 0x2db6db6; 0x16db6db; 0x1249248;
   0x1e1f01; 0xf800; 0x17f800; 0x7ffe00; 0x7fff800; 0x3ffff800; 0xffffe003; 0xffff801f;
   0xfdbe003f; 0xdb7c01ff; 0x6de007db; 0x6d800df6; 0xde0cb7df; 0x736db6db; 0x62db6db7; 0x16fbedc;
   0x36db6d0; 0x165b6d80; 0x87ff000; 0xd96db005; 0x82db0002; 0x1600036; 0x4b64016d; 0xb6d90092;
   0x79240db6; 0xdb605b6d; 0xb6c02492; 0x49036db6; 0xd816db6d; 0xb0010002; 0x40000000; 0x1d2000;
   0x12000; 0x249000; 0x1249000; 0x12492002; 0x49240012; 0x49200124; 0x92400492; 0x49002480;
   0x40024924; 0x80092492; 0x400400; 0x4b24904; 0x92cb2400; 0x80081249; 0x24920924; 0x92484900;
   0x8201b249; 0x2416c964; 0x90920f04; 0x3649248; 0x2d924901; 0x24804806; 0xdb25b05b; 0x6cb6c249;
   0x25920db6; 0xdb60b6db; 0x6d849249; 0x641b6db6; 0xc0249249; 0x1c1f01; 0x48000; 0x490000;
   0x49240002; 0x49200024; 0x92000492; 0x48002492; 0x24920; 0x492480; 0x12492000; 0x4100004;
   0x92c8412c; 0x92000041; 0x924924; 0x924920; 0x9008001; 0x6492401b; 0x24920090; 0x49001609;
   0x2001b008; 0x90000; 0x16d92d8; 0x1b6c96c0; 0x92412416; 0xdb6db1b6; 0xdb6c0964; 0x92c16db6;
   0xdb092492; 0x40000000; 0x1d1f01; 0x8000; 0x248000; 0x2492000; 0x49240002; 0x49240024;
   0x92400092; 0x49000490; 0x48004924; 0x80092492; 0x10010; 0x965900; 0x92496400; 0x2002249;
   0x24920124; 0x92480900; 0x8000b249; 0x2402c124; 0x80120120; 0x1681240; 0x5804800; 0x24000002;
   0xdb65b60b; 0x6c96c049; 0x209205b6; 0xdb6c16db; 0x6db09249; 0x240b6db6; 0xd8249249; 0x0;
   0x122000; 0xb6c03ff; 0x83ffe16d; 0xb67fff9f; 0xffe5b6d9; 0xfffe7fff; 0x96db67ff; 0xf9fffe5b;
   0x6d9fffe7; 0xfff96db6; 0x64928984; 0xc5b25892; 0x48208316; 0x5963c960; 0x2405b2c; 0x9fedf7ff;
   0xf96db66d; 0xb6dfeffd; 0xb6d89249; 0x142000; 0x36c00ff; 0xe00fff01; 0xb6d83fff; 0xc3fffc1b;
   0x6d83fffc; 0x3fffc1b6; 0xd83fffc3; 0xfffc1b6d; 0x83fffc3f; 0xffc1b6d8; 0x2592c219; 0x84192c80;
   0x49200402; 0x124000; 0x92000900; 0x12402d9; 0x6c7fbfed; 0xb6db6db6; 0xdff9ffdb; 0x6db24924;
   0x142000; 0x2d800ff; 0xf00fff81; 0x6db01fff; 0x81fff836; 0xdb41fff8; 0x1fff836d; 0xb41fff81;
   0xfff836db; 0x41fff81f; 0xff836db4; 0x192c8190; 0xc8124901; 0x92580820; 0x649001; 0x24001200;
   0x24805b2; 0xd87fffc3; 0x6db65b6d; 0xb7fbffb6; 0xdb649249; 0x122000; 0xb6c03ff; 0x83ffe16d;
   0xb67fff9f; 0xffe5b6d9; 0xfffe7fff; 0x96db67ff; 0xf9fffe5b; 0x6d9fffe7; 0xfff96db6; 0x64920984].
Definition emoji_data_76 : list N :=
  [0x84b24892; 0x48008202; 0x59004920; 0x2405b2c; 0x9fedf7ff; 0xf96db66d; 0xb6dfeffd; 0xb6d89249;
   0x142000; 0x36c00ff; 0xe00fff01; 0xb6d83fff; 0xc3fffc1b; 0x6d83fffc; 0x3fffc1b6; 0xd83fffc3;
   0xfffc1b6d; 0x83fffc3f; 0xffc1b6d8; 0x2592c219; 0x84192c80; 0x49200402; 0x124004; 0xb2000900;
   0x12402d9; 0x6c7fbfed; 0xb6db6db6; 0xdff9ffdb; 0x6db24924; 0x142000; 0x2d800ff; 0xf00fff81;
   0x6db01fff; 0x81fff836; 0xdb41fff8; 0x1fff836d; 0xb41fff81; 0xfff836db; 0x41fff81f; 0xff836db4;
   0x92c8090; 0xc8124900; 0x92400820; 0x249001; 0x24001200; 0x24805b2; 0xd87fffc3; 0x6db65b6d;
   0xb7fbffb6; 0xdb649249; 0x122000; 0xb6c03ff; 0x83ffe16d; 0xb67fff9f; 0xffe5b6d9; 0xfffe7fff;
   0x96db67ff; 0xf9fffe5b; 0x6d9fffe7; 0xfff96db6; 0x65b289a4; 0x85b6d892; 0x48249216; 0xdb42db60;
   0x2405b6c; 0x9fedf7ff; 0xf96db66d; 0xb6dfeffd; 0xb6d89249; 0x142000; 0x36c00ff; 0xe00fff01;
   0xb6d83fff; 0xc3fffc1b; 0x6d83fffc; 0x3fffc1b6; 0xd83fffc3; 0xfffc1b6d; 0x83fffc3f; 0xffc1b6d8;
   0x2596c259; 0xac1b6d80; 0x4b200492; 0x36c004; 0xb2000900; 0x16c02d9; 0x6c7fffed; 0xb6db6db6;
   0xdff9ffdb; 0x6db24924; 0x142000; 0x2d800ff; 0xf00fff81; 0x6db01fff; 0x81fff836; 0xdb41fff8;
   0x1fff836d; 0xb41fff81; 0xfff836db; 0x41fff81f; 0xff836db4; 0x1b2d8192; 0xc816db00; 0x92580924;
   0x6db001; 0x64001200; 0x2d805b2; 0xd87fffc3; 0x6db65b6d; 0xb7fbffb6; 0xdb649249; 0x122000;
   0xb6c03ff; 0x83ffe16d; 0xb67fff9f; 0xffe5b6d9; 0xfffe7fff; 0x96db67ff; 0xf9fffe5b; 0x6d9fffe7;
   0xfff96db6; 0x6db689ec; 0xc5b6d8b6; 0xd8249316; 0xdb42db60; 0x2405b6c; 0x9fedf7ff; 0xf96db66d;
   0xb6dfeffd; 0xb6d89249; 0x142000; 0x36c00ff; 0xe00fff01; 0xb6d83fff; 0xc3fffc1b; 0x6d83fffc;
   0x3fffc1b6; 0xd83fffc3; 0xfffc1b6d; 0x83fffc3f; 0xffc1b6d8; 0x2db6c259; 0xec1b6d80; 0x5b600492;
   0xb6c005; 0xb2000900; 0x16c02db; 0x6c7fffed; 0xb6db6db6; 0xdff9ffdb; 0x6db24924; 0x142000;
   0x2d800ff; 0xf00fff81; 0x6db01fff; 0x81fff836; 0xdb41fff8; 0x1fff836d; 0xb41fff81; 0xfff836db;
   0x41fff81f; 0xff836db4; 0x1b6d81b2; 0xc816db00; 0xb6d80964; 0x6db001; 0x6c001200; 0x2d805b6;
   0xd87fffc3; 0x6db65b6d; 0xb7fbffb6; 0xdb649249; 0x122000; 0xb6c03ff; 0x83ffe16d; 0xb67fff9f;
   0xffe5b6d9; 0xfffe7fff; 0x96db67ff; 0xf9fffe5b; 0x6d9fffe7; 0xfff96db6; 0x6fb78bef; 0xc7b6d8b6;
   0xdc37f316; 0xdbe3db60; 0x2405b6c; 0x9fedf7ff; 0xf96db66d; 0xb6dfeffd; 0xb6d89249; 0x162000;
   0x124001b; 0x6c00fff8; 0x3fff016; 0xdb607fff; 0x81fffe05; 0xb6d81fff; 0xe07fff81; 0x6db607ff;
   0xf81fffe0; 0x5b6d81ff; 0xfe07fff8; 0x16db606f; 0xbe80bff8; 0x1b6c003; 0x6d8007f0; 0x2db000;
   0x5b000024; 0x5b6d87; 0xffdf1fff; 0xfcb6db6d; 0x6db6c7fe; 0xffadb2db; 0x132000; 0x12002db;
   0x607ffc3f; 0xffc36db0; 0xffff1fff; 0xe1b6d87f; 0xff8ffff0; 0xdb6c3fff; 0xc7fff86d; 0xb61fffe3;
   0xfffc36db; 0xf6fb0fd; 0xf41b6d81; 0xb6c017f8; 0x1b6001b; 0x12016; 0xdb63effe; 0x3fffcb6d;
   0xb7b65b3f; 0xcff5b2db; 0x122000; 0x2480b6d; 0x83fff0ff; 0xfc6db68f; 0xffc3fff1; 0xb6da3fff;
   0xfffc6db; 0x68fffc3f; 0xff1b6da3; 0xfff0fffc; 0x65928496; 0x41209092; 0x48124904; 0x92424b20;
   0x9201259; 0x1b6dbb7f; 0xb3fdfe6d; 0xb6ed96cf; 0xf7f9925b; 0x162000; 0x124001b; 0x6c00fff8;
   0x3fff016; 0xdb607fff; 0x81fffe05; 0xb6d81fff; 0xe07fff81; 0x6db607ff; 0xf81fffe0; 0x5b6d81ff;
   0xfe07fff8; 0x16cb6064; 0x92809048; 0x964001; 0x24000410; 0x2d9000; 0x49000024; 0x5b2d87;
   0xfedf1fff; 0xfcb6db6d; 0x6db6c7fe; 0xffacb2cb; 0x132000; 0x12002db; 0x607ffc3f; 0xffc36db0;
   0xffff1fff; 0xe1b6d87f; 0xff8ffff0; 0xdb6c3fff; 0xc7fff86d; 0xb61fffe3; 0xfffc325b; 0x9649004;
   0x92480; 0x92401248; 0xb60009; 0x12016; 0xcb63edfe; 0x3fffcb6d; 0xb7b65b3f; 0xcff5b2db;
   0x192000; 0x2000; 0x16c0000; 0xfe00006f; 0x6580; 0x196000; 0xc300005; 0xb4000124;
   0x1000; 0x4b60000; 0x2d80001f; 0xc00016c2; 0x9058107; 0x83c061b6; 0xd0006db0; 0x1ffc00;
   0x16db000d; 0xb6c007ff; 0xe006db6c; 0x36db00; 0xfff800b; 0x6d0006cb; 0x30780; 0x10c8000;
   0x0; 0x80; 0x1b1f01; 0x4800; 0x48000; 0x1; 0x24000012; 0x40000000;
   0x1240; 0x92000; 0x600002; 0x1b200021; 0xb0000038; 0x2d81; 0x180c00c; 0x327c0125;
   0xb6c0005b; 0x680003ff; 0x8000db60; 0x2db600; 0x7ffe001; 0x6db60012; 0xdb60007f; 0xfe0016db;
   0x20016580; 0x383000; 0x240000; 0x2000000; 0x10; 0x0; 0x1d1e01; 0x16000;
   0xd8000; 0xee0000; 0x6d80000; 0x59600003; 0xcf00000d; 0xb00000b6; 0xc10004b2; 0x40004b64;
   0x6d00; 0x3e000; 0x960000; 0x80d80127; 0x8780125b; 0x6c00016d; 0xb00003ff; 0x800016db;
   0x2db68; 0x1fffe0; 0x6db6c0; 0x436db00; 0x1ffd800; 0x1b6c8001; 0x65a00003; 0x26000012;
   0x8; 0x40; 0x0; 0x1c2000; 0x2000; 0x2d8000; 0x3680000; 0x37800006;
   0xd8000036; 0xc000032c; 0x2da0; 0xb6c10; 0x964800; 0x32d90001; 0x16c00009; 0xfc00002d;
   0x80820160; 0xb3c1e00; 0x65b6c000; 0xdb60000; 0x7ff0000b; 0x6d8000db; 0x6c000fff; 0xc001b6db;
   0x1b6d8; 0xfff80; 0x16da000; 0x1b2c0001; 0x83c00010; 0xc8000000; 0x0; 0x400;
   0x1f2000; 0x2000; 0x1f000; 0x7f000; 0xfe000; 0x3de000; 0x7de000; 0xffc000;
   0x1ef8000; 0x16e1200; 0x16ff6000; 0x4b6c8000; 0x43700000; 0x87c00000; 0xdb0020b0; 0x58001be4;
   0xf80025b6; 0xd80000b6; 0xd000007f; 0xf00001b6; 0xc00005b6; 0xc0000fff; 0xc0002db6; 0xc00025b6;
   0xc0000fff; 0xc0002db6; 0x40002db0; 0x7360; 0x480; 0xc00; 0x1800; 0x2000;
   0x1a1e01; 0x12000; 0x240000; 0x9000004; 0x90000492; 0x2400; 0x124000; 0x2400000;
   0xb0000059; 0x1b00; 0x7c000; 0x9600040; 0x6c041e1e; 0x20b6d80; 0x16db000; 0x1ffc0005;
   0xb6c005b6; 0xd001fffe; 0x36db60; 0x10db6c00; 0x3ffb001b; 0x6c800b2d; 0xc180; 0x240000;
   0x800000; 0x20000000; 0x141f01; 0x580012; 0x40012400; 0x64b00924; 0x924012; 0x5b0092d0;
   0x924036d; 0xb01b6d00; 0xbe4036db; 0x1b6d00b; 0xe4036db0; 0x1b6d00be; 0x4036db01; 0xb6d00be4;
   0x36db049; 0x24849248; 0x92492492; 0x48492489; 0x24924924; 0x94924892; 0x49200000; 0x1f1f01;
   0x6c000001; 0x24000000; 0x48000003; 0x6c000001; 0x20000002; 0x40000003; 0x60000000; 0x20000000;
   0x40000000; 0x60000000; 0x20000000; 0x40000000; 0x6c000000; 0x6d800000; 0x7f000000; 0x6c000018;
   0x2c100038; 0x783800d9; 0x6cb000d1; 0x61b001e3; 0xc3e586cb; 0x6d8596cb; 0xd8f0f00; 0x1f2c3649].
Definition emoji_data_77 : list N :=
  [0x2c6c9248; 0x24f80000; 0x1689249; 0x21649241; 0x22400000; 0x9049209; 0x0; 0x1f1f01;
   0xb6000000; 0x92000001; 0x24000005; 0xb0000004; 0x90000009; 0x20000004; 0xb0000000; 0x80000000;
   0x20000000; 0xb0000000; 0x80000000; 0x20000000; 0xb0000000; 0xb6000001; 0x7c000000; 0xb6080028;
   0xb0580078; 0x70f00161; 0xb2c00365; 0xb2c087cf; 0xc7860b0d; 0x96d61b2c; 0xb63c3e00; 0x3c365824;
   0xb2b04924; 0x91f00000; 0x5b24124; 0x95824924; 0x89000000; 0x24920924; 0x0; 0x201f01;
   0xb6000000; 0x49000000; 0x49000000; 0xb6800000; 0x49000000; 0x9000000; 0x16c00000; 0x1200000;
   0x200000; 0x580000; 0x240000; 0x40000; 0xb0000; 0x5b000; 0x1fc00; 0x96c10;
   0xc3618; 0x3c3e18; 0x1a2c36; 0x2c3658; 0x83c3e7c; 0x165b6c36; 0x1a2c165b; 0x1e3c127c;
   0x365b2cb6; 0x1b2c1259; 0x1f241248; 0x365b2cb6; 0x5b241249; 0x9241248; 0x12492412; 0x1f1f01;
   0x6c000001; 0x24000002; 0x48000003; 0x6c000001; 0x20000002; 0x40000003; 0x60000000; 0x20000000;
   0x40000000; 0x60000000; 0x20000000; 0x40000000; 0x6c000000; 0x6d800000; 0x7f000000; 0x6c000018;
   0x2c100038; 0x783800d9; 0x6cb000d3; 0x61b001e3; 0xc3e586cb; 0x6d8596db; 0x2d8f2f92; 0x1f2c365b;
   0x6c6cb6d9; 0x6cf92490; 0x496db2db; 0x6365b6cb; 0x62c92482; 0x49249249; 0x0; 0x202000;
   0x12000000; 0x12000000; 0x6d800000; 0x92000000; 0x12000000; 0x2d800000; 0x12000000; 0x12400000;
   0xb00000; 0x400000; 0x80000; 0x160000; 0x90000; 0x30000; 0x2d800; 0x16c00;
   0x7c00; 0x145a2c; 0x182c34; 0x1c3e3c; 0x365b2c; 0x105b6d36; 0x1e7f7e3e; 0x2c365b6d;
   0x165b6db6; 0x1e7f6c7e; 0x2db65b6d; 0x365b6db6; 0x3e5b6c36; 0x6db65b6d; 0x365b6db6; 0x12492412;
   0x1f1f00; 0x48000000; 0x90000002; 0xd8000002; 0x48000004; 0x90000016; 0xc0000012; 0x40000004;
   0x80000012; 0xc0000002; 0x40000000; 0x80000002; 0xc0000002; 0x40000000; 0x80000002; 0xd8000002;
   0xd8000000; 0xf8000030; 0xd86000b2; 0xd16001e7; 0xe3c00586; 0xcb030d96; 0xcb061f2e; 0x1e1a2c16;
   0x5b586c90; 0x58f87800; 0xf2d96092; 0xcac12482; 0x47c00000; 0x16c90492; 0x56092412; 0x0;
   0x182000; 0x580000; 0xff0005ff; 0xc812ff24; 0x7c0024; 0xbe4997fd; 0x641ff8f0; 0x3ff279bf;
   0xc93c3e00; 0xc3c9259; 0xb2492c32; 0x410c75b6; 0xdf32492c; 0x30080c7c; 0x925c3a49; 0x3c3c183c;
   0x3c92783e; 0x497c1fc1; 0xf80d93d8; 0x16c96c12; 0xc1246d92; 0xdbb6db6c; 0x16592c6d; 0xb6dbb6db;
   0x6c124924; 0x161f01; 0x17c004b; 0xfc8097c9; 0xc0016; 0xfb213ffe; 0x41ffff0f; 0xffd85b24;
   0xb06080c3; 0x24921249; 0x24010480; 0x4b2c8092; 0x48000800; 0x12492024; 0x92000200; 0x924001;
   0x24000000; 0x1249216; 0xc96c4904; 0x92db2dbd; 0xb6db5649; 0x2cb6db6f; 0x6db6d492; 0x49000000;
   0x171f01; 0x2c0025; 0xb64825f2; 0x4001e009; 0x65b649ff; 0xbe43ff3c; 0x4b6cb659; 0x64ba3200;
   0x32c924b2; 0xc924d192; 0x49865965; 0x8649240c; 0x12081249; 0x20124900; 0x900012; 0x48000240;
   0x4; 0x92480d92; 0xd8490093; 0x6d96d96d; 0x96da4924; 0x9b6db6cb; 0x6db6c200; 0x4000000;
   0x181e02; 0x24924812; 0x49240000; 0x249249; 0x92492410; 0x2492; 0x49924924; 0x24;
   0x92499249; 0x24024100; 0x25b6c912; 0x49240008; 0x249248; 0x12492400; 0x18002492; 0x48124920;
   0x4; 0x924816c9; 0x6c16c16c; 0x6d92dbb6; 0xdb6c1659; 0x2c6db6db; 0xb6db6c12; 0x49240000;
   0x161e02; 0x12492024; 0x92400000; 0x4924849; 0x24900000; 0x9249252; 0x49240000; 0x2492494;
   0x92490041; 0x2012cb20; 0x24920002; 0x49248; 0x9248000; 0x80002490; 0x490000; 0x4924;
   0x85b25b12; 0x4124b6cb; 0x6f6db6d5; 0x924b2db6; 0xdbdb6db5; 0x24924000; 0x171e02; 0x12492412;
   0x49200000; 0x4924924; 0x92492000; 0x249249; 0x24924900; 0x12492; 0x49249248; 0x924012c;
   0xb2412492; 0x90001; 0x24900124; 0x80004800; 0x9240001; 0x20000000; 0x2492406; 0xc96c2480;
   0x49b6cb6c; 0xb6cb6d24; 0x924db6db; 0x65b6db61; 0x20000; 0x182000; 0x482012; 0xff202db6;
   0xd812db24; 0x1259246d; 0xb6db96d9; 0x6497f964; 0x6db6dbb6; 0xc92cb649; 0x2c6db6db; 0xb2492cb2;
   0x492c6db6; 0xdb32492c; 0x32492c2d; 0xb6d83259; 0x2c3a593c; 0x2db6d816; 0x496c1fc9; 0xf80db6d8;
   0x16c96c12; 0xc9246db6; 0xdbb6db6c; 0x16592c6d; 0xb6dbb6db; 0x6c124924; 0x162000; 0x8008020;
   0x92016db6; 0x25b2449; 0x3492db6d; 0x94b6d917; 0xfffcb6db; 0x6d6d92c5; 0x924b2db6; 0xdb492490;
   0x2c96416d; 0xb6024920; 0x924805b; 0x6d809248; 0x492002; 0xdb000490; 0x24004; 0x96485b25;
   0xb124924b; 0x6db6f6db; 0x6d5924b2; 0xdb6dbdb6; 0xdb524924; 0x192000; 0x8001004; 0x120804b6;
   0xcb092db2; 0x4493c925; 0xb6db612d; 0xb6c89ff9; 0xe4b6db6c; 0xadb25b16; 0x492696db; 0x6d859249;
   0x62c924d0; 0xdb6db032; 0x49200924; 0x900b6db0; 0x2492000; 0x2490002d; 0xb0000924; 0x9000;
   0x24b2401b; 0x25b02492; 0x492db6db; 0xb6db6c4; 0x924925b6; 0xdb616db6; 0xd8100020; 0x182000;
   0x12482012; 0xff202db6; 0xd836db6c; 0x127d246d; 0xb6dbb6db; 0x6d9ff9fc; 0x6db6dbb6; 0xdb6dbec9;
   0x2c6db6db; 0xb6db6db2; 0xcb2c6db6; 0xdb36db6c; 0x32592c2d; 0xb6d836db; 0x6c3e593c; 0x2db6d816;
   0xdb6c1fcb; 0xf80db6d8; 0x16db6c12; 0xc9246db6; 0xdbb6db6c; 0x16592c6d; 0xb6dbb6db; 0x6c124924;
   0x162000; 0x8008020; 0xb2016db6; 0x6db6c49; 0x7c92db6d; 0xb5b6db17; 0xfffcb6db; 0x6d6db6c5;
   0x924b2db6; 0xdb5b6db0; 0x2db6416d; 0xb602db60; 0x924805b; 0x6d80b6d8; 0x5b2002; 0xdb0005b0;
   0x24004; 0x96485b6d; 0xb124924b; 0x6db6f6db; 0x6d5924b2; 0xdb6dbdb6; 0xdb524924; 0x192000;
   0x8001004; 0x12080db6; 0xcb0b6db6; 0xc497c925; 0xb6db6b6d; 0xb6d8bffb; 0xe4b6db6d; 0xedb6db16;
   0x492796db; 0x6d85b6db; 0x62cb2cf2; 0xdb6db036; 0xdb60092c; 0x900b6db0; 0x2db6800; 0x2590002d;
   0xb0000b6c; 0x9000; 0x24b2401b; 0x6db02492; 0x492db6db; 0xb6db6c4; 0x924925b6; 0xdb616db6;
   0xd8100020; 0x192000; 0x92c1005; 0xffd805bf; 0xfb037ffe; 0xc1b7fb61; 0xb6fb6d6f; 0xffdabfff;
   0xfdbffb7d; 0xaffedf5f; 0xfb6ff7db; 0x6df5b6db; 0x6bfffffc; 0xfbefbe36; 0xdb6c1f7f; 0xbe1f6db7;
   0x7db6f83; 0xeff7c1ed; 0xb7c0ff6f; 0xf03fb7f0; 0xdb6d80b; 0x6db6049f; 0xc90db6db; 0x6b6db6c0;
   0xb24961b6; 0xdb6d6db6; 0xd8124924; 0x162000; 0x8008025; 0xf2017ff6; 0x6ff6c5f; 0x7db2dbed;
   0xb5ffff1f; 0xfffcbfff; 0x6d7db7c7; 0xf6df2db6; 0xdb5b6db0; 0x7ffec17d; 0xf606db68; 0xb7d805b;
   0x6d80b6d8; 0x2df6006; 0xdb0005b0; 0x6c004; 0xb6485b6d; 0xb125b24b; 0x6db6f6db; 0x6d5924b2;
   0xdb6dbdb6; 0xdb524924; 0x192000; 0x400080b; 0x2d8605bf; 0xc305b7fb; 0x636df6d9; 0xbfffedbf].
Definition emoji_data_78 : list N :=
  [0xffed6ffe; 0xfb3fff7f; 0xb7fb6f8f; 0xb6dbe7fb; 0x6df2db6d; 0xf1f7db6c; 0xffefbc5b; 0x6db206db;
   0x6c036fbc; 0x16db600; 0x5bec000d; 0xf60005b6; 0x6c00; 0x36002d; 0xb6d90b6d; 0xb60496c9;
   0x5b6db63; 0x6db6d0b2; 0x4960b6db; 0x6c249248; 0x172000; 0x12482012; 0x49200492; 0x924924;
   0x92492004; 0x80259249; 0x24924909; 0x20112492; 0x4924924a; 0x9b24; 0x92492492; 0x5079e489;
   0x24920924; 0x90104820; 0x49649049; 0x64808241; 0x2492482; 0x49240480; 0x4836cb6c; 0xb64b6d24;
   0x964db6db; 0x65b6db6b; 0x24966db6; 0xdb249249; 0x172000; 0x8008009; 0x20800248; 0x492482;
   0x49248092; 0x48125b24; 0x12492424; 0x9240b249; 0x60924921; 0x492; 0x49049248; 0x1618004;
   0x92400492; 0x40002000; 0x24920025; 0x90000100; 0x248000; 0x24000000; 0x5b25b0; 0xdb25b092;
   0x926db6d; 0xb6db6d84; 0x924936db; 0x6d924924; 0x172000; 0x10002080; 0x40200490; 0x4924924;
   0x92490124; 0x9025b259; 0x24924949; 0x20916492; 0x4924924a; 0x8b24; 0x924964b2; 0x10e1e409;
   0x24900924; 0x90004000; 0x49240009; 0x24000200; 0x492000; 0x9000000; 0xb64b64; 0xb64b6124;
   0x1245b6db; 0x6db6db4b; 0x24962db6; 0xdb249248; 0x1f2000; 0x580; 0x407fb0; 0x83fff0;
   0x2cb6db4; 0x49fffcb; 0x13ffba5; 0xb2db65a4; 0x37ffe643; 0x67fe0c65; 0xb6d9246d; 0x1ec92041;
   0x38800004; 0xb2cb2005; 0xf24b0003; 0xc400002d; 0x9249003f; 0x9248007f; 0x400036c; 0x96c80bfc;
   0xb64033fc; 0x2402db6c; 0x92d7dffc; 0x973ffffc; 0xeb6db6c; 0xb6fffb64; 0xb1ff9241; 0x61b65b6d;
   0xb1f05b6d; 0x81e0b249; 0x182db6d; 0x80024924; 0x1d2000; 0x2400; 0x5f200; 0x3ff801;
   0x86db6000; 0x7fff8003; 0xfffc036d; 0xb6c02fff; 0xcb017ff0; 0x1806db24; 0x800b2490; 0x400080;
   0x2c96490d; 0x8259602c; 0x116d8; 0x24924b60; 0x92424000; 0x102c3649; 0x24821124; 0x80000120;
   0x6c1240; 0x1804800; 0x4000000; 0xb64b000; 0x6d96c009; 0x24120036; 0xdb6002db; 0x6d801249;
   0x24006db6; 0xc0009248; 0x1f1f01; 0x100b00; 0x603fc0; 0x1a2db61; 0x487ffe6; 0x91fffdb;
   0x9b6db59; 0x24fffb12; 0x49ff825b; 0x65b64a59; 0x7924812; 0xc208003; 0x2c92c009; 0x65924010;
   0xe1040003; 0x64920043; 0x2492009a; 0x1000001; 0x24900201; 0x24900400; 0x49000001; 0x24001000;
   0x20000000; 0x2d9; 0x2c0002d9; 0x2c000490; 0x480016db; 0x600036db; 0x60002492; 0x4000b6db;
   0x9249; 0x0; 0x1f2000; 0x480; 0x402480; 0x800000; 0x2c12494; 0x489248b;
   0x1000025; 0xb24924a4; 0x36492443; 0x60000065; 0xb249246d; 0x12492041; 0x800004; 0x92cb2004;
   0x924b0000; 0x4000024; 0x92490024; 0x92480000; 0x4000124; 0xb6c80924; 0xb6400000; 0x24005924;
   0x92424924; 0x92000048; 0x4924b6c; 0xb6924b64; 0xb0001249; 0x60925b6d; 0xb0905b6d; 0x8000b249;
   0x82db6d; 0x80024924; 0x1d1f01; 0x1200; 0x0; 0x30492400; 0x1248000; 0x64;
   0x92480492; 0x49000000; 0xc924; 0x90012492; 0x80410; 0x592c921; 0xb04b2c05; 0x800822db;
   0x492496c; 0x12484800; 0x20586c9; 0x24904224; 0x90000024; 0xd8248; 0x300900; 0x800000;
   0x16c9600; 0xdb2d801; 0x24924006; 0xdb6c005b; 0x6db00249; 0x24800db6; 0xd8001249; 0x0;
   0x1e1f01; 0x100000; 0xc00000; 0x6892488; 0x24124960; 0x90000361; 0x32492649; 0x24924924;
   0x5b64; 0x9248b209; 0x24904800; 0x82001924; 0x96009259; 0x24020020; 0x80004924; 0x80209249;
   0x800100; 0x24920; 0x8049240; 0x20024800; 0x124002; 0x40000; 0x1; 0x6c960002;
   0xd92c0009; 0x2090005b; 0x6d8001b6; 0xdb000249; 0x240016db; 0x60002492; 0x40000000; 0x1f2000;
   0x580; 0x402db0; 0x80fff0; 0x2cb6db4; 0x49b6d8b; 0x13ffba5; 0xb2db6da4; 0x36db6443;
   0x67fe4c65; 0xb6db6c6d; 0x16c92041; 0x3c924004; 0xb6db6005; 0xb24b0003; 0xe492002d; 0xb6db002d;
   0x9248007f; 0x2490036d; 0xb6d80b6c; 0xb64033f9; 0x2482db6d; 0xb6c6db6c; 0x963ffff9; 0x2eb6db6d;
   0xb6b6db64; 0xb1ff9249; 0x61b65b6d; 0xb1b05b6d; 0x81e0b249; 0x182db6d; 0x80024924; 0x1d2000;
   0x400; 0x1b200; 0x3ff001; 0x86db6000; 0x5b6d8003; 0xfffc036d; 0xb6c02db6; 0xcb017ff2;
   0x5806db6d; 0x800b2492; 0x492480; 0x2cb6db0d; 0x8259642c; 0x24916d8; 0x2db64b60; 0x964a4004;
   0x922c365b; 0x6c82112c; 0x80000924; 0x6c16c0; 0x1804800; 0x4024000; 0xb6db000; 0x6d96c009;
   0x24920036; 0xdb6002db; 0x6d801249; 0x24006db6; 0xc0009248; 0x1f1f01; 0x100b00; 0x603fc0;
   0x1a2db61; 0x486db66; 0x91fffdb; 0x9b6db59; 0x24b6db12; 0x49ff925b; 0x65b6d859; 0x5b24812;
   0xd249003; 0x2db6c009; 0x65924010; 0xc9248003; 0x6db60043; 0x24920092; 0x49240001; 0x6db00201;
   0x2d900400; 0x49000001; 0x6c801000; 0x24000000; 0x400002db; 0x6c0002d9; 0x2c000492; 0x480016db;
   0x600036db; 0x60002492; 0x4000b6db; 0x9249; 0x0; 0x1f2000; 0x580; 0x402db0;
   0x80fff0; 0x2cb6db4; 0x49b6d8b; 0x13fffa5; 0xb2db6da4; 0x36db6c43; 0x67ffcc65; 0xb6db6c6d;
   0x16db6041; 0x3c92c004; 0xb6db6005; 0xb6db0003; 0xe496002d; 0xb6db002d; 0xb6d8007f; 0x2490036d;
   0xb6d80b6d; 0xb6c033fd; 0x2cc2db6d; 0xb6d6db6d; 0xb63ffffd; 0x2eb6db6d; 0xb6b6db6d; 0xb1ff9249;
   0x61b65b6d; 0xb1b05b6d; 0x81e0b249; 0x182db6d; 0x80024924; 0x1d2000; 0x400; 0x1b200;
   0x3ff801; 0x86db6000; 0x5b6d8003; 0xfffc036d; 0xb6c02db6; 0xdb017ff2; 0x5806db6d; 0x800b6db6;
   0x496590; 0x2cb6db0d; 0x82db6c2c; 0x12c936d8; 0x6db64b61; 0xb6da4004; 0xb26c365b; 0x6c82116d;
   0xa000096c; 0x6c16c0; 0x1805800; 0x4024000; 0xb6db000; 0x6db6c009; 0x24920036; 0xdb6002db;
   0x6d801249; 0x24006db6; 0xc0009248; 0x1f1f01; 0x100b00; 0x603fc0; 0x1a2db61; 0x486db66;
   0x91fffdb; 0x9b6db59; 0x24b6db12; 0x49fff65b; 0x65b6da59; 0x5b6d812; 0xf649003; 0x2db6c009;
   0x6db7c010; 0xe9248003; 0x6db60043; 0x6db60092; 0xc9240001; 0x6db00201; 0x6db00400; 0x5b000001;
   0x6d801001; 0x6c000000; 0x400002db; 0x6c0002db; 0x6c000492; 0x480016db; 0x600036db; 0x60002492;
   0x4000b6db; 0x9249; 0x0; 0x202000; 0x480; 0x101fec; 0x183ffe; 0x487ffe;
   0x2026ffff; 0x3049fffe; 0x649fffe; 0x25b7ffef; 0x325bffb6; 0x124bffb6; 0xdb3db6d; 0x243edb6;
   0x4befbe; 0x17df7d; 0x4fedb6; 0x4fedb6; 0x3fdb6d; 0x5fedb6; 0x5feffe; 0xbfdb6d;
   0x3dfedb6; 0x7dffdbe; 0x2fbffb6f; 0xbfdffdbe; 0x7fff6db6; 0x3ffedb6c; 0x3ffb6db6; 0x1fe165b2;
   0xf82db6c; 0x7836db6; 0x2016492; 0x24924; 0x1c2000; 0x1000; 0x17d801; 0x1ffc010;
   0x7ffe020f; 0xfff012ff; 0xff017fff; 0xe06fffdf; 0x37ff6f0; 0x17ff6e02; 0x5b6db012; 0xdb6c010d].
Definition emoji_data_79 : list N :=
  [0xf7c36cb6; 0xdb4b05b6; 0xc4925b6c; 0x96cb6db9; 0x925b6cc1; 0x25b6c821; 0x36db0121; 0xbec0120b;
   0xe000c02c; 0x360; 0x4b640; 0x5b6db00; 0x2db6c002; 0x4964005b; 0x6db002db; 0x6c002c92;
   0x40049249; 0x1f1f01; 0x300b60; 0xb07fe0; 0x121fff9; 0x487ffeb; 0xc9ffff2; 0x97fffd9;
   0x24fffb11; 0x2dffdf12; 0x43ffbe5b; 0xfb6d809; 0xdb6d802; 0x1feff009; 0x7db7c009; 0xedb6c013;
   0xfb6d804b; 0xedb60059; 0x6db60083; 0xdb6c0201; 0x6db00201; 0x7f800400; 0xff001001; 0x6c000001;
   0x60000093; 0xc80006db; 0x6c0016db; 0x6c002492; 0x400036db; 0x6000b6db; 0x60012492; 0x9249;
   0x0; 0x1d1f01; 0x402490; 0x3049240; 0x48249301; 0x32492c12; 0x49248c92; 0x49065b64;
   0x92592c92; 0x49492490; 0x9b64924; 0x82412492; 0x24860c0; 0x5924b00; 0x92492404; 0x90000009;
   0x24b20124; 0x92480920; 0x9200b24b; 0x64024924; 0x90924800; 0xc9649249; 0x24924929; 0x24920992;
   0x5b64b249; 0x6d92c243; 0x64922416; 0xdb6080db; 0x6d8402c9; 0x24002492; 0x40000000; 0x1c1f01;
   0x12480; 0x10092401; 0x924020; 0x92490104; 0x92401249; 0x2402c924; 0x90124924; 0x1248000;
   0x24924901; 0x24924010; 0xc0c36c9; 0x6594b049; 0x24492000; 0x96c12c9; 0x9924924c; 0x12000082;
   0x112d8012; 0x9640120; 0x10000c02; 0x40000012; 0x4804; 0x5b65b0; 0x2d92c00; 0x24924005;
   0xb6db002d; 0xb6c002c9; 0x24004924; 0x90000000; 0x1f1f01; 0x300900; 0xb04920; 0x1209241;
   0x482492b; 0xc924932; 0x9249219; 0x24924911; 0x2c924912; 0x4124005b; 0x4924809; 0x4924002;
   0x8618009; 0x25924009; 0x24920010; 0x40000041; 0x24920049; 0x24900080; 0x201; 0x2d900201;
   0x2c800400; 0x8001000; 0x24000001; 0x20000092; 0x80006d9; 0x2c0016d9; 0x6c002492; 0x400036db;
   0x6000b6db; 0x60012492; 0x9249; 0x0; 0x101f01; 0x2400920; 0x1248; 0x9200000;
   0x12484924; 0x4924b6db; 0x5b241f00; 0x36481804; 0x2412d8; 0x1240920; 0x16c80900; 0x8041258;
   0x2c017c; 0x16d81b60; 0x1f00b6c9; 0x49244924; 0x12480000; 0x1f1c02; 0x40000000; 0x30000000;
   0x40000000; 0x40000000; 0x30000000; 0x59000000; 0x4b000000; 0x9f000000; 0xdb000002; 0xdb000007;
   0xff000186; 0xdb000586; 0xdb000f07; 0xfe002c06; 0xd9002c06; 0xd9204007; 0x80400006; 0x4b000006;
   0x49001800; 0x10006002; 0xc8016002; 0x4803c004; 0x82030012; 0x4b030010; 0x48000000; 0x80000002;
   0xc0000002; 0x0; 0x1f1f01; 0x490; 0x2490; 0x4920; 0x92490; 0x92480;
   0x124900; 0x2492480; 0x2492400; 0x4924800; 0xb2492401; 0x92492007; 0xe492402d; 0x9249006d;
   0x924901ff; 0xe4900b6d; 0x92481b6d; 0x92403fff; 0xe400db6d; 0x9202db6d; 0x9007ffff; 0x8016db6d;
   0x8016db6c; 0x3ffff0; 0xb6db60; 0xb6db00; 0x1fffc00; 0x1b6d800; 0x1b6c000; 0x17e0000;
   0xb00000; 0x0; 0x1e1904; 0x200000; 0x2d80000; 0x7fe00016; 0xdb6c806d; 0xb6db01ff;
   0xfffc0db6; 0xdb6c0b6d; 0xb6d8009f; 0xffe16036; 0xdb66c06d; 0xb61f8093; 0xff5b0006; 0xd9b60005;
   0xb7fc0003; 0xd6db05b2; 0x2db6db60; 0xffffff81; 0xb6db6c03; 0x6db6d807; 0xffff800d; 0xb6da000b;
   0x6db00007; 0xfe000005; 0x90000000; 0x1f1605; 0x9249240; 0x2; 0x4924924a; 0x49249244;
   0x96; 0x4b249252; 0x5b2c9204; 0xbeff2096; 0xdb6c9292; 0xdb6c9007; 0xfff80496; 0xdb649496;
   0xdb64802f; 0xffc024b6; 0xdb64a496; 0xd924083f; 0xf04124b6; 0xc9652496; 0x49220024; 0x492492;
   0x49092492; 0x49000000; 0x141f01; 0x16c90092; 0x4809248b; 0x6c924924; 0x80924812; 0x5b001240;
   0x124006d; 0xb0092400; 0x924016db; 0x904848; 0x8b0016; 0x40009400; 0x1b00064; 0x14000;
   0x1b000640; 0x940009; 0xb0016480; 0x8080481; 0x6db00924; 0x124000; 0x48000000; 0x1e1903;
   0x4924000; 0x2d924900; 0x49249001; 0x2492005b; 0x24924092; 0x49248249; 0x248036c9; 0x24926d92;
   0x49249249; 0x2485b6db; 0x248b6492; 0x48049249; 0x2db6c9; 0x5b2490; 0x249240; 0x16db200;
   0x2c92000; 0x1248000; 0xb640000; 0x12400000; 0x49000000; 0xd8000001; 0x80000002; 0x0;
   0x1f1b02; 0x2cb000; 0xf9e000; 0x36db000; 0xb6db004; 0x9fffe492; 0x5b6d9252; 0x5b6d9224;
   0xbffd2492; 0xdb6c9292; 0x5b649124; 0xbfc92492; 0xdb249492; 0x59248920; 0x90492492; 0x4924a4b2;
   0x49644864; 0x98c92d92; 0x59652492; 0x49200800; 0x10092c82; 0x49292402; 0xc9004000; 0x80496012;
   0x49490002; 0x48000000; 0x400002; 0x0; 0x201f01; 0x430000; 0x618000; 0x608000;
   0xd96080; 0x64b2c0; 0x64b640; 0xc92d80; 0x64b6c0; 0x64b240; 0xc96d80; 0x64b6c0;
   0x649240; 0xdb6db0; 0x6db658; 0x6cb248; 0xdb6c96; 0x16db24b; 0x1249240; 0x2db6490;
   0x32db258; 0x124b258; 0x6db6db6; 0x925b6d8; 0x92c0000; 0x36d80000; 0x59600000; 0x49000000;
   0xb6000000; 0x48000000; 0x48000000; 0x10000000; 0x1f2000; 0x82000; 0x486cb04a; 0x496db248;
   0x93fff492; 0x4b6db252; 0x5b6db244; 0x9fff2492; 0x5b6d9212; 0x5b6c9204; 0xbff82092; 0xdb649092;
   0x5b249060; 0x3c430592; 0x492c8490; 0x1248000; 0x2006490; 0x9242480; 0x9240000; 0x36400;
   0x96b2000; 0x9620000; 0x490000; 0x9080000; 0x9024004; 0x904b6016; 0xc85b6012; 0x48124024;
   0x82db01b6; 0x52db0092; 0x64920124; 0x92480492; 0x1e1f01; 0x20000; 0x120002; 0x201219;
   0xe080cfdb; 0x6d9b6; 0x80db7f0; 0x203f96c1; 0x60b62c16; 0xc1600069; 0x2db; 0x5f0;
   0x17c0; 0x9640; 0x16c00; 0x5f000; 0x2db000; 0x2c96000; 0x9248002; 0xd925b00d;
   0x924b60f2; 0x49258192; 0x59250125; 0xf2480497; 0xc9202596; 0x59005f7d; 0xf2017df7; 0xc8096596;
   0x4017df7c; 0x80082080; 0x0; 0x1d1d02; 0x10000012; 0x40; 0x24; 0x12012;
   0x12021f0; 0x1f065b65; 0xb6436db6; 0xd81fffff; 0xe1b6db6d; 0x96db6db6; 0xfffffff3; 0x6db6db2d;
   0xb6db6dff; 0xffffe6db; 0x6db61b6d; 0xb6d0ffff; 0xff05b6db; 0x6816db6d; 0x80fffffc; 0x36db6c0;
   0xdb6d800; 0x3fffc000; 0xdb6c0003; 0x6d80000b; 0xfc000016; 0xc0000058; 0x0; 0x201b02;
   0x2d80d80; 0xb6c16c0; 0xffc3ff8; 0x36db2db4; 0x5b6d96d8; 0x7fff87fc; 0xb6db0db6; 0x5b6d86db;
   0x7fffc3ff; 0xb6db45b6; 0x5b6d86db; 0x7ffc1ffe; 0x36d82db6; 0x5b6cb6d8; 0x1ff8fff8; 0x36d86db4;
   0x1b6c36d8; 0xffc1ff8; 0x6db2db0; 0x36d96c0; 0x3ff87c0; 0x2db0d80; 0x16d9600; 0x3e1e00;
   0x5b2c00; 0xc3000; 0x40000; 0x1f1e01; 0x10080000; 0x5b6c0000; 0xdb680007; 0xfff00006;
   0xdb600016; 0xdb40000f; 0xff000036; 0xdb000036; 0xd800003f; 0xf0000036; 0xc9048036; 0x5b0d803c;
   0xfe7f8012; 0xdb6d8006; 0xdb6d800f; 0xffff0036; 0xdb6c0036; 0xdb6c007f; 0xfff800b6; 0xdb6001b6].
Definition emoji_data_80 : list N :=
  [0xdb6001ff; 0xff8001b6; 0xdb0001b6; 0xd80003ff; 0xf00005b6; 0xc00005b6; 0x1fc; 0x5b0;
   0x80; 0x0; 0x1f1c02; 0x2c02d80; 0x16c06d80; 0x7ff3f981; 0xb6db6585; 0xb6db658f;
   0xfffe492d; 0xb6db25ed; 0xb6db2cff; 0xfffe7d6d; 0xb6db6f6d; 0xb6db67ff; 0xffffcb6d; 0xb6db4b6d;
   0xb6db1e7f; 0xfffe196d; 0xb6d8196d; 0xb6d032ff; 0xff80496d; 0xb682496d; 0xb60092ff; 0xf8024b6d;
   0xb0025b6d; 0x8000bffc; 0x25b6c; 0x5b60; 0x1e00; 0x1800; 0x0; 0x1f1c02;
   0x2480480; 0x12482480; 0x24904900; 0x96c96c80; 0x96cb6489; 0x24924925; 0xb6db6ca5; 0xb6db6449;
   0x7ffe492d; 0xb6db652d; 0xb6db624b; 0xfff6416d; 0xb6db216d; 0xb6d9025f; 0xff920b6d; 0xb6d8096d;
   0xb6c8125f; 0xec800b6d; 0xb6400b6d; 0xb200125b; 0x24004b6d; 0x9000096c; 0x80001249; 0x924;
   0x920; 0x200; 0x800; 0x0; 0x1d1e01; 0x8; 0x480; 0x1200;
   0x802c; 0x2c905b0; 0x5b007fc7; 0xfe06db6d; 0xb05b6db6; 0xc3fffffe; 0x2db6db6d; 0xb6db6d8f;
   0xfffffe5b; 0x6db6d96d; 0xbedb0ffc; 0xfff8b6db; 0x6d82db6d; 0xb6024bff; 0xf024b6db; 0x492db60;
   0x2497ff02; 0x496db009; 0x25b60049; 0x2ff00492; 0xdb00124b; 0x6000125f; 0x120b0; 0x40000;
   0x0; 0x1f1c02; 0x2402480; 0x12402480; 0x24924901; 0xb6cb6d84; 0x92492489; 0x2492492d;
   0xb6db6da4; 0x92492449; 0x2492496d; 0xb6db6d24; 0x92492249; 0x24924b6d; 0xb6db0924; 0x92491249;
   0x24921b6d; 0xb6d80924; 0x92401249; 0x24805b6d; 0xb6004924; 0x92001249; 0x20005b6d; 0xb0004924;
   0x80001248; 0x5b60; 0x4920; 0x1200; 0x800; 0x0; 0x201c02; 0x2480480;
   0x9241240; 0x9241248; 0x16db6db0; 0x49249248; 0x49249248; 0xb6db6db6; 0x49249249; 0x49249248;
   0xb6db6db6; 0x49249248; 0x49249248; 0x36db6db6; 0x49249248; 0x9249248; 0x16db6db0; 0x9249248;
   0x9249240; 0x6db6db0; 0x1249240; 0x1249240; 0x2db6d80; 0x249200; 0x249200; 0x1b6c00;
   0x49000; 0x48000; 0x10000; 0x1d1c02; 0x2402400; 0x49049002; 0x48249124; 0x92492492;
   0x49242492; 0x49224924; 0x92492492; 0x49492492; 0x4c924924; 0x92492492; 0x92492489; 0x24924924;
   0x92492124; 0x92491249; 0x24924924; 0x92404924; 0x92049249; 0x20124924; 0x124920; 0x1249200;
   0x4924000; 0x4920000; 0x49200001; 0x24000001; 0x12; 0x0; 0x1f1c02; 0x2c02480;
   0x12402480; 0x24924901; 0xb6db6d84; 0x92492489; 0x2492492d; 0xb6db6da4; 0x92492449; 0x2492496d;
   0xb6db6d24; 0x92492249; 0x24924b6d; 0xb6db0924; 0x92491249; 0x24921b6d; 0xb6d80924; 0x92401249;
   0x24805b6d; 0xb6004924; 0x92001249; 0x20005b6d; 0xb0004924; 0x80001248; 0x5b60; 0x4920;
   0x1200; 0x800; 0x0; 0x1f1c02; 0x2d80d80; 0x16d82d80; 0x3ff0ffe1; 0xb6db6da5;
   0xb6db6d8f; 0xffffffad; 0xb6db6dad; 0xb6cb6c7f; 0xff97c96d; 0xb64b656d; 0xb6492249; 0x24804924;
   0x92492924; 0x92490000; 0x24020924; 0x92490924; 0x92480001; 0x20101b6c; 0x92481b6d; 0x92003ffb;
   0x5b6c; 0x92005b6c; 0x90001ff8; 0x5b64; 0x90001b64; 0x80001600; 0x820; 0x80000000;
   0x1f1e01; 0x10080000; 0x5b6c0000; 0xdb680007; 0xfff80006; 0xdb648016; 0xdb64900f; 0xff802036;
   0xdb009036; 0xd800103f; 0xf0000036; 0xc9048036; 0x5b0d803c; 0xfe7f8012; 0xdb6d8006; 0xdb6d800f;
   0xffff0036; 0xdb6c0036; 0xdb6c407f; 0xfff920b6; 0xdb6025b6; 0xdb6049ff; 0xff8025b6; 0xdb0025b6;
   0xd80003ff; 0xf00005b6; 0xc00005b6; 0x1fc; 0x5b0; 0x80; 0x0; 0x202000;
   0x24924924; 0x3ffffffc; 0x5b6db6db; 0x6db6db6c; 0x7ffffffe; 0xdb6db6db; 0x6c82c16c; 0x7c00003e;
   0xd924925b; 0x6000000c; 0x6000000e; 0xd924924b; 0x6000000c; 0x6000000e; 0xd924924b; 0x6000000c;
   0x7800000e; 0xd924925b; 0x6c00002c; 0x7c00003e; 0xdb24925b; 0x6d80016c; 0x7f8001fe; 0xdb6492db;
   0x6db00b6c; 0x7ff00ffe; 0xdb6cb6db; 0x6db6db6c; 0x7ffffffe; 0x5b6db6db; 0x2db6db6c; 0x4924920;
   0x1e1e01; 0x10000; 0x1b0000; 0x900000; 0x2480000; 0x36d80001; 0x24800004; 0x9240002d;
   0xb6000249; 0x20000824; 0x8200d96c; 0xb6049241; 0x20124024; 0x91b6c96d; 0xb92492c9; 0x24900124;
   0x6db25b6c; 0x4924b241; 0x24804803; 0x65b2d802; 0xb648008; 0x2480000b; 0x6d800012; 0x49000049;
   0x200000db; 0x60000092; 0x240; 0x6c0; 0x400; 0x0; 0x111c02; 0x12482492;
   0x1249; 0x24924800; 0x2492492; 0x49082049; 0x24924920; 0x20092492; 0x49200400; 0x24900924;
   0x800492; 0x1240002; 0x924024; 0x80124012; 0x48049202; 0x48004800; 0x1d1d01; 0x8000;
   0x60000; 0x580010; 0x30001c0; 0x38080b65; 0x82c02db6; 0xb007f80; 0xe002d80d; 0x10030;
   0x30000781; 0x6000180d; 0x8001603e; 0x70058; 0x360160; 0xd80700; 0x3c03000; 0xd80c000;
   0x160e0000; 0x601200; 0x582d800; 0x781ff806; 0xc16db018; 0x2c168041; 0xe0180016; 0x4000d0;
   0x300; 0x0; 0x1f2000; 0x10000000; 0x90000001; 0x20000004; 0xb0000004; 0x80000009;
   0x2c; 0xb0000000; 0xf0580003; 0xf7fe000d; 0xb6db002f; 0xffff001f; 0xffff002d; 0xb6db003f;
   0xffff007f; 0xfffe016d; 0xb6db01ff; 0xfff803ff; 0xfff80b6d; 0xb6d81fff; 0xffe01fff; 0xffc05b6d;
   0xb6c07fff; 0xfe00ffff; 0xfc00db6d; 0xb400ffff; 0xf001ffff; 0xe002db6d; 0x8003fffc; 0x1fff8;
   0x2db60; 0x4800; 0x1e1a03; 0x6db00002; 0xdb600009; 0x2480001b; 0x24000034; 0x48;
   0xc0; 0x180; 0x200; 0x1600; 0x2c00; 0x9049; 0x1b0d8; 0x34500;
   0x1248200; 0x1b6c1000; 0xb6d82000; 0x240; 0xd96c0; 0x492000; 0x8000; 0x18000;
   0x30000; 0x40000; 0x16c0000; 0x2c00000; 0x1d1e01; 0x200000; 0x1000000; 0x16080000;
   0x41000003; 0x8c00402c; 0xb00301b6; 0x11f0d98; 0x58b6db6d; 0x82db2db0; 0x6492780; 0x2c925800;
   0xb00b0003; 0x80780059; 0x25b00324; 0x92c07904; 0x97c5b64b; 0x6d92492c; 0x920249e0; 0x2db600;
   0x96d800; 0xcf6e000; 0x5b2d8003; 0x6036001e; 0xf001b0; 0x1000600; 0x4006000; 0x30000;
   0x0; 0x1f2000; 0x2400000; 0x12400000; 0x24900001; 0xb6d80004; 0x92480009; 0x2492002d;
   0xb6db0024; 0x92490049; 0x2490016d; 0xb6c00124; 0x92002249; 0x24004b6d; 0xb00b0924; 0x80090248;
   0x920b64; 0x2d80100; 0x12480000; 0x24900000; 0xb6d80000; 0x92400201; 0x24800b0d; 0xb6c04804;
   0x92009009; 0x2406d82d; 0xb6124024; 0x90248049; 0x20b6c06d; 0x80920024; 0x240000; 0xb00000;
   0x800000; 0x141c03; 0x400002; 0x12000; 0x2d800124; 0x124006; 0xd8009240; 0x924016d;
   0xb0092480; 0x924836db; 0x4924849; 0x248b6db6; 0x49249492; 0x48b6db64; 0x92494924; 0x8b6db649].
Definition emoji_data_81 : list N :=
  [0x24809248; 0x16db0092; 0x40012400; 0x24800000; 0x1c1f00; 0x80000; 0x2400000; 0x24;
   0x92000124; 0x80000000; 0x24920; 0x924900; 0x9; 0x24920049; 0x24800000; 0x9249;
   0x24849249; 0x0; 0x9249009; 0x49249240; 0x92; 0x49200092; 0x40000000; 0x12492;
   0x48492492; 0x0; 0x12492404; 0x92490000; 0x124; 0x92000924; 0x0; 0x24800;
   0x0; 0x1f2000; 0x10000; 0x10000; 0x120000; 0x2db0000; 0x2d80000; 0x4920000;
   0x16db0000; 0xb6db0001; 0x2492000d; 0xb6da000c; 0x36580009; 0x24100065; 0xb658016e; 0xbe58021d;
   0x3c901b2d; 0xb2d81b25; 0x82c01209; 0x2480db6d; 0xb6c2db6d; 0xb6c4b6db; 0x6496db6d; 0xb6b6ff7f;
   0xb625f25f; 0x24b6c92d; 0xb7b6492d; 0xb1249249; 0x25b6db6d; 0xa5b6db6d; 0x89249249; 0xdb65b6c;
   0x4900120; 0x1c1e01; 0x8000; 0x0; 0x9200000; 0x49000000; 0x92; 0x40000490;
   0x0; 0x92400; 0x12000; 0x0; 0x2480000; 0x12000000; 0x24024; 0x80920124;
   0x9; 0x24924849; 0x24924000; 0x9249; 0x24949249; 0x24080000; 0x9249249; 0x49249240;
   0x92400092; 0x49249492; 0x49240000; 0x2492; 0x0; 0x1d1e01; 0x8000; 0x0;
   0x2480000; 0x9200000; 0x4; 0x92000012; 0x48000080; 0x924; 0x80002090; 0x0;
   0x900; 0x2400; 0x9; 0x124124; 0x82480000; 0x49249; 0x24924924; 0x90000000;
   0x9249249; 0x24924920; 0x20000012; 0xc9249249; 0x24924809; 0x240024b6; 0x49241249; 0x24800000;
   0x12492; 0x0; 0x1d1f00; 0x2000; 0x48000; 0x240000; 0x2d80000; 0x49200002;
   0x4900002d; 0xb2000092; 0x40000492; 0x5b6c; 0x12490; 0x480; 0x5b00; 0x12000;
   0x90049; 0xb60924; 0x2484924; 0x1245b6d9; 0x6c924924; 0x94924924; 0xdb6db6d9; 0x24924929;
   0x249249b6; 0xdb6db259; 0x24925249; 0x24922db6; 0xdb609249; 0x24809249; 0x96d90; 0x0;
   0x1e2000; 0x4000; 0x18000; 0x120000; 0xb60000; 0xb6c0000; 0x24900000; 0x6db00000;
   0xdb600001; 0x2480001b; 0x6d800092; 0xd8000001; 0x2000000b; 0x60000016; 0xc0000049; 0x2402d8;
   0x2d905b0; 0x49241242; 0xdb6cb68d; 0xb6db6c12; 0x492491b6; 0xdb6dbb6d; 0xb6db2592; 0x49246db6;
   0xdb6edb6d; 0xb6c12db6; 0x490b6db6; 0xdb16db6d; 0xb0092492; 0x4b6d90; 0x24000; 0x1e2000;
   0x1000; 0x16000; 0xd8000; 0x16d8000; 0x6da0000; 0x1f6c0000; 0xdb600001; 0xb6c00003;
   0xdb000016; 0xdb000065; 0xb6000002; 0xd8000006; 0xc000002d; 0x800000b6; 0x4901b6; 0x5b60b60;
   0x36db2d85; 0xb6d96d9b; 0x6db6da6d; 0xb6db6b6d; 0xb6db66db; 0x6db6dfed; 0xb6dbdb6d; 0xb6d9b6db;
   0x6db6ffff; 0xb6d6db6d; 0xb62db6db; 0x6c16db6c; 0x8016db60; 0x49000; 0x1d1f00; 0x2000;
   0x8000; 0x0; 0x2480000; 0x49200000; 0x40000024; 0x90000092; 0x40000000; 0x4924;
   0x10490; 0x0; 0x4900; 0x12000; 0x8; 0x920124; 0x2400000; 0x49249;
   0x24924924; 0x90000000; 0x49249249; 0x24924921; 0x96; 0x49249249; 0x24924049; 0x200024b6;
   0x49209249; 0x24800000; 0x92490; 0x0; 0x1d1d00; 0x2400; 0x49000; 0x0;
   0x10000002; 0x0; 0x900; 0x402000; 0x0; 0x100000; 0x2000000; 0x1;
   0x0; 0x80000; 0x400200; 0x4804000; 0x10000000; 0x80240249; 0x24800924; 0x90004924;
   0x48049241; 0x20124800; 0x124012; 0x49248049; 0x24900000; 0x24800492; 0x49000008; 0x24000000;
   0x1d1c03; 0x2492400; 0x49249000; 0x24; 0x92490492; 0x49240000; 0x24924; 0x92492492;
   0x49010410; 0x4b65964; 0x92cb6592; 0x6082c09; 0x24924924; 0x92492400; 0x1249; 0x24924924;
   0x92400000; 0x49249; 0x20124924; 0x0; 0x249240; 0x4800; 0x0; 0x48000;
   0x120000; 0x0; 0x200000; 0x1d1d01; 0x12000; 0x248000; 0x0; 0x92480092;
   0x49200000; 0x24924; 0x92092492; 0x48000000; 0x4924924; 0x92492492; 0x9; 0x24924924;
   0x92492400; 0x249; 0x24920924; 0x92400000; 0x49249; 0x20124924; 0x0; 0x1249200;
   0x4824000; 0x0; 0x9000; 0x20000; 0x0; 0x1200000; 0x4000000; 0x1d1e01;
   0x80000; 0x640000; 0x9240000; 0xb6c80092; 0xdb240490; 0x19200965; 0x92012406; 0x480b2032;
   0xc1b6c96d; 0x86480cb0; 0x1000008b; 0x64925b2c; 0x2d20; 0x166c9; 0x24b64b60; 0x16ca0800;
   0x304cb249; 0x64060004; 0x300020; 0x1b2592c8; 0x2d964b01; 0x2090c806; 0xd96d804b; 0x65b20008;
   0x40001b6; 0x58000048; 0x240; 0x0; 0x201e01; 0x16000000; 0x5b008000; 0x7b01f000;
   0xb2c36c36; 0x4165965b; 0x60678618; 0xb0c30530; 0x50658618; 0x70678318; 0x30530594; 0x18618298;
   0x1861838c; 0x16c16596; 0xb60b60a; 0x1003e0e; 0x10002c06; 0x5b20000b; 0x7ffc8000; 0xb6db6c00;
   0x4b6db6c0; 0x5fff8; 0x2db6; 0x2db; 0xf20001f; 0x16db0002; 0xb6db000; 0x17ffe00;
   0xb6d00; 0xb600; 0x200; 0x1c1f01; 0x492000; 0x2490000; 0x4; 0x9200006d;
   0xa0000248; 0x4920; 0x24800; 0x40000; 0x4b20001; 0x24900002; 0x4800025b; 0x64009649;
   0x20002080; 0x1249648; 0x9259240; 0x2580012; 0x5b249096; 0x49240060; 0x12596; 0x484964b2;
   0x4002d800; 0x925b2484; 0x92492400; 0x4000124; 0x92480924; 0x92000000; 0x24924; 0x0;
   0x1a2000; 0x800; 0x50000; 0x1801041; 0xfc0a20b6; 0x812c3060; 0x5800182d; 0x800b0580;
   0xb016c07; 0xc0b68b60; 0x12430000; 0xc03003; 0x2036018c; 0x1d80c1fe; 0x5860360e; 0x3c0601cc;
   0x806580; 0x400d8049; 0xffc16c5; 0xb60b601c; 0x6c2780; 0x1b16da0d; 0x827905b0; 0x1c010403;
   0x8201c0; 0x7000; 0xc0000; 0x121f01; 0xc00078; 0x1e000b; 0x600ffc07; 0xff836db1;
   0xe03e0007; 0x8002c000; 0xf8003c00; 0x5b007f00; 0xff805b00; 0x5f001f00; 0xb0001e0; 0x7800ac;
   0xd780f8; 0xfdfe16db; 0x2ff001e; 0xb0001; 0xe0007800; 0xc000000; 0x201704; 0x4924920;
   0x12492490; 0x12492492; 0x24924924; 0x92492492; 0xfffffffe; 0x6db6db6d; 0xfffffffe; 0xfffffffe;
   0x6db6db6c; 0x92492492; 0x12492492; 0x24924924; 0x90402492; 0x10402482; 0x25b6db64; 0x92492492;
   0x10000002; 0x24924924; 0x92492492; 0x12492492; 0x24924924; 0x12492490; 0x1f1a06; 0x201001;
   0x24924925; 0x24924922; 0x49; 0x24924929; 0x24924912; 0x48009249; 0x24924949; 0x24924892;
   0x40049249; 0x24964a49; 0x24924492; 0x249249; 0x24b25249; 0x24922090; 0x49249; 0x24929249;
   0x24912480; 0x49249249; 0x24949249; 0x24892492; 0x492db64b; 0x6da49249; 0x24492492; 0x49249249].
Definition emoji_data_82 : list N :=
  [0x20000000; 0x201a06; 0x49201248; 0xb6d92db6; 0x49249248; 0x49200248; 0xb2d92496; 0x492492c8;
   0x49200248; 0xb6d924b6; 0x49249248; 0x49200248; 0xb6d92596; 0x49249248; 0x49200248; 0xb6d925b6;
   0x492492c8; 0x49200248; 0xb2492496; 0x49249248; 0x49201248; 0x92492492; 0x4924924b; 0x49249249;
   0xb6d92db6; 0x5b6496db; 0x49249248; 0x12492492; 0x1f1a06; 0x12480492; 0xdb64b6da; 0xc9249258;
   0x92402496; 0xdb24b6d6; 0x5b24b2c4; 0x920124b6; 0xd925b6b6; 0xd925b624; 0x900965b6; 0xc92db5b6;
   0xc92db124; 0x804b2db6; 0x496dacb6; 0x49658924; 0x2496db2; 0x4b6d6492; 0x492cdb60; 0x36db6d92;
   0x5b6b6d92; 0xdb76db25; 0xb6db6c96; 0xdb5b6c96; 0xdbb6d92d; 0xb6492492; 0x48000000; 0x1f1a06;
   0x49201249; 0x6d925b6d; 0x24924922; 0x49009249; 0x2c925969; 0x2492d912; 0x4804924b; 0x64965b49;
   0x24924892; 0x4024925b; 0x2496da49; 0x24964492; 0x12492d9; 0x2496d249; 0x25b22490; 0x9249249;
   0x24969249; 0x24912480; 0x4925b649; 0x6d9db649; 0x6d9b6c92; 0xdb2db64b; 0x6dedb25b; 0x6cdb6496;
   0xd9249249; 0x20000000; 0x201d01; 0x90; 0x48; 0x0; 0x590490; 0x248240;
   0x248000; 0x2c96480; 0x1249200; 0x1248000; 0x6db2400; 0x9249200; 0x9240000; 0x32d92480;
   0x49249240; 0x49200248; 0xb6492496; 0x92492c9; 0x1001248; 0x2492c96; 0x12496c8; 0x9240;
   0x12492cb0; 0x9249640; 0x49240; 0x124b2580; 0x8009200; 0x9200; 0x12002c00; 0x1000;
   0x1f1f01; 0x2db6db6c; 0x24924924; 0x4924920b; 0x6db2db29; 0x24924822; 0x4920925b; 0x6db2cb49;
   0x24820912; 0x490412db; 0x6d92da09; 0x24824812; 0x4800164b; 0x6492d209; 0x24124412; 0x4004b65b;
   0x24969209; 0x20922412; 0x4125b25b; 0x65b49049; 0x4912082; 0x92db24b; 0x6da48009; 0x24890000;
   0x96d9249; 0x2d249200; 0x4492400; 0xb6db659; 0x21249249; 0x22492492; 0x9249249; 0x0;
   0x191f01; 0x1249002c; 0x92c01200; 0x2016c92c; 0x5925802; 0x400402d9; 0x2580b24b; 0x492480;
   0x5b6db016; 0xdb600924; 0x900b6db6; 0x2db6d80; 0x2492412d; 0xb6c84b6d; 0xb2249248; 0x2db6db09;
   0x2db6c096; 0xdb61b6db; 0x6c2db6d8; 0x12db6c16; 0xdb6c04b0; 0x4b025825; 0x82d82d80; 0x1601600b;
   0xb00100; 0x10000000; 0x1e1907; 0x25b6db20; 0x49249241; 0x2492480b; 0x6db6d812; 0x49249049;
   0x249202db; 0x6db60492; 0x49241249; 0x2480b6db; 0x6d812492; 0x49049249; 0x202db6db; 0x60492492;
   0x41249248; 0x9249248; 0x12492480; 0x49249202; 0x49249204; 0x92492412; 0x49249092; 0x5b249924;
   0x92492492; 0x49242492; 0x49240000; 0x202000; 0x92000; 0x36d800; 0x5b6c00; 0x592c00;
   0x300a00; 0x400400; 0x400400; 0x2db6db6c; 0x36db6db6; 0xb6db6db6; 0x6db6db6c; 0xb6db6db6;
   0xb6db6db6; 0x6db6db6c; 0xb6d92db6; 0xb6d80db6; 0x6db25b6c; 0xb6d92db6; 0xf6db6db6; 0x6db6db6d;
   0xbffffffe; 0xbffffffe; 0x6db6db6c; 0xb6db6db6; 0xb6db6db6; 0x6db6db6c; 0xb6db6db6; 0xb6db6db6;
   0x6db6db6c; 0xb6db6db6; 0x36db6db6; 0x24924924; 0x202000; 0x12492490; 0x3ffffffe; 0x6db65b6c;
   0xffc925fe; 0xff0000fe; 0x6c92496d; 0xfe4924be; 0xf800001e; 0x6c92492d; 0xf2492496; 0xf0000486;
   0x64924925; 0x80012496; 0x10492; 0x2492c925; 0x3e492; 0x3e002; 0x2492c925; 0x12492;
   0x2; 0x64924925; 0xf2492496; 0xf2400006; 0x6c92492d; 0xf249249e; 0xfe00003e; 0x6c92496d;
   0xfe4924fe; 0xffc005fe; 0x6db65b6c; 0x3ffffffe; 0x12492490; 0x202000; 0x4924924; 0xffffffc;
   0x196492db; 0x3cb249fe; 0x7cf001fe; 0xd96c92db; 0x7cf249fe; 0x7cf001fe; 0xd96c92db; 0x7cf249fe;
   0x7cf001fe; 0xd96c92db; 0x7db6dbfe; 0x7ffffffe; 0xdb6db6db; 0x7c92492e; 0x7c92493e; 0xd924925b;
   0x7c92492e; 0x7c00000e; 0xd924925b; 0x7c92492e; 0x7c00000e; 0xd924925b; 0x7c92492e; 0x7c00000e;
   0xd924925b; 0x7c92492e; 0x7c00000e; 0x5b24925b; 0x7fb6db7c; 0x24924920; 0x201f00; 0x48000;
   0x249000; 0x5b2c80; 0x1248240; 0x1248040; 0x6db24b0; 0x9258048; 0x9248008; 0x16db2490;
   0x9258248; 0x49248008; 0x36db2496; 0x49249248; 0x49241000; 0xb6d82496; 0x4b641249; 0x49201248;
   0xb2482db6; 0x49249249; 0x40009248; 0x32496db6; 0x49209248; 0x9248; 0x12496db0; 0x9009248;
   0x8009240; 0x6496db0; 0x1009240; 0x1009200; 0x596c80; 0x249000; 0x1d1d02; 0x2492400;
   0x9249000; 0x24; 0x92490092; 0x49240000; 0x1024924; 0x92492492; 0x48000012; 0x44924924;
   0x92492492; 0x2489; 0x24024924; 0x90092404; 0x1248; 0x4924920; 0x924a4900; 0x249249;
   0x24924924; 0x84900000; 0x49249249; 0x24924900; 0x12; 0x49248049; 0x24900000; 0x492;
   0x48000248; 0x0; 0x1e1a03; 0x2db0; 0x1b6c0; 0xdb6c0; 0x5b6c02; 0x4b6db0b6;
   0xdb6db16d; 0xb6db0492; 0xdb6c6db6; 0xdb6e492d; 0xb6c92492; 0x4b1b6db6; 0xdb924924; 0x92492492;
   0x46db6db6; 0xe4924924; 0x92492491; 0xb6db6db9; 0x24924924; 0x9249246d; 0xb6db6e49; 0x24924924;
   0x92491b6d; 0xb6db1249; 0x24904924; 0x92400000; 0x201a03; 0x6d8; 0x16d8; 0x2db6;
   0x36db; 0x124b6db; 0x6db6db6; 0xb6db6db; 0xb6db6db; 0x36db6db6; 0x4925b6db; 0x4925b6db;
   0xb6db6db6; 0x4924b6db; 0x4924924b; 0xb6db6db6; 0x4924924b; 0x4924924b; 0x36db6db6; 0x4924924b;
   0x924924b; 0x36db6db6; 0x924924b; 0x924924b; 0x36db6db6; 0x9249248; 0x9249248; 0x1d1d02;
   0x2492490; 0x9249240; 0x4; 0x92492012; 0x49248012; 0x49200924; 0x92402492; 0x49002492;
   0x40124924; 0x80492492; 0x492480; 0x24924900; 0x92492400; 0x92490049; 0x24920124; 0x92480000;
   0x9249; 0x24024924; 0x90000000; 0x49249249; 0x24924920; 0x92; 0x49249249; 0x24924000;
   0x12492; 0x49249249; 0x24000000; 0x191e01; 0x200001; 0x24924049; 0x24800400; 0x1249248;
   0x49249000; 0x92412492; 0x49492492; 0x24824824; 0x92492924; 0x92409249; 0x4b6db65; 0x24924812;
   0x492096db; 0x6ca49249; 0x12; 0x49249492; 0x49204924; 0x82492492; 0x92492409; 0x24904924;
   0x92524924; 0x80000009; 0x24924a49; 0x24900000; 0x201f00; 0x48249208; 0x787ffe0f; 0xb2db6d96;
   0x5b6db6db; 0x7fffc30f; 0xb6db6db6; 0x4b6db2cb; 0x5b6fc30f; 0xb6db6db6; 0x4b6d964b; 0x7fffbefb;
   0xb6db6db6; 0x49249248; 0x0; 0x92db2d92; 0x496d9648; 0x1649600; 0x92d92c92; 0x49649648;
   0x201200; 0x92592c92; 0x492c9648; 0x2c1200; 0x925b2c92; 0x492c9648; 0x41200; 0x924b2c92;
   0x49259648; 0x0; 0x12492492; 0x9249248; 0x1e1f01; 0x800000; 0x4000800; 0x800000f;
   0xbffe785b; 0x6db6d9b6; 0xdb6db7ff; 0xfdb7f6db; 0x65966db6; 0x596d96f9; 0x25fdb6d9; 0x659b6d92;
   0x4b6dbe4b; 0x3f249249; 0x66492492; 0xd82d8603; 0xc96db649; 0x92c964b6; 0xb0180f2; 0x592c9264].
Definition emoji_data_83 : list N :=
  [0xb2592d80; 0x40603c92; 0xcb249925; 0x964b6016; 0x180f24b2; 0xc9264965; 0x92d80080; 0x3492492;
   0x59ffffff; 0xe2492492; 0x0; 0x201e02; 0x124b640; 0xb64900; 0x924900; 0x124b6c0;
   0x924900; 0xb64900; 0x124b6c0; 0x924900; 0x924900; 0x96cb6c8; 0x3c92493c; 0x7c10083e;
   0xdb24925b; 0x7db6db7e; 0x7ff7ebfe; 0xdb24925b; 0x7c92493c; 0x3c00003c; 0x9249258; 0xc924930;
   0xc000030; 0x9249258; 0xc924930; 0xc000030; 0x9249258; 0xc924930; 0xc000030; 0xb6db6d0;
   0x7ffffe0; 0x924900; 0x1c1c02; 0x92492484; 0x924924e8; 0xb24; 0x92495924; 0x92478000;
   0xb64924; 0x95924924; 0x1d000009; 0x6492494b; 0x249240f0; 0x96c9; 0x6494b24b; 0x2403c0f0;
   0x92cb6c9; 0x4965b640; 0x1e7be092; 0xdb2c9496; 0xc964007c; 0x1e092592; 0xd9492496; 0xc000003c;
   0x92492594; 0x92492c00; 0x2c924; 0x92480000; 0x1c1c02; 0x92492494; 0x92492400; 0x4924;
   0x925b4924; 0x92c00240; 0x24925925; 0x9492c964; 0x249209; 0x25b2d949; 0x65964002; 0x92092d9;
   0x6c94964b; 0x24012010; 0x92c9249; 0x4b249240; 0x90000096; 0x492494b2; 0x49240900; 0x96492;
   0x49592492; 0x44800000; 0xb2492495; 0x92492448; 0x924; 0x92490000; 0x1d1c02; 0x12492492;
   0x49249240; 0x124; 0x92492492; 0x49248090; 0x25b24; 0x92496c92; 0x49012000; 0x4b64924;
   0x92d92492; 0x2402409; 0x6c92d925; 0xb24b2404; 0x804812d9; 0x25b24b64; 0x9648093c; 0x9025b2db;
   0x6496db2c; 0x90127920; 0x4b65b6c9; 0x2db65920; 0x24f24096; 0xcb6d925b; 0x6cb24049; 0x64802492;
   0x49200000; 0x191f01; 0xc0000; 0xd80004b; 0x24000180; 0x324925a; 0xc924b520; 0x96492;
   0x4b400002; 0xa000012c; 0x92496800; 0x92540000; 0x2592492d; 0x4924a82; 0x4924b249; 0x25a09249;
   0x50492496; 0x4924b400; 0x2a0924; 0x92c92496; 0x80000540; 0x2596c; 0x92d04900; 0xa800004b;
   0x6db6dadb; 0x6db42492; 0x48000000; 0x1f1f00; 0x400000; 0x1f00000; 0x16c00000; 0x36c00000;
   0x7f800005; 0xb6c0000d; 0xb6c0001f; 0xff80006d; 0xb6c9016d; 0xb6db03ff; 0xfffe036d; 0xb6da036d;
   0xb6d802ff; 0xfff0016d; 0xb6c0016d; 0xb6c000ff; 0xfc00016d; 0xb000016d; 0xb00003ff; 0xa0000b6d;
   0xb0000b6c; 0x80001fc1; 0x20005b05; 0x80005b00; 0x80001001; 0x1; 0x80000000; 0x80000001;
   0x0; 0x80000000; 0x80000000; 0xe2000; 0x4805b01; 0xfe1b6cb6; 0xdbffe6db; 0x6db6fff9;
   0xb6db6d8f; 0xfe2db05b; 0x240160; 0x2400800; 0x58008002; 0x160020; 0x800580; 0x8002000;
   0x2001b; 0xd80090; 0x1d1c02; 0x200; 0x82480; 0x241200; 0x8201000; 0x82010002;
   0x40040082; 0x200820; 0x2400; 0x8082010; 0x4082010c; 0x2400480; 0x82010408; 0x2010c024;
   0x480820; 0x10408201; 0xc020804; 0x80104104; 0x10190c0; 0x4024800; 0x20004002; 0xc0008;
   0x800000; 0x4000092; 0xc0000248; 0x200; 0x0; 0x1e1e01; 0x480; 0x3200;
   0x1b200; 0xb2400; 0x679000; 0x32c9000; 0x16490000; 0xc9240006; 0x4924002c; 0x9240019e;
   0x48000cb2; 0x48005924; 0x80012490; 0x192490; 0xb24900; 0x2692000; 0x32c92001; 0x64920004;
   0x92400064; 0x924002c9; 0x240001a4; 0x80000b24; 0x80009248; 0x4900; 0x24900; 0x49000;
   0x20000; 0x120000; 0x0; 0x1d1e01; 0x8; 0x40; 0x2400; 0x9000;
   0x48000; 0x2480000; 0x9200000; 0x49000024; 0x90000092; 0x40000492; 0x24920; 0x92480;
   0x492400; 0x24924000; 0x92090004; 0x80480249; 0x4800920; 0x12004800; 0x90249009; 0x920024;
   0x4900122; 0x49249209; 0x24924849; 0x24926492; 0x49249249; 0x24949249; 0x24c92492; 0x48000000;
   0x1d1f00; 0x12490; 0x249240; 0x1000000; 0x96492002; 0x49248002; 0x92c; 0x92402492;
   0x49000412; 0x40125924; 0x82492492; 0x12482480; 0x24924904; 0x92492404; 0x92490049; 0x24920924;
   0x924adb24; 0x922db649; 0x24b6c924; 0x95b64924; 0x5b6db6c9; 0x6d924929; 0x6c924816; 0xdb6d9049;
   0x24924000; 0x492; 0x49209249; 0x24800000; 0x92492; 0x40000000; 0x202000; 0x12492480;
   0x9249240; 0x49249240; 0xb24924b0; 0x49249248; 0x40000048; 0x924925b6; 0x492492c3; 0x492492c2;
   0x924925b6; 0x49249258; 0x49249240; 0x924925b6; 0x4924924a; 0x492492c3; 0x924925b6; 0x492492d8;
   0x49249248; 0x924925b0; 0x49249248; 0x49249248; 0x924925b2; 0x492492db; 0x49249258; 0x924925b0;
   0x49249248; 0x9249248; 0x124925b6; 0x92492c3; 0x92492c2; 0x24925b6; 0x1000048; 0x1e2000;
   0xb6db6c0; 0xffffff86; 0x49249732; 0x49249664; 0x92493d92; 0x4924fcb6; 0xdb6d9be5; 0x96df6c96;
   0x187f6cb2; 0xdb66d965; 0x97db2cb0; 0x7fd965b2; 0xd9b2cb2d; 0xf6c92497; 0xf6cb2db6; 0x6d96597d;
   0xb24925fd; 0x965b2d9b; 0x2cb2df6c; 0xb2c1ff6c; 0xb2db66d9; 0x6597db65; 0x861f5b6d; 0xb6d8b2cb;
   0x2df0cb2c; 0x1fc6596c; 0xb60d9659; 0x7c325861; 0xf0b2cb6d; 0x81048208; 0x1e2000; 0x12492480;
   0x6db6db04; 0x924924ac; 0x92492c49; 0x24925904; 0x9249296d; 0xb6db52c9; 0x24b64924; 0x924a5b6d;
   0xb6d49249; 0x2d924924; 0x9296c925; 0xb524924b; 0x64900024; 0xa5b2496d; 0x492492d9; 0x24000929;
   0x6db6db52; 0x4924b649; 0x24924a5b; 0x6db6d492; 0x492d9249; 0x249296db; 0x6db52492; 0x4b609249;
   0x2485b6db; 0x6d092492; 0xd8249249; 0x206db6db; 0x492490; 0x1e2000; 0x2db6db20; 0xffffffc7;
   0x24924f19; 0x24924bd2; 0x4924bf09; 0x2492e65b; 0x6db6f5b6; 0xdb7fdfff; 0xfff9b6db; 0x6dbd6db6;
   0xdff7ffff; 0xfe6db6db; 0x6f5b6db7; 0xfdffffff; 0x9b6db6db; 0xd6db6dff; 0x7fffffe6; 0xdb6db6f5;
   0xb6db7fdf; 0xfffff9b6; 0xdb6dbd6d; 0xb6dff7ff; 0xfffe6db6; 0xdb6c5b6d; 0xb7f1ffff; 0xff8b6db6;
   0xdb16db6d; 0xfc1fffff; 0xe05b6db6; 0x80924924; 0x1f1704; 0x82000; 0x0; 0x924924b0;
   0x92492491; 0x2c; 0x924925a4; 0x924924c8; 0x164; 0x92492d24; 0x92492640; 0xb24;
   0x92496924; 0x92493200; 0x5924; 0x924b4924; 0x92499000; 0x2c924; 0x925a4924; 0x924c9249;
   0x2496db6d; 0xb6c6db6d; 0xb6c00048; 0x0; 0x1e2000; 0x12492481; 0x6db6db04; 0x924925ac;
   0x92492c49; 0x24925904; 0x9249696d; 0xb6db52db; 0x6db64924; 0x925a5b6d; 0xb6d49249; 0x2d924924;
   0x9696db6d; 0xb524924b; 0x64924925; 0xa5b6db6d; 0x492492d9; 0x24924969; 0x6db6db52; 0x4924b649;
   0x24925a5b; 0x6db6d492; 0x492d9249; 0x249696db; 0x6db52492; 0x4b609249; 0x2585b6db; 0x6d092492;
   0xd8249249; 0x606db6db; 0x492490; 0x1e2000; 0x4924920; 0xdb6db6c3; 0x24924b19; 0x24924b92;
   0x49249209; 0x2492c65b; 0x6db6e5b6; 0xdb6c9249; 0x24b1b6db; 0x6db96492; 0x4b249249; 0x2c6db6db;
   0x6e592492; 0xc924924b; 0x1b6db6db; 0x964924b2; 0x492492c6; 0xdb6db6e5; 0x92492c92; 0x4924b1b6].
Definition emoji_data_84 : list N :=
  [0xdb6db964; 0x924b2492; 0x492c6db6; 0xdb6c5924; 0x92c12492; 0x4b0b6db6; 0xdb164924; 0xb0092492;
   0xc05b6db6; 0x80924924; 0x1d2000; 0x12492482; 0x49249212; 0x49249124; 0x92496492; 0x4924a092;
   0x49265b6d; 0xb6c92492; 0x49492492; 0x4c92492d; 0x92492492; 0x92492499; 0x24925b24; 0x92492524;
   0x92493249; 0x24b64924; 0x924a4924; 0x92649249; 0x6c924924; 0x94924924; 0xc92492d9; 0x24924929;
   0x24924992; 0x4925b249; 0x24924249; 0x24922492; 0x4b609249; 0x24849249; 0x20592496; 0xc0249248;
   0x1e1e01; 0x9249240; 0x24924961; 0x6db6db02; 0x49249600; 0x5849; 0x2492d092; 0x49258249;
   0x249616db; 0x6db02492; 0x49649249; 0x242db6db; 0x6c492492; 0x41249249; 0x92492db; 0x12492490;
   0x49249242; 0xdb6db6c5; 0xb6db6d12; 0x4924bcb6; 0xdb6db124; 0x924b6000; 0x2fa492; 0x496c4924;
   0x92d80000; 0xbe92492; 0x5b124924; 0xb6492492; 0xf2db6db6; 0xc0000000; 0x201f01; 0x8000;
   0x1018000; 0x2036080; 0x305a0c0; 0xf87f3e0; 0x16cb65b0; 0x1b6db2d8; 0x1ffffff8; 0x36db6db6;
   0x5b6db6d8; 0x7ffffffc; 0xb6db6db6; 0x5800000a; 0x7000000e; 0xb2492496; 0x5800000b; 0x7000000f;
   0xb2492496; 0x5800000b; 0x7000000e; 0x32492496; 0x5b6db6d8; 0x1ffffff8; 0x16db6db0; 0xb6db6d8;
   0xfffffe0; 0x6db6da0; 0x16db6c0; 0x7ffe00; 0x5b6c00; 0x48000; 0x1d1f00; 0x12492402;
   0x49249000; 0x40124; 0x92580492; 0x49600000; 0x24924; 0x90012492; 0x40092492; 0x924920;
   0x2492480; 0x1; 0x6db64005; 0xb6d90024; 0x92400249; 0x24800b6d; 0xb2004924; 0x80049249;
   0x124924; 0x924900; 0x9249200; 0x24924801; 0x24920016; 0xdb6c8049; 0x24920000; 0x102492;
   0x49609249; 0x25800000; 0x20492492; 0x40000000; 0x1d1f01; 0x19249249; 0x64924909; 0x200001b6;
   0x49249649; 0x24921249; 0x249164b6; 0xdb249249; 0x24049249; 0x4925b6; 0x43249248; 0x19240000;
   0xb2492486; 0xc9249016; 0x4924016c; 0x924905b2; 0x49200592; 0x49025b2d; 0x92096c92; 0x40096492;
   0x492db24; 0x124b7c80; 0x4b6409; 0x24964824; 0x92490000; 0x1249; 0x24904924; 0x92000000;
   0x49249; 0x0; 0x1f1f01; 0x1b0; 0x7f0; 0x1fe0; 0x6da0; 0x1ff80;
   0x3ff80; 0xb6d80; 0x1ffc00; 0x3ff800; 0x5b6800; 0x5fe000; 0x3fc000; 0x5b0000;
   0xfe0000; 0x1f80000; 0x6d00000; 0x1fc00000; 0x3f001b01; 0xb6007f07; 0xf001fe1f; 0xe006db6d;
   0x801ffffc; 0x7ffff8; 0xb6db60; 0x1ffff00; 0x3fff800; 0x5b6c000; 0x7fe0000; 0x3e00000;
   0x800000; 0x0; 0x201704; 0x12492490; 0x5ffffff8; 0x6924924e; 0xb2492496; 0x4924924b;
   0x40000003; 0x92492492; 0x4924924b; 0x40049203; 0x92d92d92; 0x4924924b; 0x40001203; 0x92492492;
   0x4924924b; 0x40000003; 0xb2492496; 0x5b6db6db; 0x7fffffff; 0xb6db6db6; 0x5b6db6db; 0x7f6df6db;
   0xb6db6db6; 0x5ffffff8; 0x201f01; 0x4924800; 0x2492000; 0x2492000; 0x5b24800; 0x2492000;
   0x92000; 0x4924800; 0x2492000; 0x12492410; 0x6db6db6c; 0xb6d925b6; 0x820800b6; 0x6596496c;
   0x965925b6; 0xb6d925b6; 0x6db6db6c; 0xb6db6db6; 0x924921b6; 0x6db6d96c; 0xb6db6db6; 0x924925b6;
   0x6db6d96c; 0x92592db6; 0x924925b6; 0x6db6d96c; 0x925925b6; 0x924925b6; 0x6db6db6d; 0xffffffbe;
   0x3ffffe3e; 0x2db6d82c; 0x191e01; 0x2000004; 0x80000000; 0x124005; 0x84100b60; 0x402db240;
   0x2db0105b; 0x6c002db6; 0x492db640; 0x4b6d8020; 0xb6402cb6; 0xc81b2d90; 0x2d82c02d; 0xb2c80b6c;
   0x920db640; 0xdb6c903; 0x6d9201b6; 0xc001b6c9; 0x606d9248; 0x16412402; 0x496d8092; 0x49000124;
   0x80016db0; 0x5b6000; 0x4800000; 0x201c02; 0x8000000; 0x18000000; 0x36400000; 0x59200000;
   0x58000000; 0x36496c90; 0x5924b6d8; 0x48003ffc; 0xb6496db6; 0x4924b6db; 0x48003fff; 0xb6492db6;
   0x4924b6db; 0x48003ffe; 0xb6496db6; 0x5924b6d8; 0x5800bfc0; 0x36492da0; 0x592006c0; 0x180007c0;
   0x324005a0; 0x180006c0; 0x7e0; 0x5b0; 0x6c0; 0x7e0; 0x5a0; 0x240;
   0x1f1506; 0x16000000; 0x5b200000; 0xd9240001; 0xb2490006; 0xdb6d9006; 0xd924900d; 0xb2492436;
   0xdb6db6b6; 0xc924936d; 0x924925b6; 0xdb6db5b6; 0x49249b6c; 0x92492db6; 0xdb6c8db2; 0x49201b24;
   0x92406db6; 0xc9006c92; 0x3005904; 0x16406; 0x58000002; 0xc0000000; 0x1f1f01; 0xb0000;
   0x1b0000; 0x3f0000; 0x2db0000; 0x6db0000; 0xfff0000; 0xb6db0000; 0xb6db0000; 0xfc00000;
   0x16c00000; 0x36000000; 0x7e000000; 0xb6000001; 0xb0000001; 0x60000000; 0x24; 0x900092ff;
   0xf492db6d; 0xb6da4bff; 0x924493ff; 0x2496db6d; 0xb6d24b64; 0x92249249; 0x24b6db6d; 0xb6924924;
   0x91249249; 0x25b6db6d; 0xbdb6db6d; 0x89249249; 0x4924924; 0x0; 0x201f01; 0xb6000;
   0x49000; 0x48000; 0xb6000; 0x49000; 0x48000; 0x4b6480; 0x249200; 0x249200;
   0x5b6c00; 0x49000; 0x49000; 0xb6000; 0x8000; 0x8000; 0x0; 0x249000;
   0x493ffe48; 0xb6db6db6; 0x493ffe49; 0x493ffa48; 0xb6db6db6; 0x4925b249; 0x49249248; 0xb6db6db6;
   0x49249249; 0x49249248; 0xb6db6db6; 0x5b6db6db; 0x49249248; 0x12492490; 0x181e01; 0x2c0000;
   0x12000092; 0x16c80; 0x4924004; 0x90001b64; 0x90249248; 0x248049d9; 0x24b62492; 0x4b20024b;
   0xc92db664; 0x925f2492; 0x7fcb6db6; 0x6492ff24; 0x93ffdb6d; 0xb66db7ff; 0x2497ff5b; 0x6db62db7;
   0xf80497f8; 0xb6db005; 0xb7c00097; 0xc0016d80; 0x360000; 0x10000000; 0x1f1605; 0x9249240;
   0x2; 0x492c924a; 0x492c9244; 0x80096; 0x492c9252; 0x49649204; 0x2402096; 0x49649292;
   0x4b249004; 0x12080496; 0x49249492; 0x49248024; 0x2402496; 0x4964a492; 0x49240804; 0x80412496;
   0x49652492; 0x49220000; 0x492492; 0x49092492; 0x49000000; 0x1f100a; 0x924924b6; 0x92492411;
   0x20000800; 0x92492400; 0x92492480; 0x20020104; 0xb2492004; 0x92492000; 0x24900025; 0x96590c24;
   0x92490008; 0x120024; 0x92490124; 0x92480040; 0x100024; 0x92400000; 0x1e1f01; 0xd8000;
   0x490000; 0x240000; 0x3600000; 0x12400000; 0x49000016; 0xdb600024; 0x92000092; 0x480124b6;
   0xc9224924; 0x92400490; 0x1c92592; 0x48924924; 0x92000002; 0x56492492; 0x24924924; 0x10000484;
   0xb2492489; 0x24924900; 0x80090125; 0x92592249; 0x24924124; 0x12404b2d; 0x92c89249; 0x24924020;
   0x2164924; 0x96249249; 0x24800000; 0x4924924; 0x80000000; 0x1e1b03; 0x924900; 0x2db6db00;
   0x49259201; 0x2492481b; 0x6db6d892; 0x4b249249; 0x2c9246db; 0x6db62db2; 0xc925fffb; 0x249db6db;
   0x6d9b6db2; 0x497c92c9; 0x276db6db; 0x66c92c92; 0x4924b249; 0x1b6db6d8; 0x1b0000; 0x240000;
   0x16c0000; 0x6c00000; 0x9000000; 0x5b000001; 0xb0000002; 0x40000016; 0xc000006c; 0x0].
Definition emoji_data_85 : list N :=
  [0x1a1d01; 0x6c00002; 0xd80000fe; 0x49205b6d; 0xb64b6592; 0x5279e49b; 0x6db6d925; 0x924949e6;
   0x926db6db; 0x64964925; 0x279a49b6; 0xdb6d9259; 0x24949269; 0x26db6db6; 0x49249252; 0x49a49b6d;
   0xb6d800b6; 0x2400; 0x16c000; 0x2d80000; 0x9000005b; 0xb60; 0x24000; 0x16c0000;
   0x2d000000; 0x1d1d01; 0x2c00000; 0x1b000000; 0xfd27802d; 0xb6db00b6; 0xcb6c24ba; 0x2db64;
   0x92492d92; 0x49497400; 0xdb6d924; 0x925b2492; 0x92e9008b; 0x6d964924; 0xb2492524; 0x904936db;
   0x24924924; 0x924a4924; 0x922db6db; 0x6c005b24; 0x80004800; 0xd8000; 0xb60000; 0x900000;
   0x1b000001; 0x6c000001; 0x20000036; 0xd8; 0x0; 0x1e1c03; 0x2492d80; 0x924ffc0;
   0xdb6db604; 0x925ffc12; 0x497ff8b6; 0xdb6db124; 0x9fffc492; 0x7fff2db6; 0xdb6edb67; 0xffffffdf;
   0xffdb6db6; 0xdbb649ff; 0xfff927ff; 0xf6db6db6; 0xcc927fff; 0x1249fffc; 0x925b6490; 0xb60000;
   0x480000; 0x6c00000; 0x2d800000; 0x12000001; 0xb000000b; 0x60000004; 0x8000006c; 0x40;
   0x0; 0x172000; 0x924903f; 0xfffadb6d; 0xb2db6db7; 0xfffff6db; 0x6d97db6f; 0xbe101fb6;
   0x592cb259; 0x7df010fd; 0xb2596592; 0x4b6f0087; 0xed964b2c; 0x925b7820; 0x3f6c9259; 0x6592dbc8;
   0x1fb6db6; 0xcb6db6df; 0xffff9b6d; 0xb65b6db6; 0x12d92003; 0x6c000b60; 0x6c000; 0x1b60005b;
   0x1200; 0x1f1f00; 0x248; 0x490; 0x1248; 0x1240; 0x400; 0x1200;
   0x1000; 0x2000; 0x9249000; 0x49248000; 0x92480012; 0x41248012; 0x200020; 0x480080;
   0x200480; 0x200800; 0x400400; 0x1602000; 0x3004000; 0x7002000; 0xb012000; 0x18004000;
   0x72010000; 0xdb010002; 0xd800000f; 0x120000b6; 0x24924b0; 0x4924900; 0x12492400; 0x12492000;
   0x0; 0x1f1d02; 0x924924; 0x4924924; 0x1249240; 0x25b6db60; 0x24924920; 0x9249201;
   0x24924901; 0x24924900; 0x49249059; 0x24b6d849; 0x24924882; 0x492486cb; 0x6db6d249; 0x24924412;
   0x4924365b; 0x6db69249; 0x24922000; 0x1b249; 0x24949249; 0x24910492; 0x490d9249; 0x24a49249;
   0x24882492; 0x486c9249; 0x25249249; 0x24412492; 0x43649249; 0x21249249; 0x20000000; 0x142000;
   0x249243ff; 0xfc5b6db7; 0xfffe7fff; 0xedb6db64; 0x92664926; 0xdb6db649; 0x2664926d; 0xb6db6492;
   0x664926db; 0x6db64926; 0x64926db6; 0xdb649266; 0x4926db6d; 0xb6492664; 0x926db6db; 0x64926649;
   0x26db6db6; 0xdb6e7fff; 0xe5b6db7f; 0xffc24920; 0x202000; 0x9248000; 0x7fffc000; 0xb6db6000;
   0x7ffff000; 0x7ffff000; 0xb6db6000; 0x4924b000; 0x4924b000; 0xb6db6000; 0x4924b040; 0x4924b040;
   0xb6db60b0; 0x4924b240; 0x4924b240; 0xb6db65b6; 0x4924b249; 0x4924b248; 0xb6db65b6; 0x4924b248;
   0x4924b240; 0xb6db60b0; 0x4924b040; 0x4924b000; 0xb6db6000; 0x4924b000; 0x4924b000; 0xb6db6000;
   0x5b6db000; 0x7ffff000; 0xb6db6000; 0x7fff8000; 0x9248000; 0x1f1f00; 0x12492490; 0x24924925;
   0xb6db6db4; 0x92000491; 0x2000092d; 0xb2492da4; 0x80002489; 0x492496d; 0xb6d96d24; 0x12492408;
   0x24920b2d; 0xb6c92920; 0x92492241; 0x2492596d; 0xb6594104; 0x92410209; 0x2482db6d; 0xb2ca4824;
   0x92481049; 0x24165b6d; 0x96524124; 0x92448249; 0x24b6db6c; 0xb6920924; 0x92240001; 0x25b64925;
   0xb4900004; 0x91200009; 0x2db6db6d; 0x84924924; 0x80000000; 0x1f1f00; 0x9249240; 0x92492492;
   0xdb6db6da; 0x49200044; 0x92000096; 0xdb2492d2; 0x48000224; 0x904924b6; 0xdb6d9692; 0x49249124;
   0x92492596; 0x492cb492; 0x9048904; 0x2092cb2; 0x4b25a490; 0x9244820; 0x10496db2; 0x492d2482;
   0x9224924; 0x124b6db6; 0xd9692492; 0x49124824; 0x925b6db6; 0xcb492092; 0x48924000; 0x12db6492;
   0x5a490000; 0x44920000; 0x96db6db6; 0xd2492492; 0x0; 0x202000; 0x48000; 0x2ff000;
   0xdbed80; 0x17ffec0; 0x3ffffc0; 0x7c925b0; 0xb8003d8; 0x1f8001f8; 0x37db6db4; 0x5fbffef8;
   0x7fbffffc; 0x3fdfedfe; 0x7fbff7fe; 0x7fbff9ff; 0xbfdf6dfe; 0x7fbfbbff; 0x7fbff9ff; 0xbfdb7dfe;
   0x7fbdfbff; 0x7fbff9fe; 0x3fdbfdfe; 0x5faffbf8; 0x1ffff9f8; 0x36db6df4; 0x1f6003f8; 0xf8003f8;
   0x6c925b0; 0x3edb7c0; 0x1ffffc0; 0xdbed80; 0x2db200; 0x48000; 0x1f2000; 0x12492490;
   0x24924925; 0xb6db6db5; 0xb6db6db9; 0x2492492d; 0xb6db6dad; 0xb6db6dc9; 0x24924965; 0xb6db6d61;
   0xb6db6e41; 0x24924b2c; 0xb6db6b0c; 0xb6db7201; 0x24925965; 0x96db5864; 0x16db9008; 0x2492cb2c;
   0xb6dac320; 0x86dc8041; 0x4965964; 0x96d61904; 0x32e40208; 0x20b2cb24; 0x96b2c925; 0x97249249;
   0x25b6db6d; 0xb5b6db6d; 0xb9249249; 0x2db6db6d; 0x8db6db6d; 0x89249248; 0x201804; 0x120;
   0x92496d8; 0x3ffffffc; 0x6ffff92e; 0xcb6db24b; 0x6f92592e; 0x7e9e4ffe; 0xdb6d96db; 0x7cf6cbfe;
   0x7df2e3fe; 0xdb6db6db; 0x7db6fbfe; 0x79927bfe; 0xdb6db2db; 0x7db6fbfe; 0x7df2fbfe; 0xd96db6db;
   0x7cf7cbfe; 0x7cbfcffe; 0xdb2d96db; 0x7f925ffe; 0x7ff2fffe; 0x5b6db6db; 0x2db6db6c; 0x201a02;
   0x80; 0x8200; 0x8000; 0x12492490; 0x5fff9048; 0x4fff900e; 0x96db6496; 0x4f24805f;
   0x7f2c800b; 0xb6db2496; 0x796db05b; 0x79e5d25f; 0xb2db65b6; 0x7bed925f; 0x79e493cf; 0xb2db65b6;
   0x79edb3ff; 0x79e4f3ff; 0xb6db65b6; 0x797df7ff; 0x7f7f9fff; 0xb65b2db6; 0x7f24bfff; 0x7fe5ffff;
   0xb6db6db6; 0x5b6db6d8; 0x201a05; 0x4924000; 0xb6db6000; 0xb6db6000; 0x6db6d800; 0xb6db6000;
   0xb6db61e0; 0x6db6db64; 0xb6db61f6; 0x82db67fe; 0x4924b6d; 0xffe; 0x3fffffe; 0x5b6db6d;
   0x3fffffe; 0x3fffffe; 0x5b6db6d; 0x3db6df6; 0x3dffdf0; 0x5b6db60; 0x3dffdf0; 0x3dffdf0;
   0x5b6db60; 0x3dffdf0; 0x3dffdf0; 0x1b6db60; 0xcb6c80; 0x1e1d02; 0x402c00; 0x80c000;
   0x3830000; 0x6580000; 0x5800024; 0x9e490b6d; 0xb6db1ffb; 0x6dfe7f24; 0x93fadb6d; 0xb6df9249;
   0x279e4924; 0x9eb6db6d; 0xb7e49249; 0x67924927; 0xadb6db6d; 0xf9249259; 0xe49249eb; 0x6db6db7e;
   0x49249679; 0x24927adb; 0x6db6df92; 0x49279e49; 0x24beb6db; 0x6db77db6; 0xdf65ffff; 0xfdadb6db;
   0x6c1b6db6; 0xc0000000; 0x201e01; 0x1000; 0x2000; 0x1400; 0x600; 0x500;
   0x380; 0xc0; 0xa0; 0x9249248; 0x49249248; 0xb6db6db6; 0x4be4b659; 0x4fe4f778;
   0xb6db6db6; 0x5b7cb249; 0x5b7c9248; 0xb6db6db6; 0x5b7cf679; 0x4fe4b248; 0xb6db6db6; 0x4b24b659;
   0x4924f778; 0xb6db6db6; 0x4b649249; 0x4f64b248; 0xb6db6db6; 0x4be4b679; 0x4be49248; 0xb6db6db6;
   0x49249248; 0x201505; 0x24924924; 0x3ffffffe; 0xfffffffe; 0x6db6db6d; 0xfffffffe; 0xf7fffffe;
   0x6ff6dbe5; 0xf7f92ff6; 0xdff92df2; 0x6fb24b7d; 0x9ef92df2; 0xdff92df2; 0x6fb24be5; 0xf7fb6ff6;
   0xf7fffff6; 0x6db6db6d; 0xfffffffe; 0xfffffffe; 0x7ffffffc; 0x3ffffffe; 0x12492490; 0x1e1e01].
Definition emoji_data_86 : list N :=
  [0x5800000; 0x1fc00001; 0xb6c0000f; 0x47004031; 0x1e0be14d; 0xb05b665f; 0x61e39ff1; 0x8ece5b44;
   0x32d88219; 0xcfb30de7; 0x38c65b6d; 0xb60dffff; 0xe81fffff; 0xc036db6d; 0x1867fe58; 0x619ff943;
   0x6db6db07; 0xfffffe1f; 0xfffff0db; 0x6db6c1f7; 0xdb6f871d; 0x249c30db; 0x6db001b2; 0x4be00749;
   0x270016db; 0x6c002c92; 0xc0001248; 0x9248; 0x0; 0x1f2000; 0x480000; 0xd90000;
   0x7ff0000; 0x36db6000; 0xb64b4001; 0xe003c001; 0x800b6005; 0x3600e; 0x3c02c; 0xb6020;
   0x340e0; 0x70160; 0xb0300; 0xb0300; 0xe0b00; 0x181a00; 0x181c00; 0x381800;
   0x585800; 0xc0f000; 0x1804800; 0x6c04800; 0x16009c00; 0x3c16db25; 0xb0be5b6d; 0xa1f89ffd;
   0x5b01b28; 0xfe00000; 0xf800000; 0x2d000000; 0x20000000; 0x202000; 0x12492490; 0x5b6db6d8;
   0x49249248; 0xb6db6db6; 0x5b6db6db; 0x49249249; 0xb6cb6db6; 0x5b0db6db; 0x48009049; 0xb64964b6;
   0x5800805b; 0x48000049; 0xb64925b6; 0x5b0c16db; 0x49241249; 0xb6db2db6; 0x5b6d96db; 0x49248249;
   0xb6cb25b6; 0x5b0d82db; 0x48008049; 0xb64964b6; 0x5800b05b; 0x48009049; 0xb64b6db6; 0x5b0db6db;
   0x49249249; 0xb6db6db6; 0x5b6db6db; 0x49249248; 0x36db6db6; 0x9249248; 0x1f2000; 0x24924924;
   0x6db6db6c; 0x4924924b; 0x6db6db6b; 0x6cb6db72; 0x4924925b; 0x65b6db5b; 0x492db90; 0x92d9;
   0x2492dad8; 0x2480dc90; 0x490096d9; 0x6d92d659; 0x6d82e412; 0x4904b65b; 0x6d96b05b; 0x6c172092;
   0x4825b2db; 0x6cb582db; 0xcb90092; 0x92d9249; 0x2dad8000; 0x5c90000; 0x96db249; 0x6d6db6c1;
   0x6e492482; 0x4b6db6db; 0x6b6db6db; 0x62492492; 0x4b6db6db; 0x9249248; 0x1f2000; 0x12492490;
   0xb6db6db1; 0x24924925; 0xb6db6dbd; 0xb2db6d89; 0x2092492d; 0x96db6dec; 0x124b6c48; 0x24964;
   0x92496f60; 0x12016240; 0x24824b65; 0xb6cb7b65; 0xb6cb1049; 0x2482596d; 0xb6dbc16d; 0xb6d88249;
   0x92cb6c; 0x92dec36c; 0x32c48240; 0x2096c965; 0x96f60140; 0x6248200; 0x4b6cb2c; 0xb7b6db00;
   0xb1249201; 0x25b6db6d; 0xbdb6db6d; 0x89249249; 0x2db6db6c; 0x24924924; 0x202000; 0x12492490;
   0x5b6db6d8; 0x49249248; 0xb6db6db6; 0x5b6cb6db; 0x49201249; 0xb6c92cb6; 0x5b00305b; 0x49009049;
   0xb64b6496; 0x5b0d800b; 0x49048049; 0xb65b6cb6; 0x5b2db05b; 0x49049049; 0xb65b6cb6; 0x5b2db05b;
   0x49049049; 0xb65b6cb6; 0x5b2db05b; 0x48049049; 0xb24b64b6; 0x5805b0db; 0x48048049; 0xb65925b6;
   0x5b2c02db; 0x49201249; 0xb6db6db6; 0x5b6db6db; 0x49249248; 0x36db6db6; 0x9249248; 0x1f2000;
   0x24924924; 0x6db6db6c; 0x4924924b; 0x6db6db6b; 0x6c825b72; 0x4800125b; 0x64924b5b; 0x904b92;
   0x92012d9; 0x2db25ac1; 0x6db05c82; 0x4900964b; 0x6d92d61b; 0x6db6e412; 0x4924b25b; 0x6d96b2db;
   0x6d872492; 0x4905b6db; 0x6cb5925b; 0x60b90092; 0x412c92db; 0x25ac06db; 0x5c80490; 0x96c9249;
   0x6d640001; 0x6e490002; 0x4b6d925b; 0x6b6db6db; 0x62492492; 0x4b6db6db; 0x9249248; 0x191903;
   0x80000; 0x12000000; 0x20100; 0x824100; 0x41208049; 0x24800249; 0x10080; 0x1009002;
   0x40240100; 0x2092002; 0x4a400090; 0x20004024; 0x400900; 0x90008040; 0x924801; 0x24920082;
   0x41008241; 0x20200040; 0x0; 0x8000000; 0x1f1f00; 0x10000; 0x10000; 0x20000;
   0x80000; 0x80400; 0x20100800; 0x80402400; 0x80012001; 0x24000; 0x92490000; 0x92400001;
   0x20800004; 0x82400004; 0x2400008; 0x804920; 0x2494820; 0x2480040; 0x4000120; 0x10000120;
   0x90000241; 0x924; 0x80004124; 0x80008001; 0x20024100; 0x80120100; 0x80040201; 0x100800;
   0x800; 0x1000; 0x4000; 0x0; 0x1a1e01; 0x1000000; 0x24; 0x80480;
   0x3000000; 0xc0920160; 0x12406000; 0x180249; 0x6c00492d; 0x80000f20; 0x925b001; 0x25b20001;
   0x648024b6; 0xc004b248; 0x2c9200; 0x965b0016; 0x49200582; 0x4802c96c; 0xc92480; 0x30000059;
   0x20001924; 0x60000; 0xb240001; 0x4800000; 0x80; 0x0; 0x121c03; 0x20002400;
   0x90; 0x920000; 0x24966; 0x49640009; 0x925b925; 0x90002424; 0x96e49640; 0x90925b;
   0x92590002; 0x42496e49; 0x24000009; 0x20092000; 0x2400; 0x24000000; 0x800000; 0x191c03;
   0x400000; 0x90000000; 0x900; 0x124000; 0x41; 0x24b01249; 0x64400012; 0x4024b6d0;
   0x492c8800; 0x2480496; 0xda092591; 0x4900; 0x92db4124; 0xb2200009; 0xc125b61; 0x24924000;
   0x248; 0x49000; 0x0; 0x48000090; 0x0; 0x80000; 0x1f1e01; 0x10000;
   0x0; 0x90000; 0x10090000; 0x20000001; 0x90490004; 0x10490008; 0x24; 0x12496c04;
   0x82492409; 0x24b24; 0x124b6004; 0x12492000; 0x125b20; 0x925b4000; 0x92490000; 0x92c904;
   0x92d80104; 0x92481200; 0x4924324; 0x96c24024; 0x92440000; 0x164124; 0x100124; 0x40000;
   0x100900; 0x900; 0x0; 0x4000; 0x0; 0x141f00; 0x1200009; 0x0;
   0x12402492; 0x40000049; 0x24924924; 0x24924db2; 0xdb249242; 0x4024d925; 0xb2000420; 0x4d925b;
   0x24924240; 0x24db2db2; 0x49242492; 0x4db6db24; 0x92420004; 0xd925b200; 0x424924d; 0xb6db2492;
   0x40000049; 0x24900000; 0x1b1f01; 0x800; 0x10000; 0x400000; 0x20000004; 0x100;
   0x58008; 0xf00100; 0x2d004007; 0xe02001ff; 0x400b6d1; 0x1fff80; 0x7fff000; 0xdb6d003f;
   0xffc007ff; 0xfc016db6; 0x3fff00; 0x7ffc000; 0xb6d8001f; 0xfc0003fc; 0xdb00; 0x3c8000;
   0xf000001; 0x60000030; 0x600; 0x1a000; 0x80000; 0x0; 0x1f2000; 0x4800;
   0x24900; 0x49200; 0xb6db00; 0xb24900; 0x1201200; 0xd924b00; 0x2c924900; 0x48001201;
   0x64925801; 0x24925802; 0x900b; 0x2492c009; 0x2492c010; 0x48059; 0x24960059; 0x24920090;
   0x2000d9; 0x25b00049; 0x24800492; 0x4900b6db; 0x6c01b049; 0x20036012; 0x2db000; 0x6d8000;
   0xdb0000; 0x36c0000; 0xb600000; 0x6c00000; 0xb000000; 0x8000000; 0x1f1f01; 0xb64000;
   0x4b24000; 0x9248000; 0x6c96c001; 0x64924002; 0x4004800b; 0x24968009; 0x24920010; 0x400c9;
   0x249602c9; 0x24900080; 0x200649; 0x24b00249; 0x24800400; 0x1001649; 0x2d801249; 0x24002400;
   0x4800364b; 0x60001249; 0x24002492; 0x580036d9; 0x6c001241; 0x6c000002; 0xd800000b; 0x6c00000b;
   0x6c000002; 0xd800000b; 0x6000000b; 0x60000002; 0x40000009; 0x0; 0x201d03; 0x800;
   0x9240; 0x24900; 0x24120; 0x48040; 0x20020; 0x20020; 0x40048; 0x20020;
   0x20020; 0x40048; 0x124924; 0x124924; 0xd82db249; 0x7816d924; 0x78b6d924; 0xdb6db6c9;
   0x7db6db24; 0x7fb24924; 0xdb6cb6d9; 0x7fb24924; 0x7fb25b24; 0xdb6db6c9; 0x7db6db24; 0x7896d924].
Definition emoji_data_87 : list N :=
  [0xd82db249; 0x6012c924; 0x124924; 0x49248; 0x1f1f01; 0xdb00000; 0x2cb00000; 0x48208003;
   0x61b24803; 0x65b24812; 0x4920901b; 0x6d80485b; 0x6d804092; 0x490080db; 0x6c0040db; 0x68024092;
   0x400082db; 0x600202db; 0x24920092; 0x492402d9; 0x249202c9; 0x24920492; 0x492016c9; 0x24901649;
   0x24902492; 0x49003649; 0x2480b249; 0x24812492; 0x4805b249; 0x24059249; 0x24092492; 0x402d9249;
   0x202c9249; 0x92492; 0x249248; 0x0; 0x1f1f01; 0x5b60000; 0xdb60000; 0x49240001;
   0x65b60003; 0x5b60002; 0x9240018; 0x2db00059; 0x6db00012; 0x492000db; 0x6d8002db; 0x6d800092;
   0x490006db; 0x6c0006db; 0x6c000492; 0x480016db; 0x6c0006db; 0x6c000492; 0x4800024b; 0x68000003;
   0x60000002; 0x4800000b; 0x6c000003; 0x6c000002; 0x4800000b; 0x6c000003; 0x6c000002; 0x4800000b;
   0x60000003; 0x60000002; 0x1; 0x0; 0x171d03; 0x240000; 0x92000492; 0x80400;
   0x24120120; 0x12020004; 0x9001008; 0x101000; 0x20480080; 0x49248092; 0x49024924; 0x924924a4;
   0x92499249; 0x24924925; 0x24924c92; 0x49249249; 0x29249264; 0x92492492; 0x49492493; 0x24924924;
   0x92484924; 0x81249200; 0x161f01; 0x2480024; 0x90009240; 0x4824008; 0x802002; 0x1001012;
   0x800; 0x400004; 0x80000200; 0x100001; 0x24920492; 0x49249248; 0x49249124; 0x92492492;
   0x52492449; 0x24924924; 0x94924912; 0x49249249; 0x25249244; 0x92492492; 0x49492491; 0x24924124;
   0x92000000; 0x191f01; 0x120000; 0x4800002; 0x40001248; 0x49200; 0x12490012; 0x49200492;
   0x40024920; 0x2492400; 0x92490049; 0x24004924; 0x80124920; 0x9249009; 0x24901249; 0x24092492;
   0x9249242; 0x49248124; 0x92492492; 0x4a492493; 0x24924924; 0x92490000; 0x0; 0x24000;
   0x900000; 0x40000048; 0x0; 0x1a1f01; 0x40000; 0x4800001; 0x20000092; 0xb009243;
   0x2492c0; 0x12496012; 0x49600492; 0x5802492c; 0x492d80; 0x124b2009; 0x25900125; 0xb2004964;
   0x8024b248; 0x4b64801; 0x2c920096; 0x492096c9; 0x24259249; 0x12c92492; 0xd92490b2; 0x49245924;
   0x92580000; 0x6000003; 0x920000; 0x12000004; 0x80000040; 0x0; 0x1e1f01; 0x24924920;
   0x49249240; 0x109; 0x2db24982; 0xdb24900b; 0xfc92424b; 0x6c9264b6; 0xc92400ff; 0x9092db;
   0x24992db2; 0x49003fc0; 0x2424b6c9; 0x264b6c92; 0x400ff009; 0x92db249; 0x92db2490; 0x3fc0242;
   0x4b6c9264; 0xb6c92400; 0xe3009092; 0xcb24992c; 0x92490010; 0x40242492; 0x49244924; 0x92400000;
   0x9012492; 0x49024924; 0x90080002; 0x40092492; 0x0; 0x1e1f01; 0xb200000; 0x92400002;
   0x49000016; 0x5b000020; 0x12000080; 0x48000c00; 0xd8000800; 0x2000; 0x16016; 0xc0024124;
   0x80090492; 0x1b2cb6; 0x124024; 0x490090; 0xd80db0; 0x904920; 0x2412480; 0x6db0d80;
   0x4900900; 0x12402400; 0x12006000; 0x4024000; 0x90010001; 0xb0180001; 0x20900004; 0x8200000d;
   0xb6000009; 0x20000024; 0x20; 0x0; 0x1f2000; 0x48000; 0xb6d800; 0x5b6d800;
   0x1b6db000; 0x6db6d801; 0x6db6d806; 0xdb6db01b; 0x6db6d85b; 0x6db6d8b6; 0xc96db2db; 0x24b6d6db;
   0x24b6cdb0; 0x6d96d9; 0x24b6f6c9; 0x24b66d80; 0x16cb649; 0x25b7b649; 0x25b36c00; 0xb65b649;
   0x2dbdb649; 0x6d8b6c02; 0xdb2db65b; 0x6c2db6db; 0x6c1b6db6; 0xd02db6db; 0x602db6db; 0x5b6db6;
   0x2db6d8; 0x2db6c0; 0xb6c00; 0x49000; 0x201f01; 0x580; 0x7c0; 0x7fffffc0;
   0xb6db6db0; 0x7ffffff8; 0x7fffffff; 0xb6db6db6; 0x7ffffff8; 0x7ffffff8; 0xb6db6db0; 0x5b6db7c0;
   0x700; 0x400; 0x0; 0x0; 0x0; 0x0; 0x0; 0x0;
   0x0; 0x0; 0xa2582c36; 0x736c1c5b; 0x3b063463; 0x16032436; 0xf01b65f; 0x1b03366b;
   0x32036da6; 0x7366f64b; 0x437cc37f; 0x82580192; 0x202000; 0x400; 0xb00; 0x780;
   0x3fffffc0; 0x6db6db60; 0xfffffffe; 0xfffffffe; 0x6db6db6c; 0xfffffffe; 0xfffffff0; 0x6db6db60;
   0x36db6f80; 0x780; 0xb00; 0x400; 0x0; 0x0; 0x0; 0x2400010;
   0x2da60b6c; 0x3ecf0ebe; 0x30ee0e06; 0x60b61b05; 0xf0cf3e16; 0xe06e667e; 0x60b6cb6d; 0xf0cfe616;
   0x706f8606; 0x6cb6cb25; 0x3ecf06b6; 0x1fcf06fe; 0x4820024; 0x1f1f01; 0x2c00c00; 0x7c03c00;
   0x3fffff00; 0xb6db6d87; 0xffffff9f; 0xffffffad; 0xb6db6dbf; 0xfffffc1f; 0xffffe02d; 0xb6db402f;
   0xb6ff000e; 0x70000c; 0xc00000; 0x0; 0x0; 0x4000; 0x201860e; 0xf82182c;
   0x36c6187c; 0xf3cc70fb; 0x8190c365; 0x2f0cfec; 0x763bbd8; 0x686d368; 0x1787cf60; 0x311f1ee0;
   0x64361965; 0x8c3079ef; 0x98e0e0fc; 0x20804160; 0x0; 0x202000; 0x200000; 0xc00000;
   0x1e00000; 0x3fffffe; 0x16db6db6; 0x5fffffff; 0x7fffffff; 0xb6db6db6; 0x5fffffff; 0xfffffff;
   0x6db6db6; 0x3edb6d8; 0x1e00000; 0x400000; 0x200000; 0x0; 0x0; 0x0;
   0x0; 0x0; 0x0; 0x0; 0x2080410; 0x432c1618; 0x4366331e; 0x86436186;
   0x4b61a09f; 0x5b41e0f8; 0xb2c361b0; 0x43653378; 0x433e1e1f; 0x82180c16; 0x201f01; 0x2c000;
   0x3e000; 0x3e000; 0x6c000; 0xfe000; 0xff000; 0x16d800; 0x1ffc00; 0x7ffc00;
   0x36da00; 0xff400; 0xff000; 0x16d800; 0xff000; 0xfe000; 0x0; 0x0;
   0x12016092; 0x2d86d96d; 0x37cf7db6; 0xf1dc3c30; 0x61941820; 0xf2d80c30; 0x73d80c30; 0x6db00a20;
   0x17d80c30; 0x1dc1c30; 0x1965820; 0x2cbf830; 0x83e030; 0x4000; 0x202000; 0x92000;
   0x1fec00; 0xb7db00; 0x2fffd80; 0x3ffff80; 0xdffff60; 0x17ffffb0; 0x1fcffff0; 0x2f93fb2c;
   0x3e01e5b6; 0x3c00fc3e; 0x7cb2f97c; 0x3c786dfe; 0xfc78e1fe; 0x7c92d9fd; 0xbe0161fe; 0xfe03e1fe;
   0x7cb6f9fd; 0xb87b61fe; 0x387861fe; 0x7cb279fc; 0x385861fe; 0x3cc061fc; 0x2d92f9ec; 0x16cbf1f0;
   0x17dffff0; 0xdffffe0; 0x2ffff80; 0x2ffff80; 0xb7db00; 0x5b6c00; 0x12000; 0x1f2000;
   0x49249248; 0x92492492; 0xdb6db6de; 0xdb6db6c4; 0x92492496; 0xdb6db6f6; 0x416c9224; 0x4804b2;
   0x49649780; 0x41609100; 0x82412596; 0xcb25bc16; 0xb058824; 0x20924b6; 0x592de0b6; 0x182c4120;
   0x104925b2; 0x496f0580; 0xc1620900; 0x824b2d96; 0x4b782c16; 0xb100824; 0x125924b2; 0x5bd801b0;
   0x58900120; 0x92d92db6; 0xdedb6db6; 0xc4924924; 0x96db6db6; 0xd6db6db6; 0x4924920; 0x202000;
   0x9249248; 0x49249248; 0xb6db6db6; 0x5b25b2db; 0x48009049; 0xb64b6cb6; 0x5865b25b; 0x48209209;
   0xb64b65b6; 0x5805b21b; 0x48208209; 0xb2cb6496; 0x5825820b; 0x48008209; 0xb64b6d96; 0x5b6d96db;
   0x49249249; 0xb64b64b6; 0x5801805b; 0x48208209; 0xb2db6d96; 0x5961b60b; 0x49209209; 0xb2db6d96].
Definition emoji_data_88 : list N :=
  [0x5961b60b; 0x48209209; 0xb24b6496; 0x5801805b; 0x49008049; 0xb6db6db6; 0x5b6db6d8; 0x9249248;
   0x1f2000; 0x12492490; 0x24924925; 0xb6db6db5; 0xb61b6db9; 0x2412492d; 0xb65b6dad; 0x90d92dc9;
   0x80096c; 0x92c92d60; 0x86882e41; 0x4104b65; 0x96596b04; 0x34417200; 0x20025b24; 0xb25b5b2d;
   0xb65b9249; 0x2492d96d; 0xb6dac16d; 0xb6dc8249; 0x2496c96c; 0x96d6006c; 0x16e41049; 0x4b6596d;
   0x96b0416c; 0x37208248; 0x25b2cb25; 0xb5801b05; 0xb9009209; 0x2db6db6d; 0x8db6db6d; 0x89249248;
   0x1f2000; 0x49249248; 0x92492492; 0xdb6db6de; 0xd96d96c4; 0x80490496; 0x496c96f6; 0x196cb624;
   0x124924b6; 0x5b65b7b0; 0x5b65b120; 0x924925b2; 0xdb2dbd90; 0x5b2d8900; 0x92492c92; 0xd96dedb6;
   0xd96c4924; 0x92496cb6; 0xcb6f60b6; 0x1624124; 0x24b65b6; 0xcb7b01b0; 0x5b120120; 0x925b65b2;
   0xdbd80586; 0xd8900904; 0x92c92c92; 0xdec36c02; 0xc4824804; 0x96db6db6; 0xd6db6db6; 0x4924920;
   0x202000; 0x9249248; 0x49249248; 0xb6db6db6; 0x596d924b; 0x48248001; 0xb2db2496; 0x586db6db;
   0x48249249; 0xb6db2496; 0x586d800b; 0x48048001; 0xb64b6cb6; 0x5805b05b; 0x48049049; 0xb64b6cb6;
   0x5b6db6db; 0x49249249; 0xb2cb6cb6; 0x5901b01b; 0x48009209; 0xb6496596; 0x5b25b01b; 0x49249009;
   0xb65b6c96; 0x592d80cb; 0x400480c9; 0xb24b6596; 0x4065800b; 0x48248009; 0xb6db6db6; 0x5b6db6d8;
   0x9249248; 0x1f2000; 0x12492490; 0x24924925; 0xb6db6db5; 0xb6db6db9; 0x2492492d; 0xb6db6dad;
   0xb6db6dc9; 0x2492496d; 0xb6db6d6d; 0xb61b6e49; 0x24124b6d; 0xb6db6b2d; 0x90497008; 0x592c;
   0x96495b21; 0x80439201; 0x82d92d; 0xb2cad90c; 0x21c0200; 0x164b25; 0x92d65b25; 0xb2e49249;
   0x24b6db6d; 0xb6b6db6d; 0xb7249249; 0x25b6db6d; 0xb5b6db6d; 0xb9249249; 0x2db6db6d; 0x8db6db6d;
   0x89249248; 0x1d1d02; 0x180000; 0x1008000; 0x8000001; 0xb0180002; 0x1000010; 0x8000365;
   0xb0402492; 0x12490; 0x6db60; 0x80492402; 0x492018; 0xdb6cb20; 0x12492500; 0x9249365b;
   0x2db64924; 0x924a4924; 0x926db25b; 0x2c924924; 0x94924924; 0x99649258; 0x24924901; 0x24924812;
   0x49248009; 0x24900049; 0x24800092; 0x48000249; 0x0; 0x1f1c03; 0x208; 0x0;
   0x9040; 0x18200; 0x90000; 0x2d8040; 0x658200; 0x2c90000; 0xb6d8000; 0xb658000;
   0x16c90002; 0x5b6c0006; 0x5b600024; 0x96c00036; 0xdb000092; 0x5a000124; 0x800005b6; 0x2492;
   0x4920; 0x16d80; 0x92480; 0x124800; 0x5b6000; 0x492000; 0x120000; 0x580000;
   0x480000; 0x0; 0x1f1f00; 0x80; 0x900; 0x2c00; 0x2000; 0x24000;
   0x30000; 0x90080; 0x120100; 0x5b0c00; 0x492400; 0x924800; 0x6db6000; 0x12490000;
   0x24920001; 0xb6400004; 0x92000009; 0x2000016d; 0x80000924; 0x80009248; 0x2db60; 0x24920;
   0x49200; 0x305b00; 0x804800; 0x9000; 0xd000; 0x24000; 0x48000; 0x360000;
   0x900000; 0x0; 0x1d1c02; 0xb2000; 0x6d8000; 0x2c0000; 0xd80000; 0x3600000;
   0x1b000000; 0xb6000006; 0xd8000016; 0xc0000b6d; 0x800025b6; 0x121b0; 0x360b00; 0x2406000;
   0x12010003; 0x60000024; 0x120; 0x3600; 0x24000; 0x120000; 0x3600000; 0x24000001;
   0x20000036; 0x240; 0x1200; 0x16000; 0x0; 0x1e1d02; 0x800; 0x9000;
   0x0; 0x124000; 0x248000; 0x0; 0x1920000; 0x19240000; 0x6410000b; 0x6db00436;
   0xc9000049; 0x40092d8; 0x20012580; 0x1200; 0x24b000; 0x490000; 0x3008000; 0x1b2c0000;
   0xb2480006; 0x492000b6; 0xcb00036c; 0x10000490; 0x6d80; 0x2d800; 0x92000; 0x1b0000;
   0x100000; 0x0; 0x1d1f00; 0x40; 0x700; 0x16c00; 0xcf000; 0xe78000;
   0x16d80000; 0xff600007; 0xf800006d; 0x80000630; 0x7d80; 0x6d800; 0x5f0000; 0x2780000;
   0x25800000; 0x90000000; 0x80000248; 0x920; 0x0; 0x249200; 0x924000; 0x0;
   0x49200009; 0x24000000; 0x492; 0x9240; 0x0; 0x492000; 0x1200000; 0x0;
   0x1f1903; 0x200; 0x2492400; 0x5b6db642; 0x4924924c; 0x12492492; 0x5b2492f2; 0x49249224;
   0x124924b2; 0xdb6d9092; 0x4b6d8024; 0x924800b2; 0xc0600092; 0x9000124; 0x120005b0; 0xa000490;
   0x48000924; 0x90006d92; 0x40012480; 0x24800; 0xb6c00; 0x92000; 0x124000; 0x5b6000;
   0x490000; 0x0; 0x1a1e01; 0x8000024; 0x480; 0x12000; 0xb64000; 0x16480000;
   0x92000049; 0x20000924; 0x24900; 0x1249000; 0x24920009; 0x20800592; 0x40009248; 0x20120b;
   0x304b0582; 0x961a080; 0x4160c000; 0xb0080034; 0x2002c01; 0x6c960024; 0x96800125; 0x8201b6c3;
   0x60924025; 0x249248b6; 0xdb6d9249; 0x24900000; 0x1e1e01; 0x20; 0x140; 0x1f00;
   0xfe00; 0x16d800; 0x16ff000; 0xfffc001; 0x6db60016; 0xdb60007f; 0xfc0002db; 0x60002db6;
   0x1ffc0; 0x2db600; 0x2db2000; 0x1ffc9000; 0xdb658001; 0xf0090003; 0xc0240016; 0x36c0000;
   0x1ff80000; 0x7fe00002; 0xdb200004; 0x92000012; 0x8000586; 0x18000824; 0x90002080; 0x40016182;
   0xc0020904; 0x0; 0x1c2000; 0x90000; 0x2480001; 0x2490002d; 0xb6c00925; 0x92009259;
   0x2016db6d; 0x80964924; 0x9649243; 0x6db6d84b; 0x6c9244b6; 0xc924b6db; 0x6db4b6d9; 0x24496592;
   0x4b6db6db; 0x4925b244; 0x925b2436; 0xdb6d8092; 0x5b240924; 0x92016db6; 0xd8092492; 0x124920;
   0x6db6c00; 0xb249600b; 0x64be016d; 0xb6d80b6d; 0xb6009249; 0x2016db6d; 0x80924920; 0x1f2000;
   0x12492490; 0xb6d96db1; 0x6d80db65; 0xb6c96dbd; 0xb6016d9b; 0x6c02db2d; 0xb2cb6de4; 0x82492cc0;
   0x924; 0x92492f2c; 0x36082619; 0x6c104b25; 0xb64b7804; 0x960b3008; 0x416596c; 0x965bd860;
   0x10598040; 0x20b2c965; 0x92de1965; 0x90cc30d8; 0x20924924; 0x92f00000; 0x2600000; 0x4b6cb2d;
   0xb7b6cb2d; 0xb36d805b; 0x65b6c96d; 0xbdb6036d; 0x8b6c96db; 0x2db6db6c; 0x24924924; 0x162000;
   0x80000700; 0x5c0003; 0x2c001bc8; 0x872006; 0x96032f2; 0x4101c90c; 0x24b64bc; 0x92007248;
   0x92492f; 0x24801c92; 0x24924b; 0xc9200724; 0x80092492; 0xf24801c9; 0x2002c924; 0xb4920106;
   0x480c1649; 0x60248200; 0x321800b2; 0xc0012400; 0x1b00005; 0x80000800; 0x1d1d01; 0x40000;
   0x200000; 0x2400000; 0x49000002; 0x48000024; 0x90000092; 0x40000490; 0x900; 0x402410;
   0x2010080; 0x24120904; 0x90402404; 0x2010048; 0x24120000; 0x80400004; 0x41249; 0x20904924;
   0x12924920; 0x89249249; 0x24924920; 0x24924802; 0x49249009; 0x24920009; 0x24800012; 0x48000009;
   0x40; 0x0; 0x202000; 0x1b6db6d8; 0x7ffffffc; 0x7ffffffe; 0xdb6db6db; 0x7ffffffe].
Definition emoji_data_89 : list N :=
  [0x7c92497e; 0xd924925b; 0x7c92493e; 0x7c00003e; 0xd924925b; 0x7c92493e; 0x7c00003e; 0xd924925b;
   0x7c92493e; 0x7c00003e; 0xd924925b; 0x7c92493e; 0x7c00003e; 0xd924925b; 0x7c92493e; 0x7c00003e;
   0xd924925b; 0x7c92493e; 0x7c00003e; 0xd924925b; 0x7c92493e; 0x7c92497e; 0xdb6db6db; 0x7ffffffe;
   0x7ffffffe; 0x5b6db6da; 0x24924924; 0x1f1f00; 0x12492490; 0x12492490; 0x4; 0x92492494;
   0x92492480; 0x24924824; 0xb6db64a5; 0xffffe403; 0xffffc12d; 0xb6db652f; 0xffff201f; 0xfffe096d;
   0xb6db297f; 0xfff900ff; 0xfff04b6d; 0xb6d94bff; 0xffc807ff; 0xff825b6d; 0xb6ca5fff; 0xfe403fff;
   0xfc12db6d; 0xb652ffff; 0xf201ffff; 0xe096db6d; 0xb297ffff; 0x90049249; 0x4924924; 0x94924924;
   0x80000000; 0x4924924; 0x80000000; 0x1f2000; 0x24000; 0xb6d800; 0x1fff000; 0xdb6d800;
   0x2db6d800; 0xfffffe03; 0x6db6d80b; 0x6db6d81f; 0xfffff85b; 0x6db6d8db; 0x6db6d9ff; 0xfffff6db;
   0x6db6d6db; 0x6db6ffff; 0xffffb6db; 0x6db6b6db; 0x6db7ffff; 0xfffdb6db; 0x6db1b6db; 0x6db3ffff;
   0xffedb6db; 0x6d8db6db; 0x6d8fffff; 0xfc2db6db; 0x6c2db6db; 0x601fffff; 0xc02db6db; 0x2db6d8;
   0xfff80; 0xdb600; 0x9000; 0x1f2000; 0x92000; 0x492000; 0x4924800; 0x16db6c00;
   0x92492401; 0x24924805; 0xb6db6c04; 0x92492049; 0x2492496d; 0xb6db6124; 0x92492249; 0x24924b6d;
   0xb6db6924; 0x92491249; 0x24925b6d; 0xb6db4924; 0x92489249; 0x2492db6d; 0xb6da4924; 0x92449249;
   0x2496db6d; 0xb6124924; 0x92249249; 0x2436db6d; 0xb0124924; 0x80249249; 0x36db6c; 0x124920;
   0x249240; 0x16d900; 0x24000; 0x1e1e01; 0x10000; 0x40000; 0x16c0000; 0x2480000;
   0x9200002; 0xdb600004; 0x92400012; 0x490005b6; 0xdb000924; 0x92002492; 0x480b6db6; 0xd8124924;
   0x90492492; 0x46db6db6; 0xe4924924; 0x12492490; 0xb6db6d81; 0x24924800; 0x92492005; 0xb6db0009;
   0x24900004; 0x9240002d; 0xb6000049; 0x20000024; 0x8000016c; 0x240; 0x100; 0x800;
   0x0; 0x1d1e01; 0x40000; 0x200000; 0x6c00000; 0x49000002; 0x4800006d; 0xb0000492;
   0x40002492; 0x6db6c; 0x492490; 0x2492480; 0x6db6db04; 0x92492424; 0x924922db; 0x6db6c924;
   0x92494924; 0x9245b6db; 0x6d824924; 0x90124924; 0x16db6d8; 0x924900; 0x4924000; 0x5b6d8000;
   0x24900001; 0x24000016; 0xd8000009; 0x40; 0x480; 0x0; 0x111108; 0x120016c;
   0x480124; 0x816db049; 0x2124936d; 0xb64924a4; 0x924db6c1; 0x24809240; 0x16c00480; 0x2400040;
   0x0; 0x121207; 0x400010; 0x5b0009; 0x2002480b; 0x6d812490; 0x49246db6; 0xe4924124;
   0x90b6d812; 0x48009200; 0x5b000900; 0x400020; 0x0; 0x161007; 0x200000; 0x80000d80;
   0x5b0001; 0x24000b6c; 0x36d000; 0x492016db; 0x2db600; 0x92480db6; 0xd85b6db1; 0x24924b6d;
   0xb6d24924; 0x151007; 0x92492492; 0x491b6db6; 0x6db6c124; 0x9216db60; 0x5b6d8049; 0x2005b6c0;
   0x16d80092; 0x40036c00; 0xd800024; 0x2c000; 0xb000000; 0x202000; 0x12492490; 0x5b6db6d8;
   0x49249248; 0xb6db6db6; 0x5b6db6db; 0x49249249; 0xb6db6db6; 0x5b6cb6db; 0x49241249; 0xb6d92db6;
   0x5b6c16db; 0x49201249; 0xb6d92db6; 0x5b6016db; 0x49200249; 0xb6c925b6; 0x5b6002db; 0x49000249;
   0xb6c925b6; 0x5b0002db; 0x49000049; 0xb64924b6; 0x5b00005b; 0x48000049; 0xb64924b6; 0x5b6db6db;
   0x49249249; 0xb6db6db6; 0x5b6db6db; 0x49249248; 0x36db6db6; 0x9249248; 0x1f2000; 0x24924924;
   0x6db6db6c; 0x4924924b; 0x6db6db6b; 0x6db6db72; 0x4924925b; 0x6db6db5b; 0x24925b92; 0x12d9;
   0x2492dad8; 0x2dc90; 0x496d9; 0x2496d6d8; 0x36e490; 0x24b6c9; 0x25b6b6c0; 0x5b72480;
   0x925b6c9; 0x2db5b6c0; 0x6db92480; 0x492db64b; 0x6dadb60b; 0x6dc92412; 0x496db65b; 0x6d6db6db;
   0x6e492492; 0x4b6db6db; 0x6b6db6db; 0x62492492; 0x4b6db6db; 0x9249248; 0x1f2000; 0x12492490;
   0x5b6db6da; 0xdb6db6dd; 0xb6db6db6; 0xdb2db6d6; 0xd82db6ed; 0x904b6db6; 0xd92db6b6; 0x96db76c;
   0x16db6; 0x4925b5b6; 0x5805bb60; 0xb20b6d92; 0xcb6dac10; 0xcb6dd860; 0x82db6db2; 0xcb6d6582;
   0xb6ecb00; 0x165b6db2; 0xdb6b2db2; 0xd9760905; 0xb2db2d96; 0xcb580516; 0x1bb20800; 0x36db2c92;
   0xdadb6c02; 0xddb6d925; 0xb6db6db6; 0xd6db6db6; 0xc5b6db6c; 0x92492492; 0x1c1d01; 0x801;
   0x120000; 0x1200200; 0x2c001001; 0x20000010; 0x2006c0; 0x1009000; 0x90002; 0x416c0092;
   0x9000000; 0x90002496; 0xc8092490; 0x41000100; 0x24924b0; 0x12492400; 0x24004; 0x965a0004;
   0xb2400009; 0x2400096c; 0xb0024920; 0x1000; 0x24920001; 0x20300000; 0x1000240; 0x6000000b;
   0x0; 0x202000; 0x8000; 0xbec00; 0x17ffe00; 0xbffffc0; 0xb6dbfffe; 0x7fffffff;
   0x7fffffff; 0xb6db6ffe; 0x7b2492ff; 0x4800924f; 0x924b6c96; 0x496ffec9; 0x4bfcfff8; 0xb6cb6dfe;
   0x5b2cb2df; 0x410cf24b; 0xb2dbfdb6; 0x5bffffff; 0x7fffffff; 0xb6dbfffe; 0x7fffffff; 0x7fffffff;
   0xb6dbfffe; 0x7fffffff; 0x7fffffff; 0xb6dbfffe; 0x7fffffff; 0x7fffffff; 0xb6dbfffe; 0x5fffffff;
   0x97fffc0; 0x96400; 0x1c1f01; 0x80; 0x400; 0x4000; 0x180000; 0x2400200;
   0x2400c004; 0x90120024; 0x1240001; 0x6db04909; 0x24824092; 0x480036db; 0x849248; 0x24492480;
   0x36db608; 0x49248240; 0x92480092; 0x49208492; 0x49240060; 0x92d92; 0x849e492; 0x409f0800;
   0xb2db2085; 0x9f592479; 0xf7800b6d; 0xb64979f5; 0x92479f78; 0xb2db24; 0x90000000; 0x1e1f01;
   0x30000; 0x1e0000; 0xcc0000; 0x6d80000; 0x2cb00001; 0x9260000d; 0xb6c0005b; 0x2d800024;
   0x9000012c; 0xb0000259; 0x20964; 0x10164b2d; 0xb06c924b; 0x5b2492d; 0xadb6db6d; 0xffe597f9;
   0x24924921; 0x25b6c912; 0x4924b208; 0x2490c059; 0x6db64492; 0xd92c8209; 0x6410125b; 0x6c9124b6;
   0x49200259; 0x496db; 0x24492592; 0x48009240; 0x1249249; 0x0; 0x202000; 0x9249248;
   0x36db6db6; 0x5b6db6db; 0x5b6cb6db; 0xb6db6db6; 0x4924924b; 0x49240003; 0xb6db6db6; 0x4925924b;
   0x4924924b; 0xb6db6db6; 0x49249203; 0x40001003; 0xb6c925b6; 0x4064324b; 0x4024024b; 0xb2592c96;
   0x592c10cb; 0x5904120b; 0xb64924b6; 0x5b24125b; 0x5b04105b; 0xb6c925b6; 0x5b6416db; 0x5b6c16db;
   0xb6d92db6; 0x5b6006db; 0x5b00005b; 0xb64924b6; 0x5b6db6db; 0x5b6db6d8; 0x12492490; 0x1f1f01;
   0x16d800; 0x924800; 0x1249200; 0x2d925b00; 0x24924900; 0x4020120b; 0x24b25909; 0x24924810;
   0x9001059; 0x2d925849; 0x24924880; 0x48009649; 0x6c92d249; 0x64924400; 0x4000b249; 0x64969249;
   0x24922000; 0x59249; 0x24b09249; 0x24910000; 0x1059249; 0x25849249; 0x24090000; 0x480d9249;
   0x60049249; 0x20092012; 0x5b6d8; 0x49240; 0x12400; 0x9000; 0x0; 0x1f1f01].
Definition emoji_data_90 : list N :=
  [0x5b6400; 0x2492400; 0x4924800; 0x36496c00; 0x92492401; 0x20004805; 0x92c92c24; 0x92c92448;
   0x4964; 0x96496124; 0x9649220b; 0x4b25; 0xb2496925; 0xb2491001; 0x25925; 0x924b4924;
   0x92488000; 0x12c924; 0x925a4924; 0x92440000; 0x964924; 0x96124924; 0x92040000; 0x20164925;
   0xb0124924; 0x80048048; 0x16db64; 0x124920; 0x49200; 0x24800; 0x0; 0x201f01;
   0x4b6400; 0x249200; 0x1249200; 0x2c92580; 0x9249240; 0x9008040; 0x164924b0; 0x9259248;
   0x8008008; 0x32492496; 0x49259248; 0x48008008; 0xb2492496; 0x49259249; 0x41258008; 0xb2db2496;
   0x49249249; 0x40000008; 0xb2492496; 0x49249248; 0x8000008; 0x32492496; 0x9249248; 0x9000048;
   0x164924b0; 0x9249240; 0x1201240; 0x2db6d80; 0x249200; 0x49000; 0x92000; 0x1f1f01;
   0x16d800; 0x924800; 0x1249200; 0x2d925b00; 0x24924900; 0x4020120b; 0x24b25909; 0x24924810;
   0x1001059; 0x25925849; 0x24924880; 0x8009649; 0x2c92d249; 0x24924400; 0x4000b24b; 0x6496924b;
   0x249220b0; 0x592c9; 0x24b09249; 0x24910000; 0x1059249; 0x25849249; 0x24090000; 0x480d9249;
   0x60049249; 0x20092012; 0x5b6d8; 0x49240; 0x12400; 0x9000; 0x0; 0x1f1f01;
   0x5b6400; 0x2492400; 0x4924800; 0x36496c00; 0x92492401; 0x20004805; 0x92c92c24; 0x92c92448;
   0x4964; 0x96496124; 0x96492200; 0x4b24; 0xb2496924; 0xb2491000; 0x25925; 0x924b4924;
   0x92488008; 0x12c924; 0x925a4964; 0x92440200; 0x964b24; 0x96124924; 0x92040000; 0x20164925;
   0xb0124924; 0x80048048; 0x16db64; 0x124920; 0x49200; 0x24800; 0x0; 0x201f01;
   0x4b6400; 0x249200; 0x1249200; 0x2c92580; 0x9249240; 0x9008040; 0x164924b0; 0x9259248;
   0x8008008; 0x32492496; 0x49259248; 0x48008008; 0xb2492496; 0x49259249; 0x40008008; 0xb2492496;
   0x49259249; 0x40008008; 0xb2492496; 0x49259248; 0x8008008; 0x32492496; 0x9259248; 0x9008048;
   0x164924b0; 0x9249240; 0x1201240; 0x2db6d80; 0x249200; 0x49000; 0x92000; 0x1f1f01;
   0x16d800; 0x924800; 0x1249200; 0x2d925b00; 0x24924900; 0x4020120b; 0x24b25909; 0x24924810;
   0x1001059; 0x25925849; 0x24924880; 0x8009649; 0x2c92d249; 0x24924400; 0x4000b249; 0x64969249;
   0x64922000; 0xc0059249; 0x24b09249; 0x24910002; 0x105924b; 0x25849249; 0x24090000; 0x480d9249;
   0x60049249; 0x20092012; 0x5b6d8; 0x49240; 0x12400; 0x9000; 0x0; 0x1f1f01;
   0x5b6400; 0x2492400; 0x4924800; 0x36496c00; 0x92492401; 0x20004805; 0x92c92c24; 0x92c92448;
   0x4964; 0x96496124; 0x96492200; 0x4b24; 0xb2496924; 0xb2491000; 0x20025925; 0xb24b4924;
   0xb2488000; 0x2012c924; 0xb25a4924; 0x92440000; 0x964924; 0x96124924; 0x92040000; 0x20164925;
   0xb0124924; 0x80048048; 0x16db64; 0x124920; 0x49200; 0x24800; 0x0; 0x201f01;
   0x4b6400; 0x249200; 0x1249200; 0x2c92580; 0x9249240; 0x9008040; 0x164924b0; 0x9259248;
   0x8008008; 0x32492496; 0x49259248; 0x48008008; 0xb2492496; 0x49259249; 0x40009208; 0xb2496d96;
   0x49249249; 0x40000008; 0xb2492496; 0x49249248; 0x8000008; 0x32492496; 0x9249248; 0x9000048;
   0x164924b0; 0x9249240; 0x1201240; 0x2db6d80; 0x249200; 0x49000; 0x92000; 0x1f1f01;
   0x16d800; 0x924800; 0x1249200; 0x2d925b00; 0x24924900; 0x4020120b; 0x24b25909; 0x24924810;
   0x1001059; 0x25925849; 0x24924880; 0x8209649; 0x2d92d249; 0x2c924400; 0x4800b249; 0x64969249;
   0x24922000; 0x59249; 0x24b09249; 0x24910000; 0x1059249; 0x25849249; 0x24090000; 0x480d9249;
   0x60049249; 0x20092012; 0x5b6d8; 0x49240; 0x12400; 0x9000; 0x0; 0x1f1f00;
   0x10000; 0x124000; 0x2db6c00; 0x2492400; 0x24904800; 0xb2592c00; 0x92492409; 0x80482c;
   0x92d92c24; 0x92492040; 0x4804124; 0x96496124; 0x96492200; 0x2c005924; 0xb24b4924; 0x92491001;
   0x2c924; 0x92584924; 0x92488000; 0x924924; 0x92c24924; 0x92440000; 0x4164924; 0x96124924;
   0x90040001; 0x20164925; 0x80124924; 0x49248; 0x16db60; 0x24900; 0x0; 0x1f1f00;
   0x48000; 0x492000; 0xb6db000; 0x9249000; 0x12012002; 0xc964b002; 0x49649004; 0x2032;
   0x4b24b092; 0x4b249100; 0x2592; 0x59248492; 0x59248800; 0x12c92; 0xc925a492; 0xc9244000;
   0x96492; 0x492d2492; 0x49220000; 0x4b2492; 0x49092492; 0x49120000; 0x12192492; 0x58092492;
   0x40120004; 0x80592496; 0x492492; 0x124920; 0x5b6d80; 0x92400; 0x0; 0x201f00;
   0x8000; 0x49000; 0x5b6c80; 0x1249200; 0x1201240; 0x6c925b0; 0x9249240; 0x9000048;
   0x164924b0; 0x92c9248; 0x8040008; 0x324b2496; 0x49249248; 0x40040008; 0xb24b2496; 0x49259249;
   0x40008008; 0xb2492496; 0x49259248; 0x48008008; 0x32492496; 0x49259248; 0x8008008; 0x164924b0;
   0x9259248; 0x9008040; 0x6c925b0; 0x1249240; 0x1249200; 0x5b6c80; 0x249000; 0x1f1f00;
   0x10000; 0x124000; 0x2db6c00; 0x2492400; 0x24804800; 0xb2492c00; 0x92492409; 0x482c;
   0x92492c24; 0x92492040; 0x4125; 0x92496125; 0x92492201; 0x5925; 0x924b4925; 0x92491001;
   0x2c925; 0x92584924; 0x92488008; 0x92492c; 0x92c24924; 0x92440040; 0x4164964; 0x96124924;
   0x90040201; 0x20164b25; 0x80124924; 0x49248; 0x16db60; 0x24900; 0x0; 0x1f1f00;
   0x48000; 0x492000; 0xb6db000; 0x9249000; 0x12012002; 0xc924b002; 0x49249004; 0x2032;
   0x4924b092; 0x49249100; 0x2592; 0x49248492; 0x49248800; 0x12c92; 0x4925a4b6; 0x49244124;
   0x96496; 0x492d2496; 0x49220000; 0x4b24b2; 0x490924b2; 0x49120000; 0x12192592; 0x58092592;
   0x40120004; 0x80592c96; 0x492492; 0x124920; 0x5b6d80; 0x92400; 0x0; 0x201f00;
   0x8000; 0x49000; 0x5b6c80; 0x1249200; 0x1201240; 0x6c925b0; 0x9249240; 0x9000048;
   0x164924b0; 0x9249248; 0x8000008; 0x32492496; 0x49249248; 0x40000008; 0xb2492496; 0x49249249;
   0x40058008; 0xb24b2496; 0x492d9248; 0x48208008; 0x32492496; 0x49259248; 0x8008008; 0x164924b0;
   0x9259248; 0x9008040; 0x6c925b0; 0x1249240; 0x1249200; 0x5b6c80; 0x249000; 0x1f1f00;
   0x10000; 0x124000; 0x2db6c00; 0x2492400; 0x24804800; 0xb2492c00; 0x92492409; 0x482c;
   0x92492c24; 0x92492040; 0x4124; 0x92496124; 0x92492200; 0x5924; 0x924b4924; 0x92491001;
   0x2c925; 0x9258492c; 0x92488048; 0x92496c; 0x92c24924; 0x92440240; 0x4164964; 0x96124924;
   0x90040201; 0x20164925; 0x80124924; 0x49248; 0x16db60; 0x24900; 0x0; 0x1f1f00].
Definition emoji_data_91 : list N :=
  [0x48000; 0x492000; 0xb6db000; 0x9249000; 0x12012002; 0xc924b002; 0x49249004; 0x2032;
   0x4924b092; 0x49249100; 0x2592; 0x49248492; 0x49248800; 0x12c92; 0x4925a492; 0x49244000;
   0x96496; 0x492d2496; 0x49220000; 0x4b24b2; 0x490924b2; 0x49120000; 0x12192592; 0x58092592;
   0x40120004; 0x80592496; 0x492492; 0x124920; 0x5b6d80; 0x92400; 0x0; 0x201f00;
   0x8000; 0x49000; 0x5b6c80; 0x1249200; 0x1201240; 0x6c925b0; 0x9249240; 0x9000048;
   0x164924b0; 0x9249248; 0x8000008; 0x32492496; 0x49249248; 0x40000008; 0xb2492496; 0x49249249;
   0x40008008; 0xb2496496; 0x49259248; 0x48009008; 0x32496496; 0x4925b248; 0x8009008; 0x164924b0;
   0x9259248; 0x9008040; 0x6c925b0; 0x1249240; 0x1249200; 0x5b6c80; 0x249000; 0x1f1f00;
   0x10000; 0x124000; 0x2db6c00; 0x2492400; 0x24804800; 0xb2492c00; 0x92492409; 0x482c;
   0x92492c24; 0x92492040; 0x4124; 0x92496124; 0x92492200; 0x5924; 0x924b4924; 0x92491001;
   0x2002c925; 0xb2584924; 0xb2488008; 0x2092492c; 0xb2c24924; 0x92440040; 0x4164964; 0x96124924;
   0x90040201; 0x20164925; 0x80124924; 0x49248; 0x16db60; 0x24900; 0x0; 0x1f1f00;
   0x48000; 0x492000; 0xb6db000; 0x9249000; 0x12012002; 0xc924b002; 0x49249004; 0x2032;
   0x4924b092; 0x49249100; 0x2592; 0x49248492; 0x49248800; 0x12c92; 0x4925a492; 0xdb244001;
   0x92096496; 0x492d2496; 0x49220000; 0x4b24b2; 0x490924b2; 0x49120000; 0x12192592; 0x58092592;
   0x40120004; 0x80592496; 0x492492; 0x124920; 0x5b6d80; 0x92400; 0x0; 0x201f00;
   0x8000; 0x49000; 0x5b6c80; 0x1249200; 0x1201240; 0x6c925b0; 0x9249240; 0x9000048;
   0x164924b0; 0x9249248; 0x8000008; 0x32492496; 0x49249648; 0x40001208; 0xb2496c96; 0x49249249;
   0x40008008; 0xb2492496; 0x49259248; 0x48008008; 0x32492496; 0x49259248; 0x8008008; 0x164924b0;
   0x9259248; 0x9008040; 0x6c925b0; 0x1249240; 0x1249200; 0x5b6c80; 0x249000; 0x1f1f00;
   0x10000; 0x124000; 0x2db6c00; 0x2492400; 0x24804800; 0xb2492c00; 0x92492409; 0x482c;
   0x92592c24; 0x92492040; 0x804124; 0x92c96124; 0x96492200; 0xc005924; 0xb24b4924; 0x92491001;
   0x2c925; 0x92584924; 0x92488008; 0x92492c; 0x92c24924; 0x92440040; 0x4164964; 0x96124924;
   0x90040201; 0x20164925; 0x80124924; 0x49248; 0x16db60; 0x24900; 0x0; 0x1f1f00;
   0x48000; 0x492000; 0xb6db000; 0x9249000; 0x12012002; 0xc924b002; 0x49249004; 0x2032;
   0x4b24b092; 0x4b249100; 0x2592; 0x59248492; 0x59248800; 0x12c92; 0xc925a492; 0xc9244000;
   0x96496; 0x492d2496; 0x49220000; 0x4b24b2; 0x490924b2; 0x49120000; 0x12192592; 0x58092592;
   0x40120004; 0x80592496; 0x492492; 0x124920; 0x5b6d80; 0x92400; 0x0; 0xe1d02;
   0x12002400; 0x90048009; 0x1240924; 0x12484922; 0x49249212; 0x48124024; 0x100192; 0x3240009;
   0x24924900; 0x2492492; 0x40009249; 0x24800024; 0x92492000; 0x1f1907; 0x12000; 0x2db000;
   0x17df000; 0x3c97000; 0xb24b000; 0x1820b000; 0xf0406000; 0xc964a003; 0xc1018006; 0x2018016;
   0x4b65801a; 0x9060030; 0xc00b2; 0x492c01f0; 0x17803e0; 0x3f00db2; 0x4b603ff2; 0x5fe0fffd;
   0xfff96db6; 0xdb63ffff; 0xffe7ffff; 0xffdb6000; 0xdb7fc000; 0xff120000; 0x92000000; 0x1e0e09;
   0x48000; 0x2db6000; 0x5924b006; 0x4924b024; 0x96c92197; 0xfffcadb6; 0xdb6d9bff; 0xfffb7fff;
   0xfffd6db6; 0xdb63ffff; 0xfe03ffff; 0xf80b6db6; 0x4002db60; 0x0; 0xb2000; 0x201e07e;
   0x1b61947e; 0x8db0ca19; 0xc2d87f3f; 0xfb6cbed3; 0xccb64b21; 0x205b0480; 0x902c0240; 0x20120;
   0x240b0090; 0xdb048; 0xb1f01; 0xc07c16c; 0x36c3f8b6; 0x9002049; 0xcb3976d; 0xbeddefb6;
   0xdffeffdb; 0x6cb61605; 0xb05a0b00; 0xd82c07c1; 0x6c108000; 0xb6090000; 0xa1f01; 0x1a07c361;
   0x6c7f0d80; 0x90201212; 0x4e9edbfb; 0xfffb6fff; 0xffedb5b0; 0x6c3606c1; 0xb0d81b07; 0xc3604c00;
   0x2d909000; 0xb2000; 0x2012000; 0x921903e; 0x5b05800; 0x2d87f3f; 0xfb6cbed3; 0xccb64b21;
   0x205b0480; 0x902c0240; 0x20120; 0x240b0090; 0xdb048; 0xb1f01; 0xc07c16c; 0x36c3f8b6;
   0x9002049; 0xcb3976d; 0xbe5defb6; 0xdffeffdb; 0x6cb61605; 0xb05a0b00; 0xd82c07c1; 0x6c108000;
   0xb6090000; 0xa1f01; 0x1a07c361; 0x6c7f0d80; 0x90201212; 0x4e9edbfb; 0xfffb6fff; 0xffedb5b0;
   0x6c3606c1; 0xb0d81b07; 0xc3604c00; 0x2d909000; 0xb1f00; 0x201607e; 0x1b61b43f; 0x8db0da19;
   0x2d87f3f; 0xfb6cbed3; 0xccb64b21; 0x205b0480; 0x902c0240; 0x48020120; 0x240b0090; 0xdb000;
   0xb1f01; 0xc07c16c; 0x36c3f8b6; 0xb002049; 0xcb3976d; 0xbeddefb6; 0xdffeffdb; 0x6cb61605;
   0xb05a0b00; 0xd82c07c1; 0x6c108000; 0xb6090000; 0xa1f01; 0x1a07c361; 0x6c7f0d81; 0xb0201612;
   0x4e9edbfb; 0xfffb6fff; 0xffedb5b0; 0x6c3606c1; 0xb0d81b07; 0xc3604c00; 0x2d909000; 0xb2000;
   0x201607e; 0x1b61b47f; 0x8db0da19; 0x2d87f3f; 0xfb6cbed3; 0xccb64b21; 0x205b0480; 0x902c0240;
   0x48060120; 0x2c0b0090; 0xdb048; 0xb1f01; 0xc07c16c; 0x36c3f8b6; 0xb006049; 0xcb3976d;
   0xbeddefb6; 0xdffeffdb; 0x6db61605; 0xb05a0b00; 0xd82c07c1; 0x6c108000; 0xb6090000; 0xa1f01;
   0x1a07c361; 0x6c7f0d81; 0xb0201612; 0x4e9edbfb; 0xfffb6fff; 0xffedbdb4; 0x6c3606c1; 0xb0d81b07;
   0xc3604c00; 0x2d909000; 0xb1f00; 0x603e07e; 0x1f63bc7f; 0x8db1de3b; 0xc2d87f3f; 0xfb6cbed3;
   0xcdb64b29; 0x245b0480; 0x902c02c0; 0x48060160; 0x3c0b0090; 0xdb000; 0xb1f01; 0xc07c16c;
   0x36c3f8b6; 0xb406049; 0xcb3976d; 0xbeddefb6; 0xdffeffdb; 0x6db61605; 0xb05a0b00; 0xd82c07c1;
   0x6c108000; 0xb6090000; 0xa1f01; 0x1a07c361; 0x6c7f0d81; 0xb07c1612; 0x4e9edbfb; 0xfffb6fff;
   0xffedbdb4; 0x6c3606c1; 0xb0d81b07; 0xc3604c00; 0x2d909000; 0xb1f01; 0x16012124; 0x1b05b092;
   0x582481b; 0x16dbff7f; 0xeb6dbec7; 0xc5b20901; 0x20d80580; 0x80240200; 0x120120; 0x68090000;
   0x92048000; 0xb1f01; 0x1603e07c; 0x1b61f01e; 0x5804800; 0x659e5bc; 0xfb6cf7df; 0xfdb67fef;
   0xfcdb0d80; 0xb02d06c0; 0x581683e0; 0x6e096000; 0x12049000; 0xc1f01; 0xd81f81f; 0x82d81fc1;
   0xf00d8020; 0x2024832; 0xc76e6dbf; 0xfe7fe6db; 0xffe3fc2d; 0x81681600; 0xd8168160; 0xd81f81f;
   0x82d80001; 0x24248000; 0x192000; 0x400000; 0xdb6000b6; 0xd8005b6c; 0x5b6d80; 0x36db601b;
   0x6db05b6d; 0xb237fffd; 0x9bfffedb; 0x6db6c2db; 0x6d81edb6; 0xc06db6c0; 0x5feff02f; 0xe7fc2db2;
   0xdb0964b3; 0x6020185; 0xb24b636d; 0xb6d0b6db; 0x70b6db6c; 0xdb6d802; 0xdb6002db; 0x6c05b6db].
Definition emoji_data_92 : list N :=
  [0x6db7db6; 0xdb6db5b6; 0xdb6edb6d; 0xb6492492; 0x192000; 0x8001; 0x6db000db; 0x68006db6;
   0x6db600; 0x5b6d802d; 0xb6c02db6; 0xd85ffff6; 0x6ffffb2d; 0xb6db6b6d; 0xb6c1b6db; 0xc0b6db60;
   0x7f9fc01f; 0xcfe016cb; 0x6005b2d8; 0x2000402; 0xc92d81b6; 0xdb005b6d; 0x805b6da0; 0x16db600b;
   0x7db00b6d; 0xb216db6d; 0x8b6df6cb; 0x6db6dedb; 0x6db36dbe; 0xd9249649; 0x1a2000; 0x8000;
   0xb6d80016; 0xdb000db6; 0xc006db68; 0xdb6c00; 0xf6db005b; 0x6db05fff; 0xfe56ffff; 0xbb6db6d8;
   0x6db6d80f; 0x6db605b6; 0xdb01fe7f; 0xe03fcff0; 0x16db6c02; 0xd96d0080; 0x40405924; 0xb00b6db6;
   0x2dbec00; 0x6db6c02d; 0xb6c0036d; 0xb005b6db; 0x1b6db61; 0x6db6d8b6; 0xdb6d96db; 0x6db5b6db;
   0x6e492492; 0x192000; 0x400000; 0xdb6000b6; 0xd8005b6c; 0x5b6d80; 0x36db601b; 0x6db05b6d;
   0xb237fffd; 0x9bfffedb; 0x6db6c2db; 0x6d81edb6; 0xc06db6c0; 0x1feff00f; 0xf7f805b2; 0xd80964b2;
   0x4020105; 0xb24b616d; 0xb6c0b6db; 0x6036db60; 0xdb6d802; 0xdb6002db; 0x6c05b6db; 0x6db7db6;
   0xdb6db5b6; 0xdb6edb6d; 0xb6492492; 0x192000; 0x8001; 0x6db000db; 0x68006db6; 0x6db600;
   0x5b6d802d; 0xb6c02db6; 0xd85ffffe; 0x6ffffb2d; 0xb6db6b6d; 0xb6c1b6db; 0x80b6db60; 0x3f9fc01f;
   0xcfe016cb; 0x6005b2d8; 0x2000402; 0xc92d81b6; 0xdb005b6d; 0x805b6da0; 0x16db600b; 0x7db00b6d;
   0xb216db6d; 0x8b6df6cb; 0x6db6dedb; 0x6db36dbe; 0xd9249649; 0x1a2000; 0x8000; 0xb6d80016;
   0xdb000db6; 0xc006db68; 0xdb6c00; 0xf6db005b; 0x6db05fff; 0xfe56ffff; 0xbb6db6d8; 0x6db6d80f;
   0x6db405b6; 0xdb00bf7f; 0x1fdfc0; 0x6db6c02; 0xd96c0080; 0x40005b25; 0xb00b6db6; 0x2dbec00;
   0x6db6c02d; 0xb6c0036d; 0xb005b6db; 0x1b6db61; 0x6db6d8b6; 0xdb6d96db; 0x6db5b6db; 0x6e492492;
   0x192000; 0x400000; 0xdb6000b6; 0xd8005b6c; 0x5b6d80; 0x36db601b; 0x6db05b6d; 0xb237fffd;
   0x9bfffedb; 0x6db6c2db; 0x6d81edb6; 0xc06db6c0; 0x5feff02f; 0xf7f82db6; 0xdb0964b2; 0x6924985;
   0xb6db636d; 0xb6d0b6db; 0x70b6db6c; 0xdb6d802; 0xdb6002db; 0x6c05b6db; 0x6db7db6; 0xdb6db5b6;
   0xdb6edb6d; 0xb6492492; 0x192000; 0x8001; 0x6db000db; 0x68006db6; 0x6db600; 0x5b6d802d;
   0xb6c02db6; 0xd85ffffe; 0x6ffffb2d; 0xb6db6b6d; 0xb6c1b6db; 0x80b6db60; 0x7fbfc01f; 0xcfe016db;
   0x6005b2d8; 0x6492402; 0xdb6d81b6; 0xdb005b6d; 0x805b6da0; 0x16db600b; 0x7db00b6d; 0xb216db6d;
   0x8b6df6cb; 0x6db6dedb; 0x6db36dbe; 0xd9249649; 0x1a2000; 0x8000; 0xb6d80016; 0xdb000db6;
   0xc006db68; 0xdb6c00; 0xf6db005b; 0x6db05fff; 0xfe56ffff; 0xbb6db6d8; 0x6db6d80f; 0x6db605b6;
   0xdb00ffff; 0xe03fdff0; 0x16db6c02; 0xd96c0092; 0x49405b6d; 0xb00b6db6; 0x2dbec00; 0x6db6c02d;
   0xb6c0036d; 0xb005b6db; 0x1b6db61; 0x6db6d8b6; 0xdb6d96db; 0x6db5b6db; 0x6e492492; 0x192000;
   0x400000; 0xdb6000b6; 0xd8005b6c; 0x5b6d80; 0x36db601b; 0x6db05b6d; 0xb237fffd; 0x9bfffedb;
   0x6db6c2db; 0x6d81edb6; 0xc06db6c0; 0x5feff02f; 0xf7f82db6; 0xdb0b6db6; 0x7924b85; 0xb6db636d;
   0xb6d0b6db; 0x70b6db6c; 0xdb6d802; 0xdb6002db; 0x6c05b6db; 0x6db7db6; 0xdb6db5b6; 0xdb6edb6d;
   0xb6492492; 0x192000; 0x8001; 0x6db000db; 0x68006db6; 0x6db600; 0x5b6d802d; 0xb6c02db6;
   0xd85ffffe; 0x6ffffb2d; 0xb6db6b6d; 0xb6c1b6db; 0x80b6db60; 0x7fbfc01f; 0xcfe016db; 0x6005b6d8;
   0x64b2402; 0xdb6d81b6; 0xdb005b6d; 0x805b6da0; 0x16db600b; 0x7db00b6d; 0xb216db6d; 0x8b6df6cb;
   0x6db6dedb; 0x6db36dbe; 0xd9249649; 0x1a2000; 0x8000; 0xb6d80016; 0xdb000db6; 0xc006db68;
   0xdb6c00; 0xf6db005b; 0x6db05fff; 0xfe56ffff; 0xbb6db6d8; 0x6db6d80f; 0x6db605b6; 0xdb00ffff;
   0xe03fdff0; 0x16db6c02; 0xdb6c0092; 0xc9405b6d; 0xb00b6db6; 0x2dbec00; 0x6db6c02d; 0xb6c0036d;
   0xb005b6db; 0x1b6db61; 0x6db6d8b6; 0xdb6d96db; 0x6db5b6db; 0x6e492492; 0x192000; 0x400000;
   0xdb6000b6; 0xd8005b6c; 0x5b6d80; 0x36db601b; 0x6db05b6d; 0xb237fffd; 0x9bfffedb; 0x6db6c2db;
   0x6d81edb6; 0xc06db6d0; 0x7feff03f; 0xfffc3db6; 0xdb0fedb7; 0xff7ffc5; 0xb6db636d; 0xb6f1b6db;
   0x78b6db6c; 0xdb6d802; 0xdb6002db; 0x6c05b6db; 0x6db7db6; 0xdb6db5b6; 0xdb6edb6d; 0xb6492492;
   0x1a2000; 0x410000; 0x32d8001b; 0x6d800b6d; 0x8002db60; 0x16db600; 0x6db6c01f; 0xfff06db6;
   0xdb2dbfff; 0x636db6d8; 0xb6db6c16; 0xdb6c07ff; 0xff00db6d; 0xa01feff0; 0x7fbfc01; 0x6db6016d;
   0xb6c05b6d; 0xb00db6d8; 0x1b6db00; 0x6df6c016; 0xdb6006db; 0x6800b6d9; 0x2db6db0; 0xdb6db6b6;
   0xdb6d9b6d; 0xb6db6db6; 0xda492492; 0x1a2000; 0x824000; 0x2cb00036; 0xdb0016db; 0x6005b6d8;
   0x2db6c00; 0x5b6d803f; 0xffe05b6d; 0xb6db7ffe; 0xd2db6db1; 0x6db6d80d; 0xb6da03ff; 0xff01b6db;
   0x603fdff0; 0xff7fc02; 0xdb6d00db; 0xed8036fb; 0x600b6db6; 0x36db600; 0x5b6d802d; 0xb6c005b6;
   0xd8016db6; 0x5b6db60; 0xb6db6c6d; 0xb7db36db; 0x6db6db6d; 0xb4924924; 0x1a2000; 0x208000;
   0x5960002d; 0xb6000db6; 0xc0036db0; 0x1b6db00; 0xb6db003f; 0xfff0b6db; 0x6d96fffd; 0xb5b6db60;
   0x5b6db60b; 0x6db603ff; 0xff016db6; 0xc02f97c8; 0xbe1f204; 0xb2590192; 0x49602492; 0x5816db6c;
   0x2db6d80; 0xb6db201b; 0x6db0036d; 0xb002db6c; 0x36db6d9; 0x6db6d85b; 0x6db6edb6; 0xdb6db6db;
   0x6d249249; 0x1a2000; 0x410000; 0x32d8001b; 0x6d800b6d; 0x8002db60; 0x16db600; 0x6db6c01f;
   0xfff06db6; 0xdb2dbfff; 0x636db6d8; 0xb6db6c16; 0xdb6c01fe; 0xff00db2d; 0x801feff0; 0x3e1f001;
   0x6cb60124; 0x92405924; 0xb00db6d8; 0x1b6db00; 0x6df6c016; 0xdb6006db; 0x6800b6d9; 0x2db6db0;
   0xdb6db6b6; 0xdb6d9b6d; 0xb6db6db6; 0xda492492; 0x1a2000; 0x824000; 0x2cb00036; 0xdb0016db;
   0x6005b6d8; 0x2db6c00; 0x5b6d803f; 0xffe05b6d; 0xb6db7ffe; 0xd2db6db1; 0x6db6d80d; 0xb6d803fd;
   0xfe00b65b; 0x601fcfe0; 0x7f3f802; 0xd96c00c9; 0x64803249; 0x200b6db6; 0x36db600; 0x5b6d802d;
   0xb6c005b6; 0xd8016db6; 0x5b6db60; 0xb6db6c6d; 0xb7db36db; 0x6db6db6d; 0xb4924924; 0x1d0a0b;
   0x24900925; 0xfedb7fbf; 0xfffffe5b; 0x6db6c3ff; 0x87ff1ffc; 0x3ff8b6c1; 0x6d83ff0f; 0xfe1ff03f;
   0xe06d80db; 0x0; 0x1a1f01; 0x403; 0x28180; 0x406000; 0x100c0008; 0x1000300;
   0x6000c110; 0xc8618661; 0x38b0dfcc; 0x261b6530; 0xc37d9418; 0xffc6036d; 0xb6002ffe; 0x1fe80;
   0x5b6d801; 0xbfff01ef; 0xfec0a6db; 0xc33ffe1; 0x98fffc66; 0x5b6d961b; 0xff22867f; 0x8c030da2;
   0x41b0c0; 0x6000100c; 0xa0600; 0x1000000; 0x40000000; 0x1c1c02; 0x60000; 0xb00000;
   0x900000b; 0x24900640; 0x25000090; 0xc92c9; 0x2c02c0; 0x0; 0x9649012; 0x40648024;
   0x2402492; 0x296492; 0x4b824024; 0x12492002; 0x12492481; 0x24064800; 0x9649010c; 0x2880040].
Definition emoji_data_93 : list N :=
  [0x2000c92c; 0x90060b05; 0x200040; 0xb24900; 0x900000; 0x9000000; 0x60000000; 0x1c1e02;
   0xd8000; 0x16c0000; 0x1fc00002; 0xd8000036; 0xc00003fc; 0x2d80; 0x16c00; 0x60000;
   0x400000; 0x2000000; 0x20000004; 0x20; 0x200; 0x2d800; 0x3fc000; 0x3fc0000;
   0x6db2c00f; 0xffb47fff; 0xffedb6db; 0x6d6db6db; 0x67fffffe; 0xdb6db6d7; 0xfffffe7f; 0xffffedb6;
   0xdb6d7db6; 0xdbe24000; 0x10000000; 0x112000; 0x2000f0; 0x20b60827; 0xc020402; 0xc10080d2;
   0x4036d82f; 0xbe02ff80; 0xdb6037d8; 0x1fcc0b64; 0x2d301f9; 0x816c80fe; 0x7f006d; 0x8079e038;
   0xf02c300c; 0x3c060e05; 0x82c181e0; 0xc078b019; 0x78361009; 0x131e02; 0x80480804; 0x1000018;
   0x24070200; 0x70400db6; 0xc0fbf803; 0xff805b60; 0x5f600fe; 0x602d9602; 0xd9007f20; 0x6c801fc;
   0x807f801b; 0x60019e00; 0xf1c00c34; 0x3c30078; 0x70060b01; 0xe0f01c06; 0xb01a1b0; 0x58100900;
   0x132000; 0x200807; 0x82416020; 0x16020240; 0x60b00608; 0xc90016; 0xdb01fdf0; 0x7fe006d;
   0xb01ece01; 0xfcc036d8; 0x367007c; 0x401b6c05; 0xf200ff00; 0x2db0079c; 0xe38034; 0x58030700;
   0x60f0080c; 0x180c030; 0x1c0d02c6; 0xc1784804; 0x122000; 0x10003c; 0xc16c182; 0xc0609010;
   0x1b020300; 0xd2c01b6c; 0xbef805f; 0xf00db601; 0xbec07f30; 0x16c802d3; 0xfcc05b; 0x601fe807;
   0xf0036c01; 0xe78071e0; 0x2c30061e; 0x18380b0; 0x58181e06; 0x3c2c062; 0xf06c1009; 0x132000;
   0x20001f; 0x203e020; 0xbe0407c0; 0x61b01c18; 0x1c30036; 0xdb03efe0; 0xffe016d; 0x8017d803;
   0xf980b658; 0xb6401fc; 0x801b2007; 0xf201fe40; 0x6d800678; 0x3c70030; 0xd00f0c01; 0xe1c0182c;
   0x783c070; 0x182c0686; 0xc1604024; 0x121f01; 0x480024; 0x8048100; 0x2060900c; 0x10032400;
   0xb6d81fdf; 0xffc01b; 0x6c0f6701; 0xfcc06db0; 0xd9c03e2; 0x1b640be; 0x3fc016; 0xd8079c01;
   0xc700d160; 0x1838060f; 0x1018060; 0x30180e0d; 0x2cd82f1; 0x20100000; 0x1c1e01; 0x48000;
   0x2d960001; 0x24000000; 0x4000060b; 0x20008041; 0x80410; 0x100b200; 0x9241000; 0x92400012;
   0x484c8092; 0x48000124; 0x124b2; 0x48002402; 0x40004024; 0x36492484; 0x92440; 0x92484c;
   0x92434100; 0x92041008; 0x800000; 0x14100800; 0x1000008; 0x20060301; 0x104000; 0x1049600;
   0x5848000; 0x0; 0x1d1f01; 0x48000006; 0x48000025; 0x900001be; 0x400007f8; 0x5b64;
   0x1ff90; 0xfff80; 0x36d800; 0xffe000; 0x3ff8000; 0xdb60000; 0x3fc80001; 0xfa60000b;
   0x6d80002c; 0xbe000027; 0xf80002db; 0x600003ff; 0x80000ffc; 0x36d8; 0xffe0; 0x3ff00;
   0xdb000; 0x3fc000; 0xf20000; 0x1240000; 0x800000; 0x0; 0x8000000; 0x20000000;
   0x1f1f00; 0x2000000; 0x16000000; 0x2c000001; 0xb6000005; 0xfe00000b; 0xfc00002d; 0xb600007f;
   0xfe00007f; 0xfc00016d; 0xb600007f; 0xb60000ff; 0x7c00016d; 0xb600006d; 0xfe00005f; 0xfc00006d;
   0xb600007f; 0xfe0000ff; 0xfc00016d; 0xb000007f; 0xf00000ff; 0xe000016d; 0xb000007c; 0x90000079;
   0x2000002d; 0xb0000024; 0x90000008; 0x2000002c; 0x80000020; 0x80000008; 0x2c; 0x80000000;
   0x1f1d02; 0x40000001; 0x60000001; 0x60000002; 0x48000003; 0x6c000003; 0x6c000002; 0x4800000b;
   0x6c00000b; 0x6c000002; 0x4800000b; 0x6c00000b; 0x6c000012; 0x4800001b; 0x6c00001b; 0x6c000012;
   0x4800001b; 0x6400001b; 0x60000012; 0x9; 0x2c000009; 0x6c000002; 0x4800000b; 0x6c00000b;
   0x78000002; 0xf000000b; 0x6000000f; 0xe0000007; 0xc0000001; 0x60000000; 0x1f1f00; 0x800000;
   0x5000000; 0x9000000; 0x6d800001; 0x6c000002; 0x7900001b; 0x6d80005b; 0x6c00001e; 0xf900005b;
   0x6d80005b; 0x6c000017; 0xf900005b; 0x6d80005b; 0x6c00001f; 0xf900005b; 0x6d80005b; 0x6c00003f;
   0xf900005b; 0x6d80005b; 0x6f00001f; 0xdf00005b; 0x6d00005b; 0xec000017; 0xd800005b; 0x6c00007b;
   0x60000037; 0xf000005b; 0x6000005b; 0x60000007; 0xc000000b; 0x0; 0x191e01; 0x200000;
   0x82; 0x8010400; 0x0; 0x10410004; 0x2000000; 0x20924; 0x80804100; 0x41;
   0x24801008; 0x20000002; 0x9249082; 0x49200000; 0x492492; 0x2492400; 0x4000124; 0x92404924;
   0x80001000; 0x24924809; 0x24900002; 0x9248; 0x249200; 0x2; 0x48000000; 0x191f00;
   0x80000; 0x2000000; 0x4104; 0x104100; 0x8; 0x20800208; 0x20000000; 0x1241040;
   0x41048000; 0x2482; 0x48082410; 0x120; 0x92484824; 0x92000000; 0x4124901; 0x24924002;
   0x40009249; 0x20249248; 0x80002; 0x4b240092; 0x49000000; 0x492480; 0x12490000; 0x124;
   0x80000000; 0x1a2000; 0x80000; 0x1000000; 0x4000082c; 0xb0010410; 0x410400; 0x2cb2c004;
   0x10410104; 0x104032c8; 0x20124124; 0x904100; 0xcb218009; 0x4800241; 0x22c12d96; 0x48249202;
   0x9248165; 0xb6d82492; 0x48092492; 0x1b6db60; 0x92492004; 0x924802db; 0x6c804924; 0x80124920;
   0xb6db001; 0x24900009; 0x240004b6; 0x1200; 0x1a2000; 0x40000; 0x5000001; 0x4b0;
   0xc0059658; 0x1241200; 0x30cb0016; 0x59640092; 0x4100c32c; 0xb0196430; 0x2490401; 0x6cb60065;
   0xb0c00924; 0x9365b6d8; 0x60b6db08; 0x24924596; 0xdb60b6db; 0x6c049249; 0x6db6d80; 0xdb6db012;
   0x49200b6d; 0xb6016db6; 0x492480; 0xdb6d001; 0xb6d80024; 0x900002d9; 0x4800; 0x1a2000;
   0x80000; 0x3000000; 0xc0000860; 0x80030c30; 0xc30c00; 0x6986000c; 0x32c8030c; 0x32c0b699;
   0x6030cb28; 0x432c802; 0xdb65805b; 0x2d8416ca; 0x62c36db4; 0xd96db616; 0x7b6d836d; 0xb6d06db6;
   0xd81b7db6; 0x5b6db40; 0xb6db602d; 0xbed806db; 0x6c02db6d; 0x8036fb60; 0xb6db001; 0x6db0005b;
   0x6c0005b6; 0x1200; 0x1a1e01; 0x40000; 0x0; 0x92400410; 0x40000000; 0x924900;
   0x10410000; 0x49; 0x20804104; 0x10000000; 0x1248200; 0x24120000; 0x90492; 0x49209248;
   0x4; 0x92492092; 0x49200010; 0x24b24; 0x80492480; 0x80009; 0x24900124; 0x92000020;
   0x249240; 0x924000; 0x2; 0x48000000; 0x131f00; 0x400020; 0x1; 0x20001000;
   0x90; 0x80000; 0x4800; 0x4000000; 0x248002; 0x48000004; 0x92484924; 0x80000249;
   0x24a49240; 0x12492; 0x52492000; 0x924909; 0x24900000; 0x49248092; 0x40000004; 0x92000000;
   0x141f00; 0x400002; 0x0; 0x4000020; 0x0; 0x40000200; 0x4; 0x2000;
   0x49; 0x124000; 0x892492; 0x49248000; 0x8924924; 0x92490000; 0x89249249; 0x24900000;
   0x92492492; 0x48000001; 0x24900924; 0x2; 0x48000000; 0x162000; 0x400000; 0x80000200;
   0x160000; 0x20000080; 0x58000; 0x8000020; 0x16000; 0x2000009; 0x20005b00; 0x4920012].
Definition emoji_data_94 : list N :=
  [0x4805b6d8; 0x49249124; 0x924b6db6; 0x12492449; 0x2492db6d; 0x94924912; 0x492436db; 0x61249240;
   0x924805b6; 0xc8092480; 0x490002d; 0x90000800; 0x152000; 0x100002; 0xc0001200; 0x1600005;
   0x80002400; 0x2c0000b; 0x4800; 0x5800016; 0x40009200; 0xb68012d; 0x80092485; 0xb6da36db;
   0x60924b1b; 0x6db76db6; 0xd1249636; 0xdb6edb6d; 0x8249246d; 0xb6d9b6db; 0x492485b; 0x6d816db0;
   0x1248016; 0xd8000900; 0x142000; 0x400016; 0x16000; 0xd000160; 0x160000; 0xd0001600;
   0x160000d; 0x16400; 0x16c000db; 0x96d00b; 0x6d8b6db6; 0xdb6dbdb6; 0xdfb6db6d; 0xb6dbdb6d;
   0xfb6db6db; 0x6dbdb6db; 0xb6db65b6; 0xd85b6d83; 0x6db01b6d; 0x80b6c006; 0xd8001200; 0x141e01;
   0x200000; 0x4800; 0x2000000; 0x48000; 0x20000000; 0x480002; 0x0; 0x4900024;
   0x80000012; 0x49649249; 0x924; 0x96492490; 0x9249; 0x64924900; 0x12492; 0x9248000;
   0x124900; 0x92480000; 0x249000; 0x191f01; 0x480400; 0x10010000; 0x4900; 0x80120120;
   0x1009; 0x20920248; 0x24002000; 0x1241240; 0x49048004; 0x80482; 0x4a092490; 0x120;
   0x92484024; 0x92000000; 0x4924901; 0x24924000; 0x40009249; 0x20249248; 0x2; 0x49240092;
   0x49000000; 0x492480; 0x2490000; 0x24; 0x0; 0x191f01; 0x100800; 0x24020010;
   0x9201; 0x20248040; 0x2002002; 0x40240490; 0x49004004; 0x482480; 0x12092000; 0x820924;
   0x94024120; 0x41; 0x24921049; 0x24002000; 0x92c9242; 0x49248000; 0x800024b2; 0x48092490;
   0x20004; 0x92490124; 0x92000040; 0x124900; 0x4920000; 0x48; 0x0; 0x1b1f01;
   0x100900; 0x9008001; 0x201000d9; 0x5802480; 0x48009009; 0x6d82d8; 0x2402400; 0x48048016;
   0xc36c0120; 0x92002412; 0x420b65b1; 0x20924904; 0x12492125; 0xb6d81049; 0x24820924; 0x90b2db6c;
   0x9249240; 0x2492480b; 0x6db60092; 0x49201249; 0x2401b6db; 0x492480; 0x1249000; 0x5b6c0004;
   0x92400012; 0x40000090; 0x0; 0x1a1f01; 0x580c00; 0x58058012; 0x1200b60; 0xb0036c16;
   0x590490; 0x2d82d80d; 0xb0db0124; 0x1640b61b; 0x6016c360; 0x4904882; 0xda6db05b; 0x2d841249;
   0x22c36db6; 0x596db612; 0x4924836d; 0xb6d86db6; 0xd8092c92; 0x5b6db60; 0xb6db6004; 0x924806db;
   0x6c00db6d; 0x80125900; 0xb6db001; 0x6db00009; 0x20000090; 0x0; 0x1b1f01; 0x300800;
   0x4b01800b; 0x603802d8; 0xd802d82; 0xd805f05f; 0x16d16d8; 0x16c16c02; 0xf82f8036; 0xcb600b61;
   0xb6007c3e; 0xc61b6db1; 0x41b6db2c; 0x3edf430d; 0xb6d8b0db; 0x6d861f6d; 0xa0b6db6c; 0xb6db6c1;
   0x6ff6d01b; 0x6db601b6; 0xdb4036fb; 0x6005b6db; 0x5b6d80; 0xb6fb000; 0xdb6c000d; 0xb60000b6;
   0xc0000490; 0x0; 0x191f01; 0x400400; 0x10080040; 0x4804; 0x80120120; 0x9;
   0x20920240; 0x24000000; 0x1241200; 0x48248000; 0x2082492; 0x42092490; 0x4104; 0x92484124;
   0x92008000; 0x4b24901; 0x24924002; 0x9249; 0x20249248; 0x80002; 0x49240092; 0x48000100;
   0x492400; 0x12480000; 0x24; 0x0; 0x201c02; 0x2c80580; 0x7f83ff0; 0x2db65b6c;
   0x3fff7ffc; 0x3ffffffe; 0x6db6db6c; 0xbffffffe; 0xfffffffe; 0x6db6db6d; 0xfffffffe; 0x7ffffffe;
   0x6db6db6c; 0x3ffffffe; 0x3ffffffe; 0x2db6db6c; 0x1ffffff8; 0x1ffffff8; 0xdb6db60; 0x7fffff0;
   0x7ffffe0; 0x5b6db60; 0x2ffff80; 0xffff00; 0xb6db00; 0x1ffc00; 0xff000; 0x6c000;
   0x10000; 0x1f1f01; 0x92492490; 0x92492490; 0x24924904; 0xb6db6d94; 0x92492481; 0x24924825;
   0xb6db6ca4; 0x92492409; 0x2492412d; 0xb6db6524; 0x92492049; 0x2492096d; 0xb6db2924; 0x92490249;
   0x24904b6d; 0xb6d94924; 0x92481249; 0x24824924; 0x924a4924; 0x92400000; 0x24924; 0x92000120;
   0x240; 0x920; 0x900; 0x0; 0x4924924; 0x94920124; 0x80000000; 0x4924924;
   0x0; 0x1a1f01; 0x2492000; 0x49240080; 0x204924; 0x90192496; 0x6000181; 0x24924064;
   0x92581800; 0x605b6db; 0x5b6db65; 0x249249b6; 0xdb6d96db; 0x6d949249; 0x265b6db6; 0x9249252;
   0x49249b6d; 0xb6d96db6; 0xd95ffffe; 0x6db6db65; 0x92496460; 0x921812db; 0x64064925; 0x81924860;
   0x4b6d9001; 0x24900000; 0x2492; 0x0; 0x161f01; 0x580005; 0xb0009a48; 0xdb6d849;
   0xec912692; 0x4b6db6d2; 0xfb645fef; 0xf2db6db5; 0x96cb9249; 0x24b6db6d; 0x24924492; 0x492db6db;
   0x49249124; 0x924b6db6; 0xd2492449; 0x2492db6d; 0xb4924912; 0x492436db; 0x60249240; 0x924805b6;
   0xd8012480; 0x4900004; 0x80000000; 0x1a2000; 0x120000; 0x1b60000b; 0x6c0006db; 0xb6db0;
   0x16db600; 0x5b6d806d; 0xb6d82db6; 0xd9096db6; 0x44b6db6c; 0x96db6425; 0xb6d936db; 0x6cb25b6c;
   0x94925924; 0xd92496cb; 0x249252c9; 0x24d36db6; 0xdb6ff7fb; 0x1bfcfe45; 0xb6db6d97; 0xdf6c2cb2;
   0xcb16db6d; 0x82db6db0; 0x36db600b; 0x6db6016d; 0xb6000b6c; 0x9200; 0x1e1804; 0x6db6db6e;
   0xdb6db6c1; 0x2492491b; 0x6db6db92; 0x4924b04b; 0x2412465b; 0x2492e4fe; 0x402c17f8; 0x11b6d9;
   0x24b96d92; 0x4b04ba49; 0x246db249; 0x2e5b6492; 0xc16d9249; 0x1b6db6db; 0x9edb64b0; 0x7fec9246;
   0xdb6db6e7; 0xfedb2c16; 0xd92491b6; 0xdb6db924; 0x92490492; 0x49240000; 0x1c1b03; 0x240000;
   0xdb00009; 0x24920092; 0x4920124b; 0x6c809249; 0x24000492; 0x124b2d8; 0x492496c0; 0x12c92;
   0x492d9492; 0x49240000; 0x92492; 0x49492492; 0x40000000; 0x92492494; 0x92492400; 0x924;
   0x92494924; 0x92400000; 0x924924; 0x94924924; 0x9; 0x24924949; 0x24924000; 0x1d1e01;
   0x90000; 0x1240000; 0x920002c; 0xb2490192; 0x492c0c02; 0x4820c92c; 0x92c32492; 0xca1800b6;
   0x51924b6c; 0x90002d86; 0x8000241b; 0x24924924; 0x92492d24; 0x924936db; 0x6db64924; 0x924a4924;
   0x926db6db; 0x6c92c924; 0x94960124; 0xdb6496d9; 0x25924929; 0x2c9249b6; 0xdb6db249; 0x6d925249;
   0x24936db6; 0xdb649249; 0x24849249; 0x20000000; 0x142000; 0x49249b6d; 0xb6db6dbd; 0xb6dbb6db;
   0x6db25bdb; 0x5bb6db6; 0xdb6dbdb6; 0xdbb6db6d; 0x925bd924; 0xbb6db6db; 0x6dbfffff; 0xb6db6db6;
   0xdbdbfdbb; 0x6db6db25; 0xbdb05bb6; 0xdb6db6db; 0xdb6dbb6d; 0xb6d925bd; 0x925bb6db; 0x6db6dbff;
   0xfffb6db6; 0x1f2000; 0x12492490; 0xdb6db6da; 0xdb6db6d8; 0x92492492; 0xb2cb0c2; 0x8209204;
   0x492416; 0xcb24b612; 0x8249024; 0x10402030; 0x59618090; 0x41008020; 0x820901b2; 0xcb2c0082;
   0x9240000; 0x12480db2; 0xcb200082; 0x9200104; 0x10402416; 0x19000410; 0x41000820; 0x80012cb2;
   0xc8012092; 0x40020824; 0x800b2cb2; 0xc0082082; 0x104104; 0x5b6db6; 0xdb6db6; 0x1b6db6c;
   0x2492490; 0x191f00; 0x2010403; 0x2c860365; 0x96c21944; 0x3124821b; 0x2db65a59; 0x65930432].
Definition emoji_data_95 : list N :=
  [0x8649249; 0x49249260; 0xc92; 0x49292492; 0x4c124921; 0x92492524; 0x92498249; 0x2432db6d;
   0xa4924930; 0x649; 0x24949249; 0x26092490; 0xc9249292; 0x4924c004; 0x921925b6; 0xd2492498;
   0x324; 0x92484924; 0x92000000; 0x1c1f00; 0x2010400; 0x6590400d; 0x965b010c; 0xb21836db;
   0x6d86db6d; 0xb6b6db6d; 0xbfffffff; 0x6db6db6b; 0x6db6dbff; 0xfffff6db; 0x6db69249; 0x24900000;
   0x249249; 0x29000049; 0x2; 0x49249290; 0x9000; 0x2492; 0x49292492; 0x49000000;
   0x2492492; 0x90000090; 0x24; 0x92492924; 0x90000; 0x24924; 0x92124924; 0x80000000;
   0x1c2000; 0x492480; 0xffffc01; 0xb6db602d; 0xb6db03ff; 0x2fb01b60; 0xb6004805; 0xb000004b;
   0x360; 0x5b00; 0x4b000; 0x360048; 0x5b00d80; 0x4b00b603; 0x6004805b; 0x4804b0;
   0xb203602; 0xdb05b03f; 0xf2fb01b6; 0xdb602db6; 0xdb03ffff; 0xe01b6db6; 0x2db0000; 0x4800020;
   0x30080b04; 0x82c0b249; 0x6c06db6d; 0x8030482c; 0x1000000; 0x1e1f00; 0x4000000; 0xf8000005;
   0xb2c00018; 0x6d800080; 0xe3000305; 0x86000418; 0xc001860; 0x30005b61; 0x8000f7ce; 0x3cfe0;
   0x161b00; 0x203600; 0x80d900; 0x506db00; 0xe31b000; 0xd82c000; 0x2c16c000; 0x2d8000;
   0x160000; 0x360000; 0x6c0000; 0xb00000; 0xdb00000; 0x7b600001; 0xfd800003; 0x6d800000;
   0xdb000003; 0xec00001b; 0x60000030; 0x0; 0x1f1d02; 0x12400000; 0x12400000; 0x20800004;
   0x92400004; 0x92400000; 0x2080002d; 0x92400024; 0x92400009; 0x20800025; 0xb2400024; 0x92400009;
   0x80002c; 0x92400024; 0x92400001; 0x800024; 0x92400024; 0x92400001; 0x800024; 0x92c00024;
   0x96c00008; 0x24800024; 0xb6c00024; 0x96000009; 0x2400002d; 0xb0000025; 0x90000049; 0x6d;
   0x80000064; 0x0; 0x1f1e01; 0x8000000; 0x6c000001; 0x6c000003; 0xe800000b; 0x6000000b;
   0x20000002; 0x4820000b; 0x60900001; 0x20900002; 0x49000003; 0x64000001; 0x24000002; 0x40000009;
   0x24000009; 0x24000012; 0x4000024b; 0x24000209; 0x24000412; 0x4000000b; 0x24000009; 0x24000012;
   0x4000001b; 0x24000009; 0x20000012; 0x4000000b; 0x20000009; 0x20000002; 0x40000009; 0x20000001;
   0x0; 0x1e1d01; 0x4800; 0x16d800; 0x16db000; 0x5b6d800; 0x2db6c000; 0xdb6d8003;
   0x6db6001b; 0x6db60036; 0xdb6c00db; 0x6db006db; 0x6d802db6; 0xdb01b6db; 0x6c0db6db; 0x621b6db6;
   0x882db6d8; 0x196db6d8; 0x12db6d80; 0x16db636; 0x36db020; 0x16db4010; 0xdb6c0586; 0xdb6c082d;
   0xb6d00036; 0xdb4000b6; 0xdb000005; 0xb6000006; 0xc0000016; 0x0; 0x1f1c02; 0x492400;
   0x2492400; 0x4924800; 0x92492400; 0x92492401; 0x24924824; 0x92492424; 0x92492449; 0x24924924;
   0x92492524; 0x92492249; 0x24924924; 0x92492924; 0x92491249; 0x24924924; 0x92484924; 0x92481249;
   0x24804924; 0x92404924; 0x92001249; 0x20004924; 0x80004924; 0x9000; 0x124000; 0x120000;
   0x200000; 0x800000; 0x0; 0x1b1c02; 0x6180080; 0x65104004; 0x92080364; 0xb604364b;
   0x20100824; 0xd924960; 0xc9249048; 0x21649; 0x24b12492; 0x4b0c0000; 0x2b249259; 0x92492410;
   0x8192; 0x49281924; 0x96010000; 0xd92490; 0x24964b00; 0x9249200d; 0x964a0219; 0x4800300;
   0x10004005; 0x80000018; 0x100; 0x1000; 0x1c1d02; 0x492400; 0x12490000; 0x24900004;
   0x92400124; 0x90000241; 0x125b64; 0x80924924; 0x8000241; 0x25b64849; 0x24924480; 0x249649;
   0x2594b6db; 0x64492492; 0x49249249; 0x49249244; 0x924924b6; 0xdb6db492; 0xd9244924; 0x924b6db6;
   0xdb492d92; 0x44924924; 0xb6db6db4; 0x92492449; 0x24924b6d; 0xb6db4924; 0x92400000; 0x1f1705;
   0x2480010; 0x12490090; 0x24900925; 0xb6492d94; 0x96492489; 0x2492492d; 0xb6cb6cad; 0xb24b6449;
   0x2492496d; 0xb65b652c; 0x925b2249; 0x24924b6d; 0xb6db2964; 0x92491249; 0x24925b64; 0xb6d95b24;
   0x96489249; 0x2492db24; 0xb6ca4924; 0xb2449049; 0x24964925; 0xb2120024; 0x90000000; 0x201709;
   0x48000; 0x0; 0x92000; 0x49000; 0x40000; 0x492400; 0x249200; 0x1000;
   0x2492480; 0x1249240; 0x9a01240; 0x36db2db2; 0x7fedbedb; 0x7fffffff; 0xb6db6db6; 0x7f6db6fb;
   0x7fffffff; 0xb6db6db6; 0x7b6df6df; 0x7fffffff; 0xb6db6db6; 0x7f6db6df; 0x49249248; 0x171e02;
   0x100000; 0x400000f0; 0x2c000; 0x2000004; 0x1600; 0x360000; 0x3c0000b0; 0x9000;
   0x5; 0x80000d80; 0x90001; 0x24800124; 0x0; 0x924000b; 0x68001ff8; 0x5b6000;
   0xca600798; 0x60165960; 0x36db617f; 0xffc5b2db; 0x6d828368; 0x4024000; 0x1f2000; 0x9249240;
   0x924b2592; 0x592c964a; 0x592c9644; 0xb2592492; 0xd96db252; 0xdb6d9224; 0xb6db2492; 0xdb6c9396;
   0xcb6c936c; 0x965965b6; 0xdb6db5b6; 0xdb2c892c; 0x92d925b6; 0xdb6da5b6; 0x5b644b6c; 0xb6c96db6;
   0xdb6f6cb6; 0x4b62d92c; 0x96c96db6; 0xdb6b64b2; 0x5b16c924; 0xb25b6db6; 0xdb5b2592; 0xc8b65b2d;
   0x92db6db6; 0xdadb6db6; 0xc5b6db65; 0x96db6db6; 0xd6db6db6; 0x4920920; 0x1f1f00; 0x8000008;
   0x12492492; 0x4964924a; 0x4b249244; 0x96492492; 0xdb249252; 0x59249224; 0xb2492492; 0xd9249292;
   0x59249124; 0x92492492; 0xc9249496; 0xc924892c; 0x92492496; 0x4924a496; 0x4924492c; 0x924924b6;
   0x492524b6; 0x4922496c; 0x924925b6; 0x492924b6; 0x4912496d; 0xb24924b6; 0xd94924b2; 0x48924924;
   0x92492496; 0xca492492; 0xc4924925; 0x92492496; 0x52492492; 0x0; 0x171e02; 0x12492012;
   0x49202492; 0xb6db05; 0xb6db0964; 0xb225b2db; 0x24924841; 0x4012592; 0x5b249256; 0x8202924;
   0x92d92492; 0xf05b01c9; 0x6d96c924; 0x9782480e; 0x4b6cb64b; 0x64a416c8; 0x25b6402; 0x49240000;
   0x8124928; 0x92492124; 0x9245b6db; 0x65b6db00; 0x24800000; 0x1d1f00; 0x90000; 0x1240000;
   0x9240004; 0x92480092; 0x49200492; 0x49004924; 0x92092492; 0x48492492; 0x44964b64; 0x92592c90;
   0x93c9f489; 0x2c96c924; 0xb2592527; 0x92c93249; 0x24924924; 0x924a4924; 0x9265b6db; 0x6496db6c;
   0x94e04864; 0x4b2496c9; 0x2d92d909; 0x7fffc812; 0xdb6c804b; 0x6d92024f; 0xe4802496; 0x49001249;
   0x20001248; 0x12480; 0x0; 0x1f1f00; 0x90000; 0x492000; 0x924000; 0x12492400;
   0x12492001; 0x24924804; 0x92492404; 0x92492009; 0x24924024; 0x92492124; 0x92492249; 0x2492492d;
   0x96c9092d; 0x96c9126b; 0x35924964; 0xb2494924; 0x92489249; 0x24924b24; 0x964a5b6d; 0xb644b2ff;
   0x3492c924; 0xb212d925; 0x9204ffff; 0x2012c92c; 0x9012c02c; 0x8024f7c9; 0x12db24; 0x124920;
   0x49200; 0x124800; 0x0; 0x1f1f00; 0x12000; 0x92000; 0x924000; 0x12492400;
   0x12492400; 0x24924804; 0x92492404; 0x924b2409; 0x64964825; 0x924b202c; 0x924b2079; 0x24934164].
Definition emoji_data_96 : list N :=
  [0x924b292d; 0x92cb127f; 0x2fd2496d; 0xb6c94924; 0x92489249; 0x24925b24; 0x96ca4b6d; 0xb24092ff;
   0x2486d924; 0xb6d24800; 0x9224924b; 0x2436db6d; 0xb612db6c; 0x9024ffe9; 0x20b2db65; 0x80124920;
   0x49200; 0x24900; 0x0; 0x1d1f00; 0x90000; 0x1240000; 0x9240004; 0x92480092;
   0x49200492; 0x49004b24; 0xb2092c96; 0x4849e4ba; 0x44964b64; 0x92d92d90; 0x97c97c89; 0x2c96c925;
   0xb25b2527; 0x92e93259; 0x25924924; 0x924a4924; 0x9265924b; 0x2496db6c; 0x94d7fb24; 0x4b2492c9;
   0x2c005909; 0x7c97c812; 0xdb6c804b; 0x6d92025f; 0xfc8024b6; 0xc9001249; 0x20001248; 0x12480;
   0x0; 0x1f1f00; 0x90000; 0x492000; 0x924000; 0x12492400; 0x12492001; 0x24924804;
   0x92492404; 0x92492009; 0x24924024; 0x92492124; 0x92492249; 0x24924924; 0x9249092c; 0x96c9127f;
   0x2f92496c; 0xb6c94924; 0x92489249; 0x24924b24; 0x964a5b6d; 0xb644b2ff; 0x3492c924; 0xb212c805;
   0x9204f24f; 0x2012db6c; 0x9012db6c; 0x8024ffc9; 0x12db24; 0x124920; 0x49200; 0x124800;
   0x0; 0x1f1f00; 0x12000; 0x92000; 0x924000; 0xb2492400; 0x92492401; 0x24924805;
   0xb2492404; 0x92492409; 0x2492486d; 0x92492124; 0x92492249; 0x2492436c; 0x9249292d; 0x92c9127f;
   0x2fd2496d; 0xb6c94924; 0x92489249; 0x24924b24; 0x964a5b6d; 0xb64092ff; 0x2c825924; 0xb2425800;
   0xb204f24b; 0xa412db6d; 0x9012db6c; 0x8004ffe9; 0x12db64; 0x124920; 0x49200; 0x24900;
   0x0; 0x1d1f00; 0x90000; 0x1240000; 0x9240004; 0x92480092; 0x49200492; 0x49004924;
   0x92092492; 0x48492492; 0x44924924; 0x92492490; 0x9e492e89; 0x6c96d924; 0xb259252f; 0xd3f932db;
   0x2db25924; 0x92cac924; 0x9665924b; 0x2496db6c; 0x94d7fb24; 0x4b2492c9; 0x2c005909; 0x7c97c812;
   0xdb6c804b; 0x6d92025f; 0xfc8024b6; 0xc9001249; 0x20001248; 0x12480; 0x0; 0x1f1f00;
   0x492400; 0x12492480; 0x24924905; 0x92492584; 0x92492489; 0x2492492d; 0xb2496c24; 0x92492409;
   0x24924025; 0xb6db2124; 0x92492249; 0x24924925; 0x92c9092d; 0x96c9127b; 0x3f924964; 0xb649492c;
   0x96489249; 0x24924924; 0x924a4924; 0x92449249; 0x24925b25; 0x92125b6d; 0x92049ff9; 0x20125b64;
   0x90124924; 0x80249249; 0x124924; 0x124920; 0x49200; 0x124800; 0x0; 0x202000;
   0x92002; 0x40249009; 0x48249208; 0xb6db6db6; 0x49249248; 0x49249248; 0x36db6db6; 0x9249248;
   0x9249248; 0x36db6db6; 0x49249248; 0x49249248; 0xb6db6db6; 0x4b6496c9; 0x4be497c8; 0xb6db6db6;
   0x496cb649; 0x497cbe48; 0xb6db6db6; 0x496cb648; 0x493c9e48; 0x36db6db6; 0x96492c8; 0x9e49348;
   0x16db6db0; 0x96db648; 0x12ff240; 0x2db6d80; 0x1249240; 0x249200; 0x5b6c00; 0x48000;
   0x1d1f00; 0x90000; 0x1240000; 0x9240004; 0x92480092; 0x49200492; 0x49004925; 0xb2092496;
   0xc8492496; 0x44b6c92c; 0x92d924b0; 0x9a492489; 0x6492c924; 0xb25b252f; 0x92f932db; 0x2d924924;
   0xb64a4924; 0x92649249; 0x24924924; 0x94924924; 0x492db249; 0x24b64909; 0x27f24812; 0x5b248049;
   0x24920249; 0x24802492; 0x49001249; 0x20001248; 0x12480; 0x0; 0x1f1f00; 0x90000;
   0x492000; 0x924000; 0x12492400; 0x12492001; 0x24924804; 0x92492404; 0x92492009; 0x24924024;
   0x92492125; 0xb2d9225f; 0xe7b2496d; 0x965b0b64; 0x92591249; 0x24925b64; 0x96d94924; 0x96589249;
   0x2492db24; 0x96ca5924; 0xb2449e49; 0x64925b6d; 0x92125b6c; 0x920497c9; 0x20124b24; 0x90124924;
   0x80249249; 0x124924; 0x124920; 0x49200; 0x124800; 0x0; 0x1f1f00; 0x12000;
   0x92000; 0x924000; 0x12492400; 0x12492400; 0x24924804; 0x92492404; 0x92492409; 0x24924824;
   0x92492024; 0x92492049; 0x2492412d; 0x92d9296d; 0x96d912c9; 0x2c924924; 0x92494924; 0x92489249;
   0x24924924; 0x924a5924; 0x9640b249; 0x2c82d924; 0xb242c924; 0xb204b249; 0xa416d92d; 0x9036db6c;
   0x802c9fc9; 0xb6db24; 0xb64920; 0x1249200; 0x824900; 0x0; 0x1d1f00; 0x90000;
   0x1240000; 0x9240004; 0x92480092; 0x49200492; 0x49004924; 0x92092c96; 0x484bf4fe; 0x44b6496c;
   0x92492490; 0x92492489; 0x24924924; 0x9249252c; 0x925932db; 0x2d924b64; 0xb64a4924; 0x92649249;
   0x24924924; 0x94924924; 0x492db249; 0x24b64909; 0x27f24812; 0x5b248049; 0x24920249; 0x24802492;
   0x49001249; 0x20001248; 0x12480; 0x0; 0x1f1f00; 0x492400; 0x2d96c00; 0x7f3f801;
   0xb6cb6d85; 0xb6cb6d9f; 0xff9fff2d; 0xb65b6ded; 0xb65b6c7f; 0xfcfff96d; 0xb2db616d; 0xb2db62ff;
   0xa5fe496d; 0x92db096c; 0x92c91249; 0x24924924; 0x92494924; 0x92489249; 0x24924b24; 0xb24a4b6d;
   0xb2449fff; 0xe4925b6d; 0x92125b6d; 0x9204bffd; 0x20125b6c; 0x90125b64; 0x80249249; 0x124924;
   0x124920; 0x49200; 0x124800; 0x0; 0x1f1f00; 0x12000; 0x92000; 0x924000;
   0x12492400; 0x12492400; 0x24924804; 0x92492404; 0x9249241f; 0xe497f86d; 0xb6db6d7f; 0xffffe0ff;
   0xe5ffc16d; 0xb6db2bff; 0x97ff13ff; 0x2ffe4b6c; 0x96d94bec; 0x97d89249; 0x24924924; 0x924a4924;
   0x92409249; 0x24825924; 0xb2425925; 0x92049edf; 0x24125b6c; 0x90124b64; 0x80049249; 0x124924;
   0x124920; 0x49200; 0x24900; 0x0; 0x1d1f00; 0x90000; 0x1240000; 0x9240004;
   0x92480092; 0x49200492; 0x49004924; 0x92092492; 0x48492492; 0x44b64964; 0x92d92d90; 0xba49278b;
   0x6492592c; 0x9249652d; 0x92c932db; 0x2db24b2c; 0xb64a4924; 0x92649249; 0x24924924; 0x94924924;
   0x49649249; 0x25b24909; 0x27b24812; 0x5b648049; 0x24920249; 0x24802492; 0x49001249; 0x20001248;
   0x12480; 0x0; 0x1d1f01; 0x492000; 0x9248000; 0x49240024; 0x92490092; 0x49200492;
   0x49204924; 0x92092492; 0x48492492; 0x44924924; 0x92492492; 0x93c97499; 0x2c96c925; 0xb25b252f;
   0x92f93259; 0x2d924924; 0x924a4924; 0x92649249; 0x24924924; 0x9496db24; 0x496db649; 0x24924901;
   0x24924812; 0x49248049; 0x24900249; 0x24800492; 0x48001249; 0x1240; 0x2400; 0x0;
   0x1f1f01; 0x492000; 0x2492400; 0x4924800; 0x12492400; 0x92492401; 0x24924804; 0x92492424;
   0x92492409; 0x24924124; 0x92492124; 0x92492249; 0x24924924; 0x9249296d; 0x96c912ff; 0x3fd24924;
   0x92494924; 0x92489249; 0x24924924; 0x92424924; 0x924496db; 0x24825b6d; 0x92124924; 0x92049249;
   0x20124924; 0x90124924; 0x80049248; 0x124924; 0x124920; 0x9000; 0x24000; 0x0;
   0x1f1f01; 0x92400; 0x492400; 0x924800; 0x12492400; 0x12492401; 0x24924804; 0x92492404;
   0x92492409; 0x64964825; 0xb6db252c; 0xb2cb2249; 0x2492492d; 0x92d9296d; 0x96d91249; 0x2c924924;
   0x92494924; 0x92489249; 0x24904924; 0x924a4924; 0x9240927f; 0x24824b6d; 0x92024b6d; 0x9204924b].
Definition emoji_data_97 : list N :=
  [0x20124924; 0x90024924; 0x80049249; 0x124924; 0x24920; 0x9200; 0x4800; 0x0;
   0x1d1f01; 0x492080; 0x9248200; 0x49249024; 0x924b0092; 0x49240492; 0x49204924; 0x96c92492;
   0x49492492; 0x4c92496d; 0x92492492; 0x92492499; 0x2c96db25; 0xb2db252d; 0xd6d932cb; 0x64924924;
   0x924a4924; 0x92649249; 0x24924924; 0x94924924; 0x492db249; 0x24b64901; 0x24924812; 0x49248049;
   0x24900249; 0x24800492; 0x48001249; 0x1240; 0x2400; 0x0; 0x1f1f01; 0x492000;
   0x2492400; 0x4924800; 0x12492400; 0x92492401; 0x24924804; 0x96492424; 0xb2592409; 0x649e412d;
   0x925b212c; 0x925b2249; 0x24924924; 0x92492924; 0x92491249; 0x2492496d; 0xb649496c; 0xb64892c9;
   0x64924924; 0x92424924; 0x92449249; 0x24824924; 0x92124b6c; 0x920496c9; 0x20124924; 0x90124924;
   0x80049248; 0x124924; 0x124920; 0x9000; 0x24000; 0x0; 0x1f1f01; 0x92400;
   0x492400; 0x924800; 0x12492400; 0x12492401; 0x24924804; 0x92492404; 0x92492409; 0x24924824;
   0x92492524; 0x9249224b; 0x24b2492d; 0x92d9292d; 0x92c9125d; 0x2792496c; 0x96c94964; 0x96489249;
   0x24904924; 0x924a4924; 0x924092f9; 0x24824b6c; 0x92024924; 0x92049249; 0x20124924; 0x90024924;
   0x80049249; 0x124924; 0x24920; 0x9200; 0x4800; 0x0; 0x1d1f01; 0x492000;
   0x9248000; 0x49240024; 0x92490092; 0x49200492; 0x49204b25; 0x92092c96; 0x484b249e; 0x45b2496c;
   0x964924b2; 0x92492499; 0x6c92d925; 0xb25b2527; 0xd3e932db; 0x2d925b24; 0x96cac924; 0x9e649249;
   0x64924924; 0x94964f24; 0x496cb249; 0x2db6d901; 0x35f34812; 0xcb2c8049; 0x24900249; 0x24800492;
   0x48001249; 0x1240; 0x2400; 0x0; 0x1f1f01; 0x492000; 0x2492400; 0x4924800;
   0x12492400; 0x92492401; 0x24924804; 0x92492424; 0x92492409; 0x24924124; 0x92492125; 0x92c9224b;
   0xa5f2492d; 0x96c9292c; 0x96c9125d; 0x2e92492c; 0x96494924; 0x92489249; 0x24924924; 0x92424964;
   0x924493c9; 0x24824b24; 0x92124b24; 0x92049649; 0x20125b24; 0x90124924; 0x8004d248; 0x12d924;
   0x124920; 0x9000; 0x24000; 0x0; 0x1f1f01; 0x92400; 0x492400; 0x924800;
   0x12496400; 0x12496401; 0x2492f804; 0x92496c04; 0xb6496409; 0xfc924825; 0x9249252c; 0x92592249;
   0x24f2492d; 0x92d9292d; 0x92c9127b; 0x27924925; 0x96494924; 0x92489249; 0x24905b2c; 0x924adb64;
   0x9247fec9; 0x2496d964; 0x9216d964; 0x923fd249; 0x2036c924; 0x90165924; 0x80049249; 0x125924;
   0x24920; 0x9200; 0x4800; 0x0; 0x1d1f01; 0x492000; 0x9248000; 0x49240024;
   0x92490092; 0x49200492; 0x49204924; 0x92092492; 0x48492492; 0x44924924; 0x92492492; 0x92492499;
   0x2d96c924; 0xb6d9252c; 0xf679324b; 0x25924924; 0x924a4924; 0x92649249; 0x24925924; 0x94924924;
   0x492c9249; 0x25924901; 0x27924812; 0x5924804b; 0x24900249; 0x248004b6; 0x48001249; 0x1240;
   0x2400; 0x0; 0x1f1f01; 0x492000; 0x2492400; 0x4924800; 0x12492400; 0x92492401;
   0x24924804; 0x92492424; 0x92492409; 0x649e412d; 0x925b212c; 0x924b22c9; 0x24964924; 0x92cb292d;
   0x96c912db; 0x3d925b64; 0xb2d94924; 0x96589249; 0x2492db6c; 0xb6c24b24; 0x92449649; 0x2482cb24;
   0xb6124b24; 0x92049e49; 0x20125924; 0x9012c924; 0x8004f248; 0x12d924; 0x124920; 0x9000;
   0x24000; 0x0; 0x1f1f01; 0x92400; 0x492400; 0x924800; 0x12492400; 0x12492401;
   0x24924804; 0x92492404; 0x92492409; 0x24924824; 0xb2592525; 0x9259224b; 0xa4f2492d; 0x92d9292c;
   0x92c91259; 0x25924924; 0x92494924; 0x92489249; 0x24904b6d; 0xb64a4b6d; 0xb6409e59; 0x7c825b6d;
   0xb2025b6d; 0x920492cb; 0x20125b6c; 0x90025b64; 0x80049649; 0x12db64; 0x2db20; 0x9200;
   0x4800; 0x0; 0x1d1f01; 0x492000; 0x9248000; 0x49240024; 0x92490092; 0x49200402;
   0x49204924; 0x92080092; 0x48400092; 0x44964924; 0x90f82d92; 0x87c17c99; 0x2c96d920; 0x82492500;
   0x2493249; 0x24924924; 0x924a4924; 0x9265b6db; 0x6496db6c; 0x94be4be4; 0x4b6db649; 0x2db6d901;
   0x2c964812; 0xdb64804b; 0x6d900249; 0x248004b6; 0xc80012d9; 0x1240; 0x2400; 0x0;
   0x1f1f01; 0x492000; 0x2492400; 0x4924800; 0x12492400; 0x92492401; 0x24924804; 0x92492424;
   0x92492409; 0x2492412c; 0x924b212d; 0x925b225f; 0x24f2492d; 0x96c9292d; 0x96c912c9; 0x25f24b24;
   0x92d94924; 0x92489249; 0x24925b6d; 0xb6425b6d; 0xb244be59; 0xe4825b6d; 0xb2125b6d; 0x9204b2c9;
   0x20125b6c; 0x90125b64; 0x80049648; 0x12db24; 0x12db20; 0x9000; 0x24000; 0x0;
   0x1f1f01; 0x92400; 0x492400; 0x924800; 0x12492400; 0x12492401; 0x24924804; 0x92492404;
   0x92492409; 0x24924824; 0x92492524; 0x92492249; 0x24924924; 0x9249292d; 0x92c9127f; 0x27f2496c;
   0x96c94b24; 0x92c89249; 0x24904924; 0x924a4924; 0x92409249; 0x2482496c; 0x92024b6c; 0x920497f9;
   0x20125b6c; 0x90024924; 0x80049249; 0x124924; 0x24920; 0x9200; 0x4800; 0x0;
   0x1d1f01; 0x492000; 0x9248000; 0x49240024; 0x92490092; 0x49200492; 0x69204b25; 0x92092c96;
   0x484f249e; 0x44b2496c; 0x92492492; 0x93c96499; 0x2c96c924; 0xb2592527; 0x92e93259; 0x2d924964;
   0xb24a4924; 0x92649249; 0x24924924; 0x94924924; 0x492d9249; 0x24b64901; 0x27fa4812; 0x5b648049;
   0x24900249; 0x24800492; 0x48001249; 0x1240; 0x2400; 0x0; 0x1d1e01; 0x248000;
   0x12492000; 0x49248012; 0x49240124; 0x92480492; 0x49202492; 0x49124924; 0x92492492; 0x42492492;
   0x24924924; 0x92492494; 0xf249f4cb; 0x6cb6c925; 0x92c9293c; 0x9e4992d9; 0x6c924b25; 0x9252792c;
   0x93259249; 0x24924924; 0x24924922; 0x496d9249; 0x2db64809; 0xe4b24096; 0x49640249; 0x24800249;
   0x20002492; 0x40001240; 0x0; 0x1f2000; 0x48000; 0x5fe000; 0xb6db000; 0x1b6db000;
   0xbffffc02; 0xdb6db406; 0xdb6db00f; 0xfffff836; 0xdb6db0b6; 0xdb6db1ff; 0xffffe5b6; 0xdb6dadb6;
   0xdb6d9fff; 0xffffadb6; 0xdb6dedbe; 0xff6cffff; 0xfffd6db6; 0xdb6f6ff6; 0xfb67ffff; 0xffcb6db6;
   0xdb4b6db6; 0xdb1fffff; 0xfe1b6db6; 0xd81b7ff6; 0xd03fffff; 0x805b6db6; 0x805b6db6; 0x3fffe0;
   0x5b6d80; 0xb6c00; 0x24000; 0x1f1e01; 0x49000; 0x924800; 0x4924800; 0x9249200;
   0x24924901; 0x24924802; 0x5d279009; 0x6c96c80b; 0x2492c816; 0x49249059; 0x2492ca4b; 0x24b24497;
   0x49e4925b; 0x25b2525b; 0x259224ba; 0x4f249259; 0x2c929249; 0x24912492; 0x49209249; 0x6c909259;
   0x248124fe; 0x490496db; 0x640496d9; 0x24092492; 0x4004925b; 0x20049249; 0x12492; 0x492d8;
   0x9240; 0x0; 0x1d1e01; 0x248000; 0x12492000; 0x49248012; 0x49a4012d; 0x964804b2].
Definition emoji_data_98 : list N :=
  [0x59202e92; 0x7912d925; 0xb2492492; 0x42492492; 0x24924924; 0x92492494; 0x924924cb; 0x6496c92d;
   0x92d9292e; 0x9e4996d9; 0x6d92d924; 0xb6564924; 0xb3249249; 0x24924924; 0x2497c922; 0x496d9249;
   0x2db64809; 0x65f24096; 0x4b640249; 0x24800249; 0x20002492; 0x40001240; 0x0; 0x1f1e01;
   0x48000; 0x924800; 0x4924800; 0x9249001; 0x2c92d801; 0x2c96c802; 0x4f2c9009; 0x2cb24849;
   0x2c924892; 0x59249249; 0x25924249; 0x24924492; 0x492492db; 0x2db25259; 0x2d922492; 0x49249249;
   0x2492924b; 0x2491249e; 0x49249259; 0x64849048; 0x64812090; 0xc8049249; 0x24048241; 0x20000480;
   0x249249; 0x20249249; 0x2400; 0x1249249; 0x1249248; 0x0; 0x201e01; 0x49000;
   0x492400; 0x1249200; 0x1249240; 0x2492490; 0x9249240; 0x9349a40; 0x12592c90; 0x9649648;
   0xfe493e8; 0x16c925b2; 0x49649648; 0x49749e48; 0x92d92d92; 0x496c9648; 0x49749e48; 0x92592c92;
   0x49249248; 0x49249248; 0x124924b2; 0x925b248; 0x92ff248; 0x125b6cb6; 0x92cb248; 0x9249248;
   0x24925b6; 0x1249249; 0x249248; 0x4924b6; 0x49008; 0x1d1e01; 0x248000; 0x12492000;
   0x49248012; 0x49240124; 0x92480492; 0x49202492; 0x49124924; 0x92492492; 0x42492492; 0x24b24b24;
   0x92c96494; 0x9e4ba4c9; 0x64b6492d; 0x92d9293c; 0x974992c9; 0x2c924924; 0x92524924; 0x93249649;
   0x2492d924; 0x249fc922; 0x496d9249; 0x2c964809; 0x24924092; 0x49240249; 0x24800249; 0x20002492;
   0x40001240; 0x0; 0x1f1e01; 0x48000; 0x924800; 0x4924800; 0x9249001; 0x2492c801;
   0x2c96c802; 0xc925d00b; 0x2492c849; 0x2492c892; 0x4924924b; 0x24b2424b; 0x24b2449e; 0x49e4925b;
   0x25925259; 0x2d9224f2; 0x4f2492c9; 0x2c929249; 0x24912492; 0x49249259; 0x248492d9; 0x248125fe;
   0x480496d9; 0x24049659; 0x20092492; 0x40249249; 0x49248; 0x92490; 0x49240; 0x49200;
   0x0; 0x1f1d02; 0x492400; 0x2492400; 0x0; 0x12c96480; 0x96c96400; 0x3c027805;
   0xb2496c05; 0x92492408; 0x4904024; 0x92492525; 0x9259200b; 0xa4f2092d; 0x92d9292d; 0x92c9025d;
   0x2792492c; 0x96494924; 0x92489249; 0x24904924; 0x9248492d; 0x924092ff; 0x24824b6d; 0x92024b2c;
   0x92049249; 0x20024924; 0x90024924; 0x80009248; 0x24920; 0x4900; 0x0; 0x1d1e01;
   0x248000; 0x12492000; 0x4b648012; 0x7b240125; 0x964804b2; 0x59202792; 0xc9125925; 0x92492492;
   0x42496c92; 0x25b65b24; 0x96c96c94; 0x964b24c9; 0x24924924; 0x92492924; 0x9249925b; 0x64924b6d;
   0x92526004; 0x93249259; 0x24b2d964; 0x27ffff22; 0x5b6db649; 0x6db6c80f; 0xe4be40b2; 0x49640249;
   0x24800249; 0x20002492; 0x40001240; 0x0; 0x1f1e01; 0x48000; 0x924800; 0x4924800;
   0x9249001; 0x24924801; 0x24924802; 0x49249009; 0x24924849; 0x64964897; 0xc92e925b; 0x249642c9;
   0x24964592; 0x49269249; 0x24965249; 0x24922596; 0x7b2492d9; 0x6c929249; 0x24912492; 0x49249249;
   0x24849249; 0x248125f2; 0x480d96d9; 0x242496d9; 0x204924b2; 0x416c9249; 0x1249248; 0x2492490;
   0xb049240; 0x9049200; 0x0; 0x1f1e01; 0x49000; 0x924800; 0x4924800; 0x9649200;
   0x2592c901; 0x2d92c802; 0xf925b00b; 0x6492d809; 0x24924816; 0xc925905b; 0x64b6ca49; 0x65b24497;
   0xcbe4925b; 0x25b252c9; 0x24b22492; 0x49249249; 0x24929249; 0x24912496; 0xc92092db; 0x64909649;
   0x64812db6; 0xc904b6db; 0x6404b6db; 0x6409e497; 0xc005924b; 0x20049249; 0x12490; 0x49240;
   0x9200; 0x0; 0x1d1e01; 0x248000; 0x12492000; 0x49248012; 0x49240124; 0x92480492;
   0x49202492; 0x49124924; 0x924964b2; 0x424f25d2; 0x24b25b24; 0x92c96494; 0x9e4ba4c9; 0x64b64924;
   0x92492924; 0x924992db; 0x6c925b6d; 0xb253cb65; 0x932d924b; 0x2496db24; 0x2496c9a2; 0x5b249649;
   0x65b2c80b; 0xfffe4096; 0xdb640249; 0x24800249; 0x20002492; 0x40001240; 0x0; 0x1f1e01;
   0x48000; 0x924800; 0x4924800; 0x9249001; 0x24924801; 0x24924802; 0x49249009; 0x2c964849;
   0x64964893; 0xc92c925b; 0x24964259; 0x24964492; 0x492492db; 0x2db252db; 0x2db22492; 0x492492c9;
   0x2d929249; 0x2491249e; 0x4924965b; 0x6c8492d9; 0x248125ba; 0x4804b6db; 0x640496d9; 0x20092d92;
   0x4025965b; 0x49248; 0x92490; 0xb6db6db; 0x29249249; 0x0; 0x1f1e01; 0x49000;
   0x924800; 0x4924800; 0x9249200; 0x24924901; 0x24924802; 0x49249009; 0x24924809; 0x24964812;
   0xf93c904b; 0x64b64a4b; 0x64b24497; 0xc9e4924b; 0x25925249; 0x24922492; 0x49249249; 0x2492924b;
   0x2491249f; 0xc920925b; 0x249092db; 0x248124fe; 0x490492d9; 0x240492d9; 0x24092592; 0x40049249;
   0x20049249; 0x12490; 0x49240; 0x9200; 0x0; 0x1d1e01; 0x248000; 0x12492000;
   0x49248012; 0x4924016c; 0x92c80592; 0x4b206492; 0x4f164924; 0xb2592492; 0xc24f2592; 0x24b25b24;
   0x92c96494; 0x9e4fa4c9; 0x64b64925; 0x92c92924; 0x92499249; 0x24924924; 0x92524924; 0x93249649;
   0x2492d924; 0x2497c922; 0x496c9249; 0x25b24809; 0x24924092; 0x49240249; 0x24800249; 0x20002492;
   0x40001240; 0x0; 0x1d1f00; 0x90000; 0x1240000; 0x4; 0x92480092; 0x49200010;
   0x8004b25; 0x92092c96; 0x4809801a; 0x4b6496c; 0x964925b0; 0x2492009; 0x2c92c925; 0xb25b242f;
   0x92f91259; 0x2d924b64; 0xb64a4924; 0x92649249; 0x24924924; 0x94924924; 0x492d92d9; 0x24b64929;
   0x27fa4912; 0x5b65b049; 0x24924249; 0x24922492; 0x4b601249; 0x24801249; 0x20012482; 0x40000000;
   0x1f2000; 0x90000; 0x492000; 0x0; 0x12492400; 0x12492000; 0x4; 0x92492404;
   0x82412000; 0x24; 0x92492120; 0x12012000; 0x924; 0x92490900; 0x90090201; 0x20104924;
   0x92490925; 0x9240825f; 0xa412496d; 0x924a096d; 0x904413ff; 0x20924b6c; 0x82124b6c; 0x92249ff9;
   0x24925b64; 0x90925b64; 0x9124ffc9; 0x2492db24; 0x8492d924; 0x8904b209; 0x24124824; 0x24000024;
   0x1f1f00; 0x12000; 0x92000; 0x924000; 0x12492400; 0x12492400; 0x2e93c804; 0xb64b6405;
   0x9249640f; 0x2492682c; 0x92496025; 0x9259204b; 0xe4f2412d; 0x92d9292d; 0x92c9125f; 0x2792492c;
   0x96494924; 0x92489249; 0x2492492d; 0x924a492d; 0x9240924b; 0x24824924; 0x92424b04; 0x92049649;
   0x24125b6c; 0x90125b64; 0x8004bfc9; 0x125b24; 0x125920; 0x49200; 0x24900; 0x0;
   0x1d1f00; 0x90000; 0x1240000; 0x9240004; 0x92480092; 0x492004f2; 0x59005b25; 0xb6096492;
   0xc8592493; 0xc592492c; 0x92092090; 0x80080089; 0x2c92c920; 0xf21c250f; 0x80f13259; 0x2d924964;
   0x304a4020; 0x26c9249; 0x6c924924; 0x94924924; 0x5b6496d9; 0x24924909; 0x24924816; 0x5b658049;
   0x6c920249; 0x24802492; 0x49001249; 0x20001248; 0x12480; 0x0; 0x1f1f00; 0x490000].
Definition emoji_data_99 : list N :=
  [0xd92000; 0x1924005; 0xb2c9240d; 0xb2db2009; 0x25b2480c; 0xb659240c; 0x92492019; 0x24b2416c;
   0x96c9236c; 0x92492249; 0x24924924; 0x92490924; 0x92491249; 0x2492496d; 0xb649496c; 0xb64892f9;
   0x74924924; 0x924a4924; 0x92449249; 0x2492496c; 0x92124b64; 0x920493c9; 0x20124b64; 0x90124b24;
   0x80249249; 0x124924; 0x124920; 0x49200; 0x124800; 0x0; 0x1f1f00; 0x12000;
   0x92000; 0x924000; 0x12492400; 0x12492400; 0x2e93c804; 0xb64b6405; 0x9249640f; 0x2492682c;
   0x92496024; 0x9249204b; 0x6592412d; 0x92d9292d; 0x92c9125f; 0x2792496d; 0xb6c9496c; 0xb2489249;
   0x2492492d; 0x924a492d; 0x9240927f; 0x2482496c; 0x92424b6c; 0x920497f9; 0x24125b6c; 0x90125b64;
   0x8004bfc9; 0x125b24; 0x125920; 0x49200; 0x24900; 0x0; 0x1d1f00; 0x90000;
   0x1240000; 0x9240004; 0x92480092; 0x49200492; 0x49004924; 0x92092492; 0x48492492; 0x44924924;
   0x92492490; 0x92492489; 0x2c92c925; 0xb25b252f; 0x92f93259; 0x2d924b64; 0xb64a4924; 0x92649249;
   0x24924924; 0x94924924; 0x49249249; 0x24924909; 0x24924812; 0x49248049; 0x24920249; 0x24802492;
   0x49001249; 0x20001248; 0x12480; 0x0; 0x1f1f00; 0x90000; 0x492000; 0x924000;
   0x12492400; 0x12492001; 0x24924804; 0x92492404; 0x92492009; 0x24924024; 0x92492125; 0x92d9225f;
   0x25ba496c; 0x92590924; 0x92491249; 0x24924924; 0x92480900; 0x2400000; 0x24924; 0x924a4000;
   0x2448000; 0x4924924; 0x92124000; 0x92000000; 0x124924; 0x90120004; 0x80200001; 0x124924;
   0x124920; 0x49200; 0x124800; 0x0; 0x1f1f00; 0x10000002; 0x90000011; 0x20000025;
   0xb24925b4; 0x92492489; 0x2492490c; 0x924925a4; 0x92492409; 0x24924825; 0xb25b242f; 0x925f2059;
   0x24964164; 0x924b2124; 0x924b025f; 0x2792096d; 0xb6c94924; 0x92480049; 0x2402492d; 0x924a492c;
   0x92401249; 0x20025924; 0xb252db25; 0xb2049248; 0x2412d92d; 0x9213fb7f; 0x9005fff9; 0x12db64;
   0x8012db24; 0x49240; 0x24900; 0x0; 0x1f1f00; 0x20000004; 0x20000024; 0x40000049;
   0x64924961; 0x24924922; 0x4924924b; 0x24924b09; 0x24924912; 0x4924904b; 0x6496484b; 0x64be40ba;
   0x492782d9; 0x249642c9; 0x249604be; 0x4fe412db; 0x2d921249; 0x24920412; 0x4900925b; 0x2590925b;
   0x24912492; 0x4905b249; 0x6d84964b; 0x24890492; 0x496db24b; 0x6d25f6df; 0x2449fffa; 0x4b65b6d9;
   0x6124b649; 0x20092480; 0x49200; 0x0; 0x1f1f00; 0x80000010; 0x80000011; 0x20000125;
   0x92492594; 0x92492489; 0x2492492c; 0x92492c24; 0x92492449; 0x24924924; 0x92492125; 0x9249204b;
   0x24f2092d; 0x92c9092c; 0x97c91259; 0x27924964; 0x96484924; 0x92480049; 0x2002492d; 0x924a492c;
   0x92401249; 0x2012d924; 0xb212d92d; 0xb2241248; 0x2492c92d; 0x9017db7c; 0x8027fff9; 0x96db64;
   0x12db20; 0x49200; 0x124800; 0x0; 0x201f00; 0x10000002; 0x48000008; 0x48201208;
   0xb6d92db6; 0x5b6cb6d8; 0x5ffcbff8; 0xb6db6db6; 0x5b6cb6db; 0x7ffcbfff; 0xb6db6db6; 0x5b6cb6da;
   0x5ffc9ff8; 0x36d92db6; 0xb6c96d8; 0xbe497c8; 0x12d92d92; 0x49249248; 0x249200; 0x924b6492;
   0x49259248; 0x1249200; 0x12c92592; 0x4b6c96c8; 0x9249048; 0x12d92d92; 0x9fdbfc8; 0x17ffe40;
   0x25b6c90; 0x12db240; 0x249200; 0x92400; 0x1d1f00; 0x80000012; 0x250; 0x1364;
   0x92496492; 0x4924a492; 0x4926db24; 0xb6c97c97; 0xc949e4f2; 0x4496cb24; 0x92592c90; 0x93c96489;
   0x2c96c924; 0xf2592127; 0x92c91259; 0x25924924; 0x92480924; 0x802496c9; 0x24925b24; 0x90124920;
   0x49249249; 0x24924929; 0x3c924892; 0xdb24924b; 0x6c920249; 0x24802492; 0x49009249; 0x20009248;
   0x12480; 0x0; 0x1f2000; 0x80000010; 0x80000011; 0x20000125; 0x92492594; 0x92492489;
   0x2492492c; 0x92492c24; 0x92492449; 0x24924925; 0x925b212f; 0x925b2079; 0x249e0964; 0x925b0b24;
   0x9249127d; 0x2f92496c; 0xb6c84924; 0x92480049; 0x2002492d; 0x924a492c; 0x92401249; 0x20124964;
   0x92124b24; 0x92249249; 0x24925924; 0x90125924; 0x8024f249; 0x92c924; 0x164920; 0x49200;
   0x16c800; 0x20000; 0x1f1f00; 0x10000002; 0x90000011; 0x20000025; 0xb24925b4; 0x92492489;
   0x2492490c; 0x924925a4; 0x9249240b; 0xe493c82d; 0xb25b6425; 0xf2f9204b; 0xe4f24125; 0x92c9212f;
   0x93c9025d; 0x2792092c; 0x96494924; 0x92480049; 0x2402492d; 0x924a492c; 0x92401249; 0x20024924;
   0x92524924; 0x920493f9; 0x24125b6c; 0x92127b7c; 0x90049259; 0x124924; 0x80124924; 0x49240;
   0x24900; 0x0; 0x1d1f00; 0x80000012; 0x250; 0x1364; 0x92496492; 0x4924a492;
   0x4926c924; 0x92c92c96; 0x494fe4be; 0x44b6496c; 0x96592cb0; 0xf3c9658b; 0x2c96c924; 0xf2592127;
   0x92c91259; 0x25924924; 0x92480924; 0x802496cb; 0x24925b24; 0x90124920; 0x492496c9; 0x24b64929;
   0x27f24892; 0x5b6d924b; 0xec920279; 0x24902592; 0xdb009249; 0x20009249; 0x124b0; 0x0;
   0x1d1f01; 0x90000092; 0x40001252; 0x9364; 0x924b6492; 0x4924a402; 0x126c924; 0x92c90080;
   0x49400400; 0x44924924; 0x92010010; 0x80080089; 0x24b24924; 0x16c12520; 0x92011249; 0x64924924;
   0x924a4124; 0x806496c9; 0x24827f24; 0x9413f904; 0xc92db249; 0x24fe4128; 0x27f20892; 0x5b649249;
   0xfc82124f; 0xe41124b6; 0xc92492f9; 0x4a40240; 0x22402402; 0x40000000; 0x1f1f01; 0x492000;
   0x2492400; 0x4924800; 0x12492400; 0x92492401; 0x24924804; 0x92492424; 0x92492409; 0x64924125;
   0xb2592125; 0x92d9224f; 0xa5f2492d; 0x92c9292c; 0x92c91249; 0x24924924; 0x92494924; 0x92489249;
   0x24924924; 0x9242496c; 0x924493ff; 0x24824b6d; 0x9212592c; 0x92049249; 0x20124924; 0x90124924;
   0x80049248; 0x124924; 0x124920; 0x9000; 0x24000; 0x0; 0x1f1f01; 0x92400;
   0x492400; 0x924800; 0x12492400; 0x12492401; 0x24924804; 0x92492404; 0x92492409; 0x24964824;
   0xb2592525; 0xb259224b; 0xe4f2492d; 0x92d9292c; 0x92c91249; 0x24924924; 0x92494924; 0x92489249;
   0x24904924; 0x924a4924; 0xb2409249; 0x64824b6d; 0x92024b6c; 0x92049249; 0x20124924; 0x90024924;
   0x80049249; 0x124924; 0x24920; 0x9200; 0x4800; 0x0; 0x1d1f01; 0x492000;
   0x9248000; 0x49240024; 0x92490092; 0x49200492; 0x4920496d; 0x92092db6; 0x4849e4b2; 0x44964964;
   0x92c92592; 0x92492499; 0x24924924; 0x92492524; 0x92493259; 0x25924b64; 0xb64a5f25; 0xf264b25b;
   0x2496c96c; 0x949a4924; 0x49249249; 0x24924901; 0x24924812; 0x49248049; 0x24900249; 0x24800492;
   0x48001249; 0x1240; 0x2400; 0x0; 0x1f1f01; 0x492000; 0x2492400; 0x4924800;
   0x12492400; 0x92492401; 0x24924804; 0x964b2424; 0x324b2408; 0x701e4125; 0xb25b2121; 0x80592200].
Definition emoji_data_100 : list N :=
  [0x4924; 0x92492900; 0x90091201; 0x20124924; 0x92494924; 0x92489249; 0x24924924; 0x92424964;
   0x924497f9; 0x24824b6c; 0x9212492c; 0x92049249; 0x20124924; 0x90124924; 0x80049248; 0x124924;
   0x124920; 0x9000; 0x24000; 0x0; 0x1e2000; 0x90000; 0xdb6000; 0xfffc000;
   0x3fffc001; 0xb6db000f; 0xfffe007f; 0xfbf8016d; 0xb6c007ff; 0x2f801fe0; 0x1e005b24; 0xb0019249;
   0x60061821; 0x8012c964; 0x18649259; 0x800060; 0x25924b20; 0x4b24b200; 0xc92c801; 0x6db6c006;
   0xdb6d800f; 0x25be005b; 0x6db000b6; 0xdb60025b; 0x2480b6db; 0x6d816db6; 0xdb0496d9; 0x242db6db;
   0x605b6db6; 0xc16db6d9; 0x9249248; 0x1d1f01; 0x1b2000; 0x3ff8000; 0x7ffc0005; 0xb6d8003f;
   0xffc001ff; 0xff001b6d; 0xb0007fb3; 0xc0032486; 0x324920; 0xc92580; 0x418008; 0x25964120;
   0x92480400; 0x249; 0x64900924; 0x92400904; 0x8000b6db; 0x2db60; 0x24b00; 0x16db200;
   0xdb6d801; 0x25924036; 0xdb6d82db; 0x6db6124b; 0x64906db6; 0xdb45b6db; 0x6c25b6db; 0x20492492;
   0x0; 0x1d1f01; 0x1b0000; 0x3ff8000; 0x3ffe0005; 0xb6d8003f; 0xffe001ff; 0xff801b6d;
   0xb6007ff2; 0xf007b407; 0x8032492c; 0xc924e0; 0xe606608; 0x65965821; 0x9249040c; 0x80249;
   0x64920924; 0x96400924; 0x9000b6db; 0x2000db60; 0x24900; 0x2db600; 0x5b6d801; 0x25924816;
   0xdb6db0db; 0x6db6024b; 0x64902db6; 0xdb61b6db; 0x6c04b6db; 0x20492492; 0x40000000; 0x1e1f01;
   0x124800; 0x1249000; 0x0; 0x24924002; 0x49248000; 0x49; 0x24900092; 0x49200000;
   0x1249; 0x24002492; 0x48000608; 0x4b259; 0x6092492; 0x40000000; 0x96492c8; 0x12c92c80;
   0xb24b200; 0x5b6db000; 0xb6db2000; 0x49640002; 0xdb64002d; 0xb6c800b6; 0xc9602db6; 0xdb605b6d;
   0xb6c125b6; 0x490b6db6; 0xd816db6d; 0xb05b6db6; 0x42492492; 0x0; 0x1d1f01; 0x90000;
   0x1240000; 0x4; 0x92480012; 0x49000000; 0x924; 0x90002492; 0x0; 0x124920;
   0x492480; 0x418008; 0x25964120; 0x92480400; 0x249; 0x64900924; 0x92404904; 0x9000b6db;
   0x2db60; 0x24b00; 0x16db200; 0xdb6d801; 0x25924036; 0xdb6d82db; 0x6db6124b; 0x64906db6;
   0xdb45b6db; 0x6c25b6db; 0x20492492; 0x0; 0x1d1f01; 0x90000; 0x1240000; 0x0;
   0x92480012; 0x49200000; 0x924; 0x92002492; 0x40000000; 0x124924; 0x492480; 0x606008;
   0x25964020; 0x92490400; 0x249; 0x64920924; 0x96400924; 0x9000b6db; 0x2000db60; 0x24900;
   0x2db600; 0x5b6d801; 0x25924816; 0xdb6db0db; 0x6db6024b; 0x64902db6; 0xdb61b6db; 0x6c04b6db;
   0x20492492; 0x40000000; 0x1f2000; 0x48000; 0x36d800; 0x1b6d800; 0x3fffc00; 0xdb6d800;
   0x2db6d800; 0x7ff7f001; 0x6db6c003; 0x6d96c007; 0xf925800b; 0x6db60019; 0x64960032; 0xc92c105b;
   0x6db052cb; 0x24b20492; 0x496416db; 0x6db012c9; 0x2c800592; 0x590016db; 0x6c0036db; 0x6c003c96;
   0xf800b6db; 0x6000b6db; 0x60012d92; 0x402db6db; 0x602db6db; 0x60496d92; 0x416db6db; 0x16db6db;
   0x2db6db2; 0x9249248; 0x1d1f01; 0x1b2000; 0x36d8000; 0x5ffc0005; 0xb6d80036; 0xdb4001ff;
   0xff001b6d; 0xb0006db2; 0xc0032496; 0x36db60; 0xc92580; 0x249a408; 0x2db6c120; 0x92482504;
   0x9241065b; 0x6db00b24; 0x96404924; 0x9000b6db; 0x2db60; 0x24b00; 0x16db200; 0xdb6d801;
   0x25924036; 0xdb6d82db; 0x6db6124b; 0x64906db6; 0xdb45b6db; 0x6c25b6db; 0x20492492; 0x0;
   0x1f1f01; 0xb0000; 0x5b6000; 0x1ffc000; 0x16db6000; 0x36db6000; 0x7fffe001; 0xb6db6001;
   0xb6cb4003; 0x2497000d; 0xb6db000c; 0x92ca0019; 0xa598086d; 0xb6d82864; 0x964102c9; 0x24900b6d;
   0xb6d80964; 0x96400249; 0x24000b6d; 0xb200036d; 0x80000249; 0xb6d; 0x80005b6d; 0x80049649;
   0x2016db6d; 0xb036db6d; 0x8024b649; 0xb6db6d; 0x81b6db6c; 0x12db6c8; 0x4924924; 0x0;
   0x1f2000; 0x48000; 0x36d800; 0x1b6d800; 0x3fffc00; 0xdb6d800; 0x2db6d800; 0x7ffff001;
   0x6db6c003; 0x6db6c007; 0xf927800b; 0x6db6001b; 0x6db60032; 0xcb2c125b; 0x6db056db; 0x6db20592;
   0x496416db; 0x6db016db; 0x6db00d96; 0x590016db; 0x6c0036db; 0x6c003c96; 0xf800b6db; 0x6000b6db;
   0x60012d92; 0x402db6db; 0x602db6db; 0x60496d92; 0x416db6db; 0x16db6db; 0x2db6db2; 0x9249248;
   0x1e1f01; 0xd9000; 0xdb6000; 0xfff8000; 0x5b6d8001; 0xb6da0007; 0xfffc0036; 0xdb60006d;
   0xb6c001f6; 0xcb000db6; 0xd8001b6d; 0xb0006c9e; 0x40c36db6; 0x986db6c; 0xb2492482; 0x6db6db4;
   0x2db6db60; 0x12492400; 0x36db6000; 0x2db60000; 0x12580005; 0xb6c8001b; 0x6db00125; 0x92401b6d;
   0xb6c0b6db; 0x6d82496c; 0x9206db6d; 0xb42db6db; 0x6096db6c; 0x80924924; 0x0; 0x1e1f01;
   0x120000; 0x1b6c000; 0xb6d8000; 0x7fff8003; 0x6db60016; 0xdb6c007f; 0xfdf002db; 0x6da005b6;
   0xdb001ec9; 0x2c00b6db; 0x68016dbe; 0xc007b27b; 0x72db6d9; 0x62db6db6; 0x9249248; 0x1b6db6c0;
   0x16db6c00; 0x9249000; 0x5b6d8000; 0x36d80002; 0x49200016; 0xdb60016d; 0xb6c00496; 0x49206db6;
   0xdb02db6d; 0xb60925b2; 0x481b6db6; 0xc0b6db6d; 0x80492492; 0x0; 0x1f2000; 0x58000;
   0x7fe000; 0x3fff000; 0xffff800; 0x3ffff800; 0x7ffff000; 0xfffff003; 0xffffe007; 0xff6f801f;
   0xfb6f803f; 0xf6df0036; 0xdb6c00f7; 0xdf7c09ef; 0xbef92db6; 0xdb6dadb6; 0xdbec1b7f; 0xb7f02db6;
   0xdb602db6; 0xdb00392d; 0x9c006db6; 0xd8007db6; 0xf000f925; 0xc0016db6; 0xc00b6db6; 0xc0125b24;
   0x80db6db6; 0xc0db6db6; 0x96db24; 0x2db6db6; 0x6db6db0; 0x4924920; 0x1f1f01; 0x7f000;
   0x3ff800; 0xfff800; 0x3fff000; 0xffff800; 0x3fffe000; 0x7fffe000; 0x7ff7c001; 0xfdb78003;
   0xdf6f000b; 0x6db6000b; 0xedb60417; 0xdbe8161b; 0x6db2c65b; 0x6d960fbf; 0xff7c16db; 0x6db006db;
   0x6d800496; 0x4a0002db; 0x600002db; 0x492; 0x4000b6db; 0x6001b6db; 0x60092592; 0x402db6db;
   0x602db6db; 0x60496d92; 0x416db6db; 0x16db6db; 0x2492490; 0x0; 0x1e1f01; 0x174000;
   0x1ffc000; 0xfff8000; 0x7fff8003; 0xfffe001f; 0xfffc007f; 0xfff002ff; 0xefe007fe; 0xdf001fdb;
   0x7e00b6db; 0x7801efbe; 0xc007befb; 0x76db6d9; 0x62fb6db6; 0xfedfed8; 0x1b6db6c0; 0x16db6c00;
   0x9249000; 0x5b6d8000; 0x36d80002; 0x49200016; 0xdb60016d; 0xb6c00496; 0x49206db6; 0xdb02db6d;
   0xb60925b2; 0x481b6db6; 0xc0b6db6d; 0x80492492; 0x0; 0x1c2000; 0x40000; 0x2480000;
   0x49240012; 0x49200124; 0x92002492; 0x48012492; 0x124920; 0x2492480; 0x12492001; 0x20020025;
   0x92480134; 0xb2001303; 0x20925924; 0x90924924; 0x1048201; 0x2c92c909; 0x64b64016; 0xdb6002db;
   0x6c8016db; 0x20012492; 0x2db6d8; 0xb6db6c0; 0x92d92416; 0xdb6db1b6; 0xdb6c096d; 0xb2416db6].
Definition emoji_data_101 : list N :=
  [0xdb1b6db6; 0xc0924924; 0x1c1f01; 0x40000; 0x4920001; 0x24900012; 0x49000249; 0x20001249;
   0x12490; 0x249240; 0x9249000; 0x80010002; 0x49240096; 0x59000060; 0x80082492; 0x49412490;
   0x44104100; 0x96c96c80; 0xb64b2001; 0x2590002d; 0xb600016d; 0x80001249; 0x16db6c; 0x1b6db60;
   0x492c920b; 0x6db6d85b; 0x6db6c496; 0xd924b6db; 0x6d85b6db; 0x6c492492; 0x0; 0x1c1e02;
   0x492000; 0x12490001; 0x24900024; 0x92400124; 0x92001249; 0x20024924; 0x924920; 0x9000200;
   0x24964009; 0x24d20002; 0xc208249; 0x64149249; 0x24010400; 0x12c92c8; 0x964b200; 0x12490002;
   0xdb6c0006; 0xdb000024; 0x90002db6; 0xc00b6db6; 0x92c924; 0x36db6d85; 0xb6db6c49; 0x2d92436d;
   0xb6d85b6d; 0xb6c09249; 0x24000000; 0x1f2000; 0x48000; 0x7f2000; 0x12c9000; 0x97d9000;
   0x7ff8002; 0x5b6d9006; 0xffe7b00d; 0xffcf6036; 0xdb2db0b7; 0xf92fb12c; 0x800f25b2; 0xc92d8db3;
   0x4b3d89e6; 0x6792d96; 0x496def92; 0x49ec4f04; 0x83c96c92; 0x4b6f6c92; 0x4f62783c; 0x1e4b6cb2;
   0xdb0b7c93; 0xdb12fc0f; 0x961b6cb6; 0xd81b64b6; 0xd0124064; 0x805b65b6; 0xc0db6db6; 0x925924;
   0x2db6db0; 0x2db6db0; 0x924900; 0x201f01; 0x58000; 0x4b6400; 0x12db200; 0x3ffe00;
   0x2db6d90; 0xb7ffec8; 0x9ffffc8; 0x16db65b0; 0x1be593d8; 0x98003c8; 0x36c925b6; 0x592c9258;
   0x480c1008; 0xb44924b6; 0x5824921b; 0x48008009; 0xb4492436; 0x5824921a; 0x48049048; 0x360b64b6;
   0x5b049058; 0x9000048; 0x36c925b4; 0x1b6c96d8; 0x9241248; 0x16d92db0; 0xb6cb6d8; 0x9249240;
   0x6db6db0; 0xb6db6c0; 0x1249240; 0x1f1e01; 0x90000; 0x1259200; 0x12f9200; 0x3ffe000;
   0x4b6db202; 0x5ffdf204; 0xbffbe416; 0xdb65b616; 0xd925b027; 0x900320b6; 0x4965b1ba; 0x49a4b130;
   0x83092db2; 0x4b25ac92; 0x49258800; 0x80496c92; 0x492c6892; 0x486c4004; 0x80496092; 0x43636092;
   0xb624000; 0x120b6492; 0x5b0b6c96; 0xd8124824; 0x901b6cb6; 0xc05b6db6; 0xc0124924; 0x805b6db6;
   0xdb6db4; 0x0; 0x1f1e02; 0x492400; 0x2492400; 0x0; 0x92492401; 0xb2492c03;
   0x180d; 0x92496c2c; 0x92496c48; 0x496c; 0xb2496364; 0xf2c962c1; 0x81824b25; 0x924b7b24;
   0x924b1601; 0x20125924; 0x925bd924; 0x9258b00f; 0x92d92c; 0x92c2c924; 0x96c48000; 0xc86c924;
   0xb606d92d; 0xb404b01b; 0x2016d96d; 0xb036db6d; 0x80249649; 0xb6db6c; 0xb6db6c; 0x249240;
   0x0; 0x201e02; 0x492400; 0x1249200; 0x0; 0x2492490; 0xb249258; 0x9000048;
   0x164924b0; 0x1b249258; 0x8000048; 0x364924b6; 0x592cb258; 0x480c1008; 0xb44924b6; 0x5824921b;
   0x48008009; 0xb4492436; 0x5824921a; 0x48049048; 0x360b64b6; 0x5b049058; 0x9000048; 0x36c925b4;
   0x1b6c96d8; 0x9241248; 0x16d92db0; 0xb6db6d8; 0x9249240; 0x6db6db0; 0xb6db6c0; 0x1249240;
   0x1f1d02; 0x924900; 0x924900; 0x0; 0x24924901; 0x24924902; 0x4000120b; 0x24925b0b;
   0x24925812; 0x1059; 0x24b258d9; 0x24d25880; 0x418096c9; 0x2592d609; 0x2492c400; 0x4004b649;
   0x24963449; 0x24362012; 0x4024b049; 0x21b1b049; 0x5b12000; 0x905b249; 0x2d85b64b; 0x6c092412;
   0x480db65b; 0x602db6db; 0x60092492; 0x402db6db; 0x6db6da; 0x0; 0x1f2000; 0x48000;
   0x5f2000; 0x16db000; 0x96d9000; 0x17ff2002; 0xdb6db006; 0xdb65b00d; 0xffcf6036; 0xdb6db0b6;
   0xd92db12c; 0x924f25b6; 0xdb6d8db3; 0xcb2d89e6; 0x96792db6; 0xdb6ded92; 0x496c4f24; 0x93c96db6;
   0xdb6f6cb6; 0x4b62597c; 0x9e4b6db6; 0xdb0b6c92; 0xdb12f92f; 0x921b6db6; 0xd81b64b6; 0xd0124964;
   0x805b6db6; 0xc0db6db6; 0x925924; 0x2db6db0; 0x2db6db0; 0x924900; 0x201f01; 0x48000;
   0x4b6400; 0x12db240; 0x13ffe40; 0x6db6db0; 0xb6db6d8; 0x9fff7c8; 0x16db6db0; 0x1b6d92d8;
   0x9a49348; 0x36db6db6; 0x592cb258; 0x492c9208; 0xb45b6cb6; 0x5824921b; 0x48249209; 0xb45b6c36;
   0x5824921a; 0x48249048; 0x361b6cb6; 0x5b049058; 0x9048048; 0x36cb65b4; 0x1b6c96d8; 0x9249248;
   0x16db6db0; 0xb6db6d8; 0x9249240; 0x6db6db0; 0xb6db6c0; 0x1249240; 0x1f1e01; 0x90000;
   0x12d9200; 0x92d9200; 0x12ffe400; 0x5b6db602; 0xdb6db604; 0xbffbe416; 0xdb6db616; 0xdb25b027;
   0x924b20b6; 0xdb6db1b6; 0xc9e4b134; 0x93492db6; 0xdb65ac92; 0x4925c824; 0x92496cb6; 0xdb2c6892;
   0x486c4024; 0x904960b6; 0xc3636092; 0xb624024; 0x120b64b2; 0x5b0b6c96; 0xd8124924; 0x901b6db6;
   0xc05b6db6; 0xc0124924; 0x805b6db6; 0xdb6db4; 0x0; 0x1f2000; 0x2c000; 0x36d800;
   0x12f9000; 0xdb6d800; 0x2db6d800; 0x5ffdf203; 0x6db6d80b; 0x6db6d813; 0xff27905b; 0x6db6d8db;
   0x6db6d09e; 0x492e96db; 0x6db6c6db; 0x6fb6c5f2; 0x497cb6db; 0x6db6b6db; 0x6db62f92; 0x4be5b6db;
   0x6db1b6db; 0x6db13cb6; 0x7925b6db; 0x6d85b6db; 0x6c097c9f; 0xc82db6db; 0x6c2db6db; 0x60092492;
   0x406db6db; 0x6db6db; 0x492490; 0x16db6d8; 0x1249240; 0x1f1f01; 0x58000; 0x4f2000;
   0xb6db600; 0x5b6db600; 0x9fffe402; 0xdb6db606; 0xdb6db005; 0xfffb2036; 0xdb6db0b6; 0xdb6cb12c;
   0x92c92596; 0xdb6dadb7; 0xdb658924; 0x96492c36; 0xdb0decb6; 0xdb2c4824; 0x904961b6; 0xd96f61b6;
   0xc162416c; 0x824b61b6; 0xb0b60b0; 0x5b124120; 0x921b6db6; 0xd81b6db6; 0xd0124924; 0x805b6db6;
   0xc0db6db6; 0x924924; 0x2db6db0; 0x2492490; 0x0; 0x201f01; 0x58000; 0x259200;
   0x2db6d80; 0x36db6c0; 0x97ffe40; 0x16db6db0; 0xb6db6d8; 0x9ff97c8; 0x16db6db0; 0x1b6db6d8;
   0x4b2c92c8; 0x36db6db6; 0x5b6db6da; 0x492c9288; 0xb2db6d96; 0x596db61b; 0x48249208; 0xb65b6c36;
   0x582db658; 0x48249048; 0x360b60b6; 0x1b058058; 0x9048048; 0x16db6db0; 0xb6db6d8; 0x9249248;
   0x16db6db0; 0xb6db6c0; 0x9249240; 0x6db6db0; 0x1249240; 0x1f2000; 0x6c000; 0x3fd800;
   0x1fffc00; 0xdbed800; 0x2fffd800; 0xdffff603; 0x7ff7d80b; 0x7ff7d813; 0xffef905b; 0xfdb7d8df;
   0xedb6d09e; 0xfbee96db; 0xedbec6fb; 0xefbec5f7; 0xdf7cb7db; 0x6df6b7db; 0x6df62fb7; 0xdbe5bedb;
   0x6fb1bedb; 0x7fb13fbe; 0xfd25bedb; 0xed85bedf; 0xec097fbf; 0xc82db6db; 0x6c2db6db; 0x60092d92;
   0x406db6db; 0x6db6db; 0x492490; 0x16db6d8; 0x1249240; 0x1f1f01; 0xf8000; 0x25fe400;
   0xb7fb600; 0x5bfff600; 0xbfffec02; 0xfffff606; 0xffffb005; 0xffffa037; 0xdb6fb0b7; 0xdb6cb12f;
   0xf7dd2596; 0xdb6dadb7; 0xdf65892f; 0xbec92c36; 0xdb0decb6; 0xdb2c496f; 0xb64961b6; 0xd96f61b6;
   0xc16241ff; 0x824b61b6; 0xb0b61b0; 0x5b124160; 0x921b6db6; 0xd85b6db6; 0xd8124b24; 0x805b6db6;
   0xc0db6db6; 0x924924; 0x2db6db0; 0x2492490; 0x0; 0x201f01; 0x58000; 0x2ff200;
   0x2dbed80; 0x37ffec0; 0xbffffc0; 0x16ffffb0; 0xbffffd8; 0x9ffffc8; 0x17db6fb0; 0x1bfdb7d8].
Definition emoji_data_102 : list N :=
  [0x4bfdbfc8; 0x37db7db6; 0x5b6db6da; 0x49fdbf88; 0xb3db6d96; 0x596db69b; 0x49eff708; 0xb6db6c36;
   0x582ff658; 0x482ff048; 0x360b60b6; 0x1b05a058; 0x907c048; 0x16db6db0; 0xb6db6d8; 0x9259248;
   0x16db6db0; 0xb6db6c0; 0x9249240; 0x6db6db0; 0x1249240; 0x1f2000; 0x24000; 0x124800;
   0x41000; 0x4924800; 0x24924800; 0x9248003; 0x6492580b; 0x24925816; 0x4904b05b; 0x2492d8d9;
   0x2492d0b0; 0x410596c9; 0x6596c6c9; 0x2696c482; 0x824b649; 0x24b6b649; 0x24b62402; 0x125b25b;
   0x25b1b25b; 0x25b16410; 0x4b25b249; 0x2d859249; 0x2c092412; 0x482db65b; 0x6c2db25b; 0x60092092;
   0x406db6db; 0x6db6db; 0x492490; 0x16db6d8; 0x1249240; 0x1f1f01; 0x48000; 0x90000;
   0x9249200; 0x9249000; 0x12492002; 0xc924b606; 0xc924b004; 0x92412036; 0x4924b0b2; 0x4924b124;
   0x80492592; 0xcb25ad93; 0x4b258904; 0x2092c12; 0x490dec12; 0x482c4804; 0x80496092; 0x496f6092;
   0x41624024; 0x24b6092; 0xb0b6090; 0x5b124000; 0x921b6c96; 0xd81b64b6; 0xd0124924; 0x805b6db6;
   0xc0db6db6; 0x924924; 0x2db6db0; 0x2492490; 0x0; 0x201f01; 0x48000; 0x8000;
   0x2492480; 0x1249240; 0x249200; 0x16c925b0; 0xb249258; 0x9248248; 0x164924b0; 0x19249258;
   0x49041048; 0x36592cb6; 0x592c921a; 0x49041008; 0xb2492496; 0x5924921b; 0x48008008; 0xb64b6436;
   0x58259058; 0x48008048; 0x360920b6; 0x1b048058; 0x9000048; 0x16d92db0; 0xb6c96d8; 0x9241248;
   0x16db6db0; 0xb6db6c0; 0x9249240; 0x6db6db0; 0x1249240; 0x1f2000; 0x4000020; 0x4000000;
   0x8000201; 0xc100821; 0xb60822; 0xfff8203; 0x2db6c800; 0x7fffc001; 0xffffc003; 0x6db6c00f;
   0xffbf001f; 0xff7e005b; 0x6cb6007f; 0xe4f800ff; 0xc17002d9; 0x24b00349; 0x24c00610; 0x61801659;
   0x65801249; 0x24002000; 0x905b249; 0x2d8db249; 0x6d896080; 0xc96db24b; 0x6d6db25b; 0x6c4b64b6;
   0x4b6db6db; 0x6365b6cb; 0x62412402; 0xb24924b; 0x8; 0x1f2000; 0x80; 0x10000080;
   0x4; 0x10000c04; 0x480080; 0x5fe0004; 0x16db0c00; 0x3fff0001; 0xfffe0005; 0xb6d8000f;
   0xfff8001f; 0xffb0002d; 0xb6500064; 0x924000c0; 0x800124; 0x92000124; 0x92000060; 0x60000165;
   0x90000924; 0x90009000; 0x2416c924; 0xb616c924; 0xb6248001; 0x24b6c92d; 0xb7b6c92d; 0xb1249249;
   0x25b6db6d; 0xb592db25; 0x89049209; 0xc92492c; 0x4000020; 0x202000; 0x2000000; 0x40;
   0x1000040; 0x2010082; 0x410fb008; 0x83ff008; 0x14db6c30; 0x1fffe00; 0x1ffff80; 0x2db6d80;
   0x3ffffc0; 0x3ff87c0; 0x2db2580; 0x3ec93c0; 0x30000c0; 0x2c92580; 0x32492c0; 0x10c1080;
   0x2d92c80; 0x12492c0; 0x9000040; 0x36c925b6; 0x5b2492d8; 0x49008248; 0xb6c925b6; 0x5b6496db;
   0x49249248; 0xb6db6db6; 0x592db258; 0x8049008; 0x164924b0; 0x8000000; 0x1f2000; 0x4000020;
   0x4000000; 0x8000201; 0xc000821; 0x100822; 0x203; 0x24924800; 0x24924000; 0x1;
   0x24920009; 0x24920000; 0x49; 0x24920049; 0x24900000; 0x249; 0x24900249; 0x24800010;
   0x60001259; 0x64801249; 0x24002000; 0x905b249; 0x2d8db249; 0x6d896082; 0xc96db24b; 0x6d6db25b;
   0x6c4b64b6; 0x4b6db6db; 0x6365b6cb; 0x62412482; 0xb24924b; 0x8; 0x1f2000; 0x80;
   0x10000080; 0x4; 0x10000c04; 0x80; 0x4; 0x12480c00; 0x12480000; 0x0;
   0x92480004; 0x92480000; 0x24; 0x92400024; 0x92400000; 0x124; 0x92000124; 0x92000060;
   0x60000165; 0x90000925; 0x90009000; 0x2416c924; 0xb616c924; 0xb6248241; 0x24b6c92d; 0xb7b6c92d;
   0xb1249249; 0x25b6db6d; 0xb592db25; 0x89049209; 0xc92492c; 0x4000020; 0x202000; 0x2000000;
   0x40; 0x1000040; 0x2000082; 0x41048008; 0x8000008; 0x14492430; 0x249200; 0x0;
   0x2492480; 0x1249200; 0x0; 0x2492480; 0x1249200; 0x0; 0x2492480; 0x1249200;
   0xc1000; 0x592c80; 0x12c9240; 0x9000040; 0x16c925b0; 0x5b2492d8; 0x49208248; 0xb6c925b6;
   0x5b6496db; 0x49249248; 0xb6db6db6; 0x592db258; 0x8049048; 0x164924b0; 0x8000000; 0x1f2000;
   0x4000020; 0x4000000; 0x8000201; 0xc100821; 0xb60822; 0x3ff8203; 0x2db6c800; 0x6db6c000;
   0xffff8003; 0x6db6c00b; 0x6db6001f; 0xff7e005b; 0x6db6005b; 0x64b000ff; 0xc97002db; 0x6db002c9;
   0x24800692; 0x698016db; 0x6d801249; 0x24002492; 0x4905b6db; 0x6d8db249; 0x6d896492; 0xc96db6db;
   0x6d6db25b; 0x6e4b64b6; 0x4b6db6db; 0x6365b6cb; 0x62492492; 0xb6db6db; 0x1249248; 0x1f1f01;
   0x4000060; 0x4000100; 0x209; 0x4120821; 0xb60100; 0x3ff8201; 0x2db6c800; 0x2db68000;
   0xffff0003; 0x6db60003; 0x6db60007; 0xc92c001b; 0x6db00019; 0x24b00012; 0x492000db; 0x6d800059;
   0x3c800092; 0x680012db; 0x6c80b249; 0x25812492; 0x490db6db; 0x6d8db249; 0x6d892492; 0x496db6db;
   0x6d6db25b; 0x6c492492; 0x496db6db; 0x6164b64b; 0x2492492; 0x1249248; 0x0; 0x1f1f01;
   0x6000080; 0x0; 0x4; 0x92db0084; 0x86db0481; 0x3fffc800; 0xb6db0001; 0xb6db0003;
   0xffff000d; 0xb6db000d; 0xb65a001f; 0xe4b8006d; 0xb6d80064; 0x924000c9; 0x24c0036d; 0xb6c0033c;
   0xb2000669; 0x64000b6d; 0xb6005924; 0x96049249; 0x2496db6d; 0xb636c925; 0xb6249249; 0x24b6db6d;
   0xb7b6d96d; 0xb1249249; 0x25b6db6d; 0x85925925; 0x81249248; 0x4924924; 0x0; 0x201f01;
   0x2000080; 0x1000040; 0x41000000; 0x300b6496; 0x82db608; 0x87fff00; 0xdb6d80; 0x16db6c0;
   0x1ffffc0; 0x2db6d80; 0x36db6c0; 0x3ffdfc0; 0x2db6d80; 0x36db6c0; 0x3ec92c0; 0x2db6d80;
   0x36db6c0; 0x32cb2c0; 0x2db6d80; 0xb6db6c8; 0x92492c8; 0x36db6db6; 0x5b6db6da; 0x49649249;
   0xb6db6db6; 0x5b6db6db; 0x492db648; 0x36db6db6; 0x1b6db6d8; 0x9249258; 0x12492490; 0x1f1f01;
   0x4000060; 0x4000100; 0x209; 0x4120821; 0xb60100; 0x3ff8201; 0x2db6c800; 0x6db68000;
   0xffff0003; 0x6db60003; 0x6db60007; 0xfb3c001b; 0x6db0001b; 0x6db00032; 0x496000db; 0x6d8000db;
   0x6d8000b2; 0x780012db; 0x6c80b6db; 0x6d812492; 0x490db6db; 0x6d8db6db; 0x6dc92492; 0x496db6db;
   0x6d6db6db; 0x6c492492; 0x496db6db; 0x616db6db; 0x2492492; 0x1249248; 0x0; 0x1f1f01;
   0x6000080; 0x0; 0x4; 0x92db0084; 0x86db0481; 0x3fffc800; 0xb6db0001; 0xb6db0003;
   0xffff000d; 0xb6db000d; 0xb6da003f; 0xecbc006d; 0xb6d8006d; 0xb6c000c9; 0x24c0036d; 0xb6c0037d;
   0xb6000679; 0x64000b6d; 0xb6005b6d; 0xb6049249; 0x2496db6d; 0xb636db6d; 0xb6249249; 0x24b6db6d;
   0xb7b6db6d; 0xb1249249; 0x25b6db6d; 0x85b6db6d; 0x81249248; 0x4924924; 0x0; 0x201f01;
   0x2000080; 0x1000040; 0x41000000; 0x301b6496; 0x83ffe08; 0x87fff00; 0xffff80; 0x1ffffc0].
Definition emoji_data_103 : list N :=
  [0x1ffffc0; 0x3ffefc0; 0x3ffffc0; 0x3ffffc0; 0x3ff6fc0; 0x3ffb7c0; 0x3ffb7c0; 0x3db6dc0;
   0x36db6c0; 0x3fdbfc0; 0x6db6da0; 0xb6db6c8; 0x96db648; 0x36db6db6; 0x5b6db6da; 0x492db649;
   0xb6db6db6; 0x5b6db6db; 0x4b6592c8; 0x36db6db6; 0x1b6db6d8; 0xb7dbec8; 0x12492490; 0x1f1f01;
   0x4000060; 0x4000100; 0x209; 0x4160821; 0xff8100; 0x3ff8201; 0x2fffc800; 0x7fff8000;
   0xffff8003; 0xfffe0003; 0xfffe000f; 0xfffc001f; 0x6db0003b; 0x6db00076; 0xdbe000db; 0x6d8000df;
   0x7d8000be; 0xf80012db; 0x6c80b6db; 0x6d812db6; 0xd90db6db; 0x6d8db6db; 0x6dc92fbe; 0x496db6db;
   0x6d6db6db; 0x6c492492; 0x496db6db; 0x616db6db; 0x2dbefb6; 0x1249248; 0x0; 0x1f1f01;
   0x6000080; 0x0; 0x4; 0x92fb0084; 0x87ff0481; 0x3fffc800; 0xffff8001; 0xffff8003;
   0xffff000f; 0xffff001f; 0xfefe003f; 0xfdfc007d; 0xb6f800ed; 0xb6f001db; 0x6dc0036d; 0xb6c0037d;
   0xf70006fb; 0xee000b6d; 0xb6005b6d; 0xb60496db; 0x6496db6d; 0xb636db6d; 0xb6249ef9; 0x24b6db6d;
   0xb7b6db6d; 0xb1249249; 0x25b6db6d; 0x85b6db6d; 0x816fbef8; 0x4924924; 0x0; 0x201f01;
   0x2000080; 0x1000040; 0x41000000; 0x30092096; 0x8249208; 0x8249200; 0x492480; 0x1249240;
   0x1249240; 0x2492480; 0x1249240; 0x1248240; 0x2492480; 0x1249240; 0x1200040; 0x2492480;
   0x12c9240; 0x10c1040; 0x2492480; 0xb2492c8; 0xb0000c8; 0x36c925b6; 0x5b6492da; 0x49600249;
   0xb6d92db6; 0x5b6cb6db; 0x492cb648; 0x365b6cb6; 0x19259258; 0x8008018; 0x12492490; 0x1f1f01;
   0x4000060; 0x4000100; 0x209; 0x4120821; 0x920100; 0x1248201; 0x4924800; 0x24920000;
   0x49240001; 0x24920001; 0x24920002; 0x49000009; 0x24900009; 0x24900000; 0x49; 0x24800049;
   0x24800010; 0x60001249; 0x6480b249; 0x25812000; 0x90db259; 0x2d8db249; 0x6d892002; 0x496db24b;
   0x6d6db25b; 0x6c492492; 0x4965b6cb; 0x6164924b; 0x2002002; 0x1249248; 0x0; 0x1f1f01;
   0x6000080; 0x0; 0x4; 0x90490084; 0x82490481; 0x4920800; 0x92490000; 0x92490001;
   0x24920004; 0x92490004; 0x92480009; 0x20100024; 0x92480024; 0x92400040; 0x800124; 0x92000124;
   0xb2000260; 0x60000964; 0x92005924; 0x96049000; 0x2496c964; 0xb636c924; 0xb6249009; 0x24b6c92d;
   0xb7b6c96d; 0xb1249249; 0x2592db65; 0x85924925; 0x81000008; 0x4924924; 0x0; 0x1e1f01;
   0x6c000; 0x2c0000; 0x920000; 0x2db60000; 0xdb6c0009; 0x2490005b; 0x6db001b2; 0xcb600649;
   0x2581b6db; 0x6db96c96; 0xcb269249; 0x346db6db; 0x6e496c92; 0x41249249; 0x1b6db6db; 0x12596490;
   0x49249242; 0xdb6db605; 0xb24b2c12; 0x492480b6; 0xdb6d816d; 0xb65b049f; 0xfd242db6; 0xdb60db7f;
   0x96c12cb2; 0x490b6db6; 0xd8365965; 0xb0482402; 0x42400012; 0x0; 0x1e2000; 0x20000;
   0x160000; 0x2c0000; 0x4900000; 0x6db60002; 0xdb6c0009; 0x249002db; 0x6db00d92; 0x4b609249;
   0x2485b6db; 0x6d8b2492; 0x582cb259; 0x616db6db; 0x62cf2796; 0x493c9e49; 0xdb6db6d8; 0x92c96492;
   0x492c9256; 0xdb6db66c; 0x96c96cb2; 0x492595b6; 0xdb6d9b2d; 0xb65b2cbf; 0xf9676db6; 0xdb66d9fc;
   0xb6cb25f2; 0x59d96db6; 0xd9b0c961; 0xb2c02406; 0x52000012; 0x1f2000; 0x40000; 0x160000;
   0x160000; 0x1248000; 0x5b6c000; 0x2db6c000; 0x49248001; 0x6db6c003; 0x2592c012; 0x4924805b;
   0x6db60049; 0x24920092; 0x492406db; 0x6db6125f; 0x2e9224be; 0x5d2436db; 0x6db032c9; 0x6d802c92;
   0x4900b6db; 0x6d01b2d9; 0x2c016492; 0x5805b6db; 0x680592d9; 0x60492492; 0xc96db6db; 0x6f6c96cb;
   0x62492492; 0x4b6db6db; 0x7b24b6cb; 0x10092402; 0x40000001; 0x192000; 0x900001; 0xb6c903ff;
   0xb241ffc9; 0x1b6d921; 0xfff249ff; 0xee00b6db; 0x247ff2c9; 0x3fc02496; 0xc92dac92; 0x4b661821;
   0x92592db5; 0x92496cc0; 0x325924; 0xb6b2492d; 0x9c00164b; 0x2d96d7cb; 0x65b1e087; 0xc96c96da;
   0x5b25b62d; 0x82d96d92; 0xdb1b65b6; 0xc592c92d; 0xb6db636d; 0xb6c0b249; 0x20924920; 0x191f01;
   0xd92481; 0xffc903ff; 0x8482db64; 0x91fff920; 0xfffc00db; 0x6d923fd9; 0x24192412; 0x192496c6;
   0x492d8020; 0xc2412cb2; 0xd84924b0; 0x4824; 0xb25b0924; 0x96000009; 0xb64b60; 0x2d82c002;
   0x1200241; 0x6c009058; 0x920924b6; 0xcb6ded92; 0xdb124924; 0x96db6d8d; 0xb6db62c9; 0x24824924;
   0x80000000; 0x191f01; 0x1601203; 0x6d9243ff; 0xe483ffc0; 0x436db24b; 0xffec91ff; 0xf6016db2;
   0xc97b24b2; 0x3c80092c; 0x92cb6d24; 0xd2c61061; 0x2192596d; 0x24925800; 0x40241249; 0x2d84924b;
   0x490480; 0x5b25b012; 0x41600000; 0x904924b6; 0xb64b6c49; 0x4925b65; 0xb6f6db6d; 0x8924924b;
   0x6db6c6db; 0x6d802000; 0x0; 0x1a1e02; 0x2492582; 0x49249000; 0x4924; 0x92092492;
   0x40000001; 0x24924824; 0x925b0000; 0x16c4b24b; 0x609e596c; 0x6064912; 0xc92d8249; 0x25b00241;
   0x244924b6; 0x92496c0; 0x9059125; 0xb2d82492; 0x5b000016; 0x44924b61; 0xb25b6d6c; 0x6c9b6cb;
   0x6d96db6d; 0xa592c922; 0xdb6db45b; 0x6db61249; 0x24000000; 0x191f01; 0x900; 0x92490124;
   0x92400001; 0x20924920; 0x24924800; 0x1249; 0x2404925b; 0x2482; 0x492da4b2; 0xcb601824;
   0x904925b4; 0x12496c00; 0x20120924; 0xb682492d; 0x80248240; 0x2d92d009; 0x21b00000; 0x4824925a;
   0x5b25b624; 0x82496d92; 0xdb1b6db6; 0xc492492d; 0xb6db636d; 0xb6c09249; 0x0; 0x192000;
   0x200; 0x90092; 0x49212492; 0x40000120; 0x92492424; 0x92480000; 0x124924; 0xa4924900;
   0x48249; 0x65b49269; 0x60083090; 0x492cb612; 0x492c0020; 0x12092496; 0xc2492580; 0x2482402d;
   0x92d80920; 0xb0000048; 0x24925b5b; 0x25b62482; 0x492db2db; 0x7b6db6c4; 0x924925b6; 0xdb636db6;
   0xc0100000; 0x1a2000; 0x240200; 0x7f24806d; 0xb6d82db6; 0xc90fff92; 0x45b6db61; 0xb6d9247f;
   0xf34936db; 0x6d96d92d; 0xb3b2496c; 0xdb6db659; 0xe596ce69; 0x64936db6; 0xd964925b; 0x3924924d;
   0xb6db6592; 0x496ce492; 0x4936db6d; 0x86c92db1; 0xf25f245b; 0x6db61b25; 0xb6d24964; 0x9b6db6d9;
   0x6db6da59; 0x2c922db6; 0xdb45b6db; 0x61249240; 0x192000; 0x900; 0x580480db; 0x6580b6c9;
   0x20ffe490; 0xdb6db0b6; 0xdb247ffd; 0x921b6db6; 0x16d92d8d; 0x24924b6d; 0xb6d25965; 0xb12c9248;
   0x2db6da09; 0x24b60492; 0x4905b6db; 0x412496c0; 0x92412036; 0xd9680490; 0xd8024024; 0x12d92d2d;
   0x92db1249; 0x24b6db6d; 0x8db6db62; 0x492496db; 0x6db1b6db; 0x60492480; 0x192000; 0x1200;
   0x900901b6; 0xcb616db2; 0x41ffe921; 0xb6db6d6d; 0xb648fffb; 0x24b6db6d; 0xadb25b1e; 0x492496db;
   0x6db5b27b; 0x63493490; 0xdb6db692; 0x492c0924; 0x920b6db6; 0xc2492580; 0x2492402d; 0xb2d80920;
   0xb0009048; 0x24b25b5b; 0x25b62492; 0x492db6db; 0x7b6db6c4; 0x924925b6; 0xdb636db6; 0xc0100000].
Definition emoji_data_104 : list N :=
  [0x1a2000; 0x240200; 0x7f25906d; 0xb6d82db6; 0xdb0fff96; 0x45b6db61; 0xb6db6cff; 0xf3c936db;
   0x6d96db6d; 0xb7f2496c; 0xdb6db65b; 0x6db6de79; 0x64936db6; 0xd96db6db; 0x792c924d; 0xb6db65b6;
   0xdb6ce5b2; 0xc936db6d; 0x86db6db1; 0xfe5f245b; 0x6db61b6d; 0xb6d24964; 0x9b6db6d9; 0x6db6da59;
   0x2c922db6; 0xdb45b6db; 0x61249240; 0x192000; 0x900; 0x590580db; 0x6da0b6db; 0x60ffe4b0;
   0xdb6db4b6; 0xdf6c7fff; 0x921b6db6; 0x96db6d8f; 0x24924b6d; 0xb6d2db6d; 0xb12cb248; 0x6db6da1b;
   0x6db604b2; 0x4905b6db; 0x416db6c0; 0x96c12036; 0xd9680db0; 0xd8024024; 0x12d92d2d; 0xb6db1249;
   0x24b6db6d; 0x8db6db62; 0x492496db; 0x6db1b6db; 0x60492480; 0x192000; 0x1200; 0x900901b6;
   0xcb616db6; 0xc1fff921; 0xb6db6d6d; 0xb6d8fffb; 0x24b6db6d; 0xadb6db1e; 0xc92496db; 0x6db5b6fb;
   0x63d93c90; 0xdb6db6b6; 0xdb6c1924; 0x920b6db6; 0xc2db6581; 0x2d92402d; 0xb2d80b60; 0xb0009048;
   0x24b25b5b; 0x6db62492; 0x492db6db; 0x7b6db6c4; 0x924925b6; 0xdb636db6; 0xc0100000; 0x1a2000;
   0x2c0200; 0x7fe7f07f; 0xfed83ffe; 0xdb1fffbf; 0xc7fffb61; 0xffff6cff; 0xffdb3ffb; 0x6d9ffb6d;
   0xb7fedb24; 0xdb6db67b; 0xefb6defb; 0xec936db6; 0xd9edb6db; 0x7b7db24d; 0xb6db67b6; 0xdb6cffff;
   0xc93edb6d; 0x87db7db1; 0xfeff245b; 0x6db61b6d; 0xb6d25b24; 0x9b6db6d9; 0x6db6da59; 0x24922db6;
   0xdb45b6db; 0x61249240; 0x192000; 0x900; 0x7f0d80ff; 0xeda0fffb; 0x60fffdb0; 0xfffdb4ff;
   0xff6c7fff; 0xb61ffdf6; 0x9fdb6d8f; 0x7db24b6d; 0xb6d2db6d; 0xb17dbe48; 0x6db6da1b; 0x6db60dfe;
   0xc905b6db; 0x436db6c0; 0xbfd92036; 0xd9680db0; 0xd802c024; 0x12d92d2d; 0xb6db127f; 0x24b6db6d;
   0x8db6db62; 0x492496db; 0x6db1b6db; 0x60492480; 0x192000; 0x1200; 0xba0f81ff; 0xcb61fff6;
   0xd1fffff1; 0xfffb6dff; 0xfedaffff; 0xfebffbed; 0xbff6fb1f; 0xdb6496db; 0x6db7befb; 0x63df7c90;
   0xdb6db6f6; 0xdb6c3b7d; 0x920b6db6; 0xc2db6581; 0x7ff2406d; 0xb2d80b60; 0xb001b048; 0x25b25b5b;
   0x6db624b6; 0x492db6db; 0x7b6db6c4; 0x924925b6; 0xdb636db6; 0xc0100000; 0x1a2000; 0x200000;
   0x49000024; 0x92482492; 0x49092480; 0x4924920; 0x92492424; 0x92001249; 0x24824925; 0xb090016c;
   0x4b24b609; 0xa596c260; 0x64912c92; 0xd824925b; 0x8241244; 0x924b6092; 0x496c2090; 0x59125b2d;
   0x824925b0; 0x9009645b; 0x25b61b25; 0xb6d6c06c; 0x9b6cb6d9; 0x6db6da59; 0x2c922db6; 0xdb45b6db;
   0x61249240; 0x191f01; 0x100900; 0x92490124; 0x92409241; 0x924920; 0x24924812; 0x49001249;
   0x2424925b; 0x10002482; 0x492da4b2; 0x4b601820; 0x904925b4; 0x12496c00; 0x20120924; 0xb682492d;
   0x80248240; 0x2d92d009; 0x21b00000; 0x4824925a; 0x5b25b624; 0x82496d92; 0xdb1b6db6; 0xc492492d;
   0xb6db636d; 0xb6c09249; 0x0; 0x192000; 0x200; 0x90092; 0x49212492; 0x40924120;
   0x92492424; 0x92481249; 0x124924; 0xa4924912; 0x48249; 0x65b49269; 0x60083090; 0x492cb612;
   0x492c0020; 0x12092496; 0xc2492580; 0x2482402d; 0x92d80920; 0xb0000048; 0x24925b5b; 0x25b62482;
   0x492db2db; 0x7b6db6c4; 0x924925b6; 0xdb636db6; 0xc0100000; 0x1d1e01; 0x1040000; 0x8200000;
   0xb00b0002; 0x8200000; 0x0; 0x2400; 0x8000000; 0x120004; 0x80480092; 0x40000001;
   0x24000920; 0x90082480; 0x248; 0x24124924; 0x12490000; 0x49201; 0x24924804; 0x92000000;
   0x9240249; 0x24800920; 0x2; 0x40009049; 0x24000; 0x480; 0x1209200; 0x4800000;
   0x90002; 0x40000000; 0x1f1f00; 0x10000; 0x2000400; 0x4000800; 0x6086000; 0x2010000;
   0x4020000; 0x80002000; 0x0; 0x124; 0x80092120; 0x12000; 0x924; 0x492900;
   0x90010000; 0x4924; 0x12494900; 0x2480200; 0x4024920; 0x924a4900; 0x92408000; 0x4124804;
   0x92124804; 0x92000000; 0x124004; 0x90120004; 0x80240009; 0x900024; 0x80900024; 0x0;
   0x4800124; 0x0; 0x1f2000; 0x10000; 0x10400; 0x20800; 0x2082000; 0x2082000;
   0x0; 0x80002004; 0x90012009; 0x20024024; 0x80092524; 0x80092249; 0x120924; 0x2492924;
   0x80491249; 0x904924; 0x12494924; 0x12489248; 0x2492db60; 0xb6da4920; 0x92449201; 0x2486db01;
   0xb6c24804; 0x92049001; 0x2416c005; 0xb0120004; 0x90240009; 0x20b6000d; 0x80900024; 0x81200049;
   0x5b0006c; 0x4800024; 0x1f1f01; 0x410000; 0x820000; 0x2c02c00; 0x2082000; 0x0;
   0x0; 0x90012409; 0x2002482d; 0xa0036424; 0x80092449; 0x124b6d; 0x121b2124; 0x2492249;
   0x4925b6d; 0x96db5b64; 0x12db1248; 0x2492db60; 0x36d8db60; 0xb6d89240; 0x2496db01; 0xb6c6db01;
   0xb6c49001; 0x2406c001; 0xb416c001; 0xb0248001; 0x2036000d; 0xa0b6000d; 0x81240009; 0x1b0006d;
   0x4900024; 0x0; 0x1f2000; 0x10000; 0x2000400; 0x4000800; 0x6086000; 0x2010000;
   0x4020000; 0x80002001; 0x8003401b; 0x6416d; 0x801b636d; 0x1b26d8; 0x364b6c; 0x80db7b69;
   0x90d936c3; 0x21b25b6c; 0x36dbdb6c; 0xb6d9bfd0; 0x6fb2db61; 0xb6dedb01; 0xb6cdf603; 0x6d96db05;
   0xb696d805; 0xb62db00b; 0x6c36c00d; 0xb036000d; 0xa07c001f; 0xc1b4002d; 0x81b0006d; 0x360005a;
   0xda0016c; 0x4800120; 0x1f1f00; 0x10000; 0x10400; 0x20800; 0x2082000; 0x2082000;
   0x0; 0x80002000; 0x80012000; 0x24; 0x80092524; 0x80090000; 0x124; 0x492924;
   0x80480000; 0x4924; 0x12494924; 0x12480200; 0x4024920; 0x924a4900; 0x92400000; 0x4024900;
   0x92424800; 0x92000000; 0x124004; 0x90120004; 0x90000000; 0x920004; 0x80900024; 0x80000000;
   0x4900024; 0x0; 0x162000; 0xd8000f; 0xf600fffe; 0x5b6d81f; 0xfff1ffff; 0xe36db6df;
   0xff7e7fe0; 0xfadb25b7; 0xb2499800; 0x6b24b2d; 0xa49a6610; 0x61ac924b; 0x69249980; 0x806b2492;
   0xde492e78; 0x7cf8d925; 0xa1f25f07; 0xc1fcb64b; 0x6d6c96c4; 0x90492db6; 0xdbdb6db5; 0x6492cb6d;
   0xb6d24924; 0x171f01; 0x6c0003; 0xff000b6d; 0x807fff80; 0xffff02db; 0x6d07ffec; 0xfff5816;
   0xd9283249; 0x20200040; 0x9659009a; 0x59000000; 0x924800; 0x92400000; 0x49240; 0x4920001;
   0x20000490; 0x48000; 0x1b64; 0xb65b25b6; 0x924926db; 0x6db2db6d; 0xb4924936; 0xdb6d9249;
   0x24800000; 0x171f01; 0xb0000f; 0xfc002db6; 0x17ffe03; 0xffff0b6d; 0xb61fffbe; 0x3ff87c5b;
   0x64b0c924; 0xb1800062; 0xc9258659; 0x25843042; 0x12492412; 0x49200010; 0x124900; 0x12480004;
   0x80001240; 0x20000; 0x2d92; 0xd86d92d8; 0x4904936d; 0xb6db6db6; 0xc249249b; 0x6db6c924;
   0x92000000; 0x162000; 0x400004; 0x90000000; 0x4924809; 0x24900000; 0x1249212; 0x49240000;
   0x2492494; 0x92490000; 0x924b25; 0x249a4010; 0x60249249; 0x49249000; 0x80092492; 0x52492400].
Definition emoji_data_105 : list N :=
  [0x7c004924; 0x80924902; 0x4120b6cb; 0x6d6c96c4; 0x90492db6; 0xdbdb6db5; 0x6492cb6d; 0xb6d24924;
   0x171f01; 0x40000; 0x924; 0x80092400; 0x249; 0x24024924; 0x12; 0x49201249;
   0x20040200; 0x9659009e; 0x59002010; 0x924800; 0x92400024; 0x49240; 0x4920001; 0x20000490;
   0x48000; 0x1b65; 0xb65b25b6; 0x924926db; 0x6db2db6d; 0xb4924936; 0xdb6d9249; 0x24800000;
   0x171d03; 0x9248009; 0x24800000; 0x2492482; 0x49240000; 0x124924; 0x12492400; 0x9249;
   0x20965900; 0xc100092; 0x49009248; 0x40004; 0x92400492; 0x12000; 0x4900004; 0x80000000;
   0xb64b61b; 0x64b61241; 0x24db6db6; 0xdb6db092; 0x4926db6d; 0xb2492480; 0x162000; 0x48000d;
   0xb600fffc; 0x5b6d81b; 0x6db0fff7; 0xc36db6d6; 0xdb6c7fe4; 0xfadb6db5; 0xb24b1a49; 0x26b6db6d;
   0x2c9e4692; 0x69adb6db; 0x5924b1a4; 0x926b6db6; 0xd6492c79; 0x7cf0db6d; 0xa1b25b07; 0xc9fcb6db;
   0x6d6c96c4; 0x92492db6; 0xdbdb6db5; 0x6492cb6d; 0xb6d24924; 0x171f01; 0x2c0003; 0xff000b6d;
   0x805b6d80; 0xffff02db; 0x6c06db6c; 0x7ff5816; 0xdb683249; 0x20249240; 0xb6db609e; 0x59012492;
   0x1b6d804; 0x96480124; 0x8005b6c0; 0x4b20009; 0x240005b0; 0x48000; 0x9001b6d; 0xb65b25b6;
   0x924926db; 0x6db2db6d; 0xb4924936; 0xdb6d9249; 0x24800000; 0x171f01; 0xb0000b; 0xfc002db6;
   0x16db603; 0xfffe0b6d; 0xb61b6db6; 0x3ef97c5b; 0x6db0c924; 0xb1924962; 0xdb6d8659; 0x6584b24a;
   0x16db6c12; 0x49200492; 0x4016db00; 0x12c90004; 0x900016c0; 0x120000; 0x4002db6; 0xd86d92d8;
   0x4924936d; 0xb6db6db6; 0xc249249b; 0x6db6c924; 0x92000000; 0x162000; 0x58000d; 0xb600fffe;
   0x5b6d81b; 0x6db1ffff; 0xe36db6d6; 0xdb6c7fe5; 0xfadb6db5; 0xb6db1e49; 0x2eb6db6d; 0x6db6c7b2;
   0x7badb6db; 0x5b6db1e4; 0x92eb6db6; 0xd6db6c79; 0x7cf0db6d; 0xa1b6db07; 0xc9fcb6db; 0x6d6db6c4;
   0x92492db6; 0xdbdb6db5; 0x6492cb6d; 0xb6d24924; 0x161f01; 0xd9000d; 0xb600fff8; 0x5b6d81b;
   0x6da07fff; 0xc36db606; 0xdb6c1f6c; 0xb0db6d81; 0xb6db06c9; 0xe436db60; 0x6db6c092; 0x4805b6d8;
   0xb6d8024; 0x92006db0; 0xdb6001; 0x24000360; 0x6c012; 0x4924b6db; 0x6f6db6d4; 0x92492db6;
   0xdbdb6db5; 0x6492c924; 0x92400000; 0x171f01; 0x580002; 0xdb000fff; 0xb6db01; 0xb6db03ff;
   0xff0db6db; 0xdb6da3f; 0xe4bc6db6; 0xd86db6d0; 0xc92cc36d; 0xb6c37db6; 0x649640b; 0x6db40b6d;
   0xb0124900; 0xb6d800b; 0x6c000248; 0xb6000; 0xb000492; 0x4836db6c; 0xb6db6d24; 0x924db6db;
   0x65b6db69; 0x24924492; 0x49000000; 0x172000; 0x900007; 0xfb003fff; 0xffff81; 0xffff07ff;
   0xff1ffffe; 0x3ffefc7f; 0xf6f8ffed; 0xf1edb6e3; 0x6db6c7fb; 0x7f8f6df7; 0x1b6db63f; 0xdbfc7b6d;
   0xb8fb6df1; 0xf7fbe3db; 0x6dc7db6f; 0x87ffff17; 0xdbfc1fdb; 0xf82dfec9; 0xb6db69b6; 0xdb616592;
   0xcdb6db6d; 0xb6db0b24; 0x96249248; 0x161f01; 0xd9000f; 0xfe00fff8; 0x7fff81f; 0xffe07fff;
   0xc3fffe07; 0xfffc3fff; 0xf0db6d83; 0xb6db0efb; 0xec37db60; 0x6db6c0b6; 0xd805b6d8; 0xb6d802d;
   0xb6006db0; 0xdf6001; 0xfc000360; 0x6c012; 0x5b24b6db; 0x6f6db6d4; 0x92492db6; 0xdbdb6db5;
   0x6492c924; 0x92400000; 0x171f01; 0xd80007; 0xff003fff; 0x80bfff01; 0xffff03ff; 0xff0fffff;
   0x1ffefe3f; 0xfdfc7db6; 0xf8edb6f1; 0xdf7dc36d; 0xb6c37df7; 0x6fbee0b; 0x6db40b6d; 0xb01efb40;
   0x1b6d800b; 0xec0017f8; 0xb6000; 0xb0004b6; 0x4836db6c; 0xb6db6d24; 0x924db6db; 0x65b6db69;
   0x24924492; 0x49000000; 0x171f01; 0x1248009; 0x24801249; 0x492482; 0x49248492; 0x49124924;
   0x12492424; 0x80489249; 0x20924921; 0x41044b2; 0x5904b249; 0x8208224; 0x92482492; 0x48402011;
   0x24924125; 0x92424904; 0x1249209; 0x24901241; 0x24db25b4; 0xdb2db0b2; 0x5966db6d; 0xb6db6d85;
   0x924b1249; 0x24000000; 0x161f01; 0x480004; 0x90001248; 0x4924809; 0x24802492; 0x1249202;
   0x49240920; 0x492480; 0x92490041; 0x8012cb20; 0x24920000; 0x49648; 0x9248000; 0x2590;
   0x5b0000; 0x24000120; 0x24012; 0x4124b6cb; 0x6f6c96d4; 0x92492db6; 0xdbdb6db5; 0x6492c924;
   0x92400000; 0x171f01; 0x480002; 0x48000492; 0x924900; 0x92490124; 0x92049249; 0x4924809;
   0x20102492; 0x48249240; 0x4804812c; 0xb24124b2; 0x2000409; 0x24900924; 0x90000000; 0x9648009;
   0x64000240; 0x90000; 0x9000480; 0x4836cb6c; 0xb64b6d24; 0x924db6db; 0x65b6db69; 0x24924492;
   0x49000000; 0x172000; 0x900006; 0xdb003fff; 0x7fff81; 0xb6db07ff; 0xff1ffefe; 0x2db6d87f;
   0xf2f8ff00; 0xf16c92c3; 0x2492c618; 0x218964b2; 0x19249630; 0xc5924; 0xb0c924b1; 0xc001e2c9;
   0x2587cb27; 0x87821f16; 0xc96c16c9; 0x682d82c9; 0xb64b69b6; 0x5b6164b2; 0xcdb6db6d; 0xb6db0b24;
   0x96249248; 0x161f01; 0xd9000f; 0xfe00fff8; 0x5b6d81f; 0xffe07fff; 0xc36db607; 0xfb3c1924;
   0x30c92481; 0x924b0041; 0x8012cb20; 0x24920000; 0x49648; 0x9248000; 0x2490; 0x490000;
   0x120; 0x24012; 0x4124b6cb; 0x6f6c96d4; 0x92492db6; 0xdbdb6db5; 0x6492c924; 0x92400000;
   0x171f01; 0xd80007; 0xff001fff; 0xb6db01; 0xffff03ff; 0xff0db6db; 0xffe5e3d; 0xa03c6492;
   0x58649271; 0xcc0cc32c; 0xb2c32492; 0x6000409; 0x2c940924; 0x90100000; 0x9248009; 0x64000000;
   0x90000; 0x9000480; 0x4836c96c; 0xb64b6d24; 0x924db6db; 0x65b6db69; 0x24924492; 0x49000000;
   0x171f01; 0x1248009; 0x24800000; 0x492482; 0x49248000; 0x124924; 0x12492400; 0x9249;
   0x20924920; 0xc1004b2; 0x59049249; 0x24; 0x92482492; 0x48000001; 0x24924125; 0x92400100;
   0x1249209; 0x24901241; 0x24db25b4; 0xdb2db0b2; 0x5966db6d; 0xb6db6d85; 0x924b1249; 0x24000000;
   0x161f01; 0x480004; 0x90000000; 0x924809; 0x24800000; 0x1249202; 0x49240000; 0x492480;
   0x92490041; 0x8012cb20; 0x24920000; 0x49648; 0x9248000; 0x2590; 0x490000; 0x20000120;
   0x24012; 0x4124b6cb; 0x6f6c96d4; 0x92492db6; 0xdbdb6db5; 0x6492c924; 0x92400000; 0x171f01;
   0x480002; 0x48000000; 0x124900; 0x92490000; 0x49249; 0x4924800; 0x2492; 0x48249240;
   0xc0c012c; 0xb2012492; 0x9; 0x2c900924; 0x90000000; 0x9648009; 0x64000000; 0x90000;
   0x9000480; 0x4836cb6c; 0xb6cb6d24; 0x924db6db; 0x65b6db69; 0x24924492; 0x49000000; 0x172000;
   0x900006; 0xdb0036db; 0x7fff81; 0xb6db05b6; 0xdb0ffefe; 0x2db6d86d; 0xb2d8ff24; 0xb16db6c3;
   0x2c92c659; 0x258b6db6; 0x19649632; 0x492c5b6d; 0xb0c924b1; 0x924962db; 0x6d86cb2d; 0x87925f16;
   0xdb6c16cb; 0x602d92c9; 0xb6db69b6; 0x5b6164b2; 0xcdb6db6d; 0xb6db0b24; 0x96249248; 0x161f01;
   0xd9000d; 0xb600bff8; 0x5b6d81b; 0x6da07fff; 0xc36db606; 0xdb2c1924; 0xb0db6d81; 0x924b0249].
Definition emoji_data_106 : list N :=
  [0xa416db60; 0x24920092; 0x4805b6d8; 0x9248024; 0x92006db0; 0x492001; 0x24000160; 0x24012;
   0x4924b6db; 0x6f6c96d4; 0x92492db6; 0xdbdb6db5; 0x6492c924; 0x92400000; 0x161f01; 0x120001b;
   0x6c00b6d8; 0x7fff036; 0xdb616db6; 0xc7ffdf2d; 0xb6da5b64; 0xb1e492cb; 0x6db696c9; 0xec692690;
   0xdb6d8492; 0x49024924; 0x16db6024; 0x92001248; 0xb6c001; 0x24000090; 0x1259216; 0xc96c4924;
   0x92db6dbd; 0xb6db5249; 0x24b6db6f; 0x6db6d080; 0x0; 0x172000; 0x240003; 0xf9001b6d;
   0x805b6d80; 0xffff82db; 0x6d86db6d; 0x9ffe7f36; 0xdb6cb6db; 0x6dfc9279; 0xb6db65b6; 0xdb6f3cb3;
   0xcdb6db2d; 0xb6db792c; 0x9e6db6d9; 0x6db6d9c9; 0x65e36db6; 0xc36db607; 0xf97e0b6d; 0xb41b6db0;
   0x924b26db; 0x6db2db6d; 0xb592cb36; 0xdb6d96db; 0x6da49249; 0x171f01; 0xb20006; 0xdb0016db;
   0x7ffe01; 0xb6db05b6; 0xd80ffff8; 0xdb6d82d; 0xb6d07924; 0xe16db6c1; 0x6db68259; 0x64036db6;
   0x36db002; 0x59200b6d; 0x800b6d80; 0x1248001b; 0x6c001b60; 0x120002; 0x5b2416db; 0x6c249249;
   0xb6db6db6; 0xdb612492; 0x4db6db6d; 0xb6db0924; 0x92000000; 0x161f01; 0x120001b; 0x6c00b6d8;
   0x7fff836; 0xdb616db6; 0xc7ffdf2d; 0xb6da5b6d; 0xb1ec92cb; 0x6db696db; 0xec7b27b0; 0xdb6d85b6;
   0xdb06492c; 0x16db602d; 0xb6009248; 0xb6c001; 0x6c000090; 0x1259216; 0xdb6c4924; 0x92db6dbd;
   0xb6db5249; 0x24b6db6f; 0x6db6d080; 0x0; 0x172000; 0x2c0003; 0xff001fff; 0x807fffc1;
   0xffffc3ff; 0xff87ffff; 0x9fffff3f; 0xfb7cffdb; 0x7dffb6f9; 0xb6db67be; 0xfbef7df7; 0xcdb6db3d;
   0xb6df7b7d; 0xbe6db6d9; 0xedb6f9fb; 0xefe3edb7; 0xc3edbf87; 0xfbfe0b6d; 0xb41b6db0; 0x92d926db;
   0x6db2db6d; 0xb5924b36; 0xdb6d96db; 0x6da49249; 0x171f01; 0xfe0007; 0xff001fff; 0x7ffe01;
   0xffff07ff; 0xfc0ffffc; 0xffef83f; 0xb6f07bed; 0xe16db6c1; 0x6db6c2fb; 0x7d036db6; 0x36db006;
   0xff600b6d; 0x801b6d80; 0x17fb001b; 0x6c001b60; 0x160002; 0x5b2416db; 0x6c24fe49; 0xb6db6db6;
   0xdb612492; 0x4db6db6d; 0xb6db0924; 0x92000000; 0x161f01; 0x174001f; 0xfc00fff8; 0x7fff83f;
   0xffe1ffff; 0xc7ffff2f; 0xfefe7fed; 0xf1fdb7eb; 0x6db79efb; 0xec7befb0; 0xdb6d87b6; 0xdb0edf6c;
   0x16db602d; 0xb600b7d8; 0x1b6c001; 0x6c0001b0; 0x12d9216; 0xdb6c496c; 0x92db6dbd; 0xb6db5249;
   0x24b6db6f; 0x6db6d080; 0x0; 0x172000; 0x200002; 0x48000924; 0x80492480; 0x92490249;
   0x24824924; 0x4924812; 0x49241249; 0x20240040; 0x9649209a; 0x59013032; 0x4b24904; 0x92480824;
   0x10249248; 0x24924040; 0x812592; 0x41249202; 0x40240b64; 0xb01b25b0; 0xb60366db; 0x2db2db6d;
   0xb592cb36; 0xdb6d96db; 0x6da49249; 0x171f01; 0x100002; 0x49001249; 0x249200; 0x92480092;
   0x48012490; 0x4924824; 0x92404000; 0x249241; 0x2c920018; 0x20012492; 0x1249000; 0x8000924;
   0x80092480; 0x400009; 0x24000920; 0x2; 0x492416c9; 0x6c248249; 0xb64b6db6; 0xdb612492;
   0x4db6db6d; 0xb6db0924; 0x92000000; 0x161e02; 0x2490024; 0x92009248; 0x4924809; 0x24902492;
   0x41249212; 0x49244800; 0x10492c84; 0x92690041; 0x84124b20; 0x24924002; 0x49248; 0x9248000;
   0x80002590; 0x490000; 0x4924; 0x85b25b12; 0x4124b6cb; 0x6f6db6d4; 0x92492db6; 0xdbdb6db4;
   0x20000000; 0x1f1e01; 0x48000; 0x124000; 0x120000; 0x0; 0x920000; 0x900000;
   0x0; 0x4900000; 0x4800000; 0x0; 0x24800001; 0x24800000; 0x9; 0x24000009;
   0x24000000; 0x49; 0x20000049; 0x20000000; 0x9249; 0x25859249; 0x24880000; 0x12c9249;
   0x2da49249; 0x24480000; 0x496c8049; 0x6d248049; 0x22490092; 0x4b6c00db; 0x69240249; 0x0;
   0x201e01; 0x40000; 0x92000; 0x49000; 0x8000; 0x92000; 0x49000; 0x8000;
   0x92000; 0x49000; 0x8000; 0x92000; 0x49000; 0x8000; 0x92400; 0x249000;
   0x8000; 0x492400; 0x249200; 0x8000; 0x164924b0; 0x9249258; 0x48008008; 0xb2492496;
   0x49241249; 0x48000048; 0xb64804b6; 0x49200249; 0x49200248; 0xb6c005b6; 0x49200249; 0x1f1f00;
   0x2000; 0x24000; 0x1b0000; 0x490000; 0x920000; 0x2d90000; 0x2480000; 0x4900000;
   0x16d80000; 0x12400000; 0x24800000; 0xb6c00000; 0x92000001; 0x24000005; 0xb6000004; 0x92000009;
   0x2400002d; 0xb0000124; 0x90000249; 0x2002cb6d; 0xb642c924; 0x96049249; 0x24b6db2d; 0xb6924824;
   0x92249049; 0x25b6c02d; 0xb4920024; 0x91240049; 0x2db6016d; 0xa4900124; 0x80000000; 0x1f1f00;
   0x48000; 0x190000; 0x6d8000; 0x6c0000; 0x480000; 0x36c0000; 0x3680000; 0x2400000;
   0x1b600000; 0x5b600000; 0x92400000; 0xdb000002; 0xdb000004; 0x92000016; 0xda000036; 0xd8000024;
   0x900000b6; 0xd80001b6; 0xc0000924; 0x90016db6; 0xdb0b6db6; 0xd9124924; 0x925b6db6; 0xdb4b6cb6;
   0xc8924024; 0x92db20b6; 0xda5b00b2; 0x44920124; 0x96d801b6; 0xd2480492; 0x0; 0x201f00;
   0x40000; 0x7f000; 0xb6000; 0xdb000; 0xff000; 0xb6000; 0xdb000; 0xff000;
   0xb6000; 0xdb000; 0xff000; 0x1b6800; 0x2db000; 0x2ff000; 0x1b6c00; 0x2db400;
   0x2ff400; 0x5b6c00; 0x6db600; 0x6ff600; 0x16db6db0; 0xb6db6d8; 0x4b6db6c8; 0xb6db6db6;
   0x4b6cb6c9; 0x4b6c36c8; 0xb6d82db6; 0x496006c9; 0x49600648; 0xb6c005b6; 0x49200249; 0x1f1e01;
   0x2000; 0x48000; 0x248000; 0x80000; 0x240000; 0x1240000; 0x400000; 0x9240000;
   0x9200000; 0x2000000; 0x49200000; 0x49000000; 0x10000002; 0x49000002; 0x49000000; 0x80000012;
   0x48000092; 0x48000004; 0x16492; 0x4b212492; 0x49020000; 0x25b2492; 0x4b492412; 0x49920000;
   0x12d92012; 0xda490012; 0x4c920024; 0x96db00b6; 0xd2480092; 0x40000000; 0x1f1f00; 0x20000001;
   0x24000000; 0x48000003; 0x6c800001; 0x2c800002; 0x7d00000b; 0xed80000b; 0x64800016; 0x4920005b;
   0x6db60059; 0x24be0012; 0x493e005b; 0x6db60049; 0xe4be0093; 0xe97f00db; 0x6db6004b; 0xe5800093;
   0xf80002db; 0x6c00024b; 0xec000497; 0xf80006db; 0x64001e4b; 0xe4003f97; 0xc80036cb; 0x24003e09;
   0x20003c12; 0x40003049; 0x20003009; 0x20006012; 0x8009; 0x0; 0x1d1c02; 0x241240;
   0x2492490; 0x40000; 0x200104; 0x92402492; 0x49012492; 0x48064965; 0xb0492596; 0xc2092492;
   0x2096db6c; 0x5b2db0; 0x2492480; 0x2d96d800; 0xb65b6004; 0x92490049; 0x25b00124; 0x92400124;
   0x90001249; 0x20004924; 0x4900; 0x49000; 0x304000; 0x820002; 0xdb6d8009; 0x24920049;
   0x24800000; 0x201d03; 0xdb0; 0x492006c0; 0x7ff007e0; 0xb6d80db0; 0x5b6006c0; 0x796006c0;
   0x36d00580; 0x596002c0; 0x692082c0; 0x36db6db0; 0x596db6d8; 0x7f7ff7f8; 0x36db6db4; 0x5b6db6d8].
Definition emoji_data_107 : list N :=
  [0x797ff7fc; 0x36db6db4; 0x5b6db6d8; 0x7ffff7f8; 0x36db6db0; 0x5b6db6d8; 0x5b65b6e0; 0x36db6db0;
   0x7b6d92d8; 0x7b24f6f8; 0x36db6db6; 0x1b2d3edb; 0x1f3c3ee0; 0xb6db6db6; 0x49249248; 0x1f140c;
   0x24924924; 0x24924924; 0x1; 0x24924921; 0x24924922; 0x4904124b; 0x6596cb09; 0x24924910;
   0x8208049; 0x24924849; 0x24924892; 0x492496db; 0x6db6d6db; 0x6db6e492; 0x4924b6db; 0x6db63ef8;
   0x2cb478f0; 0x7871b6db; 0x6db09249; 0x24900000; 0x201907; 0x24000000; 0x24900000; 0x4b6db000;
   0x2492d800; 0x24927c00; 0x4924b680; 0x24924b00; 0x20124be0; 0x5b2492d0; 0x6d924960; 0x24904920;
   0x5b6c9248; 0x6db64924; 0x24924124; 0x5b6db249; 0x6db6d924; 0x24924924; 0x5b6db6da; 0x6db6db6c;
   0x6db6db60; 0x5b6db6c0; 0x7fffdb60; 0x7ffff920; 0xdb6db6db; 0x24924924; 0x201a06; 0x92490000;
   0x49248000; 0x248000; 0x925b6000; 0x49249000; 0x249000; 0x92492400; 0x49249200; 0x0;
   0x92492490; 0x49249258; 0x8; 0x924924b6; 0x4924925a; 0x49200008; 0xb6c924b6; 0x5b64925b;
   0x49200008; 0xb6d924b4; 0x5b6c9248; 0x5b6c9240; 0xb6db6db0; 0x5b6db6c0; 0x5b6db6d8; 0xb6db6db6;
   0x49249248; 0x1c2000; 0x492000; 0x12490001; 0x64; 0x92400924; 0x92008209; 0x2012d965;
   0x80924920; 0x8208201; 0x24925809; 0x24920080; 0x201249; 0x25809249; 0x20080002; 0x1649258;
   0xb249600; 0x90492006; 0xd92c0012; 0x49200124; 0x90002db6; 0xc0032494; 0x124900; 0x6db6c00;
   0xb6db600b; 0x2496016d; 0xb6d80b6d; 0xb6409249; 0x24b6db6d; 0xb4924924; 0x202000; 0x59000;
   0x3ff800; 0xffff00; 0x16db6c0; 0x7ffffe0; 0x7b6dbe0; 0xb2492d8; 0xfb65978; 0x3eb65f7c;
   0x5b6db6d8; 0x7eb24b7c; 0x7eb24b7e; 0x5b6db6db; 0x7fb24b7e; 0x7ff24bfe; 0xdb6db6db; 0x7fb6db7e;
   0x7ffffffe; 0x5b6db6db; 0x7f96c97e; 0x7f97f9fe; 0x5b6db6da; 0x3f924bfc; 0x3fd24bfc; 0x1b6db6d8;
   0xff7fbf0; 0x7dffbe0; 0x36db6c0; 0x1bffb00; 0xbffd00; 0x2db600; 0x24000; 0x1f1b05;
   0x48001; 0x2496d801; 0x2496d802; 0x4925f00b; 0x6db2c00b; 0x6d92c012; 0x4be1805b; 0x6d92c05b;
   0x6d960092; 0x4b0402db; 0x6c9602db; 0x6c960492; 0x583c16db; 0x6cb016db; 0x64b03fff; 0xc070b6db;
   0x24b09249; 0x25800000; 0x1049249; 0x24849249; 0x24892492; 0x492db6db; 0x6c249249; 0x24492492;
   0x496db6db; 0x6d249249; 0x20000000; 0x1f1e02; 0x3000; 0xb000; 0x49200; 0x92402;
   0x406db616; 0xc17df025; 0x80ffe036; 0xb6db0b6; 0x9248024; 0x2490000; 0x5b6d8080; 0x5b6c0100;
   0x92480002; 0xcb240402; 0x5b280804; 0x92402c96; 0xdb612486; 0xdb00490c; 0x92036d36; 0xda092cb6;
   0xd8025924; 0x901b65b6; 0xd84b05b6; 0xd8160924; 0x90d86db6; 0xdad16db6; 0xc782c925; 0x868b6db6;
   0xd2092492; 0x40000000; 0x1a2000; 0x40000; 0x1000001; 0x60000492; 0x40049248; 0x7ff000;
   0x96db0017; 0xdf200092; 0x40025b6c; 0x492480; 0x2490009; 0x6db0016d; 0xb2004924; 0x24b6c0;
   0x4b64801; 0x24920036; 0xdb0006db; 0x19240; 0xdb6c00; 0x5b6c8016; 0x49200b6d; 0xb6016db6;
   0x492481; 0x6db6d82d; 0xb6db0b24; 0x92cdb6db; 0x6c924924; 0x202000; 0x12492490; 0x9259248;
   0x18000; 0xb2000; 0xc1000; 0x41000; 0xb6000; 0x1249200; 0x1249240; 0x12492490;
   0x9249248; 0x0; 0xb6db6db6; 0x5b6db6db; 0x5ffffff9; 0xb6db6db6; 0x5b2cb659; 0x4d3c9a78;
   0xb6db6db6; 0x5b2cb659; 0x4f3dba78; 0xb6db6db6; 0x5b6db6db; 0x7fffffff; 0xb6db6db6; 0x7fffffff;
   0x49249248; 0x92492492; 0xb0000d0; 0xf0000e0; 0xb6db6db6; 0x49249248; 0x201609; 0x24924920;
   0x12492490; 0x12492492; 0x6db6db6d; 0xb6db6dbe; 0xf24924be; 0x6db6db6c; 0xb24924be; 0x324924be;
   0x6db6db6c; 0xb6db6dbe; 0x9249249e; 0x6db6db6d; 0xb25b6c96; 0x92492492; 0x6fb6dbec; 0x9fcb65b2;
   0x1ac92798; 0x2d924b6c; 0x1ec001b0; 0xf8001f0; 0x5800160; 0x1f2000; 0x92000; 0x492000;
   0x3e0000; 0x92db2400; 0x92d92400; 0x5; 0xb6db6005; 0xb6db6009; 0x24924164; 0x92496d64;
   0x92492249; 0x24924924; 0x924b6b24; 0x92491249; 0x24924b24; 0x92591b6d; 0xb6c01249; 0x24804924;
   0x92004924; 0x92009249; 0x24024924; 0x90060b64; 0x100c16c8; 0x20125b64; 0xb0124924; 0x80249249;
   0x1b6db6d; 0x81b6db6c; 0x1f000f8; 0x5a00160; 0x4800120; 0x201c03; 0x6c00000; 0x1600000;
   0x2c0000; 0xb0000; 0x18000; 0x249000; 0x1b6c00; 0x9249248; 0x0; 0x92492492;
   0x49249249; 0x8208208; 0xb6db6596; 0x49249249; 0x8208208; 0x92492496; 0x4924925b; 0x49249249;
   0xb6db6db6; 0x4b2492d8; 0x4b2492c8; 0xb7db6df6; 0x5fe497fb; 0x59e49358; 0x16c925b8; 0x1bc003d8;
   0xf8001f0; 0x60000b0; 0x132000; 0x120003; 0x6001fc00; 0x1b0005b0; 0xfe000d; 0x80004012;
   0x480db203; 0xdb205be4; 0x2db0064; 0x90049201; 0x6c803248; 0x24b00b6; 0x40092401; 0x24804920;
   0x20000; 0x40001000; 0x1000020; 0x80005; 0xb000b600; 0x6db00249; 0x1f1807; 0x24924900;
   0x24924900; 0x49249201; 0x24924901; 0x24924902; 0x4824921b; 0x6cb6d949; 0x24924812; 0x412490db;
   0x65b6da49; 0x24924800; 0x249; 0x249256db; 0x6db6edb6; 0xdb6db6db; 0x6db61249; 0x24920780;
   0xf0096c9; 0x2d90b3c9; 0x65806600; 0x4a00b601; 0x6c00f001; 0xf0002000; 0x40000000; 0x1f1b04;
   0x2000; 0x12800; 0x26000; 0x92496004; 0x92492000; 0x20024024; 0x924b6025; 0x9249200f;
   0xe012412d; 0x925b212c; 0x92490008; 0x920924; 0x92490924; 0x92491249; 0x24925b6d; 0xb6dbdb6d;
   0xb6d89249; 0x24924924; 0x924a4924; 0x9240b800; 0x7c12d925; 0xb2125927; 0xb204b00d; 0x6016c00d;
   0x801f800f; 0x80040008; 0x0; 0x201807; 0x12492000; 0x49249000; 0x40; 0x120125b0;
   0x492496d8; 0x9249ed8; 0x36db6db6; 0x5b6db6ca; 0x7ffffaca; 0xb6db6db6; 0x5b6db6db; 0x7fffffff;
   0xb6db6db6; 0x40000003; 0x40000003; 0xb6db6db6; 0x5b6db6db; 0x7fffffff; 0xb6db6db6; 0x5b6db6d8;
   0xd600358; 0x6c001b0; 0xbc002f8; 0x1000040; 0x1f150a; 0x20000; 0x20000; 0x40000;
   0x4920000; 0x24920000; 0x8240001; 0x6cb60001; 0x24920002; 0x41240009; 0x24924049; 0x24924000;
   0x6db; 0x6db6dedb; 0xfdb7fdff; 0xfbefb6db; 0x6db6367b; 0xecfe6cff; 0xf9fc12c9; 0x25901e00;
   0x6c000400; 0x48000000; 0x1f1d02; 0x124b600; 0x241fc00; 0xb65b000; 0x9249000; 0x12492000;
   0x5b6d9002; 0x49249000; 0x92490016; 0xdb6d8012; 0x49248024; 0x924905b6; 0x492cbc92; 0x49248120;
   0x4804b2; 0x49642492; 0x49245964; 0x96d86db6; 0xdb6124ff; 0xc96301ff; 0x80c32db6; 0xcb0f6db6;
   0xdf1fdb6d; 0xbe1b6db6; 0xd87f6db6; 0xf8ffffff; 0xf0db6db6; 0xc2d00006; 0xc0800004; 0x0;
   0x1f120d; 0x2492000; 0x2492000; 0x4924000; 0x165b2000; 0x92490001; 0x24920004; 0x92492424].
Definition emoji_data_108 : list N :=
  [0x92492449; 0x2492496d; 0xb6db6124; 0x9249225f; 0x24be496d; 0x92d929e4; 0x93d90308; 0x6100328;
   0x6c00360; 0x7c00200; 0x4000000; 0x1d1c03; 0x40000; 0x12592000; 0x49248002; 0x4924012d;
   0xb6c80492; 0x49002492; 0x4802db6d; 0xb0092492; 0x40492490; 0x25b24b64; 0x92492494; 0x92492449;
   0x24924924; 0x92490924; 0x92489249; 0x24924924; 0x92104924; 0x125b6c9; 0x6416db00; 0x20924822;
   0x49249249; 0x249248c8; 0x255b0; 0x2dbe00; 0xfc9000; 0x4800000; 0x20130c; 0x120000;
   0x16d8000; 0x1965000; 0x4865800; 0x92c9600; 0x2c964b00; 0x3c960300; 0x5b6db6d8; 0x6db6db6c;
   0x7ffffffc; 0xdb6db6da; 0x6db6db6c; 0x7ffffffc; 0x5b6db6db; 0x6cb6d96c; 0x2c36d86c; 0xb6496c8;
   0x7e00f80; 0x800100; 0x201b04; 0x5b6c00; 0x16db600; 0x1249240; 0x2492480; 0x1249240;
   0x40; 0x64924b0; 0x9249240; 0x8000000; 0xb65b6cb6; 0x5b6db6db; 0x1b6492d8; 0x36db6db4;
   0x1b6db6d8; 0x9249648; 0x325b6c94; 0x192db648; 0x9249248; 0x32db6d94; 0x196db6c8; 0x9249248;
   0x36db6db4; 0x1b6db6d8; 0x192db658; 0x36db6db4; 0x1f0000f8; 0x9000048; 0x1f150a; 0x5b6d800;
   0xcb25000; 0x209000; 0x64924001; 0x2592c012; 0x4924801b; 0x6db6c87b; 0x6db6d8f2; 0x492490db;
   0x6db6dbc9; 0x2492df92; 0x492492db; 0x6db6c2db; 0x6db6c5fa; 0x49fc96db; 0x6db6167b; 0x6cb20ce0;
   0x186016c0; 0x2d801e00; 0x3e000400; 0x8000000; 0x1f1807; 0x12490000; 0x92490000; 0x4;
   0x92490004; 0x92492400; 0x24824; 0x92496c24; 0x92492400; 0x124924; 0x924b6124; 0x92492000;
   0x924924; 0x92492924; 0x92491249; 0x24925b6d; 0xb6dbdb6d; 0xb6d9ffff; 0xfffadb6d; 0xb6dacb6d;
   0xd6c08601; 0x8402d801; 0xb003f001; 0xf0008001; 0x0; 0x201807; 0x12490000; 0x49248000;
   0x49248000; 0xb6db6000; 0x49248240; 0x49248240; 0xb6db64b0; 0x49248248; 0x49248248; 0xb6db64b2;
   0x49248248; 0x49248248; 0xb6db6492; 0x49248248; 0x49248248; 0xb6db6db6; 0x4b259259; 0x5f2f92f8;
   0xb6db6db6; 0x19bc93c8; 0x19988188; 0x32994194; 0x1b0d80d8; 0x8040040; 0x1f1b04; 0x4900000;
   0x4900000; 0x5b600000; 0x6db00001; 0xe4b00003; 0x600003; 0x24820009; 0x25820010; 0x10c005b;
   0x6410005b; 0x6c9000be; 0x492000db; 0x6db603ff; 0x64920f97; 0xc924364b; 0x6496f24f; 0x2495e09e;
   0x4929965b; 0x6db7925b; 0x2cbf04f2; 0x5f6c92db; 0x6d8c97c9; 0x2c1f2e03; 0x582db403; 0x602ff003;
   0xe0090002; 0x0; 0x1f1f01; 0x92000000; 0x90000000; 0x5; 0xb6db0004; 0x92490009;
   0x492002d; 0xb6db0024; 0x92490000; 0x124; 0x9249236d; 0xb6db0249; 0x24920925; 0xb6db0924;
   0x92d80000; 0x904924; 0x92404924; 0x90009249; 0x20024924; 0x924a4924; 0xb6c49249; 0x2496db6d;
   0xb6f6db6d; 0xb62592c9; 0x64060305; 0x80160b05; 0x80041208; 0x30180c; 0x305828; 0x209040;
   0x804020; 0x0; 0x1f1f01; 0x2400000; 0x2400000; 0x0; 0x92400000; 0x92400000;
   0x4; 0x92400424; 0x92402400; 0x124; 0x92492524; 0x92492249; 0x24920b6d; 0xb6db2924;
   0x92490048; 0x4924; 0x92494924; 0x92481249; 0x2092c924; 0xb2ca4924; 0x92401040; 0x124924;
   0x9252c924; 0x92249249; 0x24b6db6d; 0xb2b6db6d; 0xb1249249; 0x24925b6c; 0x94927964; 0x8924b2c9;
   0x24924924; 0x80000000; 0x201f01; 0x5b6c000; 0x92492492; 0xb2492db6; 0x6db6db6d; 0xb6496db6;
   0x92492492; 0x24b24924; 0x80000; 0x80000; 0xb60000; 0x2db0000; 0x2db0000; 0x6db6db6c;
   0xb6db6492; 0xbfdfe5b2; 0x6db6db6c; 0xb6db65b6; 0xbfdfe7f2; 0x6db6db6c; 0xb6db65b6; 0xbfdfe7f2;
   0x6db6db6c; 0xb6db65b2; 0x92492492; 0x6db6d924; 0x12492492; 0x12492492; 0x6db6db6c; 0x92492490;
   0x92492490; 0x24924920; 0x1c1f01; 0x40; 0xb25b00; 0x4b64002; 0x490000db; 0x20001640;
   0xb2400; 0xb642000; 0xc0040000; 0x400000; 0x5b600002; 0xd9000000; 0x92492; 0x49492492;
   0x44924924; 0xb2d96db4; 0x92492449; 0x24924964; 0xb2c94b24; 0x9644b249; 0x64b6db6d; 0xbdb6db6d;
   0x5b6db6cb; 0x6db6db5b; 0x6db6c5b6; 0xdb6c36db; 0x6d80b6db; 0x60012492; 0x0; 0x1c1e02;
   0x925b0; 0x496c00; 0x24920005; 0xb2c00164; 0xb200; 0xb64300; 0x4801000; 0x10000;
   0xb60001; 0x2db2003f; 0xffe006db; 0x6d8013cb; 0x200134b2; 0x2592c8; 0x13cb200; 0x134b2002;
   0x592c8013; 0xcb200134; 0xb2006db6; 0xd80b6db6; 0xc07ffff8; 0x6db6d80; 0xb6db6c07; 0xffff806d;
   0xb6d8036d; 0xb6001249; 0x20000000; 0x201f00; 0x8000; 0x18000; 0x10000; 0x8000;
   0x0; 0x492400; 0x249200; 0x249200; 0x2492480; 0x1249240; 0x16db600; 0x2db6d80;
   0x1249240; 0x0; 0x492480; 0x249200; 0x249200; 0x6db6d80; 0x36db6c0; 0x3ffffc0;
   0x2db6d80; 0x36d9240; 0x16c9240; 0x2db6d80; 0x16d9200; 0x16c9200; 0x92db6d92; 0x49249249;
   0x49249248; 0xb6db6db6; 0x49249249; 0x1f1a05; 0x2c000; 0x78000; 0x78000; 0x160000;
   0x100000; 0x2c0000; 0xb60000; 0x300000; 0x8200000; 0x20b00049; 0x25b24892; 0x592482db;
   0x6db602db; 0x6db60492; 0x592016db; 0x6db69249; 0x2c922492; 0x7925b6db; 0x6db49249; 0x6c912492;
   0x792db6db; 0x6da49249; 0x24892492; 0x496db6db; 0x6d249249; 0x24000000; 0x1f1a05; 0x30000;
   0xf0000; 0x160000; 0x80000; 0x80000; 0x100000; 0x2d80000; 0x2480000; 0x20900000;
   0x32c00124; 0xb6c92249; 0x2492436d; 0xb6db0b6d; 0xb6d80249; 0x64905b6d; 0xb6d94924; 0xb6489249;
   0x7c92db6d; 0xb6da4925; 0xb2449249; 0x6496db6d; 0xb6d24924; 0x92249249; 0x24b6db6d; 0xb6924924;
   0x90000000; 0x201a05; 0x10000; 0x78000; 0x18000; 0x10000; 0x8000; 0x8000;
   0x36000; 0x24b000; 0x1000; 0x86c00; 0x4924b248; 0x9249248; 0x16db6db0; 0x1b6db6c0;
   0x924b240; 0x16db6db6; 0x4924b649; 0x49249e48; 0xb6db6db6; 0x492496c9; 0x49249748; 0xb6db6db6;
   0x49249249; 0x49249248; 0xb6db6db6; 0x49249249; 0x1f1a05; 0x20000; 0x20000; 0x0;
   0x120000; 0x100000; 0x2c0000; 0xb60000; 0x4300000; 0x8200000; 0x20b00049; 0x25b24892;
   0x592482db; 0x6db602db; 0x6db60492; 0x592016db; 0x6db69249; 0x2c922492; 0x7925b6db; 0x6db49249;
   0x6c912492; 0x792db6db; 0x6da49249; 0x24892492; 0x496db6db; 0x6d249249; 0x24000000; 0x1f1a05;
   0x10000; 0x80000; 0x0; 0x80000; 0x80000; 0x100000; 0x2d80000; 0x12480000;
   0x20900000; 0x32c00124; 0xb6c92249; 0x2492436d; 0xb6db0b6d; 0xb6d80249; 0x64905b6d; 0xb6d94924;
   0xb6489249; 0x7c92db6d; 0xb6da4925; 0xb2449249; 0x6496db6d; 0xb6d24924; 0x92249249; 0x24b6db6d;
   0xb6924924; 0x90000000; 0x201a05; 0x10000; 0x8000; 0x0; 0x10000; 0x8000].
Definition emoji_data_109 : list N :=
  [0x8000; 0x36000; 0x24b000; 0x1000; 0x86c00; 0x4924b248; 0x9249248; 0x16db6db0;
   0x1b6db6c0; 0x924b240; 0x16db6db6; 0x4924b649; 0x49249e48; 0xb6db6db6; 0x492496c9; 0x49249748;
   0xb6db6db6; 0x49249249; 0x49249248; 0xb6db6db6; 0x49249249; 0x1f1a05; 0x2c000; 0x68000;
   0x78000; 0x160000; 0x100000; 0x2c0000; 0xb60000; 0x4300000; 0x8200000; 0x20b00049;
   0x25b24892; 0x592482db; 0x6db602db; 0x6db60492; 0x592016db; 0x6db69249; 0x2c922492; 0x7925b6db;
   0x6db49249; 0x6c912492; 0x792db6db; 0x6da49249; 0x24892492; 0x496db6db; 0x6d249249; 0x24000000;
   0x1f1a05; 0x30000; 0xb0000; 0x160000; 0x180000; 0x80000; 0x100000; 0x2d80000;
   0x12480000; 0x20900000; 0x32c00124; 0xb6c92249; 0x2492436d; 0xb6db0b6d; 0xb6d80249; 0x64905b6d;
   0xb6d94924; 0xb6489249; 0x7c92db6d; 0xb6da4925; 0xb2449249; 0x6496db6d; 0xb6d24924; 0x92249249;
   0x24b6db6d; 0xb6924924; 0x90000000; 0x201a05; 0x10000; 0x58000; 0x18000; 0x10000;
   0x8000; 0x8000; 0x36000; 0x24b000; 0x1000; 0x86c00; 0x4924b248; 0x9249248;
   0x16db6db0; 0x1b6db6c0; 0x924b240; 0x16db6db6; 0x4924b649; 0x49249e48; 0xb6db6db6; 0x492496c9;
   0x49249748; 0xb6db6db6; 0x49249249; 0x49249248; 0xb6db6db6; 0x49249249; 0x1f1a05; 0x2c000;
   0x68000; 0x78000; 0x160000; 0x100000; 0x2c0000; 0xb60000; 0x4300000; 0x8200000;
   0x20b00049; 0x25b24892; 0x592482db; 0x6db602db; 0x6db60492; 0x592016db; 0x6db69249; 0x2c922492;
   0x7925b6db; 0x6db49249; 0x6c912492; 0x792db6db; 0x6da49249; 0x24892492; 0x496db6db; 0x6d249249;
   0x24000000; 0x1f1a05; 0x30000; 0xb0000; 0x160000; 0x180000; 0x80000; 0x100000;
   0x2d80000; 0x16480000; 0x20900000; 0x32c00124; 0xb6c92249; 0x2492436d; 0xb6db0b6d; 0xb6d80249;
   0x64905b6d; 0xb6d94924; 0xb6489249; 0x7c92db6d; 0xb6da4925; 0xb2449249; 0x6496db6d; 0xb6d24924;
   0x92249249; 0x24b6db6d; 0xb6924924; 0x90000000; 0x201a05; 0x10000; 0x58000; 0x18000;
   0x30000; 0x8000; 0x8000; 0x36000; 0x24b000; 0x1000; 0x86c00; 0x4924b248;
   0x9249248; 0x16db6db0; 0x1b6db6c0; 0x924b240; 0x16db6db6; 0x4924b649; 0x49249e48; 0xb6db6db6;
   0x492496c9; 0x49249748; 0xb6db6db6; 0x49249249; 0x49249248; 0xb6db6db6; 0x49249249; 0x1f1a05;
   0x2c000; 0x78000; 0xf8000; 0x160000; 0x120000; 0x2c0000; 0xb60000; 0x4300000;
   0x18200000; 0x20b00049; 0x25b24892; 0x592482db; 0x6db602db; 0x6db60492; 0x592016db; 0x6db69249;
   0x2c922492; 0x7925b6db; 0x6db49249; 0x6c912492; 0x792db6db; 0x6da49249; 0x24892492; 0x496db6db;
   0x6d249249; 0x24000000; 0x1f1b05; 0x10000; 0x78000; 0xf0000; 0xc0000; 0x2c0000;
   0x240000; 0x480000; 0x1b2c0000; 0x18200000; 0x10f80092; 0x5b6490b6; 0xd92d9124; 0xb24905b6;
   0xdb6c05b6; 0xdb6c0924; 0x96496db6; 0xdb6d2492; 0x5b244924; 0xbe4b6db6; 0xdb692492; 0xd9224924;
   0x925b6db6; 0xdb492492; 0x49124924; 0x92db6db6; 0xd8492492; 0x48000000; 0x1f1b05; 0x40000;
   0x1e0000; 0x1e0000; 0x380000; 0x300000; 0xb00000; 0x1200000; 0x2cb00000; 0x20b00000;
   0x1e00249; 0x6db242db; 0x64b64492; 0x592406db; 0x6db016db; 0x6db00492; 0x5924b6db; 0x6db69249;
   0x6c912492; 0xf925b6db; 0x6db49249; 0x64892492; 0xc92db6db; 0x6da49249; 0x24492492; 0x496db6db;
   0x6d249249; 0x20000000; 0x201a06; 0x10000; 0x8000; 0x8000; 0x16000; 0x1b000;
   0xb000; 0x96000; 0x3000; 0x3800; 0x124b6c92; 0x5b6d96d8; 0x9259240; 0x16db6db0;
   0x1b6db6c0; 0x924b248; 0xb6db6db6; 0x4924b649; 0x49249e48; 0xb6db6db6; 0x492496c9; 0x49249248;
   0xb6db6db6; 0x49249249; 0x49249248; 0xb6db6db6; 0x49249248; 0x1f1a06; 0x24000; 0x20000;
   0x0; 0x60000; 0x120000; 0x240000; 0x4960000; 0x4100000; 0x8780049; 0x2db2485b;
   0x6c96c892; 0x592482db; 0x6db602db; 0x6db20492; 0x4b24b6db; 0x6db69249; 0x2d922492; 0x5f25b6db;
   0x6db49249; 0x6c912492; 0x492db6db; 0x6da49249; 0x24892492; 0x496db6db; 0x6c249249; 0x24000000;
   0x1f1a06; 0x90000; 0x80000; 0x0; 0x80000; 0x580000; 0x900000; 0x12580000;
   0x10580000; 0xf00124; 0xb6d9216d; 0xb25b2249; 0x2c92036d; 0xb6d80b6d; 0xb6d80249; 0x2c925b6d;
   0xb6db4924; 0xb6489249; 0x7c92db6d; 0xb6da4924; 0xb2449249; 0x6496db6d; 0xb6d24924; 0x92249249;
   0x24b6db6d; 0xb6924924; 0x90000000; 0x20140c; 0x92492; 0x12c9248; 0x97c9248; 0xb6db25b0;
   0x4becb7c0; 0x4925ffc0; 0x36db6d80; 0x1b6fb200; 0x1f659000; 0xb6db6c92; 0x49249249; 0x49249248;
   0xb6db6db6; 0x49249249; 0x49249248; 0xb6db6db6; 0x49249249; 0x49249248; 0xb6db6db6; 0x49249248;
   0x201008; 0x16db6db0; 0x6db6db6c; 0xfffffffe; 0xfffffffe; 0x6db6db6d; 0xf6f93d96; 0xfff92c96;
   0x6db25b6d; 0xf6f92c96; 0xfff92c96; 0x6db65b6d; 0xfeff7fbe; 0xfffffffe; 0x6db6db6c; 0x3ffffffe;
   0x16db6db0; 0x102000; 0x2db03ffe; 0xffff6db6; 0xfedfffff; 0x6db6f6df; 0xffff6db6; 0xffffffff;
   0x6db6fe5f; 0xf25f6c96; 0xf25ff25f; 0x6cb6feff; 0xffff6db6; 0xfedffa5f; 0x6db6f25f; 0xf25f6db6;
   0xfedfffff; 0x6db61248; 0x201a03; 0x32d96c96; 0x797cbe4e; 0x793c9e4f; 0xb65b2d96; 0x5f2f97c9;
   0x5f2793c8; 0x96cb65b2; 0x4be5f2f8; 0x4be4f278; 0xb2d96cb6; 0x497cbe5f; 0x797c9e4f; 0xb65b2d96;
   0x192c96c8; 0x9000040; 0x60000b0; 0x9000040; 0x9000040; 0x60000b0; 0x9000040; 0x9000040;
   0x60000b0; 0x9000040; 0x9000040; 0x60000b0; 0x9000040; 0x1f2000; 0x4924920; 0xdb6db40;
   0x1ffdffc0; 0x6db6db00; 0x6db6db00; 0xfbefbe03; 0x6db6d803; 0x65b2d807; 0xc967f01b; 0x6db6c05b;
   0x64b6c0f6; 0x492d80db; 0x6db682db; 0x25b607fe; 0x4bfc06db; 0x6db416cb; 0x65b03f9e; 0xcbe0b6db;
   0x6db0b6db; 0x6d81fff7; 0xff85b6db; 0x6d85b6db; 0x6c0fffff; 0xfc2db6db; 0x6c249249; 0x24492492;
   0x4b6db6db; 0x69249249; 0x22492492; 0x5b6db6db; 0x9249249; 0x151f00; 0x1000; 0x2c000b6;
   0x1b6001; 0x6d805ffc; 0xdb6c1b6; 0xdb3ffffe; 0xdb6d9b6d; 0xb67ffff0; 0xb6db02db; 0x6c02ffe0;
   0x5b60006; 0xd80016c0; 0x2c0000; 0xb0000580; 0x180001; 0x60000b00; 0x300002; 0xc0001600;
   0x600005; 0x80002c00; 0xc00000; 0x142000; 0x124925b6; 0xdb5b6d9b; 0x6db65b6d; 0xb59259b6;
   0xdb65b6db; 0x59259b6d; 0xb65b6db5; 0xb6d9b6db; 0x65b6db49; 0x249b6db6; 0x5b6cb492; 0x49b6db65;
   0xb6db5b6d; 0x9b6db65b; 0x6db49249; 0xb6db65b6; 0xdb5b6d9b; 0x6db65b6d; 0xb4b6d9b6; 0xdb649248;
   0x202000; 0x24000; 0x5b6c00; 0x7ffc00; 0x1b6db00; 0x2db6d80; 0x7c807f0; 0xd800360].
Definition emoji_data_110 : list N :=
  [0x160005b0; 0x1e0007f8; 0x2c001b6c; 0x36002db6; 0x38003e1e; 0x6c00db2c; 0xb0016c16; 0xf001f01e;
   0x6806d80d; 0xb00b6016; 0xf00f801e; 0x6c36c02c; 0x305b0016; 0x387c001e; 0x6db6002c; 0x36d80036;
   0x1fe000f8; 0x2db0016c; 0x16c005b0; 0x7c807f0; 0x5b6db60; 0x2db6d80; 0x7ffc00; 0x36d800;
   0x92000; 0x1f1a00; 0x12000000; 0x12000000; 0x4; 0x2000000; 0x0; 0x20;
   0x90000000; 0x80000000; 0x100; 0x0; 0x0; 0x100; 0x0; 0x0;
   0x100; 0x0; 0x0; 0x4900; 0x1240d924; 0x9241b000; 0x2486d924; 0xb6c6c924;
   0x920d8001; 0x2436c925; 0xb6364924; 0x90000000; 0x202000; 0x92000; 0x2db200; 0x7ffe00;
   0x2dffd80; 0x3ffffc0; 0xf2fffe0; 0x164bffb0; 0x1f67fef8; 0x1cb7fff8; 0x3ecbfdf6; 0x5f6ff7f8;
   0x7f3ffffe; 0xbfdfeffe; 0x7fefbfff; 0x7fefffff; 0xbfff7ffe; 0x7ffdbfff; 0x7e3f800f; 0xbe5b2496;
   0x7e2c000f; 0x7e3c000e; 0x3edb6db6; 0x5f7ffff8; 0x1ffffff8; 0x16fffff0; 0xbffffd8; 0xfffffe0;
   0x6ffffa0; 0x17ffec0; 0x7ffe00; 0x5b6c00; 0x49000; 0x1f2000; 0x24924924; 0x6db6db6c;
   0x4924924b; 0x6db6db6b; 0x6cb6db72; 0x4824925b; 0x64b6db5b; 0x60b6db92; 0x412492db; 0x2db6dad8;
   0x5b6dc90; 0x12496c9; 0x24b6d6c0; 0x20b6e480; 0x4924b649; 0x6db6b601; 0x64b72402; 0x4125b24b;
   0x64b5b048; 0x6cb92090; 0x492db259; 0x65ad8643; 0x65c90482; 0x496d92cb; 0x2d6c321b; 0x2e482410;
   0x4b6c9649; 0x6b6db6db; 0x62492492; 0x4b6db6db; 0x9249248; 0x202000; 0x12000; 0x36d800;
   0x5ffc00; 0x2ffff80; 0x5f2ff60; 0x7f87fb0; 0x17f07ff0; 0x2ff27f6c; 0x1ff87df0; 0x3ff9fffc;
   0x6f925bfc; 0x3fc02ffe; 0x3f803dfe; 0x7f92597c; 0xbfc17dfe; 0xff81fffe; 0x7f92ff3d; 0xbfcb3f3e;
   0xffcf3fbe; 0x7fb679fc; 0x3fdb31fe; 0x3ffb3ffe; 0x2fb67f7c; 0x1ec33cf0; 0x1fe33cf0; 0xdf67fe0;
   0x7e33fb0; 0x3e73f80; 0x1b7fb00; 0x5ffc00; 0x1fec00; 0x2c000; 0x1f2000; 0x9249241;
   0x6db6db6b; 0x6d96db66; 0xc000b6cb; 0x6492db7b; 0x6496db36; 0xf9fdb65b; 0x6db6dbc9; 0x24b6d900;
   0x6db249; 0x24b6de00; 0xb6cc92; 0x406d96db; 0x65b6f6db; 0x41b66db7; 0x36cb6db; 0x2db7b6db;
   0x6db36dc6; 0xf365b6db; 0x65bdb61b; 0x4d9b6e3f; 0x9b2db6db; 0x2dedb000; 0x6cdb7000; 0xd96db249;
   0x6f6d8003; 0x66db8006; 0xcb6d924b; 0x7b6d925b; 0x16db6db6; 0x9249248; 0x202000; 0x48000;
   0x5b6c00; 0x6ff600; 0x1ffffc0; 0x6fb6fa0; 0xbe007c0; 0xffc1ff8; 0x17ff7fb0; 0x1ffefef8;
   0x1e001ff8; 0x3e492df6; 0x5e0017fa; 0x7f24b3fe; 0xbfffe5fe; 0x7fffb3ff; 0x7fffe3ff; 0xbfff7ffe;
   0x7ffdbeff; 0x7fff3e7f; 0xbffb3cfe; 0x5fefbe7a; 0x7fff127c; 0x3fdf24f6; 0x1f7f8078; 0x1fff0078;
   0x16ff24f0; 0xbffb6c0; 0x3ffffc0; 0x2dffd80; 0x6ff600; 0x2ff000; 0x92000; 0x20160a;
   0x1b00; 0x3f80; 0xc00400; 0xb60800; 0xd80400; 0x80400; 0x16d800; 0x1b6c00;
   0x125c2490; 0x2db64b60; 0x3fdb6df0; 0x30fb8f9c; 0x61b28b0c; 0xe2990c86; 0xc3190c82; 0x65b6d865;
   0xc2590c02; 0x40100c02; 0x60300a0c; 0x32c0079e; 0x1fc001f0; 0x5800160; 0x202000; 0x24000;
   0x2db600; 0xbffb00; 0x1ffff00; 0x37ffec0; 0x5ffffe0; 0xfffe9e0; 0x1fedf2d8; 0x2fc27b7c;
   0x3fe0fffc; 0x5ffdb7fa; 0x7ff01bfc; 0x7ff259fc; 0x5b64b2db; 0x7c06d82c; 0x6187e18e; 0xcb25b6cb;
   0x6fb64de4; 0x6f1e0c76; 0x4f2c9efb; 0x6fb2cff4; 0x27f3cfe4; 0x5b67f7c8; 0x2587e32c; 0xd9ff828;
   0xb7ffed8; 0x5ffffe0; 0x5ffffe0; 0x17ffec0; 0xbffb00; 0x17f800; 0x59000; 0x201f01;
   0x400; 0x1600; 0xbe00; 0x36d80; 0xb200; 0x58000; 0x1b6000; 0x2db000;
   0x7ff000; 0xdb6000; 0x16c3000; 0x1fc0000; 0xdb0400; 0x1ef02c0; 0xfc0060; 0xd90480;
   0x249200; 0x200200; 0x64904b0; 0x1f2c12f8; 0x3938065c; 0x30592c86; 0x41349c43; 0x41201843;
   0x82490c82; 0x402d9803; 0x40378c02; 0x30514c06; 0x59600658; 0x1fc003f8; 0x60000b0; 0x201f01;
   0x800; 0x2c00; 0x2400; 0x1b00; 0x3c80; 0x12000; 0x16d800; 0x5b6000;
   0x492000; 0xb65800; 0xdb2000; 0xd80000; 0xb60800; 0xdb04a0; 0xd900a0; 0xb64120;
   0x192480; 0x400; 0x5920960; 0x1fd824f0; 0x3058269c; 0x60b24b0c; 0xe0190c86; 0xc2190c02;
   0x64961825; 0xc01b0c02; 0x40190c02; 0x6032ca0c; 0x32c0079e; 0x1fc001f0; 0x5800160; 0x201f01;
   0x1000; 0x1800; 0x1b00; 0x3600; 0x1900; 0x24000; 0xdb200; 0x16d000;
   0x924000; 0x16db000; 0xb60000; 0xb00000; 0x16c1000; 0xb60960; 0xf60160; 0x6c8240;
   0x124900; 0x100900; 0xb241240; 0x2f920b7c; 0x3cb0472c; 0x516c864a; 0x60b20806; 0x60100806;
   0xc12d9043; 0x60160806; 0x60120806; 0x5061860a; 0x3cf00b2c; 0xf8003f8; 0xb0000c0; 0x201f01;
   0x400; 0x1600; 0x1e00; 0x12d80; 0x9200; 0x59000; 0x1b6000; 0x2db000;
   0x7ff000; 0xdb6000; 0x16c3000; 0x1fc0000; 0xdb0400; 0x1ef02c0; 0xfc0060; 0xd90480;
   0x249200; 0x240200; 0x64904b0; 0x1f2c1278; 0x393c065c; 0x30592c86; 0x41349c43; 0x41201843;
   0x824b0c82; 0x402d9803; 0x40378c02; 0x30514c06; 0x59600658; 0x1fc003f8; 0x60000b0; 0x201f01;
   0x800; 0x2c00; 0x2400; 0x1b00; 0x480; 0x12000; 0x16d800; 0x5b6000;
   0x492000; 0xb65800; 0xdb2000; 0xd80000; 0xb60800; 0xdb04a0; 0xd900a0; 0xb64120;
   0x192480; 0x400; 0x5920960; 0x1fd924f0; 0x3058269c; 0x60b24b0c; 0xe0190c86; 0xc2190c02;
   0x64961825; 0xc01b0c02; 0x40190c02; 0x6032ca0c; 0x32c0079e; 0x1fc001f0; 0x5800160; 0x201f01;
   0x1000; 0x1800; 0x1b00; 0x1600; 0x900; 0x24000; 0xdb200; 0x16d000;
   0x924000; 0x16db000; 0xb60800; 0xb00000; 0x16c1000; 0xb60960; 0xf60160; 0x6c8240;
   0x124900; 0x100900; 0xb241240; 0x2f920b7c; 0x3cb0472c; 0x516c864a; 0x60b20806; 0x60100806;
   0xc12d9043; 0x60160806; 0x60120806; 0x5061860a; 0x3cf00b2c; 0xf8003f8; 0xb0000c0; 0x201f01;
   0x400; 0x1600; 0xbe00; 0x36d80; 0xb200; 0x59200; 0x1b6400; 0x2db000;
   0x7ff000; 0xdb2000; 0x16c3000; 0x1fc1000; 0xdb2c00; 0x1ef02c0; 0xfc8260; 0xdb0580;
   0x2c9200; 0x240200; 0x64b04b0; 0x1f2c12f8; 0x393c065c; 0x305b2c86; 0x41349c43; 0x41241843;
   0x824b0c82; 0x402d9803; 0x40378c02; 0x30514c06; 0x59600658; 0x1fc003f8; 0x60000b0; 0x201f01;
   0x800; 0x2c00; 0x2400; 0x1b00; 0x2c80; 0x12400; 0x16d800; 0x5b6000;
   0x492000; 0xb65800; 0xdb2000; 0xd82000; 0xb60800; 0xdb05a0; 0xd904a0; 0xb6c120].
Definition emoji_data_111 : list N :=
  [0x192480; 0x90400; 0x5960960; 0x1fd924f0; 0x3058269c; 0x60b64b0c; 0xe0190c86; 0xc2190c02;
   0x64961825; 0xc01b0c02; 0x40190c02; 0x6032ca0c; 0x32c0079e; 0x1fc001f0; 0x5800160; 0x201f01;
   0x1000; 0x1800; 0x1b00; 0x1600; 0x1900; 0x24800; 0xdb200; 0x16d000;
   0x924000; 0x16db000; 0xb60800; 0xb00800; 0x16c1000; 0xb60960; 0xf60160; 0x6d8240;
   0x124900; 0x120900; 0xb241240; 0x2f920b7c; 0x3cb2472c; 0x516c864a; 0x60b20806; 0x60120806;
   0xc12d9043; 0x60160806; 0x60120806; 0x5061860a; 0x3cf00b2c; 0xf8003f8; 0xb0000c0; 0x201f01;
   0x400; 0x1600; 0xbe00; 0x36d80; 0xb600; 0x5b200; 0x1b6400; 0x2db000;
   0x7ff000; 0xdb6000; 0x16c3000; 0x1fc1000; 0xdb2c00; 0x1ef16c0; 0xff82e0; 0xdb0580;
   0x2d9200; 0x248200; 0x64b04b0; 0x1f2c1278; 0x393c065c; 0x305b2c86; 0x41349c43; 0x41241843;
   0x824b0c82; 0x402d9803; 0x40378c02; 0x30514c06; 0x59600658; 0x1fc003f8; 0x60000b0; 0x201f01;
   0x800; 0x2c00; 0x2400; 0x1b00; 0x2c80; 0x12400; 0x16d800; 0x5b6000;
   0x492000; 0xb65800; 0xdb2000; 0xd82000; 0xb61800; 0xdb0da0; 0xdb04e0; 0xb6c360;
   0x1b2480; 0x90400; 0x5960960; 0x1fdb24f0; 0x3059269c; 0x60b64b0c; 0xe01b0c86; 0xc2190c02;
   0x64961825; 0xc01b0c02; 0xc0190c02; 0x6032ca0c; 0x32c0079e; 0x1fc001f0; 0x5800160; 0x201e02;
   0x1800; 0x2c00; 0x3d00; 0x1b00; 0x12c00; 0x92000; 0x36d800; 0x5b6000;
   0x492000; 0xb65800; 0xd82000; 0xd80400; 0xb60b60; 0xdb05a0; 0x590080; 0x16c900;
   0xb2400; 0x2090480; 0x2d964b6c; 0x325b269e; 0x30790c86; 0x60b60804; 0xc21b0c82; 0xc2490802;
   0x60961805; 0xe01b0c06; 0x30710c06; 0x2cb00b2c; 0x1fc005f0; 0x2000080; 0x201e02; 0x3600;
   0x25b00; 0x3ff00; 0x1b600; 0x2da00; 0x17f000; 0x2db000; 0xb6d800; 0xfe7000;
   0x16c3000; 0xb61800; 0xfe1800; 0x16d96c0; 0xf68b60; 0xbfc100; 0x2d9200; 0x164900;
   0x4160920; 0x1b2d12d8; 0x3cbe4b2c; 0x60be4c04; 0x412d9443; 0x60960806; 0x40960802; 0xc12d9043;
   0x6036c806; 0x6030cc04; 0x59600658; 0x2f8003fc; 0x4000020; 0x201e02; 0x2c00; 0x1600;
   0x1600; 0x3d80; 0x5b600; 0x49200; 0x5b6000; 0x6db000; 0x649000; 0xdb2000;
   0x16c1000; 0x6c1000; 0xdb0db0; 0x1ed86c0; 0x6d82c0; 0x1b6580; 0x259200; 0x1260040;
   0x16db25b0; 0x592c1658; 0x603c860e; 0xa21b0c86; 0x41249843; 0x41249843; 0x825b0c02; 0x40359c03;
   0x6020860e; 0x32c00596; 0x1fe003f8; 0x1000040; 0x201e02; 0x1800; 0x2c00; 0x3d00;
   0x1b00; 0x13c00; 0x92400; 0x36d800; 0x5b6000; 0x492000; 0xb65800; 0xd82800;
   0xd80c00; 0xb60b60; 0xdb05a0; 0x5b0180; 0x16c900; 0xb2400; 0x20b0480; 0x2d964b6c;
   0x325b269e; 0x307b0c86; 0x60b64804; 0xc21b0c82; 0xc24b0802; 0x60961805; 0xe01b0c06; 0x30710c06;
   0x2cb00b2c; 0x1fc005f0; 0x2000080; 0x201e02; 0x3600; 0x5b00; 0x4b00; 0x9200;
   0x2c800; 0x17e000; 0x2db000; 0xb6d800; 0xfe7000; 0x16c3000; 0xb60800; 0xfe0000;
   0x16d12c0; 0xf60160; 0xba0000; 0x2c9200; 0x124900; 0x4100920; 0x1b2c12d8; 0x3cb24b2c;
   0x60b04c04; 0x41249443; 0x60920806; 0x40920802; 0xc12d9043; 0x6036c806; 0x6030cc04; 0x59600658;
   0x2f8003fc; 0x4000020; 0x201e02; 0x2c00; 0x1600; 0x1200; 0x2480; 0x59200;
   0x49000; 0x5b6000; 0x6db000; 0x649000; 0xdb2000; 0x16c1000; 0x6c0000; 0xdb05b0;
   0x1ec8240; 0x648000; 0x192480; 0x249200; 0x1240040; 0x16d925b0; 0x592c1658; 0x6030860e;
   0xa2190c86; 0x41249843; 0x41249843; 0x825b0c02; 0x40359c03; 0x6020860e; 0x32c00596; 0x1fe003f8;
   0x1000040; 0x201e02; 0x1800; 0x2c00; 0x500; 0x900; 0x12400; 0x92000;
   0x36d800; 0x5b6000; 0x492000; 0xb65800; 0xd82000; 0xd80000; 0xb60960; 0xdb04a0;
   0x590000; 0x124900; 0x92400; 0x2080480; 0x2d924b6c; 0x3258269e; 0x30790c86; 0x60b20804;
   0xc2190c82; 0xc2490802; 0x60961805; 0xe01b0c06; 0x30710c06; 0x2cb00b2c; 0x1fc005f0; 0x2000080;
   0x201f01; 0x800000; 0x1603600; 0x4905b00; 0x493fb00; 0xb6db200; 0x496c800; 0x249fe000;
   0x5b6db058; 0x24b6d820; 0x24fff124; 0x5b6db2d8; 0x25b64924; 0x24fe4124; 0x5b6db2db; 0x25f64964;
   0x24f84824; 0x5b6c925b; 0x24924924; 0x25904064; 0x5b2c965b; 0x7db24f6c; 0x64300f2e; 0x596cb65b;
   0x64925926; 0x64025926; 0xd92db6db; 0x64b6d926; 0x64b2cf2e; 0x5b6db6db; 0x2fb24bfc; 0x4800120;
   0x201e02; 0x2c02c00; 0x1201600; 0x9201200; 0x16d82c80; 0x92c9200; 0x9249000; 0x36db6030;
   0x496db048; 0x49649048; 0xb6db65b6; 0x496c9248; 0x496c8248; 0xb6db65b6; 0x49ec9259; 0x49e49048;
   0xb6d924b6; 0x49249249; 0x4b009248; 0xb6d924b6; 0x7b2c965f; 0x79301e4e; 0xb6596db6; 0x49249e4b;
   0x48041a0b; 0xb65b6db6; 0x493d9e4b; 0x79749e4e; 0xb6db6db6; 0x5fe497f9; 0x9000040; 0x201e02;
   0x1801800; 0x2402c00; 0x2481d00; 0xdb01900; 0x12492400; 0x12492000; 0x2db6d820; 0x12db6090;
   0x12c92090; 0x6db6db6c; 0x92db2492; 0x12db2492; 0x6db6c96c; 0x92db24b2; 0x12d82412; 0x6d92496c;
   0x92492492; 0x164820b2; 0x6d92cb6c; 0xb6592ebe; 0x72782c16; 0x6cb25b2c; 0xf2592c96; 0xd0092c92;
   0x6cb6db2d; 0xf25b6c96; 0x72792c96; 0x6db6db6c; 0xbfc925f6; 0x2000090; 0x201f01; 0x800000;
   0x1603600; 0x4905b00; 0x4900b00; 0xb6c9200; 0x496c800; 0x249fe000; 0x5b6db058; 0x24b6d820;
   0x24ff7124; 0x5b6db2d8; 0x25b64924; 0x24fe4124; 0x5b6db2db; 0x25f64964; 0x24fa4824; 0x5b6c925b;
   0x24924924; 0x25904064; 0x5b2c965b; 0x7db24f6c; 0x64300f2e; 0x596cb65b; 0x64925926; 0x64025926;
   0xd92db6db; 0x64b6d926; 0x64b2cf2e; 0x5b6db6db; 0x2fb24bfc; 0x4800120; 0x201e02; 0x2c02c00;
   0x1201600; 0x9201200; 0x16d80480; 0x92d9200; 0x9249000; 0x36db6030; 0x496db048; 0x49649048;
   0xb6db65b6; 0x496c9248; 0x496c9248; 0xb6db65b6; 0x49ec9259; 0x49ec9248; 0xb6d924b6; 0x49249249;
   0x4b009248; 0xb6d924b6; 0x7b2c965f; 0x79341e4e; 0xb6596db6; 0x49249e4b; 0x48041a0b; 0xb65b6db6;
   0x493d9e4b; 0x79749e4e; 0xb6db6db6; 0x5fe497f9; 0x9000040; 0x201e02; 0x1801800; 0x2402c00;
   0x2480500; 0xdb00900; 0x12492400; 0x12492000; 0x2db6d820; 0x12db6090; 0x12c92090; 0x6db6db6c;
   0x92db2492; 0x12db2492; 0x6db6c96c; 0x92db24b2; 0x12d92412; 0x6d92496c; 0x92492492; 0x164920b2;
   0x6d92cb6c; 0xb6592ebe; 0x72782c16; 0x6cb25b2c; 0xf2592c96; 0xd0092c92; 0x6cb6db2d; 0xf25b6c96].
Definition emoji_data_112 : list N :=
  [0x72792c96; 0x6db6db6c; 0xbfc925f6; 0x2000090; 0x201f01; 0x800000; 0x1603600; 0x4905b00;
   0x492fb00; 0xb6cb600; 0x496c800; 0x249fe000; 0x5b6db058; 0x24b6d820; 0x24fff124; 0x5b6db2d8;
   0x25b64924; 0x24fe4924; 0x5b6db6db; 0x25f64964; 0x24fa4924; 0x5b6c925b; 0x24924924; 0x25924064;
   0x5b2d965b; 0x7db24f6c; 0x64320f2e; 0x596cb65b; 0x64925926; 0x64025926; 0xd92db6db; 0x64b6d926;
   0x64b2cf2e; 0x5b6db6db; 0x2fb24bfc; 0x4800120; 0x201e02; 0x2c02c00; 0x1201600; 0x9201200;
   0x16d82c80; 0x92d9200; 0x9249000; 0x36db6030; 0x496db048; 0x49649048; 0xb6db65b6; 0x496c9248;
   0x496c9248; 0xb6db6db6; 0x49ec92d9; 0x49ec9248; 0xb6db24b6; 0x49249249; 0x4b049248; 0xb6db24b6;
   0x7b2c965f; 0x79341e4e; 0xb65b6db6; 0x49249e4b; 0x48041a0b; 0xb65b6db6; 0x493d9e4b; 0x79749e4e;
   0xb6db6db6; 0x5fe497f9; 0x9000040; 0x201e02; 0x5801800; 0x2402c00; 0x2480d00; 0xdb01b00;
   0x12492400; 0x12492000; 0x2db6d820; 0x92db6090; 0x12c92090; 0x6db6db6c; 0x92db2492; 0x12db2492;
   0x6db6db6c; 0x92db24b2; 0x12d92492; 0x6d96496c; 0x92492492; 0x164920b2; 0x6d96cb6c; 0xb6592ebe;
   0xf2792c16; 0x6cb65b2c; 0xf2592c96; 0xd0092c92; 0x6cb6db2d; 0xf25b6c96; 0xf2792c96; 0x6db6db6c;
   0xbfc925f6; 0x2000090; 0x201e02; 0x2402c00; 0x5b25b00; 0x2496d80; 0x2496400; 0x2db6da00;
   0x125b6010; 0x125fe010; 0x6db6d86c; 0x92db6090; 0x12ff2090; 0x6db6db6c; 0x92df2c92; 0x12ff25f2;
   0x6db6db6c; 0x92db2492; 0x12490092; 0x6d96496c; 0x96cb24b2; 0x1f1904fa; 0x6db64b6c; 0xb27b2c96;
   0xf2792c16; 0x6cb65b2d; 0xf24b2c96; 0xf25f2c96; 0x6db6db6d; 0xb27b6c96; 0x3ee927be; 0x6db6db6c;
   0x12492492; 0x201f01; 0x800000; 0x800800; 0x3603600; 0x4901b00; 0x4901900; 0x1b6db600;
   0x2496d820; 0x24924020; 0x5b6db058; 0x25b6d924; 0x24b24924; 0x5b6db6da; 0x25b65924; 0x25b649e4;
   0x5b6db6db; 0x24b6c924; 0x24920024; 0x5b6592db; 0x2d924964; 0x3f924a7c; 0x5b2d965b; 0x64b64f2c;
   0x64324d26; 0xd92cb65b; 0x64965926; 0x64925926; 0x5b6db6db; 0x64b2cf2c; 0x3df24f3c; 0x5b6db6db;
   0x24924924; 0x201f01; 0x1000000; 0x1001200; 0x2c02d00; 0x9201600; 0x9241e00; 0x16db6c00;
   0x92db200; 0x49249040; 0xb6db60b0; 0x496db048; 0x49649248; 0xb6db6db6; 0x496d9649; 0x49ed92e8;
   0xb6db6db6; 0x496d9249; 0x49240048; 0xb6cb24b6; 0x4b2d9259; 0x5f2c8278; 0xb65b2cb6; 0x793c964f;
   0x683c1e0f; 0xb65b6db6; 0x49249e4b; 0x492c9e4b; 0xb6db6db6; 0x7965964f; 0x79e497dc; 0xb6db6db6;
   0x49249248; 0x201e02; 0x2402c00; 0x5b25b00; 0x24bfd80; 0x249fe00; 0x2db6db00; 0x125b6010;
   0x125fe010; 0x6db6d86c; 0x92db6090; 0x12ff3090; 0x6db6db6c; 0x92df2c92; 0x12ff2df2; 0x6db6db6c;
   0x92db6592; 0x124f0092; 0x6d96496c; 0x96cb24b2; 0x1f1b04fa; 0x6db64b6c; 0xb27b2c96; 0xf27b2c16;
   0x6cb65b2d; 0xf24b2c96; 0xf25f2c96; 0x6db6db6c; 0xb27b6c96; 0x3ee927be; 0x6db6db6c; 0x12492492;
   0x201f01; 0x800000; 0x800800; 0x3603600; 0x4901b00; 0x4901b00; 0x1b6db600; 0x2496d820;
   0x24924020; 0x5b6db058; 0x25b6d924; 0x24b25924; 0x5b6db6da; 0x25b65924; 0x25b64be4; 0x5b6db6db;
   0x24b6cb64; 0x24960024; 0x5b6d92db; 0x2d96c964; 0x3f96427c; 0x5b2d965b; 0x64b64f2c; 0x64364d26;
   0xd92cb65b; 0x64965926; 0x64925926; 0x5b6db6db; 0x64b2cf2c; 0x3df24f3c; 0x5b6db6db; 0x24924924;
   0x201f01; 0x1000000; 0x1001200; 0x2c02d00; 0x9201600; 0x9241e00; 0x16db6c00; 0x92db200;
   0x49249040; 0xb6db60b0; 0x496db048; 0x49649248; 0xb6db6db6; 0x496db649; 0x49ed97e8; 0xb6db6db6;
   0x496d92c9; 0x49260048; 0xb6cb24b6; 0x4b2d9259; 0x5f2f8278; 0xb65b2cb6; 0x793c964f; 0x683c1e0f;
   0xb65b6db6; 0x49249e4b; 0x492c9e4b; 0xb6db6db6; 0x7965964f; 0x79e497dc; 0xb6db6db6; 0x49249248;
   0x201e02; 0x2402c00; 0x5b25b00; 0x2492d80; 0x2482400; 0x2db6c800; 0x125b6010; 0x125fe010;
   0x6db6d86c; 0x92db6090; 0x12ff2090; 0x6db6cb6c; 0x92df2492; 0x12ff21f2; 0x6db6596c; 0x92d92492;
   0x12480092; 0x6d92496c; 0x96c924b2; 0x1f1904fa; 0x6db24b6c; 0xb2792c96; 0xf2782c16; 0x6cb25b2d;
   0xf2492c96; 0xf25f2c96; 0x6db6db6c; 0xb27b6c96; 0x3ee927be; 0x6db6db6c; 0x12492492; 0x201f01;
   0x800000; 0x800800; 0x3601600; 0x4900b00; 0x4900900; 0x1b6d9200; 0x2496c020; 0x24924020;
   0x5b6db058; 0x25b6d924; 0x24b24124; 0x5b6d96db; 0x25b64924; 0x25b641e4; 0x5b6cb25b; 0x24b24924;
   0x24900024; 0x5b6492db; 0x2d924964; 0x3f904a7c; 0x5b2c965b; 0x64b24f2c; 0x64304d26; 0xd92cb65b;
   0x64925926; 0x64925926; 0x5b6db6db; 0x64b2cf2c; 0x3df24f3c; 0x5b6db6db; 0x24924924; 0x201f01;
   0x1000000; 0x1201200; 0x2c02d00; 0x9201600; 0x9241200; 0x16db6400; 0x92db000; 0x49249040;
   0xb6db60b0; 0x496db048; 0x49649248; 0xb6db65b6; 0x496d9249; 0x49ec92e8; 0xb6db64b6; 0x496c9249;
   0x49200048; 0xb6c924b6; 0x4b249259; 0x5f208278; 0xb6592cb6; 0x793c964f; 0x68301e0f; 0xb6596db6;
   0x49249e4b; 0x492c9e4b; 0xb6db6db6; 0x7965964f; 0x79e497dc; 0xb6db6db6; 0x49249248; 0xe1f01;
   0x1b017c0; 0xb603e40d; 0x802480c8; 0x1600360; 0x16004002; 0xd8048010; 0xb20160; 0x5802d80;
   0x5801280b; 0x6016c043; 0x6982c30; 0x80cd0618; 0xc603101; 0xb2010000; 0xe2000; 0x400580;
   0x1f00b603; 0x200c0024; 0x400100; 0xb001200; 0x48064024; 0x80920590; 0x9202481; 0x6c80d801;
   0x601b40b6; 0x2581659; 0x6184822c; 0x16c06181; 0x83058009; 0x101f01; 0x6001f8; 0xd801e0;
   0x1a000c8; 0x100; 0x2c00120; 0x1200240; 0x3200120; 0x2c00360; 0x12002c8; 0x1600160;
   0x2d80368; 0x92c1618; 0x182c4828; 0xb0185028; 0x3038105b; 0x8240000; 0xe1f01; 0x800000;
   0x92012400; 0x248048; 0x600360; 0x16004002; 0xd8048012; 0xb20160; 0x5802d80; 0x5801280b;
   0x6016c043; 0x6982c30; 0x80cd0618; 0xc603101; 0xb2010000; 0xe1d03; 0x2400480; 0x1001;
   0x4002c; 0x480120; 0x19009202; 0x48164024; 0x809205b2; 0x3600580; 0x6d02d809; 0x60596586;
   0x1208b05b; 0x186060c; 0x16002400; 0x101f01; 0x200000; 0x480120; 0x48; 0x100;
   0x2c00120; 0x1200240; 0x3200120; 0x6c00360; 0x12002c8; 0x1600160; 0x2d80368; 0x92c1618;
   0x182c4828; 0xb0185028; 0x3038105b; 0x8240000; 0xe1f01; 0xb007c0; 0xb603640d; 0x902580c8;
   0x1600360; 0x16004802; 0xd8058012; 0xb60360; 0x5902d80; 0x5801280b; 0x6016c043; 0x6982c30;
   0x80cd0618; 0xc603101; 0xb2010000; 0xf1f01; 0xb001b0; 0x3200d80; 0xc800800; 0x24002000;
   0x40036009; 0x12005b; 0x480090; 0x2d80248; 0x49006c0; 0x16c02580; 0xb6019609; 0xc2c3060;
   0x33c06301; 0x83018207; 0xc0058000; 0xe1f01; 0xc00580; 0x3e00b401; 0x2004802c; 0x400100].
Definition emoji_data_113 : list N :=
  [0x1b003202; 0x4016c02c; 0x9005b0; 0xb600480; 0x6c80d801; 0x605b60b6; 0x2183459; 0x618c022c;
   0x16406081; 0xf1058000; 0x101f01; 0xd80168; 0x3e806d8; 0x3600320; 0x6c00160; 0x16002c0;
   0x3600120; 0x6c00b60; 0x32006d8; 0xb680924; 0x2d80360; 0x16006d8; 0xb2c092c; 0x1618582c;
   0x4828b018; 0x102c183c; 0x101b0000; 0xf1f01; 0xb001b0; 0x7e00d80; 0xd801900; 0x24002000;
   0x4003600b; 0x12005b; 0xc80090; 0x2d80658; 0x49006c0; 0x16c02580; 0xb6019609; 0xc2c3060;
   0x33c06301; 0x83018207; 0xc0058000; 0xe1f01; 0x2c00580; 0x3f00b601; 0x6004802c; 0x400100;
   0x1b003602; 0x4016c02d; 0x809005b0; 0xb600480; 0x6c80d801; 0x605b60b6; 0x2083459; 0x618c022c;
   0x16406081; 0xf1058000; 0x101f01; 0xd801f8; 0x7f807d8; 0x7e807e0; 0x6c00360; 0x12002c0;
   0x3600360; 0x6c00b60; 0xd6006d8; 0xb6c0924; 0x2d80360; 0x16006d8; 0xb2c092c; 0x1618582c;
   0x4828b018; 0x102c183c; 0x101b0000; 0xf1f01; 0xb001f0; 0x7e00d80; 0xd801b00; 0x24002000;
   0x4003600b; 0x16005b; 0xd80190; 0x6d80658; 0x49006c0; 0x16c02580; 0xb6019609; 0xc2c3060;
   0x33c06301; 0x83018207; 0xc0058000; 0xe1f01; 0x2c00fc0; 0x3f00f603; 0xe007802c; 0x400100;
   0x1b00b602; 0x7016c02d; 0x809605b0; 0x1b600480; 0x6c80d801; 0x605b60b6; 0x2083459; 0x618c022c;
   0x16406081; 0xf1058000; 0x101f01; 0x480120; 0x1200248; 0x1200000; 0x2c00160; 0x16002c0;
   0x3200120; 0x2c00320; 0x30006c8; 0xb600120; 0x2d00360; 0x16006d8; 0xb2c092c; 0x1618582c;
   0x4828b018; 0x102c183c; 0x101b0000; 0xf1f01; 0x900090; 0x1200480; 0x4800000; 0x24002000;
   0x40036009; 0x100059; 0x480090; 0x2c80248; 0x48006c0; 0x16c02580; 0xb6019609; 0xc2c3060;
   0x33c06301; 0x83018207; 0xc0058000; 0xe1f01; 0x400480; 0x12009001; 0x20000024; 0x400100;
   0x1b003200; 0x4006402c; 0x9005b0; 0xb600480; 0x6c80d801; 0x605b60b6; 0x2183459; 0x618c022c;
   0x16406081; 0xf1058000; 0x202000; 0x48000; 0x5b6c00; 0x6ff600; 0x1ffffc0; 0x6ffffa0;
   0xbffffc0; 0xffc3ff8; 0x17ff7fb0; 0x1ffc3ef8; 0x1ffe7ff8; 0x3ff93df6; 0x5ff017fa; 0x7fe03ffe;
   0xbfc965fe; 0x7fecb2ff; 0x7fcdfcff; 0xbfdb7ffe; 0x7ffd9fff; 0x7ffc07ff; 0xbff967fe; 0x5fede7fa;
   0x7fe3e7fc; 0x3fcbe7f6; 0x1f67e7f8; 0x1f8fe7f8; 0x16cfe7f0; 0xbeff7c0; 0x3ffffc0; 0x2dffd80;
   0x6ff600; 0x2ff000; 0x92000; 0x1d1e01; 0x90000; 0x240000; 0x3e00000; 0xb6400003;
   0xd900003a; 0x78000b25; 0x90003c96; 0x4003f49e; 0xb7c964; 0x3dd2590; 0x3ae9e78b; 0x2f9e593c;
   0xfef965af; 0xffc9be5f; 0x6f96797c; 0xfecbcbe7; 0x9e27b679; 0x641ffb6c; 0x80fedbe0; 0x9e49640;
   0x792c800; 0x3c9e0002; 0x79640001; 0xec80000f; 0xe000009e; 0x40000048; 0x200; 0x0;
   0x1f2000; 0x9249241; 0x6db6db6b; 0x6db6db66; 0xdb7db6cb; 0x6db6db7b; 0x6d96db36; 0xdc0db65b;
   0x6c96dbdb; 0x6036d9b6; 0xe06db2db; 0x65b6dedb; 0xb6cdb0; 0x6d96c9; 0x24b6f6c0; 0xb66e10;
   0x86cb6d9; 0x2db7b6c0; 0x2db36d80; 0x5b65b6c9; 0x6dbdb601; 0x6d9b6c02; 0xdb2db6cb; 0x6dedb08b;
   0x6cdb6016; 0xd96db65b; 0x6f6d845b; 0x66db00b6; 0xcb6db2db; 0x7b6db6db; 0x16db6db6; 0x9249248;
   0x202000; 0x9249248; 0x36db6db6; 0x5b6db6db; 0x49259249; 0xb6db6db6; 0x5b6c36db; 0x492c1249;
   0xb6d92db6; 0x5b6c16db; 0x492c1249; 0xb6d92db6; 0x5b6016db; 0x49200249; 0xb6c925b6; 0x5b0410db;
   0x4b001049; 0xb6d92db6; 0x5b6006db; 0x49200249; 0xb6c925b6; 0x5b6002db; 0x49000249; 0xb6d92db6;
   0x5b6196db; 0x49209249; 0xb6d92db6; 0x5b6196db; 0x49209249; 0xb6d92db6; 0x5b6db6db; 0x49249248;
   0x12492490; 0x1f2000; 0x12492490; 0x5b6db6da; 0xdb6db6dc; 0x92492496; 0xdb6db6d6; 0xc36d96e4;
   0x824804b6; 0x4b6c96b6; 0xb603724; 0x124025b2; 0x5b64b5b0; 0x5b00b900; 0x90002d92; 0xd924ac00;
   0xc001c000; 0x80016492; 0x49250412; 0x64024; 0x804b64b6; 0x496b0036; 0x1720024; 0x25924b2;
   0xcb5825b0; 0xb904920; 0x12d92d96; 0x5ac12d80; 0x5c824900; 0x96c96db2; 0xd6db6db6; 0xc4924924;
   0x92492492; 0x1f1f00; 0x12492490; 0x24924921; 0xb6db6db4; 0x92492491; 0x2482492d; 0xb6496da4;
   0x90012489; 0x2002496d; 0xb24b6d24; 0x80092449; 0x124b6d; 0x925b6924; 0x82492249; 0x925b6c;
   0x92db4920; 0x2491200; 0x92d924; 0x92da4820; 0x12489240; 0x2496db65; 0xb6d24924; 0x92449048;
   0x24b6c964; 0xb6920120; 0x12201240; 0x25b25b64; 0xb4924924; 0x91249249; 0x2db6db6d; 0x84924924;
   0x80000000; 0x1a1d02; 0x92400012; 0x40000000; 0x24900; 0x490000; 0x9; 0x24000124;
   0x0; 0x249000; 0x4900000; 0x92; 0x49241249; 0x24800000; 0x2492492; 0x49249242;
   0x49248124; 0x92482492; 0x48090000; 0x4924900; 0x92490024; 0x92001249; 0x20024924; 0x924900;
   0x49248009; 0x24900000; 0x202000; 0x9249248; 0x5b6db6d8; 0xb6db6db6; 0x5b6db6db; 0x5b6db6db;
   0xb6db6db6; 0x5b6db6db; 0x5b6db6db; 0xb6db6db6; 0x5b6db6db; 0x402cb2c3; 0x925965b2; 0x410cb0c3;
   0x4b0cb0c3; 0xb6c964b2; 0x5b04a043; 0x5b840043; 0xb6cb6496; 0x5b04064b; 0x5b04060f; 0xb64b2c96;
   0x410c160b; 0x402e160b; 0xb25b2d96; 0x5b6db6db; 0x5f6db6db; 0xb6db6db6; 0x5b6db6db; 0x5b6db6db;
   0xb6db6db6; 0x5b6db6d8; 0x9249248; 0x1f1e01; 0x2400; 0x5b000; 0xc9000; 0x190000;
   0x16d8000; 0x3250000; 0x6480000; 0x5b600000; 0xc9440001; 0x92010016; 0xd8240032; 0x50240064;
   0x804101b6; 0x9640094; 0x8240120; 0x10412d82; 0x19646402; 0x820c020; 0x10434092; 0x196b0082;
   0x8360020; 0x10580092; 0x19580082; 0x8b00020; 0x10c00092; 0x1ac00082; 0xd800000; 0x16000000;
   0x16000000; 0x0; 0x1f1d02; 0x12400000; 0x80000000; 0x4800000; 0x12000004; 0x12000000;
   0x0; 0x20; 0x0; 0x0; 0x36100; 0xbc000; 0x7c100; 0x4b0800;
   0x5f0000; 0x924925; 0xb6d94924; 0x92489240; 0x24924; 0x92424924; 0x92400000; 0x24924;
   0x92124924; 0x90000000; 0x124924; 0x80124924; 0x0; 0x924920; 0x100100; 0x0;
   0x1e1d02; 0x20800000; 0x1000000; 0x4000008; 0x24000002; 0x40000000; 0x200; 0x0;
   0x0; 0x8000; 0x4800000; 0x9000000; 0x200001; 0x20000012; 0x40000049; 0x925b6db;
   0x92492492; 0x49200002; 0x49249204; 0x92492400; 0x92; 0x49248124; 0x92480000; 0x2492;
   0x49004924; 0x92000000; 0x12492; 0x20004; 0x0; 0x1f1d02; 0x24800000; 0x20800000;
   0x1000001; 0x4800001; 0x4800000; 0x8; 0x8; 0x0; 0x40; 0x2c040;
   0x2c000; 0x7c2c0; 0x16c200; 0x160000; 0x249249; 0x6db69249; 0x24902490; 0x9249].
Definition emoji_data_114 : list N :=
  [0x24909249; 0x24800000; 0x49249; 0x24049249; 0x24000000; 0x249249; 0x20249249; 0x0;
   0x249248; 0x200040; 0x0; 0x1f1d02; 0x12400000; 0x80000000; 0x4800000; 0x12000004;
   0x12000000; 0x0; 0x20; 0x0; 0x0; 0x36100; 0xb4000; 0x17c100;
   0x5b0800; 0xdb0000; 0x924925; 0xb6d94924; 0x92489240; 0x24924; 0x92424924; 0x92400000;
   0x24924; 0x92124924; 0x90000000; 0x124924; 0x80124924; 0x0; 0x924920; 0x100100;
   0x0; 0x1e1d02; 0x20800000; 0x1000000; 0x4000008; 0x24000002; 0x40000000; 0x200;
   0x0; 0x0; 0x8000; 0x7800000; 0x1f000000; 0x7c200003; 0x78000017; 0xc0000049;
   0x925b6db; 0x92492492; 0x49200002; 0x49249204; 0x92492400; 0x92; 0x49248124; 0x92480000;
   0x2492; 0x49004924; 0x92000000; 0x12492; 0x20004; 0x0; 0x1f1d02; 0x24800000;
   0x20800000; 0x1000001; 0x4800001; 0x4800000; 0x8; 0x8; 0x0; 0x40;
   0x4040; 0x24000; 0x482c0; 0x124200; 0x120000; 0x249249; 0x6db69249; 0x24902490;
   0x9249; 0x24909249; 0x24800000; 0x49249; 0x24049249; 0x24000000; 0x249249; 0x20249249;
   0x0; 0x249248; 0x200040; 0x0; 0x1f1d02; 0x12400000; 0x80000000; 0x4800000;
   0x12000004; 0x12000000; 0x0; 0x20; 0x0; 0x0; 0x100; 0x0;
   0x100; 0x800; 0x0; 0x124925; 0xb6d94924; 0x92489240; 0x24924; 0x92424924;
   0x92400000; 0x24924; 0x92124924; 0x90000000; 0x124924; 0x80124924; 0x0; 0x924920;
   0x100100; 0x0; 0x202000; 0x9249248; 0x5b6db6d8; 0xb6db6db6; 0x5b6db2db; 0x5924b05b;
   0xb24965b6; 0x5800b24b; 0x58003203; 0xb6db6496; 0x5b6db60b; 0x5801b203; 0xb2496c96; 0x5801b60b;
   0x5805b603; 0xb64b6c96; 0x5b6db65b; 0x5b65b6db; 0xb6496cb6; 0x5b00b05b; 0x5980107b; 0xb2c924b6;
   0x586002db; 0x583082db; 0xb2596db6; 0x580db6db; 0x5807b6db; 0xb24b6db6; 0x5801b6db; 0x5801b6db;
   0xb64b6db6; 0x5b6db6d8; 0x9249248; 0x1f2000; 0x12492490; 0x6db6db6d; 0xb6db6db4; 0x925b6db8;
   0x16db6c; 0x925b6dac; 0x925b6ddb; 0x6db6db64; 0x96db6d60; 0x6db6ec0; 0xdb6db24; 0xb6db6b20;
   0xb6db76cb; 0x6db6db6d; 0xb6db5b24; 0xb6dbb601; 0x6dc2cb24; 0xb6cacb00; 0xb60d1601; 0x6e164b25;
   0xb6560b61; 0xb06816c1; 0x70b24b6d; 0xb2b00b6d; 0x83401600; 0x5925b24; 0xb5925924; 0xbb6db6db;
   0x6db6db6d; 0x8db6db6d; 0x89249248; 0x1f2000; 0x49249248; 0xb6db6db2; 0xdb6db6de; 0xdb24b6cd;
   0xb601ed96; 0xd96db6f6; 0xd965b66c; 0x82432cb2; 0xc924b7a2; 0xc3384; 0x186596; 0x4925bd10;
   0x619c20; 0xc32cb2; 0x492de880; 0x30ce100; 0x6196592; 0x496f4400; 0x18670800; 0x30cb2c92;
   0x4b7a2000; 0xc3364001; 0x965b6db6; 0xdbdb6db6; 0xd9800000; 0x12c92592; 0x5e596592; 0xcdb6db6d;
   0x96db6db6; 0xd6db6db6; 0x4924920; 0x202000; 0x9249248; 0x5b6db6d8; 0xb6db6db6; 0x5b6d92db;
   0x5bc013db; 0xb6c92db6; 0x5b6192db; 0x5b6d82db; 0xb6db6db6; 0x4924924b; 0x40008003; 0x96db6db2;
   0x4b6c16db; 0x4b709ed3; 0x96db6db2; 0x4b2096db; 0x4b200453; 0x96592cb2; 0x4b20065b; 0x4b200453;
   0x96592cb2; 0x4b20065b; 0x4b200453; 0x96592cb2; 0x4b20065b; 0x4b200453; 0x96db6db2; 0x4b6db6db;
   0x40000003; 0xb2492496; 0x5b6db6d8; 0x9249248; 0x1d1f00; 0x8000002; 0x40000024; 0x80000092;
   0x490; 0x4900; 0x12400; 0x92000; 0x924000; 0x2480000; 0x2000000; 0x20124000;
   0x82db0000; 0x9249004b; 0x6db6016d; 0xb6d80924; 0x9240b6db; 0x6c02db6d; 0xb2924924; 0x936db6db;
   0x25b6db24; 0x24924922; 0xdb6db609; 0x24924049; 0x249225b6; 0xdb6c96db; 0x6c8096db; 0x640b2492;
   0x58200001; 0x0; 0x1f150b; 0x2; 0x8; 0x8; 0x410; 0x9249642;
   0x49249e44; 0x92483cb6; 0xdb6cb6b6; 0xdb64b324; 0x924905b6; 0xdb649492; 0x49249924; 0x92002db6;
   0xdb24adb6; 0xdb24c924; 0x92496db6; 0xdb6d6db6; 0xdb6e0000; 0xb0000; 0x200000; 0x200000;
   0x1f130c; 0x6; 0x0; 0x0; 0x2492430; 0x92492409; 0x2490092d; 0xb6d92ded;
   0xb6d92449; 0x2492416d; 0xb6c92f24; 0x92492249; 0x24804b6d; 0xb6497b6d; 0xb6491249; 0x24925b6d;
   0xb6dbdb6d; 0xb6d80000; 0x20000; 0x180000; 0x20140c; 0x2; 0x3; 0x2c1;
   0x4925a2; 0x92492c3; 0x92492e9; 0xb6db6db6; 0x5b6db2db; 0x49249241; 0xb6db6492; 0x4924924b;
   0x49249001; 0xb6db6c92; 0x5b6db24b; 0x49249249; 0xb6db6db6; 0x5b6db6db; 0x40000001; 0x80000002;
   0x40000000; 0x1f150b; 0x2; 0x8; 0x8; 0x410; 0x924b642; 0x4925b644;
   0x92493cb6; 0xdb6db6b6; 0xdb65b324; 0x924905b6; 0xdb649492; 0x49249924; 0x92002db6; 0xdb24adb6;
   0xdb24c924; 0x92496db6; 0xdb6d6db6; 0xdb6e0000; 0xb0000; 0x200000; 0x200000; 0x1f130c;
   0x6; 0x0; 0xe00; 0x2496c30; 0x924b7c09; 0x2492f92d; 0xb6db6ded; 0xb6dbe449;
   0x2492416d; 0xb6c92f24; 0x92492249; 0x24804b6d; 0xb6497b6d; 0xb6491249; 0x24925b6d; 0xb6dbdb6d;
   0xb6d80000; 0x20000; 0x180000; 0x20140c; 0x2; 0x3; 0x1; 0x492482;
   0x9249243; 0x9249049; 0xb6db64b6; 0x5b6db25b; 0x49249241; 0xb6db6492; 0x4924924b; 0x49249001;
   0xb6db6c92; 0x5b6db24b; 0x49249249; 0xb6db6db6; 0x5b6db6db; 0x40000001; 0x80000002; 0x40000000;
   0x1e2000; 0x1200; 0x12400; 0x41000; 0x201000; 0x2002; 0x8008092; 0x50010100;
   0x80080002; 0x1b242036; 0xdb62006d; 0xb6c001bf; 0xff5b2db6; 0xd9b6db6d; 0xb6db6fff; 0xf6db6db6;
   0x6db6db6d; 0xb6dbfffd; 0xb6db6d9b; 0x6db6db6d; 0xb6ffff6d; 0xb6db66db; 0x6db6db6d; 0xbfffdb6d;
   0xb6d9b6db; 0x6db6db6f; 0xfff6db64; 0x926db6c0; 0x1b6db00; 0xdb6d800; 0x9249000; 0x1d1906;
   0x10000; 0x240000; 0x1200000; 0x12400002; 0x49000092; 0x49000924; 0x92002492; 0x40012492;
   0x124924; 0x492480; 0x2492400; 0x24924804; 0x92492024; 0x92490249; 0x24920924; 0x92400024;
   0x2c0; 0x124b24; 0x80924924; 0x5b6db6d9; 0x6db6db69; 0x249249b6; 0xdb6db000; 0x20140c;
   0x2; 0x3; 0x1; 0x2; 0x3; 0x49; 0x800001b6; 0x400002cb;
   0x49249241; 0xb6db6db6; 0x4924924b; 0x49249249; 0xb6db6db6; 0x5b6db6db; 0x49249249; 0xb6db6db6;
   0x5b6db6db; 0x40000001; 0x80000002; 0x40000000; 0x1f2000; 0x24924924; 0x6db6db6c; 0xdb60b6db;
   0x6d925b6b; 0x6c105b76; 0xc82416db; 0x25b65b59; 0xcb60bb0; 0x582c06db; 0x64b65adb; 0x60b6ddb6;
   0xc16db6db; 0x25b6d6db; 0x2d96edb0; 0x582db6c9; 0x2cb6b6c0; 0x21b76c80; 0x36db649; 0x2db5b00b].
Definition emoji_data_115 : list N :=
  [0x2dbb6016; 0xdb6db25b; 0x6dad805b; 0x6ddb00b6; 0xdb6d925b; 0x6d6d805b; 0x6ed90036; 0xdb6492db;
   0x6b6000db; 0x66c001b6; 0xcb6db6db; 0x9249248; 0x1d1d02; 0x249000; 0x2db6000; 0x5b6d8003;
   0xfffc002d; 0xb6d805b6; 0xdb603fff; 0xff02db6d; 0xb65b6db6; 0xdaffffff; 0xedb6db6c; 0xb6db6db5;
   0xffffffdb; 0x6db6d96d; 0xb6db6bff; 0xffffb6db; 0x6db2db6d; 0xb6d7ffff; 0xff6db6db; 0x65b6db6c;
   0x87ffffe0; 0x5b6db601; 0x6db6c801; 0xfffe0016; 0xdb60005b; 0x6c800049; 0x20000492; 0x0;
   0x1b1d02; 0x120; 0x5800; 0xc0000; 0x1000000; 0x60000004; 0x9249206; 0xdb6db064;
   0x92c80c92; 0x59016db6; 0xd832d964; 0x2412c80; 0xb6db600b; 0x6db60124; 0x92405b6d; 0xb005b6db;
   0x20; 0x100; 0x3000; 0x36db; 0x6d81ec9e; 0xc0318318; 0xb203200; 0xf60f601f;
   0x80f800b0; 0xb000000; 0x1d1e02; 0x40000; 0x2d00000; 0x9000000; 0x48000004; 0xa0000002;
   0x18; 0x160; 0x400; 0x6800; 0x2c000; 0x1f0000; 0xf80000; 0xd800000;
   0xb6000004; 0x9000005b; 0x60000b7d; 0x80005fec; 0x1b6d0; 0x964b00; 0x4924900; 0x5b6db601;
   0x6db6c009; 0x249205b6; 0xdb6c96db; 0xedb0b6df; 0x6d8b6db6; 0xdb249249; 0x24000000; 0x1d1d03;
   0x10000; 0x0; 0x0; 0x12400000; 0x48000000; 0x8000124; 0x90000492; 0x40000412;
   0x124924; 0x492490; 0x2080081; 0x24924904; 0x92492000; 0x1249; 0x24924924; 0x92484924;
   0x920db6db; 0x6c365b25; 0x8092ff24; 0x1b6db6d8; 0x64bfc903; 0x25fe4836; 0xdb6db0c9; 0x7f92064b;
   0xfc906db6; 0xdb609249; 0x24000000; 0x202000; 0x12492490; 0x5b6db6d8; 0x5b65b6da; 0xb6cb65b6;
   0x5b6582db; 0x5b0182db; 0xb6cb65b6; 0x5b65b2db; 0x5b6db2db; 0xb2492496; 0x4124924b; 0x436db6c3;
   0xb6db6db6; 0x4b2cb2cb; 0x430c3043; 0xb6592cb6; 0x4b2c304b; 0x400c1043; 0xb64924b6; 0x480c104b;
   0x400c1043; 0xb64924b6; 0x4b2cb24b; 0x430cb243; 0xb6592cb6; 0x4b2cb24b; 0x436cb243; 0xb6db6db6;
   0x4124924b; 0x5800000a; 0x36db6db6; 0x9249248; 0x1f1e00; 0x824000; 0x486c000; 0x900b000;
   0x582d800; 0x482d800; 0x901b018; 0x2c06d848; 0x2406d812; 0x480db0db; 0x6cb6d849; 0x2096d892;
   0x4925b05b; 0x6d86c009; 0x24060002; 0x480c000b; 0x6c100009; 0x20000012; 0x480002db; 0x6c000249;
   0x20000482; 0x4800b60b; 0x6c009009; 0x20012002; 0x482d800b; 0x6c240009; 0x20480002; 0x3600009;
   0x61000009; 0x2000002; 0x0; 0x1c1d01; 0x2492400; 0x92c9200b; 0x7c92036d; 0xb6d85b6c;
   0x9245b6c9; 0x24b6db6d; 0x95b6c924; 0x5b6c924b; 0x6db6d95b; 0x6c9245b6; 0xc924b6db; 0x6d95b6c9;
   0x245b6c92; 0x4b6db6d9; 0x5b6c9241; 0xb6c92416; 0xdb6d81b6; 0xc9240b6c; 0x92016db6; 0xc80b6c92;
   0x36c920; 0x2db6c00; 0x16c90000; 0x3c900005; 0xb2000024; 0x80000000; 0x141f01; 0x80006db;
   0x6d6db6d5; 0xb6db6db6; 0xc249245b; 0x6db6db6c; 0x249245b6; 0xdb6db6c6; 0xdb6ddb6d; 0xb6db6c24;
   0x9245b6db; 0x6db6c249; 0x245b6db6; 0xdb6d6db6; 0xd5b6db6d; 0xb6c24924; 0x5b6db6db; 0x6c249245;
   0xb6db6db6; 0xc6db6d49; 0x24900000; 0x201f01; 0x12492492; 0x48249248; 0x40049248; 0x92492492;
   0x40049249; 0x40049248; 0x92492492; 0x49249249; 0x49249248; 0x92db6d92; 0x4965b649; 0x49249248;
   0x92db6d92; 0x492492c9; 0x49249248; 0x92492492; 0x4b2db2c9; 0x492c9248; 0xb6db6db6; 0x492db649;
   0x49249648; 0xb6db6db6; 0x496d9649; 0x49649248; 0xb6db6db6; 0x4965b6c9; 0x4b2492c8; 0xb6db6db6;
   0x4b6db6c8; 0x4f249268; 0x12492490; 0x1f1f01; 0x24924924; 0x24924924; 0x48249249; 0x24924929;
   0x924922; 0x249249; 0x24924948; 0x924912; 0x49249249; 0x24924a49; 0x24924892; 0x49249249;
   0x2492d249; 0x2496e492; 0x4924b6d9; 0x2db6925b; 0x6c922492; 0x4925b6db; 0x6db49249; 0x24912492;
   0x492db6db; 0x6da4b249; 0x64892492; 0x496db6db; 0x6d2c9249; 0x64492492; 0x4b6db6d9; 0x612db6d9;
   0x22492492; 0x49249249; 0x0; 0x1f130d; 0x2000; 0x90002001; 0x6000c805; 0x80492484;
   0x92492489; 0x2492480d; 0xb6db6024; 0x92492049; 0x2492496d; 0xb6db6d24; 0x92492249; 0x24924b6d;
   0xb6db6924; 0x92491249; 0x24925b6d; 0xb6db4924; 0x92489249; 0x24924924; 0x92480000; 0x1f1e01;
   0x6000c00; 0x10002c00; 0x6000f801; 0xb0c36c05; 0x90cb6001; 0x43e4004; 0x90db0004; 0xb2d80001;
   0x2f900005; 0xb6c00064; 0xb6800043; 0xfe00006d; 0xb400002d; 0xb00000ff; 0xa000036d; 0x90000b6c;
   0x90003e40; 0xdb04; 0x9002d800; 0x90479000; 0x1d6c000; 0x96d60000; 0x96840000; 0x6c000001;
   0xb0000005; 0xb000001f; 0x6c; 0x8000006c; 0x40; 0x0; 0x1f1c04; 0x4000000;
   0x2c804800; 0x48008001; 0x24924061; 0x24924100; 0x1248201; 0x24924b01; 0x4924802; 0x1201000;
   0x5925800; 0xc804000; 0x9000000; 0x5004000; 0x4000000; 0x0; 0x9249; 0x24932492;
   0x49249249; 0x24909249; 0x24900000; 0x49249; 0x24849249; 0x24892492; 0x496db6db; 0x6d6db6db;
   0x6e492492; 0x49249249; 0x20000000; 0x1f1f01; 0x80; 0x80; 0x100; 0xb0500;
   0x82400; 0x100800; 0x2492400; 0x12492000; 0x24900865; 0xb2492164; 0x92400000; 0x24000924;
   0xb6000920; 0x12000040; 0x24000100; 0x92000000; 0x0; 0x0; 0x24924; 0x92449249;
   0x24924924; 0x92524924; 0x92000000; 0x924924; 0x92924924; 0x91249249; 0x25b6db6d; 0xbdb6db6d;
   0x89249249; 0x24924924; 0x80000000; 0x201e01; 0x580000; 0x240000; 0x240000; 0x2db0000;
   0x1248200; 0x1248240; 0x2d92580; 0x1249240; 0x240000; 0x4b2480; 0x249200; 0x0;
   0x92480; 0x49200; 0x40; 0x492590; 0x249248; 0x240248; 0x592cb2; 0x8241249;
   0x48240248; 0x80480596; 0x49040248; 0x40000040; 0x24000b0; 0x1200040; 0x0; 0x12000000;
   0x9200000; 0x1000000; 0x1f1a06; 0x2000000; 0xa001000; 0x8009000; 0x2002; 0x4925b006;
   0xdb6db004; 0x92492016; 0xdb6d8036; 0xdb6d8024; 0x92490092; 0x49249092; 0x49248124; 0x924805b6;
   0xdb6c05b6; 0xdb600924; 0x92496db6; 0xdb6d2492; 0x49244924; 0x924b6db6; 0xdb692492; 0x49224924;
   0x925b6db6; 0xdb492492; 0x49124924; 0x92492492; 0x48000000; 0x201f01; 0x2c0; 0xb60;
   0xf00; 0x3600; 0x100; 0x100; 0x200; 0x100; 0x100; 0x0;
   0x0; 0x0; 0x40; 0x0; 0x0; 0x40; 0x20; 0x20;
   0x40; 0x20; 0x120; 0x5b0002c0; 0x24800120; 0x3c80012c; 0x5b4006db; 0x6d92496e;
   0x649248ee; 0xdb6db6db; 0x6d00006c; 0x3c00007c; 0x18000058; 0x1e1808; 0x2000; 0xc000;
   0x18000; 0xb0000; 0x2f0000; 0x16c0000; 0x2c00000; 0x1800d90; 0xb001fe0; 0x14007fc0].
Definition emoji_data_116 : list N :=
  [0x780b6c00; 0xc016d801; 0x807fe006; 0x6db00b6; 0x2db6016c; 0xfffd2ff9; 0xb6db6dbb; 0x6db6d98c;
   0xffffe66d; 0xb6cb6cdc; 0x6e1e0; 0x1f0300; 0x180000; 0x1f120e; 0x10000; 0x0;
   0xb00800b1; 0xb6492db3; 0xfcffffe5; 0xb6db6d85; 0x96db6c09; 0x2492496c; 0xb6db6d24; 0x92492449;
   0x24924b6d; 0xb6db6924; 0x92492249; 0x24925b6d; 0xb6db4924; 0x92491249; 0x24924924; 0x92480000;
   0x1f1709; 0x1200000; 0x2db00000; 0x2db00002; 0x4924000b; 0x6db6000b; 0x6db60006; 0x4924005b;
   0x6db600c9; 0x6cb001f0; 0x496802d9; 0x6cb00a7b; 0x64b0403e; 0xc03c925b; 0x2496124f; 0x24b20007;
   0x300924b; 0x6c92924b; 0xe4900002; 0x40049249; 0x24949249; 0x24800000; 0x49249; 0x24000000;
   0x1f1c04; 0x92480; 0x92480; 0x924820; 0x2db64b0; 0x12492480; 0x24920104; 0xb6c92484;
   0x92492400; 0x4964; 0x924b6d24; 0x92496249; 0x2492c36d; 0xb2db0124; 0x92d80249; 0x25800b6d;
   0xb640016d; 0x92400048; 0x124; 0x92400124; 0x92000000; 0x924; 0x92000924; 0x92000000;
   0x4924; 0x92004924; 0x90000000; 0x24924; 0x90000000; 0x1e1d01; 0x8000000; 0xbc000003;
   0xf8000016; 0xd800006d; 0xe00001ff; 0xc0000db2; 0xc0001b27; 0x7c9e; 0x16db6; 0x2d978;
   0x12ff0; 0x5b6db0; 0xb6dbc0; 0x25fff80; 0x165b6d80; 0xb6de00; 0xfffc00; 0x2db6c00;
   0x5b27000; 0x7c9e000; 0x16db6000; 0x2d97c000; 0x12ff0005; 0xb6d8000b; 0x6db00024; 0xff000165;
   0xb4000001; 0x20000000; 0x1f1a06; 0x12492400; 0x24924800; 0x92492400; 0x92492001; 0x20004804;
   0x90406004; 0x80012009; 0x24024; 0x2036124; 0x90048; 0x120360; 0x301b0b60; 0x205a16c0;
   0x40b01b60; 0xb0d85b61; 0xb2d8b2c3; 0xe590db05; 0x86dadb0d; 0x96dcfe1f; 0x2dc6db6d; 0xb6d65b6d;
   0xb2ccf249; 0x2596c000; 0xb61e0000; 0xbc040000; 0x20000000; 0x1f140b; 0x36c00; 0xb6800;
   0x1e1800; 0x192000; 0x592000; 0xe04024; 0x92db6024; 0x92db6c49; 0x27fff96d; 0xb6db616d;
   0xb6db63ff; 0xffffc36d; 0xb6db0bfd; 0xb6fb07ff; 0xffbe4b6d; 0xb6590960; 0x1ac01ac0; 0x35801b00;
   0x36001800; 0x10000000; 0x1f1e01; 0xb000; 0x2d900; 0x2c900; 0x59200; 0x164900;
   0x164900; 0x3c9000; 0xb24800; 0x1924000; 0x7248000; 0x2d924000; 0x6c924002; 0xc924801b;
   0x64920059; 0x249200b2; 0x49241249; 0x24b61249; 0x25bc2492; 0x5ff0924b; 0x6db1b6df; 0xf83fff0;
   0xf0db6db; 0x6da59249; 0x24492400; 0x4965b001; 0x6d25f003; 0xe00ba003; 0xc02d800b; 0x60040009;
   0x0; 0x1f1f00; 0x12000; 0x124000; 0x2db6c00; 0x12492400; 0x24924800; 0xb6db6c04;
   0x92492409; 0x2492482d; 0xb6db6c24; 0x92492049; 0x2492436d; 0xb6db6124; 0x92492249; 0x24925b6d;
   0xb6db4924; 0x92491249; 0x2492db6d; 0xb6da4924; 0x92489249; 0x2496db6d; 0xb6c24924; 0x92449249;
   0x2416db6d; 0xb6124924; 0x90049249; 0x2016db6d; 0x80124924; 0x49248; 0x16db60; 0x24900;
   0x0; 0x1f1e01; 0x48000; 0x924800; 0x4924800; 0x9249001; 0x24924801; 0x24924802;
   0x49249009; 0x24924849; 0x24924892; 0x49249249; 0x24924249; 0x24924492; 0x49249249; 0x24925249;
   0x24922492; 0x49249249; 0x24929249; 0x24912492; 0x49249249; 0x24849249; 0x24812492; 0x48049249;
   0x24049249; 0x20092492; 0x40249249; 0x49248; 0x92490; 0x49240; 0x49200; 0x0;
   0x201f00; 0x48000; 0x49000; 0x5b6c80; 0x1249240; 0x1249240; 0x6db6db0; 0x9249248;
   0x9249248; 0x16db6db0; 0x9249248; 0x9249248; 0x36db6db6; 0x49249248; 0x49249248; 0xb6db6db6;
   0x49249249; 0x49249248; 0xb6db6db6; 0x49249249; 0x49249248; 0x36db6db6; 0x49249248; 0x9249248;
   0x16db6db0; 0x9249248; 0x9249240; 0x6db6db0; 0x1249240; 0x1249200; 0x5b6c80; 0x249000;
   0x1f1f00; 0x12000; 0x124800; 0x2db6c00; 0x12492400; 0x24924800; 0xb6db6c04; 0x92492409;
   0x2492482d; 0xb6db6c24; 0x92492049; 0x2492436d; 0xb6db6124; 0x92492249; 0x24925b6d; 0xb6db4924;
   0x92491249; 0x2492db6d; 0xb6da4924; 0x92489249; 0x2496db6d; 0xb6c24924; 0x92449249; 0x2416db6d;
   0xb6124924; 0x90049249; 0x2016db6d; 0x80124924; 0x49248; 0x16db60; 0x24900; 0x0;
   0x1f2000; 0x48000; 0x492000; 0xb6db000; 0x1b6db000; 0x92492402; 0xdb6db006; 0xdb6db004;
   0x92492036; 0xdb6db0b6; 0xdb6db124; 0x924925b6; 0xdb6dadb6; 0xdb6d8924; 0x92492db6; 0xdb6dedb6;
   0xdb6c4924; 0x92496db6; 0xdb6f6db6; 0xdb624924; 0x924b6db6; 0xdb4b6db6; 0xdb124924; 0x921b6db6;
   0xd81b6db6; 0xd0124924; 0x805b6db6; 0x5b6db6; 0x124920; 0x5b6d80; 0xb6c00; 0x24000;
   0x202000; 0x9249248; 0x7ffffffc; 0xb6db6db6; 0x5b6db6db; 0x7fffffff; 0xb6db6db6; 0x5b6db6db;
   0x7fffffff; 0xb6db6db6; 0x5b6db6db; 0x7fffffff; 0xb6db6db6; 0x5b6db6db; 0x7fffffff; 0xb6db6db6;
   0x5b6db6db; 0x7fffffff; 0xb6db6db6; 0x5b6db6db; 0x7fffffff; 0xb6db6db6; 0x5b6db6db; 0x7fffffff;
   0xb6db6db6; 0x5b6db6db; 0x7fffffff; 0xb6db6db6; 0x5b6db6db; 0x7fffffff; 0xb6db6db6; 0x5b6db6d8;
   0x9249248; 0x1f1f00; 0x12492490; 0x24924921; 0xb6db6db4; 0x92492491; 0x2492492d; 0xb6db6da4;
   0x92492489; 0x2492496d; 0xb6db6d24; 0x92492449; 0x24924b6d; 0xb6db6924; 0x92492249; 0x24925b6d;
   0xb6db4924; 0x92491249; 0x2492db6d; 0xb6da4924; 0x92489249; 0x2496db6d; 0xb6d24924; 0x92449249;
   0x24b6db6d; 0xb6924924; 0x92249249; 0x25b6db6d; 0xb4924924; 0x91249249; 0x2db6db6d; 0x84924924;
   0x80000000; 0x1f1f00; 0x9249240; 0x92492492; 0xdb6db6da; 0x49249244; 0x92492496; 0xdb6db6d2;
   0x49249224; 0x924924b6; 0xdb6db692; 0x49249124; 0x924925b6; 0xdb6db492; 0x49248924; 0x92492db6;
   0xdb6da492; 0x49244924; 0x92496db6; 0xdb6d2492; 0x49224924; 0x924b6db6; 0xdb692492; 0x49124924;
   0x925b6db6; 0xdb492492; 0x48924924; 0x92db6db6; 0xda492492; 0x44924924; 0x96db6db6; 0xd2492492;
   0x0; 0x1f1e01; 0x9249249; 0x24924925; 0x24924922; 0x49249249; 0x24924929; 0x24924912;
   0x49249249; 0x24924949; 0x24924892; 0x49249249; 0x24924a49; 0x24924492; 0x49249249; 0x24925249;
   0x24922492; 0x49249249; 0x24929249; 0x24912492; 0x49249249; 0x24949249; 0x24892492; 0x49249249;
   0x24a49249; 0x24492492; 0x49249249; 0x25249249; 0x22492492; 0x49249249; 0x21249249; 0x0;
   0x1f1f00; 0x12492490; 0x24924921; 0xb6db6db4; 0x92492491; 0x2492492d; 0xb6db6da4; 0x92492489;
   0x2492496d; 0xb6db6d24; 0x92492449; 0x24924b6d; 0xb6db6924; 0x92492249; 0x24925b6d; 0xb6db4924;
   0x92491249; 0x2492db6d; 0xb6da4924; 0x92489249; 0x2496db6d; 0xb6d24924; 0x92449249; 0x24b6db6d;
   0xb6924924; 0x92249249; 0x25b6db6d; 0xb4924924; 0x91249249; 0x2db6db6d; 0x84924924; 0x80000000].
Definition emoji_data_117 : list N :=
  [0x1f1f00; 0x9249240; 0x92492492; 0xdb6db6da; 0x49249244; 0x92492496; 0xdb6db6d2; 0x49249224;
   0x924924b6; 0xdb6db692; 0x49249124; 0x924925b6; 0xdb6db492; 0x49248924; 0x92492db6; 0xdb6da492;
   0x49244924; 0x92496db6; 0xdb6d2492; 0x49224924; 0x924b6db6; 0xdb692492; 0x49124924; 0x925b6db6;
   0xdb492492; 0x48924924; 0x92db6db6; 0xda492492; 0x44924924; 0x96db6db6; 0xd2492492; 0x0;
   0x202000; 0x9249248; 0x49249248; 0xb6db6db6; 0x5b6db6db; 0x49249249; 0xb6db6db6; 0x5b6db6db;
   0x49249249; 0xb6db6db6; 0x5b6db6db; 0x49249249; 0xb6db6db6; 0x5b6db6db; 0x49249249; 0xb6db6db6;
   0x5b6db6db; 0x49249249; 0xb6db6db6; 0x5b6db6db; 0x49249249; 0xb6db6db6; 0x5b6db6db; 0x49249249;
   0xb6db6db6; 0x5b6db6db; 0x49249249; 0xb6db6db6; 0x5b6db6db; 0x49249249; 0xb6db6db6; 0x5b6db6d8;
   0x9249248; 0x191e01; 0x2000002; 0x40000490; 0x20800; 0x2490000; 0x92400001; 0x4924;
   0x124800; 0x200009; 0x24800249; 0x20002000; 0x1249200; 0x49248004; 0x2492; 0x49492492;
   0x40920004; 0x92492924; 0x92480000; 0x924925; 0x24924900; 0x1249; 0x24849249; 0x20000000;
   0x49249002; 0x49200000; 0x1b1f01; 0x2000002; 0x48000092; 0x40000924; 0x10400; 0x492000;
   0x4920000; 0x2000024; 0x92000249; 0x900; 0x12c900; 0x1249000; 0x4000009; 0x24920092;
   0x49200248; 0x49049; 0x22492492; 0x1240002; 0x49249124; 0x92492000; 0x12492; 0x48924924;
   0x80000000; 0x92492489; 0x24924024; 0x480124; 0x92000040; 0x0; 0x192000; 0x2000004;
   0x80000240; 0x6d800; 0x4920002; 0x490002db; 0x60009240; 0x492000; 0x5b6c0012; 0xc9000924;
   0x800b6db0; 0x2492401; 0x2492016c; 0xb6c04924; 0x90248249; 0x2db6db29; 0x64924492; 0x4925b6db;
   0x6d249248; 0x924924b6; 0xdb6da492; 0x49124924; 0x96db6db4; 0x92492049; 0x24900b6d; 0xb0000900;
   0x1a2000; 0x2000002; 0xc00000b2; 0x5b60; 0x1b6c00; 0x2590003; 0x6d80016d; 0xb0004964;
   0x2db680; 0x5b6c001; 0x259000b6; 0xdb0016cb; 0x6004b249; 0x2db6db0; 0x5b0db612; 0xc1248b6c;
   0xb6d96db6; 0xdb496492; 0x6db6db6d; 0xb6db6d24; 0x9249b6db; 0x6d96db6d; 0xb4924926; 0xdb6db65b;
   0x6db6c249; 0x24b02db6; 0xc8001240; 0x1c2000; 0x400000; 0xb600000f; 0xe000016d; 0x80001b6c;
   0x1f7c0; 0x16da00; 0x1b6c000; 0x1bfc0003; 0x6db0005b; 0x6d8003bf; 0xd80036db; 0x6005b6db;
   0x7bedb0; 0x36cb6c0; 0x5b6db605; 0xbe5b6836; 0xcb6d85b6; 0xdb6c5bfd; 0xb6cb6db6; 0xdb5b6db6;
   0xc5b6db6c; 0x36db6db5; 0xb6db6c7b; 0x6db6c36d; 0xb6db1b6d; 0xb6c0bfdb; 0xfc02db6d; 0x80004900;
   0x192000; 0x2000004; 0x80000240; 0x25800; 0x4920000; 0x8000049; 0x20009240; 0x10000;
   0x49240012; 0x49000020; 0x92c90; 0x2492400; 0x4000124; 0x92404924; 0x90048000; 0x25924909;
   0x24924012; 0x49249; 0x25249248; 0x92; 0x4924a492; 0x49000000; 0x12492494; 0x92492040;
   0x100924; 0x90000900; 0x1e1a03; 0x4904920; 0x49209200; 0x9; 0x24924912; 0x49249000;
   0x249; 0x24926492; 0x49240000; 0x9249; 0x24992492; 0x49000000; 0x249249; 0x24492492;
   0x40000000; 0x9249248; 0x12492480; 0x0; 0x49249000; 0x92490000; 0x2; 0x49200004;
   0x92000000; 0x12; 0x40000004; 0x0; 0x1f1c02; 0x2400480; 0xb64b6c0; 0x5b60b6c0;
   0x92492482; 0xdb6db6c6; 0xdb6db6c4; 0x924924b6; 0xdb6db6b6; 0xdb6db624; 0x924925b6; 0xdb6db1b6;
   0xdb6db124; 0x924925b6; 0xdb6d8db6; 0xdb6d0924; 0x92482db6; 0xdb6c2db6; 0xdb600924; 0x92402db6;
   0xdb002db6; 0xd8000924; 0x90002db6; 0xc0002db6; 0x924; 0x2db0; 0xd80; 0x800;
   0x0; 0x1d1804; 0x9000; 0x0; 0x92492012; 0x49248000; 0x40004924; 0xb2492412;
   0x49000090; 0x924; 0x90002492; 0x40012480; 0x24924920; 0x92492480; 0x2490009; 0x24924004;
   0x92490004; 0x92000049; 0x24800124; 0x92000000; 0x9249; 0x24920; 0x0; 0x249200;
   0x1c1903; 0x10000; 0x490000; 0x24; 0x92400924; 0x92000248; 0x925924; 0x84824924;
   0x241200; 0x1b24900; 0x24924002; 0x4820925b; 0x64949249; 0x24002482; 0x25b649; 0x1249240;
   0x492000; 0x496c9002; 0x49240000; 0x492; 0x48002492; 0x40000000; 0x92480; 0x1d1903;
   0x12000; 0x248000; 0x9248005; 0xb6db0092; 0x49242492; 0x4922db6d; 0xb6c920b2; 0x48400492;
   0x4000db6d; 0x80016492; 0x9209249b; 0x6db6db24; 0x92d92424; 0x9249205b; 0x6db6012d; 0xb2480124;
   0x924016db; 0x6c004924; 0x80024924; 0xdb6d8; 0x124900; 0x924800; 0x1248000; 0x1f1903;
   0x12000; 0xb6400; 0x924800; 0x16db6c00; 0xb6db6c09; 0x2496482d; 0xb6db6c2d; 0x96db6c48;
   0x4964800; 0x16db6020; 0x36db6048; 0x2c96436d; 0xb6db4b6d; 0xb6db024b; 0x6492016d; 0xb6db006d;
   0xb6d8004b; 0x6c90016d; 0xb6c0016d; 0xb6c00049; 0x2480016d; 0xb600016d; 0xb6000249; 0x2000016d;
   0xb0000000; 0x1e1903; 0x4800; 0x2db000; 0x5b6d801; 0x6db6d816; 0xdb6da0db; 0x7ff6c6db;
   0x6db62db2; 0xdb6c300f; 0xfff0805b; 0x6db120be; 0xdb0d93ff; 0xec6db6db; 0x6cdb6fb6; 0xd16dfffb;
   0x416db6db; 0xdf6db4; 0x17ffec0; 0x36db6c0; 0x6db6c00; 0x1b6db000; 0x5b6da000; 0xb6db0000;
   0xdb6c0002; 0xdb600000; 0x1d1804; 0x49000; 0x0; 0x92492012; 0x49248000; 0x48004924;
   0x92492412; 0x49000012; 0x1925; 0x90002492; 0x2481; 0x24b24924; 0x92492480; 0x490009;
   0x6c924024; 0x92490004; 0x9200024b; 0x64800924; 0x90000000; 0x9249; 0x24920; 0x0;
   0x249000; 0x1f1f00; 0x90000; 0x492000; 0x924000; 0x12492400; 0x12492001; 0x24924804;
   0x92492404; 0x92492009; 0x24924024; 0x92492125; 0x9259224f; 0x24f2492d; 0x92c9092c; 0x96c91279;
   0x27924964; 0x96494924; 0x92489249; 0x24924924; 0x924a4924; 0x92449249; 0x24925b6d; 0x92124925;
   0x9224924b; 0x2096c924; 0x90924924; 0x81249249; 0xb24924; 0x924920; 0x1049200; 0x4124800;
   0x0; 0x1f2000; 0x12000; 0x92000; 0x924000; 0x12492400; 0x12492400; 0x24924804;
   0x92492404; 0x924b2409; 0x34964825; 0xb25b2024; 0xb2492049; 0xe4b2412d; 0x92c9292d; 0x9249125f;
   0x2792492c; 0x96494924; 0x96489249; 0x24924924; 0x924a5b24; 0xb6409edb; 0x7c825b6d; 0xb2425b2d;
   0x9204b20b; 0x2412592c; 0x90125864; 0x80049249; 0x12c964; 0x12c120; 0x48200; 0x2d900;
   0x4000; 0x1f1f00; 0x24000; 0x124000; 0x249000; 0x4924800; 0x24924800; 0x49249001;
   0x25964809; 0x2c964812; 0x792c904b; 0x6496c84b; 0x24964092; 0x4924824b; 0x25b2424b; 0x2592409e;
   0x4f24965b; 0x2d929259; 0x2c9204b2; 0x59249649; 0x24909649; 0x24912c92; 0x490496c9; 0x248496c9].
Definition emoji_data_118 : list N :=
  [0x24092792; 0x480496d9; 0x2004b6d9; 0x20092492; 0x249249; 0x49248; 0x12480; 0x49200;
   0x0; 0x1d1f01; 0x492000; 0x9248000; 0x49240024; 0x92490092; 0x49200492; 0x49205b24;
   0xb60bfc97; 0xf8f97ff2; 0xfd96db65; 0x925b6c92; 0xd3fb74cb; 0x2d96cb3c; 0xbed965e5; 0xd3cb36db;
   0x2db24b64; 0xb64a4924; 0x92649249; 0x24924924; 0x94b24964; 0x4964b649; 0x25b6c901; 0x2c864812;
   0x49248049; 0x20900249; 0x4800492; 0x48001249; 0x1240; 0x2400; 0x0; 0x1d1f01;
   0x492000; 0x1248000; 0x49248004; 0x92d90092; 0x5b640492; 0x49204b64; 0x92416c96; 0x480964ba;
   0x4096cb64; 0x92592c92; 0x92c92499; 0x24924924; 0x92492524; 0x92493249; 0x25924925; 0x924a496c;
   0x9244964b; 0x24924924; 0x90924924; 0x92db6c8; 0x24924901; 0x24924802; 0x4b6d8009; 0x24900009;
   0x24800096; 0xdb000049; 0x20000049; 0x90; 0x0; 0x1f1f01; 0x92400; 0x492400;
   0x0; 0x12492400; 0x12492400; 0x4800004; 0x92492404; 0x92492409; 0x24824; 0x92492524;
   0x92492009; 0x2492492d; 0x92d9292d; 0x96d9125b; 0x2db24924; 0x92494924; 0x92489249; 0x24904924;
   0x924a4924; 0x92409259; 0x2482496c; 0x92024b6c; 0x92049249; 0x20124924; 0x90024924; 0x80049249;
   0x124924; 0x24920; 0x9200; 0x4800; 0x0; 0x1e1e01; 0x259000; 0x25b2000;
   0x5b6db002; 0xdb6db005; 0xb6db0012; 0x492481b6; 0xdb6c0924; 0x92482412; 0x41216496; 0x4b624b21;
   0x82497c87; 0x89d965b6; 0x5892c860; 0x92402482; 0x16cb64b6; 0x24924920; 0x12492481; 0xb6db6c01;
   0x24924804; 0x2064; 0x92490041; 0x20120104; 0x82481b6d; 0xb6c0b6c9; 0x6d824924; 0x9276db6d;
   0xb66db6db; 0x6c924924; 0x80000000; 0x1f1f01; 0x492000; 0x492000; 0x4924800; 0x12492400;
   0x92492401; 0x24924804; 0xb64b2004; 0xb65b2009; 0x7cf64024; 0x92c92024; 0x92490049; 0x24920124;
   0x92490924; 0x92c90259; 0x2690092d; 0xb648092d; 0xb240125f; 0xa4825b2c; 0xb2c24924; 0x92409249;
   0x2412db2d; 0xb2d25925; 0x92049249; 0x2096d96d; 0x9692c92c; 0x90249249; 0xb6c36c; 0x960124;
   0x240240; 0x100100; 0x0; 0x131c04; 0x12000100; 0x9; 0x108008; 0x480;
   0x8400400; 0x24924; 0x24920080; 0x1249212; 0x49000000; 0x92494924; 0x80208249; 0x24a49240;
   0x12492; 0x52492000; 0x124901; 0x24800000; 0x200000; 0x131c04; 0x4000240; 0x80002;
   0x212002; 0x4000100; 0x10900102; 0x9248; 0x49248120; 0x82592424; 0x92400241; 0x24921249;
   0x20492092; 0x49492490; 0x4004924; 0x84924002; 0x249200; 0x49000000; 0x480000; 0x131d03;
   0x8000200; 0x200004; 0x416016; 0x10010200; 0x20b00b08; 0x812010; 0x5b258492; 0x4092486d;
   0xb6d24922; 0x4924b6db; 0x69249124; 0x925b6db4; 0x92489249; 0x2db6c249; 0x24492406; 0xdb202490;
   0x4900024; 0x0; 0x141d03; 0x8000160; 0xb0000; 0xa0081600; 0x60b00b0a; 0x816006;
   0xb00b0b2; 0x816db60; 0xb6db0b25; 0x836db65b; 0x6db492d8; 0x36db65b6; 0xdb492c8b; 0x6db65b6d;
   0xa49648b6; 0xdb65b6d8; 0x924816d; 0xb00b6c00; 0x12400240; 0x0; 0x131d03; 0x10000180;
   0x58008b; 0x30c00c; 0x2c00c580; 0x18600616; 0x4062d80c; 0x36db0b6d; 0xb1ffbe5b; 0x6d8db6d9;
   0xb6df6db6; 0xd6db6eff; 0xfdb6db6b; 0x6db76df6; 0xdb6db1b6; 0xda36fb05; 0xb6c05b6c; 0x16c0009;
   0x0; 0x131c04; 0x10000100; 0x9; 0x908008; 0x480; 0x48400400; 0x24924;
   0x24920010; 0x1649292; 0x49000804; 0x92494924; 0x81248249; 0x24a49240; 0x12492; 0x12492000;
   0x124901; 0x24800000; 0x1200000; 0x1e1c01; 0x4000; 0x48000; 0x0; 0x100000;
   0x200000; 0x0; 0x4800000; 0x9000000; 0x49; 0x24000092; 0x48000001; 0x1249;
   0x20002492; 0x40001240; 0x249249; 0x492490; 0x241000; 0x9249240; 0x12492400; 0x2;
   0x49249004; 0x92490000; 0x2492; 0x49224924; 0x92000000; 0x90092; 0x40000000; 0x1d1c01;
   0x10000; 0x40000; 0x0; 0x2400000; 0x8000000; 0x4; 0x80000012; 0x0;
   0x24924; 0x92490; 0x0; 0x4924900; 0x12492000; 0x92400009; 0x24920124; 0x92480124;
   0x80001249; 0x24024924; 0x90000100; 0x249248; 0x4924900; 0x92; 0x49249249; 0x24920000;
   0x12012; 0x48000000; 0x1f1d01; 0x16000; 0x10000; 0x20000; 0xb0000; 0x90000;
   0x120000; 0x1b0000; 0x90000; 0x120000; 0x125b0000; 0x92490001; 0x24920001; 0xb6db0004;
   0x92490009; 0x2492002d; 0xb6d80024; 0x92480049; 0x2490016d; 0xb6d80124; 0x92400249; 0x24800b6d;
   0xb6000924; 0x92009249; 0x2496db6d; 0xb0924924; 0x81249249; 0x4904b64; 0x900; 0x0;
   0x1f1d01; 0xc000; 0x2c000; 0x48000; 0x68000; 0x160000; 0x40000; 0x160000;
   0x160000; 0x248000; 0x24b6c000; 0x6db60000; 0x49248003; 0x6db6000b; 0x6db60012; 0x5b24005b;
   0x6db6005b; 0x6db40092; 0x592002db; 0x6db006db; 0x6db00492; 0xc90016db; 0x6d8016db; 0x6c012492;
   0x482db6db; 0x616db6db; 0x62492492; 0x324b6d8; 0x1240; 0x0; 0x1d1e00; 0x8000;
   0x1a0000; 0x600000; 0x3000000; 0x36000000; 0xd8000006; 0xc000002d; 0x800000b4; 0x5b0;
   0x165b60; 0xdb6d80; 0x6dbec00; 0x2db6d801; 0xb6db602f; 0xffdb02db; 0x6db00b6d; 0xb6c01fff;
   0xb601b6db; 0x6016db6d; 0x80b6ff6c; 0xb6db6c0; 0x2db6db09; 0xfdb6d5b6; 0xdb6db6db; 0x6db1b6db;
   0x6c0b24b6; 0xc0000048; 0x0; 0x1d1c02; 0x10000; 0x40000; 0x0; 0x2400000;
   0x9000000; 0x0; 0x90000002; 0x40000010; 0x24924; 0x92490; 0x0; 0x492c900;
   0x92492000; 0x9; 0x24920024; 0x92480124; 0x80009249; 0x24024924; 0x90004800; 0x249248;
   0x4924900; 0x92; 0x49248249; 0x24900000; 0x2; 0x40000000; 0x171d02; 0x2400012;
   0x48000400; 0x924800; 0x92400020; 0x249240; 0x24920001; 0x12492; 0x1249000; 0x8000924;
   0x90492480; 0x40000049; 0x24824924; 0x10000002; 0x49248249; 0x24800000; 0x12492412; 0x49240000;
   0x124920; 0x12490000; 0x1248; 0x124000; 0x181d02; 0x4920002; 0x41000008; 0x49200;
   0x12490010; 0x8002492; 0x924900; 0x10080024; 0x92009249; 0x100800; 0x24920192; 0x49040000;
   0x249209; 0x92492400; 0x2492; 0x48924920; 0x24; 0x92481249; 0x20000000; 0x24924012;
   0x49000000; 0x49200; 0x2480000; 0x171e01; 0x1200005; 0x80002490; 0x492001; 0x6db00924;
   0x80124900; 0x5b6d8049; 0x24009248; 0x2db6c02; 0x49200492; 0x4016db60; 0x924904a4; 0x9209b6db;
   0x2c924821; 0x249245b6; 0xdb049249; 0x924902d; 0xb6d82492; 0x40492481; 0x6db64124; 0x92004920].
Definition emoji_data_119 : list N :=
  [0x16d9000; 0x24800000; 0x172000; 0x200000; 0x40000b44; 0x5b2800; 0x924002db; 0x6012db40;
   0x249600b6; 0xdb01b6da; 0x164b005; 0xb6d80db6; 0xd00b2580; 0x2db6c16d; 0xb6834924; 0x136db65b;
   0x6db65a49; 0x248b6db6; 0xdb6db612; 0x49245b6d; 0xb05b6db0; 0x924920db; 0x6d80db6c; 0x924802;
   0xdb60005b; 0x1000; 0x1a2000; 0x200000; 0x8000025; 0x90002db6; 0xfef80; 0x1b6c004;
   0xb6d8017f; 0xbe00b6db; 0x16db60; 0x5fef802; 0xdb6c005b; 0x6d8017fb; 0xe00b6db0; 0x196db61b;
   0x5b6d86ad; 0xb6c365b6; 0xd9616db6; 0x58b6db6c; 0x16db6d05; 0xb6db00db; 0x6db05b6d; 0xb006db6c;
   0x36db600; 0x6db6c00b; 0x6d8001b6; 0xc00016c8; 0x8000; 0x171d02; 0x2400012; 0x48000400;
   0x924000; 0x92400020; 0x249200; 0x24920001; 0x12490; 0x1249000; 0x8000924; 0x80492480;
   0x40000049; 0x24124924; 0x10000002; 0x49248249; 0x24800000; 0x12492412; 0x49200000; 0x924900;
   0x92490000; 0x9248; 0x120000; 0x1f1306; 0x240; 0x0; 0x49240; 0x249200;
   0x12; 0x49249212; 0x49249200; 0x10492; 0x49249092; 0x49249000; 0x80492; 0x49249492;
   0x49248000; 0x2002492; 0x49240092; 0x49200000; 0x12; 0x49000000; 0x48000000; 0x1f1306;
   0x240; 0x0; 0x49240; 0x249240; 0x92; 0x49249212; 0x49249200; 0x12492;
   0x49249292; 0x49249000; 0x90492; 0x49249492; 0x49248000; 0x2402492; 0x4964a012; 0x49200000;
   0x12; 0x49200000; 0x49000000; 0x1f1306; 0x480; 0x920; 0x96d80; 0x492481;
   0x2492490d; 0xb6db6da4; 0x92496409; 0x2492486d; 0xb6db6d24; 0x92492449; 0x24924b6d; 0xb6db6924;
   0x92492249; 0x24925b6d; 0xb6d90824; 0x92400009; 0x24800025; 0xb6c00000; 0x92000000; 0x1f1405;
   0x80; 0x580; 0x4900; 0xb6d80; 0x25b6c09; 0x2492482d; 0xb6db6c6d; 0xb6db6c49;
   0x2496496d; 0xb6db6b6d; 0xb6db6249; 0x24964b6d; 0xb6db7b6d; 0xb6db1249; 0x24925b6d; 0xb6d8496d;
   0xb6c00049; 0x2480016d; 0xb6000005; 0xb6000000; 0x201505; 0x80; 0x2c0; 0x16c0;
   0x16db0; 0x25b6d8; 0x5b6db6d8; 0xb6db6db4; 0x5b6db6d8; 0x5b6db7dc; 0xb6db6db6; 0x5b6db6da;
   0x5b6dbffe; 0xb6db6db6; 0x5b6db6db; 0x5b6dbfda; 0xb6db6db6; 0x496db6c0; 0x2db6e0; 0x1b6db0;
   0xb6c0; 0x240; 0x1d1306; 0x200; 0x0; 0x2492000; 0x9248000; 0x44924;
   0x92592492; 0x49000000; 0x4092492c; 0x92492492; 0x40000483; 0x24924924; 0x92492480; 0x80249;
   0x24b24024; 0x92400000; 0x249; 0x24000024; 0x80000000; 0x1f1306; 0x9000000; 0x0;
   0x49240000; 0x49240000; 0x2; 0x49249252; 0x49249220; 0x80000092; 0x49249292; 0x49249004;
   0x492; 0x49249492; 0x49248004; 0x2492; 0x49248492; 0x49000000; 0x2492; 0x40002480;
   0x0; 0x1f1405; 0x2000000; 0x2000000; 0x0; 0x92480000; 0x92480001; 0x4;
   0x92492484; 0x92492401; 0x24; 0x92492524; 0x92492209; 0x924; 0x92492924; 0x92490008;
   0x964; 0x92490124; 0x92000000; 0x924; 0x80000920; 0x0; 0x1f1405; 0x4000000;
   0x4800000; 0x9200000; 0x6db20001; 0x24920002; 0x4924924b; 0x6db6db09; 0x64924912; 0x4924925b;
   0x6db6d849; 0x24924892; 0x492496db; 0x6db6d249; 0x24924492; 0x492492db; 0x6db60249; 0x24920492;
   0x480016db; 0x20001248; 0x0; 0x1f1406; 0x5900000; 0xdb00000; 0x49240000; 0x6db64021;
   0x6db6db62; 0x4924924b; 0x6db6db1b; 0x6db6db32; 0xc92492db; 0x6db6dadb; 0x6db6dc92; 0x492496db;
   0x6db6d6db; 0x6db6c4b6; 0x492482db; 0x6d9206db; 0x6c000492; 0x400016d9; 0x1200; 0x0;
   0x1f1406; 0x16c00000; 0x36c80000; 0x6db00001; 0xb6db2485; 0xb6db6d8f; 0x7db6db2d; 0xb6db6dad;
   0xb6db6c7f; 0xedb6d96d; 0xb6db6f6d; 0xb6db66ff; 0x6db6cb6d; 0xb6db7b6d; 0xb6db17ff; 0x6db60b6d;
   0xb6cb0b6d; 0xb00016db; 0x20005b6c; 0x800; 0x0; 0x1f1306; 0x2400000; 0x12400000;
   0x20000000; 0x92490000; 0x92492480; 0x4; 0xb2492484; 0x92492401; 0x20000024; 0x92492524;
   0x92492209; 0x925; 0x92492924; 0x92490048; 0x124; 0x92490124; 0x90000000; 0x924;
   0x0; 0x1c1606; 0x410000; 0x2400000; 0x24000124; 0x92484920; 0x92449200; 0x924924;
   0x94924924; 0x49200009; 0x24924949; 0x24924082; 0x1249; 0x24809249; 0x20000400; 0x249240;
   0x1249000; 0x410000; 0x49200002; 0x48000004; 0x90; 0x0; 0x131c03; 0x10000100;
   0x9; 0x20009000; 0x10000480; 0x480001; 0x24100; 0x24100000; 0x1249212; 0x49000804;
   0x92494924; 0x81240249; 0x24a49240; 0x12492; 0x12492000; 0x924901; 0x24800000; 0x1240000;
   0x131c03; 0x12000100; 0x9; 0x20009200; 0x90; 0x80000; 0x4800; 0x24100080;
   0x1249212; 0x49000820; 0x92494924; 0x80241249; 0x24a49240; 0x12492; 0x52492001; 0x124901;
   0x24800000; 0x1240000; 0x131d03; 0xc000240; 0x90006; 0xc0002400; 0x4800160; 0x120002;
   0xb040; 0x9200124; 0x80d96c24; 0x92449249; 0x6db61249; 0x224925b6; 0xdb492499; 0x2492db6d;
   0xa4924892; 0x482db642; 0x49200920; 0x2d80004; 0x0; 0x131d03; 0x10000320; 0x24000b;
   0x6000b000; 0x120005b0; 0x580009; 0x2c100; 0x2c300582; 0x436db6b6; 0xdb124925; 0xb6dbdb6d;
   0x896c92db; 0x6dedb6c4; 0x92496db6; 0xb6db6249; 0x24b6db0b; 0x6d802490; 0xb6c0012; 0x0;
   0x141d03; 0x160001b0; 0xf4001; 0x6c000b60; 0xf60006; 0xc0003400; 0x380006c; 0x800b4c00;
   0xbcf816cb; 0x61b6db1f; 0xffb36db6; 0x5b6db5ff; 0xffb6db6d; 0xb6db5bed; 0xab6db65b; 0x6d85b6d8;
   0x36db01b6; 0xd80b6c00; 0x6d800120; 0x0; 0x131c03; 0x4000240; 0x80002; 0x40002400;
   0x800120; 0x120000; 0x9000; 0x9200000; 0x80482424; 0x92400241; 0x24921249; 0x20492096;
   0x49492490; 0x4004924; 0x84924002; 0x249242; 0x49200000; 0x2480000; 0x1d1e01; 0x200000;
   0x0; 0x12000400; 0x40009000; 0x24; 0x80080; 0x1000000; 0x4804; 0x90012412;
   0x0; 0x124920; 0x2492400; 0x80000; 0x24924000; 0x92490000; 0x12049049; 0x24924924;
   0x92000024; 0x249249; 0x924924; 0x20000; 0x9249200; 0x24924000; 0x2; 0x49240009;
   0x24800000; 0x92; 0x0; 0x1c1e01; 0x1000000; 0x2; 0x40008012; 0x40000;
   0x400; 0x8012000; 0x40000000; 0x402080; 0x2492400; 0x820004; 0x92480024; 0x92400008;
   0x4924; 0x80024924; 0x8009; 0x4924949; 0x24924000; 0x49001249; 0x64901249; 0x24000480;
   0x249248; 0x1249240; 0x0; 0x49248002; 0x49200000; 0x92; 0x40000000; 0x1c1f00].
Definition emoji_data_120 : list N :=
  [0x400000; 0x2000000; 0x20004004; 0xb0020; 0x400200; 0x4005800; 0xb0020004; 0x200040;
   0x5904b00; 0x24924002; 0x4924005b; 0x6db00249; 0x24002492; 0x4005b6db; 0x249244; 0x824924b6;
   0x5b6db492; 0x49240924; 0x92416db6; 0xdb012492; 0x40124924; 0xdb6db0; 0x2492400; 0x24924005;
   0xb6d80024; 0x92400049; 0x20000964; 0x0; 0x1d2000; 0x400000; 0x1000000; 0x8000200;
   0xb0006006; 0x58010; 0x240160; 0x2c00580; 0xb002400; 0x4002c865; 0x800b25b6; 0x492480;
   0x1b6db00; 0x16db6c00; 0x92492003; 0x6db6002d; 0xb6da4024; 0x926d86db; 0x6cb65b6d; 0xb0924924;
   0x8b6db6d8; 0x5b6db60; 0x4b64900; 0x5b6db001; 0x6db6c009; 0x24900036; 0xdb6000db; 0x6c000249;
   0x5b0; 0x200; 0x1d2000; 0x200000; 0x5800100; 0x2c001802; 0xc001b00b; 0x60058;
   0x300180; 0x3401600; 0x2c00b001; 0x600364b6; 0x2cb6d8; 0x6dbec0; 0x6db6c00; 0x1b6db000;
   0xfbfd800d; 0xb6da2036; 0xdb6361f7; 0xfb36db6d; 0xb6db6db6; 0xc2dbeff6; 0x5b6db6c; 0x16db6d80;
   0x36ff6c01; 0x6db6d805; 0xb6db000d; 0xb6d800db; 0x6d80036d; 0xb0000b6d; 0x800016d8; 0x800;
   0x1c1f00; 0x400000; 0x2000000; 0x4; 0x90020; 0x400000; 0x4800; 0x90020004;
   0x0; 0x4904900; 0x20924000; 0x200049; 0x24900249; 0x24000402; 0x49249; 0x249240;
   0x402092; 0x49249492; 0x49240004; 0x12492; 0xc9012492; 0x40000800; 0x492490; 0x2492400;
   0x4; 0x92480004; 0x92000000; 0x124; 0x0; 0x1f1f01; 0x165800; 0x36d800;
   0x1eff001; 0x1b6d02b; 0x5b6c07e; 0xf6fc3db; 0x6db6db1b; 0x6db6db3f; 0xfb6ffc5b; 0x6db6d81b;
   0x6db6c01f; 0xfffc005b; 0x6db20049; 0x24920096; 0x4b240259; 0x2d901259; 0x2c9004f2; 0x792012c9;
   0x64809249; 0x24802492; 0x49009649; 0x6400964b; 0x24012c9e; 0x400496d9; 0x200496c9; 0x12492;
   0x49248; 0x49240; 0x2400; 0x9000; 0x0; 0x1f1f01; 0x92492091; 0xb24925b1;
   0x20000125; 0xb24925bd; 0x92492d89; 0x92c; 0xb24b2de4; 0xb24b2401; 0xe01e0125; 0x9259212d;
   0x9259200f; 0xf0092c; 0x92c92924; 0xb2490243; 0xe0904b2d; 0xb2d9592d; 0x9248121f; 0x482db2c;
   0x96c25924; 0x92409000; 0x24025925; 0x92025b6d; 0x90003ff8; 0x125b64; 0x80125b24; 0x80001200;
   0x124920; 0x24900; 0x0; 0x4000; 0x0; 0x201f01; 0x5b6c00; 0x249200;
   0x1249200; 0x2db6d80; 0x9249240; 0x9249240; 0x16db6db0; 0x9249248; 0x9249248; 0x36db6db6;
   0x497cbec8; 0x49fcbfc8; 0xb6db6db6; 0x496c9649; 0x49249248; 0xb6db6db6; 0x496c9649; 0x492c9648;
   0xb6db6db6; 0x492db248; 0x92ff248; 0x36db6db6; 0x92cb248; 0x92c9648; 0x16db6db0; 0x9249640;
   0x1249240; 0x2db6d80; 0x249200; 0x49000; 0x92000; 0x1e1f01; 0x249000; 0x92492002;
   0x49648016; 0xd9649024; 0x92490092; 0x4d248db6; 0xd9240925; 0xb2482493; 0xc9216c96; 0x4922d92c;
   0x924f6492; 0x49596496; 0x49b2c92c; 0x93c324fe; 0x564b25b6; 0x6c164b24; 0xf8192c95; 0xb2592c8b;
   0x60b2493f; 0x80c9216d; 0x92db62db; 0x59201fe; 0x82480b6d; 0x96d816db; 0x64804fff; 0x92005b6d;
   0xb60096c9; 0x20004904; 0x80004800; 0x0; 0x1f1f01; 0x492000; 0x2492400; 0x4924800;
   0x12492400; 0x92492401; 0x2493c804; 0xb64b6425; 0xb249640f; 0x2492c12c; 0x92492124; 0x92492249;
   0x2492492d; 0x92d9296d; 0x96c912cb; 0x24924924; 0x92494924; 0x92489249; 0x24924924; 0x92424924;
   0x92449249; 0x24824b6d; 0x9212496c; 0x920492c9; 0x20124924; 0x90124924; 0x80049248; 0x124924;
   0x124920; 0x49000; 0x24000; 0x0; 0x1e1c02; 0x12000; 0x248000; 0x1249000;
   0x12492000; 0x49248012; 0x49248024; 0x92490092; 0x49240496; 0x4b24096c; 0x964025d2; 0x79012d92;
   0xc9124925; 0x90492492; 0x46db6c92; 0x64924924; 0x92492491; 0xb6db2491; 0x24924900; 0x92492404;
   0x96c92009; 0x2d924004; 0x92c80024; 0x92480049; 0x24800024; 0x90000124; 0x80000048; 0x0;
   0x162000; 0x20000b; 0x6c00ffff; 0x7fffc36; 0xdb69ffbf; 0xc7fa7fad; 0x92db7924; 0xf9f002eb;
   0x6492da49; 0x2661001a; 0xcb24b6b2; 0x49980126; 0xb25b2de4; 0xb6e7824b; 0xac96db79; 0x6db1f012;
   0x4364b606; 0xc96c5b04; 0x92db2dbd; 0xb25b1649; 0x64b6db6f; 0x6db6c592; 0x59249248; 0x171f01;
   0x5b0003; 0xff000fff; 0x36db00; 0xffff01fc; 0xbe05b25a; 0xf92581d; 0x24102c92; 0x50649240;
   0x4000812c; 0x92012c92; 0x12001; 0x2db0012d; 0x80004900; 0x96d8009; 0x6d800049; 0x96d80;
   0x96c0482; 0x4836cb6c; 0xb6cb6d24; 0x964db6db; 0x65b6db69; 0x24920492; 0x49000000; 0x171f01;
   0x16c000b; 0xfc003fff; 0xdb6d83; 0xff7f07f2; 0xff16c92c; 0x3e493c7c; 0x1078b649; 0x61924963;
   0xc5b2; 0x4904b24a; 0x824840c; 0x96d82496; 0xc0002480; 0x25b60005; 0xb6000124; 0x5b600;
   0x5b61241; 0x245b25b0; 0xdb2db092; 0x4926db6d; 0xb6db6d84; 0x92491249; 0x24000000; 0x161f01;
   0x2490004; 0x92000000; 0x4924809; 0x24900080; 0x1259252; 0x49240120; 0x2492494; 0x92490040;
   0x92c925; 0x2c924012; 0x482496c9; 0x492d9000; 0x920125b6; 0x125b6c00; 0x24b0492d; 0x80925b12;
   0x4124b6cb; 0x6f6c96c5; 0x92592db6; 0xdbdb6db1; 0x64964924; 0x92000000; 0x171f01; 0x490002;
   0x49000000; 0x124900; 0x92490000; 0x49248; 0x4924801; 0x24002492; 0x40249240; 0x800012c;
   0x92012c92; 0x492001; 0x2db0012d; 0x80004900; 0x96d8009; 0x6d800049; 0x96d80; 0x96c0482;
   0x4836cb6c; 0xb6cb6d24; 0x964db6db; 0x65b6db69; 0x24920492; 0x49000000; 0x171f01; 0x1200001;
   0x20000000; 0x492402; 0x49240002; 0x124924; 0x12492404; 0x90009649; 0x20924900; 0x40004b2;
   0x4904b248; 0x1248004; 0xb6c80496; 0xc0002480; 0x25b60005; 0xb6000124; 0x5b600; 0x25b61241;
   0x245b25b0; 0xdb2db092; 0x4926db6d; 0xb6db6d84; 0x92491249; 0x24000000; 0x162000; 0x20000b;
   0x6c00b6da; 0x3fffc36; 0xdb696db6; 0xc7f27fad; 0xb6db5b24; 0xb1f492eb; 0x6db6d649; 0x2469249a;
   0xdb6db4b2; 0x591a4926; 0xb6db6d65; 0xb6c7924b; 0xadb6db59; 0x6db1f492; 0x436db606; 0xcb6c5b24;
   0x92db6dbd; 0xb25b1649; 0x64b6db6f; 0x6db6c592; 0x59249248; 0x171f01; 0x5b0002; 0xdb000fff;
   0x36db00; 0xb6db01fc; 0xbe05b6da; 0xd92580d; 0x24902db6; 0xd0649240; 0x4924816d; 0xb6016cb2;
   0x2492403; 0x6db0012d; 0x80024900; 0xb6d8009; 0x6d800249; 0xb6d80; 0x96c0492; 0x4836db6c;
   0xb6cb6d24; 0x964db6db; 0x65b6db69; 0x24920492; 0x49000000; 0x171f01; 0x16c000b; 0x6c003fff;
   0xdb6d82; 0xdb6d07f2; 0xfe16db6c; 0x36496c7c; 0x9278b6db; 0x61924963; 0x2492c5b6; 0xdb04b24a;
   0x924900d; 0xb6d824b6; 0xc0092480; 0x2db60025; 0xb6000924; 0xdb600; 0x25b61249; 0x245b6db0].
Definition emoji_data_121 : list N :=
  [0xdb2db092; 0x4926db6d; 0xb6db6d84; 0x92491249; 0x24000000; 0x162000; 0x20000b; 0x6c00b6db;
   0x7fffc36; 0xdb696db6; 0xc7fe7fad; 0xb6db5b6d; 0xf1fdb3eb; 0x6db6d6db; 0x6c7924ba; 0xdb6db5b6;
   0xdb1e492e; 0xb6db6d6d; 0xb6c7964b; 0xadb6db5b; 0x6db1fcb2; 0x436db606; 0xdb6c5b2c; 0x92db6dbd;
   0xb6db1649; 0x64b6db6f; 0x6db6c592; 0x59249248; 0x161f01; 0x2c000b; 0x6c00b6d8; 0x3fff016;
   0xdb606db6; 0xc1f24f0d; 0xb6d81b6d; 0xb06d92c3; 0x6db606db; 0x6c0b2490; 0x5b6d80b6; 0xd8025920;
   0x16db602d; 0xb6001648; 0xb6d801; 0x6db000b2; 0x4125b616; 0xdb6c4924; 0x92db6dbd; 0xb6db5649;
   0x64b6db6f; 0x6db6c492; 0x48000000; 0x171f01; 0x240005; 0xb6002db6; 0x807fff81; 0x6db6836d;
   0xb607db6e; 0x1b6db61b; 0x6db47249; 0x38db6db0; 0xdb6d819e; 0x4986db6d; 0x86db6c04; 0xb24816db;
   0x6016db60; 0x4f20016; 0xdb0016db; 0x59204; 0x96db0db6; 0xd8492493; 0x6db6d96d; 0xb6da4924;
   0x9b6db6cb; 0x6db64200; 0x20000000; 0x162000; 0xb0001f; 0xfb00ffff; 0x3fffe3f; 0xfff9ffff;
   0xe7ff7f9f; 0xfffe7f6d; 0xf9f6dbe7; 0xffef9edb; 0x6e6db6d9; 0xfedbe7b6; 0xdb9b6db6; 0x7df2f9ed;
   0xb6e7db6f; 0x9f7c9e7b; 0x6db1fedb; 0x63fb2506; 0xdb6c2db6; 0xd893f92d; 0xb6db5b6d; 0xb62c964b;
   0x6db6d6db; 0x6d892490; 0x161f01; 0x17c000f; 0xfc00fff8; 0x3fff01f; 0xffe07fbf; 0xc1ffff0f;
   0xb6d81f6d; 0xf0fff7c3; 0x6db616db; 0x6c1fedb0; 0x5b6d81b6; 0xda02f920; 0x16db602d; 0xb600be48;
   0x1b6d801; 0x6db001f2; 0x412db616; 0xdb6c496c; 0x92db6dbd; 0xb6db5649; 0x64b6db6f; 0x6db6c492;
   0x48000000; 0x171f01; 0x7c0007; 0xfe003fff; 0x807fff81; 0xffff83fd; 0xff0fffff; 0x1f6dbe7f;
   0x6dbc7fff; 0x78db6db1; 0xdb6de3be; 0xfb86db6d; 0x86db6c0d; 0xf25816db; 0x6016db60; 0xdf20016;
   0xdb0016db; 0x79204; 0x96db0db6; 0xd8496c93; 0x6db6d96d; 0xb6da4924; 0x9b6db6cb; 0x6db64200;
   0x20000000; 0x162000; 0x100002; 0x40009249; 0x1249004; 0x92412492; 0x42492489; 0x24924b24;
   0x90924922; 0x40009249; 0x24249248; 0x960024b2; 0x59092592; 0x20964925; 0xb6424b6c; 0x882cb249;
   0x6db0925b; 0x62492406; 0xcb6c2d96; 0xd8b6092d; 0xb25b5b6d; 0xb62cb64b; 0x6db6d6db; 0x6d892490;
   0x161f01; 0x200009; 0x24001248; 0x2492012; 0x49202492; 0x924805; 0x92480924; 0x90248041;
   0x24920249; 0x24010000; 0x5b2c8092; 0x58000920; 0x125b6024; 0xb6000248; 0x96d801; 0x2db00012;
   0x4124b616; 0xc96c4904; 0x92db2dbd; 0xb6db5649; 0x64b6db6f; 0x6db6c492; 0x48000000; 0x171e02;
   0x2490002; 0x49002492; 0x40924900; 0x92490124; 0x2049249; 0x4924809; 0x24102492; 0x48249240;
   0x4c00012c; 0x920124b2; 0x2092409; 0x2db0012d; 0x80007900; 0x96d8001; 0x2d800049; 0x2496d86;
   0xc96c2482; 0x49b6cb6c; 0xb6cb6d24; 0x924db6db; 0x65b6db21; 0x100000; 0x1f1e01; 0x49000;
   0x924800; 0x4924800; 0x9249200; 0x24924901; 0x24924802; 0x49249009; 0x24924809; 0x24924816;
   0xc925905b; 0x64b6ca4b; 0x65b24497; 0xcbe4925b; 0x25b252c9; 0x24b22492; 0x1249249; 0x24929249;
   0x24912490; 0x9249; 0x24909248; 0x24813f80; 0x4b6c9; 0x24049249; 0x4092480; 0x49249;
   0x20049241; 0x20012400; 0x49248; 0x9240; 0x0; 0x1d1e01; 0x248000; 0x12492000;
   0x49248012; 0xc924016d; 0x924805b6; 0x492074b2; 0x4916c924; 0x925924b6; 0x424927f2; 0x24b25964;
   0x92c96494; 0x9e4ba4c9; 0x64b64925; 0x92c9293c; 0x964992c9; 0x24924924; 0x92524924; 0x93249249;
   0x2496db24; 0x24f6d922; 0x49249249; 0x24924809; 0x24924092; 0x49240249; 0x24800249; 0x20002492;
   0x40001240; 0x0; 0x1f1e01; 0x48000; 0xc924b00; 0x2c924b00; 0x49249201; 0x6d96d80b;
   0x6d96db12; 0x4924925b; 0x6c96db5b; 0x6496c892; 0x4924925b; 0x65b6c2db; 0x65964492; 0x492492c9;
   0x24965249; 0x24922492; 0x492492c9; 0x259296db; 0x6c912dff; 0xcd24b249; 0x2c84b000; 0x64817c03;
   0xc804b6db; 0x2404b6db; 0x20097ff2; 0x4024b6c9; 0x49248; 0x92490; 0x49240; 0x49200;
   0x0; 0x1f1f01; 0x49000; 0x924800; 0x4924800; 0x8049200; 0x24924901; 0x824802;
   0xf049009; 0x2c924808; 0x2c124810; 0x209049; 0x24924a40; 0x4904480; 0x709249; 0x24b25249;
   0x24922492; 0x482492d9; 0x2492965b; 0x24912c17; 0xd920964b; 0x6c90b600; 0x2c813c80; 0x6904b6db;
   0x6404b6db; 0x24092492; 0x4004b6d9; 0x2004b6d9; 0x12490; 0x4b6c0; 0xb600; 0x2000;
   0x0; 0x1d1f01; 0x248000; 0x12492000; 0x49248002; 0xc964016c; 0x96c80592; 0x4b206492;
   0x4f064924; 0xb0492492; 0x424f2592; 0x24b25b24; 0x92c96484; 0x964b2449; 0x24924924; 0x92492924;
   0x9248924b; 0x24924924; 0x92124924; 0x9124b6c9; 0x2492d924; 0x4924920; 0x4b6c9201; 0x25924009;
   0x24920016; 0xd920004b; 0x24000049; 0x5b0; 0x1640; 0x1000; 0x0; 0x1f2000;
   0x48000; 0x5fe000; 0xb6db000; 0x1b6db000; 0xbffffc02; 0xdb6db406; 0xdb6db00f; 0xfffff836;
   0xdb6db0b6; 0xdb6db1ff; 0xffffe5b6; 0xdb6dadbe; 0xdbfd9fff; 0xffffadb6; 0xdb6dedfe; 0xdf6cffff;
   0xfffd6db6; 0xdb6f6db6; 0xdb67ffff; 0xffcb6db6; 0xdb4bedb7; 0xdf1f4926; 0xbe1b2596; 0x581b2db2;
   0xf0335860; 0xc04964b2; 0xc0db6df6; 0xfffffc; 0x5b6d80; 0xb6c00; 0x24000; 0x1e1e01;
   0x92000; 0x2492000; 0x24924000; 0x92490004; 0x92490049; 0x24920124; 0x92480924; 0x92481249;
   0x24904ba4; 0xf2425b25; 0xb244b65b; 0x64124924; 0x90924924; 0x99249249; 0x4924924; 0x24b65924;
   0x49249241; 0x24924909; 0x2db6c812; 0x49249049; 0x24920059; 0x6db20092; 0x49200249; 0x248012db;
   0x6c000492; 0x40000249; 0x12d8; 0x490; 0x0; 0x1d1e01; 0x248000; 0x12492000;
   0x49248002; 0x49240124; 0x92480492; 0x49202492; 0x49024924; 0x90492492; 0x425924b2; 0x25b25b64;
   0x92c96484; 0x9f4f244b; 0x6cb6c96c; 0x925b2925; 0xf24892db; 0x64924b25; 0x92124926; 0x912db6d9;
   0x24b2d964; 0x5924b20; 0x5b6db201; 0x6492c009; 0x24920016; 0xdb600049; 0x64000249; 0x20036db6;
   0xd8049249; 0x20000000; 0x1d1f00; 0x2000; 0x48000; 0x24; 0x92490492; 0x49240000;
   0x24924; 0x92412492; 0x48010000; 0x364924; 0xd92580; 0x12db2401; 0x6db6d824; 0xb6d92124;
   0x92491249; 0x24924964; 0xb24a4f25; 0x9224b25b; 0x2492c964; 0x84924924; 0x492d9249; 0x24b64901;
   0x27f24812; 0x5b648049; 0x6c92024f; 0xe48024b6; 0xc90012d9; 0x20001248; 0x12480; 0x0;
   0x132000; 0x10000f; 0x7bfc16; 0xdb41fff8; 0x37ff026d; 0xb09ed811; 0xc0003240; 0x1200004;
   0x90004; 0xb0009600; 0x6db016d8; 0x2cb01b6; 0xd85b6d09; 0x6db0db6d; 0x5b6c012; 0x480596c0;
   0xc96c0925; 0x82cb606c; 0xb6059201; 0x6db01248; 0x112000; 0x400010; 0x249; 0x20124000].
Definition emoji_data_122 : list N :=
  [0x492402; 0x48000401; 0x24004900; 0x2580; 0x59002d80; 0x6db05b6c; 0x25962db6; 0x1b6d84b6;
   0xc5b6d96d; 0xb6164b16; 0x5b0596c2; 0x4b20cb60; 0xb2d8492c; 0x1b6c1248; 0x132000; 0x48010d;
   0x803ff80b; 0x6d81b6d8; 0x33ff04b6; 0xc0cb2401; 0xa4001b00; 0x900012; 0x2d8006; 0x58024b00;
   0xb6c01b6c; 0x96582db; 0x686db604; 0xb2c06db6; 0x6db604b; 0x6406db60; 0x65b00c92; 0x36db036;
   0xd802d901; 0xb6c00924; 0x132000; 0x10000b; 0x7bfc16; 0xdb416db0; 0x37ff026d; 0xb096d810;
   0xda0036c0; 0x1600024; 0x1b0005; 0xb0009600; 0x6db016d8; 0x2cb01b6; 0xd85b6d09; 0x6db0db6d;
   0x5b6c016; 0xc805b6c0; 0xdb6c0965; 0x82db606d; 0xb6059201; 0x6db01248; 0x112000; 0x4804fe;
   0x7ff87ff; 0xe7bff99f; 0xfcdffce7; 0xd863ec01; 0xec005b00; 0x2e002d80; 0x5b002580; 0x6db05b6c;
   0x25962db6; 0x1b6d84b6; 0xc5b6d96d; 0xb612cb16; 0xdb05b6c2; 0xfb20db60; 0xb6d84b6c; 0x1b6c1248;
   0x132000; 0x480004; 0x80209009; 0x24809248; 0x12490492; 0x40492001; 0x4000900; 0x900002;
   0x248006; 0x58024b00; 0xb6c01b6c; 0x96582db; 0x686db604; 0xb2c06db6; 0x6db604b; 0x6406cb60;
   0x64b00c92; 0x325b032; 0xd802d901; 0xb6c00924; 0x162000; 0x900003; 0xe003bff0; 0x1b6db0ff;
   0xffe3dfff; 0x865b6c39; 0xfff867f9; 0x6196c908; 0x3cb000c0; 0x19200; 0x1200000; 0x80032400;
   0x16480048; 0x2d920; 0x5b24012; 0xc02036cb; 0x616d9244; 0x96490db6; 0xd85b2490; 0x2492036d;
   0xb606d920; 0xb00805b; 0x24009000; 0x142000; 0x400012; 0x9; 0x24904924; 0x80000082;
   0x49049248; 0x824; 0xb0012400; 0x400248; 0x124001; 0x16480; 0x19200190; 0x40364b01;
   0xb2401900; 0x936c961b; 0x64909649; 0x16db61b6; 0x49092491; 0x6db61b64; 0x80b60816; 0xc9009000;
   0x162000; 0x480005; 0xb0019ff8; 0x2db6c05b; 0x6d81afff; 0xb6db610; 0xdb6843fc; 0xc29b6c0c;
   0x32500049; 0x2db00; 0x4900012; 0x4005b600; 0xb24002c; 0x90016db0; 0x6c92009; 0x24905b6d;
   0xb0b6c902; 0x492416db; 0x6c2d9240; 0xb24905b6; 0xd80b6490; 0x2592006d; 0xb0004900; 0x162000;
   0x900003; 0x6003bff0; 0x1b6db0b6; 0xdb63dfff; 0x865b6c29; 0xb6d867fb; 0x6196db08; 0x2db000f2;
   0x4001b600; 0x3680004; 0x80036c00; 0x16d80049; 0x2002db60; 0x5b6c012; 0xc92036db; 0x616db244;
   0x96490db6; 0xd85b2490; 0x2492036d; 0xb606db20; 0xb24805b; 0x6c009240; 0x162000; 0x120001;
   0xfc01eff8; 0xffff03f; 0xffe0efff; 0xc71fff8c; 0xfffc33ff; 0xe187db0e; 0x3db8007e; 0xc000b680;
   0x16c0007; 0xe0016d80; 0x6d8000b; 0x6c00db6c; 0x1b6c002; 0x5fe436db; 0x606db240; 0x964905b6;
   0xd81b6490; 0x2492416d; 0xb606db60; 0xb6f805b; 0x6c009240; 0x162000; 0x480000; 0x90009240;
   0x24924049; 0x24810492; 0x9249210; 0x49204124; 0x82092c04; 0x12500040; 0x24900; 0x4900000;
   0x40059200; 0xb24002c; 0x10016cb0; 0x6c92009; 0x24905b65; 0xb0b64902; 0x492416db; 0x6c2d9240;
   0xb24905b6; 0xd80b6490; 0x2580006d; 0x90004800; 0x1d1606; 0x12482480; 0x49249200; 0x24;
   0x92490092; 0x49240000; 0x24924; 0x92492492; 0x49000000; 0x4924924; 0x92492492; 0x10000089;
   0x24924924; 0x92492400; 0x249; 0x24920924; 0x92400024; 0x49209; 0x20124924; 0x80000000;
   0x1241240; 0x1e1804; 0x400400; 0x1000000; 0x49049200; 0x92492002; 0x49248012; 0x49248124;
   0x92480012; 0x49202492; 0x49244924; 0x92410010; 0x1092492; 0x49924924; 0x90400402; 0x42492492;
   0x64924924; 0x2010000; 0x92492491; 0x24924900; 0x4; 0x90492009; 0x20920000; 0x80000124;
   0x12400000; 0x1d1804; 0x1001000; 0x49049005; 0xb65b6012; 0x49248092; 0x49240b6d; 0xb6c02492;
   0x49012492; 0x48b6db6d; 0xb2492492; 0x52492491; 0x6db6db64; 0x924924a4; 0x924926db; 0x6db6c924;
   0x92494924; 0x924db6db; 0x6d924924; 0x90124124; 0x816d96d8; 0x4904900; 0x24824802; 0xc924b000;
   0x1e1904; 0x1201600; 0x16c16c00; 0x49049002; 0xdb6db00d; 0xb6db6012; 0x492481b6; 0xdb6c0b6d;
   0xb6d82492; 0x49216db6; 0xdb66db6d; 0xb6c92492; 0x49db6db6; 0xd9b6db6d; 0xb2492492; 0x76db6db6;
   0x6db6db6c; 0x92492485; 0xb6cb6d8b; 0x6d36d804; 0x9049202d; 0xb2db005b; 0x5b00124; 0x12400920;
   0x12400000; 0x1f1904; 0xc02c00; 0x16d06d80; 0x3ff2ff00; 0xb6db6d01; 0xb6db6c01; 0xfffff805;
   0xb6db6c2d; 0xb6db645f; 0xfffff96d; 0xb6db616d; 0xb6db63db; 0x7db7cb6d; 0xb6db7b6d; 0xb6db37db;
   0xedfe5b6d; 0xb6dbdb6d; 0xb6d8b6db; 0x6db0db6d; 0xb6c0db65; 0xb600b6cf; 0x6c02db0d; 0xb002db2d;
   0xb005b41b; 0x60024024; 0x80000000; 0x1e1904; 0x800800; 0x9209200; 0x24800001; 0x24924812;
   0x49248001; 0x24920049; 0x24920492; 0x49200001; 0x20809249; 0x24912492; 0x49040040; 0x4249249;
   0x26492492; 0x40201008; 0x9249249; 0x92492490; 0x40002; 0x49249204; 0x92092000; 0x12;
   0x41240024; 0x82480000; 0x400; 0x1000000; 0x151f01; 0x360002f8; 0x1a4000; 0x64000590;
   0x348002; 0xc8000920; 0x80005; 0x90001640; 0x10000b; 0x20002d80; 0x7c0012; 0xc0004800;
   0x240002c; 0xb000; 0x480001b; 0x16c00; 0x41209236; 0xdb68db6d; 0x8249242d; 0xb6d0b6db;
   0x4924809; 0x24800000; 0x161f01; 0x16c0007e; 0x19000; 0x4b00019; 0x6400; 0x3240016;
   0x40005900; 0x2490005; 0x90000640; 0x124001; 0x2c0000f8; 0x5b000; 0x48000020; 0x36000;
   0x16800009; 0xd800; 0x11b00102; 0x402416db; 0x6c2db6c0; 0x924901b6; 0xdb036db0; 0x4924024;
   0x92400000; 0x151f01; 0x5b0001fc; 0x96000; 0xb2000258; 0x124001; 0x64000490; 0x248006;
   0xc8000920; 0x49000d; 0x900016c0; 0xbe000b; 0x60002000; 0x1000036; 0xd800; 0x240002d;
   0x8000b401; 0x2490491b; 0x6db16db6; 0xc1249216; 0xdb60db6d; 0x82492404; 0x92400000; 0x151f01;
   0x360002f8; 0x1a4000; 0x64000590; 0x348002; 0xca001920; 0x690005; 0x94003640; 0xd2000b;
   0x28006d80; 0x17c0016; 0xc0005800; 0x240002c; 0xb000; 0x480001b; 0x16c00; 0x41209236;
   0xdb68db6d; 0x8249242d; 0xb6d0b6db; 0x4924809; 0x24800000; 0x161f01; 0x16c0007e; 0x19000;
   0x4b00019; 0x6400; 0xb2c0016; 0x50005940; 0x2cb0005; 0x94001650; 0xb2c001; 0x6c0005f8;
   0x2db000; 0x58000060; 0x36000; 0x16800009; 0xd800; 0x11b00102; 0x402416db; 0x6c2db6c0;
   0x924901b6; 0xdb036db0; 0x4924024; 0x92400000; 0x151f01; 0x5b0001fc; 0x96000; 0xb2000258;
   0x124001; 0x64000490; 0x240002; 0xc8000920; 0x480005; 0x900016c0; 0x3e000b; 0x60002000;
   0x1000036; 0xd800; 0x240002d; 0x8000b001; 0x2490491b; 0x6db16db6; 0xc1249216; 0xdb60db6d;
   0x82492404; 0x92400000; 0x171d01; 0xd90006; 0xdf003c9e; 0xb65904; 0xb2590920; 0x922db2db].
Definition emoji_data_123 : list N :=
  [0x249248ff; 0xffbd6db6; 0x5bed927f; 0x100eb24; 0x92d92492; 0x90c06049; 0x25924b25; 0x92020102;
   0x49249249; 0x24800200; 0x24b2402; 0x49240080; 0x12db20; 0x12d90000; 0x90001248; 0x124000;
   0x171d01; 0x490002; 0x49000090; 0x40925900; 0x92490924; 0x926db2db; 0x24924900; 0x2492;
   0x49249248; 0x124; 0x92492492; 0x40402049; 0x64b24925; 0x92020102; 0x49249249; 0x24900240;
   0x24b2482; 0x49240080; 0x4012db20; 0x12db2000; 0x90001248; 0x24000; 0x181d01; 0xb60002;
   0xcb2003c9; 0xe00592d8; 0x12492412; 0x41246db6; 0xdb124924; 0x36db2c6d; 0xb6dbb6db; 0x2c724926;
   0x6db6db32; 0x49241349; 0xa46db6db; 0x93c9e492; 0x49246db6; 0xdb124924; 0x1249242d; 0xb6d81249;
   0x24124920; 0xdb6d802; 0xdb200249; 0x2005b6c0; 0x490000; 0x181e01; 0x6c8001; 0xb6c00793;
   0xc00b6590; 0x2592c824; 0x82485b65; 0xb6249248; 0x7fffde5b; 0x6db66db6; 0xdb74924e; 0x5b6db66d;
   0xb6da6592; 0xcbdb6db6; 0x6db6db25; 0x92c9db6d; 0xb66db6da; 0x24b6481b; 0x6db42db6; 0xd8049248;
   0xb6db005; 0xb6c00492; 0x40036d80; 0xb60000; 0x10000000; 0x181e01; 0x5b0003; 0xe78003e5;
   0xd013cbe8; 0x19249049; 0x2492b6cb; 0x6c492492; 0x7ffffeff; 0xfb6e7f7d; 0xbe7b7dbe; 0xf6db6c7b;
   0x6db67bed; 0xf6b7dbed; 0xdbedb6db; 0xedf6b6db; 0x6d5b6db6; 0x1b7db436; 0xdb6c1b6d; 0xb01beff0;
   0x16db680b; 0xffb003ff; 0xa002db60; 0x16d8000; 0x24000000; 0x181d01; 0x920002; 0x49000249;
   0x20049248; 0x12492412; 0x41246db6; 0xdb124924; 0x12492424; 0x92491249; 0x24100004; 0x24924812;
   0x49240201; 0x42592c9; 0x93c9a402; 0x1002492; 0x49124924; 0x80024; 0xb6481249; 0x20000100;
   0x5b6c802; 0xdb200049; 0x9240; 0x490000; 0x171e02; 0x200003; 0xf8001b6c; 0x7ffc00;
   0xfffc02db; 0x6c07ff7c; 0x1ff2f836; 0xc9609249; 0x21041041; 0x96594492; 0x490d0002; 0xc965a3c;
   0x9258786c; 0xf06cb2c1; 0xfc97c1f8; 0xf836496; 0x30d961e; 0x1f3c5b64; 0xb6fb25bd; 0xf643fad9;
   0x2db7f92f; 0xfff05fd6; 0xc92d8000; 0x181f01; 0x100001; 0x6d8001ff; 0xc007ffc0; 0xb6db00f;
   0xfff00ffe; 0x700b6cb0; 0xc92500c; 0x80100965; 0x90049340; 0x820009; 0x2c900492; 0x40000000;
   0x1248000; 0xb6400010; 0x12480; 0x120000; 0x1b64; 0xb07cb65e; 0x7c365fdb; 0x64b67d92;
   0xdffd90ff; 0xdb25b67d; 0x92ff2480; 0x49000000; 0x191f01; 0x240001; 0x6d8000ff; 0xe001fffe;
   0x16db680; 0xffff807f; 0xf3e02db2; 0xd81964b8; 0xc800c04; 0xb24b033c; 0xb2019019; 0x924940;
   0x24924010; 0x8200249; 0x20009240; 0x90000; 0x9200002; 0x40000000; 0x592db0; 0x36d9787b;
   0x6cbe5b25; 0xb6bec92f; 0x9fe017eb; 0x6c96dff9; 0x6df12402; 0x48000000; 0x181e02; 0x100000;
   0x48000000; 0x49240; 0x2492000; 0x492; 0x48124920; 0x24; 0x92481249; 0x2000c300;
   0x24924812; 0x49200008; 0x249248; 0x12592000; 0x58002492; 0x48124920; 0xd; 0xb6d83e7f;
   0x7c3e497c; 0x6d92dbfe; 0xc97e7e49; 0x7e6d92db; 0xfecb7e12; 0x41240000; 0x181e02; 0x240000;
   0x92000000; 0x12480; 0x4924000; 0x924; 0x90049240; 0x820009; 0x65900493; 0x40008200;
   0x92c9004; 0x92400000; 0x16480; 0xb64000; 0x12000124; 0x80001200; 0x10001b; 0x64b07cb6;
   0x5e7c365f; 0xdb64b67d; 0x92dffd90; 0xffdb25b6; 0x7d92ff24; 0x80490000; 0x191e02; 0x490000;
   0x92400000; 0x24924; 0x924900; 0x49; 0x24901249; 0x20000000; 0x9659002; 0x79640020;
   0x30012492; 0x492480; 0x900004; 0x92400124; 0x80001200; 0x124000; 0x4800000; 0xb25b;
   0x606db2f0; 0xf6d97cb6; 0x4b6d7d92; 0x5f3fc02f; 0xd6d92dbf; 0xf2dbe248; 0x4900000; 0x181e02;
   0x120000; 0x5b0002ff; 0x5b6c0; 0x6db6007; 0xffe00db6; 0xd816d968; 0x1e49782d; 0xb6d81249;
   0x2c12cb24; 0x2db6d812; 0x492c1a49; 0x3c2db6d8; 0x165b6c1e; 0x59782db6; 0xd8164968; 0x1248200d;
   0xb6d83e7f; 0x7c3e497c; 0x6d92dbfe; 0xc97e7e49; 0x7e6d92db; 0xfecb7e12; 0x41240000; 0x181e02;
   0x16d8001; 0xb6c007ff; 0xc00b6db0; 0x5b6d00f; 0xfe700b6d; 0xb00c9250; 0xc924009; 0x6db00593;
   0xc8049240; 0xb6db004; 0x92400492; 0x40036d80; 0xb64000; 0x9200016c; 0x80009200; 0x10001b;
   0x64b07cb6; 0x5e7c365f; 0xdb64b67d; 0x92dffd90; 0xffdb25b6; 0x7d92ff24; 0x80490000; 0x191f01;
   0x200001; 0x6d8000db; 0x6001fffe; 0x16db600; 0xdb6d807f; 0xf3e02db6; 0xd81b64b0; 0xc924c05;
   0xb6db033c; 0xb2019e59; 0xb6db40; 0x24924012; 0x492006db; 0x60009240; 0x492000; 0xb600002;
   0x40000120; 0x592db0; 0x36d9787b; 0x6cbe5b25; 0xb6bec92f; 0x9fe017eb; 0x6c96dff9; 0x6df12402;
   0x48000000; 0x181e02; 0x120000; 0xdb0003ff; 0x8005b6c0; 0x6db600f; 0xfff00db6; 0xd816db68;
   0x1fd9782d; 0xb6d816db; 0x6c12cb2c; 0x2db6d816; 0xdb6c1e59; 0x3c2db6d8; 0x16db6c1e; 0x59782db6;
   0xd816db68; 0x1648200d; 0xb6d83e7f; 0x7c3e497c; 0x6d92dbfe; 0xc97e7e49; 0x7e6d92db; 0xfecb7e12;
   0x41240000; 0x181e02; 0x16d8001; 0xb6c007ff; 0xc00b6db0; 0x5b6d00f; 0xfff00b6d; 0xb00db6d0;
   0xc92500b; 0x6db00db7; 0xd8049240; 0xb6db005; 0xb6c00492; 0x40036d80; 0x1b6c000; 0x9200016d;
   0x8000b600; 0x12001b; 0x6cb07cb6; 0x5e7c365f; 0xdb64b67d; 0x92dffd90; 0xffdb25b6; 0x7d92ff24;
   0x80490000; 0x191f01; 0x240001; 0x6d8000db; 0x6001fffe; 0x16db600; 0xdb6d807f; 0xf7e02db6;
   0xd81b6db0; 0xc925c05; 0xb6db037d; 0xb6019e59; 0xb6db40; 0x2db6c012; 0x592006db; 0x6001b6c0;
   0x5b2000; 0x1b600006; 0xc0000120; 0x596db0; 0x36d9787b; 0x6cbe5b25; 0xb6bec92f; 0x9fe017eb;
   0x6c96dff9; 0x6df12402; 0x48000000; 0x181e02; 0x120000; 0xff0003ff; 0x8007ffc0; 0x7ffe00f;
   0xfff00fff; 0xf81ffff8; 0x1ffbfc3d; 0xb6d836db; 0x6c17ffec; 0x2db6d83e; 0xdb7c1eff; 0x7c3db6d8;
   0x3edb7c1f; 0xfffc3fb6; 0xf81fdbf8; 0x1e58300d; 0xb6d83e7f; 0x7c3e497c; 0x6d92dbfe; 0xc97e7e49;
   0x7e6d92db; 0xfecb7e12; 0x41240000; 0x181f01; 0x100001; 0x7d8001ff; 0xc007ffc0; 0xbfff00f;
   0xfff00fff; 0xf00ffdb0; 0xfb6f00f; 0xf7f00bed; 0xb00df7d8; 0xdf7d00b; 0x6db005b6; 0xc005bec0;
   0x36d8001; 0xfec001ff; 0x80016d80; 0xb60000; 0x3e001b6c; 0xb07cb65e; 0x7c365fdb; 0x64b67d92;
   0xdffd90ff; 0xdb25b67d; 0x92ff2480; 0x49000000; 0x191f01; 0x240001; 0x7f8000ff; 0xf001fffe;
   0x1ffff80; 0xffffc07f; 0xffe07ff6; 0xf81fedbc; 0xff6dc0f; 0xb6db037d; 0xf701befb; 0x80b6db40;
   0x6db6c01e; 0xfb6006db; 0x6001b6c0; 0x7fe000; 0x1b600006; 0xc00001e0; 0x596db0; 0x36d9787b;
   0x6cbe5b25; 0xb6bec92f; 0x9fe017eb; 0x6c96dff9; 0x6df12402; 0x48000000; 0x181e02; 0x100000;
   0x49000049; 0x49240; 0x2492002; 0x49200492; 0x48124920; 0x12402024; 0x92481249; 0x2410c300].
Definition emoji_data_124 : list N :=
  [0x24924812; 0x49241008; 0x20249248; 0x12592012; 0x58202492; 0x48124920; 0x200d; 0xb6d83e7f;
   0x7c3e497c; 0x6d92dbfe; 0xc97e7e49; 0x7e6d92db; 0xfecb7e12; 0x41240000; 0x181e02; 0x248000;
   0x92400092; 0x40012490; 0x4924004; 0x92400924; 0x90049240; 0x4820009; 0x65900493; 0x40008200;
   0x92c9004; 0x92400000; 0x12480; 0xb64000; 0x12000124; 0x80001200; 0x1b; 0x64b07cb6;
   0x5e7c365f; 0xdb64b67d; 0x92dffd90; 0xffdb25b6; 0x7d92ff24; 0x80490000; 0x181f01; 0x100000;
   0x92000124; 0x80049240; 0x4924009; 0x24900492; 0x48049048; 0x9249024; 0x92480082; 0x8096590;
   0x4924800; 0x80000924; 0x90049240; 0x1; 0x648000b6; 0x40001200; 0x240000; 0x12000c02;
   0x785b6cb6; 0x6db6de7c; 0x825fdb2c; 0xb67d92df; 0xfd90ffdb; 0x2db62482; 0x49000000; 0x191d00;
   0x490000; 0xb6c002ff; 0xfc02db6d; 0x81b6db43; 0xfffff0db; 0x6db0b24b; 0x2c400002; 0x49249240;
   0x0; 0x92492; 0x42492490; 0x124; 0x92484924; 0x92018060; 0x24925929; 0x64924000;
   0x492c9; 0x2024b240; 0x12; 0xc92400b6; 0xc0000b00; 0x492000; 0x2400000; 0x1a1d00;
   0x490000; 0x5b60003f; 0xff001b6d; 0xb01b6db6; 0x7ffff83; 0x6db6d065; 0x82580800; 0x2249249;
   0x20000000; 0x12; 0x49248249; 0x24800000; 0x20492492; 0x49249200; 0x400c092c; 0x96492492;
   0xc9000000; 0x496c920; 0x92c92000; 0x10001249; 0x24005b64; 0x2c800; 0x1248000; 0x24800000;
   0x191e00; 0x120000; 0x6db000ff; 0xf801b6db; 0x16db6c0; 0xfffff0b6; 0xdb6c6c82; 0x5a100004;
   0x12492480; 0x0; 0x24924; 0x90924920; 0x924904b; 0x6db29249; 0x24c9e4b2; 0x5b6db6d2;
   0x49249120; 0x904964b2; 0x48496c90; 0x4924805; 0xb6d8016d; 0xb00016c8; 0x16d800; 0x4900000;
   0x40000000; 0x1a1e00; 0x248000; 0x2db0005f; 0xff802db6; 0xd80db6da; 0xfffffc1; 0xb6db60b2;
   0x4b2c2000; 0x1124924; 0x90000000; 0x49; 0x24920924; 0x92404924; 0x912db6d8; 0x6db6db09;
   0x649a4db6; 0xdb6db6d9; 0x2c241209; 0x164b25b0; 0xc9648012; 0x49200b6d; 0xb2016db6; 0xb6c00;
   0x5b60000; 0xb6400004; 0x80000000; 0x1a1e00; 0x490000; 0x5b60003f; 0xff001b6d; 0xb01b6db6;
   0x7ffff83; 0x6db6d065; 0x82580800; 0x2249249; 0x20000000; 0x12; 0x49248249; 0x2480bfff;
   0xdb6db6; 0x5b6db6d6; 0xfb7dbb7d; 0xb6db6db6; 0xdb782c17; 0xed96cb60; 0x92d9603d; 0xfee016db;
   0x6c00db6c; 0x1fff00; 0x36d8000; 0x6d800001; 0x0; 0x191d00; 0x120000; 0x6db000ff;
   0xf801b6db; 0x16db6c0; 0xfffff0b6; 0xdb6c6c82; 0x5a100004; 0x12492480; 0x0; 0x24924;
   0x90924920; 0x40000049; 0x24921249; 0x2481c030; 0x9649252; 0x49249000; 0x124b2; 0x48492490;
   0x4; 0x92c8012d; 0x900016c0; 0x124800; 0x4900000; 0x1c2000; 0x160000; 0x7f60000;
   0xfffc005b; 0x6db007ff; 0xff007ffb; 0xf00db6db; 0x7ff3f8; 0xffc3f80; 0xdb24b01e; 0xc92781e0;
   0x780cb2; 0xcb01e696; 0x781e0007; 0x80c924b0; 0x1e492781; 0xe000780c; 0x924b0164; 0x92581608;
   0x582d925; 0xb092c96c; 0x900c9600; 0x25b6d901; 0x6db6d812; 0xc92c82db; 0x6db016db; 0x6d812c92;
   0xc82db6db; 0x41249248; 0x1c1f01; 0xb6000; 0x1ff0000; 0xb6d8000f; 0xffc001ff; 0xfe001b6d;
   0xb003ffef; 0x3ffe70; 0x1b64b00; 0x3c925003; 0x820001b; 0x25900259; 0x24000002; 0x9248;
   0x49240; 0x10000; 0x9249002; 0x49258024; 0x80480d92; 0x4b692c92; 0xc9004924; 0x4b6d92;
   0x16db6d81; 0x2c92480d; 0xb6db616d; 0xb6d812c9; 0x2480db6d; 0xb6124924; 0x80000000; 0x1c1f01;
   0x5b0000; 0xff00005; 0xb6d8007f; 0xff8007ff; 0xfc00db6d; 0x801fff7c; 0x1ffc3c0; 0x2db25a01;
   0xec92c01c; 0x410400cb; 0x2ca01a49; 0xa4018400; 0x400c9248; 0x249240; 0x80000; 0x49248016;
   0x492c0120; 0x2402d92; 0x5b092c96; 0x49024920; 0x25b6d90; 0x36db6d81; 0x2492402d; 0xb6db036d;
   0xb6d81249; 0x2486db6d; 0xb0124924; 0x80000000; 0x1c2000; 0x120000; 0x4900000; 0x9;
   0x24800249; 0x24000000; 0x49249; 0x249240; 0x0; 0x49249002; 0x49240004; 0x20004b2;
   0xc9002796; 0x40004020; 0x492490; 0x2492400; 0x900004; 0x92490164; 0x92581608; 0x582d925;
   0xb092c96c; 0x902c9640; 0x2db6db01; 0x6db6d812; 0xc92c82db; 0x6db016db; 0x6d812c92; 0xc82db6db;
   0x41249248; 0x1c1f01; 0x10000; 0x0; 0x92480004; 0x92400000; 0x924; 0x90004924;
   0x0; 0x924900; 0x24924000; 0x820000b; 0x25900259; 0x64000082; 0x9248; 0x49240;
   0x10000; 0x9249002; 0x49258024; 0x80480db2; 0x5b692d92; 0xc9004924; 0x5b6db2; 0x16db6d81;
   0x2c92480d; 0xb6db616d; 0xb6d812c9; 0x2480db6d; 0xb6124924; 0x80000000; 0x1c1d03; 0x924000;
   0x24920000; 0x49; 0x24800249; 0x24000000; 0x49248; 0x1249240; 0x410000; 0x4b2c8002;
   0x49a40004; 0x10000492; 0x48002492; 0x800; 0x492480; 0x16492c01; 0x2002402d; 0x925b092c;
   0x96490249; 0x20025b6d; 0x9036db6d; 0x81249240; 0x2db6db03; 0x6db6d812; 0x492486db; 0x6db01249;
   0x24800000; 0x1c2000; 0x160000; 0x5b60000; 0xfffc005b; 0x6db006db; 0x6d007ff3; 0xf00db6db;
   0x6db2d8; 0xff92f00; 0xdb6db016; 0xc92580e4; 0x92700db6; 0xdb016796; 0x580e4927; 0xdb6db0;
   0x164b2580; 0xe492700d; 0xb6db0165; 0x92d81649; 0x2482db6d; 0xb292c96c; 0x992d9649; 0x2db6db21;
   0x6db6d812; 0xc92c82db; 0x6db016db; 0x6d812c92; 0xc82db6db; 0x41249248; 0x1c1f01; 0xb2000;
   0x1fe0000; 0xb6d8000d; 0xb6c000ff; 0xfc001b6d; 0xb002db6d; 0x3fb660; 0x1b6db00; 0x2c925002;
   0x4924005b; 0x6db00259; 0x64000492; 0x4000b6d8; 0x4b240; 0x492400; 0xb6d9002; 0x49258024;
   0x92482db6; 0xdb692d92; 0xc9124924; 0x92db6db6; 0x16db6d81; 0x2c92480d; 0xb6db616d; 0xb6d812c9;
   0x2480db6d; 0xb6124924; 0x80000000; 0x1f1f01; 0xb2000; 0x3fc000; 0x2db6c00; 0x6db6800;
   0xffff800; 0x36db6000; 0xb6db6001; 0xff93c005; 0xb6db4005; 0xb24b000f; 0x2492000d; 0xb6d80025;
   0x93c80069; 0x2490006d; 0xb6c00064; 0x92c00049; 0x2400016d; 0xb6000b24; 0x96001249; 0x24005b6d;
   0xb6124b25; 0x92449249; 0x2402db6d; 0xb006db6d; 0xb0049249; 0x16db6d; 0x8036db6d; 0x80249249;
   0x1b6db6c; 0x924924; 0x0; 0x1e2000; 0x20000; 0xb6c000; 0xb6db000; 0x7fffc003;
   0x6db68016; 0xdb6c007f; 0xfdf802db; 0x6db005b6; 0xdb001ff9; 0x2e00b6db; 0x6c016db6; 0xc007b27b;
   0x802db6db; 0x5b6db0; 0x1e492e0; 0xb6db6c0; 0x1edb6c00; 0x7924b802; 0xdb6db005; 0xb6db0036;
   0x492d8db6; 0xdb6d8b6d; 0xb6d90496; 0xc9202db6; 0xdb00db6d; 0xb6016492; 0xc81b6db6; 0xc036db6d;
   0x805924b2; 0x2492490; 0x1f1f01; 0xb6000; 0x5b6000; 0x1ffe000; 0x6db6000; 0x16db6000].
Definition emoji_data_125 : list N :=
  [0x3fffc000; 0xb6db4001; 0xb6db0001; 0xef960005; 0xb6da000d; 0xb6d80009; 0xe590002d; 0xb6d8002d;
   0xb6c00049; 0x2480006d; 0xb600016d; 0xb6000249; 0x24001b6d; 0xb6005b6d; 0xb6009249; 0x2416db6d;
   0xb6d6db6d; 0xb604924b; 0x2016db6d; 0x8016db6d; 0x80249259; 0xb6db6d; 0xb6db6c; 0x12492c8;
   0x4924920; 0x0; 0x1f1f01; 0xb6000; 0x5b6000; 0x1fff800; 0x6db6c00; 0x16db6800;
   0x3ffff000; 0xb6db6001; 0xb6db6003; 0xed97c005; 0xb6db000d; 0xb6db0019; 0x6596002d; 0xb6d8002d;
   0xb6d00049; 0x24a0006d; 0xb6c0016d; 0xb6000049; 0x24000b6d; 0xb6001b6d; 0xb6009249; 0x2416db6d;
   0xb6d6db6d; 0xb604b249; 0x2006db6d; 0xb016db6d; 0x80259249; 0x36db6d; 0x80b6db6c; 0x12c9248;
   0x924924; 0x0; 0x1e2000; 0x20000; 0x1fec000; 0xffff000; 0x7fffc003; 0xffff801f;
   0xfffe007f; 0xfff803ff; 0xeff007ff; 0xdf801ffb; 0x7e00f6db; 0x7c01edb6; 0xe007befb; 0x803df6df;
   0x7b6db8; 0x1edb6e0; 0xf6db7c0; 0x1edb6e00; 0x7b6db802; 0xdb6db005; 0xb6db0036; 0xdf6d8db6;
   0xdb6d9b6d; 0xb6db0d92; 0x4b602db6; 0xdb00db6d; 0xb6016492; 0xc81b6db6; 0xc036db6d; 0x805924b2;
   0x2492490; 0x1f1f01; 0xb6000; 0x7fe000; 0x1ffe000; 0x7ffe000; 0x1fffe000; 0x3fffc000;
   0xffffc001; 0xfffb0003; 0xffff0007; 0xb6de000d; 0xb6d8001b; 0xefb8002d; 0xb6d8002d; 0xb6c0005b;
   0x6d80006d; 0xb600016d; 0xb60002db; 0x6c001b6d; 0xb6005b6d; 0xb600b2ff; 0x2c16db6d; 0xb6d6db6d;
   0xb605924b; 0x6016db6d; 0x8016db6d; 0x80249259; 0xb6db6d; 0xb6db6c; 0x12492c8; 0x4924920;
   0x0; 0x1f1f01; 0xb6000; 0x7fe000; 0x1fff800; 0x7fffc00; 0x1ffff800; 0x3ffff800;
   0xfffbe001; 0xfffbe003; 0xffb7c007; 0xb6db000f; 0xb6df001f; 0xedfe003d; 0xb7d8006d; 0xb6d0007b;
   0x6de0006d; 0xb6c001ed; 0xb60000db; 0x6c000b6d; 0xb6001b6d; 0xb60092df; 0x2416db6d; 0xb6d6db6d;
   0xb605b249; 0x6006db6d; 0xb016db6d; 0x80259249; 0x36db6d; 0x80b6db6c; 0x12c9248; 0x924924;
   0x0; 0x1c1f01; 0x492000; 0x12490001; 0x24920024; 0x92400124; 0x92001249; 0x20024924;
   0x80924920; 0x9200201; 0x24924809; 0x24920082; 0xc201259; 0x64809249; 0x20080002; 0x124b248;
   0x9249200; 0x90002016; 0x592d80b2; 0x49600900; 0x12092d96; 0xc9496db2; 0x4092d920; 0x16db6d81;
   0xb6db6c0b; 0x2496436d; 0xb6d81b6d; 0xb6c0b249; 0x64124924; 0x80000000; 0x1f1f01; 0x92000;
   0x492000; 0x924000; 0x2492000; 0x12492000; 0x24924000; 0x92490000; 0x92490001; 0x24020004;
   0x92480004; 0x92480009; 0x81800025; 0x96400024; 0x92400000; 0x25; 0x92000024; 0x90000000;
   0x1b24; 0x96005924; 0xb6009201; 0x24125b2d; 0x92525b6d; 0x9204924b; 0x2016db6d; 0x8016db6d;
   0x80249259; 0xb6db6d; 0xb6db6c; 0x12492c8; 0x4924920; 0x0; 0x1f1f01; 0x92000;
   0x492000; 0x924000; 0x2492000; 0x12492000; 0x24924000; 0x92492000; 0x92492001; 0x24024004;
   0x92490004; 0x92490008; 0x60800025; 0x92c80024; 0x92400040; 0x24; 0x92400024; 0x92000000;
   0xb24; 0x96001b24; 0x96001200; 0x24124b25; 0x92425b2d; 0x92009249; 0x2006db6d; 0xb016db6d;
   0x80259249; 0x36db6d; 0x80b6db6c; 0x12c9248; 0x924924; 0x0; 0x171c02; 0x10000478;
   0x8b000; 0x28000060; 0xc080; 0x1008008; 0x0; 0x824001c6; 0x3fc00; 0x5b40007;
   0xf0000fe0; 0x2d8000; 0x6c0002f8; 0x4b6002; 0x1b400017; 0xb00; 0x4a0004; 0x16c8;
   0x1e0800; 0x3f800036; 0xc0000240; 0x0; 0x181c01; 0x4000112; 0x51600; 0x424000b;
   0x2000400; 0x40000; 0x8000000; 0x0; 0x90400059; 0x5b00; 0x36c000; 0x5b00005b;
   0xb600; 0x5a0000; 0x480025b4; 0x82d800; 0x480000; 0xb0000218; 0x800; 0xc800006;
   0xc0000700; 0x40200; 0x171c01; 0x410; 0xd2000; 0xca00060; 0x80010000; 0x2008008;
   0x0; 0x482; 0x40059200; 0xb2c000d; 0xb0000da0; 0xb0000; 0x6c00016c; 0x24002;
   0x5b60025b; 0x1200; 0x480000; 0x48000010; 0x120800; 0x3600007c; 0xb040; 0x0;
   0x171c02; 0x10000478; 0x8b000; 0x28000060; 0xc080; 0x1008008; 0x0; 0x824001c6;
   0x3fc00; 0x5b40007; 0xf0000fe0; 0x2d8000; 0x6c0002f8; 0x4b6002; 0x1b400017; 0xb00;
   0x4a0000; 0x248; 0x120800; 0x12; 0x40000040; 0x0; 0x181c01; 0x4000112;
   0x51600; 0x424000b; 0x2000400; 0x40080; 0x8020020; 0x0; 0xb0400059; 0x20005b00;
   0x36c000; 0x5b00005b; 0xb600; 0x5a0000; 0x480025b4; 0x82d800; 0x480000; 0xb0000218;
   0x800; 0x4800002; 0x0; 0x200; 0x191c01; 0x101; 0xc480; 0x24a000;
   0x60200040; 0x2002; 0x200000; 0x8000000; 0x482400; 0x1648000b; 0x2c00036c; 0xda00;
   0x2c0000; 0x6c00005b; 0x2400; 0x96d8012; 0x5b000004; 0x80000480; 0x12000; 0x100004;
   0x82000120; 0x0; 0x104000; 0x171d02; 0x10000478; 0x8b000; 0x28000060; 0x2000c080;
   0x3008008; 0x1001001; 0x82c001c6; 0x3fc00; 0x5b40007; 0xf0000fe0; 0x2d8000; 0x6c0002f8;
   0x5b6002; 0x5b400017; 0x4b00; 0x4a0004; 0x800016c8; 0x160800; 0x3e900036; 0xc0000240;
   0x8000; 0x1a1d02; 0x5800145; 0xa0002000; 0x80200; 0xc004001; 0x80100100; 0x8008001;
   0x100048; 0x20000db6; 0x1b600; 0x2d8000; 0x16c00002; 0xd8000090; 0x5b00; 0x5b0000;
   0x9240024b; 0x60020160; 0x800; 0x258000; 0x4100009; 0x40001b2; 0xb040; 0x1000;
   0x0; 0x1000000; 0x191c02; 0x1200018d; 0x80014040; 0x804000; 0xb0100060; 0x8000003;
   0x300240; 0x20002010; 0x2cb000; 0xb680005; 0xb00001b6; 0x16c00; 0x900000; 0xb600002c;
   0x49200; 0x24b60000; 0x5800002; 0x40001640; 0x41000; 0x12480006; 0xc00001a2; 0x4000;
   0x2000; 0x1a1d02; 0x2800082; 0xc0003010; 0x40300; 0x6000002; 0x80; 0xc00c001;
   0x80500024; 0x10001658; 0x3ff00; 0x7fc000; 0x1b600003; 0x600000f8; 0x6c00; 0x2c0002;
   0x5f000b2d; 0xa00100b0; 0x2c00; 0x32c000; 0x3640000d; 0x800002c1; 0xd840; 0x17c000;
   0x640000; 0x800000; 0x1a1d02; 0x5800145; 0xa0002008; 0x80200; 0xc00c005; 0x80100100;
   0xb00a001; 0x300048; 0x24000db6; 0x1b600; 0x2d8000; 0x16c00002; 0xd8000090; 0x5b00;
   0x5b0000; 0x924002cb; 0x60020160; 0x4800; 0x2d8000; 0x2c300009; 0x40001b2; 0xb040;
   0x1000; 0x0; 0x1000000; 0x191c02; 0x1200018d; 0x80014040; 0x804000; 0xb0100060;
   0x8001003; 0x3002c0; 0x20002010; 0x2cb000; 0xb680005; 0xb00001b6; 0x16c00; 0x900000].
Definition emoji_data_126 : list N :=
  [0xb600012c; 0x49200; 0x2cb60008; 0xd800002; 0x40001640; 0xd9000; 0x1ec80006; 0xc30001a2;
   0x4000; 0x6000; 0x1a1d02; 0x2800082; 0xc0003018; 0x40300; 0x6014002; 0x100180;
   0xc00c001; 0x80580034; 0x1000165a; 0x3ff00; 0x7fc000; 0x1b600003; 0x600000f8; 0x6c00;
   0x2c0002; 0xff000b6d; 0xa00100b0; 0x2c00; 0x32c000; 0x3640000f; 0x800003f3; 0xfa40;
   0x1fd000; 0x640000; 0x1800000; 0x1a1d02; 0x5800145; 0xa0002008; 0x80600; 0xc00c005;
   0x80300100; 0xb00a001; 0x40300058; 0x2c000db6; 0x1b600; 0x2d8000; 0x16c00002; 0xd8000090;
   0x5b00; 0x5b0005; 0x924006db; 0x60020160; 0x5800; 0x6d8000; 0x2c30000f; 0x8c0005f2;
   0xf040; 0x1000; 0x0; 0x1000000; 0x191c02; 0x1200018d; 0x80014040; 0x804000;
   0xb0100060; 0x8003003; 0x3002c0; 0x20006030; 0x2cb000; 0xb680005; 0xb00001b6; 0x16c00;
   0x900000; 0xb600002c; 0x59200; 0x2db60008; 0xd800006; 0x40001640; 0xd9000; 0x1fc80007;
   0xc30001e2; 0x6000; 0x6000; 0x1a1c02; 0x2800082; 0xc0003010; 0x40100; 0x6000002;
   0x80; 0x4004000; 0x80000004; 0x658; 0x3ff00; 0x7fc000; 0x1b600003; 0x600000f8;
   0x6c00; 0x2c0000; 0x5f00092d; 0xa00000b0; 0xc00; 0x12c000; 0x12400004; 0x80000241;
   0x4800; 0x20000; 0x240000; 0x181d02; 0x1600055a; 0x20000; 0x202000c; 0x1000600;
   0x200; 0x20010010; 0x200000; 0x5b20006d; 0x80002d80; 0x5b0000; 0x2d800024; 0x5b00;
   0x16c0001; 0x240092d8; 0x16000; 0x200002; 0x58000100; 0x10000; 0x2480001; 0x4000000;
   0x0; 0x40000; 0x191c02; 0x1200018d; 0x80014040; 0x804000; 0xb0100020; 0x1;
   0x100000; 0x20002000; 0x2cb000; 0xb600005; 0xb00001b6; 0x16c00; 0x900000; 0xb600002c;
   0x9200; 0x24b60000; 0x5800002; 0x40001240; 0x41000; 0x2; 0x40000080; 0x4000;
   0x2000; 0x1f2000; 0x40000; 0x780000; 0x16c8000; 0x3640000; 0x3e00000; 0xb6c0000;
   0xbfc0000; 0x1fff0402; 0x5b6cb600; 0xfffcb001; 0xffff2086; 0xdb6db086; 0x497d891c; 0x702db2;
   0xc960acf2; 0x59e048e4; 0x13806d92; 0x4b002792; 0x4e00070c; 0x1c012d96; 0x58092f92; 0xf0001801;
   0xc0016492; 0xc8036c96; 0x4806d92c; 0xb6db6; 0x1b6db6; 0x36db6c; 0x5b6db0; 0xdb6db0;
   0x924920; 0x1f2000; 0x80000; 0x780000; 0xd90000; 0x2d90000; 0x7f00000; 0x6db0000;
   0x7ff0000; 0xffe0800; 0x36da6c00; 0xfffd6c01; 0xff984921; 0x965b6104; 0x92412209; 0x86001b05;
   0x96415b04; 0x92011201; 0xd824; 0x90004024; 0x90000009; 0x492c; 0x80024024; 0x0;
   0x2c924; 0x90024924; 0x92049248; 0x16db6c; 0x80124924; 0x249248; 0xb6db6c; 0x924920;
   0x200000; 0x1d2000; 0x200000; 0x3e00000; 0x36400000; 0xd9000007; 0xc000002d; 0xb00000ff;
   0xc0000fff; 0x8800db6c; 0xb04ffdf6; 0xc07fe7d2; 0x21b65b64; 0x9e4965a4; 0xc20902c3; 0x25905b25;
   0x96404880; 0x2058649; 0x20100924; 0x900; 0x920b600; 0x24824000; 0x0; 0xc924920b;
   0x64924809; 0x248001b6; 0xdb6016db; 0x6d801249; 0x60036db6; 0xc02db6db; 0x200040; 0x1f2000;
   0x40000; 0x780000; 0x16c8000; 0x3640000; 0x3e00000; 0xb640000; 0x3240000; 0x402;
   0x4924b600; 0x4924b000; 0x12082; 0x4925b082; 0x49258900; 0x82002d92; 0xc920ac12; 0x59004804;
   0x10016c92; 0x49002092; 0x4800000c; 0x12496; 0x48092492; 0x40004020; 0x16492; 0x48036c96;
   0x4806d92c; 0xb6db6; 0x1b6db6; 0x36db6c; 0x5b6db0; 0xdb6db0; 0x924920; 0x1f2000;
   0x80000; 0x780000; 0xd90000; 0x2d90000; 0x7f00000; 0x6c80000; 0x2480000; 0x800;
   0x12486c00; 0x12496c00; 0x4920; 0x92436100; 0x92412201; 0x86001b05; 0x96415b24; 0x92019201;
   0xd825; 0x90004024; 0x90000009; 0x2492c; 0x80024024; 0x8; 0x2c924; 0x90024924;
   0x92049248; 0x16db6c; 0x80124924; 0x249248; 0xb6db6c; 0x924920; 0x200000; 0x1f2000;
   0x120000; 0xb60000; 0x1fc0000; 0x1b20000; 0x5f00000; 0x3800000; 0x4920000; 0x4920800;
   0x1009; 0x2492d801; 0x2492d800; 0x9249; 0x2492c609; 0x24804403; 0xc00364b; 0x2c82b649;
   0x24022002; 0xb049; 0x20000049; 0x20000012; 0x49049; 0x8048; 0x10080; 0x5b65b;
   0x2405b259; 0x20092492; 0x2db6db; 0x2db6d8; 0x492490; 0x16db6d8; 0x1249240; 0x1f2000;
   0x580000; 0xd80000; 0x1f00000; 0x6c90000; 0x6c00000; 0xfb00000; 0x16d80000; 0x16d82c00;
   0x7ffe4821; 0xb6d96025; 0xb6db600f; 0xecf2412d; 0xb6db0b2c; 0x92c1126b; 0x2cc0596d; 0xb6c0d924;
   0x92009349; 0x2602cb6d; 0xb6000b2c; 0xb0009e59; 0x6016db6d; 0xa0025925; 0x80008241; 0x6db6d;
   0xb216d96c; 0x900db6d9; 0x36db6c; 0xb6db6c; 0x6db6d0; 0x1b6db60; 0x924900; 0x1f2000;
   0x180000; 0x580000; 0xf80000; 0x2d90000; 0x6c80000; 0x7f20000; 0x6db0400; 0x16db2c00;
   0x3ffe4804; 0xb6d96c20; 0xb6d96001; 0x24924105; 0xb6c36b05; 0x96411209; 0x24805b2d; 0xb6015825;
   0x92009009; 0x2000c06d; 0xb000002d; 0x80008049; 0x16c16c; 0x24124; 0x8240; 0x2db6d;
   0xb202c924; 0x90049249; 0x16db6c; 0x164924; 0x249248; 0xb6db60; 0x924920; 0x1f2000;
   0x120000; 0xb60000; 0x1fc0000; 0x1b20000; 0x5b00000; 0x3ec0000; 0x5b60000; 0x2db60800;
   0x7ffe1009; 0x6db6d801; 0x6db6d803; 0xd93c924b; 0x6db2c619; 0x24b04413; 0xcd40365b; 0x6d82b649;
   0x25022092; 0x4800b0db; 0x6c000059; 0x20000092; 0x5b059; 0x48048; 0x10090; 0x805b6db;
   0x6405b659; 0x20092492; 0x2db6db; 0x2db6d8; 0x492490; 0x16db6d8; 0x1249240; 0x1f2000;
   0x580000; 0xd80000; 0x1f00000; 0x6c90000; 0x6c00000; 0xff00000; 0x16d80000; 0x16d82c00;
   0x7ffe4821; 0xb6d96025; 0xb6db600f; 0xfcf2412d; 0xb6db0b2d; 0xb6c1127b; 0x2dc0596d; 0xb6c0d96d;
   0xb60093cb; 0x2e02cb6d; 0xb6000b6d; 0xb0009e59; 0xe016db6d; 0xa012d965; 0x80048241; 0x2006db6d;
   0xb616db6d; 0x900db6d9; 0x36db6c; 0xb6db6c; 0x6db6d0; 0x1b6db60; 0x924900; 0x1f2000;
   0x180000; 0x580000; 0xf80000; 0x2d90000; 0x6c80000; 0x7f60000; 0x6db0400; 0x16db2c00;
   0x3ffe4804; 0xb6d96c20; 0xb6d96001; 0xecb24105; 0xb6c36b0d; 0xb6c1120b; 0x2c805b2d; 0xb601582d;
   0xb6009049; 0x2400c06d; 0xb000006d; 0x80009059; 0x16d16c; 0x2c16c; 0x8248; 0x2db6d;
   0xb602cb25; 0xb0049249; 0x16db6c; 0x164924; 0x249248; 0xb6db60; 0x924920; 0x1f2000;
   0x120000; 0xb60000; 0x1fc0000; 0x1b20000; 0x5b00000; 0x3fc0000; 0x5b60000; 0x2db60800].
Definition emoji_data_127 : list N :=
  [0x7fff1009; 0x6db6d803; 0x6db6d803; 0xf93c924b; 0x6db2c61b; 0x6db04413; 0xcf40365b; 0x6d82b65b;
   0x6d022092; 0x4800b0db; 0x6c0000db; 0x600120b6; 0xdb0db; 0x5a0d8; 0x10090; 0x805b6db;
   0x6c05b6db; 0x60092492; 0x2db6db; 0x2db6d8; 0x492490; 0x16db6d8; 0x1249240; 0x1f2000;
   0x580000; 0xd80000; 0x1f00000; 0x6c90000; 0x6c80000; 0xff80000; 0x17fa0000; 0x3ffe2c00;
   0x7ffe4821; 0xfffb6027; 0xfffb600f; 0xfffa412f; 0xb6fb0b3d; 0xb6e1127f; 0x7dc059ed; 0xb7c0d9ed;
   0xb70093df; 0x6e02cf6d; 0xbe000f6d; 0xf8019fff; 0xf016df6f; 0xe016fb6f; 0x800593e1; 0x2006db6d;
   0xb616db6d; 0xb00db6db; 0x36db6c; 0xb6db6c; 0x6db6d0; 0x1b6db60; 0x924900; 0x1f2000;
   0x180000; 0x580000; 0xf80000; 0x2d90000; 0x6c80000; 0x7fe0000; 0x7ff0400; 0x1fff2c00;
   0x3ffe4804; 0xfffd6c21; 0xffd96001; 0xffb24107; 0xb6e32b0d; 0xb6c1121b; 0xef805b2d; 0xb681582d;
   0xb600905b; 0xec00c06d; 0xb000007d; 0xa00490ff; 0x16d16c; 0x2c16c; 0x83f8; 0x2db6d;
   0xb602cb65; 0xb0049249; 0x16db6c; 0x164924; 0x249248; 0xb6db60; 0x924920; 0x1f2000;
   0x120000; 0xb60000; 0x1fc0000; 0x1b20000; 0x5b00000; 0x3fc0000; 0xdfe0000; 0x3fff0800;
   0x7fff1009; 0xfffed803; 0xffbed807; 0xff7c924f; 0x6db2c61f; 0xefb0441f; 0xdfe0367b; 0x6d82b65b;
   0x6d0220f7; 0xdc00b0db; 0x6c0000db; 0x600120ff; 0xc00db0db; 0x5a0d8; 0x101f0; 0x805b6db;
   0x6c05b6db; 0x60092492; 0x2db6db; 0x2db6d8; 0x492490; 0x16db6d8; 0x1249240; 0x1f2000;
   0x580000; 0xd80000; 0x1f00000; 0x6c90000; 0x6c00000; 0xf900000; 0x16480000; 0x12482c00;
   0x24904820; 0x92496020; 0x924b6001; 0x24924104; 0x924b0b24; 0x92411243; 0x805824; 0xb200d924;
   0x92009201; 0x402c124; 0x9000092c; 0x90001259; 0x20124924; 0x80024924; 0x80008000; 0x6d92c;
   0x9216d96c; 0x800db6d8; 0x36db6c; 0xb6db6c; 0x6db6d0; 0x1b6db60; 0x924900; 0x1f2000;
   0x180000; 0x580000; 0xf80000; 0x2d90000; 0x6c00000; 0x7900000; 0x6c90400; 0x2482c00;
   0x24924804; 0x92496c20; 0x92496001; 0x4124104; 0x92436b04; 0x92411201; 0x4005b24; 0x92015824;
   0x92009001; 0xc024; 0x90000025; 0x80000008; 0x124124; 0x24020; 0x8000; 0x2d92c;
   0x9202c924; 0x90049249; 0x16db6c; 0x164924; 0x249248; 0xb6db60; 0x924920; 0x1f2000;
   0x120000; 0xb60000; 0x1fc0000; 0x1b20000; 0x5b00000; 0x3a00000; 0x5920000; 0x4920800;
   0x49241009; 0x2492d801; 0x2492d802; 0x48249249; 0x2492c609; 0x24904413; 0xc00364b; 0x2c82b649;
   0x24022002; 0xb049; 0x20000049; 0x20000012; 0x49049; 0x8048; 0x10000; 0x5b65b;
   0x2405b259; 0x20092492; 0x2db6db; 0x2db6d8; 0x492490; 0x16db6d8; 0x1249240; 0x1c1d02;
   0x1e00008; 0x2c000041; 0xe000001e; 0x82c0; 0x41200; 0x12000; 0x92d8249; 0x41203200;
   0x12030002; 0xc9200012; 0x120; 0x2c00; 0x12000; 0x120000; 0x2480000; 0x12000000;
   0x20; 0x80000004; 0x0; 0x20800; 0x4000; 0x0; 0x20800000; 0x80;
   0x40001209; 0x0; 0x1f1d02; 0x200200; 0x24900920; 0x24800900; 0x0; 0x24004800;
   0x20004802; 0xc000900b; 0x2002c81b; 0x2002c836; 0x10792d9; 0x209652c1; 0x20824582; 0xd6c0;
   0x2016d600; 0x968c00; 0x7e1600; 0xb61200; 0x4902000; 0x8009000; 0x4809000; 0x20800000;
   0x48000; 0x242c8001; 0x44080007; 0x80040008; 0x24040000; 0x680b0000; 0xc02c0003; 0x0;
   0x1f1e01; 0x400000; 0x800000; 0x2402400; 0x2002400; 0x800; 0x12012000; 0x90012001;
   0x400d; 0x90032024; 0x800b2048; 0x12036c; 0x824b6924; 0x80494200; 0x25b04; 0x904b0900;
   0x5b1200; 0xb25800; 0x2d84800; 0x12400000; 0x4800; 0x12020000; 0x2040000; 0x104000;
   0x82320005; 0x8020000b; 0x20024; 0x10120000; 0xb0240001; 0x120004; 0x80000000; 0x1f1e01;
   0x800000; 0x800900; 0x1001200; 0x4804800; 0x4004800; 0x8000001; 0x60004803; 0x20004802;
   0x805b; 0x20024059; 0x124090; 0x12406c9; 0x825609; 0x20024400; 0x49600; 0x961600;
   0x922400; 0x1203200; 0x5b01000; 0x800000; 0x49000; 0x24040000; 0x4080000; 0x2c8003;
   0x424000b; 0x0; 0xc0001; 0x602c0001; 0x20080002; 0x0; 0x1f1f01; 0x10090000;
   0x901b0001; 0x20320000; 0x80c80000; 0x2480000; 0x4000000; 0x6400000; 0x2000000; 0x4000024;
   0xb2c00024; 0x92400001; 0x66000005; 0xb6492005; 0xb449000f; 0xf800000d; 0xb000002d; 0x8000007f;
   0x6d; 0x16c; 0x80049249; 0x2496db6d; 0xb6d24924; 0x92249249; 0x24b6db6d; 0xb6924924;
   0x91249249; 0x25b6db6d; 0xb4924924; 0x89249249; 0x24924924; 0x80000000; 0x201f01; 0x12010000;
   0x8058000; 0x8040000; 0x12090000; 0xc8000; 0x0; 0x10090000; 0x48000; 0x0;
   0x12492000; 0x9249000; 0x0; 0x92492; 0x49048; 0x0; 0x92000; 0x48000;
   0x0; 0x92000; 0x249000; 0x49249248; 0xb6db6db6; 0x49249249; 0x49249248; 0xb6db6db6;
   0x49249249; 0x49249248; 0xb6db6db6; 0x49249249; 0x49249248; 0x92492492; 0x1f1f01; 0x24020000;
   0x24160000; 0x40200001; 0x20920001; 0x900000; 0x1000008; 0x900008; 0x800000; 0x1000049;
   0x64900049; 0x65b00002; 0x49200003; 0x6d924003; 0x6c124002; 0x4800000b; 0x6000000b; 0x60000012;
   0x4000005b; 0x259; 0x12492; 0x492db6db; 0x6da49249; 0x24892492; 0x496db6db; 0x6d249249;
   0x24492492; 0x4b6db6db; 0x69249249; 0x22492492; 0x49249249; 0x0; 0x1f1f01; 0x10090000;
   0x901b0001; 0x20320000; 0x80c80000; 0x2480000; 0x4000000; 0x6400000; 0x2000000; 0x4000024;
   0xb2c00024; 0xb2400001; 0x66000005; 0xb6492005; 0xb449000f; 0xf800000d; 0xb000002d; 0x8000007f;
   0x6d; 0x16c; 0x80049249; 0x2496db6d; 0xb6d24924; 0x92249249; 0x24b6db6d; 0xb6924924;
   0x91249249; 0x25b6db6d; 0xb4924924; 0x89249249; 0x24924924; 0x80000000; 0x201f01; 0x12010000;
   0x8058000; 0x8048000; 0x12092000; 0xc8000; 0x40000; 0x10090000; 0x48000; 0x0;
   0x12492000; 0x9249000; 0x0; 0x92492; 0x49048; 0x0; 0x92000; 0x49000;
   0x0; 0x92000; 0x249000; 0x49249248; 0xb6db6db6; 0x49249249; 0x49249248; 0xb6db6db6;
   0x49249249; 0x49249248; 0xb6db6db6; 0x49249249; 0x49249248; 0x92492492; 0x1f1f01; 0x24020000;
   0x24160000; 0x40240001; 0x20b20001; 0x900000; 0x1000008; 0x900008; 0x800000; 0x1000049;
   0x64900049; 0x65b00002; 0x4920000b; 0x6d924003; 0x6c124002; 0x4800000b; 0x6000000b; 0x60000012].
Definition emoji_data_128 : list N :=
  [0x4000005b; 0x259; 0x12492; 0x492db6db; 0x6da49249; 0x24892492; 0x496db6db; 0x6d249249;
   0x24492492; 0x4b6db6db; 0x69249249; 0x22492492; 0x49249249; 0x0; 0x1f1f01; 0x10090000;
   0x901b0001; 0x20320000; 0x80d80004; 0x2480000; 0x490000c; 0x6c00020; 0x2000000; 0x4000065;
   0xb6c00124; 0xb2400049; 0x66900005; 0xb6592005; 0xb449000f; 0xf800000d; 0xb000002d; 0x8000007f;
   0x6d; 0x16c; 0x80049249; 0x2496db6d; 0xb6d24924; 0x92249249; 0x24b6db6d; 0xb6924924;
   0x91249249; 0x25b6db6d; 0xb4924924; 0x89249249; 0x24924924; 0x80000000; 0x201f01; 0x12010000;
   0x8058000; 0x8048000; 0x120b6000; 0x80c8000; 0x48000; 0x100b0000; 0x48000; 0x40000;
   0x125b2000; 0x9249000; 0x9249200; 0x25b6592; 0x249249; 0x49000; 0xb6000; 0x49000;
   0x48000; 0xb6000; 0x249000; 0x49249248; 0xb6db6db6; 0x49249249; 0x49249248; 0xb6db6db6;
   0x49249249; 0x49249248; 0xb6db6db6; 0x49249249; 0x49249248; 0x92492492; 0x1f1f01; 0x24020000;
   0x24160000; 0x40240001; 0x20b60001; 0x900002; 0x1200008; 0x1b00008; 0x800010; 0x1000049;
   0x6d900049; 0x65b00092; 0x4920004b; 0x6db24003; 0x6c124002; 0x4800800b; 0x6000000b; 0x60000012;
   0x4000005b; 0x25b; 0x12492; 0x492db6db; 0x6da49249; 0x24892492; 0x496db6db; 0x6d249249;
   0x24492492; 0x4b6db6db; 0x69249249; 0x22492492; 0x49249249; 0x0; 0x1f1f01; 0x10090000;
   0x901b0001; 0x20320004; 0x80d80004; 0x2d80008; 0x690000c; 0x6c00020; 0x6000040; 0x2400006d;
   0xb6c0016d; 0xb6c00049; 0x6f900005; 0xb6db6005; 0xb45b000f; 0xf802000d; 0xb000002d; 0x8000007f;
   0x6d; 0x16c; 0x80049249; 0x2496db6d; 0xb6d24924; 0x92249249; 0x24b6db6d; 0xb6924924;
   0x91249249; 0x25b6db6d; 0xb4924924; 0x89249249; 0x24924924; 0x80000000; 0x201f01; 0x12010000;
   0x48058000; 0x8048000; 0x320b6000; 0x80d8000; 0x48000; 0x300b4000; 0x18058000; 0x240000;
   0x36db6000; 0x1b6db200; 0x9249200; 0x25b6db6; 0x2db2db; 0x49000; 0x1b6000; 0xdb000;
   0x49000; 0xb6000; 0x2d9000; 0x49249248; 0xb6db6db6; 0x49249249; 0x49249248; 0xb6db6db6;
   0x49249249; 0x49249248; 0xb6db6db6; 0x49249249; 0x49249248; 0x92492492; 0x1f1f01; 0x24020000;
   0x24160000; 0x40240001; 0x20b60001; 0xb60002; 0x1200008; 0x1b00008; 0x1800010; 0x100005b;
   0x6d90005b; 0x6db00092; 0x4920004b; 0x6db6c003; 0x6c16c002; 0x4800800b; 0x6000000b; 0x60000012;
   0x4000005b; 0x25b; 0x12492; 0x492db6db; 0x6da49249; 0x24892492; 0x496db6db; 0x6d249249;
   0x24492492; 0x4b6db6db; 0x69249249; 0x22492492; 0x49249249; 0x0; 0x1f1f01; 0x10090000;
   0x901b0001; 0x203e0004; 0x80d80004; 0x2d80008; 0x7b0000c; 0x6c00020; 0x6800040; 0x2e00006d;
   0xb6c0016d; 0xb6c000db; 0xffb00025; 0xb6db6005; 0xb45b000f; 0xf802000d; 0xb000002d; 0x8000007f;
   0x6d; 0x16c; 0x80049249; 0x2496db6d; 0xb6d24924; 0x92249249; 0x24b6db6d; 0xb6924924;
   0x91249249; 0x25b6db6d; 0xb4924924; 0x89249249; 0x24924924; 0x80000000; 0x201f01; 0x12010000;
   0x48058000; 0x8058000; 0x320b6000; 0x180d8000; 0x10078000; 0x300b4000; 0x18058000; 0x18258000;
   0x36db6000; 0x1b6db600; 0xb6db600; 0x25b6db6; 0x2db2db; 0xdb008; 0x1b6000; 0xdb000;
   0xdb000; 0xb6000; 0x2db000; 0x49249248; 0xb6db6db6; 0x49249249; 0x49249248; 0xb6db6db6;
   0x49249249; 0x49249248; 0xb6db6db6; 0x49249249; 0x49249248; 0x92492492; 0x1f1f01; 0x24020000;
   0x24160000; 0x402c0001; 0x20b60003; 0xb60002; 0x1680008; 0x1b00018; 0x1800010; 0x300005b;
   0x6d9000db; 0x6db000b6; 0x4924004b; 0x6db6c003; 0x6cb6c002; 0x4800800b; 0x6000000b; 0x60000012;
   0x4000005b; 0x25b; 0x12492; 0x492db6db; 0x6da49249; 0x24892492; 0x496db6db; 0x6d249249;
   0x24492492; 0x4b6db6db; 0x69249249; 0x22492492; 0x49249249; 0x0; 0x1f1e01; 0x10000000;
   0x480d8000; 0x48240000; 0x80400002; 0x1240002; 0x1200000; 0x2000010; 0x3000010; 0x9000000;
   0x10400092; 0x59200092; 0x5b200000; 0xf6000002; 0xdb248006; 0xd8000007; 0xf0000016; 0xc0000016;
   0xc000003f; 0x800004b6; 0x40012492; 0x49224924; 0x925b6db6; 0xdb492492; 0x49124924; 0x92db6db6;
   0xda492492; 0x48924924; 0x96db6db6; 0xd2492492; 0x40000000; 0x1f1e01; 0x8000001; 0x20160001;
   0x20320002; 0x40000001; 0x1900008; 0x4900000; 0x8; 0x4800040; 0x4000000; 0x49;
   0x24900049; 0x24900000; 0x9; 0x24924009; 0x20000000; 0x9; 0x20000009; 0x0;
   0x24b; 0x49249; 0x24892492; 0x492db6db; 0x6da49249; 0x24492492; 0x496db6db; 0x6d249249;
   0x22492492; 0x4b6db6db; 0x69249249; 0x0; 0x201e01; 0x8000000; 0x120b0000; 0x80c8000;
   0x80c0000; 0x10092000; 0xc8000; 0x40000; 0x10010000; 0x248000; 0x249000; 0x125b6c00;
   0x92db200; 0x249000; 0x1b6092; 0xdb000; 0x49000; 0x1b6000; 0xd8000; 0x48000;
   0x5b6400; 0x49249248; 0x49249248; 0xb6db6db6; 0x49249249; 0x49249248; 0xb6db6db6; 0x49249249;
   0x49249248; 0xb6db6db6; 0x49249249; 0x191d01; 0x40600059; 0x6c0016fa; 0x92000; 0x80c8002;
   0x1000000; 0x125b0; 0x4b6c00; 0xfe0000; 0x3649200d; 0x80000780; 0x6c000; 0x1b00000;
   0xf80000d8; 0xfe00; 0x7f8000; 0x59600010; 0x40000000; 0x82000; 0x10000000; 0x4020;
   0x100000; 0x8000008; 0xc000000; 0x191f00; 0x200000; 0x3e000c36; 0xb0c80; 0x4020000;
   0x2400000; 0x80000000; 0x12c900; 0x4b60000; 0x900000b; 0x649006c0; 0x12000; 0x1600000;
   0xd8000024; 0x6d80; 0x1b4000; 0x3ce0000c; 0xb0000104; 0x0; 0x4020008; 0x4000000;
   0x41000; 0x8040004; 0x2000402; 0x10000; 0x0; 0x171d01; 0x20f000a2; 0xd80186c0;
   0x1040004; 0x12000000; 0x0; 0x25920025; 0xb6000124; 0x5b248; 0x5800009; 0xd80;
   0x2c0000; 0x4800016c; 0x16c00; 0x258000b; 0x60000820; 0x2; 0x41000208; 0x0;
   0x80000002; 0x400; 0xc100000; 0x191d01; 0x40000059; 0x24003048; 0x80000; 0x8048002;
   0x1000000; 0x125b0; 0x4b6c00; 0xfe0000; 0x3649200d; 0x80000780; 0x6c000; 0x1b00000;
   0xf80000d8; 0xfe00; 0x7f8000; 0x59600010; 0x40000000; 0x82400; 0x10000000; 0x4820;
   0x100000; 0x8000008; 0xc000000; 0x191d02; 0x3048002c; 0x12001000; 0x900; 0x4020000;
   0x4b; 0x640012d9; 0x2400; 0x2d9240; 0x1b000004; 0x80000580; 0x36000; 0x900001;
   0xb600006d; 0xf380; 0x32c000; 0x24100000; 0x1048; 0x201000; 0x10; 0x40002010].
Definition emoji_data_129 : list N :=
  [0x100800; 0x10080004; 0x0; 0x171d01; 0x200000a2; 0x40018240; 0x1000004; 0x2000002;
   0x0; 0x25b20025; 0xb6000124; 0x5b248; 0x5800009; 0xd80; 0x2c0000; 0x4800016c;
   0x16c00; 0x258000b; 0x60000820; 0x2; 0x41000208; 0x0; 0x80400002; 0x400;
   0xc100000; 0x191d01; 0x40600059; 0x6c0036da; 0x92400; 0x80d8002; 0x1000100; 0x800125b0;
   0x4b6c00; 0xfe4000; 0x3649200d; 0x80000780; 0x6c000; 0x1b00000; 0xf80000d8; 0xfe00;
   0x7f8000; 0x59600010; 0x40000820; 0x82400; 0x10080000; 0x20004820; 0x100000; 0x8000008;
   0xc000000; 0x191f00; 0x200000; 0x3c002c36; 0xb0c80; 0x4024000; 0x2c00100; 0x80000040;
   0x32d900; 0x4b6c000; 0x920000b; 0x659006c0; 0x12000; 0x1600000; 0xd8000024; 0x6d80;
   0x1b4000; 0x3ce0000c; 0xb0000b04; 0x40200; 0x4960009; 0x4000400; 0x41000; 0x8040004;
   0x2000402; 0x10000; 0x0; 0x1a1d01; 0x20b00034; 0x5a00060b; 0x8240; 0x416000;
   0x40000; 0x12d; 0x900025b6; 0x2480; 0x16c924; 0x2c00000; 0x9000001b; 0xb00;
   0x24000; 0x16c0000; 0x2d800009; 0x600005b0; 0x8200; 0x208000; 0xb0400010; 0x40002000;
   0x100800; 0x80000; 0x20000c1; 0x0; 0x191d01; 0x40600059; 0x6c0036da; 0x93c00;
   0x80d8002; 0x3000100; 0x80016db0; 0x5b6c00; 0xfe4000; 0x365b200d; 0x80000780; 0x6c000;
   0x1b00000; 0xf80000d8; 0xfe00; 0x7f8000; 0x59600014; 0x40000820; 0x182c00; 0x10580008;
   0x20005820; 0x100000; 0x8000008; 0xc000000; 0x191f00; 0x200000; 0x3c002c36; 0xb0d80;
   0x4064001; 0x2c00100; 0x90008040; 0x36d900; 0x2db6c000; 0x924000b; 0x6db006c1; 0x12000;
   0x1600000; 0xd8000024; 0x6d80; 0x1b4000; 0xce0000c; 0xb0000b2c; 0x40200; 0xd96000b;
   0xc000400; 0xc1000; 0x8040004; 0x2000402; 0x10000; 0x0; 0x1a1d01; 0x20f00034;
   0x5a00061b; 0x8240; 0x416000; 0x2c0000; 0x16d; 0x90002db6; 0x2480; 0x16db64;
   0x2c10000; 0x9000001b; 0xb00; 0x24000; 0x16c0000; 0x2d800009; 0x600005b0; 0x18600;
   0x208000; 0xb0c00030; 0x40002010; 0x101800; 0x80000; 0x20000c1; 0x0; 0x191d01;
   0x4060005b; 0x7c0037fa; 0x9fc00; 0x80d8002; 0x3000100; 0x80016db0; 0x5b6c00; 0xffc000;
   0x365b600d; 0x80000780; 0x6c000; 0x1b00000; 0xf80000d8; 0xfe00; 0x7f8000; 0x59600010;
   0x40001820; 0x582c00; 0x30580018; 0x20005860; 0x100000; 0x8000008; 0xc000000; 0x171f00;
   0x400083; 0xe00307e0; 0x586c00c; 0x1e00081c; 0x201600; 0x20300049; 0x24016db6; 0x25b640;
   0x125b00d; 0x82400d80; 0x90000; 0x6c00016c; 0x2d800; 0x368000b; 0x600018e0; 0x596000;
   0xc1400586; 0x161800; 0x30400101; 0x80040200; 0x4000010; 0x2000; 0x0; 0x1a1f00;
   0x80010; 0x1f000587; 0xc002c3e0; 0x406c00; 0x101b0002; 0x5800100; 0x80004924; 0xdb6c0;
   0x16d900; 0x92d900; 0x5824800b; 0x240; 0x16000; 0x2c0000; 0xb000005; 0xb00001b4;
   0x6500; 0x30c000; 0x1458000c; 0x10001609; 0x60800; 0x20000; 0x81000040; 0x20001000;
   0x400; 0x0; 0xf1e01; 0x20904123; 0x64832480; 0x8080400; 0xc84b; 0x6c036c03;
   0xe003600b; 0x1e001b; 0x5800fc; 0x2d807f8; 0xe701440; 0x10400004; 0x12200000; 0x1000004;
   0x81800; 0x0; 0x131f00; 0x400804; 0x1808058; 0x24041200; 0x2012; 0x2010001;
   0x24125b60; 0x5b20012; 0xd8200; 0xd8000900; 0x6c0016c; 0x2d8003; 0x6800b600; 0x18c00592;
   0x410000; 0x120801; 0x4000000; 0x40200400; 0x1000020; 0x0; 0x121e01; 0x400c12;
   0x6090201; 0x20000000; 0x24000400; 0x92025b6; 0xb64004; 0x8002c100; 0x58001200; 0xb000160;
   0x58002d; 0x800da003; 0x20008200; 0x80400000; 0x10401000; 0x8; 0x2010080; 0x2000;
   0x201f01; 0x40000000; 0x40000000; 0xb0000000; 0x40000000; 0x40000000; 0x90092480; 0x402db6c0;
   0x407db6f8; 0xb0d924b4; 0x41649258; 0x4124904c; 0x92c92496; 0x4324924b; 0x4324920b; 0xb2c96c96;
   0x4324b24a; 0x41a5be48; 0xb2cb6c96; 0x416df6d8; 0x403dffc8; 0xb05b6d90; 0x4000f000; 0x40043000;
   0xb00b4000; 0x480fc000; 0x4807c000; 0x360b6000; 0x9240000; 0x9240000; 0x2d80000; 0x1200000;
   0x142000; 0x80002; 0x48002480; 0x2db60920; 0x80900836; 0xc165b008; 0x49008b6c; 0x16db6084;
   0x9e08b6c1; 0x6db6084b; 0xe08b6c12; 0xdb4494f0; 0x9b60925; 0xb0494b00; 0x93609203; 0x4901000;
   0xb2000; 0x40000400; 0xb00004; 0x4000; 0xb000040; 0x202000; 0x1000000; 0x1824000;
   0x900800; 0x9649240; 0x24b00020; 0x24120000; 0x5b2d9248; 0x2582c004; 0x580c000; 0x4964b249;
   0xb25800; 0x161800; 0x4925964b; 0x6402c824; 0x6400c026; 0xdb2492db; 0x7c92496c; 0x7f9249fe;
   0xdb6db6db; 0x7ff7fbfc; 0x7ffffffe; 0xdb6db6db; 0x7ff7fbfc; 0x7ffffffe; 0x5b6db6db; 0x7ff7fbfc;
   0x3ffffffc; 0x1b6db6d8; 0x5ffff60; 0xbff900; 0x12db600; 0x24000; 0x1c1e01; 0x10000080;
   0xc; 0x92492904; 0x92481000; 0x4820924; 0x92104924; 0x81048200; 0x60924920; 0x24924900;
   0x48248049; 0x24920249; 0x24902480; 0x48049209; 0x20248048; 0x480000; 0x9001000; 0x40000000;
   0x0; 0x1000400; 0x8000000; 0x80010; 0x400080; 0x0; 0x80012004; 0x490000;
   0x4900; 0x0; 0x161806; 0x12492124; 0x92400000; 0x24924940; 0x110000; 0x492492d2;
   0x49244000; 0x124924b4; 0x92491240; 0x24b6496d; 0x6496c492; 0x492db6db; 0x5925b124; 0x92436db6;
   0x92db6449; 0x2490db6d; 0x84924902; 0x49200000; 0xc1f00; 0x2009009; 0x16c0920; 0x9236c492;
   0x492b6d49; 0x249236c0; 0x92090160; 0x9009006; 0x900900; 0x60090090; 0x6009009; 0x600900;
   0x90060000; 0x1e1a04; 0x2492480; 0x7fffff02; 0xdb6db60c; 0x90006cf2; 0x9992; 0x4924b924;
   0x97080; 0x76492; 0x492e4920; 0x25c2000; 0x1d92492; 0x4b924924; 0x97080002; 0x76492492;
   0xe4924925; 0xc200009d; 0x900124b9; 0x24924970; 0x80002764; 0x492e49; 0x24925d24; 0x9249d924;
   0x924b8000; 0x160000; 0x0; 0x1d2000; 0x92000496; 0xd8009252; 0x4004916d; 0x805b65b6;
   0x9240490; 0x49005b65; 0xb6016d92; 0x40012492; 0x16db60; 0x592400; 0x2492000; 0x5b60000;
   0x12400000; 0x92000009; 0x24000124; 0x90000924; 0x800092d9; 0x25b24; 0x124920; 0x1259200;
   0x4b24800; 0x24924002; 0x4b240009; 0x64900049; 0x24000496; 0x48001249; 0x1240; 0x12480;
   0x8000; 0x1f1f00; 0x92400492; 0xb6000491; 0x24804921; 0xb6016d81; 0xb6012401; 0x24024801].
Definition emoji_data_130 : list N :=
  [0xb65b6001; 0xb6490001; 0x24920005; 0xb6d80005; 0xb2400001; 0x24800004; 0x92000004; 0x92000000;
   0x24; 0x90000025; 0x9000000b; 0x96d; 0x90000964; 0x900000c0; 0x4964; 0x80004924;
   0x80000240; 0x24b24; 0x24b24; 0xb600; 0x2db20; 0x24900; 0x0; 0x24800;
   0x0; 0x1f2000; 0x92400492; 0xb6c00490; 0x24800920; 0xb6c06d80; 0xb6c12400; 0x24824800;
   0xb6db6000; 0xb6c92001; 0x24920001; 0xb6db0001; 0xb2480001; 0x24800001; 0xb6c00000; 0x92000001;
   0x2400002d; 0xb6000025; 0x9200004f; 0xe400036d; 0xb600096d; 0x90001279; 0x20005b6d; 0xb0004b64;
   0x80009749; 0xdb6d; 0x80025b64; 0x9fc8; 0x2db60; 0x24920; 0x49200; 0x2d800;
   0x4000; 0x182000; 0x124800d; 0xb6c03fff; 0xe05b6db0; 0x6db6d07f; 0xfff0db6d; 0xb06db6d8;
   0x7ffffedb; 0x6db66db6; 0xdf7fffff; 0xdb6db66d; 0xb6df7fff; 0xffdb6db6; 0x6db6da7f; 0xfffc5b6d;
   0xb66db6d8; 0x7ffff85b; 0x6db06db6; 0xc0249240; 0x59248024; 0x92402000; 0x592480; 0x24924020;
   0x5924; 0x80040000; 0x1c1f01; 0x492000; 0x2d90000; 0x2d900125; 0xb649492d; 0x924002d8;
   0x925b24; 0x94924924; 0x48009; 0x24b24949; 0x24924080; 0x4000924b; 0x24949249; 0x24080080;
   0x9249249; 0x49249240; 0x80080096; 0x492594f2; 0x4b640fff; 0xfe096db6; 0xd9097fb2; 0x3d800;
   0x2596400; 0x17df2000; 0x70e20025; 0x96400124; 0x92000000; 0x4920; 0x0; 0x1f1803;
   0x6db000; 0x1b6d800; 0x5b6d800; 0x124f000; 0xc000; 0x2c000; 0x78001; 0x24964003;
   0x6db6801f; 0xffff80db; 0x6db6c2db; 0x6db6c5b6; 0xdb6d96db; 0x6db6f6db; 0x6db62492; 0x4924b6db;
   0x6db69249; 0x24912492; 0x4925b6db; 0x6dbdb6db; 0x6d8b6db6; 0xdb2db6db; 0x6c2db6db; 0x64000000;
   0x201f01; 0x2580000; 0x9640000; 0x9640000; 0x16ca0000; 0xb2c0000; 0x497c0000; 0xb6db0000;
   0x4b6c0000; 0x1b640000; 0xb6d90000; 0x5b648000; 0x4fa08000; 0x16db2000; 0x9249000; 0x1249000;
   0x596000; 0x49000; 0x49000; 0x36c00; 0x9400; 0x1600; 0x400580; 0x200280;
   0x12000c0; 0xd800b0; 0x1200050; 0x200018; 0x400016; 0xa; 0x3; 0x2;
   0x1d1f01; 0x492000; 0x9248000; 0x24; 0x924900b2; 0x49640780; 0x300d924; 0x960b2492;
   0x58010012; 0x44b64964; 0x92c92592; 0x12000409; 0x24924925; 0x9259243f; 0x80d812d9; 0x25b24924;
   0x92484800; 0x25b249; 0x6496c96c; 0x90100160; 0x5b249249; 0x64924b01; 0x60005816; 0x492d8059;
   0x24920000; 0x492; 0x48001249; 0x0; 0x2400; 0x0; 0x1d1a01; 0x12400000;
   0x48200000; 0x24; 0x92400082; 0x9000000; 0x824; 0x90012000; 0x40000000; 0x824920;
   0x492480; 0x2492401; 0x24924804; 0x92492024; 0x924912c9; 0x24b24924; 0x924a4924; 0x926cb6db;
   0x64924924; 0x94924924; 0x9b2492d8; 0x24924901; 0x24924802; 0xdb6c8001; 0x24800000; 0x1e1f01;
   0x964800; 0x9249000; 0x2492480b; 0x6c924816; 0x49248049; 0x249206db; 0x24922492; 0x49240049;
   0x24900049; 0x24800092; 0x49000249; 0x2400025b; 0x680024b2; 0xc0000049; 0x86db; 0x490;
   0x1240; 0xb600; 0x12400; 0x49000; 0x2d8000; 0x5b0000; 0x1200000; 0xb600000;
   0x12000000; 0x48000002; 0xc0000004; 0x10; 0x80; 0x0; 0x1f1e02; 0x2000000;
   0x24900000; 0x92d80001; 0x92490001; 0x2492000c; 0x924b002c; 0x92490019; 0x124064; 0x92d96064;
   0x97f940c8; 0x3ffa4364; 0xb6d90364; 0xbef906c8; 0x7ff20b64; 0xb6cb0b24; 0xffcb1648; 0x7f921b24;
   0xb6485b24; 0x92583648; 0xb05b64; 0x92c05b24; 0x9280b6c9; 0x2400db6d; 0xb600db6d; 0xb000b6db;
   0x6000db6d; 0x80005b6c; 0x16c0; 0x900; 0x0; 0x1d1f01; 0x12000002; 0x48000012;
   0x4000016d; 0x80000496; 0x2490; 0x2db60; 0x92400; 0x492400; 0x1b6c000; 0x16490000;
   0x12480001; 0x6db00004; 0xb2400024; 0x924000db; 0x6c800324; 0xb2000924; 0x9000b6db; 0x6002c924;
   0x80024924; 0x2db6d8; 0xb24920; 0x924900; 0xb6db000; 0x2c924000; 0x24920002; 0xdb600001;
   0x64800001; 0x20000002; 0x0; 0x1e1e01; 0x60; 0x200; 0x800; 0xc800;
   0x4b000; 0x104000; 0x5960000; 0x19240001; 0x90000b; 0x24b00012; 0x4b0000c8; 0x2c00064b;
   0x60002596; 0x8660; 0x2cb2c0; 0xc96c00; 0x924b000; 0x59658000; 0x965b0006; 0x41700012;
   0xdb000124; 0xb0000413; 0x6596; 0x24960; 0x82580; 0xb2c00; 0x12c000; 0x10000;
   0x0; 0x1e1b02; 0x800; 0x12400; 0xb6c00; 0x924800; 0x2492000; 0x36db6001;
   0x24924004; 0x9249012d; 0xb6d81259; 0x24904924; 0x9256db6d; 0xb624924b; 0x24924924; 0x95b6db6d;
   0x89249258; 0x24924923; 0x6db6db22; 0x49249209; 0x249240db; 0x6db6c0b2; 0x49240249; 0x248016db;
   0x6c002492; 0x40001248; 0x1200; 0x0; 0x1f1e01; 0x90400000; 0x92000001; 0x24000005;
   0xb6000004; 0x92000001; 0x24000005; 0xb6c00024; 0x92c00049; 0x2480016d; 0xb6c00024; 0x96400009;
   0x2480002d; 0xb6c00024; 0x92400049; 0x2480006d; 0xb6c00025; 0x96000049; 0x2480016d; 0xb6000165;
   0x92000049; 0x2400016d; 0xb6000024; 0x92000049; 0x2400006d; 0xb000002c; 0x90000009; 0x2000002d;
   0xb0000004; 0x80000001; 0x0; 0x1c1c02; 0x12000001; 0x20000024; 0x80000924; 0x1040;
   0x25900; 0x124800; 0x1248000; 0x24960000; 0x24900002; 0x49000049; 0x24000049; 0x20000492;
   0x9248; 0x9240; 0x90400; 0x1259000; 0x1248000; 0x12480002; 0x49600002; 0x49000024;
   0x90000492; 0x490; 0x4900; 0x92000; 0x90000; 0x1d1905; 0x1000000; 0x8041021;
   0x824b0092; 0x59240496; 0x41245b6c; 0x96d92f92; 0xdb092cb7; 0xf8b65b6d; 0xb2c92db2; 0x52092493;
   0x25b6496c; 0x96c925a4; 0xb24922db; 0x6496cb24; 0x92580924; 0x920096db; 0x64024924; 0x90000000;
   0x1249248; 0x4924900; 0x0; 0x49248000; 0x24900000; 0x202000; 0x4000000; 0xb05b000;
   0x3cbff800; 0x30ffff00; 0x516db6c0; 0x65b24be0; 0x679209e0; 0xcb2492d8; 0x6c924978; 0x3c924938;
   0x196d9258; 0x3cb6492c; 0x3c92492c; 0x5b6db2da; 0x7db6492c; 0x3492492c; 0x5b6cb2da; 0x7db2492c;
   0x3c92492c; 0x59649658; 0x3c92492c; 0x3c92493c; 0x1b2db258; 0xc92497c; 0xf9249f6; 0xb6592c3;
   0x5b24be6; 0x1f65f86; 0x16db618; 0x3ffb3c; 0x241f0; 0xc0; 0x1e1b03; 0x2410000;
   0x36db0001; 0x2db20001; 0xffc8002d; 0xb6cb605b; 0x6f924125; 0xfff9092d; 0xb6d8125f; 0x7df04924;
   0xff024925; 0xb6649249; 0x24124924; 0x90924924; 0x99249249; 0x4924924; 0x25924920; 0x49249241;
   0x24924909; 0x24b24812; 0x49248049; 0x24920049; 0x24900092; 0x49000049; 0x24000249; 0x20000090].
Definition emoji_data_131 : list N :=
  [0x0; 0x141d01; 0x480002; 0x40000000; 0x24900124; 0x80000012; 0x49209248; 0x124;
   0x92092490; 0x1249; 0x24924940; 0x92492; 0x49249400; 0x924924; 0x92494000; 0x3249209;
   0x24908001; 0x12492092; 0x48090080; 0x2c900124; 0x0; 0x131d02; 0x24924249; 0x24000012;
   0x49290012; 0x20005924; 0x90924910; 0x2c9248; 0x49248800; 0x12492420; 0x80440009; 0x24923000;
   0x62000092; 0x49080001; 0x4925; 0x84004080; 0x2c92c2; 0x49204924; 0x16db6124; 0x90000000;
   0x1e1e01; 0x9000000; 0xdb200004; 0x92000012; 0x490000b6; 0xd9000124; 0xb0000492; 0x40002db6;
   0xc0004b24; 0x80012492; 0xb6db6; 0x165964; 0x92490; 0x5b6db0; 0xb64b20; 0x492490;
   0x2db6db0; 0x964900; 0x492400; 0x2db6c00; 0x4965800; 0x12492000; 0xb6db4001; 0x24b60000;
   0x92480005; 0xb6c00009; 0x2c800004; 0x9200002d; 0xb0000049; 0x0; 0x1e1c02; 0x16c800;
   0x16db000; 0x24924801; 0x6db6d016; 0xd9248049; 0x249202db; 0x6db20db2; 0x59241249; 0x6491b6db;
   0x25a36c92; 0xd9049241; 0x646db64b; 0x6edb2492; 0x41249049; 0x1b6d92db; 0x36cb2590; 0x4924d242;
   0xdb6d9605; 0xb2592402; 0x49248016; 0xdb6d802c; 0x92480012; 0x492000b6; 0xcb00006c; 0xb0000012;
   0x10; 0x0; 0x1f1a04; 0x92000; 0x16db600; 0xb64b200; 0x12412400; 0x5b25b600;
   0x4b25b200; 0x92492406; 0xdb6db002; 0x5b6d9004; 0x92492036; 0xdb6d8096; 0x49248124; 0x924905b6;
   0xdb6c84b2; 0x49248924; 0x924825b6; 0xdb652492; 0x49240924; 0x920b25b6; 0xd9212492; 0x49220020;
   0x2032492; 0x48012492; 0x40004924; 0x2590; 0x0; 0x1f1605; 0x410000; 0x492000;
   0x804000; 0x12492400; 0x92492400; 0x804; 0x92492424; 0x92492401; 0x24120124; 0x92492524;
   0x92492009; 0x20900124; 0x92490924; 0x92490000; 0x4924; 0x92484924; 0x92480000; 0x24924;
   0x92404924; 0x92000000; 0x4924; 0x80000000; 0x1e1f00; 0x400000; 0x1000000; 0xb200000;
   0x92400002; 0x49200012; 0xc9240025; 0x92480492; 0x492024b6; 0x49204924; 0x92012492; 0x49092592;
   0x48124b24; 0x90492492; 0x42492c92; 0x64924924; 0x12492490; 0x924b2491; 0x24964904; 0x92492424;
   0x92492449; 0x24824124; 0x92010364; 0x90080249; 0x20000124; 0x8002496c; 0x800492d8; 0x920;
   0x120900; 0x200000; 0x0; 0x1c1f00; 0x4924000d; 0xb6d80092; 0x49600400; 0x8004000;
   0x30010002; 0x180012; 0x40800124; 0x96492db4; 0xb2492401; 0x124124; 0x92db4924; 0x92401001;
   0x2412492d; 0x84964964; 0x1e01641; 0x2c96d809; 0x24964012; 0x16412d9; 0x6d80b649; 0x6c0b601f;
   0x412496d8; 0x9649640; 0x92416416; 0xd96d80b6; 0xcb6c0924; 0x92012496; 0xd8092492; 0x0;
   0x1b1e01; 0x700000; 0x16000001; 0xe000001c; 0x160; 0x3c00; 0x3c003; 0x3000f0;
   0x3001f00; 0x2000b00b; 0xf00b0; 0xe00200; 0xb008000; 0xb0080002; 0x10000b0; 0x18000b01;
   0x80002010; 0xb0580; 0x304000; 0x2000000; 0x30400003; 0x4000020; 0x8000030c; 0x1080;
   0x20000; 0x100000; 0x1000000; 0x1f1705; 0x24800; 0x16d800; 0x1fffe03; 0x2db6db09;
   0x3fffff02; 0x5ffffe03; 0x6db6db0b; 0x2d92ff1f; 0xc924fe5b; 0x6d96d85f; 0x6492d8bf; 0xc805a0db;
   0x6496c3df; 0xe4b781f7; 0xf97e02db; 0x6db403ff; 0xfff007ff; 0xffc006db; 0x6d8007ff; 0xfc0001ff;
   0xe00002db; 0x48; 0x0; 0x1a1e01; 0x40000024; 0x480; 0x2000; 0x2c000;
   0x412000; 0x1800004b; 0x24920924; 0x92000800; 0x1249248; 0x24000908; 0x20000492; 0x492092c9;
   0x2020b200; 0x12592482; 0x49248092; 0x49205b6d; 0xb6092c92; 0x24b2481; 0x6db6d824; 0x96480924;
   0x9201b6db; 0x16cb20; 0x4924802; 0xdb6c004b; 0x64000000; 0x1e1d02; 0x16d80; 0x164a00;
   0xc00c00; 0x16492001; 0x6090c006; 0x2410024; 0xb6db02c9; 0x24b60c24; 0x93d85b6d; 0x96c19249;
   0x6d8c4921; 0xb232db6d; 0xb524925b; 0x641249ed; 0xadb6cb6d; 0x4924b6d9; 0x483db6b; 0x6db6db12;
   0x496db641; 0x27b6d8c9; 0x2db6c182; 0xdb6c065f; 0x6db016db; 0x6d800db6; 0xd80016db; 0x600016db;
   0x480; 0x0; 0x1c1d01; 0x10000; 0x96c0000; 0xdb640004; 0xb2c005b6; 0xdb016db6;
   0xd8125b2d; 0x82db6db0; 0x16db6d81; 0x2db6d82d; 0xb6db036d; 0xb6d8965b; 0x6c06db6d; 0xb0b6db6c;
   0x96db6c0; 0x6db6d80b; 0x6db64036; 0xdb6402db; 0x6db016db; 0x64816db2; 0x482db65b; 0x616d8049;
   0x6400490; 0x5800b600; 0x49000; 0x80000; 0x1000000; 0x1d1a02; 0x2400; 0x49000;
   0x1248000; 0xb6d90012; 0x49200092; 0x49005924; 0x92012492; 0x40492492; 0x492592c; 0x12492490;
   0x9249248b; 0x6c92493d; 0xb24921ff; 0x924916db; 0x6d925bff; 0xf64affff; 0xf66db6db; 0x6c12fffd;
   0xf012ffff; 0x8025b6d8; 0x12dfe0; 0x25f00; 0x5b000; 0x24000; 0x1d1605; 0x2d96480;
   0x49249202; 0x4924902d; 0xb2db6490; 0xc824a402; 0x4006c065; 0x82c90090; 0x9480480; 0x4d80cb05;
   0x92012012; 0x9009009b; 0x65b64b24; 0x96492424; 0x804902d8; 0x5b60964; 0x96404924; 0x920596cb;
   0x60124924; 0x80024900; 0x49000; 0x1c1207; 0x48001; 0x25b64009; 0x3ffe00f2; 0x7fe0b64b;
   0x6d87f27f; 0xfc7f27ff; 0xcb6cb6d9; 0xffffffcf; 0xfffffcb6; 0xdb6d9ff2; 0x5fe47800; 0x900b2492;
   0x48492492; 0x40000000; 0x92012404; 0x80000000; 0x1d1a04; 0x48000; 0x2490000; 0x9240002;
   0x24; 0x92400492; 0x49000000; 0x1124924; 0x92492492; 0x48000002; 0x6492492c; 0x92492494;
   0x8000245b; 0x2492db64; 0x92492f24; 0x1249b6c9; 0x6cb25b24; 0x92124924; 0x902db6db; 0x924920;
   0x924800; 0x16d8000; 0x4900000; 0x4000000; 0x40000000; 0x132000; 0x900249; 0x20000012;
   0x49292493; 0x5b24; 0xb5b6db12; 0x492db6da; 0xdb6d8924; 0x96d96d6c; 0x96c49249; 0x24921249;
   0x22492492; 0x49092491; 0x2492c924; 0xac925892; 0x496d96d6; 0xdb6e4924; 0xb6db6b6d; 0xb6249249;
   0x24901240; 0x1f2000; 0x10000; 0x410000; 0x4920000; 0x16db0000; 0x12490000; 0x24920000;
   0xb2db0024; 0x92490059; 0x2492016d; 0xb6d8016d; 0x9248024b; 0x24900b6c; 0x96d80b6c; 0x92401259;
   0x24805b6d; 0xb6c0db6c; 0x92009249; 0x2482db6d; 0x9202db6c; 0x9200925b; 0x2402db6d; 0xb600db6d;
   0x92009249; 0x2402db6d; 0xb0000b6d; 0x90000249; 0x2000016d; 0x9000016d; 0x80000049; 0x2d;
   0x80000004; 0x201e01; 0x48000; 0x249000; 0x2db6c00; 0x16db600; 0x1649200; 0x16db6d80;
   0x196db6c0; 0x96d9240; 0x36db6db0; 0x496db6d8; 0x496db248; 0xb6db6db4; 0x496db6d8; 0x496db648;
   0x36db6db6; 0x596db6da; 0x496db6c8; 0x36db6db6; 0x196db6db; 0x96db6c8; 0x16db6db6; 0xb6db6da;
   0x36db6d8; 0x2db6db6; 0x16db6d8; 0x2db6d8; 0xb6db0; 0xb6c0; 0x1240; 0x80].
Definition emoji_data_132 : list N :=
  [0x1d1a03; 0x90000; 0xb6d8000; 0xffff802d; 0xb6db05ff; 0xfbec3fff; 0xffe2db6d; 0xb6dbedf7;
   0xfbffffff; 0xfdb6db6d; 0xb7fb6df6; 0xffebaf9b; 0x6d96db2d; 0xb25f652f; 0x93ff36db; 0x6db64964;
   0xbfca4b2f; 0xfe6db6db; 0x6c92f97f; 0x9497017c; 0x5b6c02c9; 0x25800101; 0x2c000016; 0xc0000008;
   0x0; 0x1f1b03; 0x5b6400; 0x2db6c00; 0x4b64800; 0xb6db6c01; 0xb6db6c01; 0x2c16480d;
   0xb65b6c2d; 0xb6db6c49; 0x2492496d; 0xb6db6f6d; 0xb6db6249; 0x24924b6d; 0xb6db6b6d; 0xb6db1249;
   0x24924b6d; 0xb6c8412d; 0xb2088000; 0x2012c924; 0x92c2c924; 0x92c09249; 0x2402db6d; 0xb602db6d;
   0xb0009249; 0x2db6c; 0x5b60; 0x1000; 0x0; 0x202000; 0x2412000; 0x1b649000;
   0x1fe49000; 0x16d92480; 0x1b649240; 0xfe49240; 0x16d92490; 0xb649248; 0xb249248; 0x12492490;
   0x9249248; 0x93c9e48; 0x12db6d92; 0x4964b648; 0x4966d248; 0x92492492; 0x49249248; 0x49249248;
   0x92c92592; 0x49649648; 0x97c9e48; 0xb65b6c92; 0x5b2db2d8; 0x7f2493de; 0xb6492db6; 0x5b2496db;
   0x192497fe; 0x124925b6; 0x12492d8; 0x2492f8; 0x924b0; 0x40; 0x1d2000; 0x90000;
   0x1240000; 0x9240004; 0x92480092; 0x49200492; 0x49005b65; 0xb2016492; 0xc8092492; 0x44924924;
   0x92492490; 0x925f2489; 0x25b64924; 0xb6d92525; 0xf7c9125b; 0x6c92496c; 0xb24a4f25; 0x9224b6db;
   0x6492db24; 0x84964924; 0x492db6c9; 0x24b64901; 0x25924812; 0x596da049; 0x24920049; 0x24900496;
   0xdb000249; 0x24000049; 0xb2; 0x200; 0x1f1f00; 0x90000; 0x492000; 0x924000;
   0x12492400; 0x12492001; 0x24924804; 0x92492404; 0x92492009; 0x24924025; 0xb2592125; 0x92d9224f;
   0x25f2492d; 0x92c9092c; 0x96c91259; 0x26924924; 0x92494924; 0x92489249; 0x24924b64; 0x924a4924;
   0x92449249; 0x24925b25; 0x9212496d; 0x920493f9; 0x2016db64; 0x90124924; 0x80249249; 0x16c924;
   0x124920; 0x49200; 0x124800; 0x0; 0x201f00; 0x2000012; 0x100025b; 0x10097fb;
   0x2196db6; 0x24b6db; 0x24bffb; 0x12492db6; 0x412496db; 0x412497ca; 0x124925b6; 0x92492db;
   0x924924a; 0x125924b6; 0x96c925a; 0x9ee924a; 0x12cb2d92; 0x924b6c8; 0x92493c8; 0x32492592;
   0x59249248; 0x49249248; 0xb65b6496; 0x4b2d9248; 0xf249248; 0x165b6496; 0x9249248; 0x1249240;
   0x2492480; 0x249248; 0x49208; 0x92402; 0x1d1f00; 0x90000; 0x1240000; 0x9240004;
   0x92480092; 0x49200492; 0x59004b25; 0xb2096492; 0xc84f2496; 0xc4b2492c; 0x96592c90; 0xb3c9e48b;
   0x2d96c924; 0xb2592527; 0x92e9325b; 0x2d924964; 0x924a4924; 0x92659249; 0x24924924; 0x94d24924;
   0x4b259249; 0x2cb65909; 0x679fc812; 0xd96c804b; 0x24920249; 0x24802492; 0x49001249; 0x20001248;
   0x12480; 0x0; 0x1f2000; 0x92000; 0x5b6000; 0x4924900; 0x96db6d80; 0xb6db6481;
   0x2596492d; 0xb6db6da4; 0xbedb2449; 0xe4be496d; 0xb6db6125; 0xb6db224b; 0x25b24b6d; 0xb6db793d;
   0xb7db127f; 0x2f925b6d; 0xb6dbdbed; 0xbed892c9; 0x7c92db6d; 0xb6dedb6d; 0xb6c493db; 0x2496db65;
   0xb616d925; 0xb624f24f; 0x2436cb2d; 0xb036c92d; 0x80249259; 0x36db6c; 0x36db60; 0x249240;
   0x16d900; 0x24000; 0x202000; 0x12000; 0x249000; 0x249200; 0x2cb6d80; 0x1249240;
   0x1249240; 0x16db6db0; 0x9649648; 0xbe49248; 0x36db6cb6; 0x4b649658; 0x49749e48; 0xb6db6db6;
   0x496cb649; 0x497c9e48; 0xb6db6db6; 0x496c9649; 0x9249248; 0x96db6db6; 0x4b6db6c8; 0xb2482c8;
   0x164b64b2; 0xb6db6c8; 0xb249240; 0x164b64b2; 0xb6db6c8; 0x16db640; 0x12db6d80; 0x1249248;
   0x249200; 0x5b6c00; 0x48000; 0x1b1c04; 0x100000; 0x1fc00005; 0xb60000ff; 0xe0007ffc;
   0x6db40; 0x1fff000; 0x3ff70009; 0x6db00192; 0x6b00320d; 0xe0059658; 0x607bee1e; 0xfffc302;
   0xdb68e07f; 0xfe180fff; 0xcf036db2; 0xc013f860; 0x27f9c00; 0xb7db005b; 0xfdf01fff; 0xbf86db6d;
   0xb07fb6ff; 0x1ff7ffe3; 0x6db6d812; 0x49248000; 0x1a1c04; 0x240000; 0x1f80002d; 0xb0000ffe;
   0x3ffc0; 0x1b6d800; 0x3ffe001f; 0xff8016db; 0x2002796c; 0xd81b00; 0x5965820f; 0x7df0c1ff;
   0xf8f06db6; 0x583fff18; 0xfff8605; 0xb6cb0037; 0xf14007fe; 0xf812db7c; 0x7dfef07; 0xf7ffe2db;
   0x6db4ff6d; 0xfe3ffb7f; 0xcb6db6d9; 0x24924800; 0x1c1c04; 0x40000; 0x3f80000; 0xdb60001f;
   0xfe0001ff; 0xf0002db6; 0x3fff0; 0x3fff00; 0x6db6c00; 0xf659800f; 0x6498406d; 0xb6cb037f;
   0xb0c03fff; 0xc02db61; 0x803fff38; 0xfffe300; 0x7db6f003; 0x7f9e0017; 0xf9e002df; 0x7c01f7fb;
   0xe01f7fbe; 0x36db6d8; 0x7fedff87; 0xfedff8b6; 0xdb6d8492; 0x49200000; 0x1b1c04; 0x100000;
   0x1fc00005; 0xb60000ff; 0xe0007ffc; 0x6db40; 0x1fff000; 0x3fff000b; 0x6db001b6; 0xfb00364f;
   0xe005b6d8; 0x607bee1e; 0xfffc302; 0xdb68e07f; 0xfe180fff; 0xcf036db2; 0xc013f860; 0x27f9c00;
   0xb7db005b; 0xfdf01fff; 0xbf86db6d; 0xb07fb6ff; 0x1ff7ffe3; 0x6db6d812; 0x49248000; 0x1a1c04;
   0x240000; 0x2f80001f; 0xf8000db6; 0x7ffc0; 0x1fff000; 0xb6db001f; 0xff800fff; 0xf006fb6c;
   0xdf7f80; 0x3fffc00b; 0x6db0c1ff; 0xf0607ffc; 0x302db618; 0xfffcf03; 0xffe300b6; 0xdb6013f9;
   0xe005fff8; 0x16db6d87; 0xdbefe1fe; 0xfbfcdb6d; 0xb61fedbf; 0xcfff7ff3; 0x6d96d800; 0x1a1c04;
   0x480000; 0x1f00001f; 0xf8000b6d; 0x3ffc0; 0xfff000; 0x6db6003d; 0xf6c00d24; 0xb005b2ca;
   0x925b00; 0x3492c306; 0xdb6180ff; 0xf8f03ffe; 0x381b6d9e; 0xfff8603; 0xffe5816d; 0xb2c005fe;
   0xf809ffb8; 0xdb6db07; 0xf7dbe1fd; 0xf7f8b6db; 0x6dbfdb7f; 0x8ffefff2; 0xdb2db400; 0x1f1f01;
   0x92400; 0x492400; 0x924800; 0x36492d80; 0xfe497f01; 0xfe93ff05; 0xb64b6c2f; 0xfe5ffc79;
   0x2ff25c64; 0xb6d92d65; 0x9fd962cb; 0xb7f2c96d; 0xb6db2b2d; 0x96cb13cb; 0x2d9e4b6c; 0x96d94b64;
   0x96c89249; 0x24904924; 0x924a4924; 0x924092c9; 0x64825b6d; 0xb202ffef; 0xf205bfff; 0x60125b6c;
   0x90024924; 0x80049249; 0x124924; 0x24920; 0x9200; 0x4800; 0x0; 0x1d1f01;
   0x492000; 0x9248000; 0x49240024; 0x92490092; 0x49200492; 0x49204b65; 0xb2096db6; 0xc84fc5f2;
   0x44b6cb6c; 0x92db6d92; 0x97c9fc19; 0x6d96c920; 0x92480500; 0x10003249; 0x24924804; 0x804a4124;
   0x2649249; 0x24924924; 0x94924924; 0x492db249; 0x24b64901; 0x24924812; 0x49248049; 0x24900249;
   0x24800492; 0x48001249; 0x1240; 0x2400; 0x0; 0x162000; 0x10036; 0xb012db6;
   0x49fd86d; 0xb6dac92d; 0xbb2496db; 0x6db61249; 0x60092400; 0x5b6c0196; 0x40024900; 0x36da0064;
   0xb0009240; 0xdb6004b; 0x24012490; 0xb6db032; 0x49004924; 0x6db6c2c; 0x92c01249; 0xb6db01;
   0x24920492; 0x482db6c0; 0x49248024; 0x90000400; 0x1e1d01; 0x124000; 0x240000; 0x900001].
Definition emoji_data_133 : list N :=
  [0x25b24002; 0x49048000; 0x24000049; 0x6c920492; 0x41200009; 0x925b; 0x24812492; 0x49000240;
   0x2496c9; 0x20402492; 0x40009000; 0x925b249; 0x12492410; 0x240002; 0x96c9264; 0x92490400;
   0x9000012; 0x5b240020; 0x92000002; 0x40000496; 0xc9000924; 0x92000090; 0x125b2; 0x40024024;
   0x80000000; 0x201008; 0x2492480; 0x2492490; 0x2c92492c; 0x12492490; 0x10000000; 0x64924924;
   0x92492492; 0xc0000002; 0x64924925; 0x92492492; 0x10002002; 0x24964924; 0x12482490; 0x12482090;
   0xdb00b60; 0x2400480; 0x1f160a; 0x2c00; 0x17d80; 0x3ffe0; 0xb6d80; 0xb6d80;
   0x3e4900; 0xdb6c00; 0x2db6c00; 0x7f24800; 0x16db6000; 0xb6db6005; 0xfd92c12d; 0xb6db037f;
   0xb6df167f; 0x24fe5b6d; 0xb6daff6d; 0xb7f9ffdb; 0xfff2db6d; 0xb6dffffd; 0xffc5ffc0; 0x7f800900;
   0xb0000000; 0x200b14; 0x8; 0xa; 0xb6; 0x10002db; 0xb0016da; 0x36db6db6;
   0x5b6db6da; 0x5b6db6d8; 0xb6db6db6; 0x5b6d92f8; 0x1200040; 0x1f1e01; 0x1900b00; 0x5800b00;
   0x1e001780; 0x6d804b01; 0x6e007b03; 0xfc00fe03; 0x6904da0b; 0xe618f81f; 0xc20f818; 0xca0d078;
   0x3f80c0f3; 0xffe180cb; 0x6db600db; 0x6dbe58ff; 0xfff1b0db; 0x6da636db; 0x6dbe3fff; 0xffe016db;
   0x6d849edb; 0x6c17ffff; 0xefe596db; 0x6d8036db; 0x6401cffe; 0xc02db2d9; 0x6c7ce018; 0x78418018;
   0x58058; 0x60040; 0xc00c0; 0x0; 0x1f2000; 0x249000; 0x4b6d900; 0x2dffcb00;
   0xffffff03; 0x6db6db0f; 0x7fffdf1e; 0x5b6c9e59; 0x24925af9; 0x249259d2; 0x4924bac9; 0x2492dbc9;
   0x2492cf92; 0x492796cb; 0x2cb6ff4f; 0x2cbf7e9a; 0x597eb659; 0x65b7fe49; 0x25f1fc92; 0x4f65b25b;
   0x2c84f2f9; 0x3c81e0f0; 0x790592c9; 0x680f9249; 0xe00f2013; 0xc00d964b; 0xf965e; 0x1f25f8;
   0x2db6c0; 0xffe00; 0x3f800; 0x59000; 0x1f1c01; 0x2db2000; 0x16dbe000; 0x2f97c001;
   0xb60b4001; 0xb00f0007; 0x801e000d; 0x8058002c; 0x780058; 0x600168; 0x400160; 0x3c0;
   0xb60; 0x10fc0; 0x11fc0; 0x21b40; 0xb5b60; 0x1836db; 0x2090db6d; 0xa6d8db6f;
   0x96c0bfdf; 0x2f80db6c; 0xb6c2db6d; 0xb6049259; 0x2400db6d; 0x9612402d; 0xb0040009; 0x2000002c;
   0x80000000; 0x1f2000; 0x80; 0x2c0; 0x80016c0; 0x16002580; 0xdb00b6c2; 0xdf00b645;
   0xbe012416; 0xdb05b037; 0xfb05a06f; 0xf7c941b6; 0xdb6c85bf; 0xfffc8bff; 0xfff90db6; 0xdb682fff;
   0xffe05fff; 0xffe06db6; 0xdb617fff; 0xff80ffff; 0xff036db6; 0xdb037fff; 0xf803ffff; 0xf00b6db6;
   0xc0037fff; 0xc0027ffe; 0x6db0; 0x2f80; 0x0; 0x2080; 0x12480; 0x0;
   0x10400; 0x1f1f01; 0xa; 0x18; 0x2480080; 0xb6c9600; 0x5b6cb600; 0xfe492016;
   0xd9258036; 0xc925807e; 0x924b01b6; 0x492401b2; 0x492003e4; 0x92400d92; 0x4b200c92; 0x49201924;
   0x92006c92; 0x49006492; 0x4900c924; 0x92032492; 0x48032492; 0x48024904; 0x90092412; 0x48092402;
   0x50124004; 0x80492012; 0x40492012; 0x920000; 0x2490000; 0x2490000; 0x4900000; 0x12480000;
   0x0; 0x1a1c04; 0x492000; 0x49240000; 0x800092c; 0x92012492; 0x40000490; 0x24924804;
   0x92490000; 0x409248; 0x924900; 0x12; 0x49200249; 0x24000000; 0x492490; 0xb249000;
   0xc1000164; 0xb6403cbe; 0xc87f3ff3; 0x2db6db67; 0xffffffff; 0xffffb6db; 0x6dbfffff; 0xfffffffe;
   0xdb6db600; 0x1c1703; 0x2c00; 0x5b000; 0x6f8000; 0x6f80000; 0x5b000002; 0xc900002c;
   0x900001b2; 0xd00; 0xc000; 0x900b0024; 0x90580249; 0x582db6c; 0x94364924; 0xfe49248;
   0x6c92db63; 0x24925830; 0x248249; 0x24b61249; 0x24800000; 0x8009249; 0x0; 0x1e1704;
   0x4000; 0x328000; 0x16c0000; 0x5b00008; 0xda040b0; 0x5b018240; 0xec021603; 0x60366406;
   0xc128965b; 0x2c9db6db; 0x6d892db6; 0x4924b6d9; 0x276db6db; 0x62496c92; 0x4925b249; 0xdb6db6d8;
   0x965b2c92; 0x496c9272; 0xdb6db205; 0x96cb0400; 0x1b040000; 0x58000000; 0x1f1e01; 0xc0000;
   0x360000; 0xb00000; 0x16c0000; 0x5b00000; 0x5b00000; 0xb600001; 0x6db2000b; 0x6db60016;
   0xdb6c80db; 0x6db6c2db; 0x6db6c5b6; 0xdb6d96db; 0x6db6f6db; 0x6db66db6; 0xff6cb6db; 0x6db1b6d9;
   0x25836d92; 0x4905b649; 0x200db600; 0xbec00; 0xa2db000; 0x2c2db600; 0x687b6c92; 0xc10db6db;
   0x6005b6db; 0x40002406; 0xb; 0xb; 0x0; 0x181e01; 0x1000202d; 0xb6d816ff;
   0x6c127f24; 0x2cb65832; 0x596c1799; 0xe425b6c8; 0x32492c32; 0x492c2d92; 0xd836cb6c; 0x32492c6d;
   0xb6dbf6db; 0x6e72492e; 0x6db6db76; 0xdb6e7249; 0x2e6db6da; 0x36db6c3e; 0x493c2db6; 0xd81edb78;
   0x2496005; 0xb6c812db; 0x2002ff20; 0x4924002; 0x200000; 0x1e1c02; 0x40000008; 0x80000092;
   0x40000276; 0xc000b67c; 0x80017cfe; 0x2ff5b6; 0xdb6d8fe4; 0x92f93c92; 0x49e16db6; 0xdb62c924;
   0x96092492; 0x481b6db6; 0xc093c964; 0x824f2592; 0x6db6db0; 0x24924920; 0x90492084; 0x92db2489;
   0x24924804; 0x12410024; 0xb6d90009; 0x6c800001; 0xf2000025; 0x90000049; 0x124; 0x120;
   0x0; 0x201c02; 0x5800000a; 0x6c00002e; 0x66000066; 0xdb0432db; 0x6d86432c; 0x64a24726;
   0x5b6096db; 0x6592d964; 0x649fd924; 0x5b6db6da; 0x2d97cb6c; 0x2493c92c; 0x1b6db6d8; 0x2cb3c97c;
   0xf93c9f0; 0xb6db6c0; 0xb7db00; 0x197cb00; 0xb6db6c0; 0xcb3d960; 0xcb3c930; 0x1b6db6d8;
   0xdb6cb68; 0xcb42930; 0xb6c36d8; 0xc901960; 0x7b00960; 0x16006c0; 0x202000; 0x8;
   0x3000020c; 0x30c00106; 0x40400202; 0x41840302; 0xa0c82186; 0x418c33c3; 0x7bec33cf; 0xb6d82db6;
   0x5b6c36d8; 0xc1000; 0x360820b4; 0x3b6cb2dc; 0x3924b24c; 0x325b6c94; 0x196db648; 0x9249248;
   0x16db6db0; 0x16db640; 0x3cbe00; 0x5b6c00; 0x2db600; 0x2cb200; 0x5b6c00; 0x2db400;
   0x249000; 0x1b6c00; 0xdb000; 0x7f000; 0xb6000; 0x5b000; 0x8000; 0x1e2000;
   0x20000; 0x7f0000; 0x6db0000; 0x3ffe0001; 0xfffe000d; 0xb6d8007f; 0xfff001ff; 0xffe00b6d;
   0xb6c03fff; 0xff00ffff; 0xfe06db6d; 0xb06fffff; 0xedffffff; 0xbdb6db6d; 0x9f6db6df; 0x7df6fbf9;
   0x6db6db63; 0xdb6db60f; 0x6492f81b; 0x6db6d0f6; 0xdb6f83db; 0x6dbe06db; 0x6db00db6; 0xdb6037ff;
   0xff80b6db; 0x6c036db6; 0xf007b6db; 0xdb6d8; 0xb6d80; 0x9000; 0x1f1e01; 0x8000;
   0x2cb20; 0x60b20; 0xc1240; 0x16db60; 0x92db10; 0x92db658; 0x2db6d8d9; 0x2d96c0b2;
   0x5900805b; 0x61b0004b; 0x800096; 0x10002d8; 0x2d8; 0x5b0; 0x3658; 0x1640;
   0x2880; 0x1b2c0; 0xa200; 0x10000; 0x58000; 0x58009; 0xb0092; 0x2db6cb;
   0x5b001; 0x90002; 0x8; 0x8; 0x0; 0x1f1e01; 0x1040000; 0x2c360000].
Definition emoji_data_134 : list N :=
  [0x24b00002; 0x4960000b; 0x2da00009; 0x25800012; 0x4900005b; 0x6d800159; 0x24800092; 0x490002db;
   0x6d820a49; 0x24104492; 0x490016db; 0x6c825249; 0x24822492; 0x4800b6db; 0x6c92924b; 0xe4912497;
   0xc805b6db; 0x64949249; 0x24892492; 0x482db6db; 0x64249249; 0x24092492; 0x482db6db; 0x6024924b;
   0x20092492; 0x5b6db; 0x9248; 0x0; 0x1f1f00; 0x2000000; 0x4000920; 0x30016db0;
   0x125b0030; 0x7c800060; 0x92db6580; 0x16db6d80; 0x7ffffc05; 0xb6db6c0d; 0xb6db687f; 0xffffe16d;
   0xb6db616d; 0xb6db07ff; 0x6e921b6c; 0x90001b6d; 0x90007e10; 0xd800; 0x2d800; 0x1e000;
   0x6c000; 0x68000; 0xf0000; 0x160000; 0x360000; 0x7c0000; 0xb60000; 0xb40000;
   0x1f80000; 0x1b00000; 0x5000000; 0x0; 0x191e01; 0x240000; 0x65800049; 0x20012492;
   0x1649680; 0xc9248124; 0x92486492; 0x58592496; 0x2492490c; 0x924b0b24; 0x92c09249; 0xb24b60;
   0x2492c002; 0x49000649; 0x2000b2c0; 0x79e000; 0xdb6c019e; 0x7b40cf3c; 0xa0db2cb0; 0xb2492c49;
   0x24924924; 0x92424024; 0x1201209; 0x20024a40; 0x900000; 0x1a2000; 0x1000; 0x50000;
   0x6400002; 0x58000016; 0x1920; 0x92400; 0x2400001; 0x6c000024; 0x900; 0x48000;
   0x1900000; 0x20000032; 0x1240; 0x1248005; 0xb2480092; 0x49000492; 0x324960; 0x10492406;
   0x124902c9; 0x24804100; 0x90004024; 0x2c1200; 0x24024000; 0x1004b0; 0x4b008619; 0x40200200;
   0x1f1d02; 0xb64800; 0xffe4000; 0x7ff4e003; 0x6d96c00f; 0xe593c01f; 0xc306801b; 0x6c968079;
   0xac9600f3; 0x982c00cb; 0x24b602cf; 0x6496019e; 0xdb2002d9; 0x24940759; 0x64f80670; 0xc3e016c9;
   0x2c901ecb; 0x35b03dc6; 0xcfe0b2d9; 0x2c84b25b; 0x648864fc; 0xc1ccb0db; 0x25bcf049; 0x2ff9e012;
   0x7b6c800b; 0x6d7c800f; 0xecf8001f; 0xf96c001b; 0x6128001f; 0x0; 0x1e1c03; 0x249000;
   0xbec000; 0xdb6c000; 0x5b6d8003; 0xfffe001b; 0x6db600b6; 0xdb6c07ff; 0xfff016db; 0x6da06db6;
   0xdb07fedb; 0xff8db6db; 0x6c5b2592; 0xd9f4924b; 0xeb6db6db; 0x5ecb2cb6; 0x7f34b3fa; 0xdb65b6d7;
   0xf2493f8f; 0xc804fc36; 0xdb2db17d; 0x9e5f61fe; 0x59fc05b6; 0xdb6c0b6d; 0xb6c00c9e; 0x48002d96;
   0xc0000804; 0x0; 0x1d2000; 0x400; 0x12000; 0x16c000; 0x490000; 0x2480000;
   0xb00000; 0x2400000; 0x2000000; 0x20000000; 0x80000004; 0x50; 0x100; 0x800;
   0x18000; 0x24920009; 0x249000b6; 0xdb001649; 0x24009249; 0x200b6db6; 0x249240; 0x1249200;
   0x36db6c02; 0x49248012; 0x4924016d; 0xb6580490; 0x41602480; 0xb165b00; 0xb6412c02; 0xc0000002;
   0x1d1f01; 0x4800; 0x2db200; 0x1b6c000; 0x4924000; 0x4b6c0000; 0x2db00009; 0x648000b6;
   0xdb00005b; 0x60000049; 0x5b4; 0xb6c2; 0x1249220; 0x16db6102; 0xdb6d0016; 0x4920c16d;
   0xb6c32db6; 0xd8092492; 0x58b6db6d; 0xb2db6db0; 0x2496080; 0x2db6c100; 0x36d80400; 0x93c00018;
   0x2c000160; 0xe0000907; 0x3058; 0x2c1e0; 0x20100; 0x0; 0x1e1804; 0x4000000;
   0x10000400; 0x80000c01; 0x1804; 0x202c; 0x6058; 0x28020; 0x4a0b00; 0x2d80600;
   0xdb0080f; 0xf7c65b6d; 0xb601bfff; 0x7c127ffc; 0xb1b6db6d; 0x816cbfc0; 0x2792ff03; 0x6db6d802;
   0xf96d900b; 0xe5f6401b; 0x6db0c096; 0xfb008209; 0x21040; 0x0; 0x1f2000; 0x400;
   0x480; 0x900; 0x2400; 0x2400; 0x4800; 0x16c00; 0x12400; 0x24800;
   0xb6c00; 0x92000; 0x100000; 0x580000; 0x2480000; 0x24800000; 0xb6c00004; 0x96400009;
   0x2400002d; 0xb6000024; 0x92000049; 0x2000036d; 0x80000924; 0x80001248; 0x5b60; 0x4900;
   0x8200; 0x406cb00; 0x4920800; 0x9201000; 0x5904900; 0x4800; 0x1a1e01; 0x200;
   0x8000; 0x480000; 0x48000012; 0x40001b60; 0x92400; 0x2400000; 0x6c000024; 0x900;
   0x5b009; 0x24900249; 0x24036db6; 0xc1249240; 0x4924902d; 0xb6db0092; 0x49002492; 0x4016db60;
   0x2492000; 0x82480040; 0x25800800; 0x80000020; 0x1001000; 0x20020008; 0x800400; 0x0;
   0x1d1c04; 0x248000; 0x1248000; 0x96d90002; 0x49240092; 0x49200965; 0x96402492; 0x49012492;
   0x48965b65; 0x92496c92; 0x124be491; 0x25b65b24; 0x96d924a4; 0x924926cb; 0x2db2c924; 0x92494924;
   0x924db6d9; 0x6d924b64; 0x92925b24; 0x9b65b65b; 0x24b6c924; 0x24b64800; 0xb640000; 0xd800001;
   0x4c000006; 0x40000041; 0x0; 0x1f140c; 0x2000; 0x12012400; 0x24924805; 0xb6db6004;
   0x92496009; 0x2492482d; 0xb6db6c24; 0x92492449; 0x2492496d; 0xb6db6d24; 0x92492249; 0x24924b6d;
   0xb6db0924; 0x92490249; 0x20900b6d; 0xb0400924; 0x80001001; 0x580d; 0x80004004; 0x0;
   0x1a1e01; 0x1000; 0x248000; 0x16d80002; 0x58000496; 0x2db60; 0x492400; 0x1249001b;
   0x6d800b64; 0x90024904; 0x36d8201; 0x6d900049; 0x24002db6; 0xdb640; 0x9249005; 0xb6d800b6;
   0xdb002492; 0x36db60; 0x12db6004; 0x924802db; 0x6c004b6c; 0x4800; 0x8018000; 0x4300000;
   0x4000012; 0x0; 0x1e1b02; 0x20020; 0x64b6cb02; 0xc9249607; 0xa492781b; 0x6db6c032;
   0x492580c9; 0x24960249; 0x64b00492; 0x49208249; 0x2084b6db; 0x6489ffbf; 0xc80ffecf; 0xe16db6db;
   0x23fb6dfe; 0x4fffbffc; 0x5b6db6d9; 0xb6ff6dfe; 0xd9fcb6f6; 0xdb65b66d; 0x924b7db0; 0x7a5b2;
   0x492d9b25; 0xb25b0487; 0xc1000492; 0x48000124; 0x80000000; 0x1a2000; 0x208; 0x6010c208;
   0xc314d86; 0x48613243; 0x1de49ccd; 0xb24b6db6; 0x496c6f90; 0x7f16c30d; 0x82c161b0; 0xb078600b;
   0x6db0006d; 0xb0000ff8; 0x8021b640; 0x4b69801; 0x8d8400b6; 0xdb0036db; 0x2007fff8; 0x25b6c00;
   0xdbfd8003; 0xff00036d; 0xb0012796; 0x1e000; 0xb00000; 0x3e00001f; 0xc0000658; 0x20000;
   0x1e2000; 0x20000; 0x40040000; 0x100801; 0x6080c000; 0x83040002; 0x2c100009; 0x6c000022;
   0xc100008b; 0x40002db; 0x600000b2; 0x2c0; 0x2496c9; 0x26496d92; 0x4004b200; 0x125b240;
   0x4cb6480; 0x2d9200; 0xd96c3404; 0x6d80c30; 0x1b601186; 0x5b083800; 0xb6400002; 0xd9000096;
   0xc000002c; 0x10000030; 0x80; 0x40020001; 0x80100002; 0xc00006; 0x4000000; 0x1e2000;
   0x9200; 0x2400; 0x9200; 0x136db200; 0x86db6010; 0xd9259036; 0xdb2d806c; 0x92580092;
   0x49246596; 0xdb60d924; 0x96012492; 0x580b6cb6; 0x5812492c; 0x2c92490; 0x16cb6c30; 0xc925800;
   0x3249000d; 0xb6db201b; 0x2cb6000c; 0xb248002d; 0xb60002cb; 0x2c00092c; 0xb2004b6d; 0x9000164b;
   0x25924; 0x65b4c; 0x1b600; 0x100000; 0x6c000; 0x200000; 0x1f110e; 0x920300;
   0x164b6d80; 0x32497d81; 0x26007f05; 0xb6496c84; 0x96492c19; 0x2790182d; 0xb6db2c64; 0x97ff2cc9].
Definition emoji_data_135 : list N :=
  [0x27f04f2d; 0xb6c02324; 0x97c00049; 0x7f00016d; 0x960001e0; 0x3c0003c0; 0x30000300; 0xb0000000;
   0x1c1e01; 0x200; 0x0; 0x258000; 0x12c0000; 0xc00002; 0x48000010; 0x40000000;
   0x2410; 0x10000; 0x0; 0x400000; 0x2000000; 0x804904; 0x84124824; 0x1;
   0x24924949; 0x24924000; 0x9249; 0x24949249; 0x24000000; 0x9249249; 0x49249240; 0x12;
   0x49248012; 0x49200000; 0x492; 0x0; 0x1f1a06; 0xb00; 0x25b00; 0x24b600;
   0xb6db00; 0x1b6d800; 0xb7c9000; 0x6db6d80b; 0x6db6d016; 0xd9ec805b; 0x6db6c0db; 0x6db6c096;
   0x5bec82db; 0x6db606db; 0x6d944d96; 0xcb2016db; 0x6db236db; 0x6c902db2; 0xd901b6db; 0x6584b60b;
   0x65812c12; 0xc901b01b; 0x585b05b; 0x5816096; 0x10d80d8; 0x40040; 0x0; 0x171e01;
   0x8000; 0x100000d; 0x90002490; 0x492000; 0x64800120; 0x80004800; 0x1640049; 0x20049244;
   0xb6db6492; 0x49012492; 0x5b2d804; 0x92480924; 0x902db6c0; 0x24920009; 0x20002d80; 0x250000;
   0x24; 0x400; 0x90001; 0x2c000120; 0x4000; 0x1000000; 0x201d02; 0x49248000;
   0xb6db6db6; 0xb7fbffb; 0x69ff9; 0xb65b6; 0x58059; 0x48048; 0xb60b6; 0x1258058;
   0x1258048; 0x16db60b6; 0x196d8058; 0x86e8048; 0x32cb60b6; 0x596d80d8; 0x5d648248; 0xb6db6db6;
   0x63edb6d8; 0x7de49248; 0x36db6db6; 0x96db6d8; 0x1249248; 0xdb6db0; 0x6db6d8; 0x249248;
   0x5b6db0; 0x5b6c0; 0x49200; 0x12400; 0x1e1d02; 0x100; 0xdb00; 0x5b600;
   0x12c800; 0xb6d800; 0x92f8000; 0x24be4001; 0x6db60012; 0xc9600049; 0x2480065b; 0x6d802cb6;
   0x48009249; 0xdb6d8; 0x5b6490; 0x1249200; 0xb6d9200; 0xb6db6002; 0x49240016; 0xdb6c0025;
   0xb6c00092; 0x480000b6; 0xd800032d; 0x80002490; 0x16590; 0x20900; 0x82000; 0xc00000;
   0x0; 0x1f1e02; 0x12000; 0x16c000; 0xdb6000; 0x25b2000; 0x4924800; 0xb2596c00;
   0xb2496003; 0x65b2d80d; 0x96cb602d; 0x924b6059; 0x2492c16c; 0x924b6364; 0x924b42c9; 0x24960b64;
   0x965b1b2d; 0xb65b364b; 0x64b6db64; 0x96d8db64; 0xb6d9b6db; 0x6db6db6d; 0xb6d6db6d; 0xb6ed9249;
   0xdb64964; 0xb6b64924; 0xb7249248; 0x24904b20; 0x90904120; 0x90008240; 0x20100; 0x0;
   0x1f1f01; 0x16c00000; 0xb2c00001; 0xf1800005; 0xb2c0000f; 0xf240001f; 0xe680002d; 0x96000065;
   0x92000003; 0x2400000c; 0x90000025; 0x80000049; 0x12c; 0x360; 0x1340; 0x4805b6c;
   0x9640cf2c; 0xbe419ee9; 0xfd824b2d; 0xb2c6493f; 0xffce00ff; 0xffd64b6d; 0xb6fedfff; 0xb63ffff8;
   0xb6db60; 0xffffe0; 0x7fff80; 0xb6db00; 0xf21e00; 0x601800; 0x805800; 0x0;
   0x1e1e01; 0xb00; 0xb600; 0x24800; 0x16d800; 0x406d8009; 0x2092005b; 0x659245b6;
   0xcb051249; 0x41cb6db; 0x28336db4; 0x40449241; 0x16db6c3; 0x6c92d10; 0x8001240; 0x12036c0;
   0x2002c00; 0x0; 0x8000000; 0x10000000; 0x40000002; 0x50000004; 0x0; 0x0;
   0x0; 0x0; 0x80; 0x900; 0x2400; 0x0; 0x1e1904; 0x96c0;
   0x92480; 0x1049240; 0x49249600; 0x92492400; 0x40009092; 0x49248124; 0x92492080; 0x1052492;
   0x49224924; 0x92c00092; 0xe492492; 0x58924925; 0x80400084; 0x32492cb0; 0x64924940; 0x92490604;
   0x92492819; 0x24924024; 0x1006c; 0x9248005b; 0x24b0006c; 0xb700010d; 0x90000000; 0x1e1a06;
   0x1a00; 0x925b6c0; 0x36db6d82; 0x4924b316; 0xdb6db46d; 0xb6db6492; 0x496c2db6; 0xdb245b6d;
   0xb00124b6; 0x400b6db6; 0xc016db65; 0xa07b2400; 0x40db6002; 0x7b6c000; 0x1e490000; 0xb6d80003;
   0x7db00007; 0xffe8002d; 0xb6d8007b; 0x7ffc007f; 0xfff8016d; 0xb6c002ff; 0xff80017f; 0xf0000124;
   0x80000000; 0x201a06; 0x5fe00; 0x5b6d80; 0x7ffe08; 0x17ffe7c; 0x6db6db6; 0xb7fffdf;
   0x93fffdf; 0x36db6db6; 0x5b6ffedb; 0x493fffca; 0xb6db6db6; 0x5b6ffed8; 0x493fff48; 0xb6db6db6;
   0x5b6ffed8; 0x492ffe48; 0x96db6cb0; 0x4b6ffe00; 0x927fe00; 0x16016c00; 0xb00b000; 0x9009000;
   0x6006000; 0x3003000; 0x0; 0x2002000; 0x1e1c02; 0x120; 0x2480; 0x16400;
   0x24800; 0x90000; 0xd80000; 0x4900000; 0x12400000; 0xb6000009; 0x24000024; 0x9000016d;
   0x80001249; 0x24924; 0xb6db60; 0x1249240; 0x24924901; 0x6db6d802; 0x4964b009; 0x2490c05b;
   0x2582c880; 0x1b059601; 0x20001000; 0x6000; 0x1f000; 0xd8000; 0x1b0000; 0x0;
   0x1f1d03; 0x200; 0x20005b00; 0x6000fb00; 0x4001fa41; 0x6002db60; 0x6007c900; 0x480f9200;
   0x2c36d801; 0x2cb24012; 0x597c005b; 0x6db00049; 0x6c900092; 0x490006db; 0x6d80124b; 0x6d802492;
   0x4800b6db; 0x64009259; 0x200124b2; 0x4004b64b; 0x60049009; 0x12012; 0xd805a; 0x218058;
   0x410090; 0x10c0258; 0x10c0250; 0x2080490; 0x200; 0x0; 0x1f1a03; 0x48000001;
   0x2c000001; 0x64000000; 0xf000000; 0xc000000; 0xc000000; 0x0; 0x4000000; 0x4000000;
   0x0; 0x4000000; 0x4000000; 0x0; 0x4000000; 0x4000000; 0x0; 0x4000000;
   0x4000000; 0x0; 0x4000000; 0x4000000; 0xc000000; 0x4000000; 0x4000000; 0x0;
   0x4000000; 0x1e1f01; 0x2d8; 0x12db0; 0x49240; 0x16db600; 0x16db6c00; 0x49249006;
   0xdb6d802d; 0xb6db0092; 0x49240db6; 0xdb605b6d; 0xb6c12492; 0x490b6db6; 0xd836db6d; 0xb2492492;
   0x56db6db6; 0x2db6db6c; 0x92492495; 0xb6db6d9b; 0x6db6db24; 0x924b276d; 0xb6db66db; 0x6d96c92c;
   0x9258db6c; 0x92c9b649; 0x24924000; 0x1016c924; 0x926c9249; 0x24b00000; 0x4924924; 0x80000000;
   0x1f1f01; 0x90; 0x90; 0x120; 0x92490; 0x492480; 0x924900; 0x12492480;
   0x92492401; 0x24924804; 0x92492404; 0x92492009; 0x24924024; 0x92492124; 0x92490249; 0x24920924;
   0x92490924; 0x92481249; 0x24904924; 0x924a4924; 0x92449249; 0x24924924; 0x92524924; 0x92249249;
   0x24124924; 0x92124924; 0x90249241; 0x20924924; 0x90924924; 0x81200000; 0x4924924; 0x0;
   0x1c1f01; 0x10; 0x400; 0x0; 0x2490000; 0x92400000; 0x924; 0x90004924;
   0x0; 0x4924900; 0x24924000; 0x249; 0x24901249; 0x24000000; 0x249249; 0x9249240;
   0x12; 0x49249092; 0x49240000; 0x12492; 0x49492492; 0x40000000; 0x92492494; 0x92492400;
   0x924; 0x92494924; 0x92400000; 0x924924; 0x90000000; 0x1d1f01; 0x490; 0x9240;
   0x0; 0x12492000; 0x49248000; 0x124; 0x92402492; 0x49000000; 0x124924; 0x82492492;
   0x1; 0x24924904; 0x92492400; 0x249; 0x24924924; 0x92480000; 0x249249; 0x24924924].
Definition emoji_data_136 : list N :=
  [0x90000000; 0x49249249; 0x24924920; 0x92; 0x49249249; 0x24924000; 0x12492; 0x49249249;
   0x24800000; 0x2492492; 0x40000000; 0x1f1f01; 0x80; 0x480; 0x0; 0x2480;
   0x2480; 0x0; 0x12480; 0x92400; 0x0; 0x480000; 0x2400000; 0x0;
   0x12000000; 0x90000000; 0x4; 0x80000024; 0x0; 0x120; 0x920; 0x0;
   0x124800; 0x124800; 0x0; 0x924000; 0x920000; 0x200000; 0x120000; 0x900000;
   0x200000; 0x800000; 0x0; 0x111d01; 0x92002490; 0x1249; 0x24924000; 0x2492492;
   0x49000009; 0x24800920; 0x2490; 0x9200000; 0x4900920; 0x490; 0x1200000; 0x900020;
   0x92; 0x240000; 0x124800; 0x92000000; 0x131f01; 0x12400924; 0x49; 0x24849248;
   0x12492; 0x4a492400; 0x824924; 0x920000; 0x49002; 0x48000000; 0x12400120; 0x9;
   0x48000; 0x2400; 0x2400000; 0x120009; 0x20000000; 0x9200012; 0x0; 0x10000000;
   0x131e01; 0x90016d9; 0x1249024; 0x920b6db0; 0x92491249; 0x25b6db49; 0x25810490; 0x16d8012;
   0x40124805; 0xb6004900; 0x90006d8; 0x1240024; 0x80036000; 0x90001200; 0x5800048; 0x480016;
   0xc0012400; 0x2480012c; 0x80024000; 0x141e01; 0x920036d; 0x805b6c04; 0x9248b6db; 0x65b6db49;
   0x249b6db6; 0x5b6db092; 0x49005b60; 0x2d80024; 0x802db001; 0x6c001240; 0x2d80036; 0x12000;
   0x6c000360; 0x900016; 0xc000b000; 0x9000368; 0x5b0000; 0x920012d8; 0x164000; 0x152000;
   0x20000b6; 0x1b6d81; 0x6db60b6d; 0xb036db62; 0xdb6d96db; 0x7c6db6d9; 0xb6db0596; 0xf8006da0;
   0x5b6006d; 0x8006db00; 0x5b6002d8; 0x2da000; 0xb6000580; 0x5b0003; 0x60001b00; 0x1b00016;
   0xb000; 0xb60006d; 0x80016c00; 0x2db0003; 0x60000800; 0x131d02; 0x92480924; 0x80000049;
   0x24849248; 0x12492; 0x4a492400; 0x800924; 0x920000; 0x249002; 0x48000000; 0x12400120;
   0x9; 0x48000; 0x2400; 0x2000000; 0x920009; 0x20000000; 0x1240012; 0x0;
   0x1d1608; 0x12400002; 0x48000000; 0x24; 0x80000490; 0x0; 0x4900; 0x12400;
   0x80000; 0x924000; 0x2490000; 0x10000009; 0x24924024; 0x92490000; 0x1249; 0x24904924;
   0x92400000; 0x2249249; 0x24924924; 0x90000000; 0x1248; 0x1e1608; 0x24800000; 0x49000000;
   0x9; 0x20000012; 0x40000000; 0x248; 0x490; 0x1000; 0x9240; 0x12480;
   0x8000; 0x249249; 0x2492492; 0x8; 0x9249248; 0x92492490; 0x242; 0x49249244;
   0x92492400; 0x0; 0x1249000; 0x1d1608; 0x96400002; 0x48000012; 0x4000016d; 0x80000490;
   0x2480; 0x2db00; 0x92400; 0x492000; 0x5b64000; 0x12490000; 0x9248000b; 0x6db24024;
   0x92490124; 0x924816db; 0x6db04924; 0x92424924; 0x922db6db; 0x6c924924; 0x94804924; 0x88009248;
   0x1e1707; 0x1000000; 0xdb000005; 0xb4000012; 0x400000b6; 0xc000016d; 0x80000492; 0xdb0;
   0x5b60; 0x16480; 0x36d80; 0x16db00; 0x492480; 0x2db6db0; 0x5b6db60; 0x12492490;
   0xb6db6db3; 0x6db6db64; 0x924925ad; 0xb6db6d5b; 0x6db6d824; 0x12492100; 0x12cb0000; 0x201707;
   0x1200000; 0x16c00000; 0x5b600000; 0x1b600000; 0x36c00000; 0x1b600000; 0x1b600000; 0x36d80000;
   0x1b600000; 0x1f680000; 0x36d80000; 0x1b6c0000; 0x1fed8000; 0x36db6d80; 0x5b6db6c0; 0x5b6db7c0;
   0xb6db6db0; 0x5b6db6d8; 0x5b6db6f8; 0xb6db6db6; 0x5b6db6db; 0x1b04b6da; 0x12002db6; 0x1d1608;
   0x12000002; 0x48000000; 0x124; 0x80000490; 0x0; 0x24900; 0x92000; 0x0;
   0x4920000; 0x12480000; 0x10000009; 0x24924024; 0x92490000; 0x81249; 0x24904924; 0x92400000;
   0x2249249; 0x24924924; 0x90000000; 0x8009248; 0x131c02; 0x92492924; 0x9020104b; 0x2c949248;
   0x2492; 0x4a492400; 0x124925; 0x24920000; 0x9249092; 0x49000000; 0x92480924; 0x49;
   0x24240240; 0x2012; 0x12012000; 0x100901; 0x800000; 0x8008000; 0x1d1d03; 0x580000;
   0x3ff0000; 0x2db6c001; 0xffff003f; 0xfff802db; 0x6d801fff; 0xfe00ffe5; 0xf005b25b; 0x403edb7c;
   0x1f2cbf0; 0xb6db6c0; 0x6db6d803; 0xa493c016; 0x492c00f9; 0x24f00349; 0x7000cb6; 0x58008248;
   0x60000000; 0x12480; 0x16c96c0; 0x1be0f601; 0xb6db6c12; 0xdb6cb192; 0x49259b6d; 0xb6dbe4b6;
   0xc9700092; 0x1000000; 0x201d03; 0xb6000; 0x1fe400; 0x36db00; 0x7ffe00; 0x7fff00;
   0xb6db00; 0xfb6700; 0xc92700; 0xb6db00; 0xdb6d00; 0x6b6400; 0xb6cb00; 0x5b6c00;
   0x492400; 0x12c800; 0x92400; 0x92000; 0x12c800; 0x92000; 0x0; 0x4824120;
   0x16d92db0; 0x32f82f9c; 0x6db6db6c; 0x325b6c96; 0x52492492; 0x6db6db6d; 0x925b6c92; 0x92002;
   0x1e1e02; 0xb0000; 0xfe4000; 0x7ff0000; 0x36db0001; 0xfffe000f; 0xfff8002d; 0xb6d800fb;
   0x65c003a4; 0x7001b64; 0x960036db; 0x6000d9e7; 0x8002db6d; 0xdb6c8; 0x124920; 0x92c900;
   0x1249000; 0x120000; 0x4b20000; 0x1200000; 0x9; 0x249200b6; 0x4b6c06fc; 0xfb836d9;
   0x6db1e5b2; 0xd9669249; 0x25adb6db; 0x6dc92db2; 0x59009240; 0x20000000; 0x1d1b05; 0x924900;
   0x2492000; 0x9; 0x24920024; 0x92480000; 0x12c9; 0x64005b6d; 0x9000cb2c; 0x25b6c8;
   0x96db20; 0x924800; 0x49249001; 0x24924000; 0x24000002; 0xd9200009; 0x20000000; 0x492;
   0x5b25b; 0x6f83d8; 0x6db6db0; 0x4b6db2c6; 0x4924966d; 0xb6db6f92; 0xdb25c002; 0x48040000;
   0x201d03; 0x10000; 0x0; 0x124800; 0x492400; 0x0; 0x924900; 0x492400;
   0x480400; 0xb6db00; 0x5b6c00; 0x6b6400; 0xb6cb00; 0x5b6c00; 0x592c00; 0x12c800;
   0x92400; 0x92000; 0x12c800; 0x92000; 0x0; 0x4024020; 0x16d92db0; 0x32f82f9c;
   0x6db6db6c; 0x325b6c96; 0x52492492; 0x6db6db6d; 0x925b6c92; 0x80092002; 0x1e1d03; 0x248000;
   0x492000; 0x0; 0x49248000; 0x92490000; 0x12; 0x49200024; 0x92400090; 0x480005b6;
   0xd8000b6d; 0x90003db6; 0x16db6; 0x2c960; 0x2000; 0x92400; 0x16c800; 0x90000;
   0x2490000; 0x900000; 0x200002d; 0x92db02db; 0x25b60d3e; 0x9e4c5b6d; 0xb6d99249; 0x24b64924;
   0x93f6db6d; 0xb6649249; 0x2c000000; 0x1d1d03; 0x592000; 0x36c0000; 0x1fff8001; 0xb6db0016;
   0xdb6801ff; 0xffc01b6d; 0xb6016db2; 0xd00fe49f; 0xc036db6c; 0xdb6db0; 0x1ecb2f80; 0x6db6d805;
   0xb659401c; 0x924e00db; 0x6db00365; 0x9600092c; 0x900082d8; 0x60000900; 0x4800; 0x36db6c0;
   0x2db2db03; 0x2f9fc836; 0xdb6db3c9; 0x2492da49; 0x24976db6; 0xdb649249; 0x24800000; 0x201d03].
Definition emoji_data_137 : list N :=
  [0xb6000; 0x2db000; 0x3ffe00; 0x5b6c00; 0x6db600; 0x7ffe00; 0xdb6d80; 0x6d9600;
   0x6cb600; 0xdb6d00; 0x65b600; 0x67d600; 0xdb6d80; 0x2db600; 0x249000; 0x5b6c00;
   0x24b000; 0x49000; 0xb6000; 0x49000; 0x49000; 0x16db6db0; 0x1b6c96d8; 0x497dbe48;
   0xb6db6db6; 0x4924924b; 0x4924924b; 0xb6db6db6; 0x49249249; 0x1e1e02; 0x20000; 0xb6c000;
   0xb6d8000; 0x3fff0001; 0x6db60006; 0xdb6c003f; 0xfdf000db; 0x6d8005b2; 0x4b001ec9; 0x2c0036db;
   0x60016db6; 0xc001f6db; 0xdb6d8; 0x1b25b0; 0x249200; 0x16db200; 0x25b2000; 0x1240000;
   0xb640000; 0x2400000; 0x90000b6; 0xdb6c0b6c; 0x96d834fe; 0xf9316db6; 0xdb664924; 0x92d92492;
   0x4fdb6db6; 0xd9924924; 0xb0000000; 0x1d1d03; 0x592000; 0x36d0000; 0x1fff8001; 0xb6db0016;
   0xdb6801ff; 0xffc01b6d; 0xb6016db6; 0xd00fec9f; 0xc036db6c; 0xdb6db0; 0x1ecb2f80; 0x6db6d805;
   0xb6db403c; 0x965f00db; 0x6db0036d; 0xb600093c; 0x900086d8; 0x60001b00; 0x4800; 0x36db6c0;
   0x2db6db03; 0x2f9fc836; 0xdb6db3c9; 0x2492da49; 0x24976db6; 0xdb649249; 0x24800000; 0x201d03;
   0xb6000; 0x2db000; 0x3ffe00; 0x5b6d00; 0x6db600; 0x7ffe00; 0xdb6d80; 0x6db600;
   0x6db600; 0xdb6d80; 0x165b600; 0x67d600; 0xdb6d80; 0x6db600; 0x259000; 0x5b6c00;
   0x2db000; 0x259000; 0x1b6c00; 0xdb000; 0x49000; 0x16db6db0; 0x1b6db6d8; 0x497dbe48;
   0xb6db6db6; 0x4924924b; 0x4924924b; 0xb6db6db6; 0x49249249; 0x1e1e02; 0x20000; 0xb6c000;
   0xb6d8000; 0x3fff0001; 0x6db60006; 0xdb6c003f; 0xfdf000db; 0x6d8005b6; 0xdb001ec9; 0x6c0036db;
   0x60016db6; 0xc003b6db; 0xdb6d8; 0x1b6db0; 0x649200; 0x16db600; 0x2db6000; 0x16c0000;
   0xb6c0000; 0x6c00000; 0x90000b6; 0xdb6c0b6d; 0xb6d834fe; 0xf9316db6; 0xdb664924; 0x92d92492;
   0x4fdb6db6; 0xd9924924; 0xb0000000; 0x1d1d03; 0x596000; 0x3ff0000; 0x3fff8001; 0xffff003f;
   0xfff803ff; 0xffc01fff; 0xfe01fff7; 0xf00fffbf; 0xc03edb7e; 0xdb6df0; 0x1fcb2f80; 0x7db6f807;
   0xb6dbc03f; 0xbedf00fb; 0x6df0036d; 0xb700197f; 0x980086d8; 0x60001b00; 0xf800; 0x36db6c0;
   0x2db6db03; 0x2fffc836; 0xdb6db3c9; 0x2492da49; 0x24976db6; 0xdb649249; 0x24800000; 0x201d03;
   0xb6000; 0x2ff000; 0x3ffe00; 0x7fff00; 0x7ffe00; 0xffff00; 0xffef80; 0xedb700;
   0xefb700; 0xdb6d80; 0x165b600; 0x167d600; 0xdb6d80; 0x6db600; 0x2ff600; 0x5b6c00;
   0x2db400; 0x2ff000; 0x1b6c00; 0xdb000; 0x7f000; 0x16db6db0; 0x1b6db6d8; 0x497ffe48;
   0xb6db6db6; 0x4924924b; 0x4924924b; 0xb6db6db6; 0x49249249; 0x1e1e02; 0x120000; 0xfec000;
   0xfff8000; 0x7fff0003; 0xfffe000f; 0xfffc007f; 0xfff000ff; 0xefc007be; 0xdf001fdb; 0x7c0036db;
   0x7001edb6; 0xc003b6db; 0xdb6d8; 0x1b6db0; 0x6df780; 0x16db600; 0x2db6000; 0x3fd8000;
   0xb6c0000; 0x16c00000; 0x1f0000b6; 0xdb6c0b6d; 0xb6d834ff; 0xf9316db6; 0xdb664924; 0x92d92492;
   0x4fdb6db6; 0xd9924924; 0xb0000000; 0x1d1d03; 0x480000; 0x1240000; 0x9248000; 0x92490012;
   0x49200092; 0x49000924; 0x92012492; 0x40012412; 0x16db64; 0x5b6d90; 0x2cb3480; 0x2db6c804;
   0xb2590004; 0x12080049; 0x24900125; 0x9200082c; 0x10008248; 0x20000900; 0x0; 0x36c96c0;
   0x2db2db03; 0x2f9fc836; 0xdb6db3c9; 0x2492da49; 0x24976db6; 0xdb649249; 0x24800000; 0x201d03;
   0x92000; 0x49000; 0x249000; 0x492400; 0x249200; 0x249200; 0x492400; 0x249200;
   0x6c9600; 0xdb6d00; 0x65b600; 0x67d600; 0x5b6c00; 0x2d9600; 0x8000; 0x492400;
   0x249000; 0x49000; 0x92000; 0x49000; 0x0; 0x16d92db0; 0x1b6c96d8; 0x497cbe48;
   0xb6db6db6; 0x4924924b; 0x4924924b; 0xb6db6db6; 0x49249249; 0x1e1d03; 0x249000; 0x2492000;
   0x9248000; 0x49248000; 0x92490002; 0x49240012; 0x49200124; 0x92400090; 0x490005b6; 0xd8000b6d;
   0x90003db6; 0x16db6; 0x2c960; 0x2000; 0x492400; 0x16c800; 0x90000; 0x2490000;
   0x900000; 0x2d; 0x92db02db; 0x25b60d3e; 0x9e4c5b6d; 0xb6d99249; 0x24b64924; 0x93f6db6d;
   0xb6649249; 0x2c000000; 0x191d03; 0x80001; 0xbe0000ff; 0xe002db6c; 0x1ffff00; 0x7fff805b;
   0x6d803e4f; 0x601fe7f8; 0x1b6db607; 0xfbee07ff; 0xff036db6; 0xc0d92dc0; 0x7402602c; 0x92500d24;
   0xb0039278; 0x925800; 0x4800000; 0x1b64b; 0x612db6c8; 0xfffffcb6; 0xdb6c3ff7; 0xff1e79ef;
   0x96db6db4; 0x92492000; 0x1e1f01; 0x10000; 0x240000; 0x16c8000; 0x17fb0000; 0xfffc0002;
   0xdb68000f; 0xffc0003f; 0xff8001b6; 0xdb00036c; 0xb0000f97; 0xc0006db6; 0x8000fb7c; 0x1fff0;
   0xb6d80; 0x164b00; 0x412000; 0x492000; 0x4920000; 0x400000; 0x12400000; 0x24800000;
   0x400b6c; 0x96d832d9; 0x6db0ffff; 0xffc6db6d; 0xb6fffedf; 0xfe7fd967; 0xf9b6db6d; 0xb1249249;
   0x0; 0x1c1f01; 0x2d8000; 0x7f90006; 0xdb6c00bf; 0xff6003ff; 0xf8006db6; 0xc00fffbe;
   0xfffbe0; 0x6db2c00; 0xf64be00f; 0xedfe006d; 0xb6c00f7d; 0xf600ffff; 0x6006db6c; 0x364b60;
   0x643000; 0x24924000; 0x24900000; 0x48000049; 0x20000048; 0x0; 0x16c96d8; 0xb6db643;
   0xfffffc36; 0xdb6da7ff; 0xdffc7f7d; 0xf7eb6db6; 0xdb492492; 0x40000000; 0x181c04; 0x1240000;
   0x92400000; 0x92490; 0x4924004; 0x400b24; 0xb027b6c8; 0x7ffc00b; 0x6db025f7; 0xc807f7c0;
   0xb659005; 0x92c80090; 0x96490; 0x4b24000; 0x24; 0x41240; 0x2592c85b; 0x6db66dbe;
   0xdb7ffffe; 0x5b6db67d; 0xb6dffc92; 0x7fd924b6; 0x1d1e02; 0x8000; 0x0; 0x12490000;
   0x49200000; 0x24; 0x92000492; 0x48000402; 0xc92c; 0xb6df0; 0x1ffe00; 0x5f6f800;
   0x17dfe000; 0x3e7c0001; 0x6db00004; 0x92000024; 0x10000259; 0x924; 0x0; 0x9240;
   0x4824120; 0x25907906; 0xdb2db65b; 0x6db6dbff; 0xffffedb6; 0xdb6cfed9; 0x6ff7fa49; 0x7f9b6492;
   0xd8000000; 0x1a1f01; 0x80000; 0x49200000; 0x4924; 0x90012490; 0x1; 0x24924024;
   0x92400100; 0x1004b259; 0xb6db00; 0x7ffc012; 0xdb6402ff; 0xfc001f7f; 0xb2580; 0x1249000;
   0x9200025; 0x920000b2; 0x0; 0x24000; 0x1241002e; 0x93c8b6db; 0x6d96dfed; 0xa7fffffe;
   0xdb6db6ff; 0x65bfffc9; 0x27fb6492; 0xd8000000; 0x181c04; 0x36c8005; 0xb6c00fff; 0xe05b6db0;
   0xdb6c01f; 0x97f01b6d; 0xb02db6d8; 0x3ffff81b; 0x6db02df7; 0xd83ff7f8; 0x1b6db02d; 0x92d80c92;
   0x580b6db0; 0x4b65004; 0x1260002c; 0x41240; 0x2592c85b; 0x6db66dbe; 0xdb7ffffe; 0x5b6db67d;
   0xb6dffc92; 0x7fd924b6; 0x1d1f01; 0x10000; 0xc0000; 0x7600000; 0xb6d80016; 0xdb40007f].
Definition emoji_data_138 : list N :=
  [0xff00036d; 0xb0002db6; 0xc001ff9e; 0x16db60; 0x5b6d80; 0x3fffc00; 0x2fb7c000; 0xbefb0005;
   0xf3f8000b; 0x6d800025; 0xb0000124; 0x800016d8; 0x4920; 0x24900; 0x5b200; 0x24120901;
   0x2c93c836; 0xdb6db2db; 0x6db6dfff; 0xffff6db6; 0xdb67f6cb; 0x7fbfd24b; 0xfcdb2496; 0xc0000000;
   0x1a1f01; 0x5b0000; 0x5b6000bf; 0xff005b6d; 0xb00b6db0; 0x3fffe01; 0x6db6c06d; 0xb6d01f7c;
   0xbc05b6db; 0x1b6db60; 0x6fffd016; 0xdb6c02ff; 0xfc00bf7f; 0x5b6db0; 0x16c9000; 0x4924002d;
   0xb60000b2; 0x2480; 0x16c000; 0x241002e; 0x93c8b6db; 0x6d96db6d; 0xa7fffffe; 0xdb6db6ff;
   0x65bfffc9; 0x27fb6492; 0xd8000000; 0x181c04; 0x36c8005; 0xb6c00fff; 0xf05b6db0; 0xdb6c01f;
   0xbff01b6d; 0xb02db6d8; 0x3ffff81b; 0x6db42df7; 0xd83ff7f8; 0x1b6db02d; 0xb6d82d92; 0xf80b6db0;
   0x5b6d004; 0x9260006c; 0x43640; 0x2592c85b; 0x6db66db6; 0xdb7ffffe; 0x5b6db67d; 0xb6dffc92;
   0x7fd924b6; 0x1d1f01; 0x10000; 0xc0000; 0x7e00000; 0xb6d80016; 0xdb40007f; 0xff00036d;
   0xb0002db6; 0xc001fffe; 0x16db60; 0x5b6d80; 0x3fffc00; 0x2fb7c000; 0xbefb0005; 0xf7f8001b;
   0x6d80006d; 0xb0000124; 0x800016da; 0x5b60; 0x24900; 0xdb200; 0x24360901; 0x2c93c836;
   0xdb6db2db; 0x6db6dfff; 0xffff6db6; 0xdb67f6cb; 0x7fbfd24b; 0xfcdb2496; 0xc0000000; 0x1a1f01;
   0x5b0000; 0x5b6000bf; 0xff005b6d; 0xb00b6db0; 0x3fffe01; 0x6db6c06d; 0xb6d01ffc; 0xbc05b6db;
   0x1b6db60; 0x7ffff016; 0xdb6c06ff; 0xfc00ffff; 0x805b6db0; 0x36db000; 0x4924002d; 0xb60005b6;
   0x2480; 0x16c000; 0x12d1002e; 0x97c8b6db; 0x6d96db6d; 0xa7fffffe; 0xdb6db6ff; 0x65bfffc9;
   0x27fb6492; 0xd8000000; 0x181c04; 0x37c8007; 0xffc03fff; 0xf05ffff0; 0xffff01f; 0xfff81bef;
   0xb03db7f8; 0x3ffff81f; 0x6dbc3df7; 0xf83ffff8; 0x1f6db83d; 0xb6f82fff; 0xf80f6db0; 0x7b6f004;
   0xbe60006c; 0x20043640; 0x25bec85b; 0x6db66db6; 0xdb7ffffe; 0x5b6db67d; 0xb6dffc92; 0x7fd924b6;
   0x1d1f01; 0x10000; 0x2c0000; 0xff00000; 0xbfd8001f; 0xffc0007f; 0xff0003ff; 0xf0003fff;
   0xc001fffe; 0x16db60; 0x7b6d80; 0x3fffc00; 0x2fb7c000; 0xbefb0007; 0xfff8001b; 0x6d80006d;
   0xb00003fd; 0x800016db; 0x5b60; 0x2db00; 0xdb200; 0x24368901; 0x2dffc836; 0xdb6db2db;
   0x6db6dfff; 0xffff6db6; 0xdb67f6cb; 0x7fbfd24b; 0xfcdb2496; 0xc0000000; 0x1a1f01; 0xdb0000;
   0x7fe400ff; 0xff005fff; 0xb00ffff0; 0x3fffe01; 0xffffc07f; 0xfff81fff; 0xfe07b6db; 0x1f6dbe0;
   0x7ffff01e; 0xdb6c07ff; 0xff00ffff; 0x805b6db0; 0x36db000; 0xfffc002d; 0xb60005b6; 0x7f80;
   0x16c000; 0x2d9002e; 0xffc8b6db; 0x6d96db6d; 0xa7fffffe; 0xdb6db6ff; 0x65bfffc9; 0x27fb6492;
   0xd8000000; 0x181c04; 0x1240000; 0x92400492; 0x40092490; 0x4924004; 0x92400b25; 0xb027b6c8;
   0x27ffc80b; 0x6db025f7; 0xc827f7c8; 0xb659025; 0x92c80490; 0x96490; 0x4924000; 0x400024;
   0x41240; 0x2582c85b; 0x6db66dbe; 0xdb7ffffe; 0x5b6db67d; 0xb6dffc92; 0x7fd924b6; 0x1d1f01;
   0x10000; 0x40000; 0x1200000; 0x92480002; 0x49000012; 0x48000124; 0x90002492; 0x40012492;
   0x6c960; 0x5b6f80; 0x2fff400; 0x2fb7c000; 0xbeff0001; 0xf3e0000b; 0x6d800024; 0x90000120;
   0x800012c8; 0x4920; 0x0; 0x49200; 0x24120901; 0x2c03c836; 0xd96db2db; 0x6db6dfff;
   0xffff6db6; 0xdb67f6cb; 0x7fbfd24b; 0xfcdb2496; 0xc0000000; 0x1a1f01; 0x90000; 0x49200012;
   0x49004924; 0x90092490; 0x2492401; 0x24924024; 0x92400924; 0x1005b25b; 0xb6db00; 0x27ffc012;
   0xdb6402ff; 0xfc009f7f; 0xb2590; 0x1249000; 0x1200025; 0x92000092; 0x0; 0x24000;
   0x1241002e; 0x83c8b6db; 0x6d96dfed; 0xa7fffffe; 0xdb6db6ff; 0x65bfffc9; 0x27fb6492; 0xd8000000;
   0x1d1f01; 0x2402400; 0x436d9000; 0xfe0800c; 0xb6c80086; 0xdb200017; 0xc100196d; 0x90010db6;
   0x40082f82; 0xb2db2c; 0x21b6c80; 0x904d048b; 0x65b65b6c; 0x36d96d20; 0x9a0936cb; 0x6cb6d86d;
   0xb2da4134; 0x126492c9; 0x24000800; 0x4000; 0x5b6db6db; 0x6db6db69; 0x24d24992; 0x4b249000;
   0x20000001; 0x16db6; 0xdb6db6db; 0x6da49049; 0x22492492; 0x40000000; 0x1a1e01; 0x1240005;
   0xb2490092; 0x49202412; 0x40b6492c; 0x92492494; 0x900022c9; 0x24924924; 0x92524000; 0x8b249249;
   0x2492d949; 0x922c92; 0x5b249249; 0x25240248; 0xb2496d92; 0x492d8482; 0x920d924; 0xb2092492;
   0x400080; 0x2c924000; 0x92480000; 0x249; 0x4920; 0x0; 0x9240000; 0x24000000;
   0x1c1f00; 0x40000; 0x2400002; 0xc9240092; 0x49200904; 0x92036592; 0xc8492492; 0x44820020;
   0xb2c92594; 0x92492449; 0xb2c; 0x92494924; 0x96449003; 0x2032c96c; 0x84924b2c; 0x82092c3;
   0x6496d849; 0x24b64092; 0x1601649; 0x2c801249; 0x20010002; 0xc9248; 0x249200; 0x0;
   0x9248000; 0x49200000; 0x12; 0x40000092; 0x0; 0x1c1f00; 0x80000; 0x4800005;
   0xb6480124; 0x92401249; 0x2482db6d; 0xb2124924; 0x81249248; 0x6db6db29; 0x2c924992; 0x492486db;
   0x6db292c9; 0x2d912492; 0x482db6d9; 0x212c9648; 0x12496482; 0xdb6db632; 0x596d8124; 0x92c825b6;
   0xdb002492; 0x48004924; 0x800b6db0; 0x492480; 0x924800; 0x16db0000; 0x92480001; 0x2400002d;
   0xb0000124; 0x0; 0x1a1f01; 0x1240005; 0xb6c90096; 0xdb2024b6; 0xc0b6db6c; 0x92db6d94;
   0x964966db; 0x6db64b6d; 0xb652c924; 0x9b6db6d9; 0x2db6d94b; 0x24926db6; 0xdb24b6d9; 0x2d259249;
   0xb6db6d92; 0xdb6d8496; 0x4b60db6d; 0xb6096db6; 0x492580; 0x2db6d000; 0xb6d80024; 0x920006db;
   0xdb60; 0x124800; 0xb6c0000; 0x6d800001; 0x0; 0x1c2000; 0x40000; 0x2480002;
   0xdb640096; 0xdb20097f; 0xfe036db6; 0xd84b6db6; 0x44bfdb70; 0xb6db6db4; 0xbedb6c4b; 0xedbfcb6d;
   0xb6db4b6d; 0xb644bedb; 0x2436db6c; 0xb4b6db2c; 0xbfd92c3; 0x6db6d849; 0x6db6c097; 0xdf6c16db;
   0x6d8016db; 0x6c013dbf; 0x800db6d8; 0x2db680; 0xdb6000; 0x1b6d8000; 0xdb600005; 0xb6000036;
   0xd80001b6; 0x100; 0x1b1f00; 0x80000; 0x9000016; 0xc9200924; 0x92012092; 0x40592cb6;
   0x44924920; 0x9200046c; 0x92493249; 0x24924100; 0x236c924; 0x992492d8; 0x2080490b; 0x24964892;
   0x4b241240; 0x6485964b; 0x64c925b6; 0x9041640; 0x59259004; 0x92490010; 0x1000492; 0x58004924;
   0x80000000; 0x492400; 0x4920000; 0x4; 0x92000049; 0x0; 0x192000; 0x1000000c;
   0x300; 0x28000; 0x1c00000; 0x60000000; 0x800; 0xc0000; 0x3000001; 0x80000080;
   0x6000; 0x104000; 0x16d96007; 0x80c00300; 0x6002cb6c; 0xbec800; 0x7fe0005b; 0x6c8036da;
   0x200fff10; 0xb6d8017; 0xdb4409e5; 0xf0586d90; 0x401b4c08; 0x4820304; 0xb6c2c161; 0x80000040].
Definition emoji_data_139 : list N :=
  [0x191907; 0x4c00000b; 0x280; 0xc000; 0x600000; 0x1800000c; 0xdb4; 0x36c00;
   0x1800005; 0xb658036d; 0xb60696c9; 0x5364303; 0xc904182; 0x4c0096db; 0x6c61b200; 0x32410c16;
   0x496d9400; 0xdb630168; 0xd964b0; 0x16c16001; 0x100000; 0x1f1d02; 0x2480; 0x12480;
   0x24100; 0xb2400; 0x92400; 0x100800; 0x416000; 0x12000; 0x4000; 0x16000;
   0x12000; 0x4000; 0x90000; 0x90000; 0x20124; 0x4b0924; 0x480000; 0x104924;
   0x825a4924; 0x82440000; 0x964924; 0x92d24924; 0x92249001; 0x436d925; 0x90124924; 0x9024924b;
   0x16db6c; 0x24900; 0x0; 0x171d02; 0x49240049; 0x24009000; 0x6d92582; 0x49258492;
   0x4b16db6d; 0x92496c00; 0x2480001; 0x60000920; 0x24000; 0x4b000049; 0x1200; 0x2580002;
   0x40000480; 0x160000; 0x12000020; 0xb000; 0x4800009; 0x2d80; 0x6d8000; 0xffe0016d;
   0xb0012480; 0x1d1c02; 0x10000; 0x1240000; 0x1200004; 0x92400092; 0x49000090; 0x24924;
   0x90092492; 0x40492012; 0x5924924; 0x12492490; 0x9249240b; 0x64b64924; 0x92492524; 0x92493249;
   0x25b24924; 0x92484924; 0x920592d9; 0x64124924; 0x84924924; 0x4925b249; 0x24924920; 0x24924900;
   0x49649000; 0x4924000; 0x920000; 0x1200000; 0x1a1d02; 0x490000; 0x9000000; 0x924;
   0x80092490; 0x82001; 0x24924024; 0x92480100; 0x49249; 0x24924960; 0x24100892; 0x4b259249;
   0x24940049; 0x26c92496; 0x592496c6; 0x4924836d; 0xb6d02db6; 0xd80937b2; 0x4924900; 0x92492024;
   0x12401249; 0x24024924; 0x124900; 0x9248001; 0x24800000; 0x131f00; 0x2480049; 0x2036d80b;
   0x6d816db0; 0x1b6c01b6; 0xc012400d; 0xb6004920; 0x9240249; 0x1249000; 0x92490; 0x80000000;
   0x4924840; 0x2; 0x49240000; 0x40000124; 0x92000020; 0x9249; 0x41001000; 0x4924a4;
   0x92480000; 0x111e01; 0x8004b00; 0x0; 0x200000; 0x124; 0x92492424; 0x92249249;
   0x24949244; 0x924924b2; 0x9048925b; 0x24965043; 0x12496492; 0xca002249; 0x64924949; 0x24492492;
   0x49292489; 0x24904924; 0x1a1d02; 0x2000; 0x200000; 0x4; 0x80000080; 0x0;
   0x120000; 0x12000004; 0x9248; 0x924800; 0x4800096; 0x49641249; 0x24808200; 0x2cb2592;
   0x49249210; 0x4020892c; 0x96492492; 0x49010082; 0x4924920; 0x92492000; 0x2080249; 0x24804924;
   0x80024000; 0x200000; 0x4000000; 0x1a1d02; 0x12000; 0x240000; 0x8000024; 0x80002490;
   0x90400; 0x24924024; 0x92480104; 0x12049249; 0x20924920; 0x20804812; 0x59259249; 0x24908201;
   0x22492496; 0x49249242; 0x824812c; 0x96582492; 0x49080082; 0x4924920; 0x92492000; 0x2080249;
   0x24004924; 0x124000; 0x1240000; 0x4000000; 0x201e01; 0x400; 0x2d80; 0x5b60;
   0x406db0; 0x2596d90; 0xdb6db6c; 0x125b6db0; 0x12596db0; 0x6d96db68; 0x925b6db0; 0x924bfff0;
   0x6d96db60; 0x925b6db0; 0x125b6d90; 0x6cb6db6c; 0x325b6db6; 0x127b6cb2; 0x2db6db6c; 0x2db6db6;
   0x5b6db6; 0x36db6d; 0x1b6db6; 0x1b6db6; 0x16db6c; 0xb6db6; 0xb6cb0; 0x6db6c;
   0x16db0; 0x2d80; 0x900; 0x1f1709; 0x10000; 0x90000; 0x120000; 0x2db2000;
   0x12492000; 0x24924004; 0xb64b6004; 0xb2492049; 0x2492492d; 0xb2db6124; 0xb6d92249; 0x24924b6d;
   0xb6db292c; 0x92490249; 0x2490496d; 0x96c94924; 0x92488049; 0x2010c96d; 0x92c04924; 0x92001249;
   0x20004b6d; 0x80000120; 0x0; 0x1f1609; 0x12480000; 0x12480000; 0x20000000; 0x92490000;
   0x92490001; 0x20000004; 0x92480024; 0x92480009; 0x24000124; 0x92480124; 0x92480041; 0x20000064;
   0x92480024; 0x92480008; 0x2c; 0x92490004; 0x92480009; 0x20100004; 0x92480004; 0x92000001;
   0x24000000; 0xb0000000; 0x181f01; 0x80000000; 0x2400; 0x100000; 0x4; 0x200;
   0x20000; 0x924002; 0x5b200249; 0x20049248; 0x2002002; 0x240db6; 0xd816db6c; 0x16db6c2d;
   0xb6db36db; 0x6d36db6d; 0x2db6db36; 0xdb6d36db; 0x6d2db6db; 0x36db6d1e; 0xdb6e2db6; 0xdb16db6c;
   0x3ffe001; 0xb6c00009; 0x0; 0x1d1a03; 0x92400; 0x1249000; 0x24; 0x92492412;
   0x49048000; 0x264924; 0x92492492; 0x49000080; 0x4924924; 0x92492492; 0x12009; 0x24924924;
   0x92492400; 0x2481249; 0x24924924; 0x92480024; 0x92249249; 0x24924924; 0x90924924; 0x49249249;
   0x24924900; 0x24924002; 0x49240001; 0x24000000; 0x142000; 0x2000030; 0x30000; 0x20000300;
   0x300016; 0xc904b248; 0x4924992c; 0x92492494; 0x924992c9; 0x24924941; 0x192c92; 0x49249410;
   0x924924; 0x92484924; 0x836db649; 0x24809248; 0x36db61b6; 0x581b6583; 0x6db41b6d; 0x80fe4816;
   0xdb001200; 0xa1f01; 0x1807c360; 0x20080c81; 0x8124b6d6; 0xc5b2d95b; 0x6cb656c; 0x92d95b0;
   0x243606c0; 0x90d81b00; 0x43606c1b; 0xd849000; 0xb1f01; 0xb01e05a; 0x4800004; 0x2404836;
   0xc924240b; 0x64921205; 0xb2490912; 0xd86c0481; 0x6c360240; 0x96190120; 0x4a0c8190; 0x65824000;
   0xa2000; 0x100607c2; 0xd8481201; 0x20492d; 0x8db124b6; 0x164482d8; 0x5b120b65; 0x68482d84;
   0xa120b612; 0x8482d848; 0x100b6124; 0xa1f01; 0x8000120; 0x20080480; 0x8124b6d6; 0xc5b2d95b;
   0x6cb656c; 0x92d95b0; 0x243606c0; 0x90d81b00; 0x43606c1b; 0xd849000; 0xb1d03; 0x12012000;
   0x1009012; 0xdb24949; 0x22d92484; 0x816c9242; 0x44b61b01; 0x205b0d80; 0x90258640; 0x48128320;
   0x64196090; 0xa1f01; 0x8000121; 0x20080400; 0x8124b636; 0xc492d85b; 0x120b616c; 0x482d95a1;
   0x20b61284; 0x82d84a12; 0xb612040; 0x2d849000; 0xa1f01; 0x8078360; 0x20080581; 0x8124b6d6;
   0xc5b2db5b; 0x16cb656c; 0x92d95b0; 0x243606c0; 0x90d81b02; 0x43606c1b; 0xd849000; 0xb1f01;
   0xb01e05a; 0x480900c; 0x2404836; 0xc925249b; 0x6492924d; 0xb2494932; 0xd96c0481; 0x6c360240;
   0x96190120; 0x4a0c8190; 0x65824000; 0xa1f01; 0x181f0b61; 0x20480400; 0x8124b636; 0xc492d85b;
   0x124b6164; 0x482d95a1; 0x20b61284; 0x82d84a12; 0xb612040; 0x2d849000; 0xa1f01; 0x807c360;
   0x6c080581; 0x8124b6d6; 0xc5b2db5b; 0x16cb6d6c; 0x492d95b0; 0x243606c0; 0x90d81b00; 0x43606c1b;
   0xd849000; 0xb1f01; 0x1603606c; 0xb01a010; 0x5824849; 0x16d92424; 0x8b6c9212; 0x45b24921;
   0x22d90d80; 0x906c06c0; 0x48320360; 0x4190130; 0xe60c8000; 0xb1f01; 0x16036064; 0xb40b012;
   0x1805809; 0x6d96da4; 0x936c9652; 0x4cb65b29; 0x265b0d80; 0x902d8640; 0x48128320; 0x24094190;
   0x330cb000; 0xa1f01; 0x1a0f83e0; 0x6c2c0f01; 0xb0b62496; 0xc6d9965b; 0x1b664b6d; 0x2d892db4;
   0xb42416c2; 0x50901b09; 0x2406c24; 0xdc5b000; 0xb1f01; 0x1603e07c; 0x1b01a018; 0x5824849].
Definition emoji_data_group_0 : list (list N) :=
  [emoji_data_0; emoji_data_1; emoji_data_2; emoji_data_3;
   emoji_data_4; emoji_data_5; emoji_data_6; emoji_data_7;
   emoji_data_8; emoji_data_9; emoji_data_10; emoji_data_11;
   emoji_data_12; emoji_data_13; emoji_data_14; emoji_data_15;
   emoji_data_16; emoji_data_17; emoji_data_18; emoji_data_19;
   emoji_data_20; emoji_data_21; emoji_data_22; emoji_data_23;
   emoji_data_24; emoji_data_25; emoji_data_26; emoji_data_27;
   emoji_data_28; emoji_data_29; emoji_data_30; emoji_data_31;
   emoji_data_32; emoji_data_33; emoji_data_34; emoji_data_35;
   emoji_data_36; emoji_data_37; emoji_data_38; emoji_data_39;
   emoji_data_40; emoji_data_41; emoji_data_42; emoji_data_43;
   emoji_data_44; emoji_data_45; emoji_data_46; emoji_data_47;
   emoji_data_48; emoji_data_49; emoji_data_50; emoji_data_51;
   emoji_data_52; emoji_data_53; emoji_data_54; emoji_data_55;
   emoji_data_56; emoji_data_57; emoji_data_58; emoji_data_59;
   emoji_data_60; emoji_data_61; emoji_data_62; emoji_data_63;
   emoji_data_64; emoji_data_65; emoji_data_66; emoji_data_67;
   emoji_data_68; emoji_data_69; emoji_data_70; emoji_data_71;
   emoji_data_72; emoji_data_73; emoji_data_74; emoji_data_75;
   emoji_data_76; emoji_data_77; emoji_data_78; emoji_data_79;
   emoji_data_80; emoji_data_81; emoji_data_82; emoji_data_83;
   emoji_data_84; emoji_data_85; emoji_data_86; emoji_data_87;
   emoji_data_88; emoji_data_89; emoji_data_90; emoji_data_91;
   emoji_data_92; emoji_data_93; emoji_data_94; emoji_data_95;
   emoji_data_96; emoji_data_97; emoji_data_98; emoji_data_99;
   emoji_data_100; emoji_data_101; emoji_data_102; emoji_data_103;
   emoji_data_104; emoji_data_105; emoji_data_106; emoji_data_107;
   emoji_data_108; emoji_data_109; emoji_data_110; emoji_data_111;
   emoji_data_112; emoji_data_113; emoji_data_114; emoji_data_115;
   emoji_data_116; emoji_data_117; emoji_data_118; emoji_data_119;
   emoji_data_120; emoji_data_121; emoji_data_122; emoji_data_123;
   emoji_data_124; emoji_data_125; emoji_data_126; emoji_data_127;
   emoji_data_128; emoji_data_129; emoji_data_130; emoji_data_131;
   emoji_data_132; emoji_data_133; emoji_data_134; emoji_data_135;
   emoji_data_136; emoji_data_137; emoji_data_138; emoji_data_139].
