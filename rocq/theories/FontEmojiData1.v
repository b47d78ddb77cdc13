(** GENERATED by tools/gen_fonts.py from /repo/src/fonts/emoji.rs -- do not edit.
    DATA (src/fonts/emoji.rs:8191-24037), words 71680 to 91227. *)
From Verif Require Import Prim FontDefs.

Definition emoji_data_140 : list N :=
  [0x16db2524; 0x8b6d92b2; 0x55b2c969; 0x22d90d80; 0x906c06c0; 0x48320360; 0x4190130; 0xe60c8000;
   0xb1f01; 0x1603e07e; 0xb41b01e; 0x1805809; 0x6d96da4; 0xb36c96d2; 0x4cb65b29; 0x265b0d80;
   0x902d8640; 0x48128320; 0x24094190; 0x330cb000; 0x81f01; 0x10480812; 0x808325b; 0x59b65b48;
   0xb65948b6; 0x5b48b65a; 0x48b64a48; 0x36484836; 0x486eb600; 0xa1f01; 0x12024080; 0x48080201;
   0x2124492d; 0xb49124b6; 0x524492d9; 0x49024b64; 0x6c090d81; 0xb0243206; 0xc010c813; 0x1cc32000;
   0xa1f01; 0x4048120; 0x90120000; 0x4048121b; 0x6b64482d; 0xa59120b6; 0xb64482d8; 0xd8120b63;
   0x2048250c; 0x81209432; 0xcc65800; 0x151f01; 0xb60007; 0xf000fe00; 0xb64002c; 0x8001a000;
   0x6400048; 0x24800; 0xd800036; 0x1000; 0x19000064; 0x12000; 0x320000c8; 0x20000;
   0x6d9001b6; 0x40049200; 0x5b600365; 0x801b2400; 0xb0c002cb; 0x416085b; 0x618b6d86; 0x5968f802;
   0x43600000; 0x141f01; 0x580007; 0xe001f400; 0xd8001e4; 0x60000; 0x48000200; 0x20000d;
   0x80012000; 0x12000248; 0x120001; 0x2c80; 0x1200010; 0x2d900; 0x36d80124; 0x802db601;
   0x65801608; 0xd14016; 0x1800608b; 0x6d10fb61; 0x8cb61f02; 0x41600000; 0x131f01; 0xb6001f;
   0x8003e000; 0xd8000c80; 0x800024; 0x20000; 0x40003600; 0xb600124; 0x190004; 0x90008200;
   0xc8002c8; 0x480006; 0xc9016d80; 0x2490036d; 0x80b2d006; 0x801b2c0; 0x1a200304; 0x36d96f6d;
   0x172583c0; 0x20b00000; 0x151f01; 0x120002; 0x40000000; 0x1240024; 0x80000000; 0x400008;
   0x4800; 0xd800036; 0x9000; 0x19000064; 0x12000; 0x320000c8; 0x24000; 0x6d9001b6;
   0x40049200; 0x5b600365; 0x801b2400; 0xb0c002cb; 0x416085b; 0x618b6d86; 0x5968f802; 0x43600000;
   0x141f01; 0x480002; 0x40000000; 0x4800024; 0x0; 0x48000200; 0x20000d; 0x80012000;
   0x12000248; 0x120001; 0x2c80; 0x1200012; 0x2db00; 0x36d80124; 0x802db601; 0x65801608;
   0xd14016; 0x1800608b; 0x6d10fb61; 0x8cb61f02; 0x41600000; 0x131f01; 0x900009; 0x0;
   0x49000480; 0x4; 0x20000; 0x40003600; 0xb600124; 0x190004; 0x90008200; 0xc8002c8;
   0x480006; 0xd9016d80; 0x2490036d; 0x80b6d006; 0x801b2c0; 0x1a200304; 0x36d96f6d; 0x172583c0;
   0x20b00000; 0x151f01; 0x360006; 0xd000fe00; 0xb6c002c; 0x80012400; 0x6c00048; 0x4800;
   0xd800036; 0x9000; 0x1b000064; 0x12000; 0x360000c8; 0x24800; 0x6db001b6; 0x40049200;
   0x5b600365; 0x801b2400; 0xb0c002cb; 0x416085b; 0x618b6d86; 0x5968f802; 0x43600000; 0x141f01;
   0x580006; 0xc000f400; 0xd800164; 0x64000; 0x48000200; 0x20000d; 0x80012000; 0x120002d8;
   0x120001; 0x20002d80; 0x1240012; 0x4002db20; 0x36d80124; 0x802db601; 0x65801608; 0xd14016;
   0x1800608b; 0x6d10fb61; 0x8cb61f02; 0x41600000; 0x152000; 0x100001; 0xf0001b00; 0x16c000f;
   0x20003600; 0xc80002; 0x6000; 0x5800024; 0x2d800; 0x9000048; 0x5b000; 0x12000090;
   0xb6000; 0x2c800124; 0x8016d800; 0x5b600249; 0x2db600; 0xb0c00582; 0x1a2801; 0x6183cb04;
   0x6db45996; 0xc3e00008; 0x141f01; 0x3c002d; 0xb0036c00; 0x3e4002d8; 0x36c001; 0x24002500;
   0x1600016; 0xd800; 0x16c00124; 0xd8001; 0x68001200; 0xd80016; 0xc8012480; 0x2db6016d;
   0xa0124800; 0xd960060a; 0x608005; 0x96086881; 0x9608b6d9; 0x6db60f00; 0x900000; 0x142000;
   0x80001; 0xd000b600; 0x5b00079; 0xb6000; 0x5b000080; 0x300004; 0x80004800; 0xb000058;
   0x48000; 0xb6000580; 0x48000b; 0x60005b00; 0x49201b6; 0xc00db600; 0x49200b2c; 0xd96005;
   0x9200b0c1; 0x59632d8; 0x26db0cb6; 0xd9f00002; 0x152000; 0x100001; 0xf0001b00; 0x16c000f;
   0xe0003600; 0xd80002; 0x6000; 0x5800024; 0x2d800; 0xb000048; 0x5b000; 0x16000090;
   0xb6000; 0x2d800124; 0x8016da00; 0x5b600249; 0x2db600; 0xb0c00582; 0x1a2801; 0x6183cb04;
   0x6db45996; 0xc3e00008; 0x142000; 0x200007; 0xc002ff00; 0x3fc003fc; 0x2fa003; 0x6c003240;
   0x2d00016; 0x12000; 0xd80016c; 0x16c000; 0xd8001680; 0x168000d; 0x80016d80; 0x12d802db;
   0x6016da01; 0x24800d96; 0x60a006; 0x8005961; 0x86881960; 0x8b6d96db; 0x60f00009; 0x142000;
   0x80003; 0xf000bf00; 0x7f0007f; 0xf6000; 0x7b000180; 0x300004; 0x80004800; 0xb000058;
   0x58000; 0xb6000580; 0x58000b; 0x60005b40; 0x5b601b6; 0xc00db600; 0x49200b2c; 0xd96005;
   0x9200b0c1; 0x59632d8; 0x26db0cb6; 0xd9f00002; 0x152000; 0x100001; 0xf0001fc0; 0x1fc000f;
   0xe0003600; 0xd80006; 0x6000; 0x5800024; 0x2d800; 0xb000058; 0x5b000; 0x160000b0;
   0xb6000; 0x2d80012d; 0x8016da00; 0x5b600249; 0x2db600; 0xb0c00582; 0x1a2801; 0x6183cb04;
   0x6db45996; 0xc3e00008; 0x141f01; 0x240004; 0x80012400; 0x12000248; 0x124001; 0x20002500;
   0x1600016; 0xd800; 0x12c00104; 0xc8001; 0x28001000; 0xc80016; 0x40012400; 0x2db2016d;
   0x80124800; 0xd960060a; 0x608005; 0x96186881; 0x9608b6d9; 0x6db60f00; 0x900000; 0x141f01;
   0x80001; 0x20004900; 0x4800092; 0x48000; 0x300; 0x480004; 0x8000b000; 0x4800048;
   0x96000; 0x48000480; 0x920004; 0x90004900; 0x1b6c00db; 0x60049200; 0xb2c00d96; 0x59200b;
   0xc105963; 0x2d826db0; 0xcb6d9f00; 0x200000; 0x151f01; 0x100001; 0x20002480; 0x200002;
   0x40000800; 0xc; 0xb000; 0x480005b; 0x12000; 0x9000096; 0x24000; 0x10000164;
   0x49000; 0x248002db; 0xb6c00; 0x492005b6; 0xc0161800; 0xb0400345; 0x2c3079; 0x608db68b;
   0x32d87c00; 0x1000000; 0x1c1c04; 0x780000; 0x5b6c0007; 0xffc0007f; 0xfe000db6; 0xd001ffbe;
   0x1ff9f0; 0x2db2d80; 0x3e497803; 0x3802d; 0x9658232c; 0xb3803000; 0x2002c925; 0x803a4924;
   0x13c48780; 0x2cb2d903; 0xe49e481e; 0x1e002c9; 0x25901649; 0x64812492; 0x406db6db; 0x6b6db6d8;
   0x92492486; 0xdb6db6b6; 0xdb6d8124; 0x92480000; 0x1e1d03; 0x90000; 0x1fc0000; 0x1b6c0000;
   0xfff80007; 0xffe00016; 0xdb60007f; 0xb7000196; 0xc000c92; 0x58001924; 0x80000c10; 0x124b2;
   0x24920; 0x10002000; 0x492482; 0x40924904; 0x490000; 0x2d90400; 0x4900800; 0x0;
   0x92092009; 0x24920124; 0x12400b6d; 0xb6d836db; 0x6db24924; 0x9606db6d; 0xb62db6db; 0x6c124924;
   0x80000000; 0x1d1e02; 0x2d80000; 0x5fe00003; 0xffe0006d; 0xb6c007ff; 0xff003fff; 0xf802db6d;
   0x800f7cbe; 0x7b00f0; 0x5b24b00; 0x12492c00; 0xc60c600b; 0x24b20024; 0x92580500; 0x40264b;
   0x24120924; 0x80000920; 0x200b641; 0x20024804; 0x0; 0x240240; 0x900801; 0x209000b6].
Definition emoji_data_141 : list N :=
  [0x4b6586d9; 0x2d961249; 0x24916db6; 0xdb0db6db; 0x6c000001; 0x20000000; 0x1c1b05; 0x920000;
   0x24900000; 0x49; 0x24001249; 0x20000000; 0x249248; 0x1249200; 0x410002; 0x59648212;
   0xcb200000; 0x24b2; 0x48012492; 0x41004800; 0x24b6490; 0x12492480; 0x4000004; 0x92490164;
   0x96481649; 0x6406db6d; 0xb6b6db6d; 0x89249248; 0x6db6db6b; 0x6db6d812; 0x49248000; 0x1e1b05;
   0x924000; 0x9248000; 0x1; 0x24900002; 0x49200000; 0x49; 0x24000092; 0x480000c1;
   0x124b; 0x20002492; 0x1000200; 0x49248; 0x24092490; 0x40049000; 0x2d9040; 0x490480;
   0x0; 0x9209200; 0x92492012; 0x412400b6; 0xdb6d836d; 0xb6db2492; 0x49606db6; 0xdb62db6d;
   0xb6c12492; 0x48000000; 0x1d1e02; 0x2480000; 0x9200000; 0x24; 0x92400092; 0x48000000;
   0x4924; 0x80092492; 0x0; 0x4924900; 0x12492400; 0x60c0001; 0x24b20024; 0x92400400;
   0x224b; 0x24920924; 0x80000920; 0x200b641; 0x20024804; 0x0; 0x240240; 0x4900901;
   0x209048b6; 0x4b6586d9; 0x2d961249; 0x24916db6; 0xdb0db6db; 0x6c000001; 0x20000000; 0x1d1c04;
   0x6c0000; 0xffc0001; 0xb6d80016; 0xdb4000ff; 0xff000b6d; 0xb0006db6; 0xc003e49e; 0x36db68;
   0xc92580; 0x669a400; 0x6db6d801; 0x924b048c; 0x925820db; 0x6db2432d; 0x96481d2c; 0xf201b6db;
   0x6c06c96c; 0x90104924; 0x816db6d8; 0x2db2d921; 0x25925916; 0xdb6db05b; 0x6db6c249; 0x24b22db6;
   0xdb689249; 0x24800000; 0x1f1d03; 0x590000; 0xdb0000; 0x7fe0000; 0x16db0000; 0x36db0000;
   0xfffe0001; 0xb6d80005; 0xb658000d; 0x2490000d; 0xb6c00025; 0x9640004f; 0x2c80006d; 0xb6012025;
   0x92000049; 0x2010016d; 0xb2080165; 0x82000249; 0x36c; 0x16000124; 0x12000240; 0x24004b64;
   0xb006c92c; 0x90249249; 0x20b6db6d; 0xb0b6db6d; 0x81249249; 0x5b6db6d; 0x84924924; 0x0;
   0x1e1e02; 0x580000; 0x16d90000; 0x6db60007; 0xfff8002d; 0xb6d800db; 0x6da003ff; 0x9f800b6d;
   0xb60036c9; 0x6c00c924; 0xe002db6d; 0x800cb2ca; 0x33cb20; 0xb6db60; 0x91249201; 0x4924900;
   0xdb6c920; 0xb2c8240; 0x24900800; 0x6d90c000; 0x49048001; 0x2012004b; 0x649605b2; 0xd8201249;
   0x2481b6db; 0x6d8b6db6; 0xdb249249; 0x246db6db; 0x62492492; 0x40000000; 0x1d1d03; 0x80000;
   0xb600000; 0x7fe0000d; 0xb6c000b6; 0xda0007ff; 0xf8005b6d; 0x80036db6; 0x1f64f0; 0x1b6db40;
   0x6db6c00; 0x33cf7003; 0x6db6c00d; 0xb6d82464; 0x92c106db; 0x6d921b6d; 0xb640fbe7; 0x900db6db;
   0x6036db6d; 0x80824b24; 0xb6db6c1; 0x6db6db09; 0x2c92c8b6; 0xdb6d82db; 0x6db61249; 0x25916db6;
   0xdb449249; 0x24000000; 0x1f1d03; 0x590000; 0x2db0000; 0x7ff0000; 0x16db0000; 0x36db0000;
   0xfffe0001; 0xb6d80005; 0xb6d8000f; 0x24b0000d; 0xb6c0002f; 0xb6c0004f; 0x2c80006d; 0xb601206d;
   0xb600004b; 0x2410016d; 0xb208016d; 0x820002db; 0x480036c; 0x1600036c; 0x36000240; 0x24004b64;
   0xb406db6c; 0xb0249249; 0x20b6db6d; 0xb0b6db6d; 0x81249249; 0x5b6db6d; 0x84924924; 0x0;
   0x1e1e02; 0x580000; 0x16db0000; 0x6db60007; 0xfff8002d; 0xb6d800db; 0x6da003ff; 0xdf800b6d;
   0xb60036db; 0x6c00c924; 0xf002db6d; 0x800db6da; 0x33cb20; 0xb6db60; 0x916db681; 0x4964900;
   0xdb6cb20; 0x1b6d8640; 0x2db00801; 0x6db0d800; 0xdb058001; 0x2012004b; 0x64b605b6; 0xd8601249;
   0x2481b6db; 0x6d8b6db6; 0xdb249249; 0x246db6db; 0x62492492; 0x40000000; 0x1d1d03; 0x80000;
   0xbe00000; 0xffe0000f; 0xffc000ff; 0xfe000fff; 0xf8007fff; 0xc003ffbe; 0x3ffdf8; 0x1f6dbc0;
   0xedb6e00; 0x77df7003; 0x6db7c01d; 0xb6d824fd; 0xf7c107db; 0x6f923f6d; 0xfe41fbef; 0xd00fb6ff;
   0x603edbed; 0x8187cb6c; 0xb6db6c1; 0x6db6db09; 0x2592d8b6; 0xdb6d82db; 0x6db61249; 0x25916db6;
   0xdb449249; 0x24000000; 0x1f1d03; 0x5b0000; 0x2ff0000; 0x7ff0000; 0x1fff0000; 0x3fff0001;
   0xfffe0001; 0xffdc0007; 0xfed8000f; 0x7db0000d; 0xb6e0002f; 0xb6c0005f; 0x7f80006d; 0xb681206d;
   0xb60000df; 0x6d12016d; 0xb208036d; 0xa20003ff; 0x580036c; 0x1600036c; 0x360007f0; 0x6c005b64;
   0xb406db6c; 0xb0249649; 0x60b6db6d; 0xb0b6db6d; 0x81249249; 0x5b6db6d; 0x84924924; 0x0;
   0x1e1e02; 0xf80000; 0x17fb0000; 0x7ffe0007; 0xfff8003f; 0xfff800ff; 0xffe003ff; 0xff801ffd;
   0xbe003fdb; 0x7c00ff6d; 0xf007db6d; 0x800df6de; 0x3fdff8; 0xf6db60; 0x936db781; 0x7bfdf00;
   0xdb6db20; 0x1b6d9640; 0x3ff01801; 0x6db0d800; 0xdb058001; 0xe016004b; 0x64b605b6; 0xd8681279;
   0x2481b6db; 0x6d8b6db6; 0xdb249249; 0x246db6db; 0x62492492; 0x40000000; 0x1d1c04; 0x240000;
   0x9200000; 0x92400012; 0x49000092; 0x48000924; 0x90002492; 0x40012412; 0x124920; 0x492480;
   0x2618400; 0x25964000; 0x92490484; 0x10082049; 0x2492412d; 0x9248082c; 0x90009249; 0x24024924;
   0x80100000; 0x16cb648; 0x2d92d921; 0x25925916; 0xdb6db05b; 0x6db6c249; 0x24b22db6; 0xdb689249;
   0x24800000; 0x1f1d03; 0x80000; 0x490000; 0x4920000; 0x12490000; 0x12490000; 0x24920000;
   0x92480004; 0x92480000; 0x100005; 0x92400025; 0x9640000e; 0xc000024; 0x92012025; 0x92000001;
   0x120124; 0x92080124; 0x82000048; 0x124; 0x12000120; 0x12000000; 0x4924; 0x9006c92c;
   0x90249249; 0x20b6db6d; 0xb0b6db6d; 0x81249249; 0x5b6db6d; 0x84924924; 0x0; 0x1e1e02;
   0x480000; 0x12480000; 0x24900000; 0x92480024; 0x92480049; 0x24800124; 0x92000924; 0x92001249;
   0x20004800; 0x80025924; 0x8004b2c8; 0x10c300; 0x924920; 0x91249201; 0x4020000; 0x4924120;
   0x9240040; 0x4800000; 0x24804000; 0x48048000; 0x49; 0x24120592; 0x58201241; 0x2481b65b;
   0x6d8b6cb6; 0xdb249249; 0x246db6db; 0x62492492; 0x40000000; 0x1e2000; 0x48000; 0x490000;
   0x9248000; 0x49248004; 0x92490012; 0x493c00b6; 0xcb6c096c; 0x96482c16; 0x49216492; 0x49220925;
   0x92080097; 0x48d925b6; 0x49904964; 0x960027d2; 0x56496d92; 0x6c964925; 0x92492495; 0xb6c92499;
   0x24924964; 0x92492164; 0x92492649; 0x24921925; 0xf248592d; 0xb2419249; 0x24864924; 0x90124924;
   0x90609249; 0x1824920; 0x4024900; 0x8000000; 0x1f2000; 0x400000; 0x2c80000; 0x4900000;
   0x16d80000; 0x36d80000; 0x24900025; 0xb6d9006f; 0xb6fb004f; 0xfff2016d; 0xb6d8006d; 0xb6c000c9;
   0x2580032d; 0xb2c02324; 0xb2880661; 0xc4100965; 0x96031924; 0x94401040; 0x20804924; 0x90184924;
   0x22000240; 0x4004b20; 0x80c00900; 0x92000001; 0x24124920; 0xb0164b60; 0x81249241; 0x5b6db64;
   0x5b6cb24; 0x9249248; 0x2db6db20; 0x24924920; 0x1f1f00; 0x2082000; 0x2492000; 0x0;
   0x92492000; 0x92492000; 0x4; 0x92490004; 0x92480000; 0x4; 0x92400024; 0x92400048].
Definition emoji_data_142 : list N :=
  [0x80016c; 0x92c0012c; 0xb2000218; 0x66000124; 0x96080924; 0x90581008; 0x20900924; 0x82d80924;
   0x6c00240; 0x4800b60; 0x36c00900; 0x36000000; 0x24004900; 0xb6124920; 0xb000b000; 0x92d921;
   0x8492c920; 0x18000; 0x2492492c; 0x0; 0x151f01; 0x2c0003f; 0xc0036d80; 0x3ffe01ff;
   0xf016db40; 0xfb2c0340; 0x202c9280; 0x92c80480; 0x40192400; 0x24800024; 0x2c000; 0x9000000;
   0x124b604; 0x92c02012; 0x46496459; 0x24904924; 0x8db648b6; 0x49249249; 0x1b25b764; 0xb6c90492;
   0x325b6000; 0x20000000; 0x1c1e00; 0x248000; 0x2db6c00b; 0x6db600ff; 0xffe016db; 0x6d81b6db;
   0x6c7fffff; 0xe36db6db; 0x49249244; 0x92; 0x49249c00; 0xc000; 0xb2492; 0x49c92492;
   0x4c000000; 0xb2592c9c; 0x93492440; 0x30180b25; 0x92c95924; 0x92458008; 0x924b24; 0x80124924;
   0x40009; 0x4b64000; 0x25920000; 0x8009009; 0x24000048; 0x0; 0x191f01; 0x25b0005;
   0xffd81ffd; 0x7f96db6d; 0x90b7fb20; 0x7bef805b; 0x6d803fff; 0xe41ffff8; 0xb6db606; 0x492e8320;
   0x3412cb2; 0xc0cf2c90; 0x20004024; 0x92500924; 0x90040008; 0x924800; 0x2c900002; 0x40000248;
   0x9000; 0x10002036; 0xc96c3fb2; 0xff1fcb7f; 0x96db6dbf; 0xfedf67ff; 0x7ffadb6d; 0x94000000;
   0x201f01; 0x590000; 0x16d8000; 0x1248000; 0x6db6000; 0xb6db000; 0x9249000; 0x16db6c00;
   0x1b6db000; 0x9279000; 0x164b6c00; 0x9659000; 0x865c000; 0x24b6000; 0x925b000; 0x4f000;
   0x2496000; 0x124a200; 0x240700; 0x5b2d80; 0x12486c0; 0x1009fc0; 0x16c96db0; 0x1b24b6d8;
   0xb00b6f8; 0xb6c96db6; 0x5b65b69a; 0x4961929f; 0xb6db6d96; 0x7b65b790; 0x79249790; 0xb2492590;
   0x1e1f01; 0x300000; 0x1600000; 0x2db00003; 0x6db60016; 0xdb6c005b; 0x6db002db; 0x6d8005b6;
   0xdb001ffc; 0x7c0036c9; 0x6001ec92; 0xc0061043; 0xc92c8; 0x4b24b0; 0x841080; 0x3249200;
   0x2492800; 0x200000; 0x49240000; 0x12400000; 0x49000002; 0x49240004; 0x92580012; 0x49642db6;
   0x5b64db24; 0x96412492; 0x491b6db6; 0xd9b65925; 0xb0492492; 0x42492492; 0x0; 0x1f1f01;
   0x2db6db0; 0x2db6db0; 0x7f24920; 0x36db65b0; 0xffff2581; 0xfffe0905; 0xb6db2d8f; 0xfef92c3f;
   0xfcfa486d; 0xb2d96c64; 0x92c961c8; 0xc2432c; 0xb2c96334; 0xb2490640; 0x4920924; 0x964b1924;
   0x96d81040; 0x24900924; 0xb6d80925; 0xb6c00249; 0x2480c92d; 0xb6c0492d; 0xb6000049; 0x24124925;
   0xb0904924; 0x1000; 0x4924920; 0x4924920; 0x0; 0x24924900; 0x0; 0x202000;
   0x240000; 0xdb6000; 0x16db000; 0x1659000; 0x6db6800; 0xb6db000; 0x9659000; 0x16db6c00;
   0xb6db000; 0x1b65b600; 0x36db6c00; 0x196d9400; 0x9e1d800; 0x16cb6c00; 0x9e5f000; 0x9e19800;
   0x2492c02; 0x9249009; 0x41008; 0x2492016; 0x1248008; 0x240008; 0x490010; 0x248010;
   0x1008000; 0x16c96c30; 0x5b24b640; 0x49249200; 0xb6db6db0; 0x5b6db640; 0x49249200; 0x92492480;
   0x1d2000; 0x200000; 0x16d80002; 0xffe0001f; 0xff80016d; 0xb6000ffe; 0xf8007ff7; 0xc006db2d;
   0x7964b0; 0x1c80180; 0xcb2ca00; 0x324f2001; 0x90610019; 0x24900064; 0x92400104; 0x2001249;
   0x20004924; 0x900; 0x4b249; 0x20024924; 0x80100004; 0x596db6cb; 0x64924949; 0x248245b2;
   0xd92db6c9; 0x24909249; 0x48b65b2; 0xdb649249; 0x20049249; 0x12492490; 0x1f1f01; 0x2492490;
   0x2482490; 0x5f00000; 0x36d92490; 0xfff80081; 0xfffe0005; 0xb6d9248f; 0xfef9043f; 0xfcfa006d;
   0xb2d92464; 0x92d921c8; 0xd2032c; 0xb2c92334; 0xb2490640; 0x4900924; 0x92491924; 0x92481040;
   0x24800924; 0x92480925; 0x92400243; 0x24004924; 0x92400900; 0x2000008; 0x36496c; 0x90b0496c;
   0x36002d8; 0x5b24b60; 0xdb24b60; 0x1b6096c0; 0x24924900; 0x0; 0x201f01; 0x590000;
   0x16d8000; 0x1248000; 0x2db6000; 0x36db000; 0x1249000; 0x6db6800; 0xb6db000; 0x97c9000;
   0x16d96c00; 0x19249c00; 0x9001800; 0x16c92c00; 0x9659000; 0x8009800; 0x2492c00; 0x9249040;
   0x41040; 0x2492082; 0x12480c3; 0x2400c3; 0x4900b6; 0x240058; 0x58; 0x16496c30;
   0xb24b218; 0xb24b018; 0x96db6cb0; 0x482db218; 0x96db018; 0x12492490; 0x1d1f01; 0x2d80000;
   0x5fe00003; 0xffe0002d; 0xb6c001ff; 0xff003fff; 0xf800db6d; 0x800f6c9e; 0x700030; 0x1924b0c;
   0x18490c00; 0xc2086083; 0x24924820; 0x10130000; 0x80000249; 0x24900924; 0x92400920; 0x200b641;
   0x20024804; 0x0; 0x1240240; 0x20920800; 0x4000092; 0xd9248243; 0x4b60018; 0x5b124b2;
   0x5b64820b; 0x6d801049; 0x26490492; 0x40000000; 0x1f1f01; 0x80; 0x80; 0x1900100;
   0x16d82d80; 0xbff82481; 0xfffe4805; 0xb6d8200f; 0xfef8201f; 0xfcf0006d; 0xb2d82064; 0x92c061c8;
   0xc0c32c; 0xb28b6334; 0xb2030640; 0x4000924; 0x90081924; 0x90001040; 0x20000924; 0x80000924;
   0x240; 0x4920; 0x2c960; 0x78048; 0x16c96d; 0x8097db25; 0x80259249; 0x4924925;
   0x8492c925; 0x88009249; 0x24924924; 0x0; 0x182000; 0x80000; 0xb60002db; 0x3c9e0;
   0x5b6c006; 0xdb600749; 0xe00db6d8; 0x16db681f; 0xfff86db6; 0xdbfed93f; 0xf8013f6c; 0x925bb2cb;
   0x2c30410c; 0xc925802; 0x49200008; 0x20049240; 0x24b0000; 0x48000592; 0xc0064960; 0x641602d;
   0x92d81659; 0x641e5974; 0x6db6db96; 0x49640649; 0x60249249; 0x1c1f01; 0x16c06d81; 0xfe0ffc3f;
   0xf0ffc365; 0x96d87929; 0x92c20008; 0x4325925; 0x80920924; 0x1008001; 0x24024801; 0x120000;
   0x1640; 0x65819609; 0x24092092; 0x416c92d8; 0xb601240; 0x92012016; 0xc92d84b6; 0x41200920;
   0x12096c02; 0xd90b6036; 0x900120; 0x16c02d80; 0x94032008; 0x12006c; 0x2500840; 0x3200ce03;
   0x3016c065; 0x80000000; 0x191f01; 0x12016c24; 0x80ff0001; 0xff92486c; 0xb4906930; 0x201ac9;
   0xc949209; 0x24080010; 0x9009202; 0x40040000; 0xb2c12; 0xc2ca0491; 0x2482496d; 0x82d95b24;
   0x92048048; 0x2d825b2b; 0x60120090; 0x901b04b; 0x646c02d0; 0x12012036; 0x16c0d80; 0x48024024;
   0x6402d81; 0xb00943d8; 0x6f0cb05; 0xb0000000; 0x1a2000; 0x1005; 0xb01b05b6; 0x1fe1ff87;
   0xfeb6d36d; 0x965864b4; 0x92100adb; 0xd924921; 0x92024804; 0x16c1240; 0x2c004009; 0xdb0;
   0x59659609; 0x21248248; 0xb6c16c96; 0xc8248490; 0x1225b21; 0xb21b0492; 0x42402489; 0x6c86c06c;
   0x2d80900; 0x1205b01b; 0x1900360; 0x24000812; 0xc0640640; 0x981980e; 0x60cb0594; 0x1c1f01;
   0x16c06d81; 0xb60ffc1f; 0xf0ffc36d; 0x96d85b61; 0x92c29308; 0x436d925; 0x81b60924; 0xb208001;
   0x6c02480b; 0x120010; 0x16c0; 0x6581b609; 0x24092092; 0x436d92d8; 0x5b601244; 0x92012016;
   0xc92d84b6; 0x41204924; 0x12096c02; 0xd94b6036; 0x900120; 0x16c02d80; 0x94032008; 0x12006c].
Definition emoji_data_143 : list N :=
  [0x2500840; 0x3200ce03; 0x3016c065; 0x80000000; 0x1a2000; 0x1001003; 0xf80f81ff; 0x6d8ffc3;
   0xff7ff0fa; 0xcdb65927; 0xb71924ff; 0xc24936d9; 0x2486d824; 0x90fe0100; 0x1b00b00b; 0x1202c8;
   0x4836d96; 0x596d8249; 0x920120d; 0xb64b64b6; 0xc12524b0; 0x4896c82d; 0x92d90d84; 0x9241225b;
   0xb60b60; 0x36024004; 0x806c0250; 0x2500c808; 0x1201b0; 0x9409603; 0x20208048; 0x191f01;
   0xc00000; 0xd80000fc; 0x7800; 0x190000; 0x2000000; 0xb00; 0x2c000; 0x1200001;
   0x600000c8; 0x2000; 0x2c8000; 0x1b200004; 0x80000580; 0x16080; 0xb00000; 0xb608006c;
   0x2001600; 0xb2c020; 0x2cb00010; 0x50003058; 0x2c1400; 0x18080016; 0xb001183; 0xc0040120;
   0x0; 0x1a1c02; 0xdb0000; 0xdb640092; 0x49005b6d; 0xb01b6db6; 0x1249248b; 0x6db6d96d;
   0xb6db4b2c; 0x126db64b; 0x6d96496d; 0x240009b2; 0x4925b249; 0x24b4180c; 0xacb2596; 0x49e4d290;
   0x200324; 0x925924b2; 0x48000402; 0x4924900; 0x92490000; 0x9200025b; 0x20004920; 0x0;
   0x1240000; 0x1a1e00; 0x80000; 0x1788001b; 0x6d005fff; 0xb01ffffe; 0xb6db6c1; 0xffffe0ff;
   0xfffe6db6; 0xdb3fffff; 0xeffffff9; 0xb6db6dff; 0xdf2f9ff2; 0x1665924; 0xb0c92496; 0x30c06109;
   0x24b2412c; 0x96480100; 0x249249; 0x4924900; 0x800012; 0x49200249; 0x24001240; 0x4b6480;
   0x1248000; 0x4; 0x80000000; 0x171905; 0x490002; 0x49000000; 0x124900; 0x92490000;
   0x49249; 0x4924800; 0x2492; 0x49249248; 0x804092c; 0x924924b2; 0x40402009; 0x2492092c;
   0x90004800; 0x49249049; 0x24800240; 0x4b6400; 0x49200000; 0x4900; 0x191c02; 0x490000;
   0x92400000; 0x24924; 0x80924920; 0x49; 0x24929249; 0x24000000; 0x49249252; 0x49248000;
   0x92492; 0x4a492490; 0x6030125; 0x92c949e4; 0xd2000040; 0x4924921; 0x25924000; 0x40009249;
   0x20249240; 0x490002; 0x5b200092; 0x40000000; 0x92000; 0x1c2000; 0x1000000; 0x9e000016;
   0xc00001fa; 0xf00; 0x16400; 0x90000; 0x900000; 0x6c00000; 0xf200000f; 0x20000064;
   0x320; 0x3000; 0x6db60; 0x3edf00; 0x365f000; 0x2db6c003; 0x7db6003f; 0xf12006db;
   0xc0036d8; 0x6003ff86; 0x6db05b; 0xb6f87c0; 0x32783c32; 0xdb648412; 0x4a004124; 0x900b0d96;
   0x406c90; 0x4020000; 0x1b2000; 0x100000; 0x1f000001; 0xb0000078; 0xf00; 0xc000;
   0x40000; 0x480005b; 0x60000096; 0x1240; 0xb000; 0x5b0000; 0x3200000; 0xdb24002f;
   0xf6c001b6; 0x48016db6; 0xb6df60; 0x12df6c04; 0x92c960cb; 0x2cb01861; 0x92065b6c; 0xb045b64b;
   0x92c97f; 0x6c36db30; 0x432d8201; 0x8480b6d3; 0x60036c36; 0x240200; 0x191f01; 0x240000;
   0x6d9000ff; 0xfc007ffe; 0x6db6c0; 0x7fffe03f; 0xfbf82db2; 0x580f649e; 0x6000f05; 0x924b012c;
   0xb2808608; 0x40324960; 0x24924000; 0x8000249; 0x20009240; 0x92000; 0x9200012; 0x48000c07;
   0x805b25b0; 0x3ec97c1f; 0xe09e1b6d; 0xb2d6fb64; 0xab3c900b; 0x6db65a59; 0x6d952492; 0x48000000;
   0x1f1d03; 0x480000; 0x1b60000; 0x16db0000; 0x36db0000; 0x6db60001; 0xb6db0005; 0xb65b000b;
   0x2416000c; 0x9258002c; 0x92580041; 0x4100065; 0x96400124; 0x92c00000; 0x324; 0x92000124;
   0x90000000; 0x164; 0x80d8016c; 0x2f80000; 0x3d00920; 0x2c04104; 0x647c01f; 0xc16c96d;
   0x903fc97f; 0xa1ff83ff; 0x81b6cb6c; 0x87bfdfe4; 0x1249240; 0x0; 0x172000; 0x240003;
   0xdf005b6d; 0x80db2d81; 0xb25b86d9; 0x6d9ed96d; 0xbc924b36; 0xdb6c3ffb; 0xf07f92e1; 0xb6496192;
   0x49833033; 0x4b2ca0c; 0x92c81800; 0x1024b240; 0x24924000; 0x24b0; 0x259000; 0x124;
   0x904a2412; 0x90002649; 0x24924964; 0x9003c012; 0x4b24924f; 0x24801200; 0x1a1c02; 0x2db0000;
   0xffe400ff; 0xff005b6d; 0xb01ffffe; 0x1fffffcb; 0x6db6dbff; 0xfeffffff; 0x9fedb6cb; 0x6f9e497f;
   0xe4000fb2; 0x4925ba49; 0x24fe180c; 0x1ecb2596; 0xc9e4d290; 0x202b24; 0x925924b2; 0x48200402;
   0xc924900; 0x92490000; 0x9200025b; 0x20004920; 0x0; 0x1240000; 0x1f2000; 0x10000;
   0x820000; 0x2db0000; 0x6d80000; 0x4900000; 0x36d80004; 0xb6d9000b; 0xedfa406d; 0xb6db006d;
   0xfed8004b; 0x6c90002d; 0xb6c00024; 0x92402008; 0x2080412c; 0xb2880124; 0x92110000; 0x2092c;
   0x94400924; 0x90880208; 0x100b64; 0x22000b20; 0x4400200; 0x800900; 0x96024920; 0xb0248248;
   0xb6db6c; 0x80b2db61; 0x8125b241; 0xdb6db64; 0x25b6db2c; 0x1249000; 0x1d1e02; 0x12492000;
   0x49248000; 0x24; 0x92480492; 0x49000000; 0x4924; 0x80012490; 0x12080; 0x924900;
   0x2492400; 0x30c0001; 0x2cb20004; 0x92482000; 0x1024b; 0x24360924; 0x82d80000; 0x1240b6c0;
   0x6c025905; 0xb0020024; 0x802480d8; 0x4900b60; 0x24800892; 0xdb24b24b; 0x6492000b; 0x1124b2;
   0x48049249; 0x24000000; 0x20000000; 0x141d02; 0x2480092; 0x40000001; 0x24900924; 0x80000012;
   0x49009240; 0x12c0124; 0x90092400; 0x2000258; 0x124000; 0x20002490; 0x9258000; 0x48325b24;
   0x92484124; 0x8b2d925b; 0x64949249; 0xb6496592; 0x5b49249b; 0x25b6412d; 0x80000000; 0x1c1e00;
   0x248000; 0x17fb0006; 0xdb6c00b6; 0xdb601fff; 0xffc36db6; 0xda5b6db6; 0xc7fffffe; 0xb2492494;
   0x40; 0x924; 0x9249c924; 0x924c0000; 0xb24924; 0x9c924924; 0xc030100b; 0x2592c9c9;
   0x34924602; 0x100b249; 0x24959259; 0x24000480; 0x9249248; 0x1249200; 0x490090; 0x4b640002;
   0x49000000; 0x92; 0x0; 0x181f01; 0xb60007; 0xffc8db6d; 0xb66ff649; 0xdffd00b;
   0x6db20fb7; 0xf80ffff0; 0xb6db204; 0x96480000; 0x92492; 0x4924800; 0x83000925; 0x92049240;
   0x100009; 0x2c900492; 0x40009200; 0x16c8000; 0x92000012; 0x92490; 0x2f92f87f; 0x92fedb6d;
   0xb67fb6ff; 0xffd3ffdb; 0x6db62492; 0x49000000; 0x1f1f01; 0x240000; 0x2480000; 0x1b6d8000;
   0x5b6c0000; 0x92480006; 0xdb6c0006; 0xdb6c0004; 0x97480036; 0xdb2000b2; 0x5b200124; 0x1e400096;
   0x5b000092; 0x59000100; 0xf0000496; 0xd8000492; 0xc0000000; 0x80000596; 0x9a0005b2; 0x58000924;
   0xf8016496; 0xd80364b6; 0xd806c02c; 0xf85b64b6; 0xd85b25b6; 0xd8960b24; 0xf2db2db6; 0xdedb2db2;
   0xcc924976; 0x16db6db6; 0x12492490; 0x0; 0x1f1f01; 0x200000; 0x480000; 0xb6c8000;
   0x5b6d8001; 0xb6db0002; 0xdb6d8006; 0xdb6c0004; 0x92480012; 0x49240012; 0x49200000; 0x92;
   0x49200096; 0x5900000c; 0x300000b2; 0x48000492; 0x48000004; 0x492; 0x40000492; 0x124;
   0x5b0; 0x492; 0x40000924; 0x90012d96; 0xd80b6496; 0xc8124924; 0x80db6db6; 0xcad96496;
   0x4492492c; 0x96db6db6; 0x12492490; 0x0; 0x1d1f00; 0x2492490; 0x49249242; 0x4924922c].
Definition emoji_data_144 : list N :=
  [0x96db6092; 0x4b2d8000; 0x8244924; 0x96c12492; 0x5b000010; 0x4892496d; 0x924924b6; 0x91;
   0x24925925; 0x9249040c; 0x10402249; 0x65b60924; 0x92480100; 0x9244924b; 0x6c12496d; 0xb0924924;
   0x896cb6d8; 0x2496db61; 0x20924912; 0x496db241; 0x4924000; 0x12492; 0x48049249; 0x0;
   0x2492490; 0x0; 0x1f2000; 0x490000; 0x2db0000; 0x5920000; 0xb6db0000; 0xb6db0001;
   0x2c920005; 0xb6d8000d; 0xb6d80019; 0x6490006d; 0xb6d8016d; 0xb6c00049; 0x2c80012c; 0xb600017c;
   0xf20000f1; 0xe0000965; 0x90010924; 0x90080241; 0x964; 0x80480924; 0x401240; 0x4b20;
   0x6000900; 0x12001200; 0x20124920; 0xa0b24960; 0x81241241; 0x5b65b64; 0xdb2db64; 0x9249248;
   0x2db6db20; 0x24924920; 0x1e2000; 0x100000; 0x1200000; 0x1; 0x24900002; 0x49200000;
   0x49; 0x24800492; 0x48000000; 0x1249; 0x20012492; 0x3040; 0x492c8; 0x92480;
   0x8000; 0x1259200; 0x2492000; 0x1040000; 0xb640000; 0x12492400; 0x9249002; 0x49249124;
   0x92490492; 0x49246d96; 0xcb6edb24; 0x92492490; 0x91b6db2; 0xd8b64924; 0x92492492; 0x464b6db6;
   0x20124920; 0x1f2000; 0x924924; 0x924920; 0x0; 0x24924920; 0x24900020; 0x1;
   0x24924901; 0x24920100; 0x9; 0x24964849; 0x24900800; 0x49; 0x24b24259; 0x24824030;
   0x40000249; 0x65920249; 0x24120010; 0x1249; 0x2c901249; 0x900492; 0x96cb; 0x64809248;
   0x4802080; 0x49249; 0x242c1059; 0x20d800b0; 0x36c92d8; 0xb6492d8; 0x16c825b0; 0x1b64b6c0;
   0x49209240; 0x1f2000; 0x80000; 0x580000; 0x4920000; 0x16da0000; 0x36d80001; 0x24900005;
   0xb6d80005; 0xb6d80009; 0x2490002d; 0xb6c00024; 0x92c00040; 0x4000124; 0x92000124; 0xb2000061;
   0xe0000965; 0x90000924; 0x90000040; 0x964; 0x86100924; 0x10401240; 0x20804b20; 0x32c00900;
   0xb6001200; 0x6c124920; 0xb0124960; 0x802002c1; 0x4b6db21; 0x8496db24; 0x10db608; 0x25b6d90c;
   0x4924820; 0x1f1f01; 0x240000; 0x0; 0x9248000; 0x9248000; 0x2; 0x49248002;
   0x49240000; 0x12; 0x49248012; 0x49208000; 0x82000096; 0x49218092; 0x49050000; 0x92;
   0x48000092; 0x49200000; 0x804b6; 0x492000b2; 0x1000020; 0x490; 0x9000480; 0x8000000;
   0x92592; 0x48492c12; 0x48005804; 0x924964b6; 0xda4960b6; 0xc000c16d; 0x924925b6; 0xc0010492;
   0x0; 0x1d1d03; 0x480580; 0x9201200; 0x49024; 0x924b2092; 0x48240000; 0x4924;
   0x82092492; 0x0; 0x924905; 0x92492436; 0x20c0081; 0x24b20304; 0x92400000; 0x8000024b;
   0x24000924; 0x80000920; 0xb640; 0x124b00; 0xf05800; 0xb259200; 0x7c96d803; 0xfc924096;
   0xcb258249; 0x64920008; 0x249124b2; 0x49600249; 0x24800000; 0x192000; 0x480000; 0xb6c00079;
   0x60005b6c; 0xb6db00; 0x7927805b; 0x6d8016db; 0x600f6df0; 0xb6db616; 0xdb6d9d24; 0x92eb2492;
   0x5e4b2cb1; 0x87061865; 0x92580924; 0x90001200; 0x964800; 0x24900002; 0x400012d8; 0x49200;
   0x1e496016; 0xcb600792; 0x5813c93c; 0x96db6d84; 0xf2cb2079; 0x27825b6d; 0x90124920; 0x1a2000;
   0x2000007; 0xc00407fe; 0x2db04; 0x927b6092; 0x12080009; 0x25124924; 0x82484820; 0x1204904b;
   0x20900920; 0x24004012; 0x40241658; 0x24849209; 0x22db05b6; 0x5b209202; 0x4004896c; 0x16c86c12;
   0x49090012; 0x25b21b01; 0xb00b6424; 0x24816c0; 0x6c06402d; 0x80900120; 0x4b019009; 0x260240;
   0x812c06; 0x40240208; 0x1c1f01; 0x9001200; 0x12; 0x40248092; 0x9240000; 0x12492;
   0x48092092; 0x40900120; 0x12402c80; 0x92012001; 0x120124; 0x2480960; 0x92409209; 0x2436d96d;
   0x80b60924; 0x9201201; 0x6c92d84b; 0x64124092; 0x12096c0; 0x2d94b643; 0x60090012; 0x16c02d8;
   0x9603200; 0x90012006; 0xc0250084; 0x3200800; 0x12016c06; 0x58082012; 0x0; 0x1b2000;
   0x4800802; 0xd804807f; 0x800016d8; 0x24836582; 0x4864b000; 0xb6c1241; 0xb2c12412; 0x402405b6;
   0x9204900; 0x90012002; 0x580490; 0x2c804904; 0x9009216d; 0x86db16c9; 0x24824904; 0x90b6496c;
   0x8b649200; 0x2402401b; 0x4b661b0; 0xb401201; 0x200d805b; 0xd804a0; 0x9009006; 0x402d806c;
   0x2400080; 0x40032816; 0xc0920124; 0x1a2000; 0x2000006; 0xc00407fe; 0xdb04; 0x925b6092;
   0x1e58000b; 0x6c12496d; 0x82484920; 0x120db04b; 0x21b00920; 0x2c004016; 0x402416d8; 0x24849209;
   0x22db05b6; 0x5b609212; 0x4804896d; 0x96c96c12; 0x49090412; 0x25b21b01; 0xb04b6424; 0x24816c0;
   0x6c06402d; 0x80900120; 0x4b019009; 0x360240; 0x812c06; 0x40240208; 0x1c2000; 0x2000000;
   0xfe01201f; 0xe00003ff; 0x82487f78; 0x9247f700; 0x36d924; 0x87b70924; 0x3ff01201; 0x6d02c80b;
   0x601200b8; 0x12016c0; 0x2400b609; 0x240b2092; 0x436d96d8; 0x5b609244; 0x92012036; 0xd92d84b6;
   0xc1244924; 0x12096c22; 0xd94b6436; 0x900120; 0x16c02d80; 0x96032009; 0x12006c; 0x2500840;
   0x32008001; 0x2016c065; 0x80820120; 0x1a1f01; 0x400000; 0x48000000; 0x900; 0x12000;
   0x0; 0x24000004; 0x100; 0x1b000; 0x320000; 0x4000006; 0xc00002c8; 0x1040;
   0x1b0400; 0xb618000; 0x4020006c; 0xd80; 0x96000; 0x5b60000; 0xb6000021; 0x80003058;
   0x4161800; 0x8c060002; 0x81400640; 0x6000d81f; 0x110580; 0x0; 0x1a1d01; 0x240000;
   0x2d800009; 0x24002db6; 0xc00db6d8; 0x9249245; 0xb6db61b6; 0xdb6c2492; 0x4936db6d; 0xb6db64b0;
   0x92402cdb; 0x2492d924; 0x92420804; 0x1325924b; 0x6492c918; 0x20104492; 0x49299249; 0x24201201;
   0x124b2482; 0x49248000; 0x4800096d; 0x90012592; 0x12000; 0x4920000; 0x12000000; 0x1a1d01;
   0x480000; 0x49200000; 0x4924; 0x90092492; 0x1; 0x24924924; 0x92480000; 0x249249;
   0x24924924; 0x12; 0x49249249; 0x24800008; 0x4b2592; 0x49e4d200; 0x6030012c; 0x96482492;
   0x48000400; 0x496c900; 0x92490000; 0x8200025b; 0x24004b24; 0x4000; 0x1248000; 0x24000000;
   0x171a04; 0x480002; 0x48000000; 0x124800; 0x92480000; 0x49248; 0x4924800; 0x2492;
   0x41249240; 0x8000924; 0xb24964b2; 0x40c06049; 0x24924924; 0x90004000; 0x49648049; 0x24801040;
   0x25b6402; 0x5b200010; 0x24900; 0x480000; 0x191c02; 0x240000; 0x492; 0x48012492;
   0x4; 0x92492124; 0x92480000; 0x924924; 0xa4924900; 0x1249; 0x24949249; 0x20080402;
   0x4b249092; 0x4b240100; 0x80492492; 0x12492480; 0x4800125; 0x92404924; 0x80009000; 0x25b64009;
   0x2c900012; 0x9240; 0x48000; 0x1a1f01; 0x12400006; 0x40000180; 0x4900; 0x190000;
   0x6400001; 0x2c00006c; 0x900; 0x59000; 0xb20000; 0x34000016; 0x492003db; 0x6c00ffdf].
Definition emoji_data_145 : list N :=
  [0x1b6d80; 0xb6db000; 0xffec006d; 0xa2c03df0; 0x580fff92; 0x1b6c300; 0xfff96c3d; 0xbe1fb6db;
   0x5b0cb20; 0x8c124802; 0xb2580c1; 0x2c803058; 0x20080410; 0x0; 0x1b1f01; 0x900000;
   0x9000000; 0x48; 0x80; 0x8000; 0x12c0001; 0xb2c00006; 0x48000096; 0xb60;
   0x12000; 0x5b0000; 0x5b04000; 0xffc8002d; 0xb6c002db; 0x6c025ffc; 0x80b6db60; 0x1964160c;
   0x20c040cb; 0x6cb624b2; 0xd3041650; 0x6445964b; 0x72492df1; 0x924b032; 0x9240365; 0x92803d82;
   0x40016010; 0x0; 0x191f01; 0x480000; 0x92000000; 0x4924; 0x924900; 0x49;
   0x24901249; 0x20000000; 0x9249202; 0x5964003c; 0x30012cb2; 0x492480; 0x900004; 0xb2400124;
   0x80001200; 0x96c000; 0x4800010; 0x800364b; 0x3c96c0; 0xbe4964b6; 0xcb6c3db2; 0xc91ef920;
   0x96db64bd; 0xb6d82249; 0x24124924; 0x90000000; 0x1f1d03; 0x240000; 0x5b60000; 0xdb6c000;
   0x1b6d8001; 0x6db6c001; 0x6db60002; 0xdb2c000b; 0x6cb60019; 0x24940012; 0x120005b; 0x24b0004b;
   0x2c800086; 0x9000249; 0x25800249; 0x24000002; 0x8000249; 0x20100249; 0xb00090; 0x1e00248;
   0x5b00240; 0x5a02082; 0x305925b; 0xc3f827f; 0x207f84ff; 0x416d92db; 0x1ff97f9; 0x3ff3ff0;
   0xb6db6c8; 0x0; 0x172000; 0x24000d; 0xb6006db6; 0x80d92d83; 0x6cb68b64; 0xb61ec96e;
   0x5b6db65b; 0x6db097ff; 0x20492480; 0x49248010; 0x40025964; 0x249a400; 0x82001249; 0x20124900;
   0x800012; 0x48001248; 0x248000; 0x12400092; 0x482091; 0x6c92d920; 0x82400180; 0x9259249;
   0x2792401e; 0x492c92; 0x191c02; 0x240000; 0x492; 0x48012492; 0x4; 0x92492124;
   0x92480000; 0x924924; 0xa4924900; 0x1249; 0x24949249; 0x20080402; 0x4b249292; 0x4b240100;
   0x80492492; 0x12492480; 0x4800125; 0x92404924; 0x80009000; 0x25b64009; 0x2c900012; 0x9240;
   0x48000; 0x202000; 0x200000; 0x5b0000; 0x6d8000; 0x1248000; 0x2db6000; 0x16d8000;
   0xb24b200; 0xb6db6d80; 0x5bfff600; 0xbfff200; 0x16db6c00; 0xb6db400; 0x9249e00; 0x16db6c32;
   0x9659601; 0x9249201; 0x6db6c32; 0x92c9201; 0x1249201; 0x2db6432; 0x1658201; 0x248200;
   0x5b01b6; 0x2400c8; 0x240048; 0x16db6c30; 0x4b6db200; 0x492d9200; 0xb6db6db0; 0x4b2cb240;
   0x49249200; 0x92492490; 0x1d1f01; 0x12492002; 0x49248000; 0x124; 0x92400492; 0x49000000;
   0x4924; 0x80012490; 0x92480; 0x924900; 0x6492800; 0x32494003; 0x6db60005; 0x92580024;
   0x928006db; 0x6c340924; 0xa2c04924; 0x1205b6c1; 0x6c12590d; 0xb0124024; 0x816c02d8; 0x4900b60;
   0x24804812; 0xdb21b24b; 0x6486005f; 0x1125b2; 0x49049649; 0xc001000; 0x22492492; 0x0;
   0x131f01; 0x2c0016d; 0x807ff01b; 0x6d85b6c0; 0xffdc0db6; 0xc2c92869; 0x2406db60; 0x24900492;
   0x16d8012; 0x48004800; 0x16000124; 0x10482c9; 0x6c249644; 0x82496cb2; 0x72d92249; 0x24b6493b;
   0x24912492; 0x596dbc96; 0xd8824900; 0x92000000; 0x1f1e00; 0x48000; 0xb6d800; 0x5b6db00;
   0x1ffffe00; 0x6db6db01; 0x6db6db03; 0xfffffe0b; 0x6db6da19; 0x24924820; 0xc9; 0x249248c0;
   0x180; 0x649; 0x6db24649; 0x24920c92; 0x492032db; 0x6db03259; 0x2c9064b2; 0x5921b6db;
   0x6d819249; 0x24832492; 0x4804b6db; 0x6c009249; 0x20002492; 0x4124b6db; 0x96c9; 0x2490;
   0x100b6c0; 0x1200; 0x0; 0x181f01; 0x16c802d; 0xffd87ff2; 0xff5b6db6; 0xdfed80f;
   0xbef00b6d; 0xb20ffff8; 0xffff81b; 0x6db20d92; 0x580c9258; 0x1b6db20d; 0x93d80492; 0x480b6db0;
   0xc925804; 0x9240036d; 0x8000b640; 0x920001; 0x6c800092; 0x49240; 0x5b6db67f; 0xb6fe7fb6;
   0xffdb6db6; 0x6fb7ffff; 0xf7ffcb6d; 0xb6000000; 0x1f1f01; 0x80000; 0x36c8000; 0xb6d8000;
   0x12490000; 0xdb6d8002; 0xdb6c0004; 0x92c80016; 0xdb6c0016; 0xcb2c0024; 0x974000b6; 0xdb600096;
   0x5f000024; 0xbe0001b6; 0xdb000092; 0x58000124; 0xb00005b6; 0xc1000492; 0xcb000124; 0x3e0005b6;
   0x58002c96; 0xd802c92d; 0xfc0b6db6; 0xd80b64b6; 0xd812c964; 0xbcdb6db6; 0x5adb2db6; 0x5b92592c;
   0xb6db6db2; 0x5edb6df2; 0x4000124; 0x0; 0x1d1d02; 0x2580000; 0x5b6c0002; 0xdb60006d;
   0xb6d805b6; 0xdb000db6; 0xd800db6d; 0x80036db6; 0x1fe4b0; 0x1b6db40; 0x6492c00; 0x334f2001;
   0x6db6000c; 0x92c80024; 0x924002db; 0x6c000924; 0x90000924; 0xb6c0; 0x2d900; 0x24120;
   0x6db6c8; 0x5925b21; 0x2492e9b6; 0xdb2db2d9; 0x64925249; 0x24b36db6; 0xdb6db249; 0x2c000000;
   0x201f00; 0x249248; 0x1249248; 0x2db6db6; 0x16db6d9; 0x1ffb248; 0x6db6cb6; 0xb6db6d9;
   0xffffe48; 0x16db6cb6; 0x1b6cb6d9; 0x1f64be48; 0x16db6cb6; 0x192496c9; 0x19659e40; 0x16db6cb6;
   0x9659649; 0x9249000; 0x6db6db6; 0x92496d9; 0x1249248; 0x2db6db6; 0x12cb6d9; 0x1249248;
   0x25b6db6; 0x12416d8; 0x240248; 0x12592490; 0x49249200; 0x40000; 0x92492480; 0x49249200;
   0x1f2000; 0x90000; 0x960000; 0x16db0000; 0x16db0000; 0x24b20001; 0xb6db0001; 0xb6da0001;
   0x2590000d; 0xb6d8002d; 0xb6d8005b; 0x2d90006d; 0xb6c0016c; 0xbec00378; 0x7d80036c; 0xb2000164;
   0xb4010249; 0x28020b6d; 0xb0080924; 0x80481249; 0x101b6c; 0x2400b60; 0x2001240; 0x4005b20;
   0x1002c920; 0x30249248; 0x40b6db6c; 0x81b24b69; 0x1249242; 0xdb6db64; 0x2db2db68; 0x9209200;
   0x1f1f00; 0x240000; 0x2f80000; 0xb6d8000; 0x5b6d8000; 0xffff0002; 0xdb6d8006; 0xdb2c000f;
   0xfe5c0016; 0xdb6c0032; 0x49280064; 0x926000b6; 0xdb600196; 0x59000124; 0x920005b6; 0xda000496;
   0x48000124; 0x900005b6; 0xc00005b6; 0x124; 0x492; 0x49600492; 0x49024924; 0x921b6db2;
   0xd85b2492; 0x48924904; 0x92db6d96; 0xc2d92492; 0x44924824; 0x16cb6db6; 0x12492490; 0x0;
   0x1f1e02; 0x2492492; 0x2d90000; 0x7fe0000; 0x36db2490; 0xb6db2001; 0xfffe4005; 0xb6db248d;
   0xb65b001f; 0x64be002d; 0xb6d96464; 0x925900cb; 0x2cd2016d; 0xb6cb212c; 0xb2480249; 0x2490036d;
   0xb6590924; 0x92400249; 0x24800b6d; 0x92c80964; 0x92000249; 0x20004b64; 0x92424904; 0x9205921b;
   0x36596d; 0x90b6486c; 0x1640058; 0x5b64b6c; 0x5b65b60; 0x9201240; 0x0; 0x1d2000;
   0x200000; 0x1000000; 0xb6c00016; 0xdb000092; 0x48000b6d; 0xa0006db6; 0x12490; 0x36db60;
   0x25b6580; 0x1ad92c00; 0x6db6c005; 0x924b0035; 0x925800db; 0x6d800164; 0x94000924; 0xa000b6db;
   0x824920; 0x82124904; 0x106db041; 0xb6010c; 0x4900960; 0x5b003609; 0x2480c0c9; 0x24022d92;
   0x5928b6db; 0x20819ff8; 0x4596db2; 0x5165b641; 0x1249008; 0x1f1e01; 0x1640000; 0x5b60000;
   0x2db60000; 0x7fff8001; 0x6db60003; 0x6db60007; 0xff3c001b; 0x6cb60019; 0x24b00032; 0x2000cb].
Definition emoji_data_146 : list N :=
  [0x2ca000c9; 0x2c820190; 0x1240249; 0x24000649; 0x24000492; 0x492006db; 0x649002c9; 0x4800492;
   0x90002d8; 0x4000240; 0x24000480; 0x48049649; 0x20241249; 0x20002c00; 0x124b25b; 0x6124b25b;
   0x600100b6; 0xc92592db; 0x692412db; 0x0; 0x1f1e01; 0x40; 0x160; 0xb00100;
   0xffc1240; 0x2db65b61; 0x6db64903; 0xfffc100b; 0x6db6501b; 0x6cb4403e; 0xd978105b; 0x6db040c9;
   0x24a0c096; 0x598182db; 0x6d82c259; 0x64020492; 0x480406db; 0x68001259; 0x20000492; 0x16db;
   0x12c8; 0x2490; 0x1b6d8; 0x79249; 0xfe4b6; 0x402db2db; 0x6125b649; 0x60012012;
   0x4b24b249; 0x69259249; 0x0; 0x182000; 0x100000; 0xb600016d; 0x8005b6c0; 0x792c00b;
   0x6db00db6; 0xd00f92f8; 0x1b6db02d; 0xb6d87fff; 0xfedb6db6; 0xec925f7c; 0x935f5b6d; 0xb62c9258;
   0x492480b; 0x6db00492; 0x40049240; 0x16d8000; 0xb6000092; 0xb6db0; 0xc92702e; 0x92785b6d;
   0xb62c9279; 0x2e92794b; 0x6db22c92; 0x79040040; 0x1a2000; 0x8001007; 0xc03c0b6c; 0x36c3ff96;
   0xd8f9e7f7; 0x2cb0db6c; 0x96492204; 0x12489243; 0x6d12402c; 0x80800900; 0x5801b009; 0x901040;
   0x248b2c36; 0xd36d9248; 0x4904922d; 0x905b65b2; 0x49202412; 0x4036096c; 0x86c02d10; 0x900900d8;
   0x5b21b00; 0x94024024; 0x32016c0; 0x6c024009; 0x900c80; 0x5b05b009; 0x61040208; 0x1a2000;
   0x1000; 0x2f8124; 0x16d92486; 0xda0001f3; 0x8490db64; 0x92192824; 0x6481241; 0x6d824024;
   0x80900920; 0x5800b009; 0x120248; 0x24832c16; 0xd96d8248; 0x49209225; 0xb05b25b0; 0x9242410;
   0x4996c86c; 0x86c12d90; 0x9009225b; 0x21b01900; 0xb6024004; 0x816c06c0; 0x2400d809; 0x204b0;
   0x1901940b; 0x60240208; 0x1c2000; 0x1001000; 0xf003e016; 0xd06d81b6; 0xb6c3f30; 0xf6c36d96;
   0xd8492092; 0x40920924; 0x36d96d80; 0x92092409; 0x2012006c; 0x2c00900; 0x12009201; 0x2036d96d;
   0x85b60924; 0x9209243; 0x6c92d84b; 0x60924492; 0x412096c9; 0x2d94b643; 0x60092412; 0x96c02d9;
   0xb603600; 0x90012006; 0xc0250094; 0x3200800; 0x12006c02; 0x50096032; 0x820120; 0x1c2000;
   0x2000400; 0x7c03c02d; 0xb0db036d; 0x96d83ff9; 0xfdc2db0d; 0xb636d924; 0x83651248; 0x2db0db41;
   0x6c02c812; 0x40240058; 0x1b002c0; 0x24012402; 0x482db0db; 0x436d9248; 0x12492482; 0xdb05b636;
   0xc9248024; 0x92406d86; 0x5b286c02; 0xd1824024; 0xd825b2; 0x6c02500; 0x2402400c; 0x805b006c;
   0x2400240; 0x2400c805; 0xb016c025; 0x81040208; 0x1a2000; 0x8001007; 0xc02f83fc; 0x16d9ff86;
   0xda7fe1f3; 0xbdbcdb65; 0xb61929ef; 0x864836c1; 0x6d96d824; 0x81f00920; 0x5b00b00b; 0x1202c8;
   0x248b6c16; 0xd96d8248; 0x4920922d; 0xb45b25b2; 0x9272410; 0x4996c86c; 0xa6c32d90; 0x9049225b;
   0x21b01900; 0xb6024004; 0x816c06c0; 0x2400d809; 0x204b0; 0x1901900b; 0x60240208; 0x1a1f01;
   0x1600000; 0xb6000036; 0xf80; 0x2c000; 0x480000; 0x1000000b; 0x300; 0x4000;
   0x6c0000; 0xc800001; 0x200001b2; 0xb640; 0x40000; 0x6c10000; 0xd8200016; 0x1b00;
   0x800b6000; 0x2580001; 0x65800061; 0x80000860; 0x2c1600; 0xc060003; 0x18000a0; 0x5800901f;
   0x100240; 0x0; 0x1b1c02; 0x248000; 0x5b6c000d; 0xb6c80492; 0x49016db6; 0xd836db6d;
   0x82492491; 0xb6db6c5b; 0x6d96c924; 0x924adb6d; 0xb6ac9249; 0x65924925; 0x6db6db16; 0x592cb24b;
   0x259236db; 0x6d8b2c96; 0x58249249; 0xb6db6c1; 0x92d92012; 0x492401b6; 0xdb00096c; 0x90012490;
   0x1b6c00; 0x924000; 0x2400000; 0x1a1f00; 0x40000; 0x2590001f; 0xfe002db6; 0xd80db6da;
   0x7ffff81; 0xb6db60b6; 0xdb6c7fff; 0xff16db6d; 0xb6db6db5; 0xffffffdb; 0x6db6db65; 0x92c64924;
   0x996db6da; 0x2492c909; 0x24b245b6; 0xdb609249; 0x24249249; 0x2db6d80; 0x49648012; 0x49200b6d;
   0xb0012d92; 0x92400; 0x5b6c000; 0x92400004; 0x80000040; 0x0; 0x181a05; 0x490001;
   0xb6c00249; 0x20024920; 0xdb6d812; 0x49201249; 0x202db6d8; 0x12492412; 0x49246db6; 0xdb92c924;
   0x93c9a46d; 0xb6db9249; 0x24124924; 0x2db6d812; 0x59241249; 0x200db6d8; 0x125b2002; 0x492005b6;
   0xc0024900; 0x480000; 0x10000000; 0x191b03; 0x4924001; 0x24900000; 0x49249; 0x21249240;
   0x92; 0x49242492; 0x49000120; 0x12496ca4; 0x92492049; 0x2482db6d; 0x90964b24; 0x4b25905b;
   0x6db612c9; 0x64092492; 0xb6db642; 0x4b648124; 0x92402db6; 0xc0096c90; 0x4924001; 0xb6c00024;
   0x90000240; 0x0; 0x1c2000; 0x800001; 0x2c00001f; 0xc00000d8; 0x16c0; 0xe400;
   0xc8000; 0xc0000; 0x6400000; 0xdb000006; 0x40000064; 0x5b0; 0x6c92; 0x2db70;
   0x5b6d80; 0x2dbec00; 0x35fe4005; 0xb6d8002d; 0xb0c003ff; 0xc005b6c; 0xb007ff85; 0x803ff85b;
   0xdb6c361; 0x2cb65820; 0x4960061b; 0x6400a0d8; 0x200f0c86; 0x60b0d0; 0x48200; 0x1a2000;
   0x480000; 0x1b000007; 0xc0000360; 0x6400; 0x80000; 0x4000021; 0x80005d20; 0x1b600;
   0x160000; 0x4800006; 0xd80000d8; 0x3640; 0xb6d80; 0x36db002; 0xf96c016d; 0xb6c16db6;
   0xd0410c90; 0x21861b0c; 0x32496325; 0x9a4882db; 0x4db24925; 0xb4004d7a; 0xc925b240; 0x2d90060c;
   0x64016c16; 0x40200; 0x181f01; 0xb20001; 0xfe00036d; 0x800db6d0; 0xffff81b; 0x6db02db6;
   0xd83ff278; 0x1b6db02d; 0x92583c92; 0x581b6db0; 0xc92580c; 0x92480b6d; 0xb00c9250; 0x4924001;
   0x6d8000b6; 0x40009200; 0x16d8007; 0x92c00f92; 0xf85b6db6; 0x7f92db7f; 0x9249db6d; 0x926db6c1;
   0x249241db; 0x6d962492; 0x49000000; 0x201d03; 0x2c0000; 0xb64000; 0x1b6c000; 0xb6db000;
   0xdb6d800; 0xdb6d800; 0x1b6db400; 0xdb25800; 0xc924800; 0x1b6db400; 0xc92c800; 0xcd3c800;
   0xb6db000; 0xc924800; 0x4924800; 0xb6db000; 0x4924020; 0x924030; 0x16d805b; 0x92007c;
   0x12003c; 0x92c9018; 0x2f927820; 0x3f807f20; 0x5b24b640; 0x7f92ff60; 0x7fc3ff00; 0xdb6db6c0;
   0x24924920; 0x182000; 0xb60002; 0xdb6006cb; 0x602db6d8; 0x36c96c36; 0xc96c2db6; 0xd832492c;
   0x37ffec2d; 0xb6d816d9; 0x681e4938; 0x2db6d812; 0xcb2812cb; 0x282db6d8; 0x12492002; 0x49200db6;
   0xd0024920; 0x2490000; 0xb6400049; 0x4900; 0x2cb659b2; 0x8240008; 0x424b649; 0x12582400;
   0x180024b6; 0x49000800; 0x1b1c02; 0x2d8000; 0x5b6c000d; 0xb6d807ff; 0xff016db6; 0xd836db6d;
   0x8ffffff1; 0xb6db6c5b; 0x6d96cfef; 0x92fadb6d; 0xb6acb249; 0x6792492d; 0x6db6db56; 0x592cb3cb;
   0x259636db; 0x6d8b2c96; 0x5864924b; 0x1b6db6c1; 0x92d92812; 0x492401b6; 0xdb00096c; 0x90012490;
   0x1b6c00; 0x924000; 0x2400000; 0x1f2000; 0x400000; 0x2c80000; 0x4900000; 0x16d80000;
   0x36d80000; 0x24900025; 0xb6d9006f; 0xb6fb004f; 0xfff2016d; 0xb6d8006d; 0xb6c000c9; 0x2580036d].
Definition emoji_data_147 : list N :=
  [0xb6c0236d; 0xb6880679; 0xe4100b6d; 0xb6031b6d; 0xb4401259; 0x60805b6d; 0x90185b6c; 0x220016c8;
   0x4005b60; 0x80c05b00; 0x92001201; 0x2412db20; 0xb016db60; 0x8125b241; 0x5b6db64; 0x5b6cb24;
   0x9249248; 0x2db6db20; 0x24924920; 0x1f1f00; 0x2082000; 0x2492000; 0x0; 0x92492000;
   0x92492000; 0x4; 0x92490004; 0x92480000; 0x4; 0x92400024; 0x92400049; 0x2480016d;
   0xb6c0016d; 0xb6000279; 0x6600036d; 0xb6080b6d; 0xb0581259; 0x20901b6d; 0x82d81b6d; 0x86c016d8;
   0x4801b68; 0x36c01b60; 0x36001200; 0x24005b00; 0xb612db20; 0xb000b000; 0x92d921; 0x8492c920;
   0x18000; 0x2492492c; 0x0; 0x151f01; 0x2c0003f; 0xc0036d80; 0x2db601ff; 0xf016db40;
   0xdb6c03c9; 0x602db680; 0xb6d80492; 0x401b6c00; 0x6db0012c; 0x16d000; 0x1b000048; 0x165b604;
   0x92c02012; 0x46c9645b; 0x24904924; 0x8db648b6; 0x49249249; 0x1b25b76d; 0xb6c92492; 0x32db6001;
   0x20000000; 0x1d1f00; 0x4b2000; 0xb6d8000; 0x7fff800d; 0xb6db00b6; 0xdb6c07ff; 0xfff05b6d;
   0xb6c36db6; 0xdb092492; 0x41924924; 0x90000000; 0x8000000b; 0x2492492c; 0xb6db6584; 0x9249165b;
   0x6db6596d; 0xb6cbc964; 0xf20cb6db; 0x6cb2db6d; 0x87924924; 0x196db6d8; 0x25b6db00; 0x24924892;
   0xdb6d8003; 0x6db60009; 0x6c8120b6; 0xd80000db; 0x20000248; 0x400; 0x0; 0x192000;
   0x80000; 0x16c002ff; 0xfc16db6d; 0xb5bfd920; 0x5fff801b; 0x6db01fdb; 0xf00ffff8; 0x36db602;
   0xdb6d81ec; 0x93c16db6; 0xc05b6db0; 0x2596400d; 0xb6d80b6d; 0xb0009648; 0x1b6da00; 0x2db60016;
   0xd80006db; 0xb600; 0x490002; 0x5b240fb6; 0xdf07f97f; 0x86db6db7; 0xfedffbff; 0x2ffedb6d;
   0xb6924924; 0x1f1f01; 0x480000; 0x920000; 0x16db0000; 0x36db0001; 0x24920005; 0xb6db0005;
   0xb6da0009; 0x2590002d; 0xb6d8002d; 0xb6d8004b; 0x2f80016d; 0xb6c0006d; 0xb6000049; 0x7c00016d;
   0xb600016d; 0xb0000249; 0x6000036d; 0x9600036d; 0x36000248; 0x7c005b6d; 0xb602db6d; 0xb605b25b;
   0x7c16db6d; 0xb636db6d; 0xb42592c9; 0x3db6db6c; 0xb7b6db6c; 0xb7249279; 0xdb6db64; 0x4924924;
   0x0; 0x1f1f01; 0x300000; 0xb00000; 0xb6c0000; 0x6db6c001; 0x6db6c002; 0xdb6d800b;
   0x6db6000b; 0x6db6001f; 0xff7c001b; 0x6db0005b; 0x6db000f2; 0x496000db; 0x6d8002db; 0x6d8002b2;
   0x4a0006db; 0x6c0006db; 0x68000492; 0x400016db; 0x16db; 0x5b0; 0x16d9; 0x200016c9;
   0x60002492; 0xc82db65b; 0x6c6d924b; 0x2c492492; 0x4b6db6db; 0x6b65925b; 0x2492492; 0x9249248;
   0x0; 0x1f1f01; 0x2db6db0; 0x2db6db0; 0x7f24920; 0x36db65b0; 0xb6db2581; 0xfffe0905;
   0xb6db2d8d; 0xb6d92c1f; 0xfdfa486d; 0xb6d96c6d; 0xb6c961c9; 0x25c2436d; 0xb6c9637d; 0xf6490649;
   0x64920b6d; 0xb24b1b6d; 0xb6d81249; 0x64901b6d; 0xb6d81b6d; 0xb6c016c9; 0x2480db6d; 0xb6c05b2d;
   0xb6001249; 0x24125925; 0xb0905924; 0x9000; 0x492c920; 0x4924920; 0x0; 0x24924900;
   0x0; 0x202000; 0x240000; 0xdb6000; 0x16db000; 0x1659000; 0x6db6800; 0xb6db000;
   0x9659000; 0x16db6c00; 0xb6db000; 0x1b65b600; 0x36db6c00; 0xb6d9400; 0x9e5d800; 0x16cb6c00;
   0xbe5f000; 0x9e59800; 0x65b2c02; 0xb6db009; 0x12c9008; 0x2db6016; 0x16d8008; 0x12c8008;
   0x5b0010; 0x6d8010; 0x1248000; 0x16db6c30; 0x5b2cb640; 0x49249200; 0xb6db6db0; 0x5b6db640;
   0x49249200; 0x92492480; 0x1d2000; 0x200000; 0x16d80002; 0xdb60001f; 0xff80016d; 0xb6000db6;
   0xd8007ff7; 0xc006db6d; 0x5b6db0; 0x1d92580; 0xdb6da00; 0x37df6001; 0x9a7b001b; 0x6db0006d;
   0xb6c00125; 0x960016db; 0x60005b6c; 0x5b20; 0x5b649; 0x20164924; 0x80100004; 0x5b6db6cb;
   0x64924949; 0x248245b2; 0xd92db6c9; 0x24909249; 0x48b65b2; 0xdb649249; 0x20049249; 0x12492490;
   0x1f1f01; 0x2492490; 0x2482490; 0x5f00000; 0x36d92490; 0xb6d80081; 0xfffe0005; 0xb6d9248d;
   0xb6d9041f; 0xfdf2006d; 0xb6d9246d; 0xb6c921c9; 0x2592036d; 0xb6c9237d; 0xf6490649; 0x64900b6d;
   0xb2491b6d; 0xb2481249; 0x64801b6d; 0x92481b6d; 0x924016cb; 0x24005b64; 0x92405b00; 0x2001208;
   0x36596c; 0x90b0596c; 0x36082d8; 0x5b24b60; 0xdb24b60; 0x1b6096c0; 0x24924900; 0x0;
   0x201f01; 0x590000; 0x16d8000; 0x1248000; 0x2db6000; 0x36db000; 0x1249000; 0x6db6800;
   0xb6db000; 0x96c9000; 0x16db6c00; 0xb6db400; 0x9249800; 0x16db6c00; 0xb6db000; 0x9659800;
   0x6db6c00; 0xb6db040; 0x12c9040; 0x2db6082; 0x16d80c3; 0x12c80c3; 0x5b00b6; 0x6d8058;
   0x240058; 0x165b6c30; 0xb24b218; 0xb24b018; 0x96db6cb0; 0x482db218; 0x96db018; 0x12492490;
   0x1d1f01; 0x2d80000; 0x5b600003; 0xffe0002d; 0xb6c001b6; 0xdb003fff; 0xf800db6d; 0x800b6db6;
   0x710030; 0x1924b0c; 0x1e492c00; 0xc2486083; 0x24b6482c; 0x92530064; 0x920002db; 0x6c900b6d;
   0x92404b64; 0x200b6c1; 0x2002d804; 0x124000; 0x16c0240; 0x25b20800; 0x4000092; 0xd9248243;
   0x4b60018; 0x5b124b2; 0x5b64820b; 0x6d801049; 0x26490492; 0x40000000; 0x1f1f01; 0x80;
   0x80; 0x900100; 0x16d82d80; 0xb6d82481; 0xfffe4805; 0xb6d8200d; 0xb6d8201f; 0xfdf0006d;
   0xb6d8206d; 0xb6c060c9; 0x2580c36d; 0xb68b637d; 0xf6030669; 0x64000b6d; 0xb0081b6d; 0xb0001259;
   0x60001b6d; 0x80001b6c; 0x16c8; 0x5b60; 0x2db60; 0x79248; 0x16d96d; 0x8097fb25;
   0x802d9249; 0x4924925; 0x8492c925; 0x88009249; 0x24924924; 0x0; 0x182000; 0x80000;
   0xb60002db; 0x3c9e0; 0x5b6c006; 0xdb600749; 0xe00db6d8; 0x16db681f; 0xfff86db6; 0xdbf6db6f;
   0xfa493f6d; 0xb6dbb6db; 0x6c32cb2c; 0xdb6d806; 0xdb600259; 0x2005b6c0; 0x2db0000; 0x5b0005b6;
   0xc0065960; 0x649602d; 0xb6d81659; 0x641e5974; 0x6db6db96; 0x49640649; 0x60249249; 0x1c1f01;
   0x16c06d81; 0xfe0b6c3f; 0xf0ffc365; 0x96d87921; 0xb6c20009; 0x2432596d; 0x80920b6c; 0x1009601;
   0x2406d801; 0x160000; 0x1201640; 0x6d819609; 0x64092092; 0x416c96d8; 0xb619240; 0x92012416;
   0xcb2da4b6; 0x41200920; 0x12096c02; 0xd90b6036; 0x900120; 0x16c02d80; 0x94032008; 0x12006c;
   0x2500840; 0x3200ce03; 0x3016c065; 0x80000000; 0x191f01; 0x12016c24; 0x80db0000; 0xff92486d;
   0xb4905b60; 0x349ac9; 0xdb4920b; 0x6c0800b2; 0x900b602; 0x402c0100; 0x20b2c16; 0xc2ca0591;
   0x2482496d; 0x86db5b24; 0x92048249; 0x2d825b6b; 0x60121090; 0x901b04b; 0x646c02d0; 0x12012036;
   0x16c0d80; 0x48024024; 0x6402d81; 0xb00943d8; 0x6f0cb05; 0xb0000000; 0x1a2000; 0x1005;
   0xb01b05b6; 0xb61ff87; 0xfeb6d36d; 0x96586db4; 0x92192adb; 0x5b64921; 0xb6824824; 0x816c16c0;
   0x2c00d809; 0x100db0; 0x5b659609; 0x21248248; 0xb6c36d96; 0xc824b490; 0x1265b29; 0xb21b0492].
Definition emoji_data_148 : list N :=
  [0x42412499; 0x6c86c06c; 0x2d90900; 0x1205b01b; 0x1900360; 0x24000812; 0xc0640640; 0x981980e;
   0x604b0590; 0x1c1f01; 0x16c06d81; 0xb60b6c1f; 0xf0ffc36d; 0x96d85b61; 0xb6c29309; 0x2436d96d;
   0x81b60b6c; 0xb209601; 0x6c06d80b; 0x160010; 0x12016c0; 0x6d81b609; 0x64092092; 0x436d96d8;
   0x5b619244; 0x92012436; 0xcb2da4b6; 0x41204924; 0x12096c02; 0xd94b6436; 0x900120; 0x16c02d80;
   0x94032008; 0x12006c; 0x2500840; 0x3200ce03; 0x3016c065; 0x80000000; 0x1b2000; 0x2000001;
   0xf00b607f; 0xc1b61ffc; 0x7fc3fb0d; 0xb67db2db; 0xfbe6931; 0x6d86da36; 0xd16d82fc; 0x5903681;
   0x6c036016; 0x3c0040; 0x5b60b605; 0xb40b2092; 0x41242db0; 0xdb66db24; 0x90c92492; 0x36cb2db8;
   0x6ca24304; 0x80481361; 0x96cc3601; 0x68024024; 0x1b00b60; 0x1b009001; 0x201200c8; 0x5b00d80;
   0x4a07b00d; 0xe06582d8; 0x1b1f01; 0xb00000; 0x1b000003; 0xe00000d8; 0xd80; 0x8000;
   0x240000; 0x6000002; 0x40000036; 0xb00; 0x12000; 0x5b0000; 0x5b00000; 0x92c0002d;
   0x960002c0; 0x4808; 0x6c100; 0x1680000; 0x2580000b; 0x60100196; 0x10090c0; 0x2c3001;
   0x6030003; 0xc0600030; 0x18000301; 0x80002078; 0xd80; 0x8000000; 0x1b1d01; 0x80000;
   0x5b00004; 0x9240036d; 0xb600b6db; 0x60124924; 0x5b6db60; 0xdb6db649; 0x249246db; 0x6db16db6;
   0xdb249249; 0x2b6db6da; 0xb6db6d92; 0x492491b6; 0xdb6c5b6d; 0xb6c92c9e; 0x48db6db6; 0xdb6db60;
   0x92d9202d; 0xb6db02db; 0x6d804924; 0x9002db6c; 0x2db600; 0x4924000; 0x2db00002; 0xd8000000;
   0x1a1e00; 0x80000; 0x1780001b; 0x6c005b6d; 0xb01ffffe; 0xb6db6c1; 0x6db6c0ff; 0xfffe6db6;
   0xdb2db6db; 0x6ffffff9; 0xb6db6db6; 0xdb6d9ff6; 0xc9e6db6d; 0xb0db6db6; 0x32c9659b; 0x6db6c36d;
   0xb6d84b25; 0x922db6db; 0x5b6db01; 0x25b24036; 0xdb6006db; 0x6c0096c8; 0x5b6d80; 0xb6d8000;
   0x4920002d; 0x90000000; 0x191905; 0xdb0000; 0xb6c00049; 0x2000db6c; 0xb6db00; 0x4924805b;
   0x6db036db; 0x60092490; 0x5b6db616; 0xdb6d8964; 0xb24b6db6; 0xdedb6db1; 0x2496496d; 0xb6d81b6d;
   0xb4049648; 0x5b6db01; 0x6db60096; 0xd90036db; 0xdb600; 0x2490000; 0x5b000000; 0x191c02;
   0x490000; 0x92400000; 0x24924; 0x80924920; 0x49; 0x24929249; 0x24000080; 0x4925b252;
   0x496c8124; 0x92096db6; 0xca5b6db0; 0x2793c92d; 0xb6d95bed; 0xf604b249; 0x5b6db23; 0x6db6c092;
   0xc920b6db; 0x602db6d0; 0x12db2006; 0xdb6800b6; 0xd8004920; 0xb6000; 0x1c2000; 0x1000000;
   0x9e000016; 0xc00001f6; 0xf20; 0x16c00; 0x90000; 0x900000; 0x6c00000; 0xf600000f;
   0x2000006c; 0x360; 0x3248; 0x6db60; 0x3edf00; 0x365f000; 0x2db6c003; 0x7db6003f;
   0xf12006db; 0xc0036d8; 0x6003ff86; 0x6db05b; 0xb6f87c0; 0x32783c32; 0xdb648412; 0x4a004124;
   0x900b0d96; 0x406c90; 0x4020000; 0x1b2000; 0x100000; 0xf000001; 0xb0000058; 0xf00;
   0xd800; 0xc0000; 0x480005b; 0x600000b6; 0x1240; 0x5b000; 0x5b0000; 0xb200002;
   0xdb24002f; 0xf6c007f6; 0x48016db6; 0xb6df60; 0x12df6c04; 0x92c960cb; 0x2cb01861; 0x92065b6c;
   0xb045b64b; 0x92c97f; 0x6c36db30; 0x432d8201; 0x8480b6d3; 0x60036c36; 0x240200; 0x191f01;
   0x240000; 0x6d9000db; 0x6c007ffe; 0x6db6c0; 0x5b6da03f; 0xfff82db6; 0xd80b6db6; 0x7924f05;
   0xb6db016d; 0xb680d659; 0x4036db60; 0x2db6c002; 0x592002db; 0x6000b6d8; 0xb6000; 0xb600016;
   0xd8000f27; 0x805b6db0; 0x3edb7c1f; 0xe49e1b6d; 0xb2d6fb64; 0xab3c900b; 0x6db65a59; 0x6d952492;
   0x48000000; 0x1f1d03; 0x580000; 0x1b60000; 0x16db0000; 0x36db0000; 0x6db60001; 0xb6db0005;
   0xb6db000b; 0x6c96000d; 0xb6d8002d; 0xb6d8004b; 0x26b0006d; 0xb6c0016d; 0xb6c00049; 0x2400036d;
   0xb600036d; 0xb0000249; 0x2000036d; 0x80d8036c; 0x2f80248; 0x3d00b60; 0x2c04b24; 0x647c21f;
   0xc16c96d; 0x903fc97f; 0xa1ff83ff; 0x81b6cb6d; 0x87bfdfed; 0x1249248; 0x0; 0x172000;
   0x240003; 0xdf005b6d; 0x80db2d81; 0xb25b86d9; 0x6d9ed96d; 0xbc924b36; 0xdb6c3fff; 0xf07fb2e1;
   0xb6db61b6; 0xdb033cb3; 0x5b6da0d; 0xb6d80924; 0x902db6c0; 0x2db6c009; 0x24002db6; 0x2db000;
   0x900016d; 0x904a2c12; 0x90482649; 0x64924964; 0x9003c012; 0x4b24924f; 0x24801200; 0x1a1c02;
   0x2db0000; 0xdb6400ff; 0xff005b6d; 0xb01b6db6; 0x1fffffcb; 0x6db6d96d; 0xb6dbffff; 0xbfedb6db;
   0x6db6db6f; 0xec925fb6; 0xdb6db6db; 0x6dbe9e4f; 0x3edb6db6; 0x5bedf69a; 0x5924cb6d; 0xb6d96db6;
   0xd8292c92; 0xdb6db00; 0xb6db4025; 0xb64006db; 0x68005b6c; 0x124800; 0x16c0000; 0x1f2000;
   0x10000; 0x820000; 0x2db0000; 0x6d80000; 0x4900000; 0x36d80004; 0xb6d9000b; 0xedfa406d;
   0xb6db006d; 0xfed8004b; 0x6cb0006d; 0xb6c001ed; 0xb7c023ff; 0x7f80437d; 0xf6880f6d; 0xb6110edb;
   0x7c021b6d; 0xb4401b6d; 0x908817db; 0x101b6c; 0x22001be8; 0x4401fc0; 0x805b00; 0x96025b20;
   0xb025b648; 0xb6db6c; 0x80b2db61; 0x8125b241; 0xdb6db64; 0x25b6db2c; 0x1249000; 0x1d1e02;
   0x12492000; 0x49248000; 0x24; 0x92480492; 0x49000000; 0x4924; 0x80012490; 0x80080;
   0xb6db00; 0x6db6c00; 0x37df6001; 0x6db7000d; 0xf7d8206d; 0xb6c102db; 0x6c360b6d; 0xb2d81f7c;
   0x1241b6d0; 0x6c02fb05; 0xb017c024; 0x806d80d8; 0x5b00b60; 0x2d800812; 0xdb24b24b; 0x6492000b;
   0x1124b2; 0x48049249; 0x24000000; 0x20000000; 0x141e01; 0x1e0007f; 0x800ffe01; 0xfff83fff;
   0x1fff83f; 0xff83edb0; 0x1b6d81ff; 0xd816db01; 0xb6d00ffc; 0x6da003; 0xec001f80; 0x2d90096;
   0xd8180483; 0x65b25924; 0x85f248b6; 0xd925b649; 0x49249b64; 0x965925b4; 0xb249b6db; 0x6436d800;
   0x1c1e00; 0x248000; 0x17fb0006; 0xdb6c00b6; 0xdb601fff; 0xffc36db6; 0xda5b6db6; 0xc7fffffe;
   0xb2492494; 0x40; 0x924; 0x9249c924; 0x924c12ff; 0xe4b2db6d; 0x9cb6db6c; 0xc37dbecb;
   0x6db7d9cb; 0x7dbec637; 0xdbecb6db; 0x6d95b6db; 0x6c036ff6; 0xc92db6d8; 0x16db680; 0x1fff6090;
   0xdb6c0006; 0xdb60002d; 0xb00000b6; 0x0; 0x191f01; 0x3c000b; 0x6db217fb; 0x6d8bff92;
   0x416db640; 0x7b6d903f; 0xbfc02db6; 0xd01ffffa; 0xffffc07; 0xb6df036d; 0xb741fefb; 0xa0b6db60;
   0x6fb6c816; 0xdb6016db; 0x6005b6d8; 0xfbe000; 0x5b6c0017; 0xd80003e8; 0x36c00; 0x12db201f;
   0x6df85b6d; 0xb61fdb7f; 0x9ff4bfeb; 0x6db6dfdf; 0x7db12492; 0x48000000; 0x201f01; 0x240000;
   0x2db0000; 0x36d8000; 0x9249000; 0x16db6000; 0xb6db000; 0x9259000; 0x16db6c00; 0x1b6db000;
   0xb7ff000; 0x16db6c00; 0xbedb000; 0xbeff000; 0x6db6000; 0xb6db000; 0x37ff000; 0x2db6400;
   0x16da600; 0x1ff8780; 0x2db6d80; 0xb6db6c0; 0xb7fb7e0; 0x16db6db0; 0x5b6db6d8; 0x4b7db278].
Definition emoji_data_149 : list N :=
  [0xb6db6db6; 0x5b6db69b; 0x692c939e; 0xb6db6db2; 0x7b6db790; 0x48000200; 0x1f1d02; 0xb20000;
   0x5b64000; 0x5b6d8001; 0x6db6c001; 0x6db6c002; 0xdb6d8003; 0x6db6000f; 0xfffe001f; 0xfffc001b;
   0x6db0007b; 0x6df000f7; 0xdfe000df; 0x7d8003db; 0x6d8003b6; 0xde0006db; 0x6c0006db; 0x600005f6;
   0xc00006db; 0x6f8; 0x7f0; 0x400016db; 0x6c001649; 0x64092493; 0xcf2db65b; 0x6c6db249;
   0x2c492492; 0x5b6db6db; 0x6b64925b; 0x0; 0x1d1f00; 0x2492490; 0x49249242; 0x5924922d;
   0xf6db60ff; 0xfb2d8fff; 0xe824ffff; 0x96cffffe; 0x5b7ffff0; 0x49ffdf6d; 0x9ffb7cb6; 0xffdbe09b;
   0x6db6593d; 0xb7d905ff; 0xbfc026db; 0x6db67b6d; 0xb249dfef; 0x9245b6db; 0x6c36db6d; 0xb0bff924;
   0x8b6db6d8; 0x2db6db61; 0x3f924912; 0xd96db24b; 0x64924018; 0x124b2; 0x48049249; 0x1000;
   0x2492490; 0x0; 0x1f2000; 0x490000; 0x2db0000; 0x5920000; 0xb6db0000; 0xb6db0001;
   0x2c920005; 0xb6d8000d; 0xb6d80019; 0x6490006d; 0xb6d8016d; 0xb6c000c9; 0x2d80036d; 0xb780037c;
   0xf60006f9; 0xe4000b6d; 0xb801196c; 0xb0081fff; 0xe0005b6d; 0x80485b6c; 0x403ff8; 0x5b60;
   0x6005b00; 0x1200ff00; 0x2012db20; 0x80b2db60; 0x8125b241; 0x5b6db64; 0xdb2db64; 0x9249248;
   0x2db6db20; 0x24924920; 0x1e2000; 0xb20000; 0x3fc0000; 0x3ffe0001; 0xfffe000f; 0xfff8007f;
   0xffe000ff; 0xef8007ff; 0xdf001fff; 0x7c00f6db; 0x6001edb7; 0xc007feff; 0xdf7d8; 0x7b6da0;
   0x1edf780; 0x36db600; 0x6db6000; 0xbfd8000; 0x1b6c0000; 0x36c92400; 0x49249002; 0xc924912c;
   0x92490492; 0x49246d96; 0xcb6edb24; 0x92492490; 0x91b6db2; 0xd8b64924; 0x92492492; 0x464b6db6;
   0x20124920; 0x1f2000; 0x924924; 0x924920; 0x200000; 0x25b24920; 0x3ff60020; 0xfffc0003;
   0xfffe490f; 0xfffe011f; 0xfffc001f; 0xfdf6487f; 0xedf008ff; 0xdbe002db; 0x6db243db; 0x7d8247fe;
   0xff0006db; 0x6d921edb; 0x6c121dfe; 0xf00016db; 0x6c9036db; 0x902fff; 0xb6db; 0x648096c8;
   0x4803f80; 0x4b649; 0x242cb659; 0x20d860b0; 0x36cb2d8; 0xb6492d8; 0x16c825b0; 0x1b64b6c0;
   0x49209240; 0x1f2000; 0x80000; 0x580000; 0x4920000; 0x16da0000; 0x36d80001; 0x24900005;
   0xb6d8000d; 0xb6d80019; 0x2490006d; 0xb6d0006f; 0xf6c000ff; 0x6f80036d; 0xb780037d; 0xf60006fb;
   0xec000b6d; 0xb8001b6d; 0xb00016fb; 0x60005b6d; 0x86105b6c; 0x10403ff8; 0x20805b60; 0x32c05b00;
   0xb6003f00; 0x6c12db20; 0xb012d960; 0x802092c1; 0x4b6db21; 0x8496db24; 0x10db608; 0x25b6d90c;
   0x4924820; 0x1f2000; 0x80000; 0xf80000; 0x7fe0000; 0x3fff0000; 0xffff0001; 0xffff0007;
   0xffff000f; 0xfffe001f; 0xfdfc003c; 0x92590064; 0x927100cb; 0x2ce001ed; 0xb6c3012c; 0xb30a0309;
   0x600036d; 0xb4000b6d; 0xb24006df; 0x60100b6d; 0x92400bec; 0x20007f8; 0xb60; 0x12001b40;
   0x10001e00; 0x125b24; 0x90925824; 0x9000b009; 0x2492c96d; 0xb492c16d; 0x800182db; 0x24924b6d;
   0x80020924; 0x1d1d03; 0x2d80580; 0x5fe01203; 0xffe4903f; 0xffcb23ff; 0xff243fff; 0xf800ffef;
   0x820ffdbe; 0x7fedf0; 0x1b6db05; 0x9edbec36; 0xf7dfe083; 0x6db6033d; 0xb6d800ed; 0xf78002db;
   0x6c001b6d; 0x80005ffc; 0x1b6c0; 0x16db00; 0xfff800; 0xb6d9200; 0x7db6d803; 0xfc924096;
   0xcb258249; 0x64920008; 0x249124b2; 0x49600249; 0x24800000; 0x192000; 0x480000; 0xb6c00079;
   0x60005b6c; 0xb6db00; 0x7927805b; 0x6d8016db; 0x600f6df0; 0xb6db616; 0xdb6f9fff; 0xffebedb7;
   0xdfdf7df1; 0xefbef86d; 0xb6d81b6d; 0xb007bed8; 0x1b6d800; 0x6db4003f; 0xf80016d8; 0x5b600;
   0x1e796016; 0xdb600796; 0x5813cf3c; 0x96db6d84; 0xf2cb2079; 0x27825b6d; 0x90124920; 0x1a2000;
   0x2002407; 0xc03f87fe; 0xff2db07; 0xfe7b61ff; 0xd2087fe9; 0x2536d924; 0x87da4821; 0xff84905b;
   0x60900b60; 0x2400f812; 0x402c1658; 0x2c849209; 0x22db05b6; 0x5b2192c2; 0x4024b96c; 0x36c86c12;
   0x4b090412; 0x65b21b01; 0xb00b6424; 0x24816c0; 0x6c06402d; 0x80900120; 0x4b019009; 0x260240;
   0x812c06; 0x40240208; 0x1c2000; 0x2400; 0x9003e000; 0xffc124; 0x1ff80921; 0xffc0001f;
   0xfc12496d; 0x80920b6c; 0x900bfc1; 0x2406d809; 0x20360010; 0x1e01240; 0x2c009609; 0x60092092;
   0x436d96d8; 0xb6192c0; 0x92192416; 0xc92da4b6; 0x51240924; 0x12096c02; 0xdb4b6436; 0x900120;
   0x16c02d80; 0x96032009; 0x12006c; 0x2500840; 0x32008001; 0x2016c065; 0x80820120; 0x1c2000;
   0x4800801; 0x6c07f81f; 0xe07f82db; 0xffe3659; 0xfdc3259f; 0xdc2db0db; 0x63259ed8; 0x1240ff82;
   0xdb0db012; 0x406d8024; 0x3e00580; 0x5b016402; 0xc812402c; 0x82db0db6; 0x16c92481; 0x2492482d;
   0x925b616c; 0xb24a0240; 0x2420d825; 0xb286c02d; 0x30240240; 0xd805b00; 0x6c025002; 0x402400c8;
   0x5b006c0; 0x24000402; 0xca05b; 0x1240248; 0x1a2000; 0x2002006; 0xc03f83fe; 0xff0db07;
   0xfe5b61ff; 0xde587feb; 0x6c36d96d; 0x87da4921; 0xff8db05b; 0x61b00b60; 0x2c00f816; 0x402c16d8;
   0x2c849209; 0x22db05b6; 0x5b6192d2; 0x4824b96d; 0xb6c96c12; 0x4b090412; 0x65b21b01; 0xb04b6424;
   0x4816c0; 0x6c06402d; 0x80900120; 0x4b019009; 0x360240; 0x812c06; 0x40240208; 0x1c2000;
   0x2002400; 0xfe03e01f; 0xe0ffc3ff; 0x9ff87f79; 0xffc7f71f; 0xfc36d96d; 0x87b70b6c; 0x3ff0bfc1;
   0x6d06d80b; 0x603600f8; 0x1e016c0; 0x2c00b609; 0x640b2092; 0x436d96d8; 0x5b6192c4; 0x92192436;
   0xd92da4b6; 0xd1244924; 0x12096c22; 0xdb4b6436; 0x904120; 0x16c02d80; 0x96032009; 0x12006c;
   0x2500840; 0x32008001; 0x2016c065; 0x80820120; 0x1b1f01; 0x600000; 0x3f00000b; 0xe00000f4;
   0x1e00; 0x1b000; 0x180000; 0x8000002; 0xc000002c; 0x580; 0x16000; 0x360000;
   0x2580000; 0xb2c0001b; 0xc000120; 0x8000580c; 0xd8000; 0xb00000; 0x2d800006; 0xd000024a;
   0xb2c0; 0x20182802; 0x9050002; 0xc1600228; 0x14002303; 0x800420b6; 0x420900; 0x0;
   0x1a1d02; 0x240000; 0xb6d800b6; 0xdb002492; 0x4836db6c; 0x16db6d84; 0x924922db; 0x6db65b6d;
   0xb6d2cb6c; 0x9b6db6db; 0x6db6db5b; 0x6db66db6; 0xdb6dbedf; 0x6d6fb7d8; 0xb6db6d96; 0xfb7d85b7;
   0xfb60db6d; 0xb61b6db6; 0x6dfed81; 0x6db6c02d; 0xfec0037f; 0xb000b6d8; 0x16d800; 0xb20000;
   0x8000000; 0x1a1f00; 0x160000; 0x37d8003f; 0xfe003fff; 0xe01ffffe; 0x7ffff83; 0xfffff0ff;
   0xfffe7fff; 0xff9fffff; 0xeffffffb; 0xffffff7f; 0xffdffff7; 0xdbeffdb6; 0xf9b6db6c; 0x36dbed8d;
   0xf6fbe6db; 0x6db0db6d; 0xb616df6c; 0xb6db6c1; 0x6df6c05b; 0x7db00db6; 0xd801bedb; 0x2ffe00;
   0x16db6000; 0xdb600016; 0xc0000120; 0x0; 0x181a04; 0x240000; 0xb60001b6; 0xc00b6db0;
   0xdb6d00d; 0xb6d81b6d; 0xb02db6d8; 0x2db6d81b; 0x6db42db6; 0xd86fb7db; 0xdb6db66d; 0xb7db6fb7].
Definition emoji_data_150 : list N :=
  [0xdbdb6db6; 0x6db6db2d; 0xbed81b6d; 0xb42db6d8; 0xdf7d80b; 0x6db005be; 0xc005fec0; 0x36d8000;
   0xb6000000; 0x191c02; 0x240000; 0x492; 0x48012492; 0x4; 0x92492124; 0x92480001;
   0x924b64; 0xa492c902; 0xbfc12db; 0x6d95b6db; 0x20df6fc2; 0xdf6fb0b7; 0xdb6c5bed; 0xfe5b6db6;
   0x16db6d8b; 0x6fb7c36d; 0xb6c0db6d; 0x806fbec0; 0x2db6c00b; 0x7db001bf; 0xc000b6d0; 0xd8000;
   0x1a2000; 0x1000005; 0xf00001fc; 0x7f00; 0x16c000; 0x6c00001; 0x9000004b; 0x1b00;
   0x24000; 0x16c0000; 0x2d80000d; 0x600005b6; 0xc800f6db; 0x3ff7c0; 0x6db6002; 0xdb6c003f;
   0xfb001b6c; 0xb00ffc16; 0x3ffe480; 0x6db0c03f; 0xfe5b0f6f; 0x87edb6c3; 0x6c32c823; 0x4920082;
   0xc960304b; 0x200c1608; 0x2010400; 0x1b1f01; 0xbc0000; 0x1f000003; 0xe0000078; 0x580;
   0x8000; 0x12c0001; 0xb6c00007; 0xc80000b6; 0x1b60; 0x32000; 0x5b0000; 0xdb04001;
   0xffc8002d; 0xb6c006db; 0x6c02dffc; 0x80b6db60; 0x1964160c; 0x20c040cb; 0x6cb624b2; 0xd3041650;
   0x2045964b; 0x72492df1; 0x925b032; 0x9240365; 0x92803d82; 0x40016010; 0x0; 0x191f01;
   0x580000; 0xffc000ff; 0xf000fffc; 0xffff00; 0xffffc07f; 0xfff03ffb; 0xf01ffdf8; 0x1f6dbe06;
   0xfb6e03fd; 0xf7016db6; 0x80db6d80; 0x3df6c02d; 0xb6c00b6d; 0xb001ffc0; 0xb6d000; 0x2db0001f;
   0xf80036db; 0x3db6c0; 0xbed964b6; 0xdb6c3db6; 0xc91ef920; 0x96db64bd; 0xb6d82249; 0x24124924;
   0x90000000; 0x1f1d03; 0x240000; 0x5b60000; 0xdb6c000; 0x1b6d8000; 0x6db6c001; 0x6db60002;
   0xdb6c000b; 0x6db6001b; 0x6db40016; 0xdb60005b; 0x6db0005f; 0x6d8000be; 0xff0002db; 0x6d8002db;
   0x6c0001bf; 0xd80006db; 0x601002db; 0x40f005fe; 0x1e006d8; 0x5b006d8; 0x5a02782; 0x305965b;
   0xc3f827f; 0x207f84ff; 0x416d92db; 0x1ff97fb; 0x3ff3ff6; 0xb6db6c9; 0x0; 0x172000;
   0x24000d; 0xb6006db6; 0x80d92d83; 0x6cb68b64; 0xb61ec96e; 0x5b6db65b; 0x6db0ffff; 0xe0ff6dc3;
   0xdb6f87be; 0xff06fb6e; 0x1efbec1d; 0xf7d836db; 0x6036db60; 0x6df780b6; 0xdb00bed8; 0x7ff000;
   0xb6c000b6; 0x487c91; 0x6cb2d920; 0x82400180; 0x9259249; 0x2f92401e; 0x492c92; 0x1b1d01;
   0x120000; 0xfe0000f; 0xff8003ff; 0xfd01ffff; 0xf03fffff; 0xffffff1; 0xfffffe3f; 0xffffcfff;
   0xfbfdfffd; 0xbfbfffb7; 0xf7db6dbf; 0xffb6dbdf; 0xfedf73ef; 0xb7df36fb; 0x6dc7df6f; 0xb8b6db6f;
   0x1b6db6c3; 0xedf6d85b; 0x6db607b6; 0xdb6037df; 0x6005b6d8; 0x5bed80; 0x37f8000; 0x5b680001;
   0xb0000000; 0x202000; 0x200000; 0x5b0000; 0x6d8000; 0x1248000; 0x2db6000; 0x16d8000;
   0xb24b200; 0xb6db6d80; 0x5bfff600; 0xbfff200; 0x16db6c00; 0xb6db000; 0x9249200; 0x12c92432;
   0x9659201; 0x8008201; 0x2492432; 0x9249201; 0x40201; 0x2492432; 0x1248201; 0x240200;
   0x4901b6; 0x2400c8; 0x48; 0x16c96c30; 0x4b65b200; 0x492d9200; 0xb6db6db0; 0x4b2cb240;
   0x49249200; 0x92492490; 0x1d1f01; 0x12492002; 0x49248000; 0x124; 0x92400492; 0x49000000;
   0x4924; 0x80012490; 0x92480; 0x924900; 0x2492000; 0x2080001; 0x24b20005; 0x92400004;
   0x10000249; 0x24340924; 0x82c00100; 0x12049241; 0x6c02480d; 0xb0124024; 0x812402d8; 0x4900b60;
   0x4812; 0x4921b24b; 0x6486005f; 0x1125b2; 0x49049649; 0xc001000; 0x22492492; 0x0;
   0x131f01; 0x2400124; 0x249009; 0x24809240; 0x12480492; 0x42492000; 0x2002cb20; 0x24900000;
   0x1248012; 0x40004800; 0x12000124; 0x82c9; 0x6c249644; 0x2496cb2; 0x72d92249; 0x24b6493b;
   0x24912492; 0x592dbc96; 0xd8804900; 0x92000000; 0x1f1e00; 0x48000; 0xb6d800; 0x5b6db00;
   0x1ffffe00; 0x6db6db01; 0x6db6db03; 0xfffffe0b; 0x6db6da19; 0x24924820; 0xc9; 0x249248c0;
   0x180; 0x649; 0x24924649; 0x24920c02; 0x1003249; 0x24903259; 0x2c906010; 0x1801b249;
   0x24819249; 0x24830012; 0x49259; 0x24009249; 0x20000010; 0x12496d9; 0x96c8; 0x480;
   0x1009240; 0x1200; 0x0; 0x181f01; 0x16c802d; 0xffd87ff2; 0xff5b6db6; 0xdfed80f;
   0xbef00b6d; 0xb20ffff8; 0x7ffc809; 0x6d920492; 0x48008208; 0x9659204; 0x93480082; 0x92490;
   0x4924000; 0x10000124; 0x80009240; 0x920000; 0x24000092; 0x40040; 0x5b25b67f; 0xb6fe7fb6;
   0xffdb6db6; 0x6fb7ffff; 0xf7ffcb6d; 0xb6000000; 0x1f1f01; 0x580000; 0x2d90000; 0x24920000;
   0xb6db0001; 0xb6db0001; 0x2492000d; 0xb6d8002d; 0xb6d80049; 0x2f900064; 0x96400164; 0x9640024c;
   0x3c80012c; 0xb6000124; 0xb2000209; 0x6000012c; 0xb0000124; 0x80000049; 0x2c000b6c; 0x36000924;
   0xb0009009; 0xfc06c92d; 0xb016c96d; 0xb02d8059; 0xf8b6cb6d; 0xb1b64b6c; 0xb324964d; 0xf5b65b6d;
   0xbdb6db64; 0x9d2493ec; 0x2c924b48; 0x0; 0x1f1f01; 0x400000; 0x480000; 0x5b20000;
   0xb6db0001; 0xb6db0003; 0x6db6c005; 0xb6db0005; 0xb2480009; 0x24900024; 0x92480024; 0x92400040;
   0x480012c; 0x9240012c; 0xb2000200; 0x20000124; 0x90000924; 0x90000008; 0x924; 0x80000924;
   0x240; 0x924; 0x90000924; 0x90001249; 0xe016db2d; 0xb2b6c925; 0x91249249; 0x5b6db6d;
   0x95b2c92c; 0x89249259; 0x24924924; 0x0; 0x1d1f01; 0x6db6db0; 0x5b6db642; 0x4924922c;
   0x96cb6092; 0x4b2d8492; 0x49244924; 0xb6c92492; 0x5b492092; 0x4892492d; 0x924924b6; 0x82082411;
   0x24b2d925; 0x92496c04; 0x10492249; 0x24920924; 0x96d80100; 0x9244925b; 0x6c12496d; 0xb0924924;
   0x8b24b6d8; 0x2496db61; 0x124992; 0x4925b241; 0x4800001; 0x12492; 0x48049249; 0x0;
   0x2492490; 0x0; 0x1f2000; 0x90000; 0x960000; 0x16db0000; 0x16db0000; 0x24b20001;
   0xb6db0001; 0xb6da0001; 0x2590000d; 0xb6d8002d; 0xb6d8005b; 0x2d90006d; 0xb6c0012c; 0x9e400078;
   0x7c00016c; 0xb2000164; 0xb0010000; 0x2092c; 0x90080924; 0x80480200; 0x100b64; 0x2400b20;
   0x2000000; 0x4004920; 0x1002c920; 0x30248248; 0x40b64b6c; 0x81b24b69; 0x1249242; 0xdb6db64;
   0x2db2db68; 0x9209200; 0x1f1e01; 0x240000; 0x4924000; 0x4924000; 0x49248001; 0x24924001;
   0x24920002; 0x49240009; 0x24920009; 0x24900010; 0x120004b; 0x2c90004b; 0x2c800080; 0x8000249;
   0x2400024b; 0x24000000; 0x249; 0x200002d9; 0x92; 0x249; 0x24b00249; 0x24812092;
   0x490db6d9; 0x6c2d9249; 0x24492482; 0x496db6cb; 0x616c9249; 0x22492412; 0xb65b6db; 0x9249248;
   0x0; 0x1f1e02; 0x2492492; 0x2480000; 0x4920000; 0x12492490; 0x92492001; 0x24924004;
   0x92492484; 0x92490009; 0x20120024; 0x92496424; 0x92490043; 0xc12012c; 0x924b2124; 0x92480200;
   0x900124; 0x92590124; 0x92400000; 0x2480096c; 0x92c80964; 0x92000001; 0x20004924; 0x92424904].
Definition emoji_data_151 : list N :=
  [0x9205801b; 0x36496d; 0x90b6486c; 0x1640058; 0x5b64b6c; 0x5b65b60; 0x9201240; 0x0;
   0x1d2000; 0x200000; 0x1000000; 0xb6c00016; 0xdb000092; 0x48000b6d; 0xa0006db6; 0x12490;
   0x36db60; 0x5b2480; 0x2492000; 0x6492c004; 0x92490000; 0x8200004b; 0x2c800124; 0x90000000;
   0x9249; 0x824920; 0x82000004; 0x102d9041; 0xb2010c; 0x960; 0x9003609; 0x2480c0c0;
   0x4022d92; 0x5928b6db; 0x20819ff8; 0x4596db2; 0x5165b641; 0x1249008; 0x1f1e01; 0x200000;
   0x4920000; 0x24920000; 0x49240001; 0x24920001; 0x24920002; 0x49240009; 0x24900009; 0x20100010;
   0x20004b; 0x2c800049; 0x24820000; 0x1240249; 0x24000249; 0x24000410; 0x1200249; 0x24900249;
   0x4800090; 0x9000248; 0x4000240; 0x24000400; 0x48049249; 0x20241249; 0x20002400; 0x124b25b;
   0x6124b25b; 0x600100b6; 0xc92592db; 0x692412db; 0x0; 0x1f1e01; 0x40; 0x160;
   0x900100; 0x1201240; 0x24925b60; 0x24924902; 0x49241009; 0x24925009; 0x24904012; 0x48201049;
   0x24904049; 0x2480c086; 0x18018259; 0x2482c259; 0x64020400; 0x40249; 0x20000249; 0x20000000;
   0x1259; 0x2c8; 0x2090; 0x1b258; 0x59249; 0xfe4b6; 0x402db2db; 0x6125b649;
   0x60012012; 0x4b24b249; 0x69259249; 0x0; 0x182000; 0x100000; 0xb600016d; 0x8005b6c0;
   0x792c00b; 0x6db00db6; 0xd00f92f8; 0x1b6db02d; 0xb6d86fff; 0xded96d96; 0xe4924b60; 0x830f5965;
   0x96249248; 0x9; 0x2c900492; 0x40000000; 0x16c8000; 0x92000082; 0xb65b0; 0xc92702e;
   0x82785b6d; 0xb62c9279; 0x2e92794b; 0x6db22c92; 0x79040040; 0x191f01; 0x8009049; 0x20921240;
   0x24892012; 0x4924124a; 0x48249004; 0x2012482; 0x48490092; 0x4000805; 0x80090120; 0x12041008;
   0x25961b63; 0x6d924892; 0x124b641; 0x6cad9249; 0x2402406; 0xc12d91b0; 0xb404804; 0x80d805b2;
   0x36012809; 0x901900; 0xb606c024; 0x1201203; 0x2016c2d8; 0x4b10402; 0x8000000; 0x1b1f01;
   0x400000; 0x12000001; 0x20000020; 0x900; 0x8000; 0x100000; 0xc000002; 0xc0000048;
   0x1640; 0x12000; 0x240000; 0xb640000; 0xb0c00012; 0x5b0; 0xc000580c; 0x90000;
   0x2d80000; 0x2d800004; 0xb000036c; 0x200b0c0; 0x121800; 0x5860022; 0xc0600218; 0xc004203;
   0x620f4; 0x200; 0x0; 0x1b1c02; 0x5b0000; 0x2db20004; 0x92400b6d; 0xb600b6db;
   0x60124964; 0x8db6db62; 0xdb6cb649; 0x249656db; 0x65b56592; 0x4b248001; 0x6b24925a; 0xb2492592;
   0x180c1196; 0x4b245964; 0xb2400402; 0x8c92492; 0xc924960; 0x80400024; 0x92490249; 0x24800124;
   0x25b24; 0x249200; 0x0; 0x4800000; 0x191d01; 0x240001; 0x24900249; 0x24012492;
   0x1249242; 0x49249124; 0x92492492; 0x48492492; 0x24924924; 0x92492924; 0x92449240; 0x24924925;
   0x24924882; 0x10492c9; 0x642492c9; 0x402002; 0x49248092; 0xc9000120; 0x492490; 0x12492000;
   0x2400012d; 0x90004920; 0x0; 0x4900000; 0x181905; 0x920002; 0x49000000; 0x49240;
   0x2492000; 0x2492; 0x48124920; 0x24; 0x92481249; 0x24030180; 0x2592c993; 0xc9a40201;
   0x249248; 0x12592400; 0x8002492; 0x48124920; 0x490004; 0xb6400249; 0x20000000; 0x920000;
   0x191c02; 0x920000; 0x24800000; 0x9249; 0x1249240; 0x92; 0x49242492; 0x49000000;
   0x124924a4; 0x92492000; 0x24924; 0x94924924; 0x301804b; 0x259212c9; 0x64002010; 0x9249242;
   0x49248000; 0x80012492; 0x40092490; 0x920004; 0xb6480124; 0x90000000; 0x24000; 0x1b1f01;
   0x10400001; 0x90000079; 0xf00; 0xc800; 0x8000; 0x100000; 0x6d800006; 0x400000c0;
   0x1640; 0x32000; 0x640000; 0xb6db000; 0xfeda001e; 0x4f2005b6; 0xd8007f6d; 0x800ffc30;
   0x2db4580; 0x6db0c007; 0xff09016d; 0xb2d83ed8; 0x2d13cb87; 0x8c36c860; 0x83698000; 0x24100609;
   0x6d0160b0; 0x40000008; 0x0; 0x1a1f01; 0x200000; 0x12000002; 0x80; 0x4800;
   0x80000; 0x20000d9; 0x60000920; 0x800; 0x2d8000; 0x5800001; 0x200000b6; 0x48003fdb;
   0x7b240; 0x12db6c06; 0xdbfc0796; 0xcb02db20; 0xb0410c96; 0x30492489; 0x6cb4c30d; 0x9259c924;
   0x87ecb2db; 0x6400d961; 0x80b04036; 0x592802d8; 0x2c001008; 0x0; 0x181e02; 0x1248004;
   0x92400492; 0x40092490; 0x4924804; 0x92480924; 0x90249248; 0x4000809; 0x65900493; 0x48008208;
   0x9249004; 0x92400010; 0x92490; 0x924000; 0x92000124; 0x800192c0; 0x780c01b; 0x25b02f92;
   0xf83f8278; 0xdb65966d; 0xb6c36592; 0x41db6d92; 0x6cb6cb24; 0x92410000; 0x1f1d03; 0xb60000;
   0x1b60000; 0xb6d8000; 0x2db6c000; 0x6db68000; 0xdb6d8003; 0x6db6000b; 0x6c960016; 0x402c0019;
   0x24b00049; 0x24b00082; 0xc2000c9; 0x2c800049; 0x25000002; 0x24b; 0x24000249; 0x20000092;
   0x6002d9; 0x1b00248; 0x5b00000; 0x3a09249; 0x487821f; 0xc1f803f; 0x106d92db; 0x61ff93ff;
   0x3ff07f0; 0x36db6c9; 0x9249240; 0x0; 0x172000; 0x590006; 0xdb003d97; 0xc0b65b61;
   0xb25b4764; 0xb78db6db; 0x3c924b3b; 0xfffc6db6; 0xd8249240; 0x48008124; 0x92012cb2; 0x2706409;
   0x64900924; 0x90104820; 0x9248009; 0x24000240; 0xb6000; 0x9000000; 0x964964; 0x92492d00;
   0xc92c9; 0x2493c920; 0x7802496; 0x49001200; 0x1a1b02; 0x240000; 0x92480092; 0x49002492;
   0x40124924; 0x12492484; 0x92492249; 0x24924924; 0x92524904; 0x99249249; 0x24924940; 0x22492;
   0x49249649; 0x21060300; 0x92c96492; 0x49248400; 0x496c; 0x92092c92; 0x1; 0x24924004;
   0x96400024; 0x80009248; 0x24800; 0x181805; 0x160003; 0x6d8007ff; 0xf00ffff8; 0x1b6db63f;
   0xfffc7fff; 0xfe5b6db6; 0x7ffe5f7d; 0xf01fdb24; 0x9664924b; 0x648003c9; 0x65926493; 0x4a409200;
   0x492c9264; 0x92482092; 0x96d90; 0x4924000; 0x124; 0x80009200; 0x171706; 0x2492002;
   0x49200000; 0x924920; 0x92490000; 0x249249; 0x24924900; 0x12492; 0x49249248; 0x804092c;
   0xb2493cb2; 0x40492009; 0x2c924924; 0x90024900; 0x4b6c9049; 0x24800000; 0x492400; 0x49200000;
   0x181905; 0x490005; 0xb6c006db; 0x601ffff8; 0x2db6d836; 0xdb6c3fff; 0x7c6db6db; 0xb6db6cff;
   0xd92e6db6; 0xdbb64924; 0xd249266d; 0xb6db92cb; 0x24924924; 0x6db6da12; 0x49241249; 0x242db6d8;
   0x12592002; 0x492005b6; 0xc0024900; 0x80000; 0x181905; 0x120003; 0x6d8005b6; 0xd00ffff8;
   0x1b6db62d; 0xb6d87fff; 0xfe5b6db6; 0x6db6db7f; 0xf25fdb6d; 0xb66db6db; 0x64924adb; 0x6db66db7;
   0xda64924a; 0x5b6db66d; 0xb6d824b6; 0x481b6db0; 0xdb6d804; 0x92400b6d; 0x8001b640; 0x120000;
   0x181905; 0x2c0002; 0xffe00fff; 0xf01ffff8; 0x3ffffc7f; 0xfffe7fff; 0xfeffff7f; 0xfffdfeff].
Definition emoji_data_152 : list N :=
  [0xfdfef7db; 0x6fff6db6; 0xffefb6f6; 0xdb6edbef; 0xb67bffb6; 0xb6db6c5b; 0x6db67bff; 0xbc36db6c;
   0x1b6db00b; 0x6db006db; 0x60016d80; 0x240000; 0x181805; 0x80004; 0x92400249; 0x20024920;
   0x24924812; 0x49241249; 0x24249249; 0x92492492; 0x48242492; 0x49924924; 0x80410425; 0x92c992c9;
   0x24004900; 0x24b64812; 0x49240049; 0x24b648; 0x12492000; 0x492; 0x40004900; 0x191c03;
   0x920001; 0x24800000; 0x49249; 0x1249240; 0x92; 0x49242492; 0x49000000; 0x124924a4;
   0x92492000; 0x24924; 0x94924924; 0x49; 0x249212c9; 0x64806030; 0x9249242; 0x49248000;
   0x80012492; 0x40092490; 0x920004; 0x96480124; 0x90000000; 0x24000; 0x191c03; 0x2490000;
   0x92400000; 0x24924; 0x84924920; 0x249; 0x24909249; 0x24000000; 0x49249252; 0x49248000;
   0x92492; 0x4a492490; 0x124; 0x92484925; 0x92008040; 0x24964909; 0x25924002; 0x40009249;
   0x20259240; 0x480002; 0x59200092; 0x40000000; 0x92000; 0x1a1c03; 0x490000; 0x49200000;
   0x4924; 0x90092492; 0x9; 0x24924924; 0x92480000; 0x90249259; 0x24924924; 0x24924896;
   0x5b2c9249; 0x24809249; 0x225b6db2; 0x49e4f202; 0x7934816d; 0xb6c824b2; 0x48092492; 0x5b6db00;
   0x92590004; 0x924002db; 0x64004924; 0x24800; 0x1240000; 0x191c03; 0x920001; 0x24800000;
   0x49249; 0x1249240; 0x92; 0x49242492; 0x49000120; 0x12496ca4; 0x92d92249; 0x2482db6d;
   0xb492d924; 0x4924905b; 0x6db616db; 0x6c8964b2; 0xb6db6c2; 0xdb6d8124; 0x92416db6; 0xc05b6db0;
   0x4b64805; 0xb6d8016d; 0xb0001248; 0x124800; 0x191c03; 0x2490000; 0x92400000; 0x24924;
   0x84924920; 0x249; 0x24909249; 0x24000580; 0x4925b252; 0x5b6c812f; 0xbe0b6db6; 0xcacb64b1;
   0x65b2796d; 0xb6d85bed; 0xb62df6ff; 0x2db6db0b; 0x6fb6c1b7; 0xdb81b6db; 0x606dbec0; 0x17ff6016;
   0xdb6005b6; 0xd8005b60; 0xb6000; 0x1a1c03; 0x490000; 0x49200000; 0x4924; 0x90092492;
   0x9; 0x24924924; 0x92480000; 0x249249; 0x24924924; 0x92; 0x49249249; 0x24800000;
   0x24b2592; 0x49e4d200; 0x60300124; 0x924824b2; 0x48000400; 0x4924900; 0x92590000; 0x9200025b;
   0x20004924; 0x0; 0x1240000; 0x1a2000; 0x920000; 0xbfc0003f; 0xfe0036db; 0x601ffffc;
   0xfffff86; 0xdb6db0ff; 0xfdfeffff; 0x3f9b6d96; 0xdfed92fb; 0xef001e6d; 0x924b7c92; 0x496f0c06;
   0x19964b24; 0xf2c9659c; 0x10006649; 0x2490c924; 0x96300805; 0xb2492c3; 0xe5b2f079; 0xfef82db2;
   0xdb07f25f; 0x7fffc0; 0x16db6007; 0xfff800ff; 0xf8000b6c; 0x2400; 0x191f01; 0x920001;
   0x24800000; 0x9249; 0x1249240; 0x92; 0x49242492; 0x49000000; 0x124924a4; 0x92492000;
   0x24924; 0x90964b24; 0x305804b; 0x25921249; 0x24000000; 0x9249242; 0x49248000; 0x80012492;
   0x48492490; 0x4; 0x92480124; 0x92000000; 0x924900; 0x4920000; 0x48; 0x0;
   0x1a2000; 0x100000; 0x5b60005b; 0x6c003fff; 0xe01b6db6; 0xb6db6c3; 0xfffff16d; 0xb6da6db6;
   0xdb1fff97; 0xedb6db6d; 0xb6492c74; 0x924bb6db; 0x6db6592c; 0x91974b24; 0x5b6db699; 0x24924249;
   0x24916db6; 0xd824964b; 0xf2492c1; 0xb6db60b6; 0xdb6c0f92; 0xfe06db6d; 0x80db6d80; 0x1fffe003;
   0x6db0006d; 0xb4000bfc; 0xb200; 0x1a2000; 0x240000; 0xb6c00036; 0xdb003fff; 0xe016db6c;
   0x6db6d87; 0xfffff2db; 0x6db65b6d; 0xb6dfffef; 0xfb6db6db; 0x6db6dbfb; 0x2497edb6; 0xdb6dbedf;
   0x6de793ce; 0xb6db6d96; 0xdb6d8692; 0x4930db6d; 0xb61b6db6; 0x6492583; 0x6db6d06d; 0xb6d81fed;
   0xfe05b6db; 0xb6db40; 0x3fffe006; 0xdb6800db; 0x6c0017f8; 0x16c00; 0x1a2000; 0x480000;
   0x7fb0007f; 0xfe003fff; 0xf02fffff; 0xfffffc3; 0xfffff9ff; 0xfffcffff; 0xffbfffff; 0xe7df6dff;
   0xff6dbeff; 0xdb6f9b6d; 0xb6ff7dbe; 0xdbdfefbe; 0x6db6db3d; 0xb6db676d; 0xb6f9b6db; 0x6c36df6f;
   0xfb7dbc3; 0xdbedf0ff; 0xfffc1fff; 0xfe03edbf; 0x80ffffc0; 0x1ffff007; 0xfff800ff; 0xf8000ffe;
   0xd800; 0x191f01; 0x2490004; 0x92400249; 0x24024924; 0x84924922; 0x49249249; 0x24909249;
   0x24492412; 0x49249252; 0x49248800; 0x492492; 0x4a592c91; 0xc060925; 0x92c84924; 0x92200001;
   0x24924909; 0x25924482; 0x41209249; 0x21249248; 0x12492012; 0x49240492; 0x48024924; 0x492400;
   0x12480001; 0x20000120; 0x0; 0x171c04; 0x200001; 0x640002d8; 0x5b6c00; 0x5b6c00bf;
   0xd806db68; 0x6c9600c; 0x2c03249; 0x60b65901; 0x4320192; 0x4b049248; 0x804100c; 0xb6502cb2;
   0xc0580180; 0x6c96c16c; 0xb602db6c; 0xb6db61b; 0x6db636db; 0x6cdb6db6; 0xdb6db1b6; 0xdb624924;
   0x80000000; 0x161c04; 0x480005; 0xb00016c0; 0x1b6c00b; 0x6d802ffe; 0x16db606; 0xc9680d00;
   0x805b2581; 0x924b0241; 0x4124960; 0x6492c182; 0x480cb658; 0x196ca064; 0x820364b6; 0x6db681b;
   0x6db0db6d; 0xa5b6db16; 0xdb6cb6db; 0x6f6db6d5; 0xb6db2492; 0x49000000; 0x171c04; 0x80000;
   0x580005b2; 0x16db00; 0x36d8007f; 0xf001b6d8; 0x5b2d80b; 0x24f02db6; 0xc02596c0; 0x4b2c816d;
   0xb6012596; 0x249240b; 0x6db00b2c; 0xb0164960; 0x5b6d80db; 0x6d80b6db; 0x6db6d96; 0xdb6dadb6;
   0xdbb6db6c; 0xb6db6d6d; 0xb6d89249; 0x20000000; 0x171c04; 0x200001; 0x640002d8; 0x5b6c00;
   0x5b6c00bf; 0xd806db68; 0x6db600c; 0x92c036db; 0x60b6db01; 0x2cb201b6; 0xdb05b6d8; 0x924900d;
   0xb6d02db6; 0xc0592580; 0x6db6c16d; 0xb602db6c; 0xb6db61b; 0x6db636db; 0x6cdb6db6; 0xdb6db1b6;
   0xdb624924; 0x80000000; 0x161c04; 0x480005; 0xb00016c0; 0x1b6c00b; 0x6d802ffe; 0x16db606;
   0xdb680f6f; 0x805b6d81; 0xbefb06fb; 0xec16db60; 0x6db6c1bf; 0xd80db6d8; 0x1b6da06f; 0xf6036db6;
   0x6db681b; 0x6db0db6d; 0xa5b6db16; 0xdb6cb6db; 0x6f6db6d5; 0xb6db2492; 0x49000000; 0x171c04;
   0x80000; 0x580005b2; 0x16db00; 0x36d8007f; 0xf001b6d8; 0x592d80b; 0xf02c96; 0xc02596c0;
   0x42008124; 0x92012492; 0x209040b; 0x2d900b2c; 0xb0160160; 0x5b2580db; 0x2d80b6db; 0x6db6d96;
   0xdb6dadb6; 0xdbb6db6c; 0xb6db6d6d; 0xb6d89249; 0x20000000; 0x1f1e02; 0x8000; 0xfe000;
   0x6db000; 0x1fff000; 0x7ffe000; 0x1b6db000; 0x7fffe000; 0xffcfc002; 0xdb2d8003; 0xc9278006;
   0x104f0016; 0x492c0012; 0xcb2c0030; 0x7800b2; 0x496001f2; 0x49e001e4; 0x83c02596; 0xcb202792;
   0x5f200f80; 0xfe092c92; 0x59292492; 0x49000000; 0x492492; 0x49002492; 0x40004924; 0x496db2;
   0x48016d90; 0x25b00; 0x492480; 0x0; 0x1d1f01; 0x90000; 0x17c0000; 0x1ffc0001;
   0xb6d0001f; 0xff8000ff; 0xfc000b6d; 0xb0006db3; 0x8003041c; 0x124960; 0xc93400; 0x418000;
   0x24964000; 0x92480000; 0x10000249; 0x24000924; 0x90000124; 0x4924b; 0x24924924; 0x90120120].
Definition emoji_data_153 : list N :=
  [0x4b249649; 0x24924920; 0x24024096; 0xc92c9009; 0x24900048; 0x4812592; 0xd9201249; 0x20000000;
   0x482482; 0x0; 0x1f1d03; 0x40000; 0xb6c000; 0x1ffc000; 0x7ffe000; 0xdb6c000;
   0x3ff7c000; 0x7fe78001; 0x6d960003; 0x24960002; 0x4000b; 0x65900009; 0x65900010; 0x200059;
   0x64800249; 0x24800002; 0x4000124b; 0x24909249; 0x24900000; 0x492cb; 0x249496c9; 0x24806492;
   0x4025b65b; 0x6484b64b; 0x60016492; 0x125b6db; 0x2024b2c9; 0x16480; 0x1249248; 0x0;
   0x1f1c04; 0x92400; 0x492000; 0x0; 0x2492000; 0x2492000; 0x0; 0x12492000;
   0x92490000; 0x4100004; 0x92490004; 0xb2c80000; 0x20800024; 0x92480024; 0x92400001; 0x20000925;
   0xb2480924; 0x92480008; 0x24924; 0x924a4924; 0x92400000; 0x124924; 0x92404924; 0x90001249;
   0x125b6c; 0x92005b64; 0x800096c0; 0x124924; 0x0; 0x1d1e02; 0x48000; 0x0;
   0x12480002; 0x49200000; 0x124; 0x92000492; 0x40000000; 0x24924; 0x92680; 0x83000;
   0x492c800; 0x12490000; 0x2000049; 0x24800124; 0x92000024; 0x80009259; 0x64924924; 0x92024024;
   0x96492c9; 0x24924924; 0x24804812; 0xd9259201; 0x24920009; 0x9024b2; 0x5b240249; 0x24000000;
   0x92492; 0x40000000; 0x1d1a05; 0x492000; 0x9248000; 0x4; 0x92480012; 0x49000000;
   0x924; 0x90002492; 0x3080; 0x12cb20; 0x2492400; 0x80001; 0x24924004; 0x96c80000;
   0x12001249; 0x24924924; 0x92480124; 0x24b65b; 0x2496c92c; 0x90b24920; 0x496cb6c8; 0x25b2d800;
   0x2c924092; 0x5b649049; 0x64900000; 0x1f1e02; 0x90000; 0x1b6000; 0xffc000; 0x6db6000;
   0x16db6000; 0x3fffc000; 0xb6db4001; 0xb6db0003; 0xe4970005; 0xb6db000c; 0x92580019; 0x6798006d;
   0xb6d80064; 0x924000c9; 0x24c0036d; 0xb6c00b6d; 0x960007cb; 0x2e025b6d; 0xb6425b25; 0xb2401249;
   0x2012596c; 0x92524924; 0x92009249; 0x2092db6d; 0x9212db6c; 0x8005f6d8; 0x492db64; 0x8092db24;
   0x9000; 0x0; 0x1f1d02; 0xb6000; 0x5b6000; 0xfff800; 0x2db6000; 0x6db6000;
   0xffec000; 0x36db6000; 0x32490000; 0x64920001; 0xb6db0004; 0xb2c80001; 0x24900025; 0xb6c00024;
   0xb2400009; 0x2480012d; 0xb6000125; 0xb2000049; 0x2400496d; 0xb24a4924; 0x92401249; 0x24125b6d;
   0xb2524924; 0x92009249; 0x2012db6d; 0x92124924; 0x80009249; 0x925b64; 0x90924924; 0x0;
   0x1d1c03; 0x40000; 0x1fc0000; 0x36d80002; 0xdb60001f; 0xff80016d; 0xb6000db6; 0xd8006493;
   0xc006db6c; 0x1924b0; 0xcd3500; 0x5b6d800; 0xb2490000; 0x9248004b; 0x6db00125; 0xb2000024;
   0x800492d9; 0x24924924; 0x92004900; 0x92db6c9; 0x25b24b24; 0x2c924812; 0x5b6db209; 0x6cb6000b;
   0x24902496; 0xd9241259; 0x24000000; 0x1f1e02; 0x90000; 0x5b6000; 0xffc000; 0x6db6000;
   0x16db6000; 0x3fffc000; 0xb6db4001; 0xb6db0003; 0xec9f0005; 0xb6db000d; 0xb6d80019; 0xe798006d;
   0xb6d8006d; 0xb6c000c9; 0x65c0036d; 0xb6c00b6d; 0xb60007cf; 0x3e025b6d; 0xb6425f6d; 0xb2401249;
   0x60125b6d; 0x9252db6d; 0x92009249; 0x2092db6d; 0x9212db6c; 0x8005f6d8; 0x492db64; 0x8092db24;
   0x9000; 0x0; 0x1f1e02; 0xb6000; 0x5b6000; 0xfff800; 0x2db6000; 0x6db6000;
   0xffec000; 0x36db6000; 0x36db0000; 0x6c920001; 0xb6db0005; 0xb6d80001; 0x6490002d; 0xb6c0002d;
   0xb6c00009; 0x2480012d; 0xb600012d; 0xb6000049; 0x2400496d; 0xb24a496d; 0x92401249; 0x24125b6d;
   0xb252cb6c; 0x92009249; 0x2012db6d; 0x92124b64; 0x80009249; 0x92db64; 0x90925b24; 0x1000;
   0x0; 0x1d1c03; 0x40000; 0x1fc0000; 0x36d80002; 0xdb60001f; 0xff80016d; 0xb6000db6;
   0xd8007f97; 0xc006db6c; 0x1b6db0; 0xcd3500; 0x5b6d800; 0xb6db0000; 0x9248004b; 0x6db0012d;
   0xb600002d; 0x900492db; 0x24924b64; 0x92004900; 0x92db6c9; 0x25b64b24; 0x2c924812; 0x5b6db209;
   0x6cb6000b; 0x24902496; 0xd9241259; 0x24000000; 0x1f1e02; 0xb0000; 0x5fe000; 0xffc000;
   0x7ffe000; 0x1fffe000; 0x3fffc000; 0xffffc001; 0xffdf8003; 0xffbf000f; 0xb6df000f; 0xb6de001f;
   0xefb8007d; 0xb6f8006d; 0xb6f000fb; 0xedc003ed; 0xb7c00bed; 0xb70007df; 0xfe025fed; 0xfe425f6d;
   0xfa403ef9; 0x60125b6d; 0x9252db6d; 0xb201b6db; 0xe092db6d; 0x9212db6d; 0x8025f6d9; 0x492db64;
   0x8092db24; 0x9000; 0x0; 0x1f1f01; 0x8000; 0x17c000; 0xfff000; 0x1fff000;
   0x7ffe000; 0xfffc000; 0x3fffc000; 0x7db7c000; 0xedb70001; 0xfb7e0003; 0x6df6000b; 0x6db00017;
   0xdbe0005b; 0x6da0005b; 0x6d800036; 0xdb00025b; 0x6c00025f; 0xec0000bf; 0xc80092db; 0x649492db;
   0x248025fe; 0x4824b6db; 0x64a596d9; 0x240125b2; 0x4025b6db; 0x6424b6c9; 0x413f92; 0x125b6c9;
   0x2125b648; 0x12400; 0x0; 0x1d1c03; 0x40000; 0x1fc0000; 0x3ff80003; 0xffe0003f;
   0xffc001ff; 0xbe000ffe; 0xf8007ff7; 0xc007db6c; 0x1bedf0; 0xdf7f00; 0xdb6d800; 0xb6db4001;
   0xb7dc004b; 0x6db0012d; 0xb600007f; 0xf00492db; 0x24924b64; 0x92005f00; 0x92db6c9; 0x25b6cb24;
   0x2c924812; 0x5b6db209; 0x6cb6000b; 0x24902496; 0xd9241259; 0x24000000; 0x1f1e02; 0x10000;
   0x90000; 0x924000; 0x2492000; 0x2492000; 0x24924000; 0x92490000; 0x92490001; 0x24120004;
   0x92490004; 0x92480008; 0x41100025; 0x96480024; 0x92400041; 0x20800124; 0x92400924; 0x9200020b;
   0x4024924; 0x92424924; 0x92401000; 0x20124924; 0x92524924; 0x92000000; 0x924924; 0x92024924;
   0x1f6c8; 0x492db64; 0x8012db20; 0x9000; 0x0; 0x1f1d02; 0x92000; 0x92000;
   0x924000; 0x2492000; 0x2492000; 0x4924000; 0x12490000; 0x12490000; 0x4120000; 0xb2590000;
   0xb2c80000; 0x20800024; 0x92400024; 0x92400000; 0x124; 0x92000125; 0xb2000049; 0x4004924;
   0x924a4924; 0x92401201; 0x24125b25; 0xb2524924; 0x92009009; 0x2012d92d; 0x92024924; 0x80008048;
   0x924924; 0x90004900; 0x0; 0x1d1b04; 0x240000; 0x2490000; 0x49240002; 0x49200024;
   0x92400092; 0x48000490; 0x40004924; 0x80012490; 0x98400; 0x965900; 0x12492000; 0x10400009;
   0x24920024; 0xb6400000; 0x90009249; 0x24924924; 0x92400820; 0x125b2d9; 0x24b64964; 0x85904902;
   0x4b65b641; 0x2d96c001; 0x64920492; 0xdb24824b; 0x24800000; 0x1f2000; 0x49240; 0x492490;
   0x406db6da; 0xc124b64f; 0x80492496; 0x16db6fe; 0xb249230; 0x24924b2; 0x4b6db7b2; 0x1b6c91e0;
   0x32492590; 0xdb6db582; 0xc9248f04; 0x92492d96; 0xdb6dac32; 0xdb244024; 0xb64960b6; 0xdb6f60b2;
   0xd923f124; 0x924361b6; 0xdb63e592; 0x49020324; 0x92010db6; 0xdb092c92; 0x48125924; 0x90596db6;
   0xd87924b6; 0xc1f6492c; 0x82db6db6; 0xc65f2492; 0x4000000; 0x202000; 0x49248; 0x49248].
Definition emoji_data_154 : list N :=
  [0x101b6db6; 0x180492c9; 0x380492c8; 0x320b6db6; 0x18059249; 0x18059248; 0x12436db6; 0x9059649;
   0x8049248; 0x321b6db6; 0x582c9249; 0x48249248; 0x365b6db6; 0x582cb649; 0x5824b648; 0xb61b6db6;
   0x5b2cb649; 0x1b0c9648; 0x169b6db6; 0xb0c9249; 0x10c9248; 0x24b6db6; 0x2c9249; 0x12c9248;
   0x65b6db6; 0xb2492d9; 0xf249248; 0x16db6db6; 0x96c9248; 0x8000000; 0x1e2000; 0x24920;
   0x492480; 0x82db6d8b; 0x592d978; 0x2492560; 0xb6db6601; 0x64924801; 0x9249092d; 0xb6d89019;
   0x64920164; 0x92560b6d; 0xb66c3249; 0x24904924; 0x9592db6d; 0x982cb6c9; 0x6032db27; 0x61b6db66;
   0xc325b24b; 0x492495b; 0x2db6d8b0; 0x59249041; 0x2492424b; 0x6db604b6; 0x492410c9; 0x2490b6db;
   0x6d832492; 0xd90f9249; 0x646db6db; 0x62cb6492; 0x40040000; 0x1e2000; 0x49248; 0x592490;
   0x1249252; 0xb6db620; 0x164b2400; 0x59249482; 0xdb6d8821; 0x92490006; 0x59256436; 0xdb664164;
   0x925d0492; 0x49d82db6; 0xd9b24924; 0x97c92492; 0x561b6db6; 0x2032db27; 0xb0c96c9d; 0x82db6d9b;
   0xc96493f; 0x1249246c; 0xb6db6049; 0x64924104; 0x9249092d; 0xb6d812d9; 0x2d904324; 0xb646db6d;
   0xb60db249; 0x64b3c924; 0x91b6db6d; 0x89249248; 0x1f2000; 0x92490; 0x592490; 0x924920;
   0x805b6db4; 0x80492c80; 0x924904; 0x12db6d84; 0x16492408; 0x4924824; 0x16db6d60; 0x32492241;
   0x64924b65; 0xb6db6b24; 0x92491209; 0x2492582d; 0xb6dbd865; 0xb649b049; 0x6c92d96d; 0xb6dad164;
   0xb241b2c9; 0x2482c36d; 0xb6c24324; 0x92000649; 0x24125b6d; 0xb612d92d; 0xb024925b; 0x60b2db6d;
   0xb1f6492c; 0x833f9249; 0xdb6db6c; 0x4924920; 0x1f2000; 0x24920; 0x364920; 0x249241;
   0x20b6db61; 0x925920; 0x1249209; 0x5b6db08; 0x25924910; 0xb2c9049; 0xdb6d8c8; 0x2cb24880;
   0xc92486c3; 0x6db6d64b; 0x24926412; 0x4924345b; 0x6db6b059; 0x6d9360b2; 0xd921b0db; 0x6db5b0c9;
   0x64916192; 0x4905b2db; 0x6d858649; 0x24800c92; 0x4804b6db; 0x6c04b24b; 0x64192496; 0xc06db6db;
   0x61e4925b; 0x225f2492; 0xb6db6db; 0x9249248; 0x1e2000; 0x49248; 0x592490; 0x1249256;
   0xb6db66c; 0x164b2780; 0x59249d82; 0xdb6d9921; 0x92496086; 0x59276c36; 0xdb664164; 0x925d0492;
   0x49d82db6; 0xd9b2c924; 0x97c92492; 0x561b6db6; 0x6032db27; 0xf0c96c9d; 0x82db6d9b; 0xc96493f;
   0x1249246c; 0xb6db60c9; 0x64924124; 0x9249092d; 0xb6d812d9; 0x2d904b24; 0xb646db6d; 0xb60db249;
   0x64b3c924; 0x91b6db6d; 0x89249248; 0x1f2000; 0x92490; 0x592490; 0x924921; 0x80db6db5;
   0x80c92c8f; 0x92490c; 0x16db6dac; 0x16492409; 0x492486c; 0x96db6d64; 0x32492241; 0x64924b65;
   0xb6db6b24; 0x92491209; 0x2492582d; 0xb6dbd865; 0xb649b049; 0x6c92d96d; 0xb6dad164; 0xb241b2c9;
   0x2482c36d; 0xb6c24324; 0x92048649; 0x24125b6d; 0xb612d92d; 0xb024925b; 0x60b6db6d; 0xb1f6492c;
   0x833f9249; 0xdb6db6c; 0x4924920; 0x1f2000; 0x24920; 0x364920; 0x249241; 0x60b6db6b;
   0x92592e; 0x124921b; 0xdb6db18; 0x25924912; 0x4b2c905b; 0xdb6d8c8; 0x2cb24880; 0xc92486c3;
   0x6db6d6cb; 0x24926412; 0x4924345b; 0x6db6b059; 0x6d9360b2; 0xd921b0db; 0x6db5b0c9; 0x64916192;
   0x4905b2db; 0x6d858649; 0x24810c92; 0x480cb6db; 0x6c24b24b; 0x64592496; 0xc06db6db; 0x61ec925b;
   0x225f2492; 0xb6db6db; 0x9249248; 0x1e2000; 0x49248; 0x592490; 0x1249256; 0xb6db66c;
   0x164b27d0; 0x59249d86; 0xdb6d9b21; 0x92496486; 0x59276c36; 0xdb66c164; 0x925f0492; 0x49d82db6;
   0xd9b2c924; 0x97cb2492; 0x761b6db6; 0x6032db27; 0xf0c96c9d; 0x82db6d9b; 0xc96493f; 0x1249246c;
   0xb6db60d9; 0x64924124; 0x9249096d; 0xb6d836d9; 0x2d90cb24; 0xb646db6d; 0xb60db249; 0x64b3c924;
   0x91b6db6d; 0x89249248; 0x1f2000; 0x92490; 0x592490; 0x924921; 0x80db6db5; 0x80c92c8f;
   0x592490d; 0x16db6dac; 0xb6492409; 0x492486d; 0x96db6d6c; 0x32492241; 0x64924b65; 0xb6db6b6c;
   0x92491259; 0x2492582d; 0xb6dbd865; 0xb649b049; 0x6c92d96d; 0xb6dad164; 0xb241b2c9; 0x2482c36d;
   0xb6c2c324; 0x92048649; 0x2416db6d; 0xb612d92d; 0xb02c925b; 0x60b6db6d; 0xb1f6492c; 0x833f9249;
   0xdb6db6c; 0x4924920; 0x1f2000; 0x24920; 0x364920; 0x249243; 0x60b6db6b; 0x192593e;
   0x124921b; 0xdb6db18; 0x25924912; 0x4b2c905b; 0xdb6d8d8; 0x2cb24890; 0xc92486c3; 0x6db6d6cb;
   0x24926492; 0x4924345b; 0x6db6b059; 0x6d9360b2; 0xd921b0db; 0x6db5b0c9; 0x64916192; 0x4905b2db;
   0x6d858649; 0x24830c92; 0x480db6db; 0x6c25b24b; 0x64592496; 0xc06db6db; 0x61ec925b; 0x225f2492;
   0xb6db6db; 0x9249248; 0x1f2000; 0x24924; 0x164924; 0x249249; 0x60b6db6f; 0xe0b2593f;
   0xc164925f; 0xdb6db1b; 0x2d92493e; 0xc32c92db; 0xdb6d8d8; 0x2c9249f0; 0x492496c3; 0x6db6c6cb;
   0x24924f9e; 0x4924b61b; 0x6db63019; 0x6d92fc32; 0x5b25b05b; 0x6db1b0c9; 0x6491f892; 0x4921b2db;
   0x6d81b2c9; 0x24816492; 0x4904b6db; 0x6c0db64b; 0x641b6496; 0xc86db6db; 0x606d924b; 0x22cf2492;
   0x436db6db; 0x9249248; 0x1f2000; 0x92490; 0x592490; 0xb24921; 0x80db6db7; 0x82c92c8f;
   0x592490d; 0x16db6dbc; 0xb649241b; 0x6492486d; 0x96db6d6c; 0x32492241; 0x64924b65; 0xb6db6b6c;
   0x92491259; 0x2492582d; 0xb6dbd865; 0xb649b049; 0x6c92d96d; 0xb6dad164; 0xb241b2c9; 0x2482c36d;
   0xb6c2c324; 0x92078649; 0x2416db6d; 0xb616d92d; 0xb02d925b; 0x60b6db6d; 0xb1f6492c; 0x833f9249;
   0xdb6db6c; 0x4924920; 0x1f2000; 0x124920; 0x364920; 0x649243; 0xe0b6db6f; 0x8192593f;
   0x324921b; 0xdb6db18; 0x65924912; 0xcb2c905b; 0xdb6d8d8; 0x2cb248b0; 0xc92486c3; 0x6db6d6cb;
   0x249264b2; 0x4924345b; 0x6db6b059; 0x6d9360b2; 0xd921b0db; 0x6db5b0c9; 0x64916192; 0x4905b2db;
   0x6d85a649; 0x24834c92; 0x480db6db; 0x6c25b24b; 0x647b2496; 0xc06db6db; 0x61ec925b; 0x225f2492;
   0xb6db6db; 0x9249248; 0x1e2000; 0x49248; 0x592490; 0x1249252; 0xb6db620; 0x164b2480;
   0x59249482; 0xdb6d8821; 0x92492006; 0x59256436; 0xdb664164; 0x92590492; 0x49d82db6; 0xd9b24924;
   0x97c92492; 0x561b6db6; 0x2032db27; 0xb0c96c9d; 0x82db6d9b; 0xc96493f; 0x1249246c; 0xb6db6049;
   0x64924104; 0x9249092d; 0xb6d812d9; 0x2d904324; 0xb646cb6d; 0xb60db249; 0x64b3c924; 0x91b6db6d;
   0x89249248; 0x1f2000; 0x92490; 0x592490; 0x924920; 0x805b6db4; 0x80492c88; 0x924904;
   0x12db6d84; 0x16492408; 0x4924824; 0x16db6d60; 0x32492241; 0x64924b65; 0xb6db6b24; 0x92491209;
   0x2492582d; 0xb6dbd865; 0xb649b049; 0x6c92d96d; 0xb6dad164; 0xb241b2c9; 0x2482c36d; 0xb6c24324;
   0x92000649; 0x24125b6d; 0xb612d92d; 0xb020925b; 0x60b2db6d; 0xb1f6492c; 0x833f9249; 0xdb6db6c;
   0x4924920; 0x1f2000; 0x24920; 0x364920; 0x249241; 0x20b6db61; 0x925922; 0x1249209].
Definition emoji_data_155 : list N :=
  [0x5b6db08; 0x25924910; 0xb2c9049; 0xdb6d8c8; 0x2cb24880; 0xc92486c3; 0x6db6d64b; 0x24926412;
   0x4924305b; 0x6db6b059; 0x6d9360b2; 0xd921b0db; 0x6db5b0c9; 0x64916192; 0x4905b2db; 0x6d858649;
   0x24800c92; 0x4804b6db; 0x6c04b24b; 0x64192496; 0xc06db6db; 0x61e4925b; 0x225f2492; 0xb6db6db;
   0x9249248; 0x161f00; 0x480007; 0xf0003ff0; 0x1b6c003; 0xe7801f9e; 0x649000; 0xc9600601;
   0x80196400; 0x325800c9; 0xc002cb00; 0x4900010; 0x4801b6c0; 0xb6d8004; 0x92002db0; 0x5b2001;
   0x24004368; 0x8096c000; 0x5b0012db; 0x2125b240; 0x124024b6; 0x49092480; 0x24; 0x90000000;
   0x161f01; 0x580005; 0xf0001fe0; 0xb6c003; 0x65000400; 0x249000; 0x49000020; 0x12000;
   0x2400000; 0x24900; 0x4920012; 0x4801b6c0; 0x1248004; 0x90002db0; 0x2492001; 0x2400436c;
   0x80124100; 0x490092db; 0x2525b240; 0x2400496; 0x48012480; 0x4000024; 0x90000000; 0x132000;
   0x10000db; 0x3ff007; 0xfe016da0; 0x32480201; 0x924009; 0x24010080; 0x9200090; 0x4;
   0x9002cb00; 0x492016db; 0x16d8004; 0x800b6c80; 0x36000240; 0x21b6421b; 0x44012012; 0xdb252db2;
   0x90092c; 0x90124802; 0x1040; 0x141f01; 0x2480012; 0x40000000; 0x24900924; 0x2;
   0x49009240; 0x200024; 0x90016400; 0x2000248; 0xb2c009; 0x2c016db0; 0xb6c0012; 0xc012d900;
   0xb6c80124; 0x12d8243; 0x6c001240; 0x96db24b6; 0xc9012401; 0x24920924; 0x100002; 0x8000000;
   0x161f01; 0x480000; 0x90000000; 0x924001; 0x24000000; 0x249000; 0x49000020; 0x12000;
   0x2400008; 0x24900; 0x4920012; 0x4801b6c0; 0x1248004; 0x90002db0; 0x2492001; 0x2400436c;
   0x80124100; 0x490092db; 0x2525b240; 0x12400496; 0x48012480; 0x4000024; 0x90000000; 0x161f01;
   0x920001; 0x20000000; 0x1248002; 0x49000000; 0x492000; 0x92400000; 0x24800; 0x4800000;
   0x9200; 0xb2c0024; 0x90016db0; 0x2db0009; 0x20005b64; 0x360000; 0x480086d9; 0x10da200;
   0x120025b6; 0x4a4b6c90; 0x480092c; 0x90024900; 0x9000008; 0x20000000; 0x142000; 0x20002d;
   0x80036c00; 0xfee006db; 0xb6d009; 0x25016db0; 0x9250092; 0x5006db00; 0x3640032c; 0x2d800b;
   0x2c0092c0; 0x16db00b6; 0xc0092401; 0x2d900b6c; 0x80924832; 0xd96436c0; 0x4124096d; 0xb24b6c94;
   0x924816db; 0x60924801; 0x24002480; 0x161f01; 0x580005; 0xb0001fe0; 0xb6c003; 0x6d000490;
   0x2db000; 0x49000124; 0x36000; 0x2400008; 0x25900; 0x4920012; 0x4801b6c0; 0x9248004;
   0x92006db0; 0x2492009; 0x2480436c; 0x80124100; 0x4904b2db; 0x2d25b240; 0x924905b6; 0xd8092480;
   0x4900024; 0x90000000; 0x162000; 0x400006; 0xd8002db0; 0xffc005; 0xb6801b2c; 0x249001;
   0x6d800249; 0x92400; 0xb600016; 0x0; 0x2c8002c; 0xb0009240; 0x5b6c00b; 0x6c002490;
   0x16d9000; 0xd8004120; 0x825b6404; 0x36880048; 0x196d929; 0x2db24492; 0x482db6c0; 0x9240024;
   0x90002480; 0x142000; 0x20002d; 0x80036c00; 0xfff006db; 0xb6d00f; 0x27016db0; 0xb6d00d6;
   0x7006db00; 0x36c0032c; 0x2d800b; 0x6c0092c0; 0x16db00b6; 0xd8092401; 0x2d901b6c; 0x80924832;
   0xd96436c8; 0x41241b6d; 0xb6db6db4; 0x924936db; 0x60b6d80b; 0x24002480; 0x161f01; 0x580005;
   0xb0001fe0; 0xb6c003; 0x6d000490; 0x2db000; 0x5b000124; 0x36800; 0x6c00008; 0x25900;
   0x5b20012; 0x4801b6c0; 0x9248024; 0x92006db4; 0x2492009; 0x2480436d; 0x81924310; 0x4904b2db;
   0x2d6db6c4; 0x924905b6; 0xd80b6d80; 0xc920024; 0x90000000; 0x162000; 0x400006; 0xd8002db0;
   0xffc005; 0xb6801b6c; 0x249001; 0x6d8002db; 0x92400; 0x1b600016; 0x4800; 0x2c8002d;
   0xb0009240; 0x5b6c01b; 0x6c002490; 0x16db012; 0xd9604120; 0x82db6404; 0x36880048; 0x196d96b;
   0x6db6c492; 0x482db6c0; 0x1b6c0024; 0x90002480; 0x142000; 0x120003f; 0x800ffe00; 0xfff017ff;
   0xfef00f; 0xef01edb0; 0xf6f00ff; 0xf006db00; 0xf6e003fc; 0x2d800b; 0x6c009640; 0x16db00b6;
   0xd8092581; 0x2d901b6d; 0x81924832; 0xd96436ca; 0x41243b6d; 0xb6db6db5; 0xf2fb36db; 0x60b6d80f;
   0xec002480; 0x161f01; 0x580007; 0xf0001fe0; 0xffc003; 0xff000ffc; 0x2db000; 0x5b00017c;
   0x36800; 0x16c0001e; 0x25900; 0x5b20012; 0x4801b6c0; 0xb258034; 0x92006db4; 0x2492019;
   0x24a0436d; 0x81924310; 0x4904b2db; 0x6d6db6d5; 0xf25b05b6; 0xd80b6d80; 0xfb60024; 0x90000000;
   0x162000; 0x480007; 0xf8003ff0; 0xffc007; 0xf7801f6c; 0x7db001; 0x6d8002db; 0xfec00;
   0x1b600036; 0x7800; 0x2c8002d; 0xb0009240; 0x5b6c01b; 0x6c006498; 0x36db016; 0xd9604121;
   0x82db640c; 0x36883048; 0x21b6d96b; 0x6db6cdb2; 0xf82db6c0; 0x1b6c803d; 0xb0002480; 0x141f01;
   0x2480012; 0x40012400; 0x24900924; 0x900002; 0x49009240; 0x8200024; 0x90016400; 0x10400248;
   0xb2c009; 0x2c016db0; 0xb6c0012; 0x4012d900; 0xb6c80124; 0x12d8243; 0x6c001240; 0x96db24b6;
   0xc9012401; 0x24920924; 0x2; 0x8000000; 0x161f01; 0x480000; 0x90001240; 0x924001;
   0x24000400; 0x249000; 0x49000020; 0x12000; 0x2400000; 0x24900; 0x4920012; 0x4801b6c0;
   0x1248004; 0x90002db0; 0x2492001; 0x2400436c; 0x80124100; 0x490092db; 0x2525b240; 0x12400496;
   0x48012480; 0x4000024; 0x90000000; 0x161f00; 0x200000; 0x90002490; 0x490001; 0x24000924;
   0x124000; 0x1000249; 0x49000; 0x2000016; 0x2000; 0x2c; 0xb000db60; 0x124800b;
   0x6c0016c8; 0x490012; 0xdb2025b2; 0x124004; 0xb6c8016c; 0x10049009; 0x2db2425b; 0x24002000;
   0x9240012; 0x40000000; 0x1c1e02; 0xc0000; 0x1601200; 0x16012002; 0xd0240036; 0x1200360;
   0x12006d80; 0xc00b6c00; 0xb6c000; 0x16da0401; 0xb6c0001b; 0x6c001b6d; 0xb646c924; 0xb0700003;
   0xd96596c; 0x24b2cb00; 0x9; 0x2c904049; 0x24800016; 0x92c9; 0x4049248; 0x480480;
   0x1b64b642; 0xdb2d922d; 0xb2d805b6; 0x5b656db6; 0xdb224924; 0x92000000; 0x1c1f01; 0x40000;
   0x800000; 0xc004000; 0x4000001b; 0x19002d8; 0x4002480; 0x4005b008; 0x6d8040; 0x2480400;
   0xdb608016; 0xdb040124; 0x90416db6; 0xc8592496; 0x47860834; 0xb2c96585; 0x92c96400; 0x4004024;
   0x92080124; 0x80400000; 0x4024920; 0x80124904; 0x8001203; 0x6492c95b; 0x24964490; 0x120b6c9;
   0x6db5b65b; 0x64492492; 0x0; 0x1c1e01; 0x80000; 0x1600000; 0x8008000; 0x80080036;
   0x12005b0; 0x9004900; 0x800b6c16; 0x5b0080; 0x4900801; 0xb6c0000d; 0xb6080249; 0x2082db6d;
   0xb0324925; 0x8b041078; 0x6cb2cb03; 0x2492d800; 0x8009; 0x64000049; 0x20800090; 0x8009240;
   0x49008; 0x12402402; 0xd92d9236; 0xc96c8124; 0x12406db2; 0xdb236db6; 0xdb000000; 0x1c1e02].
Definition emoji_data_156 : list N :=
  [0xc0000; 0x1601200; 0x16012002; 0xd0240036; 0x1200360; 0x12006d80; 0xc00b6c00; 0xb6c000;
   0x16da0401; 0xb6c0001b; 0x6c001b6d; 0xb646c924; 0xb0700003; 0xd96596c; 0x24b2cb00; 0x1000009;
   0x2c904049; 0x24800016; 0x92c9; 0x4049248; 0x492480; 0x1b65b642; 0xdb2d922d; 0xb2d925b6;
   0x5b656db6; 0xdb224924; 0x92000000; 0x1c1f01; 0x40000; 0x800000; 0xc004000; 0x4000001b;
   0x19002d8; 0x4002480; 0x4005b008; 0x6d8040; 0x2480400; 0xdb608016; 0xdb040124; 0x90416db6;
   0xc8592496; 0x47860834; 0xb2c96585; 0x92c96400; 0x4004024; 0x92080124; 0x80400200; 0x4024920;
   0x80124904; 0x8001203; 0x6492c95b; 0x24964490; 0x120b6c9; 0x6db5b65b; 0x64492492; 0x0;
   0x1c1e01; 0x80000; 0x1600000; 0x8008000; 0x80080036; 0x12005b0; 0x9004900; 0x800b6c16;
   0x5b0080; 0x4900801; 0xb6c0000d; 0xb6080249; 0x2082db6d; 0xb0324925; 0x8b041078; 0x6cb2cb01;
   0x2492c800; 0x8008009; 0x64000049; 0x20800490; 0x8009640; 0x49008; 0x12492402; 0xd92db236;
   0xc96c8124; 0x12406db2; 0xdb236db6; 0xdb000000; 0x1c1e02; 0xc0000; 0x1601200; 0x16012002;
   0xd0240036; 0x1200360; 0x12006d80; 0xc00b6c00; 0xb6c000; 0x16da0401; 0xb6c0001b; 0x6c001b6d;
   0xb646c924; 0xb074924b; 0xdb6db6c; 0x24b2cb00; 0x9240009; 0x6d904049; 0x2480009e; 0x400092d9;
   0x4049248; 0x492492; 0x1b6db6c2; 0xdb2db22d; 0xb2d925b6; 0xdb6d6db6; 0xdb224924; 0x92000000;
   0x1c1f01; 0x40000; 0x800000; 0xc004000; 0x4000001b; 0x19002d8; 0x4002480; 0x4005b008;
   0x6d8040; 0x2480400; 0xdb608016; 0xdb040124; 0x90416db6; 0xc8596496; 0x47964874; 0xb2db6585;
   0x96c96401; 0x24804024; 0x92080124; 0x80400208; 0x4024920; 0x80124904; 0x8001243; 0x6492db5b;
   0x24964490; 0x124b6c9; 0x6db5b65b; 0x64492492; 0x0; 0x1c1e01; 0x80000; 0x1600000;
   0x8008000; 0x80080036; 0x12005b0; 0x9004900; 0x800b6c16; 0x5b0080; 0x4900801; 0xb6c0000d;
   0xb6080249; 0x2082db6d; 0xb0324925; 0x8b249278; 0x6db6cb03; 0x2492d802; 0x4920800b; 0x6c000049;
   0x20800490; 0x800b640; 0x49008; 0x12492482; 0xdb6db636; 0xc96c9124; 0x92486db6; 0xdb636db6;
   0xdb000000; 0x1c1e02; 0xc0000; 0x1601200; 0x16012002; 0xd0240036; 0x1200360; 0x12006d80;
   0xc00b6c00; 0xb6c000; 0x16da0401; 0xb6c0001b; 0x6c001b6d; 0xb646cb64; 0xb074b24b; 0xdb6db6c;
   0x25b6cb00; 0x9240009; 0x6db0404b; 0x6c8000be; 0x400096d9; 0x404b648; 0x492492; 0x1b6db6c2;
   0xdb6db62d; 0xb2d925b6; 0xdb6d6db6; 0xdb224924; 0x92000000; 0x1c1f01; 0x40000; 0x800000;
   0xc004000; 0x4000001b; 0x19002d8; 0x4002480; 0x4005b008; 0x6d8040; 0x2480400; 0xdb608016;
   0xdb040124; 0x90416db6; 0xc8596d96; 0x47965874; 0xb2db6585; 0x96db6401; 0x24804024; 0x9208012c;
   0x80400208; 0x4024920; 0x80124904; 0x8001243; 0x6492db5b; 0x2496c490; 0x124b6c9; 0x6db5b65b;
   0x64492492; 0x0; 0x1c1e01; 0x80000; 0x1600000; 0x8008000; 0x80080036; 0x12005b0;
   0x9004900; 0x800b6c16; 0x5b0080; 0x4900801; 0xb6c0000d; 0xb6080249; 0x2082db6d; 0xb032db65;
   0x8b249278; 0x6db6cb03; 0x2db6d802; 0x4920801b; 0x6c0000db; 0x608005b0; 0x800b6c0; 0x5b008;
   0x12492482; 0xdb6db636; 0xdb6db124; 0x92496db6; 0xdb636db6; 0xdb000000; 0x1c1e02; 0xc0000;
   0x1601200; 0x16012002; 0xd0240036; 0x1200360; 0x12006d80; 0xc00b6c00; 0xb6c000; 0x16da0401;
   0xb6c0001b; 0x6c001b6d; 0xb646cb6c; 0xb074f7cb; 0xdb6db6c; 0x25f7db00; 0x1ffc0009; 0x6db0404b;
   0x6c8000ff; 0xc00096d9; 0x404b6c8; 0x404bfc96; 0x1b6db6d2; 0xdb6db62d; 0xb6dbe5b6; 0xdb6d6db6;
   0xdb224924; 0x92000000; 0x1c1f01; 0x40000; 0x800000; 0xc004000; 0x4000001b; 0x19002d8;
   0x4002480; 0x4005b008; 0x6d8040; 0x2480400; 0xdb608016; 0xdb040124; 0x90416db6; 0xc8596d96;
   0x479edf74; 0xb2dbe585; 0x96db6401; 0x24b04024; 0x9208012d; 0x80400248; 0x4024920; 0x80124904;
   0x80012c3; 0x6492db5b; 0x2496c490; 0x12cb6c9; 0x6db5b65b; 0x64492492; 0x0; 0x1c1e01;
   0x80000; 0x1600000; 0x8008000; 0x80080036; 0x12005b0; 0x9004900; 0x800b6c16; 0x5b0080;
   0x4900801; 0xb6c0000d; 0xb6080249; 0x2082db6d; 0xb032db65; 0x8b2fbe78; 0x6db7db03; 0x2fb6d802;
   0xdf60801b; 0x6c0000db; 0x60800ffc; 0x800b6c0; 0x5b008; 0x125f25e2; 0xdb6db636; 0xdb6db125;
   0xb25f6db6; 0xdb636db6; 0xdb000000; 0x1c1f01; 0x80000; 0x800000; 0x16012001; 0xb009001b;
   0x900360; 0x12005b00; 0x8005b008; 0xb6c060; 0xdb60800; 0xdb60801b; 0x6c0002db; 0x60816492;
   0xc86c925b; 0xb249278; 0xf0610782; 0xcb2cb002; 0x49248000; 0x80080492; 0x480025b2; 0x8000800;
   0x80492480; 0x16c96c81; 0x6c16c02d; 0xb2db236c; 0x96c936c9; 0x6c96db6d; 0xb6124924; 0x90000000;
   0x1a2000; 0x80000; 0x0; 0x60; 0x2002c02; 0x40090090; 0x5b05801; 0xb0090024;
   0x36c0; 0x6016d800; 0x4920002; 0xdb6082db; 0x64009249; 0x2cb24b6; 0xf9a59638; 0x60618b2d;
   0x92d82492; 0x40000000; 0x964820; 0x12480000; 0x1249; 0x2086492c; 0x94800102; 0xd925b25b;
   0x24b65240; 0x249b6cb6; 0xd9249249; 0x1c2000; 0x80000; 0x400000; 0x4000001; 0xa008002c;
   0x400240; 0x5b01; 0xb002d804; 0x248040; 0xdb40801; 0x6d804012; 0x480402db; 0x608016db;
   0x4092492; 0x4b6492d8; 0x59259647; 0x82187436; 0x492d8092; 0x49040004; 0x400492; 0x8002480;
   0x40024004; 0x2492080; 0x92492409; 0x2092036c; 0x96c95b65; 0xb6449249; 0x2436db6d; 0xb4924924;
   0x1d1d03; 0x5b2000; 0x3ff8000; 0x7ffc0005; 0xb6d8003f; 0xffc001ff; 0xff001b6d; 0xb0007f97;
   0xc007e41e; 0x4b64964; 0x92492492; 0x10610009; 0x25965924; 0x9249243c; 0x101912c9; 0x25b24f2d;
   0x9e407c24; 0xf025b24b; 0x649fc97c; 0x80b00160; 0x9249240; 0x24924800; 0x12; 0x49248049;
   0x24900049; 0x240025b6; 0xd9001249; 0x0; 0x1d1e02; 0x58000; 0x2db0000; 0x1ffc0003;
   0xfffc002d; 0xb6c000ff; 0xff0007ff; 0xf8005b6d; 0xa003ff9e; 0x1fe0f0; 0x24b64944; 0x92496490;
   0x13030049; 0x2cb24924; 0x92492100; 0x90089249; 0x24924924; 0x92404120; 0x8024924b; 0x20924924;
   0x900900; 0x4b64b641; 0x6c96c801; 0x24920016; 0xcb6c025b; 0x2d900249; 0x24002db6; 0xc8009249;
   0x0; 0x1e1e02; 0x90000; 0xdb0000; 0x7ffc000; 0x3fff0001; 0xb6db000f; 0xfffc003f;
   0xfbf0016d; 0x96c003d9; 0x27800c00; 0x1e025924; 0xb2649659; 0x64021821; 0x96492c; 0x99249249;
   0x4804100; 0x2d924964; 0x49249240; 0x20900809; 0x24924812; 0x49249009; 0x90025b; 0x25b200b2;
   0x4b200248; 0x240016c9; 0x6c002d96; 0xc8001249; 0x5b6db; 0x12490; 0x0; 0x1d1d03].
Definition emoji_data_157 : list N :=
  [0x90000; 0x1240000; 0x4; 0x92480012; 0x49000000; 0x924; 0x90002492; 0x40000000;
   0x4924924; 0x92492492; 0x610009; 0x25964924; 0x92492400; 0x10011249; 0x2492492d; 0x92404024;
   0x249249; 0x24924924; 0x80004000; 0x9249240; 0x24924800; 0x12; 0x49248049; 0x24900049;
   0x240025b6; 0xd9001249; 0x0; 0x1d1d03; 0x492000; 0x1248000; 0x0; 0x92480012;
   0x49200000; 0x924; 0x90002492; 0x40000000; 0x4924920; 0x92492c92; 0x606009; 0x25964924;
   0x92492420; 0x12011249; 0x64924924; 0x92480824; 0x100492c9; 0x64124924; 0x80124920; 0x96c96c8;
   0x2d92d900; 0x24924002; 0xd96d804b; 0x6db20049; 0x248005b6; 0xd9001249; 0x20000000; 0x1e1d03;
   0x124000; 0x1248000; 0x0; 0x24920000; 0x49240000; 0x9; 0x24900092; 0x49000000;
   0x9249; 0x24992596; 0x49000608; 0x249249; 0x26492492; 0x41001000; 0xb249259; 0x12492490;
   0x8248202; 0x49249204; 0x92492402; 0x41240096; 0xc96c802d; 0x92c80092; 0x90005b2; 0x5b000b65;
   0xb2000492; 0x40016db6; 0xc0004924; 0x0; 0x1d1d03; 0x1b2000; 0x36d8000; 0x7ffc0005;
   0xb6d80036; 0xdb4001ff; 0xff001b6d; 0xb0006db6; 0xc007e49e; 0x4b6db64; 0x92492492; 0x12692409;
   0x6db6d924; 0x9249243c; 0x925912db; 0x6db24b2d; 0x9640792c; 0xf025b6db; 0x6496c96c; 0x80b24960;
   0x96db640; 0x24924801; 0x24924016; 0xdb6d8049; 0x24900249; 0x24802db6; 0xdb009249; 0x20000000;
   0x1d1e02; 0x48000; 0x2db0000; 0x1b6c0003; 0xfffc002d; 0xb6c000b6; 0xdb0007fe; 0xf8005b6d;
   0xa0036d96; 0xfe4f0; 0x24b6db04; 0x92496490; 0x134b2049; 0x6db64924; 0x92492124; 0x9248925b;
   0x6c924924; 0x92404924; 0x802496cb; 0x20924924; 0x924900; 0x4b6db641; 0x6d96c809; 0x24924036;
   0xdb6c025b; 0x6d901249; 0x24816db6; 0xd8049249; 0x20000000; 0x1e1e02; 0x90000; 0xdb0000;
   0x5b6c000; 0x3fff0001; 0xb6db000b; 0x6db4003f; 0xf3f0016d; 0xb6c002d9; 0x25800d24; 0x9c025b6d;
   0xb2649659; 0x64025925; 0x96db6c; 0x99249249; 0x4924900; 0x2cb6d964; 0x49249240; 0x24920809;
   0x25b24812; 0x49249009; 0x2490025b; 0x6db200b6; 0x4b600249; 0x248016db; 0x6c002d96; 0xc8009249;
   0x200db6db; 0x60092492; 0x0; 0x1d1d03; 0x1b2000; 0x36d8000; 0x7ffc0005; 0xb6d80036;
   0xdb4001ff; 0xff001b6d; 0xb0006db6; 0xc007ecbe; 0x4b6db64; 0x92db6d92; 0x1269a409; 0x6db6d925;
   0xb6db243c; 0x925912db; 0x6db24b6d; 0xb6407f7c; 0xf025b6db; 0x6496db6c; 0x80b24960; 0xb6db640;
   0x2db6d801; 0x24924016; 0xdb6d80c9; 0x6c940249; 0x24802db6; 0xdb009249; 0x20000000; 0x1d1e02;
   0x48000; 0x2db0000; 0x1b6c0003; 0xfffc002d; 0xb6c000b6; 0xdb0007ff; 0xf8005b6d; 0xa0036db6;
   0xfe4f0; 0x24b6db44; 0x92db6c90; 0x13cb2049; 0x6db64925; 0xb6d92124; 0xb24892db; 0x6c924b6d;
   0x92404b64; 0x8024b6cb; 0x2092d924; 0x924900; 0x4b6db601; 0x6db6c809; 0x249240b6; 0xdb6c02db;
   0x6db01249; 0x24816db6; 0xd8049249; 0x20000000; 0x1e1e02; 0x90000; 0xdb0000; 0x5b6c000;
   0x3fff0001; 0xb6db000b; 0x6db4003f; 0xfff0016d; 0xb6c002db; 0x6d800f24; 0x9c025b6d; 0xb264b6db;
   0x64035967; 0x96db6c; 0x992db6c9; 0x492c900; 0x2cb6d964; 0x496db240; 0x24b60809; 0x25b24812;
   0x4b649009; 0x2490025b; 0x6db200b6; 0xdb600249; 0x248036db; 0x6d806db6; 0xd8009249; 0x200db6db;
   0x60092492; 0x0; 0x1d1d03; 0x5b6000; 0x3ff8000; 0x7ffc0007; 0xfff8003f; 0xffe001ff;
   0xff001fff; 0xf000fff7; 0xc00fffbe; 0x4bedb6c; 0x92db6d92; 0x1efbec09; 0x6db6d927; 0xb6db243d;
   0xbef912fb; 0x6df24fed; 0xbe407ffd; 0xf025f6df; 0xe49fdb7c; 0x80b2f9e0; 0xb6db640; 0x2db6d801;
   0x6fb7c016; 0xdb6d80d9; 0x6cb40649; 0x24a02db6; 0xdb009249; 0x20000000; 0x1d1e02; 0x2d8000;
   0x3fc0000; 0x3ffa0003; 0xfff8003f; 0xffe003ff; 0xfe000fff; 0xf800ffff; 0xc007ff7c; 0x101fedf0;
   0x40ff6f81; 0x2db6d924; 0xb7df24a0; 0xbefc22cb; 0x6db2492d; 0xf64909ef; 0xb04496db; 0x6c925bec;
   0x90107f04; 0x925b649; 0x2496c920; 0x24be4802; 0xdb6db01b; 0x6db680c9; 0x249c05b6; 0xdb6036db;
   0x6d01b249; 0x68092492; 0x40000000; 0x1d1e02; 0x48000; 0x1fe0000; 0x3fff0003; 0xfffc001f;
   0xffe001ff; 0xff800ffe; 0xfc007ff7; 0xe087db6f; 0x821f6db8; 0x40ff7dc1; 0x2fb6db24; 0xb7df6481;
   0xbefb024b; 0x6db6c92d; 0xb6c909ed; 0xbe44b6db; 0x64924bec; 0x92025fe4; 0x125b649; 0x496d920;
   0x4b64802; 0xdb6db00b; 0x6db6c079; 0x3c9605b6; 0xdb6016db; 0x6d80b249; 0x2c092492; 0x40000000;
   0x1e1d03; 0x10000; 0x492000; 0x4924000; 0x12490000; 0x92480009; 0x24900024; 0x92400024;
   0x92418249; 0x24000900; 0x10024924; 0x92649659; 0x24100860; 0x90924924; 0x99249249; 0x4804120;
   0x2496c924; 0x492c9240; 0x24024809; 0x6492c812; 0x49249000; 0x49; 0x24920092; 0x49200001;
   0x200016c9; 0x6c002492; 0x48001249; 0x49249; 0x0; 0x1d1e02; 0x40000; 0x1240000;
   0x12480002; 0x49200012; 0x49000124; 0x92000492; 0x48002492; 0x40024924; 0x10092490; 0x40480001;
   0x2492c924; 0x924d24a0; 0x106022c9; 0x24924924; 0x92490804; 0x449249; 0x2c924b64; 0x90100804;
   0x9249249; 0x24924920; 0x24824802; 0xdb2d900b; 0x64b60009; 0x249004b6; 0xdb2016db; 0x6c001249;
   0x92492; 0x40000000; 0x1d1e02; 0x40000; 0x240000; 0x12490002; 0x49200012; 0x49200124;
   0x92000492; 0x48002482; 0x40824924; 0x82092490; 0x40480c81; 0x24b2c924; 0x924b2480; 0x80010249;
   0x2492c924; 0x92490900; 0x244b25b; 0x24924964; 0x92020904; 0x1249249; 0x4924920; 0x4804802;
   0x5b25b009; 0x64b64009; 0x249000b6; 0x5b2012db; 0x6c801249; 0x20012492; 0x40000000; 0x1c1e02;
   0x20000; 0x1fc0001; 0x6db0001f; 0xff8001ff; 0xf80036db; 0x6007fffe; 0x7ff7f0; 0xb6cb600;
   0xf924f000; 0x90592; 0x492c7cb2; 0xc9e7c104; 0x1edb2496; 0xd7c924be; 0x3e120fe5; 0xb2d96c2f;
   0x965f00f9; 0x21f00b64; 0xb6007f27; 0xf007c07c; 0xb64b60; 0xfb25f03; 0xff07f85b; 0x6db6c3ff;
   0x2ffc3fff; 0xffc1b6db; 0x6c000000; 0x1a1d03; 0x5f0000; 0x6db0003f; 0xfe000fff; 0xc005b6d8;
   0x1f7de00; 0x70c38016; 0x59600649; 0x2c059043; 0x2cb2db2; 0xc92496f0; 0x40019925; 0x92db2492;
   0x58f8003e; 0x2cb25b05; 0x924b0060; 0x93c01649; 0x6002c960; 0xf01c02; 0xdb2db0f9; 0x6cfc3f09;
   0x3f9b6496; 0xc3e5b3f9; 0xfffffe6d; 0xb6db0000; 0x1c1c04; 0x160000; 0x7f60000; 0xfff0001b;
   0x6d8003ff; 0xfc003ff7; 0xc005b65a; 0x7d92c0; 0x2400c02; 0xcb2c96b2; 0x5965bf80; 0x1f6c92;
   0x4b636492; 0x5a3e0007; 0xc2d96cb6; 0x16cb2d81; 0xfc93f80d; 0xb25b006c; 0x96c003c0; 0x3c00db25;
   0xb01fc96f; 0x81fc07f8; 0x2db2db63; 0xff97f83f; 0xf9ffc2db; 0x6db40000; 0x1c1e02; 0x20000].
Definition emoji_data_158 : list N :=
  [0x1fc0001; 0x6db0001f; 0xff8001ff; 0xf80036db; 0x6007fffe; 0x7ff7f0; 0xb6cb600; 0xf924f004;
   0x80090592; 0x492c7cb2; 0xc9e7c104; 0x1edb2496; 0xd7c964be; 0x3e124fe5; 0xb2d96c2f; 0x965f00f9;
   0x25f00b6c; 0xb6007f27; 0xf007c07c; 0xb64b60; 0xfb25f03; 0xff07f85b; 0x6db6c3ff; 0x2ffc3fff;
   0xffc1b6db; 0x6c000000; 0x1a1d03; 0x5f0000; 0x6db0003f; 0xfe000fff; 0xc005b6d8; 0x1f7de00;
   0x74c38016; 0x59600649; 0x2c05904b; 0x2cb2db2; 0xc92496f0; 0x49059925; 0x92db2492; 0x58f8003e;
   0x2cb25b05; 0x924b0064; 0x93c01649; 0x6002c960; 0xf21c02; 0xdb2db0f9; 0x6cfc3f09; 0x3f9b6496;
   0xc3e5b3f9; 0xfffffe6d; 0xb6db0000; 0x1c1c04; 0x160000; 0x7f60000; 0xfff0001b; 0x6d8003ff;
   0xfc003ff7; 0xc005b65a; 0x7d92c0; 0x2400c02; 0xcb2c96b2; 0x5965bf80; 0x1f6c92; 0x4b636492;
   0x5a3e0907; 0xc2db6cb6; 0x16cb2d81; 0xfc93f80d; 0xb25b006c; 0x96c003c0; 0x3c00db25; 0xb01fc96f;
   0x81fc07f8; 0x2db2db63; 0xff97f83f; 0xf9ffc2db; 0x6db40000; 0x1c1e02; 0x20000; 0x1fc0001;
   0x6db0001f; 0xff8001ff; 0xf80036db; 0x6007fffe; 0x7ff7f0; 0xb6db600; 0xf925f004; 0x924905b6;
   0xdb6c7cb2; 0xc9e7c924; 0x9edb6db6; 0xd7e964be; 0x3f924fe5; 0xb6db6c2f; 0x965f00f9; 0x25f00b6d;
   0xb6007f27; 0xf007f27c; 0xb6db60; 0xfb25f03; 0xff2ff85b; 0x6db6c3ff; 0x2ffc3fff; 0xffc1b6db;
   0x6c000000; 0x1a1d03; 0x5f0000; 0x6db0003f; 0xfe000fff; 0xc005b6d8; 0x1f7de00; 0x74d38016;
   0xdb600649; 0x3c05924f; 0x2cb6db2; 0xc92496f2; 0x49259b6d; 0xb6db2492; 0x58f924be; 0x2db6db05;
   0x924b0064; 0x93c016db; 0x6002c960; 0xf25c02; 0xdb6db0f9; 0x6cfc3f09; 0x3f9b6496; 0xc3e5b3f9;
   0xfffffe6d; 0xb6db0000; 0x1c1c04; 0x160000; 0x7f60000; 0xfff0001b; 0x6d8003ff; 0xfc003ff7;
   0xc005b6da; 0x7d92c0; 0x2492c02; 0xdb6db6b2; 0x5965bfa4; 0x925f6db6; 0xdb636492; 0xda3e492f;
   0xc2db6db6; 0x16cb2d81; 0xfc93f80d; 0xb6db006c; 0x96c003c9; 0x7c00db6d; 0xb01fc96f; 0x81fe97f8;
   0x2db6db63; 0xff97f83f; 0xf9ffc2db; 0x6db40000; 0x1c1e02; 0x20000; 0x1fc0001; 0x6db0001f;
   0xff8001ff; 0xf80036db; 0x6007fffe; 0x7ffff0; 0xb6db600; 0xfb6df00d; 0x924905b6; 0xdb6c7db6;
   0xdbe7cb2c; 0xbedb6db6; 0xd7fb6dbe; 0x3f924fe5; 0xb6db6c2f; 0xb65f00fd; 0x65f00b6d; 0xb6007f6f;
   0xf007f27c; 0xb6db60; 0xfb6df03; 0xff2ff85b; 0x6db6c3ff; 0x6ffc3fff; 0xffc1b6db; 0x6c000000;
   0x1a1d03; 0x5f0000; 0x6db0003f; 0xfe000fff; 0xc005b6d8; 0x1f7de00; 0x7df78016; 0xdb6006db;
   0x7c05924f; 0x2db6db2; 0xdb6db6f2; 0x49279b6d; 0xb6db6db6; 0xd8f924be; 0x2db6db05; 0xb25b0074;
   0x93c016db; 0x6002db60; 0xf25c02; 0xdb6db0f9; 0x6cfc3f09; 0x3f9b6496; 0xc3e5b3f9; 0xfffffe6d;
   0xb6db0000; 0x1c1c04; 0x40000; 0x5b60001; 0x7ff0001f; 0xff8002db; 0x6c003ffb; 0xe003ffbe;
   0x6db6c0; 0xb6db601; 0x92492cb6; 0xdb6dbdb6; 0xdb6d7f24; 0x97eb6db6; 0xdb5b6db6; 0xc1f249fc;
   0x16db6d81; 0xb64b680f; 0xe4be006d; 0xb6c0036d; 0xb600fe4b; 0xe016db6d; 0x81fedbfc; 0x3fe4ffc3;
   0x6db6d81f; 0xfdffc092; 0x49240000; 0x1c1e02; 0x120000; 0x5f60000; 0x7fe0001b; 0x6d8003ff;
   0xfc003fff; 0xc005b6db; 0x7ff7e0; 0x7ff7e00; 0xdb6db016; 0xdb6d81ef; 0xbef86db6; 0xdb6bedb6;
   0xdbffff6f; 0xf6db6db6; 0x3edb6f83; 0xfffff82d; 0xb6db01fd; 0xb7f80fff; 0xff005b6d; 0xb006db6c;
   0x7fb7e0; 0x2db6db03; 0xfdb7f83f; 0xfbffc2db; 0x6db63ffb; 0xff812492; 0x48000000; 0x1a1d03;
   0x6d8000; 0x7ff0002d; 0xb6000fff; 0xc003fff0; 0x1b6da00; 0x36db000d; 0xb6c006db; 0x6c03db6f;
   0x81fedff2; 0xdb6db6db; 0x6db6dedf; 0xedfb6db6; 0xd96db6d8; 0x1f7fbe05; 0xb6db00b6; 0xdb000fb7;
   0xc002db60; 0xdb6c00; 0xffffe0db; 0x6db67f24; 0xbf9fc80f; 0xeb65b2d9; 0xfdfefe49; 0x24920000;
   0x1c1c04; 0x40000; 0x5b60001; 0x7ff0001f; 0xff8002db; 0x6c003fff; 0xe003fffe; 0x6db6c0;
   0xb6db601; 0xb7dffcb6; 0xdb6dbdb6; 0xdb6d7f7d; 0xbfeb6db6; 0xdb5b6db6; 0xc1fffffc; 0x16db6d81;
   0xb64b680f; 0xfffe006d; 0xb6c0036d; 0xb600fedf; 0xe016db6d; 0x81fedbfc; 0x3ffdffc3; 0x6db6d81f;
   0xfdffc092; 0x49240000; 0x1c1e02; 0x120000; 0x5f60000; 0x7fe0001b; 0x6d8003ff; 0xfc003fff;
   0xc005b6db; 0x7ff7e0; 0x7f93e00; 0xd925b012; 0x49248100; 0x186cb2; 0xc96ba492; 0x5bfe0007;
   0xf6c964b6; 0x3e492783; 0xf090f82d; 0x965b01fc; 0x93f80fc9; 0x3f005b25; 0xb006c96c; 0x7c03e0;
   0x2db25b03; 0xfd97f83f; 0xf9ffc2db; 0x2db63ffb; 0xff812492; 0x48000000; 0x1a1d03; 0x6d8000;
   0x7ff0002d; 0xb6000fff; 0xc003fff0; 0x1b6da00; 0x32cb000c; 0x10400649; 0x2c03c927; 0x80c609b2;
   0xcb2596f9; 0x2493de01; 0xfb2492; 0x59649258; 0x1c249e05; 0x924b00b2; 0xcb000c92; 0xc002c960;
   0xc92c00; 0xfe0fe0db; 0x6db67f24; 0xbf9fc80f; 0xeb65b2d9; 0xfdfefe49; 0x24920000; 0x1c1c04;
   0x40000; 0x5b60001; 0x7ff0001f; 0xff8002db; 0x6c003ffb; 0xe003fe3e; 0x6d92c0; 0xb249601;
   0x82080cb2; 0x5965bd92; 0x492d7d00; 0x3eb64b2; 0xdb5b2496; 0xc1f2497c; 0x16cb2d81; 0xb249680f;
   0xe0be006c; 0x96c00364; 0xb600fe03; 0xe016c96d; 0x81fe4bfc; 0x3fe0ffc3; 0x6d96d81f; 0xfdffc092;
   0x49240000; 0x1d2000; 0x1000; 0x49000; 0x5b6000; 0x1240000; 0x9200001; 0xb2c00002;
   0x49000000; 0x48000324; 0x80002492; 0x12490; 0x4064b00; 0x492400; 0x1; 0x25924004;
   0x96c80000; 0xb6001243; 0x6080802d; 0x82000000; 0xb600249; 0x2d805b60; 0x24024906; 0xd82db61b;
   0xb6c048; 0x59200b2; 0x5b6802db; 0x6d800249; 0x24002db6; 0xc00016d8; 0x1000; 0x1d1f01;
   0x4000; 0x5b000; 0x360000; 0x4900000; 0x19200001; 0x24000001; 0x20000016; 0x40000048;
   0x240; 0x2002400; 0x8049000; 0x0; 0x82492002; 0x49248000; 0x820; 0x92082002;
   0x40010000; 0x1960124; 0x6c00db2; 0x16012481; 0x6c16db05; 0xa05b6024; 0x82c9005b; 0x2db6006d;
   0xb6c00124; 0x920006db; 0x60000b6c; 0x900; 0x0; 0x1d2000; 0x800; 0x2c000;
   0x6d8000; 0x1b60000; 0x2c900000; 0xc9400009; 0x24000008; 0x20000092; 0x240; 0x200;
   0x10002400; 0x4004b000; 0x218004; 0x12d90012; 0x5b640000; 0x5b001105; 0xb0410016; 0xc00800b4;
   0xc300b60; 0x92c02d90; 0x92012483; 0x6036d82d; 0x80db6024; 0x2c90258; 0x2db00165; 0xb6800124;
   0x900016db; 0x5b60; 0x800; 0x1d2000; 0x1000; 0x49000; 0x5b6000; 0x1240000;
   0x9200001; 0xb2c00002; 0x49000000; 0x48000324; 0x80002492; 0x12490; 0x4064b00; 0x492400;
   0x2009; 0x25b24004; 0x96c80000; 0xb6001243; 0x6080802d; 0x82020020; 0xb600249; 0x2d805b20;
   0x24024906; 0xd82db61b; 0xb6c048; 0x59200b2; 0x5b6802db; 0x6d800249; 0x24002db6; 0xc00016d8].
Definition emoji_data_159 : list N :=
  [0x1000; 0x1d1f01; 0x4000; 0x5b000; 0x360000; 0x4900000; 0x19200001; 0x24000001;
   0x20000016; 0x40000048; 0x240; 0x2002400; 0x8049200; 0x0; 0x82492002; 0x49248000;
   0x9000820; 0x92482002; 0x41010000; 0x1960124; 0x6c00db2; 0x16012481; 0x6c16db05; 0xa05b6424;
   0x82c9005b; 0x2db6006d; 0xb6c00124; 0x920006db; 0x60000b6c; 0x900; 0x0; 0x1d2000;
   0x800; 0x2c000; 0x6d8000; 0x1b60000; 0x2c900000; 0xc9400009; 0x24000009; 0x20000192;
   0x248; 0x200; 0x10002400; 0x4004b000; 0x258004; 0x12d90012; 0x5b640000; 0x5b001105;
   0xb0410016; 0xc00800b4; 0xc300b60; 0x92c02d90; 0x92012483; 0x6036d82d; 0x80db6024; 0x2c90258;
   0x2db00165; 0xb6800124; 0x900016db; 0x5b60; 0x800; 0x1d2000; 0x1000; 0x49000;
   0x5b6000; 0x1240000; 0x9200001; 0xb6c00002; 0x49000012; 0x4800036d; 0x80002492; 0x12490;
   0xc06db00; 0x492400; 0x8249200b; 0x2db64004; 0x96c80020; 0xb6081243; 0x6080802d; 0x82020024;
   0x1b6006c9; 0x2d805b64; 0x24024906; 0xd82db61b; 0xb6c048; 0x59200b2; 0x5b6802db; 0x6d800249;
   0x24002db6; 0xc00016d8; 0x1000; 0x1d1f01; 0x4000; 0x5b000; 0x360000; 0x4900000;
   0x1b600001; 0x24000001; 0x20000016; 0xc0000048; 0x240; 0x2002c00; 0x8049200; 0x40249000;
   0x86db6002; 0x49248012; 0x9040820; 0xb6582002; 0x41010012; 0x996016c; 0x6c00db2; 0x16012491;
   0x6c16db05; 0xa05b6c24; 0x82c9005b; 0x2db6006d; 0xb6c00124; 0x920006db; 0x60000b6c; 0x900;
   0x0; 0x1d2000; 0x800; 0x2c000; 0x6d8000; 0x1b60000; 0x2c900000; 0xdb400009;
   0x24000009; 0x200001b6; 0x248; 0x1200; 0x10006400; 0x4004b000; 0x1258004; 0x16db0012;
   0x5b640010; 0x5b201105; 0xb0410016; 0xc00800b4; 0xc300b60; 0x92c02d90; 0x92012483; 0x6036d82d;
   0x80db6024; 0x2c90258; 0x2db00165; 0xb6800124; 0x900016db; 0x5b60; 0x800; 0x1c2000;
   0x2000; 0x92000; 0x920000; 0x36d80004; 0x92000049; 0x20000b6d; 0x80005b60; 0x4b201;
   0xb6d808; 0x5b64080; 0x4920160b; 0x6d80105b; 0x6c010496; 0x402db6db; 0x161b640; 0x20b6006;
   0x416c3080; 0xb41c800; 0x900b6016; 0xdb5b01b6; 0xc4900964; 0x36036d80; 0xb01b6c01; 0x92402d;
   0xb6d8016d; 0xb6000249; 0x60001b6c; 0x4800; 0x1c1f01; 0x2000; 0x24000; 0x2da0000;
   0x16c00001; 0x2400002d; 0xb000016c; 0x1240; 0xd801; 0x6c010; 0x2000c0; 0x2db0060b;
   0x6d802092; 0x4801b6db; 0x600d96cb; 0x412410; 0x400d8206; 0x16c1820; 0x12416d02; 0xdb236016;
   0xda12012c; 0x82d82db6; 0x16016d80; 0x24124801; 0xb6db000d; 0xb6d80049; 0x2400016d; 0x80000120;
   0x0; 0x1e2000; 0x4800; 0x1b000; 0x16c000; 0xb6c000; 0x16d8000; 0x5960000;
   0x2db00000; 0x5b600001; 0x24000003; 0x6c000006; 0xc0008009; 0x402db; 0x80db6; 0x49648;
   0x2db6d8; 0x586c10; 0x901b040; 0x400db0e0; 0x801b0482; 0x2411b6; 0x36d816c; 0x16db0480;
   0x49242d82; 0xdb605b05; 0xb6800402; 0x48002db6; 0xd8005b6d; 0x80002490; 0x16d90; 0x4800;
   0x1d2000; 0x2000; 0x49000; 0x248000; 0x6db0000; 0x49200002; 0x5900002d; 0xb60000b7;
   0xc00005fe; 0x805b6c; 0x6016d90; 0x10096401; 0x60b6d805; 0x86db600c; 0x36db005b; 0x6db60161;
   0xb6500305; 0xb0c1905b; 0xc100168; 0x2c800b40; 0x5b00b6d9; 0x6c06db09; 0x2012c836; 0x36da058;
   0xdb60040; 0x249005b6; 0xdb0016db; 0x60001249; 0x6db0; 0x9000; 0x1c1f01; 0x2000;
   0x24000; 0x2da0000; 0x16c00001; 0x6c00002d; 0xb000016c; 0x1fc0; 0xd801; 0x6c010;
   0x7000c0; 0x2db0060b; 0x6d8020b6; 0xd801b6db; 0x600d96cb; 0x416c30; 0x400da206; 0x16c3820;
   0x16c16d02; 0xdb236016; 0xda12012c; 0x82d82db6; 0x16016d80; 0x24124801; 0xb6db000d; 0xb6d80049;
   0x2400016d; 0x80000120; 0x0; 0x1e2000; 0x4800; 0x1b000; 0x16c000; 0xb6c000;
   0x16d8000; 0x5be0000; 0x2db00000; 0x5b600001; 0x7d000003; 0x6c000006; 0xc001800f; 0x402db;
   0x80db6; 0xcb6da; 0x2db6d8; 0x586d30; 0x901b040; 0x400db0e0; 0x801b0482; 0x2411b6;
   0x36d816c; 0x16db0480; 0x49242d82; 0xdb605b05; 0xb6c00402; 0x48002db6; 0xd8005b6d; 0x80002490;
   0x16d90; 0x4800; 0x1c2000; 0x2000; 0x92000; 0x920000; 0x36d80004; 0x92000048;
   0x20000b25; 0x80004920; 0x41200; 0xb25800; 0x4b24000; 0x49200009; 0x24800049; 0x20000092;
   0x2496c8; 0x21b640; 0xb6006; 0x16c1080; 0x900c800; 0x900b6016; 0xd95b01b6; 0xc4900964;
   0x36036d80; 0xb01b6c01; 0x92402d; 0xb6d8016d; 0xb6000249; 0x20001b6c; 0x4800; 0x1c1f01;
   0x2000; 0x24000; 0x2da0000; 0x16c00001; 0x24000024; 0x90000124; 0x200; 0x4800;
   0x20000; 0x200040; 0x24900209; 0x24800000; 0x9249; 0x20049241; 0x0; 0x40048206;
   0x241820; 0x2406d02; 0xdb236016; 0xd812012c; 0x82d82db6; 0x16016d80; 0x24124801; 0xb6db000d;
   0xb6d80049; 0x2400016d; 0x80000120; 0x0; 0x1e2000; 0x4800; 0x1b000; 0x16c000;
   0xb6c000; 0x1658000; 0x4920000; 0x24900000; 0x49200001; 0x1; 0x24000002; 0x40000000;
   0x402cb; 0x80592; 0x1640; 0x24b6c8; 0x486d10; 0x801b000; 0x400db060; 0x801b0082;
   0x2401b6; 0x36d816c; 0x16d90480; 0x49202d82; 0xdb605b05; 0xb6800402; 0x48002db6; 0xd8005b6d;
   0x80002490; 0x16d90; 0x4800; 0x181f01; 0x100000; 0x3e00006c; 0xfe00; 0x1ffc003;
   0x6da005b6; 0xe00dfff0; 0xb6db00d; 0xb6f80c00; 0x785924b2; 0x2c92580c; 0x82180965; 0xb00c9258;
   0x1c101819; 0x2cb00c92; 0x781e3678; 0x1b2cb03f; 0x92f83f80; 0xf81b24b0; 0x2d92f82c; 0x82785b65;
   0xb66d92fb; 0x3e9279db; 0x6db62492; 0x49000000; 0x191d03; 0x80000; 0xb640007f; 0xe000db6c;
   0xffff00; 0x7fff805b; 0x25803e49; 0x600c0030; 0xb649602; 0x696c8130; 0x32016492; 0x40492580;
   0x6000402c; 0x92581924; 0xb80e121c; 0x5925b03; 0xe49f01f0; 0xf80b64b; 0x607c96c0; 0xbe4974b6;
   0xdb6c6fb6; 0xdb17c93e; 0x96db6db4; 0x92492000; 0x181d03; 0xb60002; 0xff0007ff; 0xe00db6d8;
   0x1ffff81f; 0xfff82db6; 0xd81ed97c; 0x1ec03c2d; 0x925816c9; 0x2418c130; 0x2c92581e; 0x49201808;
   0x302c9258; 0x1e493c1e; 0x49382cb6; 0x581e497c; 0x1f01fc2d; 0x92d81e49; 0x7c1e417c; 0x6db6dbbe;
   0xdb7c9e49; 0x7c6db6db; 0x92492400; 0x181f01; 0x100000; 0x3e00006c; 0xfe00; 0x1ffc003;
   0x6da005b6; 0xe00dfff0; 0xb6db00d; 0xb6f80c10; 0x785924b2; 0x2c92580c; 0x82180965; 0xb00c9258;
   0x1c101819; 0x2cb00c92; 0x781e3678; 0x1b2cb03f; 0x92f83f92; 0xf81b25b0; 0x2d92f82c; 0x82785b65].
Definition emoji_data_160 : list N :=
  [0xb66d92fb; 0x3e9279db; 0x6db62492; 0x49000000; 0x191d03; 0x80000; 0x3600007f; 0xe000db6c;
   0xffff00; 0x7fff805b; 0x25803e49; 0x600c0030; 0xb649612; 0x796c8130; 0x32016492; 0x40496580;
   0x6090c02c; 0x92581924; 0xb80e121c; 0x5925b03; 0xe49f01f2; 0x4f80b64b; 0x607c96c0; 0xbe4974b6;
   0xdb6c2fb6; 0xdb17c93e; 0x96db6db4; 0x92492000; 0x181d03; 0xb60002; 0xff0007ff; 0xe00db6d8;
   0x1ffff81f; 0xfff82db6; 0xd81ed97c; 0x1ec03c2d; 0x925816c9; 0x2418c130; 0x2c92581e; 0x49201808;
   0x302c9258; 0x1e49381e; 0x49382cb6; 0x581e497c; 0x1f01fc2d; 0x92d81e49; 0x7c1e417c; 0x6db6dbbe;
   0xdb7c9e49; 0x7c6db6db; 0x92492400; 0x181f01; 0x100000; 0x3e00006c; 0xfe00; 0x1ffc003;
   0x6da005b6; 0xe00dfff0; 0xb6db00d; 0xb6f80c92; 0x785b6db2; 0x2c92582c; 0xd3581b6d; 0xb00c9258;
   0x1c92581b; 0x6db00c92; 0x781eb678; 0x1b6db03f; 0x92f83f92; 0xf81b6db0; 0x2d92f82c; 0x92785b6d;
   0xb66db6fb; 0x3e9279db; 0x6db62492; 0x49000000; 0x181c04; 0x16d8001; 0xffc007ff; 0xc00b6db0;
   0xffff00f; 0x92f81b6d; 0xb00c9278; 0x2c927859; 0x6db62d93; 0xd82c9258; 0x1b6db00c; 0x92581c92;
   0x581b6db0; 0x3cb6581e; 0x92781b6d; 0xb03f92f8; 0x3f92f85b; 0x6db62db6; 0xf83c9279; 0xdb6db66d;
   0xb6fb3e92; 0x795b24b2; 0x181d03; 0x2c0002; 0xdb0003ff; 0xe00ffff0; 0x16db681f; 0xfdf01ffc;
   0xf836db6c; 0x1b64b859; 0x24ba36db; 0x6c09e5b2; 0x925b016; 0xdb6c1924; 0xb01924b8; 0x16db6c19;
   0x64b81f24; 0xb816db6c; 0x1f24f81f; 0x24f836db; 0x6c5f25b6; 0x5f24bab6; 0xdb6d5f6d; 0xb65f24fa;
   0x96496c00; 0x181f01; 0x100000; 0x5a00005a; 0xb600; 0x2db0003; 0xdbe00db6; 0xd006db60;
   0x1ffff00d; 0xb6d816db; 0x681e4934; 0x2db6d816; 0xdb6c1ecb; 0x300db6d8; 0x16db681e; 0x59382db6;
   0xd816db6c; 0x1f59f82d; 0xb6d816db; 0x6c1f49fc; 0x2db6d816; 0xdb6c1e49; 0x7c6db6db; 0xb6db6c9e;
   0x497c2c92; 0x59000000; 0x181c04; 0x16d8001; 0xb6c007ff; 0xc00b6db0; 0xdb6d00f; 0x92f81b6d;
   0xb00db6d8; 0x2c92785b; 0x6db62db7; 0xd82c9258; 0x1b6db00d; 0xb6d81c92; 0x581b6db0; 0x2db6d81e;
   0x92781b6d; 0xb02db6d8; 0x3f92f85b; 0x6db62db6; 0xd83c9279; 0xdb6db66d; 0xb6db3e92; 0x795b24b2;
   0x181d03; 0x2c0002; 0xdb0003ff; 0xe00ffff0; 0x16db681f; 0xfdf01ffc; 0xf836db6c; 0x1f6db85d;
   0x24ba36db; 0x6c5bedb6; 0x1de5b016; 0xdb6c1b6d; 0xb01d2cb8; 0x16db6c1b; 0x6db81f6c; 0xb816db6c;
   0x1f6df81f; 0x24f836db; 0x6c5f6db6; 0x5f24bab6; 0xdb6d5f6d; 0xb65f24fa; 0x96496c00; 0x181f01;
   0x360000; 0x7e00007f; 0xfe00; 0x3ffc007; 0xffe00fb6; 0xf00ffff0; 0x1ffff00f; 0xbef81edb;
   0x783edb7c; 0x2db6da3e; 0xdb7c1fff; 0xf82db6d8; 0x1edb781e; 0xff783db6; 0xf81edb7c; 0x1ffffc3f;
   0xb6f81fdb; 0xfc1ffffc; 0x2db6f81e; 0xdb7c1e59; 0x7c6db6fb; 0xbedb7c9e; 0x497c2c92; 0x59000000;
   0x181c04; 0x17d8001; 0xffc007ff; 0xc00ffff0; 0xffff00f; 0xfff81f6d; 0xf00db6f8; 0x7ff7fa5b;
   0xedb62df7; 0xf83dfff8; 0x1b6db41d; 0xb6f81ff7; 0xf81b6db8; 0x3dbef83f; 0xfef81f6d; 0xf83fb6f8;
   0x3ffff85f; 0x6db63db6; 0xf83e9279; 0xdf6db67f; 0xb6fb3e92; 0x795b24b2; 0x181d03; 0x2c0002;
   0xdb0003ff; 0xe00ffff0; 0x16db681f; 0xfff01fff; 0xf836db6c; 0x5f6db85f; 0xeffe36db; 0x6c5befb6;
   0x1fefbc16; 0xdb6c1b6d; 0xb01f7df8; 0x16db6c1f; 0x6db81fff; 0xf816db6c; 0x1f6df81f; 0xfff836db;
   0x6c5f6db6; 0x5f2cbab6; 0xdb6d5f6d; 0xb65f24fa; 0x96496c00; 0x181f01; 0x100000; 0x7e00007f;
   0xb600; 0x2ff0003; 0xffe00db6; 0xd006ff60; 0x1ffff00d; 0xb6d81e49; 0x381c0030; 0x2c925816;
   0xcb241841; 0x300c9258; 0x1e49381e; 0x8382c92; 0x581e5b7c; 0x1e49782d; 0x92d81f49; 0xfc1f09fc;
   0x2d92d81e; 0xc97c1e41; 0x7c6db6db; 0xbecb7c9e; 0x497c2c92; 0x59000000; 0x181c04; 0x16d8001;
   0xffc007ff; 0xc00b6db0; 0xffff00f; 0x92f81b24; 0xb00c9258; 0xc821849; 0x65b22c92; 0x580c8218;
   0x92cb00c; 0x92581c00; 0x181964b0; 0x3cb6581e; 0x10781b24; 0xb03f92f8; 0x3f80f85b; 0x25b62db6;
   0xf83c9279; 0xdb6db66d; 0xb6fb3e92; 0x795b24b2; 0x181d03; 0x2c0002; 0xdb0003ff; 0xe00ffff0;
   0x16db681f; 0xfdf01ffc; 0xf836d96c; 0x1924b809; 0x3016cb; 0x2409e5b0; 0x9009016; 0x49241924;
   0xb0182438; 0x16492c19; 0x24b81f24; 0x3816496c; 0x1f24f81f; 0xf836c9; 0x6c5f25b6; 0x5f24bab6;
   0xdb6d5f6d; 0xb65f24fa; 0x96496c00; 0x162000; 0x200003; 0x600012c0; 0x7f0006; 0xdb007ffe;
   0x1fff80d; 0xb6d87fff; 0xe1ffbf8b; 0x6cb63ec9; 0x7cf924f2; 0xc9258cb2; 0xcb32492c; 0xb24963e4;
   0x97c7925e; 0xdb6d81f; 0x27803c98; 0x2d8002; 0x49204924; 0x82492484; 0x92491249; 0x24b64b65;
   0x7cbe47ff; 0xfd2db6d8; 0x171d03; 0x1240005; 0xb6002cb2; 0x492401; 0x2cb60125; 0xb002c960;
   0xb24b009; 0x24801249; 0x4b2c80; 0x49248092; 0x48024b24; 0x2492004; 0x924016db; 0x6012d900;
   0x4920016; 0xd8001fc0; 0x13f8005; 0xbe582c92; 0x58492491; 0x2c92c96c; 0x96cad92d; 0x99249240;
   0x171f01; 0x490002; 0xc90004b2; 0xb65b01; 0xb64b0124; 0x920c92cb; 0x592c80b; 0xe4f02db2;
   0xd86592d0; 0xc924c16c; 0xb2c33cb2; 0x6496409; 0x24940924; 0x90124920; 0x1924800b; 0x240012c8;
   0xb2000; 0x9000012; 0x164924; 0x92496524; 0x92ccb24b; 0x24b24b29; 0x6cb66492; 0x49000000;
   0x161c04; 0xd8000f; 0xf000fff0; 0x5b6c05f; 0xff81ffff; 0x36db61f; 0xf97c7921; 0xf2c92584;
   0xb2cb12cb; 0x496db21; 0x2492ce02; 0xf2c9258; 0x7965f1e4; 0x87cb64b6; 0x16497800; 0x2080592d;
   0x81b2db12; 0x4924b6db; 0x2f6db645; 0x924f2492; 0x48000000; 0x171e02; 0x200000; 0x6c000b6c;
   0x1ffc00; 0xfff802db; 0x6c07fffc; 0xffe7016; 0xd9603249; 0x40649080; 0x965900b2; 0x58002090;
   0x4924804; 0x92400124; 0x8005b200; 0x5b00008; 0x20000480; 0x248000; 0x9000b24; 0xb0092490;
   0x104922db; 0x65b2c965; 0xb593cb32; 0x49248000; 0x161b05; 0x2d8000f; 0xf600fff8; 0x5b6d81f;
   0xffe07ff7; 0xc36d9606; 0x493c1904; 0xf04b2d81; 0x96cb0641; 0x8124960; 0x24920082; 0xb640;
   0x1240000; 0x480; 0x90009; 0x4905b2d; 0xb5b25912; 0x4924b6db; 0x6f6db6d0; 0x80010000;
   0x1d1804; 0x48000; 0x2492000; 0x592c8002; 0x49240124; 0xb24804b2; 0x49202492; 0x4902c964;
   0xb2596492; 0x4a492492; 0x6cb6496c; 0xb2d964b4; 0x924924c9; 0x24b6592c; 0xb2492924; 0x9248b2db;
   0x6592c92c; 0x92024924; 0x8025b648; 0x36d900; 0x192c000; 0xb640000; 0x2c000000; 0x201c02;
   0x2480480; 0x9241240; 0x9241248; 0x16db6db0; 0x49249248; 0x49249248; 0xb6db6db6; 0x49249249;
   0x49249248; 0xb6db6db6; 0x49249248; 0x49249248; 0x36db6db6; 0x49249248; 0x9249248; 0x16db6db0;
   0x9249248; 0x9249240; 0x6db6db0; 0x1249240; 0x1249240; 0x2db6d80; 0x249200; 0x249200].
Definition emoji_data_161 : list N :=
  [0x1b6c00; 0x49000; 0x48000; 0x10000; 0x1f1b04; 0x80000; 0x16d8000; 0x1248000;
   0x12490000; 0x5b6d8000; 0xc9248004; 0x92490016; 0xdb6d8036; 0x49248064; 0x924901b6; 0xdb6c0192;
   0x49240324; 0x92480db6; 0xdb6c2d92; 0xdb601925; 0xffe06db6; 0xdb606db6; 0xdb60ffff; 0xffc36db6;
   0xdb636db6; 0xdb40ffff; 0x93c16db2; 0x3016d80; 0x302f800; 0x36000; 0x10000; 0x0;
   0x171f00; 0x900803f; 0xdfe0db6d; 0x82db6d87; 0xffff16db; 0x6d96db6c; 0x4bff800; 0x5b6c001b;
   0x60003fe0; 0x5b6000; 0xdb4001ff; 0x2db00; 0x6da000f; 0xfc0016d8; 0x36d800; 0x7fe001b6;
   0xc001b6c0; 0x3ff000d; 0xb6000db6; 0x1ff800; 0x6db0006c; 0xb0004920; 0x36d8001; 0x24000000;
   0x1a1f00; 0x1000000; 0x4800002d; 0x800005b0; 0x16c00; 0x4b6c001; 0xb6d8006d; 0xfe0036db;
   0x6c16db64; 0x85b64922; 0xdb6db65b; 0x64b256c9; 0x249b6db6; 0xdb6c924b; 0x5924926d; 0xb6db6592;
   0xc9656492; 0x49b6db6d; 0xb65b2484; 0x924902db; 0x6db0c924; 0x90324920; 0xb6db200; 0x24900001;
   0x200000b0; 0x1000; 0x0; 0x1d1d02; 0x5b6000; 0x16c0000; 0x9200005; 0xb6c80012;
   0xd9200492; 0x49005b6d; 0xb6012492; 0xc0092492; 0xb6db6c; 0x64924b0; 0x12492483; 0x6db6d80d;
   0xb2596024; 0x924906db; 0x6db05964; 0xb2c24924; 0x922cb6db; 0x6c92c964; 0x84924904; 0x596db6d9;
   0x24924109; 0x249208b2; 0xdb6cb609; 0x2482d049; 0x241165b6; 0xd9641249; 0x4800000; 0x181f00;
   0x48000; 0x480001b; 0x40002d80; 0x483f80b6; 0x1b604924; 0x805b2480; 0xb61b6049; 0x24804804;
   0x80b61b60; 0x5b2d8048; 0x3f80b61b; 0x60db2d80; 0xff2d80b6; 0x1b60db25; 0xb0ff07f0; 0xb61b6c5b;
   0xdb65fc7; 0xf2b6c36d; 0x5b61b21f; 0xe09216d8; 0x6c0b6412; 0x3240002; 0xd8000120; 0x0;
   0x1f1e01; 0xc0000; 0xb40000; 0x1b00000; 0x3fc0000; 0x2db40000; 0x6db00000; 0xff6c000b;
   0x6db4001b; 0x6db0003f; 0xfb6c02db; 0x6db402db; 0x6db007f6; 0xd92c06db; 0x6cb402db; 0x24b005b2;
   0x416c06db; 0x65b402d9; 0x2db00590; 0x5b6806c9; 0x6db002cb; 0x6d8005b6; 0xdb0006db; 0x6c0002db;
   0x600005b6; 0xc00006db; 0x2d8; 0x5b0; 0x6c0; 0x200; 0x0; 0x1c1d02;
   0x24000009; 0x10; 0x2c0; 0x1000; 0x0; 0x4b000; 0x258000; 0x2c80000;
   0x5b200006; 0xcb00007c; 0xb0000596; 0xc00025b6; 0x5f60; 0xb6d80; 0x5b6c00; 0x1fec000;
   0x16db0000; 0xb6d80003; 0xfd80002d; 0xb200016c; 0xb00007cb; 0x5960; 0x25b00; 0x5c000;
   0xb60000; 0x5800000; 0x1d1e01; 0x8000; 0x1b0000; 0x1240012; 0x9200160; 0xb6c00492;
   0x48002492; 0x4002db64; 0x92480; 0x92402; 0x1b6c06c; 0x12490080; 0x9249248b; 0x6db6d924;
   0x92492924; 0x9249b6db; 0x6db24924; 0x92020124; 0x902c16db; 0x804920; 0x24920; 0x2db680;
   0x4924800; 0x24924002; 0xdb2d8009; 0x20900009; 0xb0; 0x200; 0x0; 0x201e01;
   0x1200000; 0x2c00000; 0x9600000; 0x9240000; 0x12d80000; 0x4b240000; 0x49048000; 0xb64b0000;
   0x59248000; 0x49249000; 0x16db6000; 0x9249000; 0x9249200; 0x2c92c00; 0x1249200; 0x1249240;
   0x5b6580; 0x249240; 0x249248; 0xb24b0; 0x49248; 0x49248; 0x16496; 0x92c9;
   0x9248; 0x2c96; 0x1248; 0x1248; 0x5b0; 0x248; 0x1d1605; 0x90000;
   0x1248000; 0x4924002d; 0xb6d900b6; 0xdb642492; 0xc922db6d; 0x96cb6d82; 0x584924b0; 0xc5b6db2d;
   0x96db65b2; 0x12092489; 0x6db6d924; 0xb6d92420; 0x924816c9; 0x24b24924; 0x92404924; 0x9005b6db;
   0x60124924; 0x24900; 0x48000; 0x1f1f00; 0x1000000; 0x2000000; 0xb000000; 0xb000000;
   0x6000000; 0x8000000; 0x58000000; 0x90000082; 0x40000090; 0xc8000124; 0x920000b6; 0xdb000006;
   0x4900000c; 0x82000016; 0x4b000030; 0x48000020; 0x10000080; 0x58000082; 0x40000104; 0x800001b2;
   0xd90000b6; 0xdb000024; 0x12000006; 0x4b000012; 0x8000024; 0x32; 0x80; 0x0;
   0x80; 0x80; 0x0; 0x201f00; 0x48000; 0x49000; 0x5b6c80; 0x1249240;
   0x1200240; 0x6c925b0; 0x9000248; 0x8000048; 0x164924b0; 0x8008248; 0x8000608; 0x32492c96;
   0x4804b008; 0x4000b008; 0xb24b6496; 0x48243209; 0x40040008; 0xb24b6496; 0x480d9009; 0x401c0008;
   0x32592496; 0x48208008; 0x8200008; 0x164924b0; 0x9000048; 0x9000040; 0x6c925b0; 0x1249240;
   0x1249200; 0x5b6c80; 0x249000; 0x1f1f01; 0x10000000; 0x5b6db6d8; 0x49249248; 0x80000002;
   0x40249642; 0x406db044; 0x80492412; 0x816db212; 0x1000220; 0x90; 0x92d90b0; 0x1b6d1160;
   0x3fff04a0; 0x5b6c8480; 0x49208800; 0x2402; 0x49242406; 0xdb044804; 0x92412c16; 0xdb212012;
   0x220000; 0x90092; 0x49090092; 0x41120124; 0x90492492; 0x48480400; 0x8800000; 0x16db6db6;
   0xd6db6db6; 0xc4924924; 0x80000000; 0x142000; 0x80000590; 0x4b0000; 0x6c000b20; 0x5920092;
   0xd8001640; 0x326006c; 0x300b6100; 0x9210125b; 0x180c018; 0xe0125b0; 0x1b6c01f3; 0xc016da01;
   0xb6c01f3e; 0x16db01b; 0x6f81f3f8; 0x16db41b6; 0xd81f3bc1; 0x6db61b6d; 0xf1f39f16; 0xdb609208;
   0x202000; 0x249200; 0x1ffff00; 0x1ffff80; 0x36492c0; 0x18001c0; 0x38001c0; 0xb2492c8;
   0x2db6db6c; 0x7ffffffc; 0x5b6db6db; 0x6db6db6c; 0x7dbfff7e; 0xdb6db65b; 0x6db6d96c; 0x7dbffd3e;
   0xdb6db6db; 0x6df6dbec; 0x7ffffffe; 0x5b6db6db; 0x6c92492c; 0x6000000e; 0x5b6db6db; 0x6db6db6c;
   0x7ffffffe; 0xdb6db6db; 0x6492492c; 0x6c92492e; 0xdb6db6db; 0x6db6db6c; 0x7ffffffc; 0x5b6db6da;
   0x24924924; 0x201904; 0x200000; 0x240000; 0x2db0000; 0x9648000; 0x97c9000; 0x36db6c00;
   0x496c9200; 0x4925f200; 0xb6db6d90; 0x5b25b248; 0x492496c8; 0xb6db6db6; 0x5b6c96cf; 0x4924925f;
   0xb6db6db6; 0x1b6db2ff; 0x92497ff; 0x2db6db6; 0x6db7ff; 0x2497fe; 0xb6db0; 0x5b7c0;
   0x97c0; 0x2d80; 0x1400; 0x1e2000; 0x400000; 0x800000; 0x2000000; 0x12000000;
   0x20800000; 0x0; 0x12c00001; 0x25800000; 0x3e000005; 0xb600000b; 0x6c10003f; 0xf080006d;
   0xb100005b; 0x440001ff; 0x8080016c; 0x90002d8; 0xfe1; 0x2c001b42; 0x5800b603; 0xe003f85b;
   0x6016c0b6; 0xc06d80ff; 0x1fe02db; 0x6db005b6; 0xdb401fff; 0xfe0036db; 0x60002db6; 0xc000bff8;
   0xb6c0; 0x2400; 0x142000; 0x6d800ff; 0xc0040800; 0x20800000; 0x2; 0x8049248;
   0x49248b6d; 0xb6db6c84; 0x9248b6db; 0x6c924849; 0x248b6db6; 0xdb6db492; 0x4bb6d96c; 0x924b4924;
   0xbb6db6c9; 0x24849248; 0xb6db6c92; 0x4849248b; 0x6db6db6d; 0x84000880; 0x1440008; 0x142000;
   0x480012; 0x40012480; 0x24920060; 0x20002; 0x48001240; 0x124006d; 0xb0092400; 0x92481249].
Definition emoji_data_162 : list N :=
  [0x924809; 0x24812492; 0x49248490; 0x48924924; 0x92494804; 0x8964b249; 0x24948049; 0x92492492;
   0x49492499; 0x24924924; 0x94924992; 0x49209248; 0x1e2000; 0x1249248; 0x6db6db0; 0x9249240;
   0x5b6db600; 0x36db6000; 0xdb6d8006; 0xdb6d000d; 0xb6d8003e; 0xdb6001b6; 0xdb40036d; 0xb6001fff;
   0xf8006db6; 0xd000db6d; 0x8007fffe; 0x1b6db4; 0x36db60; 0x1ffff80; 0x6db6d00; 0xdb6d800;
   0x7fffe001; 0xb6db4003; 0x6db6000f; 0xb6d8006d; 0xb6d000db; 0x6d804f6d; 0xb616db6d; 0xb664b6db;
   0x67024924; 0x9c16db6d; 0x80249249; 0x1f2000; 0x2000000; 0x1e000000; 0x3c000004; 0x3009000c;
   0x305b001c; 0x3592c02c; 0x36db602c; 0xb2db601d; 0x25b6402d; 0xb6db602c; 0x96d96049; 0x2d92416d;
   0xb6db416d; 0xb6c902cb; 0x6c920b6d; 0xb6db1965; 0xb6d83259; 0x2db05b6d; 0xb6d8db6d; 0xb6c0964b;
   0x6d82db6d; 0xb6c2cb6c; 0x9605b25b; 0x6c06db6d; 0xb006db64; 0xb0059edb; 0x16db6d; 0x5b6cb6c;
   0x1b6d92c0; 0x2db6db00; 0x24924800; 0x202000; 0x2400000; 0x1200000; 0x9200000; 0x16d80000;
   0x9240000; 0x49240000; 0xb6db0000; 0x4b648000; 0x4b648000; 0xb6db6000; 0x4b6c1000; 0x92c1000;
   0x16d80c00; 0x9200200; 0x9200200; 0x2c00180; 0x1000000; 0x40; 0x400080; 0x200000;
   0x0; 0x80090; 0x40048; 0x0; 0x10402; 0x201; 0x1200; 0xc02;
   0x200; 0x200; 0x90; 0x40; 0x161f00; 0x1201206c; 0x96c1f25f; 0xdb6d85b;
   0x6df06492; 0xc16db602; 0xfb600924; 0x801b6d00; 0xb2580049; 0x2006db00; 0x2db600bf; 0xf80db6d8;
   0x5bfdb127; 0xf24b6db6; 0xd6db6c4b; 0x6d90db6d; 0xa5b6db06; 0xc9ec36db; 0x6125b244; 0x90490db2;
   0xda490490; 0x24024160; 0x16000000; 0x1d1e01; 0x40000002; 0x2c; 0xb0; 0x80;
   0xb00; 0x2c00; 0x2000; 0x2c000; 0xb0000; 0x80000; 0xb00000; 0x2c00000;
   0x6c00000; 0x2c900000; 0x92c00004; 0x92000009; 0x6400012c; 0x90000124; 0x80001649; 0x2c924;
   0x24920; 0x249200; 0x924000; 0x920000; 0x9200000; 0x24000000; 0x20000002; 0x0;
   0x201804; 0x40000008; 0x48000008; 0xb4000036; 0x40049043; 0x412ff641; 0xb6db6db6; 0x5fedb7fa;
   0x5ffffff8; 0x36db6db6; 0x5f6db6f8; 0xbffffc8; 0x16db6db0; 0x9249248; 0x9249248; 0x16db6db0;
   0xb6db6d8; 0x9249240; 0x6db6db0; 0x36496c0; 0x1249240; 0x2db6d80; 0x1259200; 0x249200;
   0xb6400; 0x1d1f00; 0x492480; 0x9200; 0x4; 0x92492000; 0x1240000; 0x4924;
   0x96400002; 0x59000002; 0xc092492d; 0x80012492; 0x481; 0x24925b00; 0x92400; 0x90249;
   0x24920000; 0x12400000; 0x80049249; 0x24000024; 0x80000100; 0x9249000; 0x20000; 0x12;
   0x49000000; 0x0; 0x2492; 0x0; 0x0; 0x2492000; 0x0; 0x1d1e01;
   0x200000; 0x8000000; 0x92492412; 0x49041080; 0x924; 0x92482492; 0x40010000; 0x124924;
   0x80492490; 0x2000000; 0x64924920; 0x92492004; 0x49; 0x24924124; 0x92480900; 0xb249;
   0x2482c924; 0x90064000; 0x892c9249; 0x4b24920; 0x4924902; 0x5b249608; 0x2c92c001; 0x24920092;
   0xdb60020b; 0x6c000009; 0x20000036; 0x0; 0x1f1c03; 0x480; 0x2480; 0x4900;
   0x92480; 0x92480; 0x124900; 0x12492480; 0x92492401; 0x24924824; 0x92592424; 0x92492049;
   0x24924124; 0x924b6924; 0x92491249; 0x24924924; 0x96db4924; 0x92489249; 0x24824924; 0xb2024924;
   0x80049249; 0x6c96c; 0x124920; 0x49240; 0x16db00; 0x124800; 0x49000; 0x20000;
   0x0; 0x171e01; 0x49200; 0x24924; 0x92492490; 0x1240125b; 0x24924924; 0x80920092;
   0x59249249; 0x24000004; 0x92492492; 0x49212492; 0x24924924; 0x92490924; 0x91249249; 0x24924800;
   0x92492; 0x49249242; 0x49244924; 0x92492492; 0x12000249; 0x24924924; 0x90000002; 0x49240000;
   0x202000; 0x12000; 0x36d800; 0xfffc00; 0x3ffff80; 0x5befb60; 0x7f92fe0; 0x1fe007f0;
   0x2d924b68; 0x3fc001f8; 0x3f0100fc; 0x6c92496c; 0x3e09243e; 0x7e0be43e; 0x6c96d93c; 0xfc4fe43e;
   0xfc4ff43e; 0x6c96d93d; 0xfc4fe43e; 0xfc0fe43e; 0x6c96c96c; 0x3e0924be; 0x3e0920fe; 0x2d92496c;
   0x1f0001fc; 0x1fc007f8; 0xdb25b6c; 0x7ff7ff0; 0x3fffff0; 0x1b6db60; 0xffff80; 0x1ffc00;
   0x2c800; 0x191f01; 0x2400004; 0x90000248; 0x2c800; 0x5b20802; 0x490482d9; 0x25b0b209;
   0x60490490; 0x5b20b616; 0x412d8920; 0x12496412; 0xc25804b1; 0x24024964; 0x825b5920; 0xb2248049;
   0x24905b29; 0x2412c492; 0x9249209; 0x65249248; 0x12012412; 0x41240482; 0x49000024; 0x80002480;
   0x90000; 0x4800004; 0x80000000; 0x101f01; 0x18080010; 0x10180c; 0x20142010; 0x582c6cb6;
   0x2492db6d; 0x6db66492; 0x5b6c2db6; 0x2db41b6c; 0x2db02490; 0x5b6c2db6; 0x2db65b6c; 0x6db66c96;
   0x5b6c0db0; 0x4a00360; 0x5800180; 0x1000000; 0x1f1706; 0x12492490; 0xdb6db6da; 0x4924924d;
   0x96db6cb6; 0xdb6db6d6; 0xdb6db6ec; 0xb6db65b6; 0xdb6db6b6; 0xdb6db76d; 0xb6db6db6; 0xdb6db1b6;
   0xdb6db3fd; 0xb6dfe5b6; 0xdb6d85b6; 0xdb6c03fd; 0xb7f805b6; 0xdb6005b6; 0xdb0003ed; 0xfe0005b6;
   0xd80001b6; 0xc000016c; 0x90; 0x0; 0x1f1d01; 0x2492480; 0x12492480; 0x24924900;
   0xb6db6c00; 0xb6db6c01; 0x24924805; 0xb6db6004; 0xb6cb2009; 0x2492402d; 0xb6db606c; 0xb64b0049;
   0x2492016d; 0xb6db0125; 0xb2480249; 0x24901b6d; 0xb6d8492d; 0x92489249; 0x2490db6d; 0xb6c2492c;
   0x92449249; 0x2496db2d; 0xb6124924; 0x92249249; 0x24b6d86d; 0xb6924024; 0x91248049; 0x20b6c16c;
   0x80120120; 0x0; 0xd1d01; 0x2004802; 0x482484b2; 0x24925929; 0x6c4925b6; 0xd658924b;
   0x25a49124; 0x964b4920; 0x490c9212; 0x40920924; 0x24812412; 0x48490048; 0x4901200; 0x141d02;
   0x200002; 0x5800; 0x6c0007c; 0xd8001; 0x6c003fe0; 0x6db00b6; 0xd80fff81; 0x6db41b6d;
   0x81fffe36; 0xdb65b6db; 0x7ffffb6d; 0xb65b6db7; 0xffffb6db; 0x65b6db7f; 0xfff36db6; 0x1b6da0ff;
   0xf816db00; 0x36c00020; 0x0; 0x1d1e01; 0x12400000; 0x49000002; 0x4800016d; 0xb0000492;
   0x40002492; 0x2db64; 0xb2490; 0x492400; 0x5b64900; 0x12c92400; 0x12490001; 0x64924004;
   0x92490004; 0x92400049; 0x24900124; 0x92400124; 0x92001249; 0x6c004925; 0x90004924; 0x800496d8;
   0x125920; 0x124900; 0x16db000; 0x4924000; 0x4920000; 0x5b600001; 0x24000001; 0x20000000;
   0x1f1f01; 0x580000; 0x780000; 0x60f00001; 0x80d80005; 0x8000000b; 0x24; 0x400020;
   0x400040; 0x800040; 0x2000100; 0x2002000; 0x24100; 0xb00b6101; 0x800b00df; 0x16016c;
   0x5b0020; 0xc80060; 0x1800060; 0x6000100; 0x10000300; 0x20000200; 0xa0000800; 0x80001001].
Definition emoji_data_163 : list N :=
  [0x1805; 0x6004; 0x6018; 0xc060; 0xc9c0; 0xfe00; 0x4800; 0x0;
   0x1e1f01; 0x58000000; 0x90000000; 0x40000032; 0x4; 0x10; 0x482; 0xdb60080d;
   0xb6c00097; 0xff8025b6; 0xdb004b6d; 0xb6017f92; 0x5c036db6; 0xd81edb6d; 0xb07f2493; 0xc2db6db6;
   0xfb6db6c; 0x3fc924b0; 0xb6db6d83; 0xedb6db07; 0xf2492c2d; 0xb6db607b; 0x6db6c1ff; 0x925e036d;
   0xb6d807db; 0x6d800ffd; 0xbe005b6d; 0xb0003edb; 0x5f60; 0x4900; 0x0; 0x1d1e01;
   0x80; 0x1600; 0x4b000; 0x2db0000; 0x49640412; 0x4b20596d; 0xb68b05b2; 0xc8582596;
   0x4582db6d; 0xb2092d92; 0x90496c90; 0x6db6db05; 0x92596c64; 0x92c966c3; 0x6db60825; 0x9248412c;
   0x922d86db; 0x60b64b24; 0x4b05900; 0x90db000; 0x40320000; 0x1900036; 0x1b0000d0; 0x60001608;
   0x160a0; 0xc9600; 0x248000; 0x0; 0x202000; 0x1000; 0x16cb0; 0x2db678;
   0x3ffe78; 0x2db6cb6; 0x36db67c; 0xbfffe7e; 0x12db6cb6; 0x196db67f; 0x797ffe6a; 0x36db6c32;
   0x796d8200; 0x7d3c0240; 0xb6400400; 0x7f200248; 0x7e000240; 0x32080490; 0x19040200; 0x8240240;
   0x2430480; 0x1000240; 0x248200; 0x1b0580; 0x49600; 0xb200; 0x16c00; 0x1200;
   0x1000; 0x2c00; 0x200; 0x200; 0x400; 0x1b1d01; 0x4900002; 0x9000000;
   0x1; 0x20000002; 0x9240; 0x16db2c0; 0x36db2c12; 0x492485b6; 0xdb6c5b6d; 0x92096400;
   0x2d80010; 0x6c000104; 0x80000160; 0x10093609; 0x82c000; 0x1b04924; 0x9a049241; 0x58;
   0x4920400; 0x9008000; 0x600000; 0x16000000; 0x40000030; 0x300; 0x0; 0x1c1c01;
   0x10000; 0x80000; 0x800140; 0x12001a04; 0x9000b049; 0x68120; 0x340800; 0x1608001;
   0xd100000; 0x68000002; 0xc000901a; 0x480d0; 0x580; 0x1003400; 0x101a000; 0x100b0002;
   0x40680010; 0x3400000; 0x16000000; 0xd0000006; 0x8000002c; 0x1a0; 0xc00; 0x4000;
   0x10000; 0x1d1e01; 0xb000; 0x20000; 0x100000; 0x1600200; 0x4001000; 0x20012402;
   0xc9048; 0x249240; 0x61b6c00; 0x82db248; 0x164b240; 0x16db6c00; 0x59243002; 0x4920802d;
   0xb6cb05b6; 0x48002492; 0x4002db6d; 0x801b6c90; 0x2012480; 0x20160b00; 0x8040200c; 0x2002048;
   0x20020301; 0x80180804; 0x400058; 0x4000300; 0x10000800; 0x0; 0x131e01; 0xb00049;
   0x92002; 0xcb006db0; 0x5b00124; 0x80325002; 0x4800b6c0; 0xbe001fc; 0x5b600c; 0x96009340;
   0x6db4164f; 0x26bb0b6; 0xdb59ecbf; 0x3f96db6d; 0x8df7d9bf; 0xff6db6c6; 0xdb6cf92f; 0x16db616f;
   0xb0049000; 0x1e1207; 0x4820001; 0x6d924006; 0xc9248008; 0x249200d9; 0x6db601b2; 0x49240249;
   0x249016cb; 0x6db02d92; 0x49601249; 0x2480b6c9; 0x25806592; 0x4a009248; 0x2405b6d9; 0x600965b6;
   0xc004924b; 0x24b6d8; 0x492480; 0x191f00; 0x40008020; 0x402db6; 0xd81b6db0; 0x5925805;
   0xb6db036d; 0xb600b24b; 0xb6db60; 0x61364010; 0x112016c9; 0x2c0c04c8; 0x2002402; 0xd9258180;
   0x99004004; 0x805b24b0; 0x12492409; 0x24920b6d; 0xb6dedb6d; 0xb72c9259; 0x6c02d8cb; 0xa66480;
   0x412d805b; 0x196014cc; 0x90082430; 0xb602c00; 0x18000000; 0x1e1e01; 0x10000; 0x1b0000;
   0x920000; 0x2080000; 0x12480000; 0x24900000; 0x80400001; 0x92400001; 0x24800004; 0x200000c;
   0x92000049; 0x24000120; 0x10001b64; 0xb0009649; 0x24104; 0xb6c32c; 0x36c0240; 0xc800801;
   0x6d800006; 0xd8000019; 0x600002db; 0xdb0; 0x32c0; 0x1b600; 0xb6000; 0x258000;
   0x6c0000; 0xc00000; 0x0; 0x1e1903; 0x1800; 0x16400; 0xb6000; 0x36c000;
   0xdb0000; 0x6db0000; 0x2db64000; 0x96d80005; 0xb6c80049; 0x2d900120; 0xb2000b01; 0xb200920b;
   0x20024020; 0x160024; 0x1240200; 0x4800000; 0x2c000002; 0x48000009; 0x58; 0x90;
   0x200; 0x3000; 0x2000; 0x0; 0x1f1d02; 0x10000000; 0x10000001; 0x20000001;
   0xb0000004; 0x80000009; 0x2d; 0x80000024; 0x48; 0x124; 0x120; 0x240;
   0x960; 0xb6d80105; 0xf6f8067f; 0x24be0f6c; 0x92581f24; 0x9248fe49; 0x2498df24; 0x9258cb24;
   0x9260f249; 0x24c0db24; 0x9680db24; 0xb600fffb; 0xfc00db6d; 0xb000db6d; 0x8000bfff; 0x5b6c;
   0xb60; 0x0; 0x1f1e01; 0xc000000; 0x64000001; 0x24000002; 0x40000009; 0x60000009;
   0x20000004; 0x40000009; 0x60000001; 0x20000000; 0x40000001; 0x60000001; 0x20000000; 0x58000001;
   0x60000001; 0x20900003; 0x49200001; 0x24b00001; 0x20100002; 0x200009; 0x24b00008; 0x20800010;
   0x49; 0x2d800040; 0x64000080; 0xc80000cb; 0x60000241; 0xe0000083; 0xc00002d9; 0x40;
   0x0; 0x1e1e01; 0x24000; 0x1b6c000; 0xb6d8000; 0x6db6c00b; 0x6db6c016; 0xdb6c00db;
   0x6db406db; 0x6db00db6; 0xdb60b6db; 0x6d81b6db; 0x6d0b6492; 0xd8249249; 0x216db6db; 0x62db6db6;
   0xbfffff8; 0xdb6db6d9; 0xb6db6db6; 0xfffffed6; 0xdb6db62d; 0x924b6000; 0x8080; 0x40300;
   0x100400; 0x1000c00; 0xa001b6d; 0xb0002ffe; 0x2db0; 0x1b00; 0x0; 0x1f1904;
   0x41041641; 0x65965b6b; 0x6492fb26; 0xc820fe4b; 0x2cb2db7b; 0x2497d916; 0x410ff249; 0x65964a59;
   0x24be4892; 0x487c92db; 0x2db642c9; 0x25fe4482; 0x43e486d9; 0x6db21249; 0x2fb22612; 0x7f24364b;
   0x6d901649; 0x7db03893; 0xe021b24b; 0x6c80b24f; 0x2583e49f; 0xc005925b; 0x6c04000b; 0x68000000;
   0x40000000; 0x1f1d02; 0x4b0000; 0x4b0000; 0x160000; 0x125b0000; 0x127a0000; 0x1fc0004;
   0x96d80004; 0x9ed80000; 0x7db00025; 0xb6d80127; 0xb6d0005f; 0x67f00b6d; 0xb6c00bed; 0xb6c007cf;
   0x6f800b6d; 0xb6c0036d; 0xb6c000fb; 0x7fc0016d; 0xb6d8006d; 0xb6d0005f; 0xffe0002d; 0xb6c0000d;
   0xb680000f; 0xfe00002d; 0xb400002d; 0xb000003f; 0xc000006d; 0x8000006c; 0x0; 0x1d1e01;
   0x248000; 0x12492000; 0x49248002; 0x49240124; 0x92480492; 0x49202480; 0x49024924; 0x90492492;
   0x42400012; 0x24924924; 0x92492484; 0x92482449; 0x24924924; 0x92492924; 0x90489249; 0x24924924;
   0x92520000; 0x9124924b; 0x24924924; 0x24924922; 0x492492c9; 0x24924809; 0x24924092; 0x492c0249;
   0x24800241; 0x24002c96; 0xc0001248; 0x0; 0x1d1805; 0x90; 0x1240; 0x200;
   0x496000; 0x1240000; 0x1200004; 0x96000092; 0x40002012; 0x2c960; 0x492400; 0x2412001;
   0x6d960005; 0xb2400164; 0x9200161b; 0x6000d964; 0x24120; 0xc3600; 0x30c000; 0x900000;
   0xb000000; 0x28000001; 0x0; 0x1e1d02; 0x2c; 0x240; 0x900; 0x5800;
   0x9000; 0x20000; 0x900000; 0x1000000; 0x4000001; 0x20000082; 0x208; 0x3640].
Definition emoji_data_164 : list N :=
  [0x16c00; 0x7f000; 0x6db000; 0x2df6000; 0xffc0000; 0xdb680005; 0xbfc0001f; 0xfc0001b6;
   0xd0000b7f; 0x80003ff8; 0x6da0; 0xdf00; 0x1f000; 0x34000; 0x20000; 0x0;
   0x131e01; 0x2c00; 0x1bc001f8; 0x76db6d; 0xedb7fc92; 0x7b0006f0; 0x7e001d; 0x924b7924;
   0xbffffec9; 0x25bc001f; 0x80076000; 0xde002fc9; 0x27b6db6f; 0x17e001; 0xd8003780; 0x3f000ed;
   0xb6dbdb6f; 0xf8007600; 0xd200040; 0x111d02; 0x480092; 0x400041; 0x104008; 0x20012000;
   0x40002000; 0xc000100; 0x800090; 0x200011; 0x124004; 0x80006000; 0x48009400; 0x4c004900;
   0x12800912; 0x59049242; 0x49024900; 0x12000000; 0x141d02; 0x480012; 0x40092489; 0x6db25b6d;
   0xb4924b92; 0x4924124b; 0x40001924; 0x924124b4; 0x19249; 0x24024b40; 0x192492; 0x4804b400;
   0x1924924; 0x904b4000; 0x19249249; 0xb40001; 0xb6db6592; 0x59092480; 0x2d900020; 0x0;
   0x1f2000; 0x12492493; 0x24924925; 0x924b2494; 0x92492499; 0x10002c; 0x925924a4; 0x924924c9;
   0x800164; 0x92c92524; 0x92492649; 0x4000b24; 0x96492924; 0x92493249; 0x20005924; 0xb2495b6d;
   0xb6db9249; 0x2492c925; 0x924a4924; 0x924c9249; 0x16492c; 0x92524924; 0x92649249; 0xb24964;
   0x92924924; 0x93249249; 0x5924b24; 0x94924924; 0x99249249; 0x2db6db6d; 0xadb6db6d; 0x89249249;
   0x1d1f00; 0x80000002; 0x10; 0x160; 0x480; 0x2400; 0x5800; 0x12000;
   0x90000; 0x160000; 0x480000; 0x2400000; 0x5800000; 0x12000000; 0x90000001; 0x60000004;
   0x90000024; 0x8000005b; 0x60000364; 0x80000b25; 0x8000b6d8; 0x2db00; 0x125800; 0x16d8000;
   0x5b00000; 0x25800000; 0xd8000003; 0x18; 0x80; 0x0; 0x1c1e01; 0x240000;
   0x1ff80096; 0xc96004b0; 0x3004800; 0x18012400; 0xc0090000; 0x800000; 0x12400001; 0x92000009;
   0x144; 0x80000824; 0xc000; 0x60900; 0x304800; 0x1000000; 0xc120000; 0x60900006;
   0x50; 0x24000200; 0x20003002; 0x18008; 0x200000; 0x20004b0; 0x400015b6; 0x1f00;
   0x2000; 0x0; 0x1e1a03; 0x20900002; 0x49200001; 0x2480000b; 0x25800012; 0x9000048;
   0x4000258; 0x20000490; 0x40001041; 0xb248; 0x10092; 0x8249; 0x482cb; 0x90c12;
   0x249008; 0x25b048; 0x92480; 0x49000; 0x20b200; 0x412000; 0x1008000; 0xb048000;
   0x12190000; 0x9640000; 0x5b2c0000; 0x90400000; 0x1d1e01; 0x1249000; 0x5ffff02d; 0xb6db6cf6;
   0xdb6d87ff; 0xfffc5b6d; 0xb6d96db6; 0xdb292492; 0x49b6db6d; 0xb25b6db2; 0x42492493; 0x24924924;
   0x92492424; 0x924922c9; 0x2492c924; 0x92480924; 0x9240b249; 0x2c024924; 0x8012c964; 0x12db6c8;
   0x4bff900; 0x4be4800; 0x49248001; 0x24920009; 0x24900092; 0x49000249; 0x24000249; 0x2490;
   0x0; 0x1e1f00; 0x492480; 0x1b6d800; 0x1e492000; 0xb6db6003; 0xedb6c00f; 0xf249006d;
   0xb6db03ff; 0x6db60ffc; 0x92485b6d; 0xb6d1ffdb; 0x6d9fffff; 0xbeb6dbed; 0xb3fffffb; 0xefffffe7;
   0x2db7db6c; 0xfffffec1; 0xfffff90b; 0x6ffed81f; 0xffff803f; 0xfcfe00db; 0x2db601f2; 0x4be003f9;
   0x2e0016db; 0x6c802d92; 0x40000248; 0x2d8; 0x20000480; 0x200; 0x208; 0x0;
   0x1a1c03; 0x2000; 0x240000; 0x9000004; 0x96000492; 0x40012480; 0xb2c800; 0x12480000;
   0x90000059; 0x900; 0x20000; 0xb600001; 0x60000040; 0x16c00; 0x2c0000; 0x800002d;
   0x80000580; 0x10000; 0x5b00000; 0xb0000020; 0xb600; 0x160000; 0x4000000; 0x40000000;
   0x1c2000; 0x120000; 0x4920002; 0x492000d9; 0x2d801649; 0x2c010410; 0x4024b6cb; 0x1249240;
   0x10492002; 0x4b6c9012; 0x49240104; 0x900024b6; 0x49012492; 0x40100800; 0x2492490; 0x12492401;
   0x24920025; 0xb6c90124; 0x92401049; 0x20024924; 0x90125b24; 0x1049008; 0x24924961; 0x24925812;
   0x49248249; 0x24b61249; 0x24b12492; 0x4b2db6db; 0x69249248; 0x141e01; 0x200002; 0x924924;
   0x92490000; 0x96db25b; 0x6d909240; 0x92492492; 0x49192d89; 0x65b24924; 0x90000092; 0x49249249;
   0x924; 0x92016000; 0x120000c0; 0x120001; 0x20000c00; 0x1200012; 0xc000; 0x12000120;
   0x40000; 0x1e1c03; 0x24000; 0x248000; 0x0; 0x24924000; 0x49248008; 0x200200c9;
   0x24960492; 0x49201001; 0x2080924b; 0x25812492; 0x48040000; 0x24249249; 0x20492492; 0x41000001;
   0x1924924b; 0x92492492; 0x40246; 0x492496e4; 0x92492412; 0x480491b6; 0x496da164; 0x924b0092;
   0x492005b6; 0xdb200365; 0x800005b0; 0x490; 0x0; 0x1c1e01; 0x8000000; 0x80003016;
   0x1b058023; 0xf860023f; 0xc60065b6; 0x40023f86; 0x33fc60; 0x2db6c00; 0x17ff0059; 0x7ff2cb6d;
   0xb6db017f; 0xb20002f8; 0x125b64; 0x8002d800; 0x268001; 0x25b64800; 0x6fb00002; 0xf90012db;
   0x648017ff; 0x17ff0; 0x2db6c0; 0x37ff600; 0x27fe6016; 0x5b658182; 0xf8381804; 0xc10000;
   0x8000000; 0x1b1e01; 0x5800000; 0xb000016d; 0x800036d8; 0x2c900; 0xb0c000; 0x182c0001;
   0x4800041; 0x60b00036; 0x5b00160b; 0x6405a2db; 0x40d96db0; 0x1b2fb606; 0xcb64b161; 0xb01b2430;
   0x16b0580; 0x59b0500d; 0x9008009d; 0x86c02cc0; 0x60069804; 0x2468360; 0xb660b05b; 0x4160961;
   0x6d82d816; 0xd82c02c8; 0x1600; 0x0; 0x1e1e01; 0x82000; 0x218200; 0xc16c0604;
   0x6d82000; 0x1b608030; 0xdb618044; 0x92080192; 0x492005b6; 0xdb000b6d; 0xb6002492; 0x40006db6;
   0xc002cb2c; 0x80092492; 0xdb6db6; 0x4b2cb2c; 0x32492491; 0x96db6c38; 0x2cb2c800; 0x92492005;
   0xb6db0009; 0x2cb20024; 0x9248036d; 0xb6d8125b; 0x24804124; 0x90008b6d; 0x860416d8; 0x8100920;
   0x4900; 0x80000000; 0x1d2000; 0x16000580; 0x58003000; 0x40040001; 0x80400002; 0x10;
   0x4000006c; 0x1f0; 0xf80; 0x80da04; 0x6cfe5a0; 0x37f3400; 0xdb60000; 0x36d80000;
   0xff0000db; 0x6da00f7f; 0xfe004fff; 0x980c36d8; 0x6180ffe0; 0xb407ff00; 0x36db680; 0x3dfff801;
   0x8ffe4016; 0x5b658043; 0xff18020f; 0xf0c020b6; 0xc30182f8; 0x80816c0; 0x60c16d82; 0x8008;
   0x1a2000; 0x2000000; 0xc0000030; 0xb00; 0x36010; 0x58258b; 0xd96c325; 0x96c04964;
   0xb02db6d8; 0x96d800; 0x24924816; 0xdb2d8249; 0x25b08241; 0x20492490; 0x19249006; 0x40250364;
   0x96c06c92; 0xd0092490; 0xdb6db01; 0xb6db002c; 0x96c016db; 0x6002db6c; 0x16d800; 0x1b6d8003;
   0x6d800049; 0x20000db0; 0x9000; 0x161d02; 0x24800b2; 0x580324b0; 0x4924064; 0x92824924;
   0x9049019; 0x24a0f24b; 0x3f97c06; 0xdb6dbfff; 0xfffffff1; 0xb6db6f7f; 0xfe3ffff8; 0x6db6c3ff;
   0x7e0ffff8; 0x1b6db0ff; 0xdf03fffe; 0x6db6c3f; 0xffc0ffff; 0x1b6d803; 0xfff007fe; 0x5b000].
Definition emoji_data_165 : list N :=
  [0x1e1d01; 0x24000001; 0xbe00000d; 0xb600001f; 0x7c00007f; 0xf200016d; 0xb60003fb; 0x64000fec;
   0x90001b6d; 0xb00036d9; 0x20004964; 0x8000db6d; 0x800092c9; 0x24924; 0x25b6c; 0x9640;
   0x124900; 0x36db00; 0x24b200; 0x124000; 0x1b6c000; 0x1248000; 0x4920000; 0x4940000;
   0x9600000; 0x4800000; 0x800000; 0x0; 0x4000000; 0x161e01; 0x10004; 0x90001240;
   0x360801; 0x64000490; 0x25b202; 0x4b200924; 0x80496c80; 0x92d80249; 0x78165b60; 0x64b7c193;
   0xff8db6db; 0x5b6db9fd; 0xf7e36db6; 0xd6db7c7f; 0xfff2db6d; 0x85b6fb1f; 0xdff0b6db; 0x616dfe07;
   0xbfe02db6; 0x7fe000; 0x24000000; 0x1d1e01; 0x10000; 0x2c0000; 0x1200000; 0x6000000;
   0x58000000; 0xb0c; 0x30006c92; 0xc0012012; 0x40b6196c; 0x2d925b0; 0x12402481; 0x6c92db0d;
   0xb2db6c24; 0x924926db; 0x5b65b60; 0x16da4900; 0x926db00b; 0x6cb6c02d; 0xb4960124; 0xdb6016d9;
   0x6d805b69; 0x2c0249b6; 0xc02db2db; 0x1b6d6f0; 0x7b76d80; 0x1b65b000; 0x2d840000; 0x0;
   0x1a2000; 0x8000; 0xb05b0092; 0x5b402496; 0xd816db6c; 0x24b6d80; 0x92db605b; 0x6db0092d;
   0xb6024b6d; 0x816db6c0; 0x24b6d059; 0x25b22db6; 0xdb65b259; 0x257c9248; 0x36db6d92; 0x4925a492;
   0x496edb6d; 0xb64b64b6; 0xd3d93dbb; 0x6db6d92d; 0xb6db496d; 0xb6edb6db; 0x6496db6d; 0x2496dbb6;
   0xdb6d9249; 0x2db4924b; 0x6e492492; 0x1b1e01; 0x100800; 0x9058000; 0x2090001b; 0x6c002d96;
   0x800fb240; 0xb6db600; 0xf6db601e; 0xdffd85b6; 0xdb60db6d; 0xf60bfdfe; 0xc2db6db6; 0x2db6db45;
   0xbefb616d; 0xb6db37fb; 0x6d86ff6d; 0xb1b6db6c; 0x5b6db60b; 0x6db640db; 0x6d802db6; 0xd005b6d8;
   0x6db6c0; 0x6db6000; 0x5b6c0016; 0xdb00006d; 0x80000080; 0x0; 0x1a1d01; 0x1600000;
   0x6c00001b; 0x400004b0; 0x1600; 0x58000; 0x2c80092; 0x49242492; 0x4916db6d; 0xb6c924b0;
   0x924924db; 0x6db6db24; 0x96c24924; 0x916db6db; 0x2c925b09; 0x249245b6; 0xdb60b249; 0x6c249249;
   0x6db6d82; 0xc925b092; 0x49241b6d; 0xb60b6496; 0xc0492480; 0x6db6d805; 0x92580000; 0x1e1a03;
   0xb0010401; 0xb0092c0b; 0x6032580d; 0xa049602d; 0x86cb405b; 0xdb6002c; 0x1258002c; 0xb2d80059;
   0x65800120; 0x16004b64; 0x3604b040; 0x60124101; 0x80b6d904; 0x16d8218; 0x4960020; 0x5b00900;
   0x1b64b600; 0x6c120803; 0x61b01816; 0x9603000; 0x24804001; 0x6c000002; 0xc0000001; 0x0;
   0x100000; 0x1d1d01; 0x492000; 0x9248000; 0x49240004; 0xb6c80092; 0x4b200492; 0x59004b2c;
   0xb2092c92; 0x48496596; 0x4496cb2c; 0x924b2c90; 0x92596489; 0x65b2cb24; 0x92cb2524; 0x96591659;
   0x6db25924; 0xb2ca4925; 0x962596cb; 0x24965924; 0x84925924; 0x4965b2c9; 0x25924901; 0x24924812;
   0x59648049; 0x24900049; 0x24800592; 0x58000249; 0x0; 0x1c1c02; 0x400; 0x4000;
   0x4b0000; 0x2480000; 0x24800024; 0x96000124; 0x90009209; 0x124920; 0x924900; 0x49248009;
   0x24920249; 0x24802092; 0x400492c9; 0x1249240; 0x10092002; 0x49248092; 0x49200120; 0x10002492;
   0x40092490; 0x124800; 0x24b2000; 0x12480000; 0x24000005; 0x90000024; 0x0; 0x201e01;
   0x400; 0x600; 0x1050; 0x20b0; 0x2482c0; 0x9248200; 0x924b2c00; 0x49249008;
   0x49249afe; 0xb6db6db6; 0x5b6db6db; 0x7ffffffe; 0xb6db6db2; 0x5b6db000; 0x7ffff000; 0x36db6000;
   0x1b6d8000; 0x1fff8000; 0x36db6000; 0x7b6db000; 0x30203000; 0x30106000; 0x71243000; 0x71203000;
   0x36596000; 0x7924b000; 0x7924b000; 0xb6db6c00; 0x5b6db000; 0x1240000; 0x1d1608; 0x40000;
   0x2c0000; 0x2c00000; 0x5b000002; 0x4900006d; 0xb60005b6; 0xd1082db6; 0x4882db6d; 0x921b6db0;
   0x50492482; 0x6db6db25; 0xb6db6084; 0x924904db; 0x6db6c36d; 0xb6d80b24; 0x924016db; 0x60005b6d;
   0x2db60; 0xdb600; 0x24000; 0x121d01; 0x30031601; 0x67807ad0; 0x2dd8059e; 0x1eb40b7;
   0x60167807; 0xad02dd80; 0x59e01eb4; 0xb760167; 0x807ad02d; 0xd8059e01; 0xeb40b560; 0x1678078c;
   0xc00000; 0xb00b; 0x16016780; 0x7ac02c58; 0x5800000; 0x1a1d02; 0x1600203; 0xff01f16d;
   0xb0586db6; 0x1b7fff87; 0xedb6d165; 0x80d86de0; 0x1f1fb003; 0x65b60161; 0xbf80087e; 0xd800165b;
   0x6dff8; 0x1f36d80; 0x586da01b; 0xff807c0; 0xb6016016; 0x806c03e0; 0x1f00d805; 0x80080080;
   0x1; 0x20060; 0x2c03e01; 0xf00d8058; 0x1801b00; 0x20020000; 0x1e1108; 0xc060b6c;
   0xf03c7ff5; 0xa0d96d8f; 0x7e2f83e; 0x1f81c16c; 0xb60b07f1; 0xf81c1dce; 0xe0705b2d; 0x82c196cf;
   0x7073f3c; 0x1c34d860; 0xb061f3c1; 0xc187c707; 0xc16182c; 0x18383070; 0x800000; 0x1f2000;
   0x9249241; 0x6db6db63; 0x6db6db62; 0x4924924b; 0x6db6db7b; 0x6d96db12; 0x4804925b; 0x6cb6dbdb;
   0x6cb6d892; 0x492492db; 0x6db6dedb; 0x65b6c492; 0x12496db; 0x2db6f6db; 0x2db62490; 0x924b6d9;
   0x6db7b6d9; 0x6db12480; 0x4925b6cb; 0x6dbdb6cb; 0x6d892402; 0x492db65b; 0x6dedb65b; 0x6c492012;
   0x496db2db; 0x6f6db6db; 0x62492492; 0x4b6db6db; 0x7b6db6db; 0x12492492; 0x9249248; 0x202000;
   0x9249248; 0x36db6db6; 0x5b6db6db; 0x49249249; 0xb6db6db6; 0x5b6db6db; 0x49249249; 0xb6db6db6;
   0x5b6db6db; 0x49049249; 0xb6cb65b6; 0x5b0db05b; 0x48049049; 0xb64924b6; 0x5800000b; 0x40000009;
   0xb2492496; 0x5800000b; 0x48000009; 0xb64924b6; 0x5b0db05b; 0x49049049; 0xb6cb65b6; 0x5b6db6db;
   0x49249249; 0xb6db6db6; 0x5b6db6db; 0x49249249; 0xb6db6db6; 0x5b6db6db; 0x49249248; 0x12492490;
   0x1f2000; 0x12492490; 0x5b6db6da; 0xdb6db6dc; 0x92492496; 0xdb65b6d6; 0xdb05b6e4; 0x920124b6;
   0xd925b6b6; 0xc005b724; 0x800125b6; 0x4925b5b2; 0x4025b924; 0x80492db6; 0x496dadb6; 0x36dc924;
   0x2496db2; 0x4b6d6db0; 0x1b6e4920; 0x124b6d92; 0x5b6b6480; 0x4b724000; 0x125b6492; 0xdb5b6002;
   0xdb924004; 0x92db64b6; 0xdadb60b6; 0xdc924124; 0x96db65b6; 0xd6db6db6; 0xc4924924; 0x92492492;
   0x1f2000; 0x12492490; 0x24924925; 0xb6db6db5; 0xb6db6db9; 0x2492492d; 0xb6db6dad; 0xb6db6dc9;
   0x2492496d; 0x92496d6d; 0x80016e49; 0x24b6d; 0x924b6b6d; 0x800b7249; 0x125b6c; 0x925b5b60;
   0x5b9240; 0x92db24; 0x92dad800; 0x82dc9001; 0x496c925; 0x96d6c02d; 0x96e48049; 0x24b6c96d;
   0xb6b6cb6d; 0xb7249249; 0x25b6db6d; 0xb5b6db6d; 0xb9249249; 0x2db6db6d; 0x8db6db6d; 0x89249248;
   0x1f2000; 0x49249248; 0x92492492; 0xdb6db6de; 0xdb6db6c4; 0x92492496; 0xdb6db6f6; 0xdb6db624;
   0x924924b6; 0x4925b7b6; 0x2db120; 0x4925b2; 0x496dbdb0; 0xb6d8900; 0x2492d92; 0x4b6ded80;
   0xb6c4800; 0x2496c92; 0x4b6f6c80; 0xb624120; 0x24b6592; 0x4b7b6d80; 0x1b124920; 0x925b6d92;
   0xdbdb6d86; 0xd8924924; 0x92db6db6; 0xdedb6db6; 0xc4924924; 0x96db6db6; 0xd6db6db6; 0x4924920].
Definition emoji_data_166 : list N :=
  [0x202000; 0x9249248; 0x49249248; 0xb6db6db6; 0x5b6db6db; 0x49249249; 0xb6db6db6; 0x5b6db6db;
   0x49249249; 0xb6db65b6; 0x5b6d80db; 0x49248049; 0xb65b24b6; 0x5b2c005b; 0x49040049; 0xb64925b6;
   0x5b0002db; 0x49000249; 0xb6492db6; 0x5b0016db; 0x49001249; 0xb6492db6; 0x5b0016db; 0x49000249;
   0xb64925b6; 0x5b6db6db; 0x49249249; 0xb6db6db6; 0x5b6db6db; 0x49249249; 0xb6db6db6; 0x5b6db6d8;
   0x9249248; 0x1f2000; 0x12492490; 0x24924925; 0xb6db6db5; 0xb6db6db9; 0x2492492d; 0xb6db6dad;
   0xb2db6dc9; 0x2492496d; 0x92db6d6c; 0x2db6e48; 0x4924b64; 0x92cb6b60; 0x2cb7240; 0x4125b64;
   0x925b5b60; 0x5b9240; 0x92db64; 0x92dadb60; 0x2dc9240; 0x496db24; 0x96d6db00; 0x16e49000;
   0x24b6c924; 0xb6b6db6d; 0xb7249249; 0x25b6db6d; 0xb5b6db6d; 0xb9249249; 0x2db6db6d; 0x8db6db6d;
   0x89249248; 0x1f2000; 0x49249248; 0x92492492; 0xdb6db6de; 0xdb6db6c4; 0x92492496; 0xd924b6f6;
   0xc000b624; 0x800124b6; 0x4b6db7b0; 0x1b6db120; 0x924925b2; 0xdb6dbd82; 0xdb6d8904; 0x92492c96;
   0xdb6dec16; 0xdb6c4824; 0x92496cb6; 0xdb6f60b6; 0x1b624024; 0x124b6492; 0x5b7b6000; 0xb124000;
   0x125b6c92; 0xdbdb6d82; 0xd8924904; 0x92db6db6; 0xdedb6db6; 0xc4924924; 0x96db6db6; 0xd6db6db6;
   0x4924920; 0x202000; 0x9249248; 0x49249248; 0xb6db6db6; 0x5b6db6db; 0x49249249; 0xb6c92db6;
   0x5b0002db; 0x49000049; 0xb6db24b6; 0x5b6db05b; 0x49249049; 0xb6db6cb6; 0x5b6db05b; 0x49249049;
   0xb6db6cb6; 0x5b6db05b; 0x49249049; 0xb6cb6cb6; 0x5b65b05b; 0x49048049; 0xb64925b6; 0x590002db;
   0x48000249; 0xb6492db6; 0x5b05b6db; 0x49249249; 0xb6cb6db6; 0x5b6db6db; 0x49249249; 0xb6db6db6;
   0x5b6db6d8; 0x9249248; 0x162000; 0x124000f; 0xfc006db0; 0xffe007; 0xff801b6c; 0x325800;
   0x201249; 0x20249200; 0x2000496; 0x48482010; 0x800925; 0x92500804; 0x20024b; 0x2494b001;
   0x12; 0x49202002; 0x40000004; 0x92480124; 0x80041200; 0x6db000ff; 0xe007ff80; 0x1b6c003f;
   0xf8004900; 0x142000; 0x24924249; 0x24db6db6; 0xdb6c0000; 0x4924824; 0x92400000; 0x9248049;
   0x20049200; 0x92480492; 0x90001; 0x20000900; 0x12; 0x9000; 0x924; 0x80492004;
   0x92009248; 0x24924049; 0x20492482; 0x49242492; 0x4db6db6d; 0xb6d24924; 0x202000; 0x9249248;
   0x49249248; 0xb6db6db6; 0x5b6db6db; 0x49249249; 0xb6db6db6; 0x5b6596db; 0x49241249; 0xb6cb2db6;
   0x5b6596db; 0x49219249; 0xb6cb2db6; 0x5b0002db; 0x49000049; 0xb6c925b6; 0x5b6196db; 0x49208249;
   0xb6c925b6; 0x5b0000db; 0x49000049; 0xb6d965b6; 0x5b6086db; 0x49208249; 0xb6d965b6; 0x5b6c86db;
   0x49249249; 0xb6db6db6; 0x5b6db6db; 0x49249249; 0xb6db6db6; 0x5b6db6d8; 0x9249248; 0x1f1209;
   0x12492492; 0x24924925; 0xb6db6db5; 0x96db6cb1; 0x2492492d; 0xb6db6dad; 0xb6db6d9d; 0xffb6ef6d;
   0xb6db6d2d; 0xb25b647b; 0x76ffcb6d; 0xb6db696d; 0x92db227f; 0xffba5b6d; 0xb6db4b6d; 0xb6d91249;
   0x24924924; 0x92480000; 0x1f2000; 0x49249248; 0x92492492; 0xdb6db6de; 0xdb6db6c4; 0x92492496;
   0xdb6db6f6; 0xdb2db624; 0x924924b6; 0xd92db7b6; 0xc02db124; 0x804925b6; 0x496dbdb0; 0x6d8920;
   0x492d92; 0x496dec00; 0x6c4800; 0x496492; 0x496f6db6; 0xdb624924; 0x924b6db6; 0xdb7b2492;
   0x4b120000; 0x12592492; 0x5bd80000; 0x58924924; 0x92db6db6; 0xdedb6db6; 0xc4924924; 0x96db6db6;
   0xd6db6db6; 0x4924920; 0x202000; 0x9249248; 0x49249248; 0xb6db6db6; 0x5b6db6db; 0x49249249;
   0xb6db6db6; 0x5b6cb65b; 0x49249249; 0xb6d96cb6; 0x5b60b05b; 0x49209049; 0xb6c964b6; 0x5b00805b;
   0x49008049; 0xb64924b6; 0x5800005b; 0x48000049; 0xb64924b6; 0x5b00805b; 0x49008049; 0xb6c964b6;
   0x5b60b05b; 0x49209049; 0xb6d96cb6; 0x5b6cb65b; 0x49249249; 0xb6db6db6; 0x5b6db6db; 0x49249249;
   0xb6db6db6; 0x5b6db6d8; 0x9249248; 0x1f2000; 0x12492490; 0x24924925; 0xb6db6db5; 0xb6db6db9;
   0x2492492d; 0xb6db6dad; 0xb6db6dc9; 0x2492496c; 0xb65b6d6c; 0x361b6e48; 0x24124b64; 0xb25b6b60;
   0x101b7240; 0x20125b24; 0x925b5b00; 0x1b9200; 0x12d924; 0x92dad804; 0x2dc9008; 0x496c964;
   0xb6d6c160; 0xb6e48241; 0x24b65b2d; 0xb6b65b2d; 0xb7249249; 0x25b6db6d; 0xb5b6db6d; 0xb9249249;
   0x2db6db6d; 0x8db6db6d; 0x89249248; 0x1f2000; 0x49249248; 0x92492492; 0xdb6db6de; 0xdb6db6c4;
   0x92492496; 0xdb6db6f6; 0xdb2db624; 0x900924b6; 0xd92db7b6; 0xc02db124; 0x804925b6; 0x492dbdb0;
   0x2d8920; 0x492d92; 0x496dec00; 0x2c4920; 0x12496db2; 0x5b6f6d80; 0x5b624800; 0x124b6c92;
   0x5b7b6000; 0x5b124000; 0x925b2492; 0x5bd92492; 0x58924924; 0x92db6db6; 0xdedb6db6; 0xc4924924;
   0x96db6db6; 0xd6db6db6; 0x4924920; 0x202000; 0x9249248; 0x49249248; 0xb6db6db6; 0x5b6db6db;
   0x49249249; 0xb6db6db6; 0x5b6db6db; 0x49249249; 0xb64924b6; 0x5b0000db; 0x49000249; 0xb6c925b6;
   0x5b6006db; 0x49200249; 0xb6d92db6; 0x5b6c165b; 0x48000049; 0xb64924b6; 0x5b0000db; 0x49000249;
   0xb6c925b6; 0x5b6006db; 0x49201249; 0xb6d92db6; 0x5b6c36db; 0x49241249; 0xb6db6db6; 0x5b6db6db;
   0x49249249; 0xb6db6db6; 0x5b6db6d8; 0x9249248; 0x1f2000; 0x12492490; 0x24924925; 0xb6db6db5;
   0xb6db6db9; 0x2492492d; 0xb6db6dac; 0xb6db6dc8; 0x2492496c; 0xb65b2d60; 0xb6592e41; 0x20904b65;
   0x92c96b04; 0x82017208; 0x4025b24; 0x924b5800; 0xb9000; 0x12d924; 0x925ac100; 0x805c8201;
   0x96cb25; 0x92d60b05; 0x82e41209; 0x4b65b2d; 0x96b05b2d; 0x97249249; 0x25b6db6d; 0xb5b6db6d;
   0xb9249249; 0x2db6db6d; 0x8db6db6d; 0x89249248; 0x1f2000; 0x24924924; 0x6db6db6c; 0x4924924b;
   0x6db6db6b; 0x6db6db72; 0x4924925b; 0x6db6cb59; 0x6cb60b90; 0x492412d9; 0x64b65ac1; 0x60b05c80;
   0x402096c9; 0x24b2d601; 0x82e400; 0x4b649; 0x2496b000; 0x172000; 0x25b249; 0x2cb58040;
   0x20b90080; 0x412d964b; 0x65ac161b; 0x5c82492; 0x96db2db; 0x2d6db6db; 0x2e492492; 0x4b6db6db;
   0x6b6db6db; 0x62492492; 0x4b6db6db; 0x9249248; 0x1f2000; 0x12492490; 0xb6db6db1; 0x24924925;
   0xb6db6dbd; 0xb6db6d89; 0x2492492c; 0xb2db6dec; 0x30db2c48; 0x60924965; 0x96d96f61; 0x86c16243;
   0x4824b2c; 0xb64b7b0c; 0x300b1218; 0x125964; 0x925bd860; 0x5890c0; 0x92cb2c; 0x92dec30c;
   0x2c48609; 0x496596c; 0x96f6186c; 0x16243049; 0x24b2cb6d; 0xb7b2cb6d; 0xb1249249; 0x25b6db6d;
   0xbdb6db6d; 0x89249249; 0x2db6db6c; 0x24924924; 0x1f1f00; 0x10000; 0x10000; 0x20020100;
   0x905b0494; 0x92db0489; 0xfffc125; 0xb6db6ca5; 0xb24b6443; 0xe083c00d; 0x924b642c; 0x964b4078;
   0xc03c164; 0x924b0324; 0xb24b0600; 0x60161b24; 0x925a192d; 0x9258301b; 0x30d924; 0x92d0c924;
   0x92c18000; 0x582c924; 0x9606c924; 0x96078000; 0x3806c925; 0xb0164925; 0x800f801f; 0x16db6c].
Definition emoji_data_167 : list N :=
  [0x16db60; 0x27ffc0; 0x12d920; 0x0; 0x181e01; 0x920000; 0x9200016d; 0x8000b600;
   0x180008; 0x2c0020b6; 0x25b6c0; 0x5b25b02c; 0x90582c10; 0x185b2496; 0x6500ca60; 0x4ac924;
   0x96601003; 0x649003db; 0x6c966496; 0xb600603; 0xc9259660; 0x2cb2200; 0xc85b2496; 0x2c10580c;
   0x10580b25; 0xb005b6c0; 0xb60000; 0x2c000000; 0x1d2000; 0x90000; 0x1248000; 0x9240005;
   0xb6d90016; 0x49600480; 0x8120592c; 0x96016000; 0xd8098006; 0x41964925; 0x96000012; 0xb000049b;
   0x2492cb2c; 0x592d28; 0x64336c9; 0x64b65800; 0x5a0000; 0x6c9249; 0x2cb00000; 0x94800004;
   0xcb649659; 0x24001b29; 0x60204996; 0xcb25924b; 0xb25249; 0x2c9324b6; 0xd9249249; 0x24a49249;
   0x26492492; 0x41249248; 0x142000; 0x92492db6; 0xdb49249b; 0x6db60924; 0x80924812; 0x49009248;
   0x9240124; 0x90092480; 0x12400249; 0x124000; 0x20000480; 0x200002; 0x24800; 0x12400020;
   0x1249009; 0x24800200; 0x12490092; 0x48002001; 0x24925b6d; 0xb49249b6; 0xdb649249; 0x1f2000;
   0x24924924; 0x6db6db6c; 0x4924924b; 0x6db6db6b; 0x6db6db72; 0x4924925b; 0x64b2db5b; 0x6080db92;
   0x410092db; 0x2596dadb; 0x406dc92; 0x80496d9; 0x2cb6d6d8; 0x2036e490; 0x4024b6c9; 0x65b6b6c1;
   0x1b72482; 0x125b64b; 0x2db5b608; 0xdb92410; 0x92db259; 0x6dadb040; 0x6dc92080; 0x496d92cb;
   0x6d6d96cb; 0x6e492492; 0x4b6db6db; 0x6b6db6db; 0x62492492; 0x4b6db6db; 0x9249248; 0x1f2000;
   0x12492490; 0xb6db6db1; 0x24924925; 0xb6db6dbd; 0xb6db6d89; 0x2492492d; 0x92492dec; 0x2c48;
   0x4964; 0x92496f60; 0x16240; 0x24b24; 0x924b7b00; 0xb1200; 0x125924; 0x925bd800;
   0x589000; 0x92c924; 0x92dec000; 0x2c48000; 0x4964924; 0x96f60000; 0x16240000; 0x24b24924;
   0xb7b24924; 0xb1249249; 0x25b6db6d; 0xbdb6db6d; 0x89249249; 0x2db6db6c; 0x24924924; 0x202000;
   0x12492490; 0x5b6db6d8; 0x49249248; 0xb6db6db6; 0x5b6db6db; 0x49249249; 0xb6d92db6; 0x5b6016db;
   0x49000249; 0xb6c925b6; 0x5b0000db; 0x49000049; 0xb64924b6; 0x5800005b; 0x48000049; 0xb64924b6;
   0x5800005b; 0x48000049; 0xb64924b6; 0x5b00005b; 0x49000049; 0xb64924b6; 0x5b0002db; 0x49000249;
   0xb6c925b6; 0x5b6c96db; 0x49249249; 0xb6db6db6; 0x5b6db6db; 0x49249248; 0x36db6db6; 0x9249248;
   0x1f2000; 0x24000; 0x36d800; 0x1249000; 0xdb6d800; 0x2db6d800; 0x49249203; 0x65b6580b;
   0x5b05812; 0x1209059; 0x2d92d8d8; 0xd82d890; 0x80096c9; 0x2c96d6c0; 0x2086e480; 0x4104b659;
   0x6496b601; 0x4372002; 0x825b2c9; 0x24b182c0; 0x60b10480; 0x4125964b; 0x658c160b; 0x5082412;
   0x82cb65b; 0x2c24b259; 0x20092492; 0x402db6db; 0x2db6d8; 0x92480; 0x5b600; 0x9000;
   0xd0d09; 0x1246db3f; 0xfd6dbffe; 0x7ffadb7f; 0xfcfff5b6; 0xfff9ffeb; 0x6d000000; 0xc0c0a;
   0x12400024; 0x99240002; 0x49924000; 0x24992400; 0x2490000; 0x1f2000; 0x24924924; 0x6db6db6c;
   0x4924924b; 0x6db6db6b; 0x6db6db72; 0x4924925b; 0x6db6db5b; 0x6db65b92; 0x492092db; 0x6d92dadb;
   0x6c02dc92; 0x400496db; 0x2496d6d8; 0x16e480; 0x24b649; 0x24b6b600; 0xb72400; 0x125b649;
   0x25b5b6c0; 0x5b92480; 0x92db6c9; 0x2dadb6d8; 0x2dc92490; 0x496db6d9; 0x6d6db6db; 0x6e492492;
   0x4b6db6db; 0x6b6db6db; 0x62492492; 0x4b6db6db; 0x9249248; 0x1f2000; 0x12492490; 0xb6db6db1;
   0x24924925; 0xb6db6dbd; 0xb6db6d89; 0x2492492d; 0xb6db6dec; 0x36db6c48; 0x2492496c; 0x96db6f60;
   0x16db6240; 0x4924b64; 0x92db7b00; 0x2db1200; 0x925b24; 0x925bd800; 0x589000; 0x492d924;
   0x96dec000; 0xb6c48009; 0x2496c92d; 0xb6f6016d; 0xb6241249; 0x24b65b6d; 0xb7b2db6d; 0xb1249249;
   0x25b6db6d; 0xbdb6db6d; 0x89249249; 0x2db6db6c; 0x24924924; 0x1a1a03; 0x12492492; 0x49248000;
   0x24924; 0x92492492; 0x40000009; 0x24924924; 0x92490000; 0x249249; 0x24924924; 0x92;
   0x49249249; 0x24900000; 0x2492492; 0x49249240; 0x924; 0x92492492; 0x49000000; 0x24924924;
   0x92492400; 0x9249; 0x24824924; 0x80000000; 0x1a1a03; 0x6db6db3f; 0xffffefff; 0xfffdb6db;
   0x6dffffff; 0xbffffff6; 0xdb6db7ff; 0xfffeffff; 0xffdb6db6; 0xdffffffb; 0xffffff6d; 0xb6db7fff;
   0xffefffff; 0xfdb6db6d; 0xffffffbf; 0xfffff6db; 0x6db7ffff; 0xfeffffff; 0xdb6db6df; 0xfffffbff;
   0xffff6db6; 0xdb4db6db; 0x60000000; 0x111307; 0x92492492; 0x40001249; 0x24924800; 0x2492492;
   0x49000049; 0x24924920; 0x92492; 0x49240001; 0x24924924; 0x80002492; 0x40000000; 0x141406;
   0x249245b6; 0xdb7fffe7; 0xfffedb6d; 0xb7fffe7f; 0xffedb6db; 0x7fffe7ff; 0xfedb6db7; 0xfffe7fff;
   0xedb6db7f; 0xffe7fffe; 0xdb6db7ff; 0xfe7fffe5; 0xb6d80000; 0x1f1f01; 0x10000; 0x10000;
   0x20000; 0x80000; 0x80401; 0x20000800; 0x80482400; 0x82482000; 0x4900000; 0x92480000;
   0x92480001; 0x24900004; 0x92480924; 0x92411209; 0x24824824; 0x92494924; 0x92080049; 0x24000124;
   0x90000124; 0x90000249; 0x124; 0x80004124; 0x8000; 0x20024000; 0x80020100; 0x80000201;
   0x800; 0x800; 0x1000; 0x4000; 0x0; 0x1d1902; 0x40000; 0x0;
   0x12400000; 0x49000000; 0x124; 0x92002492; 0x48000000; 0x124924; 0x82492490; 0x1;
   0x24924904; 0x92492000; 0x49; 0x24924124; 0x92480000; 0x9249; 0x24924924; 0x92000000;
   0x9249249; 0x24924924; 0x12; 0x49249249; 0x24924000; 0x1c1d02; 0x40000; 0x400000;
   0x5b600016; 0xdb000b6d; 0xb6016db6; 0xd81b6db6; 0xc5b6db6c; 0xb6db6dad; 0xb6db6cdb; 0x6db6cb6d;
   0xb6dbdb6d; 0xb6dcb2d9; 0x65960b05; 0xb0004000; 0x40000; 0xb00000; 0x4000000; 0x4000000b;
   0x40; 0x406; 0xb0c0; 0x40600; 0x414000; 0x36c0000; 0x1b000000; 0x80000000;
   0x1a2000; 0x240000; 0x16c10086; 0xd82021fe; 0x8105b04; 0x5fe000; 0x1ffe0203; 0x6d800025;
   0x80400860; 0x18049008; 0x920000; 0x2416; 0xc02406d8; 0x101b600; 0x904b6082; 0x49649000;
   0x19060924; 0x80412590; 0x10036008; 0x24924804; 0x92410004; 0x409248; 0x20124900; 0x2;
   0x49200009; 0x20000000; 0x2000; 0x1c1f01; 0xb2000004; 0x90000009; 0x2000016d; 0x80000924;
   0x1240; 0x25b00; 0x124800; 0x1249000; 0xcb24000; 0x24900002; 0x49200059; 0x24000249;
   0x20002402; 0x19248; 0x49240; 0x402400; 0x92db000; 0x49240004; 0x90400036; 0x4b000480;
   0x800; 0x12490; 0x80000; 0x800000; 0x16480000; 0x12400001; 0x20000004; 0x0;
   0x201904; 0x16db640; 0x5b6db60; 0x2ffffffc; 0x5b6db6d8; 0x6db6db6c; 0x7ffffffe; 0xdb6db6db;
   0x6db6db6c; 0x7fd64bfe; 0x5b64b2d8; 0xd965b60; 0xf8001e0; 0x1b6cb2d8; 0xd965968; 0x3c00007c].
Definition emoji_data_168 : list N :=
  [0x5b2cb258; 0x6db6db6c; 0x7ffffffc; 0x5b6db6db; 0x6db6db6c; 0x7ffffffe; 0x5b6db6db; 0x2db6db6c;
   0x2db6db6c; 0x9249248; 0x202000; 0x9249248; 0x36db6db6; 0x5b6db6db; 0x5b6db6db; 0xb6db6db6;
   0x5b6db6db; 0x582db6db; 0xb25b6db6; 0x592db6db; 0x582db6db; 0xb64b6db6; 0x5b25b6db; 0x5b07b6db;
   0xb6cb6db6; 0x5b25b6db; 0x5ba0b7db; 0xb6c96db6; 0x5b64b65b; 0x5b60b01b; 0xb6d96cb6; 0x5b6c925b;
   0x5b6c005b; 0xb6db25b6; 0x5b6c92db; 0x5b6c02db; 0xb6db2db6; 0x5b6d96db; 0x5b6db6db; 0xb6db6db6;
   0x5b6db6db; 0x5b6db6d8; 0x12492490; 0x1f1e01; 0x20000800; 0x20020800; 0x400c1003; 0x65b6c009;
   0x5b64002; 0x496c800b; 0x6db6c30b; 0x25b6c916; 0x4b6d925b; 0x6db6d8db; 0x6db6c9b6; 0xdb6d96db;
   0x6db6d6db; 0x6db62d96; 0xd964320b; 0x60940003; 0x6; 0x8; 0x18; 0x30;
   0x40; 0xc0; 0x182; 0x203; 0x608; 0x410; 0x16d0; 0x16c0;
   0x400; 0x0; 0x1f1f01; 0x12000; 0x82000; 0x100000; 0x924b2004; 0x12492000;
   0x2cf24025; 0xb6db6425; 0xb6db641f; 0xfdf7c16d; 0xb6db616d; 0xb6db62ff; 0xecbfc36d; 0xb6db0b6d;
   0xb6d902ff; 0xffb0096d; 0xb6c8412d; 0xb2080000; 0x24924; 0x924a0000; 0x400000; 0x124924;
   0x92520000; 0x12000000; 0x924924; 0x90924024; 0x90200001; 0xb24924; 0x80124920; 0x49200;
   0x24800; 0x0; 0x1d1f01; 0xb000; 0x4920000; 0x24900002; 0xdb600009; 0x24000049;
   0x200001b6; 0xc0001248; 0x1240; 0x2416c12; 0x9049248; 0x4924924d; 0xb6db6c12; 0x49249092;
   0x49248b6d; 0xb6d82492; 0x49212492; 0x4916d92d; 0xb6492492; 0x42482092; 0x2c820120; 0x80000;
   0x0; 0xc000000; 0x80000004; 0x58; 0x900; 0x800; 0x8000; 0x0;
   0x131c04; 0x4000040; 0x2; 0x2000; 0x100; 0x100000; 0x9240; 0x9240000;
   0x82492424; 0x92400241; 0x24921249; 0x20410492; 0x49492490; 0x4004924; 0x84924000; 0x249200;
   0x49000000; 0x400000; 0x131c04; 0x10000100; 0x8; 0x8000; 0x400; 0x400000;
   0x24900; 0x24900490; 0x1249292; 0x49000804; 0x92494924; 0x81249249; 0x24a49240; 0x12492;
   0x12492000; 0x124901; 0x24800000; 0x1200000; 0x141c04; 0x16000080; 0x80001; 0x60000800;
   0x800016; 0x8000; 0x8000164; 0x90092400; 0x924816db; 0x60924909; 0x24836db6; 0x49249492;
   0x48b6db64; 0x92484924; 0x8b6db649; 0x24809248; 0x16db0092; 0x40012000; 0x24000000; 0x131c04;
   0xc0002c0; 0x480006; 0x16000; 0x24000300; 0xb00012; 0x196c0; 0x5b6c892c; 0x92db6c6d;
   0xb6c4924b; 0x6db6b6db; 0x72596db6; 0xdb5b6db9; 0x2492db6d; 0x8db6c092; 0x482db602; 0xdb600920;
   0x480000; 0x131c04; 0x6000180; 0x58000b; 0xc000; 0x2c000580; 0x600016; 0x4002d940;
   0x36d90b6d; 0xb1ffbe5b; 0x6d8db6d9; 0xb7df6db6; 0xd6db6edf; 0x7fb6db6b; 0x6db76df6; 0xdb6db1b6;
   0xd816db01; 0xb6c01b60; 0x200000; 0x131a05; 0x10000100; 0x8; 0x8000; 0x400;
   0x400000; 0x24920; 0x24920490; 0x9249292; 0x49000804; 0x92594924; 0x80200249; 0x24249240;
   0x12492; 0x12490000; 0x124801; 0x24000000; 0x201f00; 0x40; 0x9000040; 0x12000090;
   0x9000048; 0x49000048; 0x92000092; 0x49008249; 0x49000048; 0x12492492; 0x1249240; 0x1000;
   0x592c00; 0x3cbe00; 0x3efe00; 0x5b6c80; 0x3cbe00; 0x241200; 0x492480; 0x259200;
   0x18000; 0x492400; 0x249000; 0x1000000; 0x12492492; 0x49049248; 0x49000048; 0x92000092;
   0x49000048; 0x9000048; 0x12000090; 0x9000040; 0x1d1e01; 0x40000; 0x2db0000; 0x49240002;
   0x4924016d; 0xb6d80492; 0x49002492; 0x906cb6c; 0xb0482482; 0x42402402; 0x2c92c92c; 0x90080084;
   0x480459; 0x2c925900; 0x82012924; 0x1249b6d9; 0x6db24924; 0x92524924; 0x916d925b; 0x64920124;
   0x24800920; 0xdb24b601; 0x20024809; 0x1200b6; 0xcb6c0049; 0x24800249; 0x200005b6; 0x240;
   0x0; 0x1d1e01; 0x48000; 0x2db2000; 0x49248002; 0x4924006d; 0xb2d80492; 0x49202412;
   0x902db6c; 0xb6092492; 0x42480012; 0x4d96496c; 0x92090494; 0x804804d9; 0x24925924; 0x90492920;
   0x49b2d9; 0x65b24824; 0x12524120; 0x926d925b; 0x64924924; 0x84900920; 0x592496c1; 0x24924809;
   0x24924036; 0xdb6c0049; 0x24800249; 0x240005b6; 0x40000240; 0x0; 0x202000; 0x9249248;
   0x5b6db6d8; 0xb6db6db6; 0x5b6cb6db; 0x5b6c36db; 0xb6d92db6; 0x5b6002db; 0x5b6002db; 0xb6c925b6;
   0x5b6c36db; 0x5b6c36db; 0xb6d92db6; 0x5800001b; 0x5800001b; 0xb64924b6; 0x5b6c36db; 0x5b6c36db;
   0xb6d92db6; 0x5b6c36db; 0x5b6c02db; 0xb6d925b6; 0x5b6402db; 0x5b0002db; 0xb6c92db6; 0x5b6436db;
   0x5b6436db; 0xb6d92db6; 0x5b6c36db; 0x5b6c36db; 0xb6db6db6; 0x5b6db6d8; 0x9249248; 0x1f2000;
   0x12492490; 0x2db6db65; 0xb6db6db5; 0xb6496dbb; 0x60005b6d; 0x92492dad; 0x92002ddb; 0x2c801b6d;
   0xb6c92d6d; 0xb6c02edb; 0x6d805b6d; 0xb6c96b6c; 0xb6017609; 0x6c00db25; 0xb64b5805; 0xb603800b;
   0x6006d92d; 0xb25ad92d; 0x805db25b; 0xb6cb6d; 0x92d6db6c; 0x2edb6c8; 0x5b6db64; 0x96b6db00;
   0xb76c1001; 0x6db24925; 0xb5b2002d; 0xbb6c025b; 0x6db6db6d; 0x8db6db6d; 0x89249248; 0x1f2000;
   0x49249248; 0xb6db6db2; 0xdb6db6de; 0xdb6db6cd; 0xb2016d96; 0xd924b6f6; 0xc120b66c; 0x12482cb2;
   0x596cb7b2; 0xd96cb305; 0xb2d86596; 0xcb65bc36; 0xcb61982d; 0x96c12cb6; 0x5b65e1b6; 0x5b0cc360;
   0x16096592; 0x5b2f0c80; 0x58660824; 0x104b2496; 0x4b7b0596; 0xb360b2c; 0x16592cb6; 0x5bd82c90;
   0xd9b20005; 0xb2db2496; 0xdedb00b6; 0xcdb6496d; 0x96db6db6; 0xd6db6db6; 0x4924920; 0x202000;
   0x9249248; 0x5b6db6d8; 0xb6db6db6; 0x5b6db6db; 0x5b6012db; 0xb6c925b6; 0x5b0000db; 0x5920005b;
   0xb64924b6; 0x5961801b; 0x5961800b; 0xb2cb6496; 0x5961800b; 0x4160000b; 0xb2d92496; 0x536c000b;
   0x436c800b; 0xb2db6496; 0x5b6db00b; 0x496c100b; 0xb2d92c96; 0x596c301b; 0x586c101b; 0xb65b6cb6;
   0x5b2db05b; 0x5b05805b; 0xb6c925b6; 0x5b6416db; 0x5b6496db; 0xb6db6db6; 0x5b6db6d8; 0x9249248;
   0x1f2000; 0x12492490; 0x2db6db65; 0xb6db6db5; 0xb6db6dbb; 0x6d82db6d; 0xb6496dad; 0xb0096dd9;
   0x4100b6c; 0x96596d6c; 0x36d86ec0; 0x20805b64; 0xb2596b0c; 0x2597618; 0x20b2db6c; 0xb2cb5821;
   0xb24b9003; 0x6002db65; 0x965acb64; 0x365d8600; 0x2cb6c964; 0xb2d6c96c; 0x6ed8208; 0xdb64b2c;
   0xb6b60b60; 0x376c8001; 0x2db6c92d; 0xb5b6c96d; 0xbb6d92db; 0x6db6db6d; 0x8db6db6d; 0x89249248;
   0x1f1e01; 0x48000; 0x924800; 0x4924800; 0x9249001; 0x24924801; 0x24924802; 0x49249009;
   0x24924849; 0x24924892; 0xc93c924b; 0x64b2424b; 0x25b2449e; 0x49e4925b; 0x25925259; 0x25922492].
Definition emoji_data_169 : list N :=
  [0x49249249; 0x24929249; 0x24912492; 0x492492db; 0x248496db; 0x24812c97; 0xc804b24b; 0x24049249;
   0x20092492; 0x40249249; 0x49248; 0x92490; 0x49240; 0x49200; 0x0; 0x1f1e01;
   0x49000; 0x924800; 0x4924800; 0x9249200; 0x24924901; 0x24924802; 0x49249009; 0x2c964809;
   0x6cb64813; 0xd96f905b; 0x2496ca59; 0x24924492; 0x4924924b; 0x6d92525b; 0x2d9224b2; 0x492496c9;
   0x25b2b2c9; 0x24912492; 0x4921b649; 0x2db09249; 0x24812596; 0x490596db; 0x2c0496d9; 0x24092592;
   0x40049249; 0x20049249; 0x12490; 0x49240; 0x9200; 0x0; 0x1f2000; 0x12492490;
   0x24924925; 0xb6db6db5; 0xb6db6db9; 0x2492492d; 0xb64b6dad; 0xb2016dc9; 0x2002496d; 0x92cb6d6d;
   0x96c36e48; 0x24824b6c; 0xb6cb6b60; 0xb60b7241; 0x24125b65; 0xb65b5b65; 0xb0db92c1; 0x2192db24;
   0x96dadb20; 0x16dc9241; 0x2496db65; 0xb6d6d904; 0xb6e49001; 0x24b6d925; 0xb6b6c825; 0xb724b059;
   0x25b6d96d; 0xb5b6db6d; 0xb9249249; 0x2db6db6d; 0x8db6db6d; 0x89249248; 0x1f2000; 0x49249248;
   0xb6db6db2; 0xdb6db6de; 0xdb6db6cd; 0xb6db6d96; 0xdb6db6f6; 0x496db66c; 0xdb6cb2; 0x496db7b0;
   0x5b6db360; 0xb6db6592; 0x5b6dbd90; 0x496d9b30; 0x5b2cb2; 0x496decb0; 0xd86cd961; 0xb0596d96;
   0xd96f6d96; 0xd966da2d; 0xb2cb6cb6; 0xcb7b6cb6; 0x8b36d86c; 0x165b64b2; 0x5bdb6082; 0xd9b6d805;
   0xb2db6cb6; 0xdedb6db6; 0xcdb6db6d; 0x96db6db6; 0xd6db6db6; 0x4924920; 0x202000; 0x9249248;
   0x5b6db6d8; 0xb6db6db6; 0x5b6db6db; 0x5b2db6db; 0xb65b6cb6; 0x5805b05b; 0x5805800b; 0xb2cb6596;
   0x5965820b; 0x5861820b; 0xb2db6596; 0x5b6186db; 0x5b6186db; 0xb6d92db6; 0x5b6196db; 0x5b6096db;
   0xb6d92db6; 0x5b6896db; 0x5b6096db; 0xb6d92db6; 0x5b6c96db; 0x5b6c16db; 0xb6d92db6; 0x5b6c36db;
   0x5b6c16db; 0xb6d92db6; 0x5b6cb6db; 0x5b6cb6db; 0xb6db6db6; 0x5b6db6d8; 0x9249248; 0x1f2000;
   0x12492490; 0x2db6db65; 0xb6db6db5; 0xb6db6dbb; 0x6db6db6d; 0xb6db6dad; 0xb6db6dc8; 0x2db60164;
   0xb6d92504; 0x16c10648; 0x24824b6c; 0x924b6b6c; 0x5b76d8; 0xb6db64; 0xb2db5b65; 0xb0dbb60b;
   0x60b6db2d; 0xb2dad82d; 0x82ddb05b; 0x5b6d96d; 0x96d6d96c; 0x36edb048; 0x6db6c925; 0xb6b6c005;
   0xb76d904b; 0x6db6db6d; 0xb5b6db6d; 0xbb6db6db; 0x6db6db6d; 0x8db6db6d; 0x89249248; 0x1f2000;
   0x24924924; 0x6db6db6c; 0xdb6db6db; 0x6db6db6b; 0x6db6db76; 0x92492db; 0x24924b59; 0xbb6;
   0x4104b6db; 0x6d96dadb; 0xd96ddb6; 0x1b2db6db; 0x6cb6d6d8; 0x6cb6edb0; 0xd96db6db; 0x65b6b6c3;
   0x65b76d86; 0xcb6db6db; 0x2db5b61b; 0x2dbb6c36; 0x5b6db6d9; 0x6dadb0d9; 0x6ddb2082; 0x5b6c9249;
   0x2d600000; 0x2ec12492; 0x5b6db6db; 0x6b6db6db; 0x66db6db6; 0xcb6db6db; 0x9249248; 0x1f2000;
   0x12492490; 0xb6db6db1; 0x6db6db65; 0xb6db6dbd; 0xb6db6d9b; 0x6c925b2d; 0xb2496ded; 0x80402cd8;
   0x492596c; 0xb6596f65; 0xb65966cb; 0x6cb2cb2d; 0xb2cb7b6d; 0xb24b36db; 0x60165b6d; 0xb6dbdb2d;
   0xb6d9b00b; 0x6db2c92d; 0xb6decb2d; 0xb2cd965b; 0x65965b6d; 0x96f6596c; 0x166c9240; 0x6cb64925;
   0xb7b2002d; 0xb36c925b; 0x65b6db6d; 0xbdb6db6d; 0x8b6db6db; 0x2db6db6c; 0x24924924; 0x202000;
   0x12492490; 0x5b6db6d8; 0x5b6db6d8; 0xb6db6db6; 0x5b6db6db; 0x5b20b6db; 0xb6496db6; 0x5b0436db;
   0x582416db; 0xb65b2db6; 0x586d96db; 0x582c96db; 0xb65b2db6; 0x582d12db; 0x582c005b; 0xb65b24b6;
   0x5b04161b; 0x5b04160b; 0xb6cb2d96; 0x5b64161b; 0x5960161b; 0xb2cb24b6; 0x5961805b; 0x5801805b;
   0xb64b6db6; 0x5905b6db; 0x5b2db6db; 0xb6db6db6; 0x5b6db6db; 0x5b6db6d8; 0x36db6db6; 0x9249248;
   0x1f2000; 0x24924924; 0x6db6db6c; 0xdb6db6db; 0x6db6db6b; 0x6db6db76; 0xdb0492db; 0x6c924b5b;
   0x6c820bb6; 0xc10436db; 0x6592dadb; 0x432ddb2; 0x865b6db; 0x2c96d6c0; 0x2196ed80; 0x432db649;
   0x64b6b641; 0xcb76082; 0x196db2cb; 0x25b5b208; 0x65bb6410; 0xcb6d965b; 0x6dad805b; 0x6ddb00b6;
   0xdb6d92db; 0x6d6d82db; 0x6edb00b6; 0xdb6cb2db; 0x6b60b6db; 0x66c16db6; 0xcb6db6db; 0x9249248;
   0x1f2000; 0x12492490; 0xb6db6db1; 0x6db6db65; 0xb6db6dbd; 0xb6db6d9b; 0x6c92db2d; 0xb24b6ded;
   0x80036cdb; 0x482d96c; 0xb6cb6f6c; 0xb6cb66c1; 0x6d86cb65; 0xb65b7b05; 0xb61b360b; 0x6c365b2d;
   0xb2dbdb2d; 0xb2d9b61b; 0x5b2d92d; 0x96dec82c; 0x12cc0058; 0x1964964; 0x96f6db6d; 0xb66c9249;
   0x2cb24924; 0xb7b00000; 0xb3649249; 0x65b6db6d; 0xbdb6db6d; 0x8b6db6db; 0x2db6db6c; 0x24924924;
   0x202000; 0x12492490; 0x5b6db6d8; 0x5b6db6d8; 0xb6db6db6; 0x5b6db6db; 0x5b64921b; 0xb6d92496;
   0x5b60005b; 0x5b60905b; 0xb6db2cb6; 0x5b61945b; 0x5b61905b; 0xb6db2cb6; 0x5b61945b; 0x5b61905b;
   0xb6db2cb6; 0x5b61945b; 0x5b61905b; 0xb6db2cb6; 0x5b61945b; 0x5b61905b; 0xb6cb6cb6; 0x5b65b6db;
   0x5805b6db; 0xb24b6db6; 0x582db6db; 0x582db6db; 0xb65b6db6; 0x5b6db6db; 0x5b6db6d8; 0x36db6db6;
   0x9249248; 0x1f2000; 0x24924924; 0x6db6db6c; 0xdb6db6db; 0x6db6db6b; 0x6db6db76; 0x4925b6db;
   0x2496db58; 0x16dbb0; 0x92db6d9; 0x2db6dac0; 0x2db6dd82; 0xb6db6cb; 0x2db6d608; 0x2db6ec12;
   0xb2db65b; 0x2d96b058; 0x2c3760b2; 0x86db6db; 0x25b5b6d8; 0xdbb6db0; 0x1b6db6d9; 0x2dadb6c0;
   0x2ddb6c86; 0xb6db65b; 0x2d6db6d8; 0x2edb6db2; 0x5b6db6db; 0x6b6db6db; 0x66db6db6; 0xcb6db6db;
   0x9249248; 0x1f2000; 0x12492490; 0xb6db6db1; 0x6db6db65; 0xb6db6dbd; 0xb6db6d9b; 0x6d904b2d;
   0xb6c92ded; 0xb6082cdb; 0x6c10596d; 0xb2d96f6d; 0xb2c366db; 0x586cb6d; 0x96cb7b6c; 0x161b36d8;
   0x2c365b6c; 0xb65bdb61; 0xb0d9b043; 0x61b2c92d; 0xb2de080d; 0x86cc101b; 0xd96596d; 0xb6f0496d;
   0xb66000db; 0x6cb2496d; 0xb7b2416d; 0xb36d805b; 0x65b6d96d; 0xbdb6db6d; 0x8b6db6db; 0x2db6db6c;
   0x24924924; 0x202000; 0x12492490; 0x5b6db6d8; 0x5b6db6d8; 0xb6db6db6; 0x5b6db6db; 0x5965b6db;
   0xb2db65b6; 0x586082db; 0x582080db; 0xb25924b6; 0x5900005b; 0x5900020b; 0xb2cb2496; 0x5961860b;
   0x5965924b; 0xb6db6db6; 0x5b6db6db; 0x596592db; 0xb2d965b6; 0x582082db; 0x5820005b; 0xb24924b6;
   0x5900025b; 0x5900820b; 0xb2cb6596; 0x596596cb; 0x5965b6cb; 0xb6db6db6; 0x5b6db6db; 0x5b6db6d8;
   0x36db6db6; 0x9249248; 0x1f2000; 0x24924924; 0x6db6db6c; 0xdb6db6db; 0x6db6db6b; 0x6db6db76;
   0x4b6d82db; 0x2db6cb5b; 0x2db61bb6; 0x1b6cb6db; 0x2db2dad8; 0x2d82ddb0; 0x5b05b6d9; 0x6d96d6d9;
   0x6c36ed92; 0x482db649; 0x2496b000; 0x176000; 0x2db65b; 0x65b5b65b; 0xdbb60b6; 0xb6db2db;
   0x2dad86db; 0x2ddb0db6; 0x5b6cb6d9; 0x2d6cb6d8; 0x6ec96db0; 0x5b6db6db; 0x6b6db6db; 0x66db6db6;
   0xcb6db6db; 0x9249248; 0x142000; 0x160001b; 0x7b600; 0xb6c00df6; 0xfff00b; 0x6d80ffe0;
   0x7fe00b6; 0xc007fe00; 0x7b600b6d; 0x7fe003; 0xfc0036c0; 0x7fe007f; 0xe00b6c00; 0xffe00fff].
Definition emoji_data_170 : list N :=
  [0x1b6d83f; 0xffc3fffc; 0x5b6da7ff; 0xfc7fffed; 0xb6db7db7; 0xc6db6c5b; 0x6db24924; 0x1a2000;
   0x80000; 0x3000003; 0xe000016c; 0x7f80; 0x7ff000; 0x2db6000f; 0xffc00fff; 0xf805b6db;
   0x1ffffe0; 0x7ffff836; 0xdb6d9fff; 0xffe7ffff; 0xfadb6db6; 0xffffffff; 0xfffffb6d; 0xb6dbffff;
   0xff7fffff; 0xcdb6db65; 0xfedfe07f; 0xfbf8061b; 0x2c000fc0; 0x3f800; 0x36d8003; 0xfff007ff;
   0xff816db6; 0xc0249248; 0x1a1f01; 0x90000; 0x1fc0000b; 0x6c0003ff; 0x8000ffe0; 0x6db000;
   0xffe0007; 0xff8001b6; 0xc0003ff8; 0x7f800; 0xb6db6c3f; 0xffff0fff; 0xffe6db6d; 0xb3fffffe;
   0xffffffdb; 0x6db6dfff; 0xfffbffff; 0xfe6db6db; 0xff7ffe1; 0xfdf7c016; 0x5960001f; 0x1fc0;
   0xb6c00; 0xbff801f; 0xfffc0b6d; 0xb6c12492; 0x40000000; 0x1c1903; 0x5805b01; 0x6c06d83f;
   0xf0ff86db; 0x2db6b6d9; 0x6dbfffff; 0xff6db6db; 0x6b6db6db; 0xfffffff6; 0xdb6db6b6; 0xdb6db3ff;
   0xfffc2db6; 0xdb636db6; 0xd81fffff; 0x80db6db0; 0x6db6d00; 0x7fffc005; 0xb6d8002d; 0xb6c000ff;
   0xe0000b6c; 0x5b60; 0x1f000; 0x160000; 0x172000; 0x200000; 0x600000c0; 0x36000;
   0xb60003f; 0xc000db40; 0x2db0007; 0xff8016db; 0x36db00; 0xffff05b6; 0xdb05b6db; 0x1ffffe6d;
   0xb6db6db6; 0xd8fffff1; 0x6db6c16d; 0xb681fffe; 0x16db003; 0x6db003ff; 0xc0036d80; 0x36c0007;
   0xf8000b60; 0xb0000; 0x6000008; 0x800; 0x1e1f01; 0xa28200; 0x3c71c00; 0x6186000;
   0xc30c000; 0x30c10000; 0xa28a0003; 0xc30000c; 0x30c00061; 0x828002cb; 0x2c000e38; 0xf0005965;
   0x80018618; 0x61860; 0x30c300; 0x618600; 0x1861800; 0xc30c000; 0x18618008; 0x61860041;
   0x65960902; 0xcb2c3603; 0xc30f008; 0x20866000; 0x2cc000; 0xc5b000; 0x2d836402; 0xd805f6ff;
   0x5b6d8; 0x12400; 0x0; 0x1d1d01; 0x5b2000; 0x1240000; 0x92c0000; 0xb6c00002;
   0x5b000092; 0xd8001b6d; 0xb00124b6; 0x12080; 0x36c800; 0x490480; 0x2482480; 0x2d82db00;
   0x80092000; 0x490600; 0x5b05b00; 0x1242d800; 0x922d9009; 0x6db64004; 0x94924124; 0xdb6c16d9;
   0x2490d929; 0x2486c8b6; 0xdb2db249; 0x21b60249; 0x59000b0; 0x8000200; 0x0; 0x1f1f01;
   0x5b6400; 0x2db6c00; 0x4924800; 0x36db6c00; 0xb6db6c01; 0x2492480d; 0xb6db6c2d; 0xb6db6c49;
   0x2492496c; 0xb6c96160; 0x16016200; 0x24004b2c; 0xb2c9786c; 0x82c11049; 0x4824b6c; 0xb6cbc360;
   0x96088241; 0x2412c92c; 0x92dac02c; 0x2c48249; 0x496db6d; 0xb616db6d; 0xb6049249; 0x2016db6d;
   0xb016db6d; 0x80249249; 0x16db6c; 0x16db60; 0x49200; 0x24800; 0x0; 0x202000;
   0x9249248; 0x36db6db6; 0x5b6db6db; 0x5b6db6db; 0xb65b6db6; 0x582db6db; 0x580db6db; 0xb65b2db6;
   0x592406db; 0x5b2002db; 0xb6c965b6; 0x5b00b2db; 0x5b00b6db; 0xb6c96db6; 0x5b6192db; 0x5921805b;
   0xb64b2cb6; 0x5804b61b; 0x5824f71b; 0xb6596d96; 0x5a2db6db; 0x5e2cb6cb; 0xb6596d96; 0x5b2cb69b;
   0x5b3cb61b; 0xb65b2cb6; 0x5b6d905b; 0x5b6d80db; 0xb6db6db6; 0x5b6db6db; 0x5b6db6d8; 0x12492490;
   0x1f1e00; 0x400000; 0x1601600; 0xb603600; 0x16c06c00; 0xdb65b602; 0xdb05b605; 0xb60b6c16;
   0xd80db636; 0xd00db66d; 0x900b6db6; 0xd86db5b6; 0xc12dbb64; 0x924b0d86; 0xdb0c2c02; 0x48001804;
   0x90006016; 0xd8000012; 0x40000024; 0x900005b6; 0xd8000482; 0xc0000904; 0x90016c06; 0xd8012002;
   0xc0024004; 0x901b0006; 0xd8480002; 0xc0900004; 0x82c00006; 0xc2000002; 0x0; 0x1c1f01;
   0x16c000; 0x5b60000; 0x5960000b; 0xc000040; 0x60000406; 0x30c0; 0x5b600; 0x1b0000;
   0x1600000; 0x4b200005; 0xb60000b6; 0xd80005b6; 0xb00; 0x6000; 0x100b0083; 0xb0086c;
   0x6016b40; 0xb01bb60b; 0x5b2c060; 0x16100b01; 0x8140b018; 0xc060300; 0x60b05006; 0xb0c005b;
   0x658000db; 0x600005b6; 0x1240; 0x0; 0x201f01; 0x10000012; 0x48000048; 0x40000008;
   0x32000096; 0x49000248; 0x8000048; 0x164004b0; 0x9201240; 0x1000240; 0x2c82580; 0x1249200;
   0x201200; 0x592c00; 0x249000; 0x41000; 0xb2000; 0x249000; 0x48000; 0x24b6490;
   0x1249240; 0x1241200; 0x2582c80; 0x12012c0; 0x1200240; 0x16c825b0; 0x9041048; 0x48000048;
   0xb2000016; 0x5800001b; 0x7800000e; 0x10000012; 0x1f2000; 0x12492490; 0x5b6db6da; 0xdb64b6dd;
   0xb6c16db6; 0xdb65b6d6; 0xdb0496ed; 0xb6092db6; 0xdb24b6b6; 0xdb64376d; 0xb2486db6; 0xc925b5b6;
   0x2dbb60; 0x825b6db2; 0xcb6dad90; 0x5b6ddb60; 0x2db6db6; 0x496d6db6; 0xc36edb64; 0x2db6d92;
   0x5b6b6c02; 0xdb76d905; 0xb6db6496; 0xdb5b6496; 0xdbb6d805; 0xb6db6c96; 0xdadb6416; 0xddb6c16d;
   0xb6db25b6; 0xd6db6db6; 0xc5b6db6c; 0x92492492; 0x1d1a04; 0x10000; 0x240000; 0x9240004;
   0x92490012; 0x49200080; 0x1001804; 0x16012000; 0x58090002; 0x40860824; 0x6400190; 0x30000083;
   0x410c308; 0x30080800; 0x80405649; 0x24924920; 0x124a4900; 0x92649249; 0x24124024; 0x80000000;
   0x48000; 0x120000; 0x4920000; 0x49200001; 0x24800000; 0x1e1e02; 0x2000; 0x0;
   0x9249000; 0x92492000; 0x92; 0x49248924; 0x92482000; 0x2092; 0x49200924; 0x92400000;
   0x12db6; 0xc802db6d; 0xb0012492; 0x405b6db6; 0x924924; 0x492480; 0x12db6d80; 0x64924901;
   0x92492405; 0xb6db6c08; 0x2590c020; 0x10040; 0x92080200; 0x60100801; 0x404004; 0xc18018;
   0x0; 0x100000; 0x10000000; 0x1f2000; 0x10000; 0x58000; 0xd8000; 0x1b0000;
   0x582c1600; 0xd96c3601; 0xb6db6c06; 0xdb6db006; 0xdb6db005; 0xb05b0006; 0xc02d0016; 0x2c002c;
   0x1804b0; 0x2cadb0; 0x6ddb00; 0x5b6d80; 0x16d6d80; 0x36c4b00; 0x6402c00; 0x1b002c00;
   0x58005800; 0xb0016c96; 0xd8036db6; 0xd806db6d; 0xb01b6db6; 0xc01b2d86; 0xc0101b04; 0x2c00;
   0x6c00; 0xd000; 0x12000; 0x1f2000; 0x9249241; 0x6db6db63; 0x6db6db66; 0xdb65b6cb;
   0x6d96db7b; 0x6c06db36; 0xd805b65b; 0x6d96dbdb; 0x6596d9b0; 0x4b20b2c9; 0x2c92dedb; 0xb2cd96;
   0x1659659; 0x6596f601; 0x60366c02; 0x406cb649; 0x65b7b00b; 0x1b36580; 0x59659649; 0x65bdb601;
   0x659b2090; 0x4b2c92c9; 0x2dedb2cb; 0x6cdb6496; 0xd96db65b; 0x6f6d80db; 0x66db25b6; 0xcb6db6db;
   0x7b6db6db; 0x16db6db6; 0x9249248; 0x201f01; 0x10000; 0x8000; 0x48000; 0xb6000;
   0x49000; 0x49000; 0xb6000; 0x49000; 0x1049040; 0x16cb65b0; 0x5b6496d8; 0x5b6496d8;
   0xb6db6db6; 0x5b6c96db; 0x5864960b; 0xb05b6c06; 0x400cb00a; 0xc9000; 0x1b6c00; 0x2db000;
   0x2db000; 0x1b6c00; 0x2db000; 0xc9040; 0x25b6c80; 0x36c96c0; 0x1649680; 0xdb6d80;
   0x8000; 0x8000; 0x10000; 0x1d1c02; 0x40000; 0x200000; 0x2400000; 0x9000000].
Definition emoji_data_171 : list N :=
  [0x48000005; 0x800000be; 0x5f0; 0x4b20; 0x17c80; 0xbe400; 0x4964800; 0x12f90000;
   0x97c80009; 0x2c900025; 0xf240012f; 0x92009259; 0x24024be4; 0x80124d24; 0x1249248; 0x4924920;
   0x24be4912; 0x4b649249; 0x2f924249; 0x24922492; 0x49249249; 0x24900000; 0x191f01; 0x2000000;
   0x80000040; 0x4800; 0x120000; 0x9000001; 0x20000048; 0x2400; 0x248000; 0x9200004;
   0x90092492; 0x2492481; 0x24924824; 0x92490924; 0x92049200; 0x920000; 0x24800012; 0x40000248;
   0x9000; 0x80000; 0x9000002; 0x40000020; 0x2400; 0x80000; 0x0; 0x80000000;
   0x202000; 0x9249248; 0x36db6db6; 0x5b6db6db; 0x5b6db6db; 0xb6db6db6; 0x5925925b; 0x5801801b;
   0xb65b64b6; 0x582db01b; 0x5804901b; 0xb6c924b6; 0x5960801b; 0x5860821b; 0xb6cb65b6; 0x5b65b2db;
   0x5b05b2db; 0xb6cb65b6; 0x5b65b2db; 0x5b6482db; 0xb6c925b6; 0x5b6416db; 0x5b6c16db; 0xb6db6db6;
   0x5b6006db; 0x5b6006db; 0xb6db6db6; 0x5b6c36db; 0x5b6cb6db; 0xb6db6db6; 0x5b6db6db; 0x5b6db6d8;
   0x12492490; 0x1d1f01; 0x492000; 0x9248000; 0x24; 0x92490092; 0x49200000; 0x4924;
   0x92092492; 0x48000000; 0x4924924; 0x92492490; 0x9; 0x24924924; 0x92492400; 0x1249;
   0x24924924; 0x92480000; 0x249249; 0x24924924; 0x80000000; 0x49249249; 0x24924900; 0x12;
   0x49248049; 0x24900000; 0x492; 0x48001249; 0x0; 0x2400; 0x0; 0x202000;
   0x92000; 0x1ffc00; 0xb6db00; 0x2ffff80; 0x3ffffc0; 0xdb6db60; 0x17fffff0; 0x1ffffff8;
   0x2db6db6c; 0x3ffffffe; 0x3ffffffe; 0x6db6db6c; 0xbffffffe; 0xfffffffe; 0x6db6db6d; 0xfffffffe;
   0xfffffffe; 0x6db6db6d; 0xfffffffe; 0x7ffffffe; 0x6db6db6c; 0x3ffffffe; 0x3ffffffc; 0x2db6db6c;
   0x1ffffff0; 0x1ffffff0; 0xdb6db60; 0x3ffff80; 0x3ffff80; 0xb6db00; 0x5fec00; 0x12000;
   0x1d1e01; 0x2000001; 0x6d900005; 0xb2000024; 0x920006db; 0x60004b24; 0x80024924; 0xdb6d8;
   0xb64b20; 0x4924900; 0x1b6db601; 0x65b2c803; 0x24924016; 0xdb6d80d9; 0x2cb20249; 0x24902db6;
   0xdb60b2cb; 0x2c809249; 0x240b6db6; 0xd02db2cb; 0x249258; 0xdb6da0; 0x165be00; 0x125f000;
   0x16db0000; 0x1b7c0000; 0x4b800000; 0xb0000002; 0xc0000000; 0x161e01; 0x124001b; 0x6c00b6d8;
   0x2c96006; 0xdb002db6; 0x96c805; 0xb6d81b6d; 0xb1249243; 0x6db612db; 0x64492492; 0xdb6db492;
   0x49124924; 0xb6db6d6d; 0xb6c49249; 0xdb6d85b; 0x6db02492; 0x416db606; 0xdb680924; 0x805b6d80;
   0xb6d80049; 0x2002db00; 0x4900000; 0x201f00; 0x92000; 0x1ffc00; 0xb6db00; 0x5bec80;
   0x10000; 0xc924960; 0x16010030; 0x1e010038; 0x2c92c92c; 0x3e0be03e; 0x3c0ff01e; 0x6cb6d92c;
   0xb27ffc9e; 0xf07ffe1e; 0x64b6db2d; 0xf05ffc06; 0x201ffc02; 0x24b6d924; 0x101ffc02; 0x1ffc00;
   0x2496d924; 0x10092410; 0x1a000018; 0x2d92496c; 0x1fc001f0; 0x1fc001f0; 0xdb24b60; 0x3f80f80;
   0x3f80f80; 0xb65b00; 0x580c00; 0x1f1d02; 0x492400; 0x2492400; 0x4000800; 0xb6492c00;
   0xb2492403; 0x7804; 0x92496c24; 0x924b240b; 0xe006012d; 0x924b2124; 0x924b2008; 0x10096c;
   0x92c9296c; 0x92d90058; 0x5804924; 0x92494924; 0x92481e00; 0x5824b24; 0xb6424b24; 0xb2419000;
   0x2406c924; 0x9602c924; 0xb0058001; 0xe0124924; 0x80024924; 0x0; 0x24920; 0x4800;
   0x0; 0x1a1f00; 0x248000; 0x1fe00005; 0xb00001b6; 0x7f80; 0x36d800; 0x1ffe0000;
   0x92000049; 0x960; 0x4000; 0x41240000; 0x24801009; 0x20090db6; 0x901b601; 0x8018044;
   0x92492012; 0x59040006; 0x24920; 0x4b6400; 0x180009; 0x24900124; 0x90000300; 0x249200;
   0x4924000; 0x12; 0x48000240; 0x0; 0x1d1e01; 0x8000; 0x80000; 0x200000;
   0x1008020; 0x10080080; 0x1200412; 0x4124; 0x10002490; 0x12480; 0x124900; 0x492400;
   0x82492489; 0x24924820; 0x92492000; 0x2400049; 0x24004924; 0x90000000; 0x1249248; 0x4924920;
   0x2; 0x49249249; 0x24924800; 0x492; 0x49249249; 0x24920000; 0x92492; 0x49049249;
   0x20000000; 0x1f1d02; 0x490000; 0x490000; 0x0; 0x92492404; 0x92492000; 0x24;
   0x92492024; 0x92492000; 0x124; 0x92492124; 0x92492000; 0x924; 0x92492124; 0x92490000;
   0x124; 0x92480004; 0x80000009; 0x82d; 0x90000824; 0x90001009; 0x2080436c; 0x82c00124;
   0x2040200; 0x4300b00; 0x80120100; 0x80040201; 0x6030c; 0x120004; 0x0; 0x202000;
   0x9249248; 0x5b6db6d8; 0xb6db6db6; 0x5b6db6db; 0x5b6db2db; 0xb6db6db6; 0x5b0db2db; 0x5b0db0db;
   0xb6cb65b6; 0x5b0db2db; 0x5b0db0db; 0xb6cb65b6; 0x4b0d905b; 0x410c805b; 0xb2cb2496; 0x590c120b;
   0x58001003; 0xb6496596; 0x5b05b2cb; 0x5b05b0cb; 0xb6cb65b6; 0x5b0db2db; 0x5b0592db; 0xb6cb65b6;
   0x5b6082db; 0x5b6002db; 0xb6d92db6; 0x5b6db6db; 0x5b6db6db; 0xb6db6db6; 0x5b6db6d8; 0x9249248;
   0x1d1e00; 0x48000; 0x16c8000; 0x16db0000; 0xb6c8000; 0x3640000; 0x16d00000; 0x5b000002;
   0x5800002d; 0xb0000096; 0xc0002496; 0x2d960; 0x90580; 0x2480c00; 0x2d80c000; 0x90030024;
   0x801802d8; 0x800900; 0x6024800; 0x102d8001; 0x900000; 0x24800002; 0xd8000009; 0x248;
   0x2d80; 0x9000; 0x48000; 0x580000; 0x0; 0x1c1c02; 0x16c000; 0xdb60002;
   0xfffc005b; 0x6db006db; 0x7d01ffff; 0xf82db6db; 0x36d97d8; 0x3fc97fc6; 0xdb25b637; 0xc97da7ff;
   0x9ffe6db2; 0xdb6bfdb7; 0xfb17ffff; 0x82db6db6; 0x16db6d81; 0x4920820; 0x12410100; 0x80000;
   0xc000; 0x30020004; 0x200040; 0x1925800; 0x5b60000; 0x9000001; 0x60000000; 0x191d02;
   0x92402424; 0x80090000; 0x24024; 0x90800800; 0x48; 0x4021001; 0x0; 0x9201252;
   0x40248000; 0x82402; 0x42000080; 0x104; 0x80484800; 0x12000000; 0x4900921; 0x20120000;
   0x9008; 0x4200200; 0x12; 0x124a480; 0x49000000; 0x12480484; 0x10000; 0x202000;
   0x92000; 0x1ffc00; 0xb6db00; 0x2db6d80; 0x3ffffc0; 0xdb6db60; 0x16db6db0; 0x1ffffff8;
   0x2db6db6c; 0x36db6db6; 0x3ffffffe; 0x6db6db6c; 0xb64924b6; 0xf000000e; 0x6492492d; 0xb0000006;
   0xf0000006; 0x6492492d; 0xb0000016; 0x7249249e; 0x6db6db6c; 0x36db6db6; 0x3ffffffc; 0x2db6db6c;
   0x16db6db0; 0x1ffffff0; 0xdb6db60; 0x2db6d80; 0x3ffff80; 0xb6db00; 0x5b6c00; 0x12000;
   0x201f01; 0x20000004; 0xdb24925b; 0x7ff6dbfe; 0x7ffffffe; 0x5b6db6da; 0x2db6db6c; 0x3ffffffc;
   0xb6db6d8; 0x582c160; 0x703c0e0; 0xb0180c0; 0x2592c964; 0x7ffffffe; 0x5b6db6db; 0x6db6db6c;
   0x70000e0; 0xb0000c0; 0x5000060; 0x70000e0; 0xb0000c0; 0x5000060; 0x70000e0; 0xb0000c0].
Definition emoji_data_172 : list N :=
  [0x5000060; 0x70000e0; 0xb0000c0; 0x5800160; 0xf8001f0; 0x1b4002d8; 0xf8003f8; 0x4800120;
   0x1a1f01; 0x40000; 0x2400000; 0x40000010; 0x800; 0x10000; 0x400000; 0x6c00002d;
   0x80001960; 0xc9600; 0xb20000; 0xc000016; 0xc00002c8; 0xfa00; 0x5b0000; 0x592c0030;
   0xb005924; 0xb0592496; 0x120000b9; 0x24924924; 0xb248010c; 0x1005b6db; 0x24b2cb20; 0xc30c016;
   0xdb6c92cb; 0x2c801041; 0x0; 0x1f1d03; 0x10000; 0x70000; 0x1b0000; 0x7b0000;
   0xfe0000; 0x2db0000; 0x17db0000; 0x3ffe0000; 0xb6d80001; 0xf6d8000f; 0xfffc000d; 0xb6d8003f;
   0xb6d8007f; 0xfffc016d; 0xb6d803ed; 0xb6f807ff; 0xfff85b6d; 0xb6d8ff6d; 0xf6e1ffff; 0xffc6db6d;
   0xb6c7db6f; 0xb78fffff; 0xffb6db6d; 0xb6ffdb7f; 0xb7ff96df; 0x6db6db6d; 0xb5b6db6d; 0xb1249249;
   0x20000000; 0x1e1f01; 0x100000; 0x490000; 0x2c96000; 0x2d92c004; 0x3f018025; 0xb64b00cb;
   0x6c960c0f; 0xf018596d; 0xb2d992db; 0x258603fc; 0x3165b6c; 0x8064b6c0; 0x1805800; 0xd905800;
   0x19008000; 0x20020000; 0x160000; 0x200000; 0x800000; 0x1800000; 0xb000000; 0xc000000;
   0x60000000; 0xc0000003; 0x4925b; 0x248924b2; 0x49249249; 0x25249249; 0x22492492; 0x40000000;
   0x1d2000; 0x82400; 0x21b000; 0x4820100d; 0xb2014092; 0xd8040402; 0x400c; 0xc22082;
   0x100f8; 0x1801960; 0x96080; 0x80403; 0x4305100; 0x80010000; 0x49; 0x64800125;
   0x92000924; 0x900496db; 0x6496db6c; 0x90924924; 0x4b6c96d9; 0x2d92db28; 0x249241b2; 0x5b64b249;
   0x24925249; 0x24936db6; 0xdb609249; 0x24049249; 0x200b6db2; 0x9000; 0x202000; 0x400;
   0x3600; 0xfe00; 0xb6c00; 0x2db600; 0x2ffe00; 0xb6c00; 0xb600; 0x1600;
   0x400; 0x200; 0x200; 0x400; 0x200; 0x200; 0x400; 0x200;
   0x200; 0x92400; 0x249200; 0x1249240; 0x6db6db0; 0x925b248; 0x9249248; 0x36db6db6;
   0x4925bac8; 0x4925fbc8; 0xb6db6db6; 0x4924b6c9; 0x49249248; 0x36db6db6; 0x9249248; 0x1f1a06;
   0x1900; 0x4900; 0x1200; 0x490d800; 0x4904800; 0x1; 0x2cb2c000; 0x6db68000;
   0x41040049; 0x2492484b; 0x64924082; 0x492402db; 0x6db606db; 0x6db607ff; 0xffe016db; 0x6db29249;
   0x24922492; 0x4925b6db; 0x6db49249; 0x24912492; 0x492db6db; 0x6da49249; 0x24892492; 0x496db6db;
   0x6c249249; 0x24000000; 0x1f1f01; 0x40000; 0x80000; 0x200000; 0x200000; 0x2400000;
   0xb600000; 0x9200000; 0x12400002; 0xdb200002; 0x49200004; 0x92400036; 0xc9200092; 0x49200124;
   0x924005b6; 0x49200492; 0x49000924; 0x920024b2; 0x49000010; 0x20; 0x92492; 0x49092492;
   0x48000000; 0x92492; 0x40492492; 0x924924; 0x2db6db6; 0xda492492; 0x44924924; 0x96db6db6;
   0xd2492492; 0x0; 0x1f1e01; 0x1001000; 0x3c02000; 0xb61b200; 0xb64b000; 0x2c92000;
   0x16d9000; 0x1648000; 0x780000; 0x496c0000; 0x49200000; 0x482; 0x49200492; 0x4920002c;
   0x20024b6; 0x4b6024b6; 0xd9600825; 0xb00164b6; 0xc8012496; 0xc800492d; 0x80096db6; 0xc9092592;
   0xc8000b00; 0x90492d92; 0xd9492592; 0x48000120; 0x124925b2; 0x4a492492; 0x40000024; 0x2492492;
   0x40000000; 0x1d1e01; 0x8000000; 0x78048005; 0xb05b0016; 0xc1640007; 0xc920002d; 0xb20000b6;
   0x480000b2; 0x24960; 0x92480; 0x1; 0x4924004; 0x12490001; 0x8001025b; 0x2590092d;
   0xb0c0412c; 0x820492db; 0x20124b64; 0x125b20; 0x96d96c8; 0x24b65920; 0x4904912; 0x4b64b649;
   0x2c924800; 0x24822492; 0x5b249249; 0x24900001; 0x20492492; 0x48000000; 0x1f1e01; 0x1000000;
   0x6002000; 0x1b45b000; 0xb459000; 0x3c92000; 0x36d8000; 0x9648000; 0x2c80000; 0x49600002;
   0x49200000; 0x412; 0x49200492; 0x49200020; 0x24025b2; 0x59602496; 0xd940082c; 0xa20124b6;
   0xc80124b6; 0xc0004864; 0x80096db6; 0xc8092596; 0x48004b04; 0x90492d92; 0xd9492d92; 0x48000920;
   0x824925b2; 0x4a492492; 0x40000120; 0x12492492; 0x0; 0x1f1e01; 0x1001000; 0x3c02000;
   0xb61b200; 0xb64b000; 0x2c92000; 0x16d9000; 0x16d8000; 0x780000; 0x496c0000; 0x49200000;
   0x482; 0x49200492; 0x4920002c; 0x20024b6; 0x4b6024b6; 0xd9600825; 0xb00164b6; 0xc8012496;
   0xc800492d; 0x80096db6; 0xc9092592; 0xc8000b00; 0x90492d92; 0xd9492592; 0x48000120; 0x124925b2;
   0x4a492492; 0x40000024; 0x2492492; 0x40000000; 0x1d1e01; 0x8000000; 0x78048005; 0xb05b0016;
   0xc1640007; 0xc920002d; 0xb20000b6; 0xc80000be; 0x24960; 0x92480; 0x1; 0x4924004;
   0x12490001; 0x8001025b; 0x2590092d; 0xb0c0412c; 0x820492db; 0x20124b64; 0x125b20; 0x96d96c8;
   0x24b65920; 0x4904912; 0x4b64b649; 0x2c924800; 0x24822492; 0x5b249249; 0x24900001; 0x20492492;
   0x48000000; 0x1f1e01; 0x1000000; 0x6002000; 0x1b45b000; 0xb459000; 0x3c92000; 0x36d8000;
   0x9648000; 0x2c80000; 0x49600002; 0x49200000; 0x412; 0x49200492; 0x49000020; 0x24025b2;
   0x59602496; 0xd940082c; 0xa20124b6; 0xc80124b6; 0xc0004864; 0x80096db6; 0xc8092596; 0x48004b04;
   0x90492d92; 0xd9492d92; 0x48000920; 0x824925b2; 0x4a492492; 0x40000120; 0x12492492; 0x0;
   0x1f1a06; 0x2490; 0x2490; 0x0; 0x12480; 0x12480; 0x0; 0x92400;
   0x92400; 0x0; 0x2492000; 0x6492000; 0x26000004; 0xb6490004; 0x92490009; 0x924;
   0x92490924; 0x92480000; 0x24924; 0x924a4924; 0x12400040; 0x4060100; 0x10120900; 0x90249249;
   0x2416db6d; 0xb6124924; 0x90000000; 0x1c1f00; 0x30000; 0x780001; 0x7fc0000d; 0xb600006c;
   0x800000c0; 0x900; 0xc000; 0x3c0000; 0x5b00000; 0x64000006; 0xd8; 0x40006c1;
   0x7c00; 0xd9000; 0x1680240; 0xf002400; 0xdb05b017; 0xe02c01fe; 0x2400db0; 0x58016480;
   0x0; 0xb241000c; 0x800c0; 0x800; 0x1000c001; 0x80000018; 0x160; 0x0;
   0x1c2000; 0x10000; 0x1f0000; 0x7f00000; 0x36000007; 0x90000060; 0x320; 0x4000;
   0x40000; 0x5900000; 0x24000002; 0x59; 0x2c1; 0x2400; 0x5b000; 0x6c0040;
   0x2400400; 0x5b01b006; 0xd82c006f; 0x82400db2; 0xb002080; 0x0; 0xb2402005; 0x90080040;
   0xa00; 0x10004001; 0x80040009; 0x168; 0x100; 0x1c1f00; 0x4000; 0x3e0000;
   0x3f00000; 0x6d800003; 0xe0000030; 0x240; 0x9000; 0x90000; 0x1200000; 0x59000000;
   0x800000b2; 0x592; 0x40004800; 0xb6400; 0x580080; 0x4800800; 0xb6016005; 0xb01b005f;
   0x900b64; 0x16005120; 0x80000000; 0x6480400b; 0x24000000; 0x600; 0xc000001; 0x16].
Definition emoji_data_173 : list N :=
  [0x58; 0x0; 0x1c1f00; 0x10000; 0x480000; 0x4; 0x92000024; 0x80000000;
   0x900; 0xc000; 0x3c0000; 0x5b00000; 0x64000006; 0xd8; 0x40016c1; 0x7c00;
   0xd9000; 0x1680040; 0xf002400; 0xdb05b017; 0xe02c01fe; 0x2400db0; 0x58016480; 0x0;
   0xb241000c; 0x100800c0; 0x800; 0x3000c001; 0x80000018; 0x160; 0x0; 0x1c1f01;
   0x10000; 0x480000; 0x0; 0x92000004; 0x80000000; 0x900; 0x2c000; 0x240000;
   0x5900000; 0x64000002; 0xd9; 0x240016c8; 0x12400; 0xd8008; 0x16c02c0; 0x6c02400;
   0xdb05b016; 0xc82c016c; 0x2400c90; 0x8410080; 0x4000000; 0xb241000c; 0x800c0; 0x800800;
   0x30004001; 0x8000000b; 0x20; 0x0; 0x1c1f01; 0x12000; 0x90000; 0x0;
   0x12000000; 0x80000000; 0xb00; 0xc000; 0x240000; 0x5900000; 0x24000002; 0x40000059;
   0x240002c9; 0x2400; 0x58008; 0x6c02c0; 0x6c02400; 0x5b01b006; 0xd8240066; 0x400592;
   0x8002080; 0x4800000; 0xb2400004; 0x80040; 0x800800; 0x16004000; 0x90000009; 0x20;
   0x0; 0x1b2000; 0x20000; 0x4b00002; 0xdb00007f; 0x600016d8; 0xc80; 0x9000;
   0x640000; 0x16000016; 0x400005b0; 0x5900; 0xf2000; 0x2d92400; 0x2d900007; 0x80000168;
   0x2401600; 0x6403f804; 0x80b68360; 0xbe01601; 0xfc820059; 0x20000402; 0x648000; 0x1b201001;
   0x80000000; 0x1000c00; 0x18000005; 0x80000010; 0x480; 0x1c1f01; 0x36000; 0x5a0000;
   0x7a00000; 0xb6000004; 0x80000048; 0x900; 0x2c000; 0x240000; 0xdb00001; 0x64000002;
   0x400000db; 0x240016c9; 0x12400; 0xd8008; 0x16c02c0; 0x6c02400; 0xdb05b016; 0xc82c016c;
   0x82400c90; 0x8012080; 0x4900800; 0xb241000c; 0x800c0; 0x1800800; 0x30004001; 0x8000000b;
   0x20; 0x0; 0x1c1f01; 0x36000; 0x5b0000; 0x7f00000; 0x36000005; 0x90000008;
   0xb20; 0xc000; 0x240000; 0x5b00000; 0x2c000002; 0x4000005b; 0x248006c9; 0x2400;
   0x58008; 0x6c02c0; 0x6c02400; 0x5b01b006; 0xd8240066; 0x80400596; 0x8012080; 0x4920800;
   0xb2410004; 0x80040; 0x800800; 0x16004000; 0x90000009; 0x20; 0x0; 0x1b2000;
   0x20000; 0x4b00002; 0xdb00007f; 0xe00016d8; 0xd80; 0x9000; 0x640000; 0x16000016;
   0xc00005b0; 0x5b00; 0xf2000; 0x2db6400; 0x6db00007; 0x80000168; 0x2c01600; 0x6403f804;
   0x80b68360; 0xbe01601; 0xfc820059; 0x60000406; 0x648000; 0x1b603001; 0x80000000; 0x1800c00;
   0x18000005; 0x80000018; 0x480; 0x1c1f01; 0x36000; 0x5a0000; 0x7e00000; 0xb6000005;
   0x80000048; 0xb00; 0x2c000; 0x240000; 0xdb00001; 0x6c000012; 0x400000db; 0x6c0016d9;
   0x12400; 0xd8008; 0x16c02c0; 0x6c02400; 0xdb05b016; 0xd82c016c; 0x82400c94; 0x8416080;
   0x4900800; 0xb6c1000c; 0x1800c0; 0x1800800; 0x30004001; 0x8000000b; 0x20; 0x0;
   0x1c1f01; 0x36000; 0x5b0000; 0x7f00000; 0x36000005; 0xb0000008; 0xb20; 0xc000;
   0x240000; 0x5b00000; 0x6d000002; 0x400000db; 0x2c8006db; 0x2480; 0x58008; 0x6c02c0;
   0x6c02400; 0x5b01b006; 0xd8240067; 0x80400596; 0x8016080; 0x5920800; 0xb6c16004; 0x80040;
   0x800800; 0x16004000; 0x90000009; 0x20; 0x0; 0x1b2000; 0x20000; 0x4f00006;
   0xff0000ff; 0xf00016da; 0xd80; 0x1b000; 0x640000; 0x16000017; 0xc00005b0; 0x5b00;
   0xfe000; 0x2db6c00; 0x6db0000f; 0x80000168; 0x2401600; 0x6403f804; 0x80b6c360; 0xbec1601;
   0xfd820059; 0x60002c06; 0x6d8080; 0x1b603001; 0x80000000; 0x1800c00; 0x18000005; 0x80000018;
   0x480; 0x1c2000; 0x8000; 0x3e0000; 0x7e00000; 0xff00000f; 0x600000f8; 0x780;
   0xb000; 0x2c0000; 0x6c00000; 0xdb000016; 0xc000012c; 0xdb6; 0xc0016db0; 0x124800;
   0xd80080; 0x16c02c00; 0x6c02400d; 0xb05b016d; 0x82c016f8; 0x2400cb60; 0x84961800; 0x5b41800b;
   0x6c1000c0; 0x1800c00; 0x18008003; 0x40018; 0xb0; 0x200; 0x1c2000; 0x8000;
   0x3e0000; 0x7f00000; 0x7f000003; 0xe000007b; 0x380; 0xb600; 0xc0000; 0x2400000;
   0xdb000006; 0xd0000065; 0x2000db6; 0xc8006db0; 0x24800; 0x580080; 0x6c02400; 0x6c024005;
   0xb01b006d; 0x8240067a; 0x400d960; 0x80160800; 0x5b60800b; 0x6c160040; 0x800400; 0x8008001;
   0x60040009; 0x90; 0x200; 0x1b1f01; 0x48000; 0x12480002; 0x49000012; 0x40000024;
   0x0; 0x32000; 0xb00000; 0x3200002c; 0x800002c8; 0x7800; 0x16c920; 0x1648000;
   0x3c00000b; 0x401200b0; 0x3201fc0; 0x2405b41b; 0x5f00b0; 0xfe01002; 0xc9000020; 0x30000;
   0xc90080; 0xc000000; 0x80060; 0xc00000; 0x2c000000; 0xc0000024; 0x0; 0x1c1f01;
   0x12000; 0x480000; 0x4800000; 0x92000004; 0x80000000; 0x900; 0x2c000; 0x240000;
   0x5900000; 0x64000002; 0xd9; 0x240016c8; 0x12400; 0xd8008; 0x16c02c0; 0x6c02400;
   0xdb05b016; 0xc82c016c; 0x2400c90; 0x8010080; 0x4000000; 0xb241000c; 0x800c0; 0x800800;
   0x30004001; 0x8000000b; 0x20; 0x0; 0x1c1f01; 0x12000; 0x490000; 0x900000;
   0x12000000; 0x80000000; 0x900; 0xc000; 0x240000; 0x5900000; 0x24000002; 0x40000059;
   0x240002c9; 0x2400; 0x58008; 0x6c0240; 0x6c02400; 0x5b01b006; 0xd8240066; 0x400592;
   0x8002080; 0x4800000; 0xb2400004; 0x80040; 0x800800; 0x16004000; 0x90000009; 0x20;
   0x0; 0x1f130a; 0xdb6c00; 0x2492400; 0x4924800; 0x16db6400; 0x12492400; 0x24924800;
   0xb6d96000; 0x92492009; 0x2493002d; 0xb6cb2024; 0x924d0049; 0x2418016d; 0xb2590124; 0x92f90249;
   0x21e21b6d; 0x92c94924; 0x97c89249; 0xf82db64; 0x96480000; 0x1a1f01; 0x80492490; 0x5b6d9406;
   0xdb6c4b6d; 0xb60164b6; 0xc01925b3; 0x2db6d945; 0xb6db786d; 0xb6ccb6db; 0x6596db6d; 0x21b6db32;
   0xdb6d9649; 0x24901000; 0x492492; 0x8249202; 0x9248104; 0x92492092; 0x48402492; 0x20924924;
   0x12492004; 0x92488249; 0x24904924; 0x84824920; 0x49249001; 0x24924049; 0x24902492; 0x48000000;
   0x1c1e00; 0x8000201; 0xf0007c36; 0xc02da414; 0x3044060; 0x30680406; 0x3c060b0; 0x54060f06;
   0xb0d960b5; 0x961b2c1f; 0xe0ffc16c; 0x96d80024; 0x80000008; 0x900; 0x4800; 0x40000;
   0x1900000; 0x24800002; 0x40000059; 0x20000209; 0x2000; 0xc0200; 0x1001000; 0x10000002;
   0x40010; 0x200000; 0x2000; 0x40000000; 0x1f1f00; 0x9249240; 0x92492492; 0xdb6db6da].
Definition emoji_data_174 : list N :=
  [0x49249244; 0x92492496; 0x5b6db6d2; 0x9249220; 0x124924b2; 0x5b6db690; 0x49249120; 0x124925b2;
   0x5b6db480; 0x49248920; 0x92492d92; 0xdb6da480; 0x49244900; 0x92496d92; 0xd96d2482; 0x41224900;
   0x24b6d92; 0x4b692400; 0x9124800; 0x125b6c92; 0xdb492402; 0x48924824; 0x92db6cb6; 0xda492492;
   0x44924924; 0x96db6db6; 0xd2492492; 0x0; 0x1e1d02; 0x24000002; 0x48000001; 0x160009;
   0x20b64812; 0x49249000; 0x24924249; 0x6db60092; 0x49200001; 0x2000124b; 0x2490; 0x8000;
   0x59240; 0x92480; 0x1240000; 0xb6c9200; 0x12412400; 0x49008000; 0xd80596c0; 0x900b2402;
   0x40049016; 0x2d8020; 0x580080; 0x1200580; 0x1b400800; 0x90002000; 0x40010006; 0x20;
   0x0; 0x1f1605; 0x24924924; 0x24924924; 0xb; 0x24924929; 0x24924922; 0x24b;
   0x24924b09; 0x24924902; 0x904b; 0x2492c849; 0x24924802; 0x24024b; 0x24b24249; 0x24924092;
   0x92012cb; 0x2cb21249; 0x24922402; 0x4020b249; 0x24b09249; 0x24910000; 0x249249; 0x24800000;
   0x1d1d02; 0x410000; 0x9240000; 0x4; 0x92492012; 0x49208000; 0x924; 0x92412492;
   0x49000000; 0x924924; 0x82492492; 0x1; 0x24924924; 0x92492400; 0x10493249; 0x24924924;
   0x92480000; 0x249249; 0x24924924; 0x90000000; 0x9249248; 0x24924900; 0x2; 0x49248009;
   0x24900000; 0x92; 0x48000049; 0x0; 0x1e1d02; 0x824000; 0x1041000; 0x820000;
   0x24924800; 0x49249000; 0x20820049; 0x24924492; 0x49240000; 0x20809249; 0x24912492; 0x49000008;
   0x20249249; 0x24492492; 0x40008041; 0x9249249; 0x92492490; 0x40002; 0x49249204; 0x92492400;
   0x1000092; 0x49248124; 0x92490000; 0x492; 0x49200924; 0x92000000; 0x2492; 0x40000920;
   0x0; 0x1d1d02; 0x24b0000; 0x9248000; 0x49248005; 0xb6d80012; 0x49240092; 0x49205b6d;
   0xb6c12492; 0x49492492; 0x45b6db6d; 0x92492492; 0x9249248b; 0x6db6db24; 0x92492524; 0x924916db;
   0x6db64924; 0x924a4924; 0x922db6db; 0x6c924924; 0x84924924; 0x5b6db6d9; 0x24924901; 0x24924816;
   0xdb6d8049; 0x24900049; 0x248004b6; 0xd8000249; 0x0; 0x1d1e02; 0xcb0000; 0xb2c9000;
   0x49248005; 0xb6db2016; 0xdb658092; 0x59245b6d; 0xb6c16db6; 0xdb0924b2; 0xc9b6db6d; 0x96db6db6;
   0x9249659b; 0x6db6db2d; 0xb6db6d24; 0x925976db; 0x6db65b6d; 0xb6da4924; 0x926db6db; 0x6cb6db6d;
   0xb4924924; 0x9b6db6d8; 0x6db6db01; 0x24924816; 0xdb6d801b; 0x6db60049; 0x248001b6; 0xd80002db;
   0x40; 0x0; 0x1e1f01; 0x10000; 0x21b0000; 0x2cb6c000; 0xb6db0001; 0xb6db200b;
   0x6db6c03f; 0xf6db036d; 0xb6db16db; 0x6db05b6f; 0xb6c2db6d; 0xb6cdb6db; 0x6c37ffed; 0xb1b6db6d;
   0xbb6db6db; 0x6db7dffe; 0x6db6db6e; 0xdb6db6cb; 0x6db6db1b; 0x6db6dbb6; 0xdb6db0db; 0x6fb6c6db;
   0x6db60db6; 0xdb6c16db; 0x6db036db; 0x6d806db6; 0xd800b6db; 0x6000b6db; 0x16db0; 0x1200;
   0x0; 0x1d1d02; 0x2490000; 0x9248000; 0x8200004; 0x92480012; 0x49240010; 0x41004964;
   0x92412492; 0x48000082; 0x924924; 0x92492490; 0x10409; 0x24924924; 0x92492400; 0x411249;
   0x24924924; 0x92400020; 0x249249; 0x24924924; 0x80004000; 0x49249249; 0x24924900; 0x12;
   0x49248049; 0x24900000; 0x92; 0x48000249; 0x0; 0x171d02; 0x492000; 0x49200002;
   0x24900; 0x2490000; 0x10001249; 0x124900; 0x800092; 0x48009248; 0x40804; 0x92480492;
   0x40000048; 0x24920824; 0x92004000; 0x49249049; 0x24900040; 0x2492482; 0x49248000; 0x24924;
   0x2492000; 0x249; 0x24800; 0x181d02; 0x24000; 0x49200001; 0x9248; 0x492000;
   0x9000092; 0x49004924; 0x90000; 0x92490049; 0x24000900; 0x20924990; 0x49240000; 0x209249;
   0x10492400; 0x48002492; 0x49124924; 0x80004; 0x92490249; 0x24000100; 0x4924802; 0x49240000;
   0x9240; 0x90000; 0x191e01; 0x10000; 0x1600012; 0x48000924; 0x800b6d80; 0x2492001;
   0x2492016d; 0xb6004924; 0x80249240; 0x2db6c009; 0x24900492; 0x4905b6da; 0x41249220; 0x92492cb6;
   0xdb092492; 0x44924920; 0xb6db6024; 0xb2481249; 0x2416db6c; 0x4924902; 0x492402db; 0x6d809249;
   0x92480; 0xb6d8000; 0x49000000; 0x192000; 0x40000; 0x2000012; 0xc8000cb6; 0x25900;
   0x6db4001; 0xb6c8004b; 0x2400db6d; 0x8036db00; 0x964801b; 0x6da006db; 0x60012c92; 0x36db580;
   0xdb6c4824; 0x92586db6; 0x965b6d81; 0x2c92416d; 0xb6d05b6d; 0xb0249248; 0x2db6da0b; 0x6db60492;
   0xc901b6db; 0x6db600; 0x12490006; 0xdb0000b6; 0x800; 0x191f01; 0x58000; 0x21900019;
   0x6c000fbf; 0x5b6c0; 0x36db001; 0xf7fa00b6; 0xdb006db6; 0x803eff40; 0x16db600d; 0xb6d007df;
   0xed82db6d; 0x61b6dab0; 0xdb6d365b; 0x6d8d36db; 0x42df6da2; 0xdb6db0b6; 0xdb685b7d; 0xb41b6db6;
   0x6db6c03; 0x6df6016d; 0xb6805b6d; 0x802db680; 0x5b6c001; 0x6d800012; 0x0; 0x171d02;
   0x90002; 0x9000080; 0x24900; 0x12490004; 0x2001249; 0x924900; 0x20100092; 0x48049248;
   0x1008804; 0x92482492; 0x40000048; 0x24924124; 0x92024000; 0x49649049; 0x24900040; 0x2492482;
   0x49240002; 0x24b24; 0x2492000; 0x1249; 0x24800; 0x111c03; 0x402010; 0x1008;
   0x4000000; 0x2090082; 0x49; 0x20104800; 0x812092; 0x49240011; 0x24924924; 0x84822492;
   0x49249010; 0x4924924; 0x90020092; 0x49249200; 0x24800; 0x131c03; 0x400804; 0x48;
   0x20040200; 0x2410; 0x2010000; 0x20900; 0x24100000; 0x1249212; 0x49000804; 0x92494924;
   0x81248249; 0x24a49240; 0x10012492; 0x12492000; 0x924901; 0x24800000; 0x1240000; 0x141d03;
   0x80402; 0x402003; 0x5804820; 0x820030; 0x58008200; 0x8200104; 0x80082400; 0x924016cb;
   0x60924909; 0x24836db6; 0x49249492; 0x48b6db64; 0x92484924; 0x8b6db649; 0x24849248; 0x36db0092;
   0x48092400; 0x2d800020; 0x0; 0x131d03; 0x20100603; 0x402030; 0x18030580; 0x20900b2c;
   0x1820010; 0x40059640; 0x532c0924; 0x92db6c2d; 0x96c49649; 0x6db636db; 0x62db25b6; 0xdb5b6db9;
   0x2492db6d; 0xadb6d892; 0x482db6c2; 0xdb604920; 0x2d90004; 0x0; 0x141d03; 0x2c0203;
   0x603005; 0x86c02830; 0x2830058; 0x6002cb00; 0x2cb00196; 0x402cb602; 0xd8641b6d; 0xb2db6c3f;
   0xffc5b6db; 0x6db6c6ff; 0xfedb6db6; 0xdb6c6df6; 0xcdb6db6d; 0xb6c6df6c; 0x5b6d82db; 0x600db600;
   0xb6c00090; 0x0; 0x131c03; 0x80004; 0x8; 0x24008200; 0x410; 0x410000;
   0x20800; 0x20900000; 0x1249212; 0x49000020; 0x92494924; 0x80241249; 0x24a49240; 0x12492;
   0x52492001; 0x124901; 0x24800000; 0x1240000; 0x1c1f00; 0x10000005; 0x80000008; 0x360].
Definition emoji_data_175 : list N :=
  [0x1b00; 0x9000; 0x6c000; 0x360000; 0x1200000; 0xd800000; 0x6c000002; 0x4000005b;
   0x240012c9; 0x480; 0x1249640; 0x9249200; 0x2092; 0x49240492; 0x49200000; 0x92492;
   0x48492492; 0x4920; 0x92492d84; 0x92496c49; 0x924120; 0x125a0000; 0x90400000; 0x0;
   0x10000000; 0x1d1f00; 0x10000000; 0xc0000002; 0x2c; 0xb0; 0x80; 0xb00;
   0x2c00; 0x12000; 0x2c000; 0xb2000; 0x480000; 0x5b24000; 0x96c90000; 0x12400249;
   0x2d800924; 0x92000000; 0x10049249; 0x20924924; 0x100; 0x4924b641; 0x24924900; 0x924892;
   0x49258249; 0x24960248; 0x24902482; 0x49600009; 0x5800000; 0x4000000; 0x40000000; 0x1e1f00;
   0x4000000; 0x50000001; 0x20000003; 0x40000006; 0x9; 0x58; 0xb0; 0x40;
   0x2c8; 0x590; 0x248; 0xb6d8; 0x96c90; 0x249240; 0x16db6c0; 0x12492480;
   0x49249202; 0xdb6db024; 0x92492012; 0x492481b6; 0xdb6c0924; 0x92c80492; 0x49206db6; 0xdb604924;
   0x96012412; 0x480b2036; 0xd8000024; 0x30000080; 0x40000000; 0xc0000000; 0x1c1f00; 0x10000005;
   0x80000008; 0x360; 0x1b00; 0x9000; 0x6c000; 0x360000; 0x1200000; 0xd800000;
   0x6c800002; 0x490002db; 0x6c0036db; 0x40092cb2; 0x16db6c0; 0x5b6db604; 0x924920b6; 0xdb6d8db6;
   0xdb604924; 0x920b6db6; 0xd8db6db6; 0x492db60; 0xb6db6d85; 0xb6db6c5b; 0x21b64360; 0x16da0001;
   0xb0400008; 0x0; 0x10000000; 0x1d1f00; 0x10000000; 0xc0000002; 0x2c; 0xb0;
   0x80; 0xb00; 0x2c00; 0x12000; 0x2c800; 0xb6000; 0x4b6000; 0xdb6c000;
   0xb6db000d; 0xf6f802db; 0x6db01b6d; 0xb602db6d; 0xb82db6db; 0x60b6db6d; 0x85b6dfec; 0x5b6db6c1;
   0x6db6db0b; 0x6dfed8b6; 0xdb6da2db; 0x6db607f8; 0x3f902d82; 0xdb60000b; 0x65800058; 0x4000080;
   0x40000000; 0x1e1f00; 0x4000000; 0x50000001; 0x20000003; 0x40000006; 0x9; 0x58;
   0xb0; 0x40; 0x2c0; 0x590; 0x240; 0x9648; 0x12c90; 0x9200;
   0x124b640; 0x12492400; 0x2; 0x49249004; 0x92492000; 0x200092; 0x49640924; 0x92c80000;
   0x49202496; 0x4b604924; 0x96012412; 0x48092012; 0x58000024; 0x30000000; 0x40000000; 0xc0000000;
   0x1e1e01; 0x140; 0x480; 0x2d80; 0x25a00; 0x92400; 0x496000; 0x492c000;
   0x12490000; 0x92480009; 0x24800024; 0x90000124; 0x90001249; 0x4920; 0x24920; 0x249200;
   0x924000; 0x4924000; 0x49240001; 0x24800019; 0x24800092; 0x48000249; 0x16c9; 0x2490;
   0x9200; 0x5b600; 0x192000; 0xe40000; 0x3000000; 0x0; 0x1f1f00; 0x80;
   0x580; 0xf00; 0x6d80; 0x1fd80; 0x3ff00; 0x1b6d80; 0x7ffc00; 0xfff800;
   0x6db6000; 0x1effc000; 0x3dfe0001; 0xb6d80007; 0xfef0000f; 0xfd80006d; 0xb60001ff; 0xf80003ff;
   0xe0000b6d; 0x80000fff; 0x1ff8; 0xdb60; 0x25fc0; 0x49600; 0xb6c800; 0x924000;
   0x1040000; 0x4100000; 0x4100000; 0x1000000; 0x2c800000; 0x0; 0x201f01; 0x58000000;
   0x78000000; 0xb6000000; 0x7e000000; 0x7f000000; 0x36000000; 0x1f000000; 0x1f800000; 0x16c00000;
   0xfe00000; 0x3e00000; 0x2d80000; 0x3f80000; 0x1f80000; 0xd80000; 0x7c0000; 0x7e0008;
   0x5b0016; 0x3f805f; 0x1f807e; 0x1b41b6; 0xfc3f8; 0x7e3f8; 0x36db0; 0x1ffc0;
   0x1ffc0; 0x16d80; 0xfe00; 0xfe00; 0x6c00; 0x1000; 0x1a1a03; 0x6000033c;
   0x1efc0; 0xfdb000; 0x6dbe003f; 0x8fe01fe2; 0xd80db05f; 0x7f007f3; 0xfc016db6; 0x2ffe00;
   0x3ff8000; 0xb6c0001f; 0xc0000ffc; 0x6db00; 0x3fbe001; 0xfefe00db; 0x2d807f05; 0xf03fc07f;
   0x1b6016cf; 0xe002fbf8; 0x3f6c00; 0xb4c0001; 0x60000000; 0x1f2000; 0x12492490; 0x5b6db6da;
   0xdb6db6dd; 0xb6c16db6; 0xdb65b6d6; 0xdb05b6ed; 0xb60b6db6; 0xdb2db6b6; 0xd82db76c; 0x16db6;
   0x4925b5b0; 0x5bb64; 0x824b6db6; 0xcb6dadb6; 0xb6ddb6c; 0x16db6db6; 0x5b6d6db0; 0x5b6edb60;
   0xb6db6db2; 0xdb6b6d82; 0xdb76db05; 0xb6db6d96; 0xdb5b6c16; 0xdbb6d82d; 0xb6db6cb6; 0xdadb60b6;
   0xddb6c16d; 0xb6db65b6; 0xd6db6db6; 0xc5b6db6c; 0x92492492; 0x1f2000; 0x9249241; 0x6db6db63;
   0x6db6db66; 0xdb65b6cb; 0x6d96db7b; 0x6d96db36; 0xd805b65b; 0x6d96dbdb; 0x6596d980; 0x32c9;
   0x2492dec8; 0x6c32cd90; 0xd82596cb; 0x6c96f60b; 0x6c366c16; 0xd86cb65b; 0x65b7b05b; 0x61b360b6;
   0x416596db; 0x25bd90d8; 0x65980000; 0x32c9249; 0x2dedb2cb; 0x6cdb6016; 0xd96db25b; 0x6f6db2db;
   0x66db65b6; 0xcb6d96db; 0x7b6db6db; 0x16db6db6; 0x9249248; 0x1a1c02; 0x200000; 0x8000004;
   0x80080; 0x9002002; 0x40120120; 0x2002000; 0x80000048; 0x4900; 0x124000; 0x49248049;
   0x24901249; 0x24092492; 0x41249240; 0x1240000; 0x92000012; 0x40000480; 0x40004820; 0x80400;
   0x2010001; 0x24900020; 0x10000804; 0x40200; 0x804000; 0x1f1f01; 0x2db6db6c; 0x24924924;
   0x4920924b; 0x6db2db69; 0x24824922; 0x904825b; 0x2d964b49; 0x4120912; 0x82012db; 0x2492da49;
   0x824892; 0x496d9; 0x24b6d248; 0x924000; 0xb249; 0x24929240; 0x4922480; 0x925b649;
   0x25b49201; 0x4912002; 0x92d92c9; 0x25a48209; 0x4880412; 0x96cb659; 0x2d249049; 0x24492092;
   0x4b6db2db; 0x61249249; 0x22492492; 0x9249249; 0x0; 0x1a1904; 0xc0000; 0x1000000;
   0xc0002030; 0x18041e18; 0x1e79e00; 0x36db0007; 0xff8000ff; 0xc0005b68; 0x5ffc80; 0xfffffcdb;
   0x6db6c17f; 0xf2000ffc; 0x5b600; 0x1ffc000; 0xe7980030; 0xc3001078; 0x600c0c08; 0x6030080;
   0x400000; 0xc; 0x0; 0x1c1f01; 0x80000; 0x400000; 0x800004; 0x90000824;
   0x2008040; 0x100804; 0x4804004; 0x48000001; 0x804808; 0x4120410; 0x1248249; 0x20900248;
   0x400; 0x9000; 0x248000; 0x80492; 0x8248080; 0x41200800; 0x2090080; 0x48480400;
   0x40804000; 0x10090400; 0x82402000; 0x24800004; 0x90000004; 0x0; 0x800; 0x0;
   0x1f1f01; 0x2db6db6c; 0x24924924; 0x4920924b; 0x6db2db69; 0x24824922; 0x904825b; 0x2d96cb49;
   0x24124912; 0x82092db; 0x2cb2da49; 0x20924892; 0x82496db; 0x24b6d249; 0x4924002; 0xb249;
   0x24929248; 0x24922480; 0x925b6c9; 0x2db49241; 0x24912082; 0x92db2cb; 0x2da49209; 0x24882412;
   0x96cb65b; 0x2d249049; 0x24492092; 0x4b6db2db; 0x61249249; 0x22492492; 0x9249249; 0x0;
   0x1d1d01; 0x10000012; 0xc00002de; 0x1f6c; 0x365b0; 0x2d8f80; 0x1f05b00; 0x36816c02;
   0xd803e01f; 0x16c368; 0x5b2d80; 0xf9f000; 0x5b68000; 0x16d80000; 0x3f000003; 0x6c00002d].
Definition emoji_data_176 : list N :=
  [0xb00001ff; 0x800036db; 0x2d96c; 0x1f03e0; 0x36816c0; 0x2d805b01; 0xf000f836; 0x8005b2d8;
   0x16df00; 0x3f6800; 0x1658000; 0x5800000; 0x201f01; 0x36db6db6; 0x49249248; 0x49249248;
   0xb6db6db6; 0x49249249; 0x48249008; 0xb25b6c96; 0x48049009; 0x48048008; 0xb64b64b6; 0x49008049;
   0x49000048; 0xb6c925b6; 0x49200249; 0x49200248; 0xb6d92db6; 0x49200249; 0x49000248; 0xb6c925b6;
   0x49008049; 0x48008048; 0xb64b64b6; 0x48049009; 0x48049008; 0xb25b6c96; 0x49249249; 0x49249248;
   0xb6db6db6; 0x49249248; 0x9249248; 0x12492490; 0x131d02; 0x2d800ff; 0x8036d80b; 0x6d83fff8;
   0xdb2d8d82; 0xdfe01f6c; 0x2d6806f; 0xf0043600; 0x364007f; 0xa00b6c00; 0xb6c007f8; 0xb60003;
   0x60003c00; 0xb0000b0; 0x0; 0x80005800; 0xf0002c0; 0x2c0004; 0x0; 0x111c02;
   0x1200000; 0x4920124; 0x80000492; 0x49201200; 0x900924; 0x2400012; 0x48000; 0x4900;
   0x12400000; 0x1240048; 0x4; 0x10000; 0x8000; 0x20000000; 0x12000400; 0x41c02;
   0x40940940; 0x94094094; 0x9408408; 0x40940000; 0x61d02; 0x21ed9b7f; 0x66dfd9b7; 0xf66dfd9b;
   0x7f66df58; 0x801269fd; 0x9b200000; 0x162000; 0x20100b6; 0x1b036cb6; 0xff3fc6d; 0xb6dadb6d;
   0xb7ffff9b; 0x6db636db; 0x68ffffc2; 0xdb6d85b6; 0xd81fffe0; 0x36db006d; 0xb000ffc0; 0x5b60003;
   0x68000780; 0x2c0000; 0x10000000; 0x10000; 0x160000f8; 0x6d800; 0x2db0007f; 0x8001b600;
   0x3600007; 0x80000400; 0x201c02; 0x16006c0; 0xbfc1fc0; 0x16db6db0; 0x1b6db6d8; 0x7ffffffc;
   0x36db6db6; 0x5b6db6db; 0x7fffffff; 0xb6db6db6; 0x5b6db6db; 0x7ffffffe; 0xb6db6db6; 0x5b6db6da;
   0x7ffffffc; 0x36db6db6; 0x1b6db6d8; 0x1ffffff8; 0x16db6db0; 0xb6db6c0; 0x3ffffc0; 0x2db6d80;
   0x16db6c0; 0x7ffe00; 0x5b6c00; 0x2db400; 0xff000; 0xb6000; 0x8000; 0x1c1c02;
   0x40000; 0xf00000; 0x1b000000; 0xf800000f; 0x800001b0; 0xf80; 0xf800; 0x1b0000;
   0xf80000; 0xf80036d; 0xb6d87fff; 0xffcfffff; 0xffb6db6d; 0xb7fffffc; 0x92f9240; 0x1b00000;
   0xf800000; 0xf800001b; 0xf8; 0xf80; 0x1b000; 0xf8000; 0xf80000; 0xb000000;
   0x40000000; 0x1c060d; 0x924924b; 0x6db6dbff; 0xffffffff; 0xffffb6db; 0x6db49249; 0x24000000;
   0x1c1a03; 0xb0000; 0x1f00000; 0x16c00001; 0xf800001f; 0x80000168; 0xb00; 0x0;
   0x0; 0x12; 0x492486db; 0x6db6ffff; 0xffffffff; 0xff6db6db; 0x61249248; 0x0;
   0x0; 0x0; 0xb0000016; 0x800001f8; 0x1f80; 0x16c00; 0x1f0000; 0xf00000;
   0x202000; 0x9249248; 0x49249248; 0xb6db6db6; 0x5b6db6db; 0x49249249; 0xb6db6db6; 0x5b6db6db;
   0x49249249; 0xb6db2db6; 0x5b6c36db; 0x49201249; 0xb6d92db6; 0x5b60125b; 0x49000049; 0xb64924b6;
   0x5b00005b; 0x48000049; 0xb64924b6; 0x5b00005b; 0x49201249; 0xb6d92db6; 0x5b6436db; 0x49241249;
   0xb6db2db6; 0x5b6db6db; 0x49249249; 0xb6db6db6; 0x5b6db6db; 0x49249249; 0xb6db6db6; 0x5b6db6d8;
   0x9249248; 0x1e1904; 0x2f800be3; 0x6db2db62; 0x4befb6c0; 0x7f00000; 0xd800000; 0x7b000003;
   0x8f00001a; 0xc0000f0; 0x18000300; 0x30001601; 0x60006003; 0xc0018007; 0xc0018; 0x180030;
   0xe000c0; 0x3000600; 0x6000c00; 0x1800f000; 0x58058000; 0xf01c0003; 0xc1e00006; 0xdb000007;
   0xf0000002; 0x40000000; 0x1f1804; 0x5b6db6d9; 0x6db6db6f; 0x6db6db66; 0xdb6db6cb; 0x6db6db79;
   0x6db6c900; 0x5804805b; 0x24925bdb; 0xd82d9b0; 0xb00b2cb; 0x2cb2decb; 0x2cb2cd16; 0x1361965b;
   0x65b6f4d8; 0xd8679b0; 0x1b0cb2db; 0x2db7b2cb; 0x2cb36016; 0x165b2db; 0x2dbdb6db; 0x6d9b6db6;
   0xdb2db6db; 0x6dadb6db; 0x6c000000; 0x202000; 0x9249248; 0x49249248; 0xb6db6db6; 0x5b6db6db;
   0x49249249; 0xb6db6db6; 0x5b61b6db; 0x49209249; 0xb6c96db6; 0x5b6036db; 0x49001249; 0xb6c92db6;
   0x5b61b6db; 0x49209249; 0xb6d96db6; 0x5b61b6db; 0x49209249; 0xb6d96db6; 0x5b60b6db; 0x49209249;
   0xb6d96db6; 0x5b60b6db; 0x49201249; 0xb6d925b6; 0x5b6c02db; 0x49248049; 0xb6db65b6; 0x5b6db6db;
   0x49249249; 0xb6db6db6; 0x5b6db6d8; 0x9249248; 0x1f2000; 0x12492490; 0x24924925; 0xb6db6db5;
   0xb6db6db9; 0x2492492d; 0xb6d92dad; 0xb6c02dc9; 0x2400496d; 0xb24b6d6d; 0xb05b6e49; 0x924b6d;
   0x96db6b6c; 0x16db7248; 0x24925b6c; 0xb6db5b60; 0xb6db9241; 0x2492db65; 0xb6dadb05; 0xb6dc9209;
   0x2496d925; 0xb6d6d805; 0xb6e49009; 0x24b6d92d; 0xb6b6c96d; 0xb7249249; 0x25b6db6d; 0xb5b6db6d;
   0xb9249249; 0x2db6db6d; 0x8db6db6d; 0x89249248; 0x1f2000; 0x49249248; 0x92492492; 0xdb6db6de;
   0xdb6db6c4; 0x92492496; 0xdb6db6f6; 0xdb2db624; 0x900924b6; 0xd96db7b6; 0xd965b120; 0x804125b2;
   0x4b25bd80; 0x480d8920; 0x492db2; 0x496dedb0; 0xb6c4920; 0x12496d92; 0x4b6f6c00; 0xb624000;
   0x24b6496; 0x4b7b6596; 0x5b124804; 0x925b6cb6; 0xdbdb6cb6; 0xd8924924; 0x92db6db6; 0xdedb6db6;
   0xc4924924; 0x96db6db6; 0xd6db6db6; 0x4924920; 0x202000; 0x9249248; 0x49249248; 0xb6db6db6;
   0x5b6db6db; 0x49249249; 0xb6db6db6; 0x5b6db6db; 0x49249249; 0xb6d96db6; 0x5b6c16db; 0x49241249;
   0xb6d92db6; 0x592402db; 0x48000249; 0xb64924b6; 0x5800005b; 0x48000049; 0xb64924b6; 0x580002db;
   0x49240249; 0xb6d92db6; 0x5b6c16db; 0x49241249; 0xb6d96db6; 0x5b6cb6db; 0x49249249; 0xb6db6db6;
   0x5b6db6db; 0x49249249; 0xb6db6db6; 0x5b6db6d8; 0x9249248; 0x1f2000; 0x12492490; 0x24924925;
   0xb6db6db5; 0xb6db6db9; 0x2492492d; 0xb6db6dad; 0xb6db6dc9; 0x2412496d; 0xb65b6d6d; 0xb05b6e49;
   0x20124b6d; 0x925b6b6c; 0x5b7248; 0x125b64; 0x925b5b00; 0x5b9200; 0x92d924; 0x92dadb60;
   0x36dc9240; 0x2496db24; 0xb6d6db01; 0xb6e49201; 0x24b6d925; 0xb6b6d80d; 0xb7249249; 0x25b6db6d;
   0xb5b6db6d; 0xb9249249; 0x2db6db6d; 0x8db6db6d; 0x89249248; 0x1f2000; 0x49249248; 0x92492492;
   0xdb6db6de; 0xdb6db6c4; 0x92492496; 0xdb6db6f6; 0xd925b624; 0x900924b6; 0xc92db7b6; 0xc02db124;
   0x804925b6; 0x496dbdb6; 0x16d8924; 0x2492d92; 0x492dec00; 0x6c4800; 0x496c92; 0x4b6f6c00;
   0xb624800; 0x124b6c92; 0xdb7b6c02; 0xdb124804; 0x925b6cb6; 0xdbdb6cb6; 0xd8924924; 0x92db6db6;
   0xdedb6db6; 0xc4924924; 0x96db6db6; 0xd6db6db6; 0x4924920; 0x202000; 0x9249248; 0x7ffffffc;
   0xb6db6db6; 0x7fffffff; 0x7fffffff; 0xb6db6db6; 0x7fffffff; 0x7fffffff; 0xb6db6db6; 0x7fffffff;
   0x7fffffff; 0xb6db6db6; 0x7fffffff; 0x7fffffff; 0xb6db6db6; 0x7fffffff; 0x7fffffff; 0xb6db6db6;
   0x7fffffff; 0x7fffffff; 0xb6db6db6; 0x7fffffff; 0x7fffffff; 0xb6db6db6; 0x7fffffff; 0x7fffffff;
   0xb6db6db6; 0x7fffffff; 0x7fffffff; 0xb6db6db6; 0x7ffffffe; 0x9249248; 0x1d1d02; 0x92492492].
Definition emoji_data_177 : list N :=
  [0x49249240; 0x124; 0x92492492; 0x49248000; 0x24924; 0x92492492; 0x49000000; 0x4924924;
   0x92492492; 0x9; 0x24924924; 0x92492400; 0x1249; 0x24924924; 0x92480000; 0x249249;
   0x24924924; 0x90000000; 0x49249249; 0x24924920; 0x92; 0x49249249; 0x24924000; 0x12492;
   0x49249249; 0x24000000; 0x1d1c02; 0x10000; 0x240000; 0x1200000; 0x12000000; 0x48000002;
   0x40000024; 0x80000090; 0x480; 0x924924; 0x92492492; 0x92492499; 0x24924904; 0x92492024;
   0x92490049; 0x24900124; 0x92000124; 0x80001249; 0x24924; 0x124920; 0x1249200; 0x4924800;
   0x24924002; 0x48248009; 0x900040; 0x800400; 0x9000000; 0x202000; 0x49000; 0x2ff000;
   0xdb6d80; 0x16db6c0; 0x3ffffc0; 0x6db6db0; 0xb6016d8; 0x1f8003f8; 0x36c001b4; 0x5b0000d8;
   0x7e00007c; 0x36000036; 0x5800005b; 0x7800001f; 0xb4000036; 0x5800001b; 0x7800001f; 0xb4000036;
   0x5800001b; 0x7800001e; 0x36000036; 0x5b000058; 0x1f000078; 0x36c001b4; 0x1b6002d8; 0xfe007f8;
   0x6db6db0; 0x36db6c0; 0x1ffffc0; 0xdb6d80; 0x2db200; 0x48000; 0x1f2000; 0x12492490;
   0x24924925; 0xb6db6db5; 0xb6db6db9; 0x2492492d; 0xb6db6dad; 0xb64b6dc9; 0x2002496d; 0xb24b6d6d;
   0x820b6e49; 0x4024b6c; 0x964b6b6c; 0x361b7240; 0x24125b65; 0xb25b5b01; 0xb05b9201; 0x2092db2d;
   0x92dadb0d; 0x86dc9009; 0x496d92c; 0x96d6d820; 0x36e49001; 0x24b6d925; 0xb6b6c805; 0xb7249049;
   0x25b6db6d; 0xb5b6db6d; 0xb9249249; 0x2db6db6d; 0x8db6db6d; 0x89249248; 0x1f090b; 0xf003c006;
   0xc00d8018; 0x40308060; 0xc0418080; 0xc1018200; 0xc3018601; 0x8c030c02; 0xd805b003; 0xc0058000;
   0x1d1705; 0x200200; 0x2402400; 0x9009000; 0x48048024; 0x92490092; 0x49240412; 0x41204824;
   0x82010090; 0x48080480; 0x40804804; 0x12000010; 0x80000009; 0x20; 0x100; 0x1000;
   0x24000; 0x120000; 0x1200000; 0x4800000; 0x20000002; 0x40000000; 0x202000; 0x12492490;
   0x5b6db6d8; 0x49249248; 0xb6db6db6; 0x5b6db6db; 0x49249249; 0xb6d92db6; 0x5b6c06db; 0x49200249;
   0xb6d92db6; 0x5b6c16db; 0x49201249; 0xb6d96db6; 0x5b6c36db; 0x49201249; 0xb6d96db6; 0x5b6c36db;
   0x49201249; 0xb6d96db6; 0x5b6c36db; 0x49201249; 0xb6d96db6; 0x5b6c36db; 0x49201249; 0xb6d96db6;
   0x5b6cb6db; 0x49249249; 0xb6db6db6; 0x5b6db6db; 0x49249248; 0x36db6db6; 0x9249248; 0x1f2000;
   0x24924924; 0x6db6db6c; 0x4924924b; 0x6db6db6b; 0x6db6db72; 0x4924925b; 0x6c96db5b; 0x6402db92;
   0x400492db; 0x2496dadb; 0x406dc92; 0x80496d9; 0x2cb6d6d8; 0x2cb6e490; 0x4924b6d9; 0x6db6b6c0;
   0x6db72490; 0x4925b6c9; 0x6db5b6c0; 0x6db92480; 0x492db6c9; 0x6dadb001; 0x6dc92000; 0x496d924b;
   0x6d6d924b; 0x6e492492; 0x4b6db6db; 0x6b6db6db; 0x62492492; 0x4b6db6db; 0x9249248; 0x1f2000;
   0xb2000; 0x5b6000; 0x5fff800; 0x16db6c00; 0xb6db6c01; 0xedbe7805; 0x92596c0c; 0x92596879;
   0x6cf27965; 0xb6c96165; 0xb24967cf; 0xe43fcb2d; 0xb6db7b2d; 0x96db3e00; 0x3cff5b2d; 0xb2dbdb21;
   0x80d9fe63; 0x20badb6c; 0xb6ded94d; 0x96cfb39f; 0x3f965b2c; 0xb696cb2c; 0xb6399e19; 0xfc325b25;
   0xb0305b25; 0x8025fe4f; 0x36db6c; 0x36db60; 0x2fffc0; 0x16db00; 0x24000; 0x202000;
   0x92000; 0x2db200; 0x7ffe00; 0x2db6d80; 0x36db6c0; 0xffce2e0; 0x16d964b0; 0x1a61b018;
   0x1e25f858; 0x365b6db6; 0x5b2cb0d8; 0x7f3cc01e; 0xb6d96cb6; 0x5b2cb0db; 0x7c0c907f; 0xb6c924b6;
   0x5964905b; 0x79e4905f; 0xb2d92db6; 0x596090da; 0x797c98ce; 0x36596db6; 0x5a6c10d8; 0x1e3c80f8;
   0x164965b0; 0xb25b0d8; 0xfedfae0; 0x6db6da0; 0x16db6c0; 0x7ffe00; 0x5b6c00; 0x49000;
   0x1f2000; 0x24924924; 0x6db6db6c; 0x4924924b; 0x6db6db6b; 0x6db6db72; 0x4924925b; 0x6d96db5b;
   0x6c02db92; 0x400492db; 0x6496dadb; 0x586dc92; 0x90496db; 0x2db6d6d8; 0x25b6e490; 0x924b6d9;
   0x2db6b6c0; 0x2db72482; 0x4925b64b; 0x6db5b61b; 0x2db92412; 0x92db259; 0x2dadb000; 0x6dc92000;
   0x496db24b; 0x6d6db25b; 0x6e492492; 0x4b6db6db; 0x6b6db6db; 0x62492492; 0x4b6db6db; 0x9249248;
   0x1f2000; 0x12492490; 0xb6db6db1; 0x24924925; 0xb6db6dbd; 0xb6db6d89; 0x2492492d; 0xb65b6ded;
   0xb05b6c49; 0x2012496d; 0x925b6f6d; 0x805b6249; 0x924b6c; 0x92db7b6c; 0x32db1248; 0x20925b64;
   0x92dbdb61; 0x82d89241; 0x492db24; 0x96ded800; 0x6c49000; 0x496d92d; 0xb6f6d86d; 0xb6249049;
   0x24b6c96d; 0xb7b6cb6d; 0xb1249249; 0x25b6db6d; 0xbdb6db6d; 0x89249249; 0x2db6db6c; 0x24924924;
   0x202000; 0x12492490; 0x5b6db6d8; 0x49249248; 0xb6db6db6; 0x5b6db6db; 0x49249249; 0xb6c92db6;
   0x5b6006db; 0x49000249; 0xb6c925b6; 0x5b6486db; 0x49258249; 0xb6db25b6; 0x5b6002db; 0x49200249;
   0xb6c925b6; 0x5b6096db; 0x49009249; 0xb6cb6db6; 0x5b01b6db; 0x49009249; 0xb6c965b6; 0x5b6082db;
   0x49200249; 0xb6d925b6; 0x5b6c96db; 0x49249249; 0xb6db6db6; 0x5b6db6db; 0x49249248; 0x36db6db6;
   0x9249248; 0x1f2000; 0x24924924; 0x6db6db6c; 0x4924924b; 0x6db6db6b; 0x6db6db72; 0x4924925b;
   0x6cb6db5b; 0x6c36db92; 0x482492db; 0x64b6dadb; 0x60b6dc92; 0x402496db; 0x64b6d6db; 0x20b6e490;
   0x124b6c9; 0x25b6b6c1; 0x1b72482; 0x125b64b; 0x25b5b61b; 0xdb92410; 0x92db259; 0x6dadb001;
   0x6dc92002; 0x496db24b; 0x6d6db25b; 0x6e492492; 0x4b6db6db; 0x6b6db6db; 0x62492492; 0x4b6db6db;
   0x9249248; 0x1f2000; 0x12492490; 0xb6db6db1; 0x24924925; 0xb6db6dbd; 0xb6db6d89; 0x2492492d;
   0xb2496ded; 0x80016c49; 0x2496c; 0x924b6f6c; 0x125b6248; 0x4924b6c; 0xb6db7b6c; 0x36db1248;
   0x24925b64; 0xb6dbdb60; 0xb6d89240; 0x2492db64; 0xb6dedb61; 0xb6c49241; 0x2496db25; 0xb6f6db05;
   0xb6249201; 0x24b6db2d; 0xb7b6db2d; 0xb1249249; 0x25b6db6d; 0xbdb6db6d; 0x89249249; 0x2db6db6c;
   0x24924924; 0x202000; 0x12492490; 0x5b6db6d8; 0x49249248; 0xb6db6db6; 0x5b6db6db; 0x49249249;
   0xb6d92db6; 0x5b6016db; 0x49200249; 0xb6c925b6; 0x5b6182db; 0x49008249; 0xb6cb65b6; 0x5b6082db;
   0x49200249; 0xb6c925b6; 0x5b6082db; 0x49008249; 0xb6cb65b6; 0x5b0582db; 0x49008249; 0xb6c925b6;
   0x5b6082db; 0x49200249; 0xb6d92db6; 0x5b6c96db; 0x49249249; 0xb6db6db6; 0x5b6db6db; 0x49249248;
   0x36db6db6; 0x9249248; 0x1f2000; 0x24924924; 0x6db6db6c; 0x4924924b; 0x6db6db6b; 0x6db6db72;
   0x4924925b; 0x6c96db5b; 0x6002db92; 0x400492db; 0x2496dadb; 0x406dc92; 0x80496d9; 0x2c96d6d8;
   0x6c36e490; 0x4024b6c9; 0x25b6b6c0; 0x5b72480; 0x925b6c9; 0x6db5b603; 0x6db92402; 0x492db64b;
   0x6dadb60b; 0x6dc92402; 0x496db64b; 0x6d6db65b; 0x6e492492; 0x4b6db6db; 0x6b6db6db; 0x62492492;
   0x4b6db6db; 0x9249248; 0x202000; 0x59000; 0x3ff800; 0xf00f00; 0x16002c0; 0x5800160].
Definition emoji_data_178 : list N :=
  [0x4000060; 0x80d9058; 0xc1ff828; 0x303ff80c; 0x502db608; 0x60305f04; 0x60001f06; 0x40001603;
   0x60000f06; 0x40000f02; 0xc0000683; 0x60000f06; 0x40000f02; 0x40001603; 0x60000f06; 0x60001f06;
   0x402cb60a; 0x203efc0c; 0x303ff80c; 0x182db018; 0xc16c020; 0x4000060; 0x30000c0; 0x1800300;
   0xf00f00; 0x2db600; 0x2c000; 0x202000; 0xb6000; 0x2ff600; 0x741e00; 0x2c00580;
   0x30000c0; 0xe000060; 0x160b6c30; 0x182ffc18; 0x183ffc08; 0x305b6c06; 0x607c3e0e; 0x60783c06;
   0xa0582c06; 0x407c3e03; 0x407c3c03; 0x805b6c02; 0x402ffe03; 0x4007fc03; 0x800b6c02; 0x400fbe03;
   0x601f3c06; 0x305b2c06; 0x507c3e08; 0x187c3c08; 0x10582c10; 0x8201018; 0xe000060; 0x60000a0;
   0x1e003c0; 0x741e00; 0x5b6c00; 0x59000; 0x1f2000; 0x24000; 0x924800; 0x0;
   0x25964900; 0x25b6c800; 0x1b658001; 0x25964801; 0x6d964000; 0x6b240009; 0x65924009; 0x65b20000;
   0x40200049; 0x24920049; 0x24900000; 0x800025b; 0x6d9002fb; 0x6f800f92; 0x4bc01249; 0x24801249;
   0x24000000; 0x59249; 0x25849249; 0x24c80000; 0x96c9249; 0x2d249249; 0x26400000; 0x4b649249;
   0x69249249; 0x32000002; 0x5924924b; 0x8000009].
Definition emoji_data_group_1 : list (list N) :=
  [emoji_data_140; emoji_data_141; emoji_data_142; emoji_data_143;
   emoji_data_144; emoji_data_145; emoji_data_146; emoji_data_147;
   emoji_data_148; emoji_data_149; emoji_data_150; emoji_data_151;
   emoji_data_152; emoji_data_153; emoji_data_154; emoji_data_155;
   emoji_data_156; emoji_data_157; emoji_data_158; emoji_data_159;
   emoji_data_160; emoji_data_161; emoji_data_162; emoji_data_163;
   emoji_data_164; emoji_data_165; emoji_data_166; emoji_data_167;
   emoji_data_168; emoji_data_169; emoji_data_170; emoji_data_171;
   emoji_data_172; emoji_data_173; emoji_data_174; emoji_data_175;
   emoji_data_176; emoji_data_177; emoji_data_178].
