(** GENERATED by tools/gen_sheets.py -- do not edit.
    Pixels of a sprite sheet, one number for each row; bit x is set when the
    pixel in column x is black. *)
From Verif Require Import Prim.

Definition hanzi_rows_0 : list N :=
  [0x0;
   0x0;
   0x0;
   0x0;
   0x0;
   0x1c0000000000700001c03000000007000018018000030060001c601800000600000000030000001070000000180000001c0001801c00000000600000001c00000040000000000000030100000060c00;
   0x7fffe0000180000000006600001c03000000006000018018000038060000c6018000c0603800aaa830000003030002aa818000000180003800c0002aaa860002a2a18003ff8ea8000c3000000030380000060e00;
   0x7fffe0000380fe003ffde700001ce30003fffe700001801800001806000fffe18001c0603800fffc30003fff070007ffc1c001ffdffc0039c7f0003fffc6000ff7f1c003ff9cfc001c71550000701c0000070e00;
   0x600060003ffcfe003ffb8600001dc30003fefe60007ffe18000ffc06000fffe18000c0603800eaa830003ffb030003aa818001ffdffc003b8e38002bba860006a6a180030038ec003838ff0000e01c0003ff0600;
   0x7fffe0003ffcc600001f0700001f83000186c070007ffe58001ffc160001c6059001fffff800e00131000183030001c301c0018601c0003f3c1e0001980600060601c0030010cc00701dff003fffec0003ff8700;
   0x60006000300cc60000180e80000f83000186c0e80001807a000e0e1e8000c609b000fffff800e001b20001838b8000ef8ae00186018000383aaf800bba8600066361800319f2cc00701cc3003fffee000381c300;
   0x7fffe000301cc600001c1fc0001c1ff00184c1fc0001807b00060736c00fffcdb0000c018000eff9b7003ffdbfe0007e1ff001871ff800384fff001fff974003f3e5d00319f6cc00e00fc7003fffe70001c1c380;
   0x7fffe000300cc60000181fc007fffff0018ce1fc00abaadb000703b6c00fffc9b0006c018000eff9b2003ff9bfe000780ff001870ff80039e0c0001bbbbfc003c387f0030886cc00e00ec3000198070001c0e380;
   0xfff540003ffcc600001c670007ffe30001cc667000ffffdb000383f6c00c00cdb000ec17d400e001b700319df18007fffcc001c701c0003f80c0001999bfc007c7c7f0035ffecc01d817c700019c078000e073c0;
   0x2ffff0003ffcc6000018e600060c030001cc6e6000aaaadb000381e6c00dfec9b001cc3ffc00e001b2003189f98007ffece001838180003a1ffe00199986000eeee180037bfecc00181ac300099807c000603be0;
   0x7070c000301cfe00001dc700060c030001cc7c70001e781b003fff86c001ff0db0018c7ffc00eff1b7003ffdf98006186c6001c1dffc00f81fff00199986000c7471c0036db6cc001c39c7000d9dc7e007fff3f0;
   0x38e1c000300cfe0000191e00060e030000cc79e0003cdc1b803fff06c0000009b003ffc00000eff1b2003ba9d98006186c6000f9fffc00ff86cc001fff8600003821800325b6cc000c30c3000d98c6e007ffe3f0;
   0x1fffff0003ffcc600001c1f00061e1f0000dc71f00070ef1900380006400fffcdb003ffdff800ee31b700319d99c006186c6000f8e1c0007feccc001fff8600001001c00365f6cc000c71c7001d9dc640060003b0;
   0xfffff0003ffcc60000180fc0063e3f8000f870fc00e0e39800380006000abe89b0000c1ab800ee31b2003ba998c007ffee600000198000382cce00003806000ffff180032db6cc000e60c300198cc60006000380;
   0x700003ffcc600001c07c007761ff80078f07c007ff1180038000600060f0db0003e181800ee31b7003ffd9cc007ffe67000001c00003818d700001806000ff7f1c0033db6cc000761c700399ce60006000380;
   0x3fffffc00618cc6000019064006e603f80078f864003ff818003fff06000f9be9b0003e1ff800ee31b20001818dc0061866f003fffffc003800f8003fffc6000e2601800329f6cc0007e0ff00318c660007ffe380;
   0x3fffffc00f39cc600001d870007e703100071d87000183c18003fff060001fccdb0003e1ff800ef71b700019d8f80061867c003fffffc00101800003ffff60006370dc00339f6fc0003c1ff00718c760007ffe380;
   0x300003b0cee000019860006c3030000399860001c3f18003aaa060001ff09b0003e038000eff1b20000998f0006bae380001c03000000180000070e3e0007333f800331b6fc0003800300318e360006aaa380;
   0x7fff80001f1cfe00001dc70007038300007b9c70000e7718003800060001f3cdb0003f1fb000e7f1b70000f19e0007ffef00000e0380003ffffc0007073f800363f7e00337b60c0007c007001186260006000380;
   0x3aaf80000e0cfe000018c60007018300007d0e600007e01800380006000378eff0003b1bb800e031fe0000e19e0006baef80000f0fc0003ffffc00038f07e003e1c1f8033bfe0c0007e003000187060006000380;
   0x1c3dc0001c1c0600001ce7000701c30000fe0e700003c0180038000600076f0ff0073bb39800e011ff0001e1bf0006187dc00007ffc0000018000001ff01c001c7c0700379fe00001e7800000187060006000380;
   0xff0e0003dcc06003ff866000300e30001ce0760000ff018003fff86000e6388000239b39c00e001800003e1b380061868e0000ff800000018000003f0000003e6e00003698600003c3c00000183860007ffe380;
   0x1ff0780079fc00003ffc770003f8734003c70370007e7f18003fff86001e71f00003f1c38800e00000001f79a1c0061860f000ffff4000ffffff000fff0000077c7800030d860000f81f00000181c60007fff380;
   0x3fe7fbc00e03e0000000827c003f83be00383807c00f81f980038000600083e200003f0e3e000fe0000003c3d80e007d8607803f81ffc00ffffff003e0fe0000e3c3c0003e7860001e007800001f0e60006000380;
   0x1f0079c00400c0000000003c0005011e00301003c004007180038000600001e000001d061e0007c000000301d804007d8601001c001fc00000000001c01c0000c0c0c0001e4060000c001000001f0460006000380;
   0x0;
   0x0;
   0x0;
   0x0;
   0x0;
   0x0;
   0x0;
   0x0;
   0x0;
   0x1c00011c0000000600c00000c004000000000000180000000000600001b0180000000c000000004000007010000300000000180100002080000011c070000000700000600e000000038000703000000000000;
   0x18000318e000008600e00000e00e003fff800000180e2001fff060000198180000000c000ffff8e000003038001b800e0000380380007180e0001bf860007fe0600000600e0007ffe38000303000001ffff80;
   0x1ffdffc0031ccff0018630600001f03c003fffffc0007c067001fff060007ffc18003fff0c000ffff9e0007ff878003b001e0000700f0000e1c1e000187c70007fe7fe0000600e0007fff380003071fc001ffffc0;
   0x1ffdffc00199cfe0018630600007b8300000603fc000ff07e000060060002bae18003fff0c000aaabb80003ff8e000730038003ffffe0000c0e38003f820600060e7fe0000600e00060063800033fff8001800180;
   0x18601c0001dd8c7001c673fc001e1e00003fffc60001e783c003fffc60000186180038c30c0000d8db0000381cc000230030003ffffc0001c0630003fc70700070e6060000600e0006007380003fff9c001ffffc0;
   0x1860ba800ffffc2000c663f8007bff87003fff86000381e1c003ffff6000ffffd80038c3cc0000c8980000180e0000ffff00002abaa00003807000036ffffc007fe7fe001fff7fc006e0638007f8b988001ffff80;
   0x1871ff800ffffc6000e6635c00f7fbdf003061c6001f55fbe003061f7c00ffffde0038c36dc000cd980000ffff0000ffff0000031c0000070070000377fffc007fe7fe001fff7fc006607ff007f9d99c0018001c0;
   0x18301800003e0fe00066e30800000098003f6e86000dfff3f003f7ede8000000da0038c36c8000cd980000fffe000003030000030e0000060038000330f0f80060e6060000602e8006636ff001999988001ffff80;
   0x1c301c0000ff0ff00076c31c001fff20001f7f460001ffc37001f7f5ec007ffc7b003fff7dc00fdfd87000c0000c0003070300070701c00e405c300339f870007067fe0000600e0006777380019ffd9c001ffffc0;
   0x1c39ffc001db8c2000060308001ffe3000006006000000031000a6a1ec00300c7b003fff3cc00fdfd8f000c0003e00e3030f800e0703c004c0e8f8031bac70007fe7fe0000600e0006366380019ffd88000300e00;
   0x1d5dffc0079dfc7003fffb18001c073c001f7f3fc0064ff70001f7f0ec00700c7b0038c33cc00c4319e000fffc780067071e001fffc78000c0c1e003df7ef0007fe3860000601f00063e77c0019f05fc001380700;
   0xf8e18000e187c2003fffbf8001aaa1e0000603fc0066ff700000c206c003ffc1b0038c30cc00dfad88000fff86000630b18001bffc60000e0c08001e726f800607386002aeabf00063c67c0019ffdf80039c6380;
   0x7841c00041c3c7003fffbfc001fff07001fff0600066c7780000c7064007ffc190038c30cc00dfbd80000c0000000771f00001801c4000061c00000cff1f8007437fe003fffbf00063c7fc001ddfd9c001ce71c0;
   0x2aaaaa80000e0fe00019830800020022001fff0600066c378003fff060000660180038c30e000dbad80000c00000003e3b000001860000006180000038e1e8007c3e3f003fffbf8006386fe000f98d88000ff3fe0;
   0x3fffffc005575ff00019c31c000600600000000600066ff7c003fff87000fe7f18003fff0e00059bd90000fffc00001e73100001c608000073810000f7717c001c18060000706fc0063c7be000f1dd9c001771fc0;
   0x2aaaea800ffffc200018c30800ffffff003fffc600066ff6e0000c3c6000fe7f18003fff8e00019adb0000fffc40001e63300001861800003b010003e63e6c000018000000382ec0067c63e000f1fd88003b83e00;
   0x70000ffffc700019c31c00ffffff007fffc600066c777801fffe700006601c003dd79e00019bdb0000030060001e03300001c61c00001f038003673e7e00ffffff0003380ee0066c73f000f18d9c0071c6700;
   0xffff80000c18c200018c3080006006000000c2600066c363001fff6f0002e6a3c0038c3be00039fdb8000432260000e03180001860c00001e01800066706600ffffff00071c0e4006ee63b800e18da8007feffc0;
   0xffffc0000e1cff00118c3fc0007ffe0001ffe7e00066ff710000c31f0007e7e7c0038c1b70003dfddc000c63670000f031c0011c70e00001e01c0003760740000ff0000061c0e4007c673900061fdfc00e7fffe0;
   0xe001f000077efe00218e3f80007ffe0000ffe3f80066ff30001fff1b00006606c0038c1f30003c30cc001863630008f838c0021830600003f00c0001f80600001fb80000e0e0e0006c7639000e1fdf800180c080;
   0xe001fc0007f07f00718701c00060060000c000fe0064c770001fff3980056756e0038c1e30007c31cc001f0373801ddc18e0071c307000073c0e0003fe0700007d9e0001f070e000603738001f18c1c0018631c0;
   0xe0019c000fe00200318300800060060000c0000c0060c3300000c311800fe7f060038c0c38006638ce00330339800d8e18e003183838001e1e06000f67860001f18f8001fff8e000603638001b98c080038e31c0;
   0xffff8c003ffc07003f83c1c0007ffe0000c000000060c73f003fff01c000660070038c0c1c00e71ce70033ff1dc00f879c7003fc1e38007c0fc7001c71e7001fc183f003fff8e0007e07380039d8c000070c30e0;
   0xffff8000783f80003f81e000007ffe0000fe0000007cf33e003fff00e00066003803ec0e0e00c38e630003ff00800f038e2003f80f1800f803e200387c46000f0180f0030038e0007e06380030fec000061c3060;
   0xe0018000700700001f00400000600600007e00000078771e00000300400066001001f4040400c10440000000000006010c0001f00710004001c000003c070004018030030000e0001c073800205cc00006041060].
Definition hanzi_rows_1 : list N :=
  [0x0;
   0x0;
   0x0;
   0x0;
   0x0;
   0x0;
   0x0;
   0x0;
   0x0;
   0xc00000001c181800000c00000061818000466060000381c00000e0700000381c00000e0700000181c00000000000010100000000000000018000000000c30000000600000000400000c080000070000001010000;
   0x1f80030000c181800001c00000021818000e66060000380c00000e0300000380c00000e030000018180002aaabf8003838fe0000003f8000180fe003ffdc30000000600000000c00000e1f00000302a8003818aa0;
   0x1ffc070005c1c18003fffff000031c18000e6606000ffffff003fffffc00ffffff003fffffc00ffffff003fffff8001830fe001fff3f80001c1fe003ffcc7000fff060003fff0e0001c71ff003fffffc001831ff0;
   0xfe0e000fffc18003fffff000ff0c18000e6606000ffffff003fffffc00ffffff003fffffc00ffffff003aabb18001c30c6001ffe318007ffcc60038c066000ffe060003fff0600038383f003fffae8001c31ff0;
   0x171c001fffe180001c1c30007fbc18003fff860000381c00000e07000057d5d50000e0700000181c0003b01f18007ffec6000000318007ffdc60038c3ffc00c307fe003803070007fdc300017dd060000c70180;
   0x6080003336ff002baaab00063beff003fffbfc000398c00000e6300000380c00000e030000018d80003fe1b18007ffec60000003180000c0c6003acbba800c307fe003803030007ffc3000070e060000e20180;
   0x70000073f7ff003fffff00037f6ff000e663fc00001c00000006000007fffff00055555000001c000039fdf18007ffec60000003180000e1c6003bcfdbc00cf36660038036380041fc30001e77c7000fffc1c0;
   0x60000001029b000180830003eb6db000e6626c003ff800001fffff8007ffffe000fffff0007ffffe0038c9bf8006180fe0000003f80000e0fe003adbda800cf3666003803718000180300038b9e3000fffc0c0;
   0x70fc00fc7edb0001d5c30001c37db000e6636c007ffc00001fffff8007fffff000fffff0007fffff0038c1ff8006180fe007fffbf800fffffe003edb5fc00df7666003bfb31c00ffffff0013fc43000e38c0c0;
   0x3ffe0fc007fbe9b0001ff830003e37db00000026c0000180000003f800006000e6000c00030006000060038c1bb8006ba8ee003fffbb800fffeee003efb7c800db66ee003bfb3fe00fffeff00038e03800e38c0e0;
   0x7fff0fc001fb0db00055573001f7f7db003fffb6c003ffffc0001fdf0000600067000c000700061c707003ffff18007ffcc60000e0318005575c6003cf319c00db67fe003b1b1fc000e70380001c7ff800fffcfe0;
   0x2bae0c00008189b000e6333000c0f7db003fffa6c003ffff8000fe07f8001ffff0000fffff00067c3c6003ae9b18002bacc60000e0318000030c60038d3ff800cb46ee003b1b0e0003c38380000edbf800fffcfe0;
   0x3070c0001c1cdb001c67330007ff6db003061b6c0038001c000f001f8001ffff0000fffff0001f01ff0038f1f1800018cc60004e4318000031c60038c3ffc00c30666003b1b060007b3c7c00077c33c00e38cc70;
   0x3060c000ffbcff0018c21b0006bb6ff003061bfc003ffff8003fffffc00001838000e18330003c1c3c0039f1b1800018ec6000eee318003ff8c60038e000000e30666003b1b07000e38ffc0003b833e00e38cc78;
   0x3070c000fffeff0008591b00061b6ff003061bfc003ffffc003fffffc0000181c000e1c37000101c0c003bf1ff800fffefe000ce63f8007ff9fe003cf1ff000f38666003b1b73800c1c7f6003fdf33c00fffcc70;
   0x3060c00008221b000abaab0007fb61b000ffe06c0038001800030000000aabaaa000e18330003ffffc003bd9bf800fffefe000ce63f8003aa8fe003ef9ff000fbdfff003b1b7fc0018f8b6001ae7f3c00fffcc70;
   0x3070c0001c76d8001ffffb0007fb65b000fff16c003ffffc00070ffe000ffffff000ffff70001ffffc003fddf1800c1c0c6001ce7318003801c6003fdd83000dfffff003bfb1fc000e3c37001c79b38000380c60;
   0x3030c0000836d8000c183b80061b6d8000c62360003ffff800030ffe000001800000ffff3000180e00003ecfb1800c1e0c60018e3318001c20c6003bcd83000cf7606003bfb00c00278833000e1e338000380c60;
   0x3036c000ffbdd8001c18398007fb6d8000c673600000180000070c0e00018181800001c030001807000038c5f1c00c1f0c70038e331c000e71c70039c5ff000c7360600381b0000071f03380077fb3801ffffc60;
   0x303fc000ffbc98000ffff98007fb6d8000c622600000180000030c0e000181818000c181b8001807000038c1b1800e1b0c60030e3b18000ee0c60038c183000c3060600380b60000387c310003e33b800fffeee0;
   0x303be000551dfc001ffff1c0061b7fc000c677f000ffffff00070ffe000181818001c1c198001c03800038c1f1c00fdbcc70030e1f1c0007c1c70038c183000c306060038037f0001e1c300001c03f8000380fe0;
   0x3018e000003dff800e1801c006186ff800ee27fe00ffffff00030ffe000181818000c18198001801e0003801b0c00799ec30030e0b0c000780c30038c1ff000c306060038031fe000f80300000f82b8000380ae0;
   0x301c7001ffff8f001ffffdc00618787000f6761c000018000007055e0001ffff8001ffff9c001d40fc003ffff4c00798fd30000fc34c001f01d3001dfdff000c30606003f0301c0001f03000007f038000380060;
   0x300e2000ffc700003ffffee00798680000262200000018000003f00e0001ffff8000ffff8e000fc03e003fffbee000182fb8000fc3ee001c00fb801e7983000fbe786003f0300000007e3000000f838000380060;
   0x30040000fc030000300014400118600000060000000018000001f000000180000001c000040007c00e0038019c4000180710000141e400080071001e790100079c786001f0300000001c30000001000000380000;
   0x0;
   0x0;
   0x0;
   0x0;
   0x0;
   0x0;
   0x0;
   0x0;
   0x0;
   0x701000000e1c000001c000000070060001800000000300300001c0000000180000000c006000000038000030000001c60180000e0060000000c400000000000000000000001040000000c0000000000000000800;
   0x3038a800061fe00000c0aa8000300600018efff8000380300000c000000398cfe0000c00600000e0180000703f8001860180002e006000ffb8c6003fefffc00ff2aaa000aa1860000000c0000aa000000fff9e00;
   0x17431f8005747ff0015d1ff800574fff0018efffc0015d0700015f7ffc001ddcfe0015d53e0007ffcfc0000607f801fffe1c000f6e07001ff9ccc003fefffc01ff3ffe003fe186000ff90c4007ff7ff800fff8fc0;
   0x3fffdb8007fc18a000ff9818003feffe0018e01c0003ff060000fffffc000cd8e6003ffe7f0007f3dfc002aeab1800fffffc001c66ff000eb8ccc00386000000eb2aae003fe186000ff98c6003fe3ff80000183f8;
   0x1d7fd980075df87001d59818007560600018e7ff000357fff001d5c180007ffee6003fff73000670dcc003fffb18001c61fe001c66ff800e38ccc001867ff800e3000600186186000e198c6001870000000018770;
   0x38ec9980062df82000c99ff800326aea0018e303800303fff000c4c180007ffee600006033800630cce003aabb980019e0ae000866ab80063bfff001863ff800630006001861860006198c600186000000601a620;
   0x1becd980067c187001dd9ff800776ffe0018e39fc0033b104001cfc180000070e6001ffe19c00670c6700380199800e1c007003fff01c0073ffff001c6701800733ff6001c6fffc007198c6001c700000060dfe60;
   0x1f6cd98006efffa000f99818003e60600018e0f800037318c000d8dff800fffffe001ffe7fc00630dff003801998006ff803003fff00c0033b003000c6201800333ff6000c6fffc003198c6000c600000061d9ce0;
   0x1e65df8007dffff000f19ff8003c6060001d007000036330c001d9dffc01fffffe0000707fc00670dff0000001d8007ffdff0015757fc0033ffff000667ff800330006000e61860003198c6000e70000007398fc0;
   0x18669f80020f19a000c19ff800307fff001f863e00030370e000c0d9980018d8ee0000306c80063fdb6001fff1d8003980fe0000307f8003baffe000663ff8003b000600066186000399aee00066fffc003398fc0;
   0x1f67818007ff59f000f99818003e7fff00050307c003f3607000f9d998003d7ee6007fff6d80067fdb6001fff198001dc0300000300c0001b9d5c000760000001b3ffe000661860001d9ffe00077fffc003f18df0;
   0xe7fe18003ccffa000799ff8001e60000003fffc8001e3603800f8d99800f7f7e6003fff6c800630db60000e031800fffc30001ff80c000338c0c000e6aaa800333ffe000c6186000398aea000e6abe8001e19c30;
   0x7fe180001d1ff000019ff800006ffe0003fffc00000318300001d99c01e73fe600061c7f800670dfe0000e071801fffc30001ff80c000739c0c001c6fffc00731576001c61860007180c0001c701c0001c19e00;
   0x2ae31f800aad19a002ab878000aaeeae000300cc000aab184002aad99800abb8e6000e0c7f800630dfe0000e6218000381ff001c38ffc00638ffc00186e00c006303e600186bae8006188c20018600c0001e19f80;
   0x7fe31fc00ffdf9b003ff8dc000ffec060001d78c000fff1de003ffd99c003ffefe001ffe6d800670db60000e77180001c1ff001c3cffc00c39ffc00386eccc00c3777600387fffc006198c60038700c0003e19bc0;
   0x30031b800c00f1a003800d8000e00ffe0001ee0c000e000f800300199800318ffe003fff6c800630db6001fe6618002ae0ba000e7cae800c380c000306eccc00c33e6600386fffc00e198c6003861ce0003f1b8f0;
   0x301fdbc00c007db003803ffc00e00ffe0000040c000e000f000300199c003ffce6007c0fed800670db6001fe7758007ffc3000077e0c000c380c000306e7cc00c31e7600306000000c198c6003071c6000731bc70;
   0x3aafdbc00caa7db003aabffc00eaac06001ffffc000e000e0003001998003ffce6002c0d7f800638dfe0000e73d800603e300007e60c000c39ffe00306ffec00c30c660038618e000c198c600306386000639be00;
   0x3ff31bc00dfe4db001ffc3c000fffc06001ffffc0006ff9f00037ff99c00318ce7000ffc7f8007ffdfe0000e71d800707c300003c70c000e39ffe00386fffc00c31c77003861c6000c198c600387307000e1db780;
   0x3fe31bc00caa4cb001ffc6e000fffffe001800000006ffbb8003bfff98003ffce2000eac000007b7e000000ef018007ff0300003c38c000ff80c0003f6e30c00ff1866003f6387000fd98c6003f630380060fb3c0;
   0x30031bc00c014cf001800e7000600ffe0018ffffc0060071c003801f9c003ffce7000c0c40000071df00000ef818007ff1f00007e17c0007f80c0001f6e30c007f3b77001f67070007d9fd6001f77ff800001b0f0].
Definition hanzi_rows_2 : list N :=
  [0x30031f600e03c6d801800c7000600c060018ffffc0060031c00380019800aaaae3000c0cff8000301ff0000f9818006031f8000f787c00003bfc000006e30c000333e300026e03800399ffe000267ffc00aabb830;
   0x30031f400600e7d801c01c3c007e0c06001c55554007e000f001f8018000fffff3000ffcffc0007001f007ff9c18007ff07c003e3c1f00003bfff00006e30c000331f300006e01c00019dfe00007e1f801fff9d10;
   0x1f03030007c0635801f8181e003e0fc6000fc0000003e0007001f0018000aaaafb800ffc00c00030000003fe0e18007ff01800381e0e0000382ff00006fb0c0003007380006c00c0001980000006600000fff9f00;
   0x1f03030007c001400070000400140786000fc00000014000300050018000000079000c0c00000070000003f40418007070080010060200003800100006790c0003001100006000800018000000070000000000700;
   0x0;
   0x0;
   0x0;
   0x0;
   0x0;
   0x0;
   0x0;
   0x0;
   0x0;
   0xc1c0000000000000000000000003000000000000000000000000000000000010000000000000000000000000000000070000000000000003000000000000000000c00000000000000000000001c7000;
   0x380000000c183000000000000000000000003800000000000000000000000000000000038000000000000000000000000000000030000000000000003000000000000000000e00000000000000000000007c3000;
   0x7ff000000c1c30001fffffc000ffff0000003800001ffffe003fffffc00ffffff00000018000ffffff00155555400ffffff0000070000000000000003000000ffffff000000e0000ffffff000000000000f03000;
   0xfffc0000c1830001fffff8000ffff0000fffff0000ffffe003fffffc00fffffe00000018000ffffff003fffff800ffffff000003000003ffffc00003000000ffffff000000e0000ffffff00000000000ffffff0;
   0x17fc0000c1c3000001c000000c0070000fffff0001c070000000700000001c00000ffffc000007000003fffffc00555d55000007000003ffffc000030000005557d5000000e0000ffffff00000000000ffffff0;
   0xc0000c183000000e000000c0030000001c00000c030000000600000001800000ffff80000038000000c030000001c0000000300000000000003fffffc00000380000000e0000003800000000000001831800;
   0x1c0000c1c30000007000000c0070000001c00001c030000000700000001c000000001c000003c000001c030000001c0000000700000000000003fffffc00000380000000e0000003800000000000001f71c00;
   0xc000ffffff000007000000c0030000000c00000c03000000060e0000018180000000c000001c000000c030000001c0000000300000000000002abaaa800000380003a00e0000003800000000000000ff0e00;
   0x1c000ffffff000037c00000ffff0003fffffc001c0300000fff060007ffc180000000c000001e000001c030000001c000000070000000000000003000000000380003ff4e00000038000000000000041fc700;
   0xc0000c1830000077c00000ffff0003fffffc000c0380000ffe060007ff8180000000c00000df000000c030000007c00000fff000000000000000380c0000aab80000fffe000000380000000000000c03fbc0;
   0x1ffffc0000c1c300001e6f00000d5570001555754000c038000000706000701c1c001ffffe00003df800001c03000001fc00001fff000000000000000381c0001fff8000007fffc0000380000000000000fff11f0;
   0x1ffffc0000c18300003c6780000c0030000000700000ffffc0000060600070181c000ffffe0000f9bc00000c03800003dc00000003000000aaaa8000038180001fff80000000ffc00003800003fffffc003fe0020;
   0x1c01c0000c1c300007063c0000c0070000000700000ffffc00000707000701c1c001ffffe0001e19f00001c0300001f1c00000007000000ffff8000018180001801c0000000e7c00003800007fffffc000000000;
   0xc00c0000c1830000e060f0000c00300007fff00000ffffc0000060600030180c000c00000003c18f80000c0380003e1c00000003000000ffff800001838000180180000000e0000003800002aaaaa8003ffffc0;
   0x1c01c0000c1c30001c0607c000c00700007fff80000c0380001fffff000755d5c000c000000078187c0001c0380007c1c000000070000000000000001c700001801c0000000e0000003800000000000007ffffc0;
   0xc00c0000ff83000380603c000ffff0000380000000e0380001fffff0003ffffc000c0000000e0181f0000c038000301c000000030000000000000001c600001800c0000000e0000003800000000000000018000;
   0x1c01c0000ffc30001006008000ffff00001c0000000e0180001800000003ffffe000c7fffc00c018070001c018000001c000000070000000000000001ee00001c00e0000000e000000380000000000000001c000;
   0xc00c0000aa830000006000000c00300000e0000000e018000180000000300000000e7fffc000018020000c018000001c000000030000000000000000fc00001800e0000800e000000380000000000000ffffff0;
   0x1c01c000000030000006000000c0070000070100000e0180001c0000000300000000e55554000018000001c01c000001c0000000700000000000000007c00001c0070001800e000000380000000000000ffffff0;
   0xc00c000000030000006000000c0030000038f80000e0180001c0000000300000000600000000018000000c00e000001c000000030000000000000000f800001c0070001800e000000380000000000000007e000;
   0x1c01c000000030000006000000c007000001ff00000e01c0001c0000000300000000600000000018000001c00f000001c000000070000000000000001fe00001c0038001c00c00000038000000000000001e7800;
   0x3fffffc007ffff000000000000aeaaba00003f000000e01c0000c0000000380000000700000000018000000c007000001c00003fffffc00ffffff0000fcf80000c001c001c00c0000003800000000000000783e00;
   0x3fffffc007ffff0003fffffc00ffffff0000fc00000ffffff000e04000001c40000007fe000000018000001c007c00001c00003fffffc00ffffff001ff07fc000f581f001fffc0000003fe0000000000007f01fc0;
   0x2aaaaa800000000003fffffc00ffffff0001e000000ffffff000ff8000001fe0000003fc000000018000000c003e00001c00003fffffc00000000003f800f8000ff007800fff80000003fe000000000000f8003f0;
   0xc0000000000000007f8000000fc0000001fc000000018000001c001c00001c0000000000000000000001c000180007f00300000000000001fc0000000000006000070;
   0x0;
   0x0;
   0x0;
   0x0;
   0x0;
   0x0;
   0x0;
   0x0;
   0x0;
   0x1c000000000000001c18000001c000000060000000180000000c000000000000000040000000180000000600000000000000000000001c000000000000000060040000001800000300c0000070c00000000000;
   0x18000000000000000c180000018000000060000000180000000c0000038003800000e00000001800000006000002aaaaa000000000003fe8000003fffe0000e00c0000003800000300c0000030c00000000000;
   0x1c000000000000000c18000001c000000060000000180000000c000001c007800000f00000001800000006000007ffffe003fffffc001ffffc0003fffe0000700e0000001c00000300c0000070c0000ffffff0;
   0x180000000000003ffe198003ffffc0000060000000180000000c200000e00f000000f80000001800001fffff8007ffffe003fffffc00003ffc0001e0000000300e0000001c00000380c0000030c0000ffffff0;
   0x1c0000000000003ffe198003ffffc001fffff80000180000000c700000701e000001fc0000001800001fffff80018c318000070e00000018000000f000000030070001fffffc000380c0000070c0000001c000;
   0x180000000000002aae1980038181c001fffff8007ffffe00000c60000038380000039e00000018000000060000038c318000030e000000180000003800000238430001fffff8000380e0000030c00000018000;
   0x1ffff8000000c000002719800381c1c000006000007ffffe00000ce000001c7000000f0f00000018000007060e0001cc338000070e000000180000081e0000071ce38000000700000380e0000870c1800001c000;
   0x1ffff8000003e00000739980038181c0000060000060180600000cc000000e2000001e0780000018000003860c0000cc330000abaea8003ffffc00183eff80070ce18000008700000380e0001830c18000018000;
   0x1c1c00000007c00001e1d9800381c1c0000060000070180600000dc00000078000007c63c0000018000001c61c0000ec370001fffff8003ffffc001c367fc0038e71c00001c380000381e0001c70c38007ffffe0;
   0x180c0000000f000003c1d98003ffffc0000060000060180600000c80000003800000f060f0000018000000c63800006c320001fffff800001800000e36600003ff3ae00000c380000381e0000c30c30007ffffe0;
   0x1c1c0000001e00000380998003ffffc000fffff00070180600000c00000001800007e0607c000018000000e630000fffffc001c70e3800001800000776700001ff1fe00001c1c00007c3f0000c70c7000701c0e0;
   0x180c7000003c0000000019800001800000fffff00060180600000c0000000180000380603c0000180000000600000fffffe001830e38000018000003e6300000eb1fe000aaeae00007c370000e30c6000601c0e0;
   0x1c0df000007800001fff19800001c000000060000070180600000c0000000180000100600800001800003fffffc0055555e001c7063800ffffff0001c6380000700e0000fffff0000fc770000770ce000701c0e0;
   0x180fc00000e000003fff198007ffffe0000060000060180600000c0000000180000000600000001800003fffffc0000000e001870e3800ffffff0001c618000038060000ffffe0000eee30000330ce000603e0e0;
   0x1c0f800001c000003fff198007ffffe000006000007ffffe00000f00000001800000006000000018000004071c00000000e001cf9f3800ffffff0003861c00001c07000001c000001cfc380003f0dc00070fe0e0;
   0x181e00000380000038c31980070180e000006000007ffffe00000f8000000180000000600000001800000e0e1c00000000e0019fbf38000007000003860e00000c03800000c08000186c380003b0dc00061e70e0;
   0x1c7f00000180000038c319800701c0e003fffffc0070180600000ff00000018000000060000000180000070c1c00000000e001f9f33800070380000f06070007ff7fc0001dc3800038701c000170c400073c78e0].
Definition hanzi_rows_3 : list N :=
  [0x18fb00000000000038c31980070180e003fffffc0060180600000cf8000001800000006000000018000003dc1c00000000e001b0d3b8000701c0001e06038007ff7fe00038c1800070381e000030c00006703ce0;
   0x61ce380000000000038c3198007ffffe003fffffc0000180000000c78000001800000006000000018000001f81c000000006001f0e1f8000e01e0003c0751c0005f17e00071c1c000f01c0f000070c00007e01fe0;
   0x61841c0000000000038c3198007ffffe0000060000000180000000c00000001800000006000000018000000701c000000006001a070f8001c00e0001007e0800000000000e0c0e000e01e06000030c000064006e0;
   0x61c01e0000000000038c3198007ffffe0000060000000180000000c00000001800000006000000018000001f41c000000006001c060f8001fd078000003e0000000000001c1c07000400c04000070c000070000e0;
   0x61800f000000000003fff1880070180e0000060000000180000000c00000001800000006000000018000003c79c000000007001800038003ffffc00000000000ffffff00180c03800000000003fffffc0060000e0;
   0x7fc007c00000000003fff18000001c000000060000000180000000c0000000180000000600000001800001f87fc000000007001c000380071fffc003fffffc00ffffff00381fc3c00ffffff003fffffc0075000e0;
   0x3f8003e00000000003aab180000018000000060000000180000000c0000000180000000600000001800003e00fe000000003801fc00380060000c003fffffc00aaaaaa00000f81000ffffff002aaaaa8003f000e0;
   0x1f0000c0000000000380318000001c000000060000000180000000c000000018000000060000000180000100004000000001000fc0038006000000000000000000000000000780000000000000000000001f000e0;
   0x0;
   0x0;
   0x0;
   0x0;
   0x0;
   0x0;
   0x0;
   0x0;
   0x0;
   0x700000001c000000040000000000000000400000000001c000000700000000c000000030000000040000030000000000180000000000000000000000000000000060000000000000000400000003800000000000;
   0x7ff800001ffe00000fe8000003f80000007e0000000001c000000380000001c0000000300000000c000007e0000000003800000000000000000000000c000001c0e1800000000000000e000000038e0000aaaa00;
   0x7fffc0001ffff0000ffffe0007ffff4000fffff0000001c000000180000001c0000040700000000e000007fc000000001c00001ffff8001c003800001c000001c1c38003fffffc00001c000000038e0001ffff00;
   0x2f8000000be000003ffe00002fffc00003fff0000000e00007fffc000003800000e06060000007000000ffe00000001c00000ffff8001c003800000c000000e1870003fffffc000038000000039c0000ffff00;
   0x1c0000000700000000600000057c000006570005555700007fffc00000700000060e07000000780000007ffc0001ffc00000e0380001c003000001c0000007186000000000000007000000003980001c00300;
   0x1800000006000000a06000000e00000e0606000fffff00007000c0001ffffe00060e0e000000380000001bf80001ffe00000e0380000e003000000c00000ffffff000000000002aaaaa000003980000c06300;
   0x1c00000007000000e07000001c000006060e000fffff80007000c0003ffffe00070c0e0000701c00000018180001fff0000060380000e007000001c00000ffffff001ff9ff8007ffffe001fffffc001c1e300;
   0x1ffff80007fffe000000e060000018000007060c000000e380003000c0001ffffe0003800c0000380e00000018000000c070000060380000e006000000c00000ababea001ff9ff8007ffffe001fffff8000c3c300;
   0x1ffffc0007ffff000000e070000018000007061c000000e1c0003000c0001e00000003801c00001c0700000018000000e078000070380000700e000001c000000700c0001ff9ff800001800001fffffc001c78300;
   0xaeab80002baae000000e030001ffffc00038618000000e0e0003f00c0000e00000001803800000e0380000018000000e038000070380000700e000000c000000e18e000181983800001800001c01800000c70300;
   0xc01c00003007000000e030003ffffc000186180007ffe0f0001f00c0000700000001c03800000f01e0000018000000701c000070180000381c000001c000001c1870001c19c3800001800001c01800001c60300;
   0xc018000030060003fffff8001eaaa8000086180003ffe070000000c0000380000000e07000000700f003fa18000000700e001ff8180000381c000000c000003818380018198b800001800001c01800000c00300;
   0xc01c000030070003fffff0000e0000000006000007ffe02001ffffc00001c000000070e0000003806007fffff400007007001ff81800001c38000001c00000ffffff001cd9df800001800001c1dc0000ffffff0;
   0xc01800003006000000e00000070000003fffffc00000e00001ffffc00000e000000070e0000001c000003ffffc00007803001ff81800000e38000000c00000efffef8018d99b8003ffff8001c1cc0000ffffff0;
   0xc01c00003007000000e0000003c000003fffffc00000e00001ffffc000007800000039c0000031e00000001dfc0000fc02001c001c00000e70000000c00000c7fff3001dd9db8003ffffc001c38e00001c00300;
   0x2aeaba800abaaea00010e0800001e00000000600000000e0000180000000003c0000001f80000070f000000018000000ce00000c000c000007e0000000e00000001800001b99bb8002abaa8000c30e00000c00380;
   0x3fffffc00ffffff00038e1c000007000000006000007ffe0000180000000001e0000000f000000f07800000018000001cf00001c000c000007e0000000e00000001800001f19f3800001800001c70700001c00380;
   0x3fffffc00ffffff00070e0e000003c00000006000007ffe000019ffffc00000f8000000f000000e03c000000180000038700000c000e000003c00000007000002abaaa00191993800001800000c60700000c00180;
   0x6000000000100000e0e07000001f00000006000007ffe000019ffffc000003c000003fc00001c01e000100180000070380000c0007000007f00000007000007ffffe001c19c3800001800000c00380001c001c0;
   0xf0000000003c0001c0e070000007f800000600000000e000018aaaa8000000f8000079e0000380070003001800000f01e0000c000700001ff80000003800007ffffe00181983800001800000c001c0000c001c0;
   0x3c0000000001f0001c0e038000001fc00000600000000e00001c00000000000fc0001f0f80007fff7c007001800001e01f0000e000780007c3e0000001c0000001800001c19c3800001800000e001e0001c001c0;
   0xf80000000000f800380e01c000003ee00000600000000e00001c00000008003ee0007c03e0007ffffe003001800003c0078000e00038000f81f8000000e000000180000181983800001800000e000f0000c000e0;
   0x1f000000000003e00300f40c01ffffc700000700000000e00001d4000000ffff87001f801fc00e05ffc003fff80000f8003f0007f801c007f007f000000f8000001800001c19d3800ffffff000ff007c001c00070;
   0x3c000000000000e00000fe0000fffe02000007f8000000e00000fe000000fffe02003e0003c00e00000001fff80000e0000f0007f800e00f8001f00000038000001800001f19f3800ffffff0007f0018000fe0038;
   0x180000000000006000007c0000055002000007f0000000e000007e00000000000000100001c00400000000fff0000040000600005000400e0000700000010000001800000f18f38000000000003f0008000fe0030;
   0x0;
   0x0;
   0x0;
   0x0;
   0x0;
   0x0;
   0x0;
   0x0;
   0x0;
   0x1c00000000000000000000001806000000010000001c000000630000000000000006018000000c000000040000000000000000c000000001c0000001c0000000000000000000001c0000000700000001000000;
   0xe00000aaaa800000000000018060001ff83000003bffa000067e0000000000000060180000c0c0000000e0000000000000000c000000000e0000000c0000000060000000000001ffe000007ff800001fe0000;
   0x7ff00001ffffc000fffff80001c060001ff833000039fff000067ffc00fffffe000060180001c0c00000007000007ffffc00000c1c0000000e0000001c00000000600001ffff8001ffffc0007ffff0001ffffe0;
   0xfff80000ffff8000fffff80000cfff0018983300003b80a0000603fc007ffffe00006018000780c00000003800003ffffc00000c0c000aaaaf0000000c00000000600003ffff800001ffc000006ff000002ffc0;
   0xf57c000070000000f5555001ffefff0019d8330000398660000603040070000000006018000f00c00000101e000070000000040c1c000fffff0000001c00000000600001ffff80000180000000600000000c000;
   0x700e00003808000038000000ffe060001999b30000398ee0000603000030702000006ff8000cffffc000380f0000300000000f8c0c000fffff8000000c00001e00600000f00000000180000000600000000e000;
   0x380f00001e7c00001c000000007060001f99f3000039ccc000060300003871f000006ff80000ffffc0001e078000700040000ffc1c00000001c000000c00001fc06000007800000ffffff003fffffc000007000;
   0x7ffff800007f800000f0000000037fe001819fb000038edc00006aba8001873e0000060180000c0c000000fffe0003000e0000cfe0c00000000e0000ffff8001bf86000003c00000ffffff003fffffc00ffffff0;
   0x7ffff800007c0000007c00000003ffe003ffdff0000387dc00006fffe00107780000060180000c0c0000007ffe0007003c0000c1fdc00000000f0000ffffc001c7fe000001f000000318c000000600000ffffff0;
   0x6060000001f00000001e00000001e06003ffdbf800038ffe00006fffe0000320c000060180000c0c0000001e2e000300780000c0ffc00003fff70000c0c0000180ff0000007800002318c00000c63000001c3800;
   0x70700000ffffff00000e000007fe756001c59b3c00039ffe0000603000000703e000060180000c0c0000040f00000700f00000c0c7fc0007fff20000c0c00001c01ff000003c00007f18fe0018c6300000781e00;
   0x60600000ffffff000006000003fe7fe0008d9b3c00038eaa000060300000030f8000060180000c0c00000c03c0000301c00000c0c0fe0003e0000000c0e00001c007f800001e00003f18fe003ec63fc000f00f00;
   0x7fffffc00701800000006000001c0756001dddb3000038700000060300000030f0000063ff800ffffff000e01f0000701800000c0c1dc0000f0000000c0e00001c0067000000f00000718c0000fc63fc001f81fc0].
Definition hanzi_rows_4 : list N :=
  [0x3fffffc00301800000006000000e0606000d89b300003838000006030000003000000063ff800ffffff000ffefc000300000000e0c0c000003c000000c0e00000c0060000000380000318c00003c6300007d81be0;
   0x70700000381800000006000000f07fe000c1db30000381c0000067ff800ffffff00006301800c00c000007ffff00073c000000e0c1c000001f000000c0600000c00600000001c000c33cf00000c630001f181cf8;
   0x606000001c1800000006000000707fe003ffdf300003b8c0000067ff800ffffff00006301800e00c0000038bff00033f0000007ac0c0000007800000c0700000fe0600000000e000eb3eff0030c630000c181830;
   0x707000001c180000000600000038060001ffdf300003bfff00006701800ffffff00106301800e00c000001c00100031ff000007ec1c0000003c00000c07000007e060001800070007f7fdf0070c63e0000181c00;
   0x7ffff00000180000000600000018060000c0033000438fff00006601800001c0000306301800e00c000000e000000301fc00000cc0c0000000e00000c038000200060003800038002afb000030c63fc000180c00;
   0x7ffff0000018000000060000041cfff001fc033001c380df00706701800007c0000706301800600c00000078000003007fc00300c1c0004000700010c038000e000600038000380001dbc0003fc637c000181c00;
   0x6000000018000000060000180efff00378003000c380c00030660180003ee0000306301800600c0000003e000003000fe0030000c000e000380060c01c000e00060003800018000798e0001f86308000180c00;
   0x70000000180000000600001c0706000700003000c380c00070670180007c780003063018007f8c0000001fc000030001c0030001c000e0001c0070c01e000600060001800018001f1878000006000000180e00;
   0x60000000180000000600000c0606000380003000c380c0003067ff8001e03e0003063ff8003f0c00000003f80003800000038001c000e000180060c00f0007000e0001eaaaf8003c183e000006000000180700;
   0x700000001d4000000700000fff060003fffff000ff80c0003fe7ff8007c01fc003fe3ff800050c00000001ffc001d4000001ffffc0007ffffc007fc007c007fffc0001fffff001f8181f0000060000001807c0;
   0x7f0000001f80000007f8000ffe060001ffffe000ff00f8003fe601800f0003f001fe301800000c000000003f8001fc000000ffff80007ffff8003fc003e003fff80000ffffe000e018030000060000001803e0;
   0x3f0000001f80000003f00007fc060000000000000000f8001fc00180040000600000101800000c00000000078000fc000000555400001fffc0001f0000c00000000000000000000018000000060000001800c0;
   0x0;
   0x0;
   0x0;
   0x0;
   0x0;
   0x0;
   0x0;
   0x0;
   0x0;
   0x300000001c0000000300000001c0000000700000000400000000000000060c0000000000000000000000c070000000000000000000000000000000000000000000000000000000000000000000000000018000;
   0x700000001c0000000700000001c0000000700000000e000003fffe0000060c0000000000000000000000c030000000000000000000000000000000000000000000000000000000000000000000000000018000;
   0x7000000038000000070000000380000000700000001c000007fffe0000060c0003fffffc007ffffe0000c0700000000000007fffe0007ffffe0007fffe0003ffffc000fffff0003ffffc00000000000ffffff0;
   0xe00000aabaaa00000e0000000380000000e00000001c000001e0000003060ce003fffffc007ffffe0000c0300003ffffc0007fffe0007ffffe0007fffe0003ffffc000fffff0003ffff800000000000ffffff0;
   0x400000ffffff003fffffc0000300000000e00000003800000078000007c60ce000030e00000000000000c0700003ffffc0007fffe0000001c00007fffe000000000000006000003ffffc000fffff0000018000;
   0x3fffffc00ffffff003fffffc00ffffff00000c0000000300000003e000001fefce000030e0000000000000aeaba800000e00000000000000001c00000000000000000000000600000000000000fffff0000abaa80;
   0x3fffffc0000070000004000000ffffff003fffffc00ffffff00000f0000007efce000030e00000ffff0001fffff800000e00000000000000001c00000000000000000000000600000000000000555550001ffff80;
   0x60c00000103800000e070000000000003fffffc00ffffff000ff67f80000e0ce000030e00000ffff0001fffff800000600000000000000000c00000000000000000000000600000000000000000000001818180;
   0x71c00000701c00001c0780000000000000000c000000000001ff77f8004060ce001c30e18000d55700000c0700000006000000000000007ffc000000000000ffffff00000600000000000000000000001818180;
   0x260c00000380e00007803c0000000000000000c000000000000c0661800c060ce001c30e38000c00300000c030000000600003fffff80007ffe000000000000ffffff00000600000ffffff000000000001ffff80;
   0x771ce00001fff8000f001f00003ffc00000000c000000000000c1771800c060ce000c30e30000c00300000c07000007fff8003fffffc000600e0003fffffc000001c000000600000ffffff000000000001ffff80;
   0x660ce00018fff8001ec02780003ffc00000000c000000000000e3e61800c0eece000e30e30000c00300000c0300000ffff80000e0600000600e0003fffffc000000c0003fffffc00001800000000000000018000;
   0xe70c7000387978003ce073c000381c00000000c0000000000006f771800ffefff000630e70000ffff00000c07000007fff80000e070000070060000001c00000001c0003fffffc00001800000000000003ffffc0;
   0xe60c70001c3e000008e0610000380c00000000c0000000000007c6618007fc3ff000730e60000ffff00000c0300000603000000e060000060060000000e00000000e000000600000001800000000000003ffffc0;
   0x1c70c70000e1f00000070e00000381c00000000c0000000000007c771800000007000730ee0000c0030003fffffc000603000000e070000070070000040e00000000e000000600000001800000000000003818000;
   0x1860e38000707e0000038c00000380c00000000c0000000000003866b8000000000003b0ec0000c0030003fffffc000603000000e07000003aaf00000e0700001fffe00000060000000180000000000000babaaa0;
   0x1870e1c0007c1fc00003dc00000380c00000000c0000000000007c77f8001ffff80001b0fc0000c00300000c0300000603800000e07000007fff00001c0700001fffe00000060000000180000000000000ffffff0;
   0x386061c0001e07e00001f800000380e00000000c000000000000ee6000001ffff8000030e00000ffff00000c0380000603800000e03000003fff00003803800018000000000600000001800000000000003818000;
   0x30707000001f01c00000f00001c380e00000000c000000000001c7ff0000155550000030e00000ffff00000c0380000703800000e0380000300000003801c0001c000000000600000001800000000000003818000;
   0x603000003fe0000001f800008380600000000c00000000000083fe0000000000000030e00000000000000c01c0000601800000e0180000300000007000e0000c000000000600000001800000000000003ffffc0;
   0x70380000f9f8000007fe0001c380700000000c00000000000001160000000000000030e00000000000000c01c0000701800000e01c000038000000ffd0f0001c000000000600000001800003fffffc003ffffc0;
   0x601c0001e07e00003f0f8000838038000ffffc000000000002aaaaa800000000003fffffc000000000000c00e000ffffff0000e00e000038000000fffff8000c000000000600000001800003fffffc003818000;
   0x751e0007c01fe001fc07f000ff801f001ffffc000000000003fffffc00ffffff003fffffc00ffffff0000c007000ffffff0000e007800ffffff001d7fff0000e0000000007f0000001d40000000000000018000;
   0x7f0f00070003f003f000fc00ff000f00000000000000000003fffffc00ffffff002aaaaa800ffffff0000c003800aaaaaa0000e003800ffffff0018000b0000ff800000007f0000001fc000000000000001f800;
   0x3f0700020000600180001c005c00070000000000000000000000000000000000000000000000000000000c0018000000000000e0018000000000018000000007f800000003f0000001fc000000000000001f800;
   0x0;
   0x0;
   0x0;
   0x0;
   0x0;
   0x0;
   0x0;
   0x0;
   0x0;
   0x1000000e0400000003000001c0c00000001000000060000000700000001c00000c0c06000001c0000000700000001c0000000300000001c0000000700000000c0000000700000000c0000000700000001c000;
   0x3800000e0e0000000300000180c00000003800000060000000600000001800000c1c0c000001c0000000600000001c000000070000000180000000600000001c0000000600000001c0000000700000001c000;
   0x7fffd800000e0600000003800001c0e00000001800000070000000700000ffffff000e180c000ffffff003fffffc00557d5500000700000557d55003fffffc00001c00003fffffc00001c00001557554000038000;
   0x3fffdc00000e07000000038000018060001fff9800000038000000600000aaaaaa000638ffc00ffffff003fffffc00ffffff000fffff000ffffff003fffffc00aabaaa003fffffc00003800003fffffc007ffffe0;
   0x7fffdc00000e0700015551c00001c070001fff9c0000003800000070000015ff70001775ffc0000000000007018000ffffff001fffff000ffffff00155555400ffffff003fffffc00ffffff003fffffc007ffffe0;
   0x1800e00000e038001fff8c000018030000e000e0000001c0000007000003ffffc001fff000003ffff800006018000000000000aaaaa00000000000000000000ffffff00000000000ffffff000000000002aaaaa0;
   0x1c0070007fff18001fff8e00001c0380007000e0000001c00000070000038d71c001fff7f8003d555c0007ffffc001ffff00001c0380001ffff00007fffc0000000000007fffe0000000000007fffc0000700c00;
   0x18007000ffff9c0000000e0000180380003800f0000000e000000f000003aff2c0018c37f80039ff980007feff8000c00300000e0300000eaab00003000c0000aaaa00003fffe0000000000003fffc0000701c00;
   0x1c0078007fff9e0000000f00001c03c0001c00f8000000f000000f000001fff7c0018c76180039ff9c000670180001c00300000e0700001c00300007000c0001ffff80007000e0003ffffc0007000c0000301800].
Definition hanzi_rows_5 : list N :=
  [0x18007800e0601e0000000f800ffffbe0000e00f8000000f800000f0000038ff08001fff6180039ab9800063e980000ffff0000060600000eaab00003fffc0001ffff80003000e0003ffffc0003000c0000383800;
   0x1c007c0060601f0000000fc00ffffbf0000700fc000000dc00001f800001ff7fc001fff7f80039ff9c00063effc001ffff0003fffffc001ffff00007fffc0001c00380007fffe0003ffffc0007fffc000fffffc0;
   0x18006e0060601b0000000ee00abaabb8000300ee000000ce00001f800001affa80018c32a8003800180026783f800000000003fffffc00000000000000000001c00380002aaaa00038180c0003fffc000fffffc0;
   0x1c0064006070190000000ec0001c03b0000380e4000000cf00001d8000018c31c0018c77fc003ffffc0067fc19000ffffff00000600000000000001fffffc001c00380000000000038181c0000000000055555c0;
   0x180060006060180000000e00001803800001c0e0000000c780003980000ffffff0018c3ffc00000000003ccf18000fffffe000006000007ffffe003fffffc001eaab80007fffe00038180c0002aaaa80000000c0;
   0x1c0060006070180000000e00001c03800000e0e0000000c3000039c0000ffffff001fff700000ffff0003c071f000e70007001fffff8007fffff003d5555c001ffff80007ffff00038181c000fffff80000000c0;
   0x180060006030180000000e0000180380000060e0000000c0000030e0000e7ffe3001fff380000ffff00000078f000e7fe86001fffff80060000600380000c001ffff80001f8000003ffffc000fffff80000000c0;
   0x1c0060007030180000000e00001c0380010070e0000000c0000070e0000e7fff70000c00c0000c0030000707e0000e07ff70015575500061ffc7003ffffdc0000180000007e000003ffffc0003f00000000000c0;
   0x180060006038180000000e0000180380030038e0000000c00000e0700000600600000c0fe0000ffff000038cf8000000c000000863800021ff82003bfffcc000418200000060000038180c00007e0000000000c0;
   0x1c0060007018180000000e00001c0380030018e0000000c00001c07800007fff0007fffffe000d55700001fc3fc007ffd000001c6380000181c000000e000000e1870003fffffc0038181c00001e0000000000e0;
   0x18006000701c180000000e0000180380038018e0000000c00003c038000060060003fff8fe000eaab000007837c007fffff0003861c0000180c000000e000001c1838003fffffc0038180c0000060000000000e0;
   0x1c006000701c180015554e00001c038001801ce0000000c00007801e00007fff00000c00c0000ffff00000f031c00001fff0007060e000c180c000000e0000038181c0000060000038181c000006000000000060;
   0x18006000300e18003fffee000018038001aab8e0000000c0000f000f00006aae00000c00c0000000000003ce30000c00c00000e0607000e180e000000e0000070180e000006000003ffffc000006000000000060;
   0x1fe060007f8718003fffee00001c038001fff8e0000000c0003e0007c00ffffff0000c00d000ffffff003f0ff8000f01c00001c0607800ff807c00000e00000701807000006000003ffffc000006000000000070;
   0x1fc060003f83980000000e000018038000ffe0e0000000c000380003c00ffffff0000c00f000ffffff003c00f8000fffc00000c07e10007f803f00000fe0000601f82000007f00003aaaac000007f00000000038;
   0x7c060001f01180000000e00001c0380000000e0000000c0001000018000000000000c007000000000000000180007ff000000007c00001d0006000007e0000001f80000007f000038001c000007f00000000030;
   0x0;
   0x0;
   0x0;
   0x0;
   0x0;
   0x0;
   0x0;
   0x0;
   0x0;
   0x100000000400000040000001c060000700100000700400000601000001c1c000000018000001800000004000000100000000001c0000018000000060000000004000000e10000006040000000100000000000;
   0xe00380000000e000000e000000180e0000600300000300c0000060380000180c00000003800000380000000e000000300e00000000c00000380000000e000000aa8e000000e380000060c0000000300000000000;
   0x1fc01c00055556000000f0000001c070000700380000700e00000601c00001c0e0001fffdc000003c0000000f000000300e00003ffec000003c0000000f000000ffc6000000e180000060e000000038000fffffc0;
   0xffe1c000ffff7000000f80000018070000600380000300e00000619c0000180e0003fff9c000007e0000001f800000380e00003ffee000007e0000001f800000ffc7000000e1c0000060e0001ffff8000fffffc0;
   0x7fcc000ffff7000003fc000001c0300007001c0000700700000618c00001c070001e000c00000e700000039c00000380e00003070600000f700000079c00000c0c7000000e0c000006070001fffdc00000400c0;
   0x62ce000c1c038000079e00000180380006000c000030030001c618e0000180300007000e00001c3800000f0e00000380e00003830600001e3800000f0e00000c0c3800000e0e0000060300018038c00000e00c0;
   0x7007000c1c01c0000f0f000061c71c003fffce001ffffb8001f618700001c0380003c0070000781c00001e0780000380e00001870700007c1c00001e0780000c0c1c0003ffe7000006038001c038e00000600c0;
   0x6007000c0c01c0001e07800061831c003fffce000ffffbc001fe1870000180380001e0070000f00e00003c03c0000380e0000183078000f00f00003813c0000c0c1c0003ffe7000006038000c030e00000600c0;
   0x7007800c1ce1e0007c03c00061c71e0017554f00007003c0019fd8780155d53c000070078003e0078001f001f0000180600001c7078003e007c001f079f0000c0c1e0003ffe780003603c000c070f00000600c0;
   0x6007c00e0c61f000f000f00061831e0006000f80003003e00187f87c00ffffbe00006007800faaabe003e0007c000180e000018307c00f8003f003e0f07c000c0c1e00030e0780007603e000e070f80000600c0;
   0x7007e00e0c61f803e0007c0061c71f0007000fc0007063f00186fe7e01ffffbf00007007c01f7ffff803c0019c0001c1f0001fc307e00f1004f003c1e03c000c0c1f80030e07c001e603f0006070fc0000700c0;
   0x3fffe6e00e0c71b803aaaabc0061831b8006030fe00030e3b801861f6e0001803b80006006c00c7ffe30001c0188000381e0001fc306e008300c3001038008000c0c1b80030e06c003c603f8006060ee0000600c0;
   0x7fffe6400e0e3190037fffcc0061c7190007070ec00030c39001861f640001c039007fffe64000600700001f01800003c3f0001803074000300c0000018000000c0c190003060640078603b00070e0ec0000f00c0;
   0x6006000e0e3980003fffc0006183180006070e000038c3800186186000018038003fffe600006006000007e1800003c370001803860000300c00007fffe0000c0c1800030606000f0603900038c0e00000f00c0;
   0x7006000e061d80000060000061c71800070e0e000039c380018618600001c0380000700600007007000001fd800007c770001803870000300c00007fffe0000c0c1800030706000e0603800019c0e00001f00c0;
   0x6006000e061980000060000061831800060e0e0000198380018618600001803800006006000060060000003f800006ee38001803860000300c00007aaaa0000c0c18000306060004060380001f80e00001b80c0;
   0x7006000e070180000060000061c71800071c0e00001f838001f618600001c03800007006000075070000000f80000efc38001801870000300c0000380000000c0e18000307060000060380000f80e00003b80c0;
   0x6006000e03018000006000006183180006180e00000f038000f61860000180380000600600003f060000000180000e6c38001801860000300e00001c0000000c0e18000303060000060380000f00e000031c0e0;
   0x70060006038180000060000061c7180007080e00000f0380010618600001c0380000700600011f070000600180001c741c001c01c70000300e00001e000001cc0618001303860000060380000f00e000071c0e0;
   0x6006000603818000006000006183180006000e00001f0380030018600001803800006006000380060000e001800018381c001c00c60000300e00000e0000008c0618002303860000060380001f80e0000e0e060;
   0x7006000701c180000060000061c7180007000e00007f8380070018600001c038000070060003800700006001800038381c001c00e700003007000007000001cc0718007301c60000060380003de0e0001c07070;
   0x6006000700e18000006000007fff180006000e0000fbe38003003860000180380000600600038006000060038000701c0e000c00e6000030038000038000008c0318002300e6000006038000f0f8e0003803870;
   0x70060007f8798001fffff8007fff180007000e0007e1f38003fff86000ffffb8000075060001fffe00007fff8001f01e07000f507700003003c00001c00000fc0398007f00f6000006038003e07ce000f001e70;
   0x60060003f03d8001fffff8006000180007f80e000f807b8003fff06000ffffb800007f060000fffe00003fff0000e00e07800fe03e00003000e00000e00000fc01d8003f007e000006038003801ee000e000e38;
   0x70060001f0198000000000006000180003f80e000e001b8001ffc0600000003800001f06000000000000000000004004020007e01700003000400000400000780198001e00360000060380030006e0004000430;
   0x0;
   0x0;
   0x0;
   0x0;
   0x0;
   0x0;
   0x0;
   0x0;
   0x0;
   0x18100000010600000060000001c060000100180000000c00000701000001c04000000610000030760000070180000000600000019c0000000400000001000000004000000000000001000000018000000010400;
   0x38380000038e000000e0000001c0e000018c380003800c0000030380000180e00000063800003076000003038000003060001ff38c0000060c0000018380000000c000060000000003800000338700000038e00;
   0x701c00001f07000000f0000001c07000018e1c0007fc0e00000781800001cc60000007180000307700000701c000007f70001ff30c0000070c0001839dc0000000e000060106000003c00000718700000018600;
   0x701c00003e07000001f8000003807000038e1c0000ffee00000f81c000018c700000031c0000307300000301c000ff8f300018070e0000030e0001831dc000ffffe000060186000007e00000e38380000018700;
   0x700c000078030000039c00000180700003070c00001ff700001dc1c00001ce70003fff9c0000307300000700c000ff833800180606000003070001c71cc000ffff700007038600001e700001c3818000fffc700].
Definition hanzi_rows_6 : list N :=
  [0x3fffee0000600380000f0e0000ffffb80003070e0000183300001ce0e0002bae38003fff8e000030738002abaae000e1831800180ea6000003830000ce18e000ffff300006030600003c3800018381c000fffe380;
   0x3fffe700004381c0001e078001ffff9c0007030700001c038000787070007ffe1c001575c700043071c003fffe7000e1831c001800e7000061c38000cc187000000038000707060000785e00000380e00055561c0;
   0x700000381c0003863e00000301c000e038700001803c000f03870007fff1c000061c700063071c003fffe7000e1831c001800e3000071c38000c038700000003c00070e060001e0ef80038380e00000071c0;
   0x780000381e001f061f00000301e001c01c780001c03e001e01c780001c71e000070e780073071e003870e7800e1831e001800e7800070e3c000e030780000003c00071c060007c1c7c003ff40f00000079e0;
   0x2aa07c0018381f003e0607e0000301e003c00e780001803e003c00e780001839e000060f78003b7f1e003830e7800e1831e001800e3800038e3e00060307c0000003e00030c06001f0380f802fffef80000039e0;
   0x3ff07e00383b1f80380601c0000301f007ffff7c0001c03f003b077fc0001c39f00007067c001f7f1f003870e7c00e1831f001800e7c0003873f00070707e0000003f00030006000e0700700007fedc003ffd1f8;
   0x3ff06e00303b9b802006000003ff81b003fffe6c00abaabb80030336c0001811b00006006c000f071b803830e6c00e1831b801800e3e000183bb80070606e0000003b800300060000020000000302ce001ffc1b8;
   0x307064007039990000060c0007ff8190007ffa6401fffff90003070640001c01900557546400030719003870e6400e1831d001800e740001c33b000306064007ffe39000380060001ffff80000700c4000f00190;
   0x303060006039980002ae0c000303818000e1c06000ffffb800030306000abaa98003fffe6000030718003830e6000e18318001800e300008e03800038e060007ffe38000380060003ffff80000700c0000380180;
   0x30706000e039980007fe0c00070181800061c0600001c03800030706000ffff98007fffe6000030718003fffe6000e1831c001800e70001ce0380001dc060000000380001c0060001ffff80000700c00001c0180;
   0x30306000c039980007fe0c00030181800060c0600001803800030306000ffff9800006006000030718003fffe6000e18318001800e30001c60380001dc060000000380001c2060000e00000000600c00000e0180;
   0x30306001c039d80000060c000301c1800060c0600001c0380003070600001c01800007006000030718003870e6000e1b31c001800e70001870380000f8060000000380001c3c60000780000000600c0000070180;
   0x30306000c038d80000060c000301c1800060e060000180380003030600001801800006006000030718003830e6000e1bf98001800e3000383838000078060000000380003e3e60000381000000e00c0000038180;
   0x1303060003838d80000060c000301c180006060600001c0380003030600001c01800007006000430718000070060007d9f9c001800e70003018380000f8060000000380007f0ff00001e7c00060e00c000401c180;
   0x2303860003838180000060c000300e18000606060000180380003038600001801800006006000c34718000030060007d8798001800e3000701c380000fc060000000380007783f00000ef000060c00c000c00e180;
   0x7301c60001838180000060c000380e180007070600001c0380003018600001c01800007006001c37f180000700600015819c001800e70007f0e380003de06000000038000e3c07800007e000071c00c000c007180;
   0x2301c60001838180000060c00038071800070386000018038000301c600001801800006006000c33f1800003006000018018001800e3000fffe38000f8f86000ffffb8001c1e030000078000033800c000c006180;
   0x3700e60001ff818003fffffc001d4798000751c6000ffff38000301e600001c01800007006000ff1f180000700600001801c001800e7000e7ff38001f03e6001ffffb800380f8000001f000003f800c000ffff180;
   0x3f00760001ff818003fffff8001f83d80003e0e6000ffff38000300f600001801800006006000ff031800003006000018018001f80e3000c00e38003c00f6000aaaab8003003c000001e000003f000c0007ffe180;
   0x1f00360000ff018000000000000f81980001e0460000000380003006600001c018000070060000001180000700600001801c001f00e7000400038001000760000000380010018000000c000001c000c0001ff0180;
   0x0;
   0x0;
   0x0;
   0x0;
   0x0;
   0x0;
   0x0;
   0x0;
   0x0;
   0x7018000001c40000006180000000400000001800000c0400000301000000100000000010000001000000070100000070400000060000001c04000001c1000000c040000070180000000400000001c0000000400;
   0x3038000300ce000000e380003ffce0003fffb800000e0e00000303800000380000000038000003800000070380000e60e000000e0000000c0c00001983000008c0e0000030380000000e00000001c0000000e00;
   0x781c000381c700000071c0003ffc60003fffdc00000e07000003018000003c00003fffd8000003c00000070180001c70600000070000001c0e000079c380001cc0600000701c000ffff600003ffdc0007fff600;
   0xf80c000380c700000071c0003aac60002faa9c0007fff700000301800000ff00003fffd8000007e000000701c00038707000000f8000000c0e0000f183800038c0700000301c000ffff700003ffce0003fff700;
   0x1dc0c0001c1c70003fff0c000300c700007010c0007fff30001ffffc00001e7c0000001dc00001e7000000701c00070707000001fc000001c070001c181c00070c070007fffec00055f5700003860e0007060700;
   0x38e0e0000e0c38003fff8e000308c380007030e000006038001fffee0000781e0000c01ce00003c3800030718e000307038000039e000000c0300000180c00060c038003fffee00000e038000186060003060380;
   0x78707000071c1c000001c700031cc180007030700000701c000030060001f00f8000c0dc60000781e000387187000ffffd80000f0f000001c038003c180e00020c01c0015754700000601c0001860700070601c0;
   0xe0387000038c1c000038c7000318c1c0007030700000301c00003007000fc183e000e1dc70001e00f800387187000ffffdc0001e078000ffffbc003ffe0e00000c01c0000300700000601c0001c60780030601c0;
   0x1e01c780001fc1e000038f780031cc1e00070387800ffffde001fffc7001f0181f00063dc78007ffffe001871c7800ffffde0007c01f000fffffc003fffff000ffff9e0000700780000701e0000c707801ffffde0;
   0x3800f780000cc1e00003867c00318c1e00070387800ffffdf000fffc78008c1823000739c7800f3ffff001c318780000301e003f000f80003e03e00003fef800ffff9e0000300780000601e001fc607c00ffffdf0;
   0x3003f7c00ffffdf00003807e0031cc1f007fff87c00555d5f801fffc7c000c1870000771c7c0047ffc7001c71c7c0003301f003ce037c0007f03f001c380fc0001c01f001fffe7c0015751f001fe707c0175755f8;
   0x20386e00ffff9b801fffc6e00318c1b803fff86c0000181b80003006c000e18600003e1c6e00000000000c30c6c0003b01b0000e03080006f03b800c380ee0001e01b801fffe6e003fff1b80180f06e0030601b8;
   0x70386400ffffd9001fffc640031cc19007fffc6400001c1d000030064000718e00001c1c6400000000000e70e640003b0190000e03800007f839000e300ec0001e019001fffe64003fff19001c0f074007060190;
   0x3c386000038c1800181806000318c180007c0060003ffc18002abaa60000318c00003c1c60002aaaaa000070c600003b818000060380000ef8380006300e00003e018000e0386000383018000c0f060003060180;
   0x1f386000031c180018180600031cc180007e0060007ffc1c003ffff60000399c00007e1c60007ffffe0000700600003b8180000e0380001ddc380007700e000036018000e0306000383018000e1f070007fff180;
   0x7f86000030c180018180600033cc18000770060003aaa18003fffe6000001800000771c60007ffffe0000f8060000398180000e07800018cc380003f00e0000360180007070600038381800063b860003fff180;
   0x1f86000071c18001c1c0600003c01800073c060001c001c00303006000555d55000e79c60000107000000d806000039c180001f0fc00039ce380001f00e00007701800078e06000183818000771870007fff180;
   0x3860000e0c1800180c0600003e01800071e060000e001800383006000ffffff000c39c60000383800000d806000039c180001b1cc00070c7380000e00e0000638180003ce060001838180003f1860003030180;
   0x3860000c1c18001c0e06000c3701800070f0600007101c00383006000ffffff001c1fc60000701c00001dc06000439c180003bb8c000f1c7b80010f80e0000e38180001fc060001818180003e1c70000030180;
   0x1803860001c0c18001c0e06000c330180007078600003f8180038300600000180000080fc60000e00e000038e06000c38e180003bb0e001e0c3f80030fc0e0000c1c180000f8060001818180001c0c60000038180;
   0x18038600039dc18001c0706000c33818000703e600001f01c00183006000001800000005c60001c007000078f06000c3871800071c07001c1c1f80071df0e0001c1c180001fc06000181c180003f0e7000001c180;
   0x18038600073fc18000c0386000c31e18000700f600003c018001e3006000001800000001c60003fffb8000f0786000c38718000e0c0700080c0b8003187ce000380e180003df06000181c18000f78e6000000e180;
   0x1fff06001f07e18000fe1c6000ff0f180007506600007801c000e3006000001800007fffc60003ffffc003e03e6000ff03d8003c0f03c0001c038003781ee000f00798001f87c6001ffffd8001e3c770000007180;
   0xfff06000c00e18000fe0e60007e03980003f0060000e001800003006000001800003fffc60007003f8003800e60007f01d800380781c0000c038003f004e000e003d8003e03f6000ffff98003c0e3e0000003d80;
   0x7fc06000000418000540660000001180001f00600004001c0000300600000180000000006000300000003000660000000980010030080001c038001e000e00040011800100066000000018001004170000001980;
   0x0;
   0x0;
   0x0;
   0x0;
   0x0;
   0x0;
   0x0;
   0x0;
   0x0;
   0x1810000300060000030100000000400000001800000c040000000100000006700000001c0000000600000701800001c040000070100000000600000701000001c0c0000030100000040400000381000001c0400].
Definition hanzi_rows_7 : list N :=
  [0x38380007e00e0000030300000000e00000003800000e0e000000038000000630000e001c0002aaae00000303800000c0e0000830b80002aaa600000603800000c0e00000303800000e0c00000383800000c0e00;
   0x70380003ffc70000070380007ffee0001fffdc000007070003fffd8000000630000c01dc000ffff700000701c00001e070001c71d80007fff700000701c00000e0600000701c00001c0c0000038d800001e0600;
   0x601800003fe70000060180003ffe60001fffdc000007070003fffdc000ff0638000e0ece000ffff700000301c00003f070000c319c0007fff300000601c00000e0600000601c0000380e0000039dc00003f0700;
   0xe01c000031f300000601c000700670001870cc0000638300000e01c000ff0618000e1dce000e00030003fffec000037030000c719c0007007300000700c000006070003fffec00003807000001b9c0000770700;
   0x3fffee000030638001fffcc000300638001830ce0000e38380000e00e000e30618000e18c6000e00038003fffee000073838000e338e0006003380000600e0003fff30003fffee000abaa3000003b0e0000e38380;
   0x3fffee00003071c001fffce000700618001870c70001c1c1c00007007000e37fdc000e19c7000efff9c003575670000e1c1c0007730700070071c007fffe70007fff38003fffe7000ffff38000019070001e1c1c0;
   0x2aeaaf00003061c0000000f00030061c001830c7000380e1c00003807000e37fde000e38c7800efff9c003030670001c0e1c000233070007fff1c003fffe700030031800001807000ffff38003fffe70003c0e1c0;
   0x700f00007071e0006000f00070061e001870c7800700e1e00017c07800e3661e000e31c7800e0001e0030706780078779e001575478007fff1e0000700780070071c00001c07800c0033c001fffe780078079e0;
   0x600f80003061e000e030f8003ffe1e001830c7c007fff1e0003be07c00e3661f000630c7c00e0001f00303067c00f0e3df001fffc7c0000031e00006007c0030031e00060e07800c0033e00381807c00faabde0;
   0x700fc00ffff1f0006070fc007ffe1f001870c7e00ffff9f000f7f07e00e3671f000671c7c00e3ff1f803fffe7e00e1c1df801fffc7e0000771f00007007e0070071f00070707c00c0033f00181c07e00dfffdf0;
   0x600ec00fffe1b8006060ec0030061b801fffc6e00c02f1b001e3786e00e3661b800620c6e00e3ff1b803fffe6e0000801b80003006e0000631b00006006e0030031f00038306c0080023b80181c06e001ffe1b8;
   0x700e400ffff190007060e400700619001fffc7400400019003c73c6400e3671d000701c7400e3ff1d0030706640015551d000070064007077190000700640070071b0001d38640000003b00187c064001c06190;
   0x1fff8e0000606180007060e000300618001abac6000000018007830f6000e36318000700c6000e30318003030660003fff1800003006000786318001fff860003fff180000ffc60000000380018ec060000c06180;
   0x1fffce0000607180007060e000700618001870c70003ffe1800307066000e3671c000701c7000e3071c003070660003fff1c000070060001f7318001fffc60007fff180000ffc60000000380018ec060001c06180;
   0x600e00006061800030e0e000300618001830c60003ffe1800003006000e36318000700c6000e30318003fffe60001c0018003fffe60000fe318001aab86000300318000070060000000380019ce060000c06180;
   0x700e00006071800030e0e0007ffe18001870c700030061800007006000e3631c000fbdc7000e3071c003fffe60001e001c007ffff600001f318001c01c600070071800073806000000038001f86060000fc6180;
   0x600e0000e061800030e0e0003ffe18001830c600030061800003006000e36318000f9ec6000e3ab18003abae60000e0018002abaa60000063180018018600030031800061c06000000038001986060000fc6180;
   0x700e0000c071800038c0e0007ffe18001870c700030061800007006000e3731c001dcfc7000e3ff1c00307066000071c1c00007006000407398001c01c6000700718000e0e06000000038001c07060006146180;
   0x600e0018cc61800018c0e000000018001830c600030061800003006000e363980019c3c6000e2ab180000300600003bc1800003006000c0639800180186000300318000e0606000000038001c03860006006180;
   0x700e001ddc7180001840e000000018001870c700030061800007006000ff719c0038e1e7000e0071c0000700600001f01c00007006000c07198001c01c6000700718001d0786000555538001c01c60006006180;
   0x600e000d9a6180001800e000000018001fffc600030061800000006000ff31d80038f0c6000e000180000300600000e01800003006000c06198001801860003fff18001fffc6000ffff38000c01e6000600e180;
   0x7fffee000fbff18003fffee001ffffd8001fffc70003ffe18007fffe6000e33fdc0070784700065001c0000700600003c01c00007006000e071d8001fffc60007fff18003fffc6001ffff38000fe0f60007ffe180;
   0x3fffee000f31f98003fffee000ffff98001800c60003ffe18003fffe6000e33ef8003038060007e00180000300600007801800003006000ffe0f8001fff860003fff18003800c6000000038000fe0760003ffc180;
   0xe0007103180000000e000000018001800c70003006180000000600000045c000010070007e001c0000700600003001c000070060007fc058001c01c6000700718001000060000000380007c0260001550180;
   0x0;
   0x0;
   0x0;
   0x0;
   0x0;
   0x0;
   0x0;
   0x0;
   0x0;
   0xc000006040000004000000000600000001800000186000000c18000000060000006100000010400001c61800001c04000000600000001000000030100000010400000001800000c060000030100000060400;
   0xaaaac0000060e000000e00000000060000000380000018e000000e38000000060000006380000070e00000ce38000018ce000000e00000001800000030380000078e00000003800000c060000038380000060e00;
   0xfffec00000606000000f00000ffff70003fffdc000001c700004061c0007fff70000007180000030e00001ce1c00001cc7000001f00000007c000000701c00071f0600000001c00000c070000038180000070600;
   0xeaaee00000607000001f80000ffff30003fffdc000000c70000fff1c0003fff300000031c0000038600000ce1c000018e7000003b80000006e000000e01c00033c070003ffffc00000c0300000381c0000070700;
   0xc00660007fe070000039c0000001c30003871cc000000c30000fff0c000000030003fff1c001fff870001fffec00001c630000079e000001e700003fffcc0003b8070007fffec00000c0380000181c0000070700;
   0xc00660007fe0380000f0e0000000c38003860ce000fffe380006038e000000038003fff8e000fffc38001fffee0007ffe380000e070000038380003fffce0001a0038000c000e000aaeab8003fffee000aabab80;
   0xdff6700000601c0001e078000001c1c003871c7000fffe1c000707c700000001c003fffc7001fffc380019ce070007fff1c0003c03c0000701e0003000c70001c181c001c0007000ffffdc007ffff7001ffffdc0;
   0xdff6380000601c0007c03e0001ffc1c003860c7000ebae1c000386e7000ffffdc003801c700000ce3c0018ce0700001831c000f801e0001e00f8003000c70000c181c000c0007000ffff9c002aaea7000ffff9c0;
   0xc306780000601e001f555f0001ffc1e003fffc7800c1871e0001ce77800ffffde003000e780000c73c0019ce0780001c31e007fffffc007d557c003007c78000e181e001c7fc780003f01e00000c0780000381e0;
   0xc306380000601e003effffe00180c1e003fffc7c00e1839f0000fc27c0000e01f0038aaf780000c73e001fffe7c0001839f0039fffbe01f3ffcf8020068780016191f000c7fc780003f01e00000e07c0000181f0;
   0xdff67c01ffffdf8031fff9c001c0c1f003d75c7e006181df80007807e0000701f8038fff7c00ffc3bf001fffe7e0001c19f80315750c00c3ffc700000707c003f1b1f801c7fc7c0007f01f00000607e00001c1f8;
   0xdff63e00ffffdb80000000000182c1b803860c6e0011819b8000fe06e0000701b8038eba6c00ffc1bb0000ce66e0001c01b80000600000000000000e0606c00339b9b800c60c6c0006d81b80000606e00001c1b8;
   0xd9367401ffffd9000603040001c7c19003871c6400199c190007cf86400ffffdd0038c186400ffc1390001ce66401ffffd900000600000000000001f0706400739999001c61c64000edc1900155706400fffc190;
   0xd93630000060180006030600018ee18003860c6000398c18003f83e6000ffffd80038c18600000c0380000ce66000ffff98000aaeaa8003ffffe0003e60600061d998000c60c60000ccc18001fff86000fffe180;
   0xd93670000160180007070e0001dce18003fffc6000318c18003c01f6000ffffdc0038c18600000c0380015df7600001c018001fffff8007ffffe0001ff06000e0f998001c61c60001cce18001fff86000fffe180;
   0xd936300003e0180003060c000198e18003fffc6000718e1800200e260000c0c180038c18600000c038003ffff600003e018001fffff80000180000003e06000c0f998000c60c600038c618001807c60000306180;
   0xd93770000f60180003861c0001d8e18003fffc60007186180000fe060000c0e1c0018d586000ffc038003ffff600003e0180000060000002186000000706001c079d8001c7fc600070c718001807e60000707180;
   0xd93230003e601800018e180001b8e18003860c60006187180003f0060000e0e180018ff86000ffc0380030c606000036018000086180000718e000000606001c038f8000c7fc6000f0c398001806f60000303980;
   0x2d93770007860180001cc380001c0618003870c6000e187180003c006000077e1c0018ff86000ffc0380031c7060000770180001c63c0000e187000100706000181c58001c01c6001fffdd8001807760000703980;
   0x2d93330006060180000c430001980618003860e6000e183980000008600003f8180018018600000c0380030c3060000e38180003861c0001c183800300606000381e18000c00c6000cffcd8001806260000301d80;
   0x7dd3370004060180000e0000019c061800387066000c1819800000fc600007c01c001c000600000c0380031c3860001c1c18000f060f00038181c00300706000181f18001c000600000c018001807060000701f80;
   0x2812330000060180000600000099e6180038606600001801800007f860001ff018001c000600000c038003ec386000380e18001e060780070180e00380606000181b98000c000600000c018001ffe060000300d80;
   0x78103f000006018003fffffc01fdff180038707600001c0180007fc060007c7f1c001d400600000c038001fc1e6000f00798001c0603c00701807001fff060001ff9d8001d400600000c018001fff06001fffe180;
   0x38101b000006018003fffff800f83f18003f603e00001f0180007c006000f00fd8000fe00600000c0380000c0f6000e003d8000807e0800201f80001ffe060001ff898000fe00600000c01800180606000fffe180;
   0x30101700000601800000000000700118001f701600001f018000700060004001dc0007e00600000c0380001c076000c00198000007e0000001f000005500600007f0180007e00600000c018001807060000000180;
   0x0;
   0x0;
   0x0;
   0x0;
   0x0;
   0x0].
Definition hanzi_rows_8 : list N :=
  [0x0;
   0x0;
   0x0;
   0x38000c000006060000070100000000600000001800001c0700000711800001c0c00000841000000407000003018000073860000010100003000400000701000000006000007010000000060000c01180000070600;
   0x382aac0000060e000003838000000060000aaab8000018070000033b80000180e00000ce3800000c07000003038000033860000038380007e00e0000030380000000e000007038000aaaae0000e03980002030600;
   0x383ffe00000707000055c18000ffff70000fffdc0000380700000739c00001c0600001861c00000c0700000701c00007387000007c180007fff600000701c000ffff7000007018000ffff60000e071c000e070700;
   0x39bfe6000aabab0000ffe1c000ffff30000fffdc000ffffb80000319c000fffff00003871c00000e1b00000601c00003383000007c1c00003ff700000301c000ffff70000afa9c000ffff600006060c00062bab00;
   0x398187000ffffb0000fff1c000007030000c01cc001ffffb8001fffcc001fffff00003070c0007fe3b8007fffec0006739300000ee1c00001c570003ffffc000380c30001fffdc00000c07000070e0c00077ffb00;
   0x398187000ffffb8000703ce0000e3838000c00ce000000398001fffce0000180380007038e000ffe318003fffee0006339b80001c60e00001c038003fffee000380c38001fff8e00000e030003fffee0003fffb80;
   0x3981c7000071c1c000785f70001c1c1c000c01c70003c039c001fffc700001c01c000e01c70007ff71c00000007000773b1c0007870700001c01c00007007000380c1c0000700600000e038003fffe70001c701c0;
   0x398bc38000e0e1c0001ce67000380c1c000c00c70003f839c000030e7000abaa1c001c00e700060361c000386070003b3b1c000f038700001c01c000030070003ffc1c000070070002aea18000060070000e301c0;
   0x399fc78003c071e0001fc078007d0e1e000c01c780007ff9e00007077800ffff1e003ffff7800733a1e000707078001f3f1e001e01e7801ffffde000070078003ffc1e000070070007ffe1c000070078000f701e0;
   0x399fc3c00ffff9f000078078007fff9e000eaac7c0001ff9e00003067c00ebab1f003fffbfc0033181e000e0387c000b3e1e001ffff7800ffff9f00003007800380c1e003fffe78003ffe1e00006007800ffffde0;
   0x3998e7e01effdff8001ff07c0077ff1f000fffc7e0001c79f00007007e00e1c31f803601b7e00331c1f001c01c7e00073e1f0017ffe7e0001c01f801fffe7c00380c1f003fffe7c0070061f00007007c01ffffdf0;
   0x399863c008000db8000e7e6e00e0801b000fffc6e0001839b803ffff6e00e1831b80060186e0003081b803b00e6e0003381b0002ba86e0001c01b801fffe6e00380c1b002aaaa6c0030061f001fffc6e0001e01b8;
   0x399c7740000001d001ff1e640001c01d0000000640001c39d007ffff6400e1c3190007ff8640003001d0077077640007381d0000300640001c01900000006400380c190000700640070061b001fffc640000f0190;
   0x398cb30007fff98003ff80600001c01800063186000f983980000ce06000ffff180007ff86000038e18000306260001f3c180000300600001c018000000060003ffc1800007006000300619000060060000078180;
   0x398dff0007fff9c00181e0600001c01c00063186001ffff9c0001c606000ffff180006018600007861c00038e060003f3f1c000030060007fff18000000060003ffc18000070060007ffe1800007006000181c180;
   0x398f93000001818001c0f860007fff18000631860000fff980000c60600000c2180006018600007861800018c06000733f98000fffc60007ffe18000fffc6000380c18001fffc60003ffe18000060060003e1f180;
   0x398f07000001c1c001c1bc60007fff1c0006318600001dd9c0001c60600001c7180006018600007c71c0001dc06000e71bdc000fffc60007fff18000fffc6000380c18001fffc60007ffe18007ffff60001fdfd80;
   0x3986030000aac18000e3ce600001c018000631860000181980000c60600000c6180007ff860000ec3180000f80600043189800003006000600618000c00c6000b80c18000afa86000300618003fffe600003f9f80;
   0x3987070001ffc1c0007704600001c01c0006318600001c19c0011c70600000fe180007ff860000cc39c00007006000071c1c00003006000700718000c01c6001ffdc1800007006000700618007ffff60000078580;
   0x3803030001aaa180003e00600001c018002631860008181980060c306000007818000601860001ce1980000f806000030c1800003006000600618000c00c6000ffff9800007006000300618000060060004018180;
   0x3803870001c001c0001f00600001c01c006631c6001c1c1dc0071c38600000f018000601860001871dc0001fc06001c70e1c00003006000700718000c01c600039ff980000700600070061800007006000c018180;
   0x3801c300018001800007c0600001c018006630e6000c180d80020c1c600003fc18000601860003838d800078f06000c30e18000030060006aae18000c00c6000380098000070060003ffe1800006006000e018180;
   0x1f81e70001c001c00001fc6001ffffdc006630f6000ff80dc007fc1f60007fdf1800060186000f01c1c001f07c6000d7079c003fffe60007fff18000fffc6000380018007ffff60007ffe18000070060007ff8180;
   0x1f80730000fe018000007f6000ffff98003e307e000ff80f8003f80f6000fe07d80007e186000e00e18003e01f6000ff03d8003fffe60007ffe18000fffc6000380018003ffff6000300618000060060007ff8180;
   0x1f006700007e01c000001e600000001c003c00360007f005c001f0036000f001980007e18600040041c003000760007e019c00000006000700718000c01c600038001800000006000700618000070060001fc0180;
   0x0;
   0x0;
   0x0;
   0x0;
   0x0;
   0x0;
   0x0;
   0x0;
   0x0;
   0xe000000000600000071c0000140600000181c00001c06000040018000e00030000038100000018600000001800001c060000010180001c18600000181c000000070000038100000060400000701800001c0400;
   0xe000000ffe600000030c00001c0600000381c00000e0e0000fa038000e0003800003838000003860000fff9800000c060000038380000c18e00000381c000ffffb0000038380000060e00000333800001c0e00;
   0x1f000000ffe700000038c00001c0700000700c00001e070000fffdc000e4ffd8001ff818000503870000fff9c00001c0700000701c0001c18700000301c000ffffb000039c180000070600000731c00001c0700;
   0x3bc00000eaa30003fff8e00000c030003fffee00003f0700000ffcc000e6ead8001ff81c0007ff830000e018c00000c0300000701c0000c1870003fffee000e001b800030e1c0000070600000339c0002bea700;
   0xf1e00000e0038003fffc6000ffffb8003fffe60000738300000380c000e6c0dc001ff81c0007ffff0000e018e000ffffb00000600c0001c1830003fffee000e001980007071c000fffff00000718c0007fff300;
   0x3e0780000e0038000000c6000ffff98000703060000e18380000380e000e6cccc0000380e000307fb8000e0186000ffffb8003fffee0000c1838003aaae6000e00198000fa38e000ffffb8001fff8e0007fff380;
   0xf803c000ffffdc000000e7000c1e19c000307070001c1e1c00001807000e6cccc000038070003c701c000e018700001c01c003ffff7000ffff9c00380067000effd9c001fffc7000003818001fffc700001c01c0;
   0x3effff000ffffdc000aaae7000c1e19c00038e07800380f1c003ffff7000e6ccce000038070001ee01c000e018700030c31c00003807000ffff9c003b8067000eff99e003aff8700000181c000030c700001c01c0;
   0x3cfff7c0055555e001ffff7800c1f19e0001dc07800f007de003ffff7800e6ccce001fffc780007c01e000fff8780031c61e00003c078001c181e003ff067800e0019e00187007800555c1e000070e780001c01e0;
   0x200001c00000c1e001ebba780001b01e0000f807c00effffe00018e07c00e6cccf000fffc7800c3e01e000fff8780038ce1e00003e078000c181f0000fe07800e0019f000063878003ffe1e00003067800ffff9f0;
   0x1c0000400000e1f001c7187c0001b81f0001fc07e00cffcdf00038707e00e6cccf001c01c7e00c7ff1f000fff87c001dcc1f00307707c001c181f80001fc7c00e7f99f00007387c007fff1f00007047c01ffffdf8;
   0xc27ff8003ffe1b800c6186e0063981b800fff06e0000001b00070386e00e6cccf800c30c6e00ff1f9b00000006e000ccc1b00386386c000c181b80001886e00e7f99b800aeb86c00301f1b003fffe6c000c001b8;
   0x1c67ff8007fff1b001cc187400f31c1d007f87f7400000019000e03c6400e6cccd001c31c64007e03190000000640009c419001e63c64001c181900001c07400e6199d001fffc6400701f99003ffff64001c00190;
   0xc661800000c398003ffff60003b0e18003c00f6000000018003c00e6000e6cccc000c30c6000200018000aaa86000ffff98000fe3e60000c1818003e9806000e61998001fffc60003ff9d8002afaa6000aeaa980;
   0x1c671800000c1d8007ffff70001f0f1c000707170007fff98007b877e000e6cccc001c31c6000ffffd8001fffc6000ffffd80003c3f6001ffff98003fff07000e6199c000070e60007ffd980001fc06000ffff980;
   0xc631800000c018000c19860000e0f98000303060007fff9800238636000e6cccc000c30c6000ffffd8001eaac600001e0180001c3be000ffff980003fff6000e61998000060660003018180001bc06000ffff980;
   0x1c67ff000ffffd8000c39c7000060dfc0007070700000381800038706000e6cccc001c31c6000ffffd8001c00c600001e0180001c396001ffff9800001ff7000e6199c00007046000701c180003fe060001c04180;
   0xc63ff000ffffd8000c60c60000e0c980003030600004181800038706000e6cccc000c30c6000031818001c00c600003e0180003838600000001800001806000e7f998003fffe60003ab818000737060000c0e180;
   0x1c630c00001e018000c60c70001c0c1c000707070000e1c1800038706000e6c4cc001c39c6000071c18001c00c6000077018000703860000c381800001c07000e7f99c003ffff60007ffc18000f77860001c1c180;
   0xc630c00001f018003fffc6000180c18000303060000c0c1800038306000e0160c00009806000031c18001c00c6000063818000603860001c1c1800301806000e01998000060060003ab818000e33860000c38180;
   0x1c630c000073818003fffc7000398c1c000703870001c0e1800038386000e0370c0003dc06001c70c18001c00c60000e3c18001e7386000381c1800301c07000e0119c00007006000701c18003c71e60001c38180;
   0xc038c0000e1c18000e000600071fc18000301860003fef1800038186000e0630c000f8f06000c30e18001fffc60003c1e18003c7f86000300e1800381806000e0019800006006000301818007830f60000c30180;
   0x1c0fff4007c1f1800060007001e1fe1c000701e70007fffd8000381c6000e0e38c001e07c6001d70798001fffc6000780f9800783f86000700718003ffc07000e0019c00007006000701c18003070760001c00180;
   0xf8fffc00f803d80007e006000c01e18000300f6000700f98000380e60007cc1ec003801e6000ff03f8001eaac6000f003d8003007c6000e00398001ff8060007c0198000060060003e1818000030060000fc0180;
   0x78005c00c001d80003e00700000061c00070027000200018000380660007c40cc001000660007c01d8001c00c6000c001d8000001860004001180007d0070007c019c000070060003e1c18000070060000fc0180;
   0x0;
   0x0].
Definition hanzi_rows_9 : list N :=
  [0x0;
   0x0;
   0x0;
   0x0;
   0x0;
   0x0;
   0x0;
   0x18100000018000000001000001c06000000018000100060001c0018000041060000000180006000700000701800000000000003010000006040000070100000700700000001c0000000600000000c0000000400;
   0x1838000003800001fffb800000c060000aaab8000380c60001ff818000063860000fffd8000606070003860b80002aa860000030380000470e000073038000336070000fff9c000000060001e02ac0003ffee00;
   0x39c1c000007e00001fffd800055d570001fffdc0001e7e700007ffdc0001e1c70001fffdc00060ff30001871dc0007ff870000070180000e3860000e701c00037fe70001fffcc000fffff0001ff7fc0003fff700;
   0x30e1c00000ef00001aab9c0007fff70001abadc00007f03000080fcc0001c0c300007000c000663ff8001c639c0003ff870000fff9c0000c1c70001c301c000733ff8000eab8e000ffffb00003fbee0003000700;
   0x7070c00001c7c0001c01dc00075d730001870cc00007e038001c198e000780e300003c60e000660dd8000c738c000703830000fffdc0001c0e700008700c000670ff8001c01c600001c030000393060003ffc300;
   0xfff8e0000781e00018018e00060c338001830ce0001ef838000e398e00070c7380001fe06000660c18000e630e000303838000c018e0003fff38003fffee000e30c18000c0186000018038000383860003ffe380;
   0x1fffc70001f00f8001c01c70007fff1c001d75c70007c3f9c00063187000e0c39c0000fc07000660c1c00067307000703878000c01c70007fff9c003fffe7000c70c1c001c01c70007fff1c0003818700035541c0;
   0x180bc7000fffffe001801870007fff1c001fffc700030e71c0006338700041e19c0001e007000660c1c000060070003039f8000c018700020031c00003007000030c1e000c01878006bab1c000380c380030001c0;
   0x80707800f3ffdf001fffc780071c31e001fffc780000601e0003730780001f11e001fffc780066ffde001fffc78007ffbdc000fffc78000f381e00187047800ffffde001d55c780061c31e000380c78003fff1e0;
   0x387800800003001fff87c0060c31e001830c7800ffff9e0007ffc780003b81f001fffc780066ffdf001fff878003fff0e000fff878001c1c1e001870c7c00ffffdf000fff87c0061831e003ffae3c003ffe1f0;
   0x1fff87c0010000000007007e007fff1f001870c7c00ffffdf000fffc7c00073c1f801870c7c00665d5f001c01c7c00703b07000c01c7e00380f1f001c71c7e00ffffdf001fffc7c007fff1f007ffff7c0000001f8;
   0x1fff86c00380ffc00006006e007fff1b801830c6c0000381b8007aa86c000e1e1b801830c6e00661e1b80180186c00303863000c0186e0070279b800ef386e00270c1b80006006e007fff1b000387e3e00ffff9b8;
   0x1575c640039cffc00007006400000019001fffc6400039c190003c0074003c0f19001fffc6400663e1d001fffc6400703870000fffc6400e071d90007f706400670c1d0000700740061c31900038707400ffff990;
   0x30e6000388c0c003fffe6000ffffd8001fffc6000038e180001e006000780798001fffc6000663e18001fff86000303870000fff860000038980003f206000668c180000618600061831800038323000c001980;
   0x706600039cd5c003ffff6001ffffd8000070060007fff1800007007001f557f8001fffc6000667f1c001fffc6000703870000fffc60003ffc180001f80600077fc1c001ff1870007fff1800038337000dfff980;
   0x2abaa6000388ffc0000f806000000c18000070060007fff9800003006000fffed8001830c600066ef98001801860003ff830000831860001ffe180001bc060003eff98001fe1860007fff1800038323000bffe980;
   0x3ffff600039cffc0001fc06000000c18001fffc6000638fd8003ffff70003fff18001870c600066cd9c001c01c60007ff878001c71c60001c0f180003fe060001e1fdc001ff1c700001c118000383e70001ffe180;
   0x3fffe6000388c0c0003ee060003ffc18001fffc6000638dd8003fffe6000380618001fffc6000660dd8001fff860003038f8000fe1860000e1b98000737060000e0cd80000618600000c398002ba9e30001c1c180;
   0x780600039cffc000777060007ffe18001fffc6000638c9800007007000380718001fffc6000660cfc001fffc60007039dc0007e1c6000073998000e73c60000e0c1c000073c700000e718003ff9c70000e38180;
   0xfc06000388ffc000e638600030001800007006000638c1800003006000380618001830c6000600cf800180186000303b8e0001c18600003f018003c31e60008f0c18000063c600000ee18003ff9c30000770180;
   0x1de0600039cc1c001c73c600030001800007006000638c1800007007000380718001870c6000600c5c001c01c6000703b0f0003c1c600001e018007c7076001cf8c1c000077e7000007c18000003c700003e0180;
   0x38f06000380c0c003860e6000300018000070060007b8c1800003006000380618001830c6000600c18001801860003038070007bd8600007f818003030260008dcc1800007e6600001fc1800000fe300003e0180;
   0x1f07c6000380c1c00707076000380018007ffff60007b8c18000070070003fff18001870c6000740c1c001d01c6001fffe03801f3fc60007f7f1800007006000ddfc1c007ffc770017fff18007ffe770001f7f180;
   0x3e01f60003f0f8c002060260001f8018003ffff600003801800003e060003ffe18001f30c60007c0c18001f8186001fffe00003c07e6000fc0fd800003e06000f84f98003ff03e000ff07d8003ff83b000fe1f980;
   0x3800660001e071c000070060001f80180000000600003801800003c07000380718001f70c60007c0c1c000f81c6000000000001001c60007001d800001e0600070079c00150017000f001d8003f401f0007007980;
   0x0;
   0x0;
   0x0;
   0x0;
   0x0;
   0x0;
   0x0;
   0x0;
   0x0;
   0x701c00000c0600000301800001c06000001c1800000c0600000031c00000c0600001cc180000000600000300c00000e0700000301800000c0600000000c0000000300000001000000c060000000100000040600;
   0x301c00000c0e00000701800001c0e00000183800000e0e00000031c00000c0e000018c380003ffee00000300c0000060700000381800000c0600000000c000000030002aaab800000c060000ffff800000e0600;
   0x5781c00001c0700000701c00001c07000001c1c00055f570003fc30c00000c0700001cc1c0003ffe700000700c00000707000007c1c00000c070003ffffc000fffff0003fffdc00000c070001fffdc00001c0700;
   0x1ff86e000ffff70003fffec0007fff70003ffffc0007ffff0003fc30e0007ffff000018c1c000380670003fffee000fff03000006c0c0007fffb0003ffffe000fffff8002baa9c000ffff30000eaadc00001c0300;
   0x1ffc7e000ffff30003fffec0007fff30003ffffc0007fffb000303f060007fffb00015cd4c000380630003fffe60007ff8380001ee0e0007fffb8000000060000730180009dccc000ffff30001c01cc000ffffb00;
   0xe1e660001808380030006e00060c338002baeae0000060380030ff0600000c038003f8fee0003ffe3800080866000703c180003870600000c03800000006000023018001988ce000006038000c00ce000ffffb80;
   0x73ff7000180c1c0030006700061c31c000387070007fff1c0031c30700000c01c003fcfe70003ffe1c000c1c67000387e1c0007038700010c71c001fcfe700007301c001dddc700055751c001c01c7000ffff9c0;
   0x3f3e780018181c0037ffe70007fff1c000303870003fff1c003883078003fff1c00018c0700038061c000c0c630001cee9c000e01e700038c61c001fcfe38002aba9e000d89870007fff1c000fffc700000001c0;
   0x1f0778001c181e0007ff878007fff1e0007338780000301e0019c3078007fff1e0001cc0780038061e000c0c678000fc7de007ffff780018c61e001dcd678007fff9e000fdf878007fff1e001fffc78003fff1e0;
   0x3e067c000e181e0006018780060c31f000e31c7c0000381f0019bff7c0000c01f00018c078003ffe1f003ffe6380007819f003bffff8000cce1f0018cc63c007fff9e00058807c0000301e000000078003ffe1e0;
   0x1ffc77c01575d1f00060187c0061c31f801ffff7e01ffffdf8019bff7e0055d55f803fcfe7c003ffe1f803ff667c001ff1df0033ff17c000ccc1f8018cc67c0067319f007fffe7e01ffffdf00000007c0000001f0;
   0x7e3f66e00ffff9b80060186c0060c31b807ffffee00ffffdb8019aba6e00ffffdb803f8fe6c0038061b800c0663e00f8ff9b80000006e000cc41b8018cc63e0062399b803fffe6e00ffff9b801fffe6c0000001b0;
   0x3ccff7401ffff990007ff864007fff19003e31f74001dce19001d8307400ffffdd0015cd464003d5619000c0767400f61fdd001c18c7400ffffdd0019cde740067399d001555e6401ffffd9001fffe64003fff190;
   0xee0660000000180007ff860007fff18000e30c600038c718000f932600001b81800018c060003ffe18000c67e3000038398000c30c6000ffff98001bcde3000673998000000e6000381818000030060003ffe180;
   0x1ce07700000001800000186000077018000fffc700071c798000f1b77000639c1c0001cc060003ffe18000c67e700001c1dc000c31c700001f01c001bcd670006f799c000000e60007d5c18000070060000000180;
   0x3fff660003ffe1800000186000073818000fffc6001fffdf8000f3b26000730e1800018c06000380618000cc66300018f998000e318600003f018001acf630006f7998000000e6000fffc18000030060000000180;
   0x3fff770003ffe18001fff86000071f18000e31c7000dffcd8000733370003f0fdc007fcff60007d5758000dc6770001c39dc0007318700007f81c001ecf670007fdd9c000000e6001fffc18007ffff60003fff180;
   0x2aea66000300618000fff86000070e18000e30c600000c018000633360000e0ff8003f8ff6000ffffd8000d86630000f0198000331860000edc18001ece63000798d98000000e6000382e18003fffe60003fff180;
   0x1f077000300618001c0186001ffffd8000fffc700055d518000773370000e0cdc0001cd56001ffffd8000d8677000c3f1dc000313870001cce1c0018cc6700079cf9c000000e6000387718000078060003007180;
   0x3f066000300618000c0186000ffffd8000fffc60007fff18000fa31e0000c8c1800018c060000c1818000c0633000f0f9980003800600038c7980018cc6300060c7980000006600038e3980000f8060003003180;
   0x7b877000300618001c0186000070018007031c70007fff18001dc31f0001cec1c0001cc060001e1c18000c06370007c11dc00018007000f0c3dc0018cc6700060c59c0000006600039c3d80001de060003007180;
   0xe1c06000300618000c01860000700180030300600000c0180019c30600078fc1800018c06000380e18000c06330001f0018003ffff6000e0c1d80018cc63000600198000000760003881f800038f060003003180;
   0x1c0f070003ffe18001fff860000700180030300700001c0180038f307001f03e1c0001cc06000700718000c063f00007f01c003ffff700040c09c0018cd6700074019c000000760003800d8001f07c60003fff180].
Definition hanzi_rows_10 : list N :=
  [0x3803c60003ffe18000fff86000070018003ff00600000c018003073e6000e00e1800018c06000e003d8000f863b00000fc18002aaaa600000c018001ece630007c01980000003e0003f0018003e01f60003fff180;
   0x100187000300618001c0186000070018001ff00700001c018003031c700000041c0001cc0600040019800078617000001c1c0000000700000c01c001ec6670001c019c000000160001f0018003000760003007180;
   0x0;
   0x0;
   0x0;
   0x0;
   0x0;
   0x0;
   0x0;
   0x0;
   0x0;
   0x18000300060000030100000000600000701c0000000600000301800001c060000030100000000600003061800000e0600000001800001c0600000001c00000c0700004001c000000060000070180000000300;
   0x1fffd80007fe0e0000030380000070600000301c0007fffe00000703800038c660000030380003fff600003063800000c060003fffd80000180e0000ffe0c00060c370000fe81c0007fff60000070380006000300;
   0x1fffdc0001fff700015701c0007f7e70001ffffc0007fff700000701c00018c670000070180003fff700003061c00001c070003fffdc00001c070000ffe0c00070c770001fffdc0007fff70001c731c0006ffff00;
   0x1830dc00000ef70003ff01c0007f0f30001fffee000600370003ffffc0000ccc30003ffffc000300730002baebc000fffff0003820cc000fffff0000e000e00038c63800003fcc000600330000c339c0006efff80;
   0x1c71cc00001c030003ff00c0006007300000700e000700730003fffec0000efc30003ffffc000300730003fffec000ffffb0003870ce000ffffb00006000e00018ce380000700e000600330000e718c0006e06180;
   0x1abace000aaeab80000300e000600338000aba86000600338003aaaee0002aea38003000ee0003fff38002baeae000000038003820ce00000e038000600060001ccc18000030060006003380006318e0006e27180;
   0x1fffc7000ffffdc001fffc700060071c001fffc70007fff1c003000e70007fff1c003000e70003fff1c0003060700000001c003bfec700007f01c003ffff70000cdc1c003fffe70007fff1c000771c70006e731c0;
   0x1abac7000ffff9c001fffc70006a7f1c000030078007fff1c003000e70002aea1c003198e700030071c000306070003ffe1c003bfec70000ff81c003fffa300000c01c003fffe70007fff1c0000f8870006ee38e0;
   0x1c71c780007f01e001fffc78007f7f1e0015755780003071e001fffc780000701e00079e0780030071e000306078007fff1e003870c78007c3f1e00001c778007fff9e001775c780000031e0003fc078006effde0;
   0x1830c78000edc1e001800c7c006a031e003ffff7c0003031e000fff8780000381e000e0f078003fff1f007ffff7c0030061e003820c7c00f80f9f00000c238007fff9e0006318780003031e000f8e07c006effcf0;
   0x1fffc7c007dcf1f001d55c7e0060071f007ffff7c0003071f00000007c00ffffdf001c0787e003fff1f807ffff7e0070071f003fffc7c0060039f80155c77c007fff9f00067187c00631b1f001e07c7e006f87df0;
   0x1fffc6c01f0c3db801fffc6e0060031b80000006e00ffff1b80000006c00ffffdb003801e6e0000001b80000006e0030061b803bfec6e00ffffdb801ffe23e0060039b802ebba6e00631b1b803873e6e006e8c0f8;
   0x7006400c1f1d9001d55c6400600719000fffc7400ffff19000000074001c1c19003000c640000001d0000000640070071d003800c7401ffffd9001fff7740067f39d007ffff7400631b19001070664006e0c1d0;
   0x3006000003018001800c60007fff18000fffc6000030318003fffe6000180e18000aaa860007fff98000fff860003ffe18003aaae60003000180000c32300067fb98002ebba6000631b18000870860006e0c0c0;
   0x7ffff6001ffffd8001fffc60007fff18000c01c7000030718003fffe70007fff18001fff860007fff9c000fff860007fff1c003bfec70003155180000c3f7000675b9c000671870007ffb18001c71860006effdc0;
   0x3fffe6000ffffd8001fffc6000033818000eaac600003031800006006000ffff98000aea86000600398000c018600001c018003b06e600031ff180000c023000661b98000631860007ffb18000c71860006effcc0;
   0xfc06001ffffd8001fffc6000071818000fffc70007ffb1800047007000ec0dd80000700600060039c000c018600011c41c003b066700031ff18003ffff7000661b9c001775c7000030318000c71c60006e0c1c0;
   0x1bc060000c0c1800003006000031818000c00c60007ffb18000663860000c0c98000060060007fff98000fff8600039ce18003b0666000318318003fffa3000661b98003fffe6000c31b98000670c60006e0c0c0;
   0x3fe060000e1e1800557556000471c18000c01c7000601b98000e71870000d0c18000070060007fff9c000fff8600031c71c003b566700031c7180001e07700067fb9c003ffff7000c31b980004f8e6000640c1c0;
   0x73706000067e18003ffff6000831c18000fffc6000601b98001c61c60000f8c1800006006000600398000c018600071c318003bfe6600031ab180001e02300067fb9800003006000c31b980000d80600061ec0c0;
   0x1e73c600007f018007ffff6001c70c18000fffc7000601998001c70c7000350c180000700600060039c000c018600061c39c0039567700031ff180003f007000601b9c00007007000c319980001dc0600061ffdc0;
   0x3c31e60000fe01800003006000c30e18000c00c60006019d8003860e6000300c1800006006000600398000c0186000e1c1d8003806360003003180007380300060039800003006000c3199800078f06000600fec0;
   0x3870760003ffc1800003006001ff0798000c01c70007ff9d800307477000355c18007fffe60007fff9c000fff86000c1d4dc001d0037000300718001e1f0700060039c001fffe7000fff9d8001f07c60007e01fc0;
   0x3026000783f9800003006000fe03f8000f80c60007ff8f800007e060003ffc18003fffe60007fff98000fff8600000f818001f803e0003f8018003c07830007e0398001fffe6000fff8d8003c01e60007e000c0;
   0x7006000200798000030060007e01d8000781c700060185800003c070001ff8180000000600060039c000c018600000781c001f00170001f0018003001870003e039c00000007000c000980030006600014001c0;
   0x0;
   0x0;
   0x0;
   0x0;
   0x0;
   0x0;
   0x0;
   0x0;
   0x0;
   0x1c000001c700000c00c0001c0c7000003018000060c700000c1d000000006000003010000000040000706180000000400000000c000000060000c0018000000030000070180000000300000701800000e0400;
   0x2aaabc000000c700000c00c000180c7000003018000060e700000c0f80007fff60000030380003ffee0000306380003ffee0001fefec000aaaa60000fe01800000003000007038000fffff00000301800000e0e00;
   0x3ffffc000000e70001ffffe0001c0c70003ffffc000070e700010c1d80007fff70000070180007fff600007061c0003ffe70001fffec000ffff700007fffc001fff0300000701c000fffff0001ffffc0000060600;
   0x2abaae000fffe38000ffbfe000ffffb8003ffffc000060e38003cc0dc000600370001fffd8000308670003ffffc0003006700018086e000aaab3000080fec000fff1b8003ffffc000e321b8001fffec000aaeae00;
   0x1806000ffff38001cc386000ffffb8003fffec000070e18001fdfdc000600330001fffdc00071c770003fffec00030067000181c66000155338001c384e000060198003fffec0006371980000700e000fffff00;
   0x1806000e663980008c187000180c180000000e000ff7fd80003dfce0006aab38001800ce0003ffe380003060e0003ffe38001808660003ff318000c30c600006019c0000300e00063219c00003006000aebab80;
   0x3fffe70006675dc007fffc70001d5c1c000fff87001ff7fdc0001c1c70007fff1c001800c60007fff1c000706070003ffe1c00181c6700030331c000671c70007fe19c0000380700073719c000fffc70000e18180;
   0x3fffe7800633efe003ffec38001ffc1c000eab8700063ae9e0020c0c70002aab1c001800c700030861c00031e0700030061c001808638003ab31c000703870007fe18e000fff87000333f8e000aba870001cdc1c0;
   0x3fffe780063fc5e001cc0e78001ffc1e000c0187800638e1e0070d1c780000031e001fffc780071c71e00001c078003ffe1e001fffe78003ff31e00003007800606f9f000fffc7800337f9e0000700780039ce1c0;
   0x388c67c0063ec1f0008c063c00180c1e000fff87800638e1f0030dec7800ffff1e001fffc78003aae1e00001c07c003ffe1e001fefe380030331f000fffc7800626f8f000c01878003b218f003fffe7800ffff9e0;
   0x39cc67e00678e1f801ffbf7e001ffc1f000fff87c0073ce1f803fdfc7c00ffff1f000000c7c007fff1f007ffff7e00155c1f00000067c003ff31f001fffc7c0066619f800c01c7c003b719f803ffff7c01ffffdf0;
   0x38ac66e0066c71b800aebf3c001ffc1b80000006c0023ee1b801fb3e6c0008e31b003fffc6e002aaa1b003fffe6e00000c1b00000063e003ff31b800c30c6e0066618f800fff86e0033218f00000006c0080c09b8;
   0x39fc6740070e39d0000c3174001c0c1d003fffe740077ffdd000070464001c731d003fffc640000001900000e064007ffe19001fffe740001c319001c30c740066619d000fffc7400637f9d001fffc640001c0190;
   0x38ac660003e7198001fff83000180c18003fffe6000327f9800003806000383b18003333c6000ffff98000006060007ffe18001fefe3000ffff18000fffc600066618c000c0186000e33f8c000fffc600008c8180;
   0x39cc670003c601c001ffd9f001ffffdc003555670003671dc001fffc60007fff1c003333c6001ffffd80000070600061831800186fe7000ffff18001fffc700066619c000d55c7000c3759c001c00c60000dd8180;
   0x388c660000068180000c1b3000ffffd8003000660003e6098001aab86000ebfb18003333c6000008e18001fff86000618398001ce063000186318000c30c600066618c000fff86000c3218c000c30c60000c18180;
   0x39fc6700030eddc0000c1b70000cc31c003fffe70001e71dc001c01c600043831c003333c6000618e18001fffc600061c798000cc0670001c7318001c30c7000666d9c000fffc7001c3719c001c30c6000ffffd80;
   0x38fc6600030cc98003ffda30000ce318000fff860001c609800180186000038398003fffe60007b8e18001807c600063e618000ecae30000ff318002ebae6000666f8c000c0186000c3e18c000c30c6000ffffd80;
   0x39fc6700071cddc003ffde70001c631c000070070001c71dc001fffc60007ffd9c003fffe60003f0e18001c07f600067771800078fe700007c318003ffff70006767dc000fffc7000d3ffdc001c30c60000c18180].
Definition hanzi_rows_11 : list N :=
  [0x388c66000618cd80000c0e3000383318000070060001e6098001fff860007ff998003333660000f0e180018067600064361800078ae30003fe318002eaae60000b00cc000fff86000fb3fec000c38c60000c18180;
   0x39cc67000f80cdc0000c1e7000303b1c000070070003f7fdc001c01c60000381dc003333660000e0e18001c07260006fff180007806700079ff18001c00c70001f801c000c01c70007b71dc0001d8060000c1c180;
   0x388c66000d80cf80000c7e30001013180000700600073ff98001801860000380d8003333660001c8e18001aae060006ffe18000fc063000200b18000c00c600039800c000c018600003200c0007de060000c0e180;
   0x3fffe70005ffc7c0055ff77000ffff1c00007007000f1c1dc001fffc6001fffedc003333760007cfe18001fff06000700018001cf067001ffff18001d00c7000f1e01c007ffff700003701c001f0fc60000c07180;
   0x3fffe60000ffc18003ff83b000ffff1800003e06000e0e098001fff86000fffef8003f3336000f07e18001ffe060003e001800383c63000ffff18000f80c6000e0780c003ffff600003200c003803f60000c03980;
   0x38006700007f01c003fc01f00000001c00003e07000c0401c001c01c600155545c001c0326000c00618001c07060003c001800301867000000018000700c7000c0101c0000000700003701c001000660000c01180;
   0x0;
   0x0;
   0x0;
   0x0;
   0x0;
   0x0;
   0x0;
   0x0;
   0x0;
   0xc00c0000380300000301800000c0700000301800001c040000c001c00001c040000000180000000600003701800000c0600000701800011c0700000701800011c4600000301c000000060000000180000006700;
   0x2e00c000c380300000303800030c3300000301800000c0e0000ff81c00001c0e0003fffb8000000060000f303800000c0600000303800070c7700000301800030ce600000381c0007fffe0000fffd80002a86700;
   0x7600e000e381f80000701c00030c7300015755c00000e0700007fffc00055d570003fffdc000fffff0001d755c0007ffff00000381c00039ce30001fffdc00039cc7000007c1c0007fff70001fffdc0007fbff00;
   0xe60060007ff398003ffffc00038c638001fffec000fffff0000c1fce0007fff700000019c000ffffb0003ffffc0007fffb0001fffdc00018ce38001fffcc00018dc300000ee0e00060c370000c30cc0006ebfb80;
   0xc77fe0007ff71c003fffec0001cc638001fffec000ffffb0000e39ce0007fff30001ffdcc000063030003fffec00000c038001fffcc0001ddc380015754e0000ddc300007c70e00071c730001c71cc0006606180;
   0x2abbfb00033860c003800ee00008c0180000180e000e073b8000631860001c1838000ffd8e000aebab80000300e0003fff18001830ce000ffff9800033306000ffffb8000f03c60006aeb38000c30ce0006606180;
   0x3ffb030003b820c003f40e7000ffffdc001fffc7000e1f39c000771870000c181c000001c7000ffff9c001fffc70007fff1c001c70c7000ffff9c00075307000ffff9c007d55f70007fff1c001fffc7000663f9c0;
   0x2ebf038001b800e003fffe7000ffffdc001fffc7000e33b9c000219070000e381c003fff87000eabb9c001fffc700000c01c001abac7000e0019c003ffff7000abea9c003bff7700060c31c000fffc7000663f9e0;
   0x63f13801fff94e0001ff07800c001de00000c07800071c1e00001c07800ffff9e003fffc7800e6339e001870c780055d55e001fffc7800e0019e007ffff780007f01e0003ff1780071c71e001c71c780067061e0;
   0x6379bc00fffbef00000307800c000de00000e078007ffc1f0001cf07800ffff9e00188d87800e2339e001fffc7c00ffffdf001830c7800eaab9e000303078001cf81e0008000780060c31e000c30c7c00632e9f0;
   0x637b3c000703ef80000307c00dfffdf003ffff7c007ffe1f8001f7c7c00c0c19f001d8dc7c00e6339f001fffc7e00ffffdf001c30c7c007fff1f00070307c0079de1f001d1fe7c007fff1f001c71c7e0073bfdf0;
   0x3ff1b3e0003830f801fff06e009ffe9b803ffff6e00030f1b80037fc6e00c0c19b800f8dc6e00ffff9b001830c6e0006781b801830c6c003ffe1b800fffc6e00e0c79b80199fe6e002aea1b800fffc6e003dee9b8;
   0x3ff1e340001e30d001fff0640018061f80038386400030f9900071dc740001c01900077dc6400ffff9d001fffc64000f1f1d001fffc640000001d000fffc740041e319001dd86740001c019001fffc74003dc61d0;
   0x631e30007ff30c00018306000180619000733c60003fffd8000e8f060007fff98003e7cc600000c018001fffc600003ff18001fffc6000000018000c00c600000701800199866000ffff98000000060000086180;
   0x631c30007fff0c0001830600018061c001f31e60007ffd98001fffe70007fff98003f1dc600001c01c001f70c60001dff1c00027806001ffffdc000c31c7000ffff98001ddfe7000ffff980000390700000e01c0;
   0x631c300060db0c000183060001aae18007e30fe000030c1800383fe6000003818000600c6000ffff9800060006000383c1800067806000ffffd8000c30c6000ffff9800199ae6000eaeb98000873c600000e0180;
   0x3ff1e300060c30c000183060001ffe1c003731f6000030c1800003047000003818003fffc6000ffffdc007ffff60007fff9c000f7c0600000701c000c31c7000ffff98001dd867000cdc198001ce767000ffffdc0;
   0x3ff3e30007fc30c003ffff60001ffe180003b3860002bac18002abaa60003ff818003ffec600003e018003ffff6000ffff98001b6c060000c3818000c30c60001c1c1800199ae6000ccc1980018c366000ffffd80;
   0x633730007fc30c003ffff600003301c0001ff060007ffc18003ffff70003ff818000708c600007f81c00070106000c1c19c001dfe060001c1c1c000c31c70000e0e18001ddfe7000dfc1980018476700001f01c0;
   0x6363300060cb0c000104060000338180003fe06000030c18002afaa600038181800061ce60000ef8180006038600018cc18003fe706000380e18000c38c60000e3e1800199866000dffd98003a036600001f0180;
   0x6363b00060df0c00078f06001c31c1c0007b7c6000030c180001dc07000381c18000738660003dde1c000707060003dcf1c0015f786000380f1c0005dd4700007fc18001dd867000d1fd980037077700007b81c0;
   0x2eb01f0006acf8c000f0786000c30e18001e31f6000030c1800038e06000380e180006306600078cf9800060e0600070c798002063c60007fff1800079e060000fe01800181866000f00198003303360000f1c180;
   0x7ff01b0007fc38c001c03c6000ff0f1c001c3076000fffc18001f87c700018071800071076001f1c7dc00070c06000e1c3dc007571e6000ffff9c001f07c70007ffd18001c1c67000c001980013ff370007e1f1c0;
   0x2ab0030006ac08c003800e6000ff03d800003e06000fffc18003e01fe0001f83d80007c036000c0c1980007e006000c0f098003fe0f6000e02f98003803f6000f83f98000f1e66000fc01980003fe06000f807f80;
   0x300300060c00c001000660007c01dc00001e06000000c18003800770001f01980007c00600001c01c0003e00600000f01c001fc03600040001c00300067000400798000f0e670007c0198000000070007001dc0;
   0x0;
   0x0;
   0x0;
   0x0;
   0x0;
   0x0;
   0x0;
   0x0;
   0x0;
   0x18c640000c00700000001c0000000300001801800000e0700000000c000019c40000603180000c04700000301800001c0600007031c0000038600000001c000000060000070180000104700003031c00001c0700;
   0x18c6e0000c2ab0003fffec000aaaaf00001801800000c070003fffec000038ce0000603180002c06300000381800000c0e00003061c0000018e0003fdffc0007f7f60000038180000186700003831c0006183300;
   0x19d760001c3fb0003fffec000fffff0003fffffc007ffff0003ffffc000030c600007071c0007c0e300000181c000fffff000038e1c00007fc70003fdffc0007f7f70001ffffc000ffff700003830c00061c7300;
   0x1bffe000babbb80000000e000aebab0003fffffc007fffb80006832e000030e6000038e0c000ec2eb8003ffffc000fffff0002baeae00007fe700030d86e000606230001fffec000ffff380001bffe0006183380;
   0x1ffff000ffb198001fffc6000063038000180180000c1c3800064366000fffe70001fffec000cc7fd8003ffffe00001c030003ffffe0000307300030d86e000676738001d86ee0006363b80001bffe00061c7380;
   0x3f8c63000aab198000ebac6000ffff98003ff9ff8000e181800066326000ffff38001fffee000cc7fd800118e0e0007fff380000cc060000383b8003fdfe60006e6e180019cfe6000636798003f83060006bab180;
   0x7fcc6300063319c001d75c7000ffff9c003ffdffc00ffffdc003ffff7000ffff18001f33670000c001c003b86f70007fff1c0015dd470007fffdc001fdfe700074741c001c7ce7000377fdc007fc3070007fff1c0;
   0x18c0e380063318e000fffc7000c6319c00398998800ffffdc003fffe780003039c001b3367000ffbf8e001f07c700000001c001fffe70006aabfc0030d8678007e7c1c0018fce70003e38fc0018dff70002aaa1c0;
   0x18d563800773f9e001c71c7800c6319e00399d99c0000001e000707878007fffde0019b667800ffffde000f03878007fff1e001ccce780071c35e0030d867800676f1e001fdfe78001e1dde0018dff7800018e1e0;
   0x18ffe3c00323f8e000fffc7800c6319e003d89d88002aaa1e000707878007ffede0019b6678000c208f000fffc7c003ffe1f0018cce7c0060c31e003fdfe7c0063e31e001902e78001c0f1e0018e30780003861e0;
   0x19fff3c017541df001fffc7c00d7759f001fddfdc007fff1f00679fc7c000307df0018f467c000c71df001ffff7c0070071f801fc7e7c007fff1f001f9fc7c0061c01f001fffe7c00380e1f001df307c00ffff1f0;
   0x18f83bc00ffc18f80000006e00ffff9b8007e07e00030c31b8027cee6e0003021b001fffe6e001c208f007e01fee0030061b801803e6e007fff1b80038606e0003e01b800aaea6e007fff1b8019a306e00ffff1b8;
   0x1dffff401ffc1dd003ffff7400ffff9d001ff9ff00075d71d003ef7774007fff19001fffe64001c71dd007fffb74007fff19001fffe740000781d000386074000f70190007cf06401fffbdd001dbfff400ffff1d0;
   0xd9bff0000c3f8c002aaaa600030c618003d9f9b8003fff18002822360007ffe18000000060001e3f8c000fff860002eba18001aaae600030fe18003fffe60003c3e18001e03c6000c000f8000dbffe0000303980;
   0xd9f3f0001c7fdc001fffc700039ce1c00798f19e0070c31c001fffc70000307180007ffc60001e7fdc000e01870000c1818001c00e70007cc7dc003fffe7001f98f98003c1df600000005c000d81c70007fffdc0].
Definition hanzi_rows_12 : list N :=
  [0xf9b330000c23cc001fffc600018cc1800218618c0030c318001fffc6000030218000fff860001e0c0c000e0186000ffffd8001fffe60001fe39800038606000e0e39800000e260007fff18000f00c60007ffff80;
   0xf1f33000fff3dc001c70c7001ffffdc000187180007fff1c001c00c7000ffff18000f55c60001e3d9c000fff87001ffffd80017d5470001fb81c00038607000047c180007ff060007fff1c000f1fc700003075c0;
   0x71b33000ffa3cc001fffc6000ffff9800000f080002aea18001800c6000fffe18000e01860001e6c8c000fff86000000018000380060001b8e1800038606000071c180007abc600000c01800071fc60000303180;
   0x71ff30001c73dc001fffc7001ffffdc00001f8000000c01c001fffc7000000718000fffc60001f6cdc000471870007fff18003ffff70001bc7dc007ffff700033c018000387f600019c61c000718c70007fff1c0;
   0x70bf30000c23ec001c30c60000ef818000039c00007fff98001fffc6000332218000fff860009b6ccc000e31860007fff18002baaa6000337198003ffff600038f8180001ce2600038c618000f18e60007fff180;
   0xf9c330001c777c001fffc70001ddc1c000071f00007fff9c001c00c7000777718000e01c60019f4c7c001e71c7000700718000381c7000733c1c000306070001e3c180001fc0600071c71c000f9c6700003071c0;
   0xd8c030000c3f6c000aaa8600038ce180001e07800000c018001800c6000e66318000e0186001998c6c001c30e600060031800038306000e38f18000f8f060000f80180000f80600060c398001d98660000303180;
   0x3dcc030001c7f7c003ffff7001f1c7dc001fc03f00055d55c001fffc7000e66398000fffc6001ddcc7c003870770007fff1800038707000c187dc001e03c700001f0180007ffc6000e1c1dc0039fd77001ffff1c0;
   0x38ef830000c030c003ffff6000e0c398003f000fc00ffffd8001fffc6000ce6198000eab86000f8ef0c00303e260007fff180003f00600001f098003800f6000007f18003f83f600040f8980030ef3e000ffff180;
   0x1067830001c031c0015555700001c01c001c0001c01ffffdc001c00c7001c46198000e01c600070471c00003e070007007180001f00700000f01c00100067000001e18001c007600000f81c0030671700000071c0;
   0x0;
   0x0;
   0x0;
   0x0;
   0x0;
   0x0;
   0x0;
   0x0;
   0x0;
   0xe0000060060000000e000000180000000600000001800000030c0000001c0000000000000000000000003000000000000000000000000c0700000071c00000c0700000001c000000060000006180000000700;
   0x600000600e00000006000000180000060602000001860000030c0000001c000002aaaa000000000000003800000000000000e03800000c0700003ff8c00000c070000aaa9c0007fffe0000007380007fff700;
   0x7ff00000700c000007ff0000555d55000e0607000001870000830c1000003800000ffffe0003ffffc000001c00000000000000e038000fffff00003ffcc000fffff0000fffcc0007ffff00003ff1c0007fff700;
   0x7ff80000381c000007ff8000ffffff0006060e000001870001c30c1800003800000ffffe0003ffff8000000c0000ffffff0000e038000ffffb00001c0ee000ffffb8000e30ce00000c0300001ab9c0006233380;
   0x381c00001c1800000301c000ffffff0007060e0003ffff0001c30c3800ffffff000e0006000155554000070e0000ffffff0000e038000000038001ffffe0005775b8000e30c6000fffff80001c1cc0006633380;
   0x380e0000aeaa80000380e0000018000003060c0003ffff8000e30c7000ffffff000e00060000000000000e0700000180c00000e0380007f7f180018007e000063198000ebac6000ffffd8003fffee0006abb180;
   0x1c070001ffff800001c070000018000003861c0003ffff8000730c7000ffffff000e00060000000000001c07000001c1c00000e0380007f7f1c001fffe7000ffff9c000fffc7000c0c0dc003ffff70007fff1c0;
   0xfffff8001aaab8000fffff8000abaa800018618000001818000330ce000000380000e0006000000000000380380000180c00000e03800063631c001fffe3000eebb8e000e30c7800fedfcc000338ff00000001c0;
   0xfffffc00180018000fffffc001ffff80001c61800000181c0003b0dc00003c1c0000e00060000000000007801c00001c1c00000e0380007f7f1e000060c7800e6319e000e30c78003fdf1e001f1cf7800ffffde0;
   0xc0607c00180018000c06068001ffff80000060000000180e0001b0c80000700e0000e00060000000000007ff8e0000180c00000e0380007f7f1e001fefc3800ffff8f000ebac7c0000c00e0038eec7800ffffde0;
   0xc0607000180018000c06070001c0038003fffffc00001804000030c00000e0070000f5556000ffffff000fffff00001c1c00000e038000575d1f0011f5c7c00ffff9f000fffc7e003fdf1f0010c6c7c0000001f0;
   0xc0607000180018000c0606000180038003fffffc00aabaaa000070c00001e8038000ffffe000ffffff000e33ff0000180c00000e0380007fff9b803aefe2e00020d8b80000006e0000c00b803fffc6c003fff1b8;
   0xc0707000180018000c07070001c0038003fffffc00ffffff0001f0f00003ffffc000ffffe00001c180000c30c100001c1c00000e0380007fff1d003ff7e740077fd9d0015455740055555d003fffc64007fff1d0;
   0xc07070001ffff8000ffffe00018003800003060000ffffff0003f0f80007bfffc0000306000000c180000030e00000180c00000e0380002eba180001ab820003efd88003feff6000ffffc8000000c60003003180;
   0xfffff0001ffff8000fffff0001ffff80000706000001c180000f30ff00070c3140000306000001c1c0000030e000001c0c00000e0180007fff1c0003ffc7000470ddc00377df7001ffffdc001ffec600070071c0;
   0xfffff00000c300000abbaa0001ffff80000306000000c180003e30efc0000c3800000306000000c1c0000030e00000180e00000e0180000618180001c0e2000c28d88003269b600000e008000aaac60003aab180;
   0x9f8000000c38000003b8000000c3800000707000001c1c0007c3061c0000c3800000307000001c1c00000306000001c0e00000e01c000ffffdc001fffff000d7fddc00367db70007fff9c001ffec60007fff1c0;
   0x1db8000000c3800000398000000c3800000307000000c1c00030306080000c3800000307000000c0c0001030600000180e00030e01c000ffff98001abafa000fe3c88003feff60007fff88000ffee6000c3f0180;
   0x79dc000000c180001039c000040c1c00010703000041c1c00000307000040c1c000703070001c1c0e000703070000c1c0700070e01c00061f81c001830670000005dc003ffff700067319c000000e6000f33c1c0;
   0x1718e0000c0c1c0003038e0000c0c1c000303038000c0c0e000103038000c0c1c000303038000c0c0e000303038000c180380030e00e0007b1e18001fffe2000326cc8003269b6000623188001ffe660003f0f980;
   0x761c70001c0c1e000303878001c0c1e00070701c000c1c0f00070303c000c0c0e00070301c000c1c0700070303c001c1c03c0070e0070001f0fdc001fffc7000666cdc00367db700067319c001ffe660001e1fdc0;
   0x30183c000c0c0f00030383e000c0c0f00030300e000c0c0780030301e000c0c0f80030300e000c0c0380030301e000c1801c0030e0078000e0dd80027ae020006666c8003269b6000623188001806660001d0c980;
   0x355c1f000ffc07c003ff81fc00ffc07e00357007c00ffc03e003ff00f800ffc07e003ff00fc00ffc01e003ff00f800ffc01f003fe003c007dfc1c007677c7000c6467c003ffff700067319c001ffe7600079fc1c0;
   0x3ff807c00ffc01f003ff803c00ffc01f003ff003c00ff800f003ff003c00ffc01f003ff003c00ff800f003ff003e00ff8007803fc001e00f0fe18003fe3fa000ccc268003aeab60007a3188001ffe36001f0fe180;
   0x1ff001c005f0006000540018007f8007001fe001c007f0007001fc001800150006001fe001c001f00060017c001c007f0003001fc000c00c01c1c001fc07f00000435c00307c370007f319c00180636000c01e1c0;
   0x0;
   0x0;
   0x0;
   0x0;
   0x0;
   0x0;
   0x0;
   0x0;
   0x0;
   0x1801800000c3000000000000006006000070000000000000000180100000301c00001801800001c18000000300000000000000000000000018000000000000007007000000600000001810000007000000000000;
   0x3801800000c3000003fffc0000600600007ff80000200300000380180000300c00003801c0000181800000038000001c3800000000000000180000000060000060060000006180001c1838000006000003fc3fc0;
   0x1c03800000c3000003fffc0000600600007fffc000f007000001c0380000301c00001c0380000381c00000070000001c1c000007000000003c00000000f0000070070001f873e0001c187000000e000003fc3fc0;
   0xe0300003ffffc0003000c0007ffffe000002f8000700e070000c0300000300c00000c0300000380c0000006000000381c000003060000007e00000001e0000fff7ff001fbfcf8000e1860003fffffc0038c30c0;
   0x3fffffc003ffffc0003001c0007fffff0000001c000700e070000e0700000301c00000e0700000700e000000e000000701e00000707000001e700000003c0000fff7ff001d3fc38000718e0003fffffc0038c31c0;
   0x3fffffc003aebac0003fffc0002eaaea00000018000380c0e000060200000300c0000060200000e007000000e000000e00e00000607000003c38000000380000060060001830c3800fffffe0000602000038c30c0;
   0x3fffffc0030c31c0003fffc0000600600000001c0001c1c1c001fffff0007ffffe001fffff8001e0078000004000001e0070000070700000781e000000700000070070001c30c3800ffffff0001f07000038ff1c0;
   0xc01800030c30c0003000c000060060001ffff80001c1818000fffff0007ffffe001fffff8003c0038003fffffc001c0038000060300000e00f000000e000002ea2ea001830c3800e000060007803c00038ff0c0;
   0xe01c00030c31c0003001c00007ffe0001ffffc0000e1838000006000000301c0001555550007ffffc003fffffc003c083c000060700003c007c00001f000007ff7ff001c3fc3800e00007001f071f00038ff1c0;
   0x600e00030c30c0003fffc00007ffe0000aeab80000e0838000006000000300c000000000000f7ffef002aaaaa800781c1c00006030000f8001e00001f000006ae6ae00183fc3800e7ffe6003c0387c0038000c0;
   0xc71860003ffffc0003fffc0000600600000c01c000070030000006000000301c000000000000e0038700000000000f01c0f0000e030001ffffff80001b00000607707001c30c3800e7fff7001861c180038001c0].
Definition hanzi_rows_13 : list N :=
  [0xe39c70003ffffc0003000c0000600600000c018000038000000006000000300c00000000000000038200000000000e00e070000e038000cffff300003b80000606606001830db8000600600000e0e000038000c0;
   0xe1dc300030c31c0003001c00007ffe00000c01c000000000001557554000301c00000000000000018000004010000400f060000c03800000180000007380000607707001d35df8000600700001c0700003ffffc0;
   0x7fcff80030c30c0003fffc00007ffe00000c018000ffffff003fffffc000300c00002aaaa0000001800000e0700000007000000c038000001800000071800007fe7fe001fbfcf8000600600003803c0003ffffc0;
   0x3fe7fc0030c31c0003fffc0000755600000c01c000ffffff003fffffc01ffffff0007ffff0000fffc00001c0700000107800001c01c000001800000071c00007ff7ff001fbfc7c000600700007ffff0003ffffc0;
   0x3ac3b80030c30c0003000c000060060002aeaba80000000000000f00000ffffff0007fffe0000fffc00001c0380000383800001801c0000018000000e0e00000c8198000030e080007ffe0000efffe00000e3800;
   0x1c038001ffffff0003001c000060060003fffffc0001004000001f00000000000000000000000f55400003801c0000701c00003801c0001ffff00001c0e00001dc19c000030e000007fff00006706600000e1800;
   0x6e05c000ffffff803fffffc00ffffff003fffffc000381c000003b80000000080000000000000e00000003801c0000700e00003800e0000ffff00001c0700000cc18c000030e000000e3000000306000000e1800;
   0xe70ce001ffffff803fffffc00ffffff000060600000700e0000071c000001c3c0000000000000600000007001e0000e00f00007000e000001800000380780001dc99c0000306000000e38000007060000c0e1c00;
   0xc38c60000381800000e0200000080000000f0f00000e00700000e0e00000781e000000000000060000000e000e0001c0070000600060000018000007003c0018ccf8c0030307000040e38000103070000c0e0c00;
   0x1c1dc300007c1e00003f07800007c3c00003c07c0001c00780001e0780000f00f000000000000070000001e00070001ffffc000e0007000001800000f001e0019cefcc00303078001c0e1c000707078001c0e0e00;
   0x1fffff8001e00f0000f803e0000f81f0000f801e00038003c0007803e0003e0078003fffffc00070000001c00038003ffffc001c0003800001800003e000f0018ce3ce0030303c000c0e0e00030303c000c0e0700;
   0x3fffffc007c007c001f001f8007e007c001f000f00070001f007f001fc007c003c003fffffc0007fe00003c0003c007005fc003c0001c00ffffff007c0007c01fc71c7003ff01f000d5e07f003ff01f000ffc07c0;
   0x300b00c00f0001f003c0003e00f8001f003c0003c00e00007003e0007c00f0000f003fffffc0003fc0000380001c0060000000380000e00fffffe00380003c00f83803803ff00fc00ffc03f003ff00fc00ffc01f0;
   0x10010000060000600100001c0060000700100001800400002001000018006000060000000000001fc00001000008002000000010000040000000000200001800781801001fe001c007fc007000540018000000070;
   0x0;
   0x0;
   0x0;
   0x0;
   0x0;
   0x0;
   0x0;
   0x0;
   0x0;
   0xc0000000000000000000000000000000000000000000000000000000000000000000000000000000000000000000018000000000000000180000000000000000186000018c00000700c00003001c0000700e00;
   0xc00000fffffe000aaaaa800000000000000000003ffffc0003fffc0003ffffc0000000000000000000000000000001800000aaaaa80000180000000000000fff98e001e18c00000300c0000380380000300c00;
   0xe00000ffffff001fffffc00ffffff000000000003ffffc0007fffc0003ffffc001fffff800ffffff000ff9ff000001800001fffff800001800001fffff800fff9cc001ff8ffc000381c00001c0780000381c00;
   0xaaeaa800e00006001fffff800fffffe0000000000038000c0003000c00030000c001fffff800fffffe000ff8fe0002abaa8001fffff800001800001fffff800c018cc0010f8ea8002baba80000e0700007ffffe0;
   0x1fffff800e0070700180071c00e00007000000000003fffdc00077fec00035554c00181001800001800000e19c70003ffffc001c0001800555d54001c0003800c01bff003018d00003ffffc003fffffc007ffffe0;
   0x1fffff800e0030600180031800e00006000000000003aaa8c00037fec00037ffec00183981800001800000e18c60003ffff80018c0018007ffffe00180003800eabbff003ff8ffc0030180c003fffffc000018000;
   0x180701800e0038700180031c00e000070000000000039555c0007000c00035554c001871c18001ffffc000e19c700038181c001ce0118007ffffe001c0003800fffb33001ff0d7c0030180c000038c0000155d500;
   0x1807818001ffff80003fff0000e00006000aaaaa8003bffcc0003000c00030000c001860e18001ffff8000e18c60003818180018e03980060180600180003800bbbb330002aaaa0003ffffc000038c00003ffff80;
   0x1807c18001ffff80003fff0000e3ffc7001fffff80038039c00077fec00037ffec0018e07180018181c000e19c700038181c001c7071800701c06001c0003800319b770007fffe0003ffffc0007ffff0003ffffc0;
   0xfc00000001c00000003800003ffc0001fffff80000abc000037fec00037ffec0019c039800181818000e18c60003ffff8001830e180060180600180003800319bff0006060600030180c0007ffff000000e000;
   0x40ce00000030c00000001800003ffc0001c000180003ffe00001000400030000c001b801d80018181c001f5dd74003ffffc001c39c1800701c06001c0003800fffb770007fffe00030180c000638c0000ffffff0;
   0xe0c700000030e0000000180000380c00018000180001c070000aaa2a8000aaaa0001baaad8001ffff8003fffffc0038181800181b81800603c0600180003800fffb330007fffe0003ffffc000638c0000ffffff0;
   0x79c780000030700007fffc0000381c0001c000180015f57c001fff3f8001ffff80019fff18001ffffc007fffffc0038181c001c1f01800707e06001c0003800319b33000606060003ffffc003fffffc00ffffff0;
   0x3d83e0001ffff80007fffc0000380c0001800018003ffffe000aea3f8000eaab80018eae1800181818000e18c600038181800180e0180060ee0600180003800319bbb0007fffe000000000003fffffc000381e00;
   0x1f83f0001ffff0000700000000381c0001c00018003fffff0000c0318001c00380018e07180018181c000e19c700038181c001c1f0180071c706001c0003800319bff0007fffe000ffffff000638c00001f01f00;
   0x703be00003010000300000000380c0000000000003818180000c0318000ffff80018e061800181818000e18c3000ffffff00183b8180063838600180003800fff8300000e030000ffffff000638c00003f81fe0;
   0x7039c00003000000700000000380c000000000000381c18003fffb18001ffff80018e071801ffffff800e1dc7001ffffff001c73c18007701c6001c0003801fff830001fffff8000000000007ffff001f981df0;
   0xe03800000300000033fff8000380e0000000000003ffff8003fffb18000c00380018e061800ffffff000e18c30003800180018e1e18006e00f6001800038008cd830001fffff8001ffff80007ffff000e181870;
   0x1c038000ffffff00037fff801c380e0000000000003ffff8003fffb18001ffff80018fff1801ffffff000e1dc300038001c001de0f1800740076001c0003800fcdfff8000e0700001ffff80000f8f00000181c00;
   0x38038000fffffe00030000000c3806000000000000006e000000c03f8000ffff80018ffe1800180018000e0cc38003800180018c0798006000260018000380078cfff803fffffc001800180001f8f80000180c00;
   0x78c38000ffffff00038000001c3807000000000001c067000000c03f8001c00380018007180018001c000e0dc380038001c001c003d800700006001c000380018cc30007fffffc001800180007b8dc0000180e00;
   0xe0ff800000300000038000000c3803c00000000000c063c00000c02b8000c003800180061800180018000e0ec1800380018001800018006000060018000380030ce300000e0e0000180018000f38cf0000180e00;
   0x7c07fc0000030000001fe00000ff001f00000000000d561fc0000c0018001ffff8001d000180018001c000e07d1c001d001c001d4001800750006001c0003800f7c730000ff0fe0001ffff8007c38c7c000180780;
   0x3800fc0000030000000fe00000ff000f00000000000ffe07f0000fc000000ffff8001f80018001f80180007c7f8e001f8018001fc0018007f0006001fc003800e3e730003e000fc001ffff8003838c1c0001803e0;
   0x10001800000300000007c000007f0007000000000007fc00700007c000001c0038000f80018001f801c0007c678c001f801c000fc0018003f0006000fc00380000423000300001c00180018000038c000001801c0;
   0x0;
   0x0;
   0x0;
   0x0;
   0x0;
   0x0;
   0x0;
   0x0;
   0x0;
   0x18000000018000038000000001c00000001c0000000c000000018000000000000000380000001c0000000000000000c00000000000000000000000001c000000000000000000000000000000000000000000000;
   0x180080000180200382aa080001ce0200000c0080000e002000018008007fff000000380080000c0000000000080000c00000020000800000002000001c0000000000003fffff8007ffffe003fffff8007ffffe0;
   0x3ffff8c0007fc0700383ff1c0001ce0700000e01c0001e00700001c01c007fff0600003801c0001c007003ffff1c0000c0030007ffe1c00ffff87000155e0000000004003fffffc007fffff003fffffc007fffff0;
   0x3ffff98000ffe060039bff180001c60e00000e0180001f00600000e038007aab0e0000380380000c00f003ffff380000c00f0007ffe1800ffff8e0003ffe000000000e003aaaab800600006003800018006aaaae0;
   0x180180007570e003981838007fff1c003ffff380003f80e0001ce0700070071c000fffc700001c01e0000070780000c01f0007000380055d51c0003fff000000003c00380001c0060038700380001c006000070;
   0xabaa380003071c003981830007fff38003ffff300007381c0003870e000700338000fffc6000ffffb80000060700000c03c0006008700000c0380001c038000000038003bfffd80060ffc6003bfffd8006800060;
   0xffff700003839c003981c70007fff10000007070000e1c1c0007070e000700770000fffce000ffffb80000070e000e1c0180007018700001c0380001e07c000000070001ffffdc0061ffe7003ffffdc001807fc0].
Definition hanzi_rows_14 : list N :=
  [0xc18020003ffff800398ac600001c3800000030e0001c0e18000e0384000700320000e3804000eaeb900000030e00071dfc00003018e00000c000000070ee0000000e00003000c00000e0e0000007800001807fc0;
   0xc18000003fffc00039bfc200001c1c000007382000787780001c01c0000700700000e3800000e1c3800007ff0000079dfc00007018600001c00000007dc78000000c00007000c000007078000001e00001807fc0;
   0x3ffff800030e0000039bfe000001c0c000006380000f0e3c0001fffe0000700300000e3800000e0c3800007ff0000039d8000003018000000c00000001f838000000000003fffc0002ababc000603f8000fff0000;
   0x7ffffc00030e0000039986000001c000000071c0000e1c1c0003fffe00007fff00000e3800000e1c380000703000001fdc00000301c000001c00000001f010000000000007fffc0003fffff000f073f000fff0000;
   0xc1800000baea8000399860000abea80000060c000000800000380be00007fff00000e3800000e0c3800006038000007cc00000301c000000c00000003fe00000000000003000c00038181f0003860f8001800000;
   0xffff0001ffffc000399870000ffffb0001fffe0000155500001000000007fff30007ffff0000e1c3900007038000007cc10001fffc000001c0000001f9fc0000000000007000c000381c180001ef81800185fff0;
   0xfffe0000ffffc0003998ba000ffffb0001fffe00003fff0800000000000063830003fffe0000eaebb00007018000006ce38001fffc200000c010000fe03f8000000800003fffc0003818180000fdee00018efff0;
   0xc0700030e03800399dd60000718380000700e0003fff18000fffcc000073838007ffffc000ffffb80007018e0000ec6380018000600001c030003f005fc000001c00007fffc000381c180000fcfc00019c3180;
   0xe0300030e03800398f96000061818000060060001c0018000fffce0000638180000780e000ffff980003ab8e0000cc6180018000600000c038001803c18000000e0000006000003ffff80000de3e0001983180;
   0x3ffffb0003fff9c00398f0700007181c000773870000e001c000c01ce00007181c0000fc07000e1c39c0007ffc70001cc71c0018000700001c01800001fc000000007000155f554003ffff80001df7fc001983180;
   0x3ffffb8003fff9c0039860300006180e000e63830000e000c000c00c700006180e0000cc07000a0c28e0003ffc700038c38e0019fff300000c01c0000fe00000000070003fffffc00026e0000019bf38001883180;
   0x1c1c180035f51c00398703800471c06000c71c3000071c0e000c01c7000471c070001ce0300001c00e0003000300070c1c7001dfff380001c01c00007000000000038003fffffc00077700000399c000018031c0;
   0xe3c180020e00e00380381801860c07001c60c380003bc0e000c00c3801860c070003860380000c00700038003800e0c0e7000c000380000c00e00000018000000038000040200008e6700000718f0000df031c0;
   0xffc1c0000e00e003803c1c01c70e07801870e1c0001f007000c01c1c01c70e0300078781c0001c00700038001c01e0c0e7001c0001c0055d547000001fc00000001c0001f070001dc73c0000e1c7c001df031c0;
   0x3fc00c0000e007003801c0c0086070200386071c0000e007000c00c1c00c60702000f03c1c0000c00300038001c0080c042000c0001c00ffffc700000fe000000000e0007c03c000c861e0003c180f800c0030e0;
   0xfdfd0e0000e007001d00f0c01ff07c000707470c0003c003800fffc0e01ff07c0001e01f0c0001c000007ffff8e0000f400000e1000e01ffffc380007f00000000007001f001f001d570fc001c1c07c00ffff070;
   0x1e03f880000fe02001f8078800fe01e000007e20800078002000fffc0800fe01e0003800f880000c000003ffff880000fc000007f0008000000020001f800000000004003c0007c00ffe03f00000fc0800ffff038;
   0x80078000007c00001f00100007c004000003e00000030000000c01c00007c00400010003000001c00000000000000007c000007f0000000000000000c000000000000001000018007fc007000007c00007ffc030;
   0x0;
   0x0;
   0x0;
   0x0;
   0x0;
   0x0;
   0x0;
   0x0;
   0x0;
   0xc70000000000000000006000040010000001c0000000000000000000000000000000000c0000018000004031800000000000000e0000005c00000000c00000000000000006000000400c00000104000;
   0xe67fe000aaaaa0000a8060000fe838000000e000002aaaa00002aaa000000000000ffd0c000003800000e03180003fffe000000e002000ec00080000c002001fffe000000e002000ee0c0800038c020;
   0x1c000380007e7fe000fffff0001fec670007ffdc0001ffff80007ffff00007ffe00000fff8000fffec3003ffff0800ff3183003fffe080055f547001dc001c003fff07001fffe1c0001c007000e60c1c00038c070;
   0x18000380061c38c000eaaaf0001aec6600003fcc0000ffff80006aaae00003ffe00000fff8000700fcf003ffff1c001f318700018c01c007fff860038c0018003fff0600180063c00ffff86000c60c1800030e060;
   0x1c00038007b81dc000e070700018ec670000700e0001ffff8000600070000700600000c0380003b01de00000003800037fee0001cc03c007fffce003ffff380015d50e00183067800ffffce000c60c380007070e0;
   0x1800038001ffff8000eafa700018ec66000030070000c0118000600060000300600000c0380001fa0fc000fffe7000033bac002bae8700000600c003ffff300000c00c0018306e00000000c000c60c3000ffff1c0;
   0x1c00038001fff78000efff700018efff003ffff7c000c0f18000615570000700600000c0380001e70d8001fffee00003319c003fffcf0007fff9c003ffff700055d55c001bff6e00000001c001c77ff000ffff1c0;
   0x180003800f8003e000ec03700018effe003fffe7e000fbe1800067ff60000300600000c038000383fc0000caaec00003319800398cc60003fffb800018036000fffff8001bfe600003fff18001837fa0000303980;
   0x1c0003800ffffff800ed57700018e00000007006c000fb81800067ff70000703600000c038000301f80001dfee4001ff3f800039ccc00000038000011fff0000ffffc0001830600003fff18001830c00000307c00;
   0x1800038000eaae3000efff700018e00000003006000000018000660060000307600000c038000ffc180000d86e0000ff3f8000398cc00000038000039bfb0000061800001830600003803000038b9e00000303e00;
   0x1c00038000e0070000ec03700018e7ff000070060007ffff800067007000070f600000c038000ffc1c0001dfee0001ff31800039ccc0000ffffc0001980700001f1e00001bff6000038070000719de00007ffff00;
   0x1800038000fffe0000ec03700018e7fe003fffe6000fffff800063067000030e600000c038000cc3fc0000c00e0000233180003fffc0000ffffc000198030000380f00001bff6000038030000219be00007fff600;
   0x1c00038000ffff0000efff700018e600003fffe60007ffff8000638f7000073c700000c038000cc3fc0001fffec000733f90003fffc40001e0f00001dbff0000f077c00018006c0003807000001c7f00000307000;
   0x180003800038180000eaaa300018e60000000006000600000000e19c30000338600000c038000cd86e8000aaa8c000233fb80000300e0003fff88000dbfb20004031880018aa6e0003fff080000c6f00000303000;
   0x1c000380055d5d5000f555700018e6000000000000060ffe000061f870000770700000c0180000d865c000fffce00073319c00007006000ffffd8000db1f60001ff818001bfe660003fff380000c4fe0000307380;
   0x180003800ffffff000ffffb0001867fe0000fff800060ffe0000e0f030000320700000c018000fcaeac000fffc600023318c003fffe6000e0e1d8000fb1b60003ffc18001bae6700000c0180000c0db0002bab380;
   0x1c0003800ffffff000ffffb0001867fe0000fff800070f5e0000e1e030000700700000c01c000fdffec00000007000737fec003ffff700040e05c000731b70001c1f1c001b066700018c61c000ee0df0007fff1c0;
   0x18000380002aa80000e06030001860060000c0380007ee0e0000e3f030008300380030c01c0000cbfee003ffff380023ffee0000f8038003fff0c000331b30000e1f8c001b066380018c70c000c60cb0007fff1c0;
   0x1c000380003ffc0002cfff38001870060000c0380003ce0e0002e7b83001c700380070c01c0000dc706003ffff1c007355470001fe038007fff0e0003bfb38000f3bce001bfe71c0038c70e001c60c180003071c0;
   0x1800038000300e0002cfff38009870060020c03800000e0e0002c71e3800c300180030c00e0000dcf0600023001c0023bb870003be01c0000b00e0063bfb980003f08e001bfe31c0030c38e001860c180003030e0;
   0x1d5557801c300e0006c0601801d877c60070c01c001c0e070006ce0f1801c7001c0070c0070000fdf07000731c0c0071b183000f7781c0007b8070067c199c0001e00700180630e0070c1c7001870c1c0003070e0;
   0x1fffff800c30070002c0601c009837fe0020c00e000c0e038002c4039800c3000e0030c0070000ffb83800e30e080021f1c2001e31e0c000f9c070026e018c0007f80300180638800e0c1c7001fb8c0c00ffff070;
   0x1fffff800ff007c007ffffdc01d8387f007fc00f800ffc03e007c0011c00ff000f003fc003c01fe71c2003c307000071e0c0007c70f00007c0f07003e781ce007f7f038018001c00060c0c3803ff8c0e00ffff070;
   0x180000000ff001f003bfffce00f8180e003fc003c00ffc00f00380000e00fe0007803fc001c00fc70e000383e3800020e0e0003030300007003c2003c3c0c800fc0fe2001f800c00000fc02003038c00000003020;
   0x1c00000007c000700300000c00701000001f0001c0015000700100000c0000000300150000c00f0206000101e1000070c04000007000000400180001c180c000f001c0001f000c000007c00001000c00000007000;
   0x0;
   0x0;
   0x0;
   0x0;
   0x0;
   0x0;
   0x0;
   0x0;
   0x0;
   0x18000e0004000000010000c00000070000100000000700000000000000000100000000000000070000000000000000000000000031c00000000000000040000000180000000700000000000000000000000000000;
   0x18006e000602aaa0018000e00000070000180000000601800000000060000183800000000000030000000000000000000000000630c60000ffff800000e0000000180000000600000000000000000000000000000;
   0x1801ee000603fff00180006000000780001807ffc00701c00003fff070000381c00000000000070000000155555000000000000631c60000ffff800180e01800001800000607070007fc3fe0000fff00000600000].
Definition hanzi_rows_15 : list N :=
  [0x18c38e000633fff00198aae00002ab80001867ffc00600c02003fff060000300c0000fffff800303000000fffff0007ffffe000730ce00007800000180e01800001800000e06060007fc3fe0000ffe00000700200;
   0x18c38e0006306180019dfff0001fffc000186038000710c07003fff070000700e0000fffff800703000001fffff0007ffffe000331dc00003c00000190e018003ffffc000e07070007fc3fe0000e0700000700700;
   0x18c10e00063061800198fff0000fffe000186038000618e0e003830060000e00e0000c0700000303000000c0000000600600000130c800000e000001b8e018003ffffc000e060600060c3060000e0600006380e60;
   0x18dc0c0006306180019dd930000e00700018603800071861e003830c70001c0070000c0700000703000001c0000000700600007fffffe006078060019cffd8003ffffc000e070700070c3060000e07000061c1c60;
   0x18cffe00063061800198d9b8000700380018603800061861c003830fe0001c0038000c0300000303000000c0000000600600003fffffe006c18260018cffd800001800000e060600060c3060000e06000061c3860;
   0x18dfffe006306180019ddd9c0003801c00186038000718738003830ffe0078001c000c070e000703000000c0000000700700001555554006e187600187fc1800001800000e070700070c3060000e07000060e7060;
   0x18c00fe0063061800198c88c0003800e001860380006183700038300fe00f0001e000c030e000303000000c3000000700600000c60630006718e600183ec1800001800000e060600060c3060000e06000060ee060;
   0x18c71c00063575d0019cccce007fffff0018657d4007183f000383007401ffffff000c0306000703000000c3c00000700700000c70c30006399c600187ee1800ffffff000fffff00070c306001fe07f800607c060;
   0x18c30c000633fff00198ccc4007ffffa001867ffe006183e000383806000cfffff000e0386000303000000c1e00000700700000c38c300061b98600186e61800ffffff000ffffe00060c306001fe07f8006038060;
   0x18c31c000637fff0019ccc6000700000001867ffe007181c0003838070001ffff2000c0387000703000000c0780000700700000dfffb00060fc060018ee71800ffffff0000070000070ff06001c0001800607c060;
   0x18c39800063061800198c66000700000001860380006183c0003838060000c0600000e0183000303000000c03c0000700300000dfffb00060fe060019ce318000018000008060280060ff060018000180060ee060;
   0x18c1d80006306180019cc67000700000001860380007183e0001818070000c0700000e01c3800703000000c01f0000700380000c060300061dfc60019ce3980018181c001c0703800700006001c000180061cf060;
   0x18c0f800063061800198c638007ffff8001860380006187e0003818860000c0300000e01c1c00303000000e0078000300380000c06030006399e6001b8e1d800381818001c0603800600006001800018006387860;
   0x18c0f800063061c0019cc718007ffff80018603800071877000181df70000c0300000e00e0800703000000e003e0007001c0000dfffb0006f18fe001f0e0f80038181c001c0703800700006001c00018006703c60;
   0x18c07000063061c00198c30c007ffff800186038000608e3800180cfe0000c0380000e00e0000303000000e000f8003001c0000caeab0006e183600180e05800381818001c0603800600006001800018006f00e60;
   0x18047800060061c00180c38c0070000000184038000701c3c00180e1f0000c01c000060070000700000000e00078003001e0000c0603000641f16001807c180038181c001c0703800700006001c000180066007e0;
   0x18087c00060060c00180e1800070000000180038000601c1c00180e0f0000e01c000060038000300000000e00010003000e0000c0603000601f0600180381800381818001c0603800600006001800018006000360;
   0x181c7f00060060e0018061c0007000000018003800070080e001c07010000e00e00006003c00070000000060000000380070000c06030006005060018000180038181c001c07038007ffffe001fffff8006000060;
   0x180ce780060060e0018060e0007ffffc00180038000600007001c03800000e00780006001e00030000000070000000380038000fffff0007ffffe001fffff8003ffff8001fffff8007ffffe001fffff8007ffffe0;
   0x1d0dc3c00740607001807f70007ffffc001d40380007f0007001fe3c000007f07c0007500f8007f80000007fc000001fe01e000fffff0007ffffe001fffff8003ffffc001fffff800755556001fffff8007ffffe0;
   0x1f8f80c007e0603801f83e2000700000001fc0380007f0000000fc0e000007f01e0003f803c003f00000003f8000001fe00f000c00000006aaaaa001800000003aaaa8001eaaaa800600006001800018007ffffe0;
   0x1f87000007e0601001f01e0000700000000fc0380003f00000007c04000003f0060001f8018001f00000001fc000000fc007000c000000060000000180000000380000001c0000000500006001c00018006000000;
   0x0;
   0x0;
   0x0;
   0x0;
   0x0;
   0x0;
   0x0;
   0x0;
   0x0;
   0xe00000400000003800700004001c000180000000600c0000180000000400070001000000004004000018000c0004000c0001800000000000100018006000040000000180000000400040003800000006000000;
   0x30e0c000602aaa003800330006000c000180000000601f8000180000000600330001803ff800600f800018000e0006000c000181fbf80000003800180070000602aaa001802aa8006000e000380aaa800600aa80;
   0x3861c000603ffe0039c0730006000c00018dfffc006007ff0018c7ffc00600f70001803ff8006007fd0018000e0006038c700181fbf8007ffe3000180070000607ffe0018c7ff8006000c000380fffc00600ffc0;
   0x18638000633ffe00398033800633ffe0018cfffc006300ff0018c3ff800631e300018630180060c0ff0018cffe0006398ce001999b98007ffe700018c0f8000663aae0018c7ff8006381c00038cfffc00638eac0;
   0xc7300006330060039cfff800677fff0018c11c0006300c10018c3800006308700018630180061c0e70019cfff000639ccc001999b98007ffc200018c1dc0006674060018c60180063bfff0038c01c000638c0c0;
   0xfffff00063300600398fff8006307300018c18c0006300c00018c1c00006318300018630180060c0e00018cc03000638ccc001999b980060c1ff0018c38e0006636060018c63180063bfff0038c00c000638c0c0;
   0xfffff0006330060039c071c00670e380018c38e0006300c00018c0e0000631ff00018630180061c0e00019cc03800638edc001999b980060c1ff0018c70f00066761e0018c63180063bfff0038c00c000638c0c0;
   0x380000633ffe00398030c00631c1c0018c306000632aea0018c070000630fff0018630180060c0e00018ccffc006384c8001999b980060c1c00018ce070006636360018c6318006386000038c2ae000638eac0;
   0x1c0000633ffe0039d575c00677fff0018c7ff000633fff8018c1fc00063007f001863ff80061dfff0019ccffe00639fff001999b980060c0c00018ce03c006677760018c6318006386040038c7fe000638ffc0;
   0x3fffffc0063030600399fffc006337f78018cfff800633fff8018c79e000630060001863ff80060dfff0018ceebc00639ffe001999b980060c0e00018cc01e006633660018c63180063860e0038c7fe000638eac0;
   0x3fffffc006303060039dfffc006700030018dc1f8006300c00018df07c006330600018601000061c0e00019cce38006380c00019ffffc0060c3700018c7ffc006673c60018c63180063871e0038c707000638c0c0;
   0x2aeafa800633ff6003980300006300000018c0300006300c00018ce03c00633fe00018601800060c0f00018cee38006380c00019bfffc0060e3380018c3ff0006633c60018c6318006383380038c303800638c0c0;
   0x1c03c000633ff60039c070000677fff0018c0700006300c00018c000000631ffc0018601c00061c1f00019cee38006380c00019ffffc0060e1fc0018c3070006671c60018c6318006383780038c303800638c0c0;
   0x3801e00063331600398fff800637fff0018c0300006300c00018c7ff8006300ff001863ffc0060c3f80018ceff8006380c0001999b98006060fc0018c3030006631860018c6318006383f00038c38dc00638eac0;
   0xfffff0006333160039cfff8006700380018cfff800631fff0018c7ffc006318c7001867ffc0061c7f80019ceff80063bfff001999b98006061fe0018c3070006673c60018c6318006381e00038c39fc00638ffc0;
   0x3fffffe0063331600398c318006300180018cfff800631ffe0018c0300006318c00018631c00060ceec0018ce2b80063bfff001999b98006063b70018c3030006633c60018c6318006381c00038c1b8800638ffc0;
   0x3dfffdc006333160039cc718006715580018c0700006318070018c030000631fc00018631c00061dcee0019c7c380063bfff001999b98007073330018c3870006677660018c6318006383c00038c1f0000638c0c0;
   0x2180c000063331600398c31800631ff80018c0300006318060018c030000630fc00018630c00060c8ee0018c7c38006380e0001999b98006031310018c3e30006636660018c6398006387e00038c0e0000638c0e0;
   0x180c000060331600380c71800601ffc0018c0700006018070018c0300006127c00018430c0006000e700180103800618060001919b9800703830001841f7000607e760018c0580006007700038c0e0000610c0e0;
   0x180e000060331600380c3180060180000180e30000601806001800300006063c00018030e0006000e300181803800600070001819b980070383000180c0300060303e001800fc000600e7000380070000600c0e0;
   0x1c070000603f1700380c71800601c0000180ff000060180700180ff00006063f0001803070006000e100181803800600070001819f9800701c3000180c0700060701e001801dc000601c3800380038000600c060;
   0x1c038000603b1300380fb1800600c00001803ffc00601ffe00180fff80060637c001803830006000e000181803800600038001818f9800300e3000180c030006030160018038e00060081c0038001e000600c060;
   0x1d41f000740303003f8771800600d70001f801fc007f1fff001d41ffc00747f1f001d43d3c007500e0001d1fff00075001c00181cfdc003d4f30001d4fff000747f06001d470780074000f001d000f000740c070;
   0xfc0f8007e0303801f80300007e0fe0001f80008007e1aae001f8003c007e3e0e001f81f1e007f00e0001f8fff0007f000e001f1edec003f8730001fc7fe0007e3e06001fc603c007e0007001f80078007e0fc38;
   0x7c030007c0300001f00700007c07e0000500000003e1807000f80000007c3c00001f81f0c003f00e0001f07fc0003f0006001f0e5ec001f8230000fc7fc0007c0406000fc000c007e0003001f00018007e07c30;
   0x0;
   0x0;
   0x0;
   0x0;
   0x0;
   0x0;
   0x0;
   0x0].
Definition hanzi_rows_16 : list N :=
  [0x0;
   0x1800300004000e0001801cc000600000001000700006000000003001c0004000c0001c00380004000e000100000000601c1800180030000600000001800300006001c0001000600006000e0001000300004000000;
   0x1800700006000c00018018c000603ffe00180030000603ffc000380180006000c0000c00380006038e200180000000600c1800180030000600ff80018083080060218200180060000e000c0001800300006018000;
   0x1800700006001c0001801cc000603ffe001800f8000603ffc0001c0380006000c0001c5038000601ce700180fffc00600c1800180070000600ff800180e31c006031c6001800f0000e001c000180030000601c0e0;
   0x198aea800633fff0018c18c00063300e001881d800066380c0000c070000633fff000c67ffc00619ce60018efffc0063063000181fffc00630e1800180e31800633186001981f8000e62baa0018efffc00638e3e0;
   0x199fffc00633fff0018dfcd40067300e0019c39c00067380c003fffffc00633fff001c77ffc00618ce60018e000000673fff0019dfffc00670e180018ce31c006731c60019c39c000e77fff0018efffc006387f80;
   0x199aaac00632eaa0018df8fc00633ffe0018870e00066380c003fffffc006300c0000c6038000618eee0018e000000633fff0018c300000630e180018cebb8006331860019870e000e62aea0018eaba8006383e00;
   0x199801c00631c1c0018dfcfc00673ffe0019ce07000673ffc003fffffc006300c0001c70380006186ec0018e7ff800673fff0019c307000670e1c0018cfffc006735d60019de07000e700700018e0300006387f00;
   0x199803c00630e180018c18c00063300e00189c03800663ffc00000000000633ffe000c63ff800618aea0018e7ff8006330c00018c38f000630e1c0018caaa800633ffe00199c03c00e608300018e030000638e780;
   0x199fc3000630e380018c1cc00067300e0019dfffe00670180001c03ff000633fff001c73ffc00619ffe0018e7558006731c00019c1fc000677e0e0018c000000673ffe0019ffffe00e71c180018e7ffc00639c1f0;
   0x198fff0006306300018c18c000633ffe001883fee00660180000c63ff8006338c6000c6301800618ffe0018e601800633aea0018c0f0000633e0f0018c2aa800630060001997fec00e60e0c0018e7ff8006388cf0;
   0x199dff000637fff0018dfcfc00673ffe0019c000400670180001c73ff8006338c7001c7301c00619c060018e701800673ffe0019c3fc0006750c70018cfffc006700700019c7fe000e707ff0018e631c006380c00;
   0x1988f1800637fff0018cf8fc0063003800188000000667ffe000c63838006338c6000c6301800618c060018e601800632aee0018cfbe0006300c00018cfffc00631ff000198000000e603fe0018e6318006380c00;
   0x199df1800637fff0018dfcfc006700180019cc31000677fff001c73838006338c7001c7301c00619ffe0018e7ff8006701c60019de0fe00677fff0018ce00000671ff80019c000000e713800018e631c0063bfff0;
   0x1988f98006300000018c18c000637ffc00188e31800666186000c63ff800633ffe000c63ff800618ffe0018e7ff8006300c60018cb0fc00633fff0018ce00000631ab800199fffc00e631c00018e7b180063bfff0;
   0x199dd8c006315540018c1cc000677ffc0019c6730006771c7001c73ff800633fff001c73ffc00619c060018e555000673fff0019c30e000677fff0018cf55000671c1c0019dfffc00e738f00018e7b9c006380c00;
   0x1988dbe00631ffe0018c18c000633666001886630006663c6000c63838006301e0000c20c6000618c060018e382000633fff0018c30e0006303e00018cfff800630c2e00198018000e61c780018e0380006386c80;
   0x199fdf600631ffe0018dfcfc006777770019c7630006777e7001c73838006307f0001c00c6000619ffe0018e1870006731e00019c30e0006707f00018cfff800670e770019c11c000e71e1e0018e0fc000638edc0;
   0x198ece00063180e0018df8fc0063333300188363000666ee6000c63ff800630ef8000c00c6000618ffe0018e1860006330f00018830e000630ef80018c001800630ee20019838c000e60f0f0018e1fe000638ccc0;
   0x1801cc00060180e00181fcfc0060333800194307000607c76001c73ff800601edc000fc0c7000601ffe001841c60006031f800180306000601cdc001840018006007c00018030e000e50786001807b7000601ccc0;
   0x1820ce00060180e0018018c00060319c0018098000060683e000c63838006038ce000f80c7000600c06001800ce0006030dc001803060006038cc0018080180060038000180706000e00fc000180e338006038c60;
   0x183dc700060180e001801cc0006031ce00181fc0000607017001c03838006018c7007100c7000601c0600181fcc000603dde001803070006030cf00180ff18006001e000180607000e01df000180431c006030c70;
   0x183fc3000601aae0018018c0006038c700180fff800606006000c03838006000c3803000c3800600c0600181ffe800601ec7801803030006010c780180fff8006000f800180ffb000e0387800180030e006030c30;
   0x1807e3800741ffe001d01cc000741d720018007fc00747007001d43838007400c1003fffc1c00751d46001d17ffc00741fc3001d0303c007400c3001d007fc0074007f00181fffc0074703e001d0030c006000c00;
   0x1f00e1c007e1aae001f818c0007e1f70001f80038007e7e06000fc3f38007e00c0003fffc0e007e0f86001f8003c007e00c0001f8301e007e00c0001f80008007e001f001f9c0f8007e200f001f80300007e00f80;
   0x1f0040c003e180e000f81cc0007c0f20001f80000007c3e070007c1f38007e00c0001fff004007e0786001f80000007c01c0001f8300c007c00c0001f80000003e0006001f00000007c0006001f80300007c00700;
   0x0;
   0x0;
   0x0;
   0x0;
   0x0;
   0x0;
   0x0;
   0x0;
   0x0;
   0x18000001c000000003800006001c00010030c000030000001801830004000000010004c00040319c00180000000e000c00010000000007006000180c00000400000001000000004001c0001000000004001c00;
   0x18000001c000000003800006000e00018030c0000607fe00180183000e1fffe001800ee0006039ce00181fffc00e001c000181fffc000300e000180fe8000602aaa001803ff80060018000181fdfc006000c00;
   0x18000001c00000000380000601ffc00183fffc007ff7fe001815d5800e1fffe001801c6000601ce600181fffc00e055d500181fffc0057d5d5001807ff800603ffe001807ff8006031dc00181fdfc006315d50;
   0x18000001c3ff00000380000631aac0019bfffc007ff60600189fff800ec000600198187000630e6300198088000e07fff00188000000ffffff0019806b800623aae0018c3000006338cc0018d818000633fff0;
   0x18000001c3ff00000380000671ffc0019c34c0003066060019dfdfc00ec1b160019dfff000671cc60019c1dc000e775570019c000000ffffff0019806000067300e0019c700000631dcc0018dcdd800633fff0;
   0x1ffff80001c3aa00000380000631ffc0019806600038c7fe0018c66cc00ec1b3600199fff80063398c00199fff800e2618300188fff0003800000019bfffc0062300e0018c3ff000630cce0018cdcf8006301e00;
   0x1ffff800ffff80001fffffc00671ffc0019dfff0005dd7fe0019c64ce00ec19360019c1c3c0067719c0019dfffc00e77fff0019cfff00039cffc0019bfffc00673ffe0019c7ff000630dc60018cf8f0006307f00;
   0x18180000fffb83001fffff800631ffc00199fff800fff8060018c260600ec19a6001980c3e00633ffe00199888800e23ffc00188e0300038cc0c00198060000623ffe0018c3000006303e00018ce0e000630f380;
   0x1c1c0000e1c187001c0380000671d5c0019c0c3c00fffffe0019c070000edfffe0019dfffc00673ffe0019ddddc00e701c00019ce0300039cd5c0019836c00067175e0019c3000006307f00018df1f000633c1f0;
   0xdc182000e1c18e00180380000631ffc00198fffc000607fe0018c1f8000edbbfe00198fff0006330c600199aaa800e2018000188eab00038cffc00199b6c00062030e0018dfffc00631e380018db9b80063180f0;
   0xdc1c600061c1dc001c01800006700000019dfffc0057561f0019c79c000edbcc60019c1c3000673ffe0019dfffc00e71ffc0019cfff00039cc0c0019bf6fc0067030e0019dfffc00633c1f0018d1e1c00637fff0;
   0xdc1c6000e0c0f8001c0180000633ffe001980c3000fffe0b0018ce0f000edbad600198aeb000633ffe00198000000e20ba800188aaa00038ceac00198f6e800627ffe0018c03000063198e0018c0c0c00637fff0;
   0x1dc1c700060c0f8001c01c0000673fff0019dfff000fff61f0019dfffc00edbfd60019dfff0006731c60019c555000e701c00019c00000039cffc0019836c000677ffe0019cc71c006301c00018c000000631c000;
   0x19c0c300060c0f0000c01c0000633ffe001980c30000607fb8018cbffe00edbed6001980c3000633ffe00198fff800e27fff00189fff800380c0c0019b36e00062030e0018ce338006311800018dfffc006318000;
   0x39c0e380060e0f0001c01c0000673fff0019dfff0000707fd0019c000400ed33d60019c1c3000673ffe0019cfff000e77fff0019dfff8003e0f0c0019b36fc006703060019c7770006339cc0018dfffc00631dfe0;
   0x38c0e180060e0f0000c00e00006330c200199fff0000200000018c000000ec32d600199fff0006300c000198000000e20180001898618000e02080019bf6cc006203060018c3360006318cc0018d8180006318fe0;
   0x31c071c006061f8001c00e0000673fff0019c0030007ffffe0019c7ff000ec73d60019dfff000677fff0019ffffc00e715d40019dc718003fffff001994f4000673ff60019c1fa000631cce0018ddddc00631dc60;
   0x30c0708006073b8000c007000063000000198fffc003ffffe0018c7ff000ec73f600198003000637fff0019bfffc00e23ffc00189fff8003ffffe001983f8000623ff60018c3fc000630cc60018cfcf8006318860;
   0x10c03800070731c000c0078000677fff00181fffc00700c0000180603000e053f70019cc110006703e000190070000e73ffc0019dfff800355f540019077c000653037001807ff0006101e700180f0f000601dd60;
   0xe03c000603b0e000e0038000607fff00180e07000300e0000180603000e0d8c20018099b000600ff000180326000e0380c0018186180030060000180e6e00060303300180e338006007e000180e0e0006018fe0;
   0xe01e000701c07000e001c000600618001807ff00030070000180603000e1d86300181999800601ffc00180f73000e0380c00181c7180038070000181c6700060303300181c71e00600f7000181f1f000601dfe0;
   0xe00f000701e03800e000e000600618001801f8000300380001807ff000e18c63001839998006078ce00180c23800e0380c00181aeb8003803800018186380060303380180830c00603c3800181b9b8006018060;
   0x7f07c007f0f010007f80780074061c00180fff0003801fc001d07ff000e18c73001d3319c007431c7801d1c71c00e03ffc001d1fff8001801fc001d0061c00603ff30018007000060781f001811c3c00741c000;
   0x7f03c003f07000007f803c007e060f001f9e0fc001fc07f001f860300079863b801fb338c007e00c3001f883cc007e3aac001f9aab8001fc07f001f80608007c3ff0001f803e0007e300f001f80e1e007e0f800;
   0x1d018001f02000003f0018007e0607001f1801c001fc01f001f0603000780611001f1010c007c01c0001f003c0007c380c001f9c018000fc01f001f00600007c3030001f003e0007c0001001f00404007c0f800;
   0x0;
   0x0;
   0x0;
   0x0].
Definition hanzi_rows_17 : list N :=
  [0x0;
   0x0;
   0x0;
   0x0;
   0x0;
   0x1c01c0000000000001c03800000c0700001c01c0000300600000e0700000700000001c0000000300000001c0060000300e0000000180000380000000c000000001c000000c0000000007000000000c00001c0000;
   0xc00c0000ffffc0000c03800000c0300000c0180000300600000e03000003000000018aaa8000300000000c0060000300e0000000180000383fe0000c0000000218000000c0000000003000000000c0000180000;
   0x1c0fe0001ffffc0001c57d40015d5750001c0380000300600015f575400070fff0001cfff800030fff0001c0070000300e0003ffc1c0000387fe0000c3ff800071ce00000c3ffc000003800000000c00001c0000;
   0xc1fe0000f80000000c7ffc001fffff0000c2ba800030aea003fffffc000307ff00018fff800030fff0000c0030000300e0001ffbffc000383ae0000c3ff8000e18600000c3ffc003fffc0001ff00c00001c3ff0;
   0xc0d700001ffc00001c7ffc001fffff0001c7ffc00030fff003fffffc000707000001c001800030e300001c7ff000030fff001c1bffc000387060000c1550003c1c700000c00e0001fffe0001ff00c00001c3ff0;
   0x2ae8e380001fe000000c03800018c0300000c7ffc00030aea0000e03000003038000018001800030e380000c3ff800030ffe000c33860000383060000c0000007a18380000c00e0000e00f8001ff3ffc0001c2ba0;
   0x3ffc61c003ffffc003ff83800018df70003ff81c000fff0600000e070000fff1c00015d7ff800fffe18003fff01800ffffff000e7187000ffff06003ffc00000f71c1c0015d40e0000701fc001833ffc00fffc300;
   0x3fffffc003ffffc003fffffc0018fffe003ff88e000fff06000000000000fff1e0003fffff800fffe18003ffb01800ffe0e0000661c3000fffbfe003ffc00000e3d80e003ffc0e00003c38e001833ae800fffc300;
   0x38c7ffc0038181c003dd7ffc0018f1ff003ff9c7000fff060001fffffc00fff7f0003fffff800e30e1c003fff01c00f750e00007e0ff000f5d7fe003ffd5540001fc04003ffc0e00001ff040018330c000d5d4300;
   0x38c6318003abaac0038c600c0099f03b0038c0c3800e38fff001fffff800e30f3c0038c031800e3060e0038c33fe00e300e00003c0fc000e383060030c3ffc00007e000038c3fe000007e000018338e000e0c0300;
   0x38c6318003ffffc0038c600c01dfb8700018c0ffc00e38fff00180101c00e31e1f0039c031800e307cf0030c77fc00e315f50007e1f8000e187060030c3ffc00001ff00038c3fe0005ffff00018330e000e1c0300;
   0x38e63180038180c0038c3ff000fb1c300038c07f800e3800000180301800e308070038c7f1800e387c78038c331800e31fff000ffbde000e183060038e00e000000bff0038c386000ff83ff0018338e000e0c0300;
   0x18e63180038181c0018c1ff000f01e3e0018c378000e1800000180301c00e300000038c7f1800e380010038c371800e31fff007c3d8fc006187060030e00e000001c7f0038e386000fc1c7f00183386000e0c0300;
   0x3866bb8003ffffc0038c0e0000200c0e0018c738000e1800000000380000e38fff0038c6b1800e387fe0038c331800e3803000380e03c00e183fe0038e0c6000000c000038e386000001c0000183386000e0e0300;
   0x1867ff8003d5d5c0018c078000000c000018e39e0006187fe000fffff000e38fff0038c731800e187fe0038c3718006382300000070040061c7fe003861c70003ffffc0038e387000001c0000183386000e0e0300;
   0x1862fa80038180c0018e6380003ffffe0018e38f000e187fe000fffff000e380600038c239800e186ae0038e331800618338000aafaa00060c306003861870003ffffc003863860003ffffc00183386000e0e3300;
   0x1870f8000001c00001867ff0003ffffe001861c7c0061c606000601800006180600018e71980061c6060038637f800618718001fffff00060c706003871830003ffffc001861870003ffffc001833870006077f00;
   0x1838f80003ffffe001863ffc00380600001860e1c0060c60600060180000e180600018e319800e1c6060038633f800618e1c000eabaa00060eb0600387383800380e0000186183000380e00001833870006073fe0;
   0x1f9cfc0003ffffe0018703fc00180700001871f080060c606000601c000061c0600018671980060c6060018730180061cc0c000c0380000606fc6001873fd800380700001871830003807000018318700060703f0;
   0xf8eec000300e0000183038000180380001833f800060e606000600e000060c8600018631980060e6060018730180060cfee000e0180000607ffe00183bffc0038038000183183800180380001833830006038030;
   0x750cee000380700001838380001801c0001c3b9c0006077fe0007007000060eff00018731dc006077560018330000060ffff000e01e00006071ff80183f07c003803c0001839818001803c0001ff183800701c000;
   0x3000e7000380380001838380001800e0000c390f0006077fe00070038000606fff00183b0cc006077fe00183b8000060e81e000e00f000060380f80181c008001801e0001819818001800e0001ff181800700e000;
   0x3fffc3c001801f8001ddc3f0001d707c001fdc07c00753ffe0007fc1fc007e707f001c1ffec00757ffe001d1dd40007570000007007f000751c00001fdc000001d607c001fddfdc001d507c001ff1f9c007f8f000;
   0x3fffc1e001f807f000f8e3f0000fe03f000f8e01c003e1c060003f80fc003c3803000f9de6e003e3c06000f8ff80003e38000007f01fc003f0e00000fce000000fe03f000f8ef8e000fe03f001830f8e003f83800;
   0x7fd00c000fc01f0007c41f00007e007000784004001f0c040001f801c00141000000f88464003f1806000f8cf80001e10000003f0078001f06000007c40000007c0070007845040007e006001030704001f01000;
   0x0;
   0x0;
   0x0;
   0x0;
   0x0;
   0x0;
   0x0;
   0x0;
   0x0;
   0x100000000c0000000700000001c0000000300000000c0000000700000001c00000001800007071c0001c0000000381c00001c398000070e1c0001c0000000600000000c1c70000700000000c0180000700000;
   0x300000000e0000000300000001c0000000380000000c0000000300000000c0001ff818000030608000087efc000380c00000c399800030e08000187ffc000600000000c0c6000060ffe0000c038000030ffc0;
   0x380000000e0000000380000001c0000000380000000e0000000380000000e0001ff81c000071fff0001c7ffc00ffffff0001c7ddc00070e1c0001c7ffc00067fff0000c5d7400071ffe0000c038000070ffc0;
   0xaaab8000000060000000380000000e0000000180000000e0000000380000000e000199bff800031fff00008648800ffffff0000cfffe00033fff00018600c00063fff0000c7ffc000607000000caba800030e0c0;
   0x3ffffc0007ffff0000ffffc0007ffff0003ffffc000fffff0001ffffc0007ffff000199bff80007071c0001c6ddc000381c00001c7ffc00073fff0001c7fec000600c00000c7ffc000703c00000cfffc00070e0c0;
   0x3ffffe0007ffff8000ffffe0007ffff0003ffffc000fffff0001ffffc000fffff000199b8c0000306a8003fe78b0001ffff80000c399800030e08000186fec000600c00000c0c60000601c00000caaa800030ffc0;
   0x1800070007ffff8000c00070007ffff0001ffffe000755578001ffffc000fffff0001ffb8c000ffe7fc003ff79d0001ffff8003ff3d9800ffeffc003ff600c00ffc0c0003ffdff0007fe0c0003ff800000fffffc0;
   0x380007800618618000c00078006000380038e186000e000380018000e000e00038001ff98e000ffe0e00038878e000180018003ff3f9800ffeff8003ff600c00ffbffe003ffcfe000ffffff003ffbff800ffe0000;
   0x180c03c0071c71c000c1fffc0070001c001861c700060071c0018000700060001c00199987000ffffff0039c7ffc001ffff8003dd151800f74e1c003ff7ffc00ffffff003dd57d000ffffff0018c3ff800e700000;
   0x18ce37e0061c70e000e1ffde0070000e001861c380060030e0018000380060001c001999f3800c30ffe0038c628c001ffff80038c7ff800e30e080038c6fec00c633260038c038000e300c00038c303800e30ffe0;
   0x18c677c0071c377000c1ffcc007001ef001871c3c0060038f0018007380060000e001999f1c00c31ce70039c67c4001800180038c7ff800e30ffc0039c600c00c633370038c7ffc00e700c00018c303800e31ffe0;
   0x18c3e600070c3fb800e180c000300387801870e1c0060238700180071c00600007001ff800800c308e20038c1fc0001ffff80038c000000e30ff80038c000000c633260038e3ff800e300c00018c303800e30c060;
   0x18c3c700070c7e3000e1c0c000701f0300187060c006071c3001c00e1c00600007001ff841000c31fff0018c7cf0001ffff80018c155000630e1c0019c3ff800c633f70018e739c00e300fc0018c3ff800631ce60;
   0x18c78600070ef80000e180c000303e00001838700006060e0001801c000060000200008061800c30ffe0038ce23e000003000038c3ff800e30e080038c3ff800e633e60038e339800e300780018e3ff800e30ce60;
   0x18cfc7000707fc0000e1ffc000701800001c387000070e0e0001c0380000700000000183ffc00c300e00018cc71c00ffffff0018c3ff800633fff0018c301800c73337001867ffc00630fff00186030000631ce60;
   0x18dce600030f8e0000e1ffc0003080000018183800060c070001803800006000000001e3ffc00e39fff0018c0bc000ffffff0018e30980063bfff8018c3ff800e33326001863ff800e30ffe001861b3000e38ce60;
   0x18dc7700071f07000071ffc00070f000001c1c1c00071f070001c0700000700000001b6b7dc00c19fff0018c1cf000071cf0001863198006183460018c3ff800e7337700187038000638db7001863b3000639ce60;
   0x18c83e00033f0700007e00c00030fe00001c0c0e00073fff8001c0e00000700000001b6b6d800e180e00018e0e38001e0c38001863198006186e60018e301800e333e600187038000618db200186333800618ce60;
   0x1cc00700033b8380003c00c000303fc0001c0e0f000737ffc001c0200000700000001f6f6d800e1dfff0018637c0007fffff00187319800618e76001863ff8006333f7001877ffc00618db70018773180061dc660;
   0x18fffe00030181c0030000c0003007f8000c0607800330038000c000000030000000306b6d800e0cffe0018639f000fffff70018731980061cc36001863ff80063b32600183fffc00618db20018323180061cc660;
   0x1cffff000301c1e0070000c0003801fc001c0703c00700000000c0000000700000003c6f6d80060c0e0001c71c7000c607010018305c00061c4360018730180061b3370018183800061ddb7001c3831c0061c3f00;
   0x1c0000000380e0e0038000c000380018000c0381000380000000e0000000380000002c6f2c80060fee0001830f0000060380001839ee00060fffe0018330180061bffe00181c3800060fffa001c183080060e7380;
   0x1d40000003d4704003ffffc0001d5000000ff1c00003ff000000f58000003d6000006c6f3cc00747fff001fb87c0000603f0001ddf87800757ffe001ffbff80071ffff001d5e3800075ffff801fdc3e0007f7f1e0;
   0xfe0000001fc380001ffff80001fe000000fe0e00001fe0000007f8000001fe000000fe1ffe007e38bf000f9c0f80007e0fc000f9f03c003e7000000f9fab8007cfaae000f8f380003e702f800f8e3e0003e760f8;
   0x7e0000001fc100000555400000fe0000007e0c00000fe0000003f0000001fc0000007c1d74003e10000005180180003e038000788004001e200000079b018003cf007000786380003e2000000504000001e20030].
Definition hanzi_rows_18 : list N :=
  [0x0;
   0x0;
   0x0;
   0x0;
   0x0;
   0x0;
   0x0;
   0x0;
   0x0;
   0x140000000104000000518000000000000000060000070180000000600;
   0x3fffff800aaaaaa000aaaaa800000000003fffff800fffffe003fffff800fffffe002aaaaa800fffffe002aaaaa800fffffe0000000000001cffe000030600000071c00000000c000000060000070180000000600;
   0x3fffff800fffffe003fffff800fffffe003fffff800fffffe003fffff800fffffe003fffff800fffffe003fffff800fffffe001fffff00001dffe000030600000071c00000000c0000000700000701c0000000700;
   0x2aaaab800fffffe003fffff800fffffe00000c01800aaaaae00000001800fffffe003fffff800aaaaae003fffff800aaaaae000fffff00001cc06000030600000070e00000000c0007ffff0003ffbffc007ffff00;
   0x1c01800000706000000018000187060007fff1800019c06000060618000000060000000180000000600001c018000060060000000300001dd56000030600006070700004000c0007ffff8003ffbffc007ffff80;
   0x3e01800000306000380018000183060007fff1800018c06000060618003fffc6000000018000f8006000018018000063860000000300061cffe00183060000e07070000f000c0006000180030187e0006020180;
   0x77018001557860003803180001870600061c31800019c06000067fd8003fffc6000ffff18001fffc600001c018000c638600000003000f1dc06003c3060000707078000fc00c00067fffc00301ce700061fe1c0;
   0xe3818003fff860001c0718000183060007fff18007f8fe6000067fd8003860c6000ffff180000bf86000018018000fe386000000030003dcc06001e307fc003870380003f00c00063fffe00300ec380061ce0e0;
   0x7c1c18003fffc60001c1e18000187060007fff18007f9fe60007f8318003870c600001c018000001c60007fff18000ff386000000030001fdffe0007b07fc001c707c0000fc0c0007000070033fdd5c0077ffff0;
   0xffff18000060e60000e3c180001830600000c01800018c060007f8b18003860c6000018018000001860007fff18000cff860000000300003cffe0003f0600000e703e00003f8c00061fff3803bf9fee0067fffb0;
   0x1ffffd80000706600007781800018306001ffffd800019c06000661d98003fffc600001c018000001c600061c318000c7ff60000000300001c0000001f060000077077000007fc00071fff300331c7e400700e010;
   0x8000980000600600003e01800018306001ffffd8003f8fe6000662b98003fffc60002baa18007fff86000618318000c63f60000000300001eaaa0000306000003f033000000fc000618030003b180000063fff80;
   0x18007ffff600001e01800618386000555518003f9fe6000667fd8003870c60007fff18007fffc600061c318000c63960000000300001ffff0000306000001f0730000007c00071fff000331dffc0073fff80;
   0x3ffe18007fffe600003e01800e183860007fff1800018c06000660898003860c60002baa1800038186000618318000e63860000000300001eaea0000306000000f0300000000c00061fff0003b19ffc00630e180;
   0x3ffe1800007006000077018006181c600070071800019c06000661c18003fffc600001c018000381c600061c318000f63860000000300001c0cc00003060000007c700000000c000715550003bfd57400735f580;
   0x300e180000f0060000e3818006181c600060c318002b8ea6000667818003fffc6000018018000381c60006183180002638600000003000c1c0cc00003060000007e300008000c00063fff8003bf80300063fff80;
   0x300e180003f8060001c1c18007f80e600071c718007f9ff6003677fd8003870c600001c018000381c600075c3180030438600000003001c1dfcc00103070000407ff00038000c000735f58001f1d57000730e180;
   0x300e1800079c06000380f18003f80f600062e318002b8ea6003630bd800006006000ffff98000380c60007d83180030038600000003000c1dfce0060307c000c073300038000c000730e18001e18ff000730e180;
   0x3ffe18000f0f060007007d8000000660007f771800019c06003639c1800007006001ffff98000380e60003dc318003fff0600000003000ffc0ce0070307f001c070700038000c00073fff800041dff80073fff80;
   0x3ffe18001c03e6000200398000000060003e3e1800018c06003e1c81800006006000000018000380e6000018018001ffe0600000003000ff80ce0060306fe00c070300038000c00033aeb8003018c000033fff80;
   0x18003801e600000001800000006000f01fd800019c06001c09c18000070060000000180003807600001c01800000006000000030000000fe00703061c00c07070001c000c000730e1800701cc0000730e180;
   0x180010000600000001800fffffe00080019800000006000000018000060060000000180002800600000001800000006001fffff0000000f600303060000c07030001eaabc00033fff8003018c0000330e180;
   0x3fffff800fffffe003fffff800fffffe003fffff800fffffe003fffff800fffffe003fffff800fffffe007fffff800fffffe001fffff001ffffe7003ff060000fff070000ffffc00033fff8003ff8e000033ee180;
   0x3fffff800fffffe003fffff800000000003fffff800fffffe003fffff800fffffe003fffff800fffffe003fffff800fffffe00000000000ffff83803ff0600007fe0300003fff00003f0018003ff87e0003eee180;
   0xffd401000540600001f4070000000000001f00000017d07e0001f00000;
   0x0;
   0x0;
   0x0;
   0x0;
   0x0;
   0x0;
   0x0;
   0x0;
   0x0;
   0x300000000700000370060000018000000060000006004000000700000001c000000070000000601800001c60000001800000006000000000e00000400000000000000020000000001800000000000000000000;
   0x300000000700000f6006000001800000006000000e00e0000006000000018000000070000000601800001870000381818000006000000000600000c7000001808300007e000000001800002aaaaa800fffffe0;
   0x700000000700001c7006000555d55000006000000701c0001fff00000003800000557d4000006018000c1c380001c1838000006000000000700001c7e00001c18300007ffc0000001800003fffff800fffffe0;
   0xe00000000700003fffe6000ffffff000fffff000030180001ffe000007ffffe000ffffe000006018001e18380001c1838000006000000000300000c1f800018183000003fff800001800003fffff800aaaaae0;
   0xe00000000700007fffe6000ffffff000fffff00017d5d0000007000007ffffe000fffff000006018000fdc1c0000e1870001fffff8003ffff00001c07fc001c1830000007ff0000018000000c1818000070060;
   0x3fffffc0000070000006006000001800000006000003ffff8000006000002aaaaa000e06060001fff180003f81e0000e1860001fffff8003ffff80000c037800181830000006000000018000000c1818003fffc60;
   0x3fffffc00000700001fff86000001800000006000003ffffc000ffffe0000701c0000e06070001fffff00007f1f8000718e00000060000000181c0001c0300001c183000000600000001800000ffff98003fffc60;
   0x2aaeaa800000700001fffbfc002abaaa001fffff800381818000ffffe0000300c0000ffffe0001aeaff00001fdbc000218200000060000000180c0000c03000018183000000600000001800000ffff98003800c60;
   0x700000000f00001871bfe007ffffe001fffffc0038181c000e00060000300e0000fffff0001860ff00101dddc00155d540001061000000180e0001c0300001c1830000006000000018000000c5818003800c60;
   0x600000003f00001fff860003ffffe001c00000003ffff8000e00060000380e0000e0606000186018003018180003ffffc000186380000018070000c0300001818300000060000000180000008e818003fffc60;
   0x70000001ff00001fff8600071818e000c1c780003ffffc000ffffe00007c3f0000e06070007c671800381c1c0007ffffc0001c0380000018060001c030001ffffff00155755400ffffff001557558003fffc60;
   0x1e0000003e7000018618600030c38e000e1de0000381818000ffffe0001ee7b8000e0606000786618003ff81800000180000018038000001800003fffffc00ffffff003fffffc00ffffff001ffff98000000c60;
   0x7f000000fc700001fff8600070c70e00061dc700038181c000e00060003c771c000fffff000fc7718001ff81c0000018000015d57d400ffffff003fffffc001c1830003fffffc00555d55001ffffd8003fffc60;
   0x1f6000003e0700001fff8600032ea8e00000c1e000381818000e000600070380e000ffffe000d8731800000218000001800003fffffc00ffffff0000c03000018183800000600000001800000003818003fffe60;
   0x7c7000007c0700001f718600077ffce00000c3c0003ffffc000ffffe000601c07000031c0000dc739800000600000001800003fffffc00ffffff0001c0300001c1838000006000000018000007ffc18003333e60;
   0xf8600000300700000b208600032ba8e00000c200003ffff8000ffffe000001800000030e0000d8319800000600000ffffff000180180000018000000c038000181838000006000000018000003ffe18003333660;
   0xe0700000000700007ffff600070180e003fffffc000018000007fffe000ffffff0000307f001dc39d800155755400ffffff0001c0180000018000001c0380001c183800000600000001800000701f98003fff660;
   0x80600000000700003fffe600030180e003fffffc0000180000000600000ffffff0000301e0018c1898003fffffc00001800000180180000018000000c03800018181800000600000001800000301bd8003bbb660;
   0x700000000700007ffff600077ffee00000700000ffffff003fffffc00ffffff003fffffc001c1c18003fffffc000018000001c01c0000018000001c01c0001c181c00000600000001800000701d98003333760;
   0x6000000007000003038600037ffee00003380000ffffff003fffffc00001800003fffffc000c0c18000006000000018000001800c0000018000000c01c00018181c000006000000018000003ff818003b33360;
   0x70000000070000070f0600070180e0001fbc0000001800003fffffc00001c00000030000001c0e18000006000000018000001c00e0000018000001c00e0001c181c000006000000018000007ffc18003f33360].
Definition hanzi_rows_19 : list N :=
  [0x60000000070000030e0600030180e0007e1e000000180000000600000001800000030000000c071800000600000001800000180070000018000000c00f00018180e00000600000001800000000018000000060;
   0x70000000070000071c0600070180e001f807f00000180000000600000001c00000030000000fe798000006000000018000001c007c000018000001c0078001c180700000600000001800003fffff800fffffe0;
   0x6000000007000003e0060003f180e003c001f80000180000000600000001800000030000000fe1d80000060000000180000018001c000018000000c003c0018180780000600000001800003fffff800fffffe0;
   0x7000000007000003e0060003f180e0010000780000180000000600000001c000000300000007c198000006000000018000001c0008000018000001c000c001c000300000600000001800000000000000000000;
   0x0;
   0x0;
   0x0;
   0x0;
   0x0;
   0x0;
   0x0;
   0x0;
   0x0;
   0x6000003800000001800000000c0000000000000001c00000000000000020000070000000000600000000000000000000000c0000000380c000000700000001c0000000600000001c00000007000000060000;
   0x60000c3830000001e00000000c0000002aa8000001c0000000e0000000780000ffe80000000f800000000000002aaa00000c2aa8000380c00000060000000180000000600000000c000000070000000e0000;
   0x3ff0070000e1870001ff9fe0007fc0c0001ff3ff80001ffc0001ff9fc0005547f00007ffff0005557f0000fffff80007ffe00000c7ff8000380c000155700000fffc0000155600000001c000000070000000e1fe0;
   0x3ff7ff0000618e0001ff83f8007fc0c0001ff3ab80001ffe0001ff83f8007fe0fc000002ff0007ff0fc000fffff80003aae00000c7ff800039ffe003ffe00000fff800003ffe00000000c000000070000000e1fe0;
   0x3837ff000175dd4001d780780061cffe0018730380001c070001818078007fe01c000000070007ff01c000c03000000700e00000c061800039ffe003fff00000fffc00003ffe000001ffc000000070000000e1fe0;
   0x3830338003ffffc0018398380060cffe0018330380000e0380018180380060e60c0000000300060700c000c03000000300e00000c061800038aea00000600000001800000006000001ffc00003fff0000000e1860;
   0x383031c003ffffc0018398380061c5d400187303800fffffc0018180380060e70c003fffff00060700c000c03000000700e00000c0618000380c000000700000555d5400000600000001c00003fff0000000e1c60;
   0x383030c00000e000018b98b80060c0c0001833ff800fffffe0018180380060e60c003fffff00060700c000c03000000300e00000c0618000380c0000fffff8007ffffe0002aeaa000000c000000070000000e1860;
   0x3837ffc000007000019f99f80061c0c0001873ff800ffffff0018180380060e70c0000000700060700c000c03000000700e00000c7ff8000780c0001fffff8007ffffe0007fffe000001c000000070000003e1c60;
   0x3837ffc00ffffff0019b99b80060c0c00018330380000001b001818ab80060e60c0000000300060700c000c03000000300e00001c7ff8000fbfff000c200380060000e0006aaae000000c000000070000007e1860;
   0x3837ffc00ffffff0019b99b80061dfff00187303800000018001819ff80060e70c0000000700060700c000c03000000700e00007c7558001fbfff001ce07380070000e0006000e000ffffff000007000001ee1c60;
   0x383030000ababea001bb9bb80060dfff001833038000fff18001819ff80060e60c0003ffe300060700c000c03000000300e0000fc6018003b8000000c70f380060fffe0006000e000ffffff000007000003ce1860;
   0x3830318000700f0001b39b380061dfff001873ff8000fff180018180380060e70c0007ffe700060700c000c03000000700e0001ec7018007380c0001c79e380070fffe0006000e000001c000007ffff00078e1c60;
   0x3830318000e0078001b398380060c060001833ff8000c03180018180380060e60c0003006300060700c000c03000000300e0003cc601800e380c0000c3f8380060c00e0006000e000001c000007fffe000f0e1860;
   0x3837f18003ffffc001839c380061c070001871578000c03180018180380060e70c0007006300060700c000fe3000000700e00078c7ff800e395d4001c1f0380070c00e0007fffe000001c000007ffff000e0e1c60;
   0x3833f1800fbffef001839f380060c730001830038000c03180018180380060e7cc0003006300060700c0007e3000000300e00010c7ff800439ffe000c1f0380060c00e0007fffe00000fc000006000600040e1860;
   0x383031801f380e7001839ff80061c638001870638000c031c0018180380060e7fe00030063000607e0c000003000000700e00000c7ff800039fff001c7f8380070d55e0006000600007fc000006000700000e1fe0;
   0x3830318008380e0001838cf80060ce18001ab0e38000fe31c001819e380060e33e0003b863800607fcc000003000000300e00000c0618000380c0000cf3e380060fffe000000060000f9c000006000600000e1fe0;
   0x1f303180001d4e0001fb8e38007dcc1c001f71c380047c31c001f99ff8007ee38e0001f8638007477fe0000030000003f0e00000c0618000380c0001de1f380070fffe000000070007e1c000006000700000e1fe0;
   0x1f363180009f8e0001fb8600007ccfec000f31e3800c0030c001f987fc003ce1800038a0638007e70fe0000030000003f0e00000c0618000380c0000cc07b80060000e00000007000381c000006000600000e0060;
   0x1f37fd8001850e0000f38700003ddfff000073ff800c0030e000f1807c0000e1c000380061c007e701e000003000000000e00000c06180003bdc0001c001380070000e00000007000201c000006000700000e0060;
   0x33ffe001800e00000383c00000d83e000033bf800c0030e0000180080000e0f000380061c00007002000003000000000e00000cfff80003bfff000c000380060000e00000003800001c000007fffe00000e0000;
   0x301fe001fffe00000381f00001d80200007707c00f557070000180000000e07c001fffe1c00007000003fffffc000000e00000cfff800039fff001fffff8007ffffe00000001c00001c000007ffff00000e0000;
   0x30000000fffc00000380f80000c000000030008007fff038000180000000e03e000fffe0e00007000003fffffc000000e00000caaa800038003000fffff8007ffffe00000001c00001c000006000600000e0000;
   0x300000007ff000000380380001c000000070000003ffc030000180000000e00c00055500c00007000000000000000000e00000c000000038000001c000380070000e00000000c00001c000006000700000e0000;
   0x0;
   0x0;
   0x0;
   0x0;
   0x0;
   0x0;
   0x0;
   0x0;
   0x0;
   0x100000000000;
   0x3fffff000fffffe003fffff800fffffc002aaaaa000fffffc002aaaaa000aaaaa8003fffff800fffffc00000000000000000003fffff800aaaaa8003fffff800000000003fffff000000000002aaab800007fff80;
   0x3fffff000fffffe003fffff800fffffc003fffff000fffffc003fffff000fffffc003fffff800fffffc003fffff000fffffc007fffff800fffffc003fffff800fffffc003fffff000fffffc003fbfdf00007fff80;
   0x2aaaab000aaaaae00011803800aaaaac003fffff000aaaaac003fffff000fffffc002aaaab800aaaaac003fffff000fffffc002aaaab800fffffc002aaaab800fffffc002aaaab000fffffc003bbac780003e0000;
   0x15555300007186e0007980380000030c00001c03000070e0c0000000300000001c000071c380060000c0000060300000400c0000100380000001c0000040380000000c0000000700000001c0031b1c1c00707bfe0;
   0x1ffffb0000318ce000e18038002a830c00000c03000060e0c0007fff30003fffcc0003e0c3800607fec0000060300004e00c0000180380000000c00000c0380000000c0000000300000001c0031b0d9800383bfe0;
   0x155d53000031cce003fffff800ffc30c000ffff30007fffec000755730003fffdc000781c3800667fec000007030000ee00c00001c0380055555c00000c0380000000c0007ffe700000001c0031bfd9c001e7b800;
   0x2baa3000030c8e003ffffb800eac30c000ffff30007fffec000600330003060cc002aaaeb80066606c001ffffb0001ce00c00001803800ffffec00000e0380000000c0007ffe300000001c0031bfd980007f9c00;
   0x7ffe3000fffffe00007703800e0c30c000e0073000070e0c0007fff30003060dc003fffff80066666c001ffffb00038600c00001c03800fffffc00000c03800ffffec0007ffe700000001c0031bfd9c0007d8f00;
   0x60063000ffbffe0000e383800e0dffc000e0073000060e0c0006aab30003aeacc002aaeeb80066666c000aabab00010600c00001803800000c0c001ffffb800ffffec000600e300000001c0031b0d98003e18380;
   0x7ffe3000c5830e0007c1e3800e0dffc000ffff3000fffffc000600730003fffdc00070cc380066666c000071c3000ffffec001ffff3800001c1c001ffffb80001c00c000700e700000001c0031b1d9c00fc1f1f0;
   0x6aae30006fb32e003f00fb800ffc38c000ffff3000ffffec0007fff30003060cc00038cc380066666e000030c3000ffffec001ffffb800000c0c001c0e0380000c00c000600e300000001c0031bad9800401f070;
   0x755630006ef36e003fffff800ffc78c000e007300055554c0007fff30003060cc0001fcc380066666c000070e300055f54c001ffffb8003ffc0c001c0e0380001c00c000700e700000001c0031bfd9c001ffffc0;
   0x7ffe30006ef32e0006bab7800e0c7cc000e007300000000c000000030003060cc001c3cc380066666e000fffe300000f00c000018038003ffc0c000c060380000c00c000600e300000001c0031aad98001ffffc0;
   0x700630004e336e00061831800e0cfcc000ffff30001fff8c0007fff30003fffcc00070cc380066666e001ffff300001f00c00011c038003ffe0c001c060380001c00c000700e700000001c003181d9c001555540;
   0x7ffe30000e332e0007fff3800e0dbee000ffff30001fff8c0007fff30003fffcc0003ece380066666e000abae380001b80c00039803800380e0c000c060380000c00c0007f8e300000000c00318cdf8000aaaa80;
   0x7ffe38000e3fe60007fff1800ffdb6e0000180380018018c0001f00300000600c0038fc618006666660000700380003b80c00071c0380018060c000c070380001c00c0003f0e300000001c00319ddfc000ffff80].
Definition hanzi_rows_20 : list N :=
  [0x3838000e3fe600061831800ffc33e000018c380018018e000038038002aea8e001c1c618006666660000300380003180e000e180180018060e000c030380000c00e000000e300000000c003198c9c000eaab80;
   0x3ffc18001f330600061831800e0c33e000399c18001fff86007fffff8007fffce000f0c71800666666003ffffd800071c0e001c1c0180018070e000c038180001c00e003000e380000000c003d9dcc4000c00180;
   0x381f98001b03060007fff1800e0c316000718e18001fff86003ffffd8003fffc60023ec31800620b06003ffff98000e0e060004180180018030e000c018180000c006003000e380000000e003dbfcc0000ea8180;
   0x1f7bdc003383870007fff1c00e0c317000e1871c00180187000018018000060060070fc39c00601f0700157555c001c070700001c01c001c0386000e01c1c0001c007003000e180000000e0015b7c6000cff8180;
   0x7e09c0071818300001800c00eac303001c1839c0018018700001801c0000600700301ff8c00603b8300003001c0038038700001801c001c01c6000e00e1c0000c007003800e18000000060001b1e7000e000180;
   0x5ffc1c00e1e1e300001800c00ffc3030038181dc001fff8700001801c01fffff7003ffd9cc006071e300007001c00f001c7003ffffdc001fc1e70007f079c0001d407003fffc1c000000070001f0438007555780;
   0x3fe3fee00e0f0f380001800e00eac30380181f88e001fff8380001f80e00fffff3803ffc0ee007ce0f380003000e00e000f3803ffffce000fc0f38007f03ce0000fe03801fffc0e0000000380018001c007ffff80;
   0x3f007cc00c0606100001800400e0c30100001f0000018018300001f80c000000020017f0044007c402100007000c004000630000000040007c0630001f018c00007c0300055500c0000000200018000c0017ff400;
   0x0;
   0x0;
   0x0;
   0x0;
   0x0;
   0x0;
   0x0;
   0x0;
   0x0;
   0x70000107000001c0000000000000000003800000000000000000000000000000060000001c0000000000600000001800000000000000000000000180000000000000000000000000000000000000;
   0xffdff8000000600001871c0003fe000000000000000003800000aaaa80000000000000000000060300003fe000000008f00000023c00000ffff00002aaaa80000180000000300000fffffe003fffff800fffffe0;
   0x1ffdff8007ff0700003871c0001ffff8001ffdffc000003800000ffff800155554000fffff8007fc77f0007ff9540003c7800000f1e00000ffff00003ffff80000180000000700000fffffe003fffff800fffffe0;
   0xc00c00007ff0600007070c00000fff8001ffdffc0000038000007fff8003ffffe000fffff8007fc67f00184bbf8000f01e00003c0780000eaab00003ffff8000018000000030000000000e002aaaab800aaaaae0;
   0xe38c7000606ff0000e070e000000058001d5dd5400ffffff000070300003ffffe0006000e00066067f001c677fc001ffff00007fffc0000c0070000300c00003ffffc000003800004018ce0000000380030000e0;
   0x6f8ef00060efe000000306000000018001818c0000ffffff000060300001800380007000e000660e00000cc6000003ffff8000ffffe0000c0030000300c00003ffffc00000380000fa18ce003ff7fb800307ffe0;
   0x7e07c00070c070003fffff000000018001c1cc0000ffffff000070700001c04300007001c000fff400000cce00000701ff8001e05fe0000ffff0000300c00003ffffc000001c0000fffffe003ff7fb800307ffe0;
   0x3807800070c060003fffff000000018000c18c1800000180000030780000c0e300003001c000ffe000003fff80000000600000801c00000ffff000037fff800001800000001c000003fffe0006061b80030000e0;
   0xfe0fc00070c070001555d70001ffff8000c18c1c000001c0001ff0700000c1c700003801c000660000007fffd5400555755001555d54000c007000037fff800001800000001c00000398ce0006661b800ffc00e0;
   0x1ef9ce00030dfff000001800001ffff8000c38e38000001c0001ff8f80000e3860000180380007fef7f003019ffc00ffffff003fffffc000c0030000300c0000001800000000e00000398ce000667fb800ffbfee0;
   0x1c3e87c0031dfff000001c00001ffff8000e30670001fffc0001c00f80000770e00001c0700007fef7f007019ffc00ffffff003fffffc000ffff0000300c0000001800000000f0000039fce000777fb800ffffee0;
   0xc018003980e00007ffc00001c03980006306e0001fffc0000c00f80000320c00000e070000060c0c000aba060000381c00000e0380000ffff0000300c0000ffffff00008070000ab9fce0003361b80030306e0;
   0x1ffdffc001980e00007ffe00000c03180007707c0001c01c0000e01d80000381c00000f0e0000e67c0c001fff070000770e00003c03c0000d5570000700c0000ffffff0001c070001ff98ce0003361b80031306e0;
   0x1ffdff8001b86e0000700e00000e0718000760780000e03e0000e0398000018380000070e000066ec2e000aba1b0000e3c78000ffffe0000c00300003ffffc00ffffff00038038000bb9fce003ffffb80031b06e0;
   0x1d5dd54001f0eec000301f0000070718000360380000607600007039c00001c700000039c00003fcc3600001c330007c1ffc003fffffc000c00700007ffffc000007000003801c000319fce003ff7fb80033bfee0;
   0xe18c10000f0cee000383b8000070e180003e0780000706600003871c00000ee0000001f800001f8c66000ffc33800f983ff003c0003e00ffffff000300700000183800003001c0003398ce0003801b800333fee0;
   0x630e78000f1ce60001c73c000039c1c0001c078000078e700003cf1c000007e0000001f000003fcc66001ffc71800e1f04700100001c00ffffff000700700000381c00007001e0003198c60007819b8003718460;
   0x7306e0000f18e60000ee1c00001f81c0001c0fc000039c380001ce0e000003c0000000f0000036ec62000e1e79800007c020002aaa800000038000060c380000700c00006000e00031fff60003839b8003618c60;
   0x7707c0000f18e70000fe0f00001f01c0001e1dc00001f8380000fc0e000007f0000001fc0000667cf300063e7fc001c1fc00003fffc0000381c000271c1c0000e00e0000f400700031fff60007c319800301cc60;
   0x3e0780001f98e300003c0780000f80c0003f1ce00000f01c0000780700001ef80000079e0000460cff0003736fc000e03e00002aaa80000700e00066380c0000e0070000ffffb8003180060003e7d9800300cc60;
   0x1e0fc0003dc0e300007e07c0003fc0c0007798700001fc1e0001fc0780007c3e00001f0fc000079edf8003e3c040007c040000000000001e007000667d060001fd038001fffff80031ccc7006777fdc00300dc70;
   0x7f1ce00038e0e00003ef81e000f9f0e000e1e838000ffe0e0007ff038003f80f80007e03e00000bf410003e1c000003f800000000000001ffab8002effff0003ffffc001c00bf80030d8e300233e3dc00307e030;
   0x1f7c87800f078f4001fc7f0c007f07f7001c1f03c007f0fc7807f87f1c01fe007f007f801fc01fff380000ffde0000007fc0001fffff8003ffffc007dc7ff00077fffc0018000000030d87300773c1dc00307ff30;
   0x3c1e03c00e038fc003e00f80007801e700380781e00fc03e2003e01f0c00f8001f003e0003c00ffe180007e3f40000000ff8001fffff800700bfc003dc00300070003c0008000000030e03b803e0e00e003e03f38;
   0x100600c00c0187c003c007000040006200100100c007000600010006000040000700100000c00ff0100003006000000001f0000000000006000000018000000010000000000000000304011001c0400c001e00030;
   0x0;
   0x0;
   0x0;
   0x0;
   0x0;
   0x0;
   0x0;
   0x0;
   0x0;
   0x1c000000000000000000000000000000000000000000001c00000060000000000000015554000001800001c001c00000000000000030000001c000007c0000000000000;
   0x20000000000000001c0000000000000000000000000000000007fffe0000000c0000006000000000000003fffc000001880003fe0980002aa2aa00000038000001800000fffa0000000fff0;
   0x3fffffc01ffffff00031c7fc003ffffe001c1cff8001ffffc001ffcffc00fffeff0007fffe0000000e0000006000000000000001d5740003fd9f0000ffd9cc007feffe001ffc780000038000001ffff800000fff0;
   0x3fffffc00fffefe00038c3f8003ffffe001c18ff8001ffff8001ffcff800fffefe0006aaae0000000e0000006000003ffffc0000fff80003fd83c00003d998003feeae003ffcfc000ffffff000202bf800fffbae0;
   0x70000001ffffff00030c7fc00380600001c1cff80018001c00180ce1c007ffeff000600060007ffff0000006000003ffffc00007f4000030180c00000ddd800700e0e003ffdce000ffffff000707060007ff30e0;
   0x600000000600c600030c31800380600001c18e180018001800180ce1800e0c0c6000600060007ffff0003fffffc0030000c0003e3fe00030180c00000cdb800300e0e00181b8700000c3000007060e00060e30e0;
   0x700000000601c700030c71c00380700001c1ce180018001c00180ce1c0060c0c700060006000600038003fffffc0030000c0005555d0003fd9fc00000c7f000700e0e00181f03c0006c3700003861c00060c30e0;
   0x600000000600c600030c31800380380001c18e180018001800180ce180060c0c6000600060006000380000060000030000c001ff9ff8003f99fc001aac18000300e0e00183bffe000ec3380001861800060c3fe0;
   0x70fff0000601c700030c71c001803c0001c1ce180018001c00180ce1c0060c0c70006000600060001c0000060000030000c000e39c700035595c003ffdffc007feffe001c33ffc001cc318003fffffc0070c3fe0;
   0x60ffe0000600c600030e318001801c0001c18e180018001800180ce180060e0c60007fffe00060000e0000060000030000c0007f87e00030180c001abcffc003feffe001c303800038c31c003fffffc0030c30e0;
   0x70c070000601c700030e71c001fe0f0001c1ce180018001c00180ce1c0060e0c70007fffe000607fff0000060000030000c0007f07e00030180c00183dffc0000000e001c703800070c30e00380001c0031c30e0;
   0x60c060000600c600030e318000fe078001c18e180018001800180ce180060e0c600000700000607fe78000060000030000c001e7defc003ffffc00183c1800000000e000c703800060c30600380000c0031830e0;
   0x70c070000601c700070671c0007c03f001c1ce18001ffffc00180ce1c006060c7000007000007060730005575400030000c001fffffc003ffffc001c7c1c0007ff55e000e77ffc0000c30000395555c003983fe0].
Definition hanzi_rows_21 : list N :=
  [0x60c060000600c6000606318000aaaaf001c18e18001ffff800180ce18006060c6000003000006060600007fffe00030000c001fffff800001800000c6c1c0007ffffe000e67ffc000aaaa8002bfffc8001b83fe0;
   0x70c070000601c700070671c001ffff9001c1ce18001ffffc00180ce1c006070c7001fffffc007060700007fffe00030000c00180001c000ffffc000eedffc00757ffe0007e0380001ffffc0003fffc0001f03fe0;
   0x60c060000600c6000606318001ffff8001e18e180000000000180ceb8006070c6000fffffc006060600006000600030000c0019fff98001ffffc0006cfffc0030600e0007c1380000eaaf80001c0380000f030e0;
   0x70fff0000601ff0006077fc00180038001ffcff80000000000180cffc007070ff000c03800007060700006000600030000c0011fffd0001ffffc0007cfffc0038c00e0003c1bb0000700e00001e0700000f030e0;
   0x60ffe0000600fe000e033f800180038001ffcff80003838000180cff8006030fe000c01800007060600006000600030000c000180180000f00e00003860c00038c00e000383bb8000381c00000e0e00000e0f0e0;
   0x70007000060157000c037fc00180038001c7e018000781c0001fcc01c00703857000c01c0000707ff00006000600030000c0001fffc0000781c00003860c0001dcffe0003c73980001c3c0000079c00000f1ffe0;
   0x60006000060006000c0381800180038001c0c018000f00e0001f8c01800701806000e00e0000307fe00006000600030000c0001801800001e7800007c60e0000f8ffe0003e63980000ff0000001f800001f83ff8;
   0x70004000060007001c0381c00180038001c00018001e007000050c00000701c07000e0070000700070000600060003ffffc0001fffc00000ff00000fc70700007000e0007f639c00007e0000001f800003dc31f0;
   0x60000000060000003801c0000180038001c000000038003800000c00000300e00000e003c0003800600007fffe0003ffffc0001aab800000ff80000ee3870001fc00e000e7838e0000ff800000fff000039e3000;
   0x7540000007f000007801c00001ffff8001c000000070001e00000c000003f87000007101f0003d40000007fffe00030000c0015d55d4005ffffc003c7bc38007df00e003c3c380001fe7fc001ff1ff000f0f3000;
   0x3f80000007f000003000c00001ffff8001c0000000e0000f00000c000003f83800007f007c003fc0000006aaae00030000c003fffffc00ff80ff00383dc3c00f07c0e00381e3e000ff00ff003f803fc00e07b000;
   0x3f80000003f00000100040000180038001c000000060000600000c000001f81000003f0018001fc00000060006000000000001555554007c001f00101881800c0180e0010041e00070001f001c00018004033000;
   0x0;
   0x0;
   0x0;
   0x0;
   0x0;
   0x0;
   0x0;
   0x0;
   0x0;
   0x6000000030000000600000000070000001c000000000000000000000000000000003000000000000000000000000000000000400000000000000000380000001800000010000000006000;
   0xaaaaa8001ffff8000006000000038000000e00000000038000001c000002aa8000002aa0000000000000003000000000000000000000000ffff8000060000002aaaaa0000038000000180000003800000000e000;
   0x1fffff8001ffff800000600000003c00000070154000003c000001c3fc00fffcff0007fe7fc005555fe0000307fc003fff00001fffff8001ffff8000060000007ffffe00000180000001800000038000000007000;
   0x1fffff8001eaab800000600000007e000000303f8000fffc000000e3f800fffcfe0003fe7f8007ffefe0000303f8007ffeaa000fffff8000c00380000607f8007ffffe000001800000018000000383f8000183800;
   0x1800018001c0038003fffffc0000ef000000383fc001ffff0003ffe3fc000300ff0007067fc007ffffe0000307fc007fffff001c00000001c00380000607fc0000000e000001c00007ffffc0000387fc0003c1c00;
   0x1800018001c0038003fffffc0001c780000038318000e00f0003ffe318000300c6000306618006000c600003031800300cff000c00000000c00380000606180000000e003fffffc003ffffc001838318000780e00;
   0x19fff98001c0038000006000000783c000041c31c000781fc00155731c000300c700070671c007001c6003ffff1800301cc7001c7fff8001d557800006071c0000000e003fffffc007ffffc001c3871c000f00700;
   0x19fff98001c0038000006000000f00f0000e0c3180003c39e000003b18000300c6000306618006000c6003fffb18003818c3000c7fff8000ffff8000060618000fff0e000000e000030180c000e38318001e00380;
   0x1800018001ffff8000006000007c007c000f0e31c0001f70f000001f1c000300c700070671c007601c600383071c003818c7001c7fff8001ffff800006071c000fff0e0000006000070180c00073871c003ffd3c0;
   0x1800018001ffff800000600000ffffff00070731800007e02000001f18000300c6000306618006700c6003830318001818c3000c0000000000000003fffe18000e030e0000007000030180c0003b8318003ffffe0;
   0x185541800001800001fffff000e7ffef0007ff31c00007e00001ffe31c01fffec700070671c007781c600183071c001c38c7001c0000000000000007ffff18000e030e0000007000070180c0001f871c00717ffc0;
   0x18ffe1800001800000fffff0000000020003ffb180001ff80000ffe31800fffec6000306618006380c6001838318000c30c3000c3ffe000ffffff002aeae18000e030e000000380003ffffc0000f8318006000000;
   0x18fff1800001800000000000000000000001ffb1c0007c7f000078031c01fffec700070671c0071c1c600183871c000c70c7001c3fff000ffffff00006071c000e030e000ffffc0007ffffc00007c71c000000000;
   0x18e0218003ffffc000000000000000000000e0318007f00fe0003c0318000300c60003066180070e0c6001818318000e70c3000c38060000000e0000060618000e030e000ffffc0002abaa800003e318001ffff80;
   0x18e0718007ffffc000555540001ffff00000e031c01fc003f8001f031c000300c700070671c007071c600181871c000760c7001c38070000000e000006071c000e030e000ffffe000001c1000003ff1c001ffff80;
   0x18e02180030180c0007fffe0000ffff000007031800effff3000070318000300c6000306618003038c60018183180007e0c3000c38060000aaae0000060618000eab0e000e003700000183800003bb18001ffff80;
   0x18e07180070180c0007fffe0001c00300006783fc000ffff000003c3fc000300ff0007077fc00701dfe001c1c7fc0003c0c7001c38070001ffff00000607fc000fff0e000e0037800001c700000387fc001c00380;
   0x18eaa180030180c0006000e0000c0030000e383f8000c003000001c3f8000300fe0003077f800300efe00180c3f80001c0ff000c38060000ffff00000607f8000aaa0e000e0033c00000c600010383f8001c00380;
   0x18fff180070180c0007000e0001c0030001c1c01c000c003000100e15c0003005700770755c00700c06001c0e7fc0003e0ff001c3fff0000c000000006001c0000000e000e0031c00000fe000703801c001c00380;
   0x18aaa180030180c0006000e0000c0030001c0e018000c00300070070180003000600230381800300006001c0e0180007e003000c3ffe0000e00000000600180000000e000e00300000007c0003038018001c00380;
   0x18007180075180c0007000e0001c0030001fff014000c003000700381c0003000700770381c00300006001c0701c000f7807001c00070000e00000000600140000000e000e0030000000fc000303801c001c00380;
   0x1800218003e180c0006000e0000ffff0003fff800000c003000300380000030000002301c0000380000000c03800003c3e03000c00060000e00000000600000000000e000ffff0000003fe0003038000001ffff80;
   0x1800018001e180c0007fffe0001ffff000387f800000ffff0003fff80000035000007f01e00003fc000000f43c00007c1f00001fe00000007040000006000000fffffe000ffff00017ffcfe003ff8000001ffff80;
   0x1f80018000018000007fffe0000eaab0003000800000ffff0003fff0000003f000003f00e00001f8000000fe1e0000f00780000fc00000007f80000006000000fffffe000eaab0000ffe03f003ff0000001eaab80;
   0x1f80018000018000007000e0001c0030001000000000c0030001ffc0000001f000001c00400000780000007c0c00004001800007c00000003f80000006000000000000000e0030000fc00070007c0000001c00380;
   0x0;
   0x0;
   0x0;
   0x0;
   0x0;
   0x0;
   0x0;
   0x0;
   0x0;
   0x6000000000000000000000000040000001c18000001c0000000600000000000000000700000000000000000000004004000000000000000000000040000000001c000000600000000180000040000000000e000;
   0x6000000000000002aaaaa80000e0000000c380000098000000060000002aaaaa000006000001ffff800000000000e00e000002aaa8000aaaa00000f0000000000c0000006000000001800000ff8000000007000;
   0x6015400fffc55003fffffc0001c0000001c39fc001dc0000000f0154007ffffe00000e000001ffff8000fff15400e00dff0007fffc000ffffff000ff03fc00000e000000603fc00555d550007ffff0000557800;
   0x601f800fffcfe003fffffc000380000000c3bf8003981fe0000f83f8007ffffe003fffffc00180e00000fff3f800701cfe0003fffc000ffffff0001ffbf800000e000000603f800ffffff00002ffe0001fff800;
   0x3fffdfc00e31cff00001e0000007007f0001c3bfc0071c1ff0001dc3fc00001c00003fffffc00180e000006003fc007039ff0007000c00001c0ff00007fbfc005557540000603fc00ffffff000000170001fffe00;
   0x3fffd8800e30cc600000f000000e007e0000c3b0800e1818600039c38800000e0000038038000180e00000606308003830860003000c00000c0c3000060b18007ffffe00006030800001800000000060000e00f00;
   0x6019c00e31cc7000067c00000c00670011c3b1c0041c1c700070e39c00000e000001e070000ffffff00060631c001c71c70007000c00001c0c300007031c007ffffe00006031c00001800000000070000f007c0;
   0x6018800e30cc60000f7e00000c60620038c3b0800018186000e37388000006000000f0e0000ffffff000606308000e60860003000c00000c0c300006031800600006000060308003ffffc002aaaae00007809e0;
   0x1c6199c00e31cc70007c6f8000006067001dd7b1c01ffffc7003c73f9c00ffffff00007dc000018070000060731c0007e1c70007fffc00007c0c300007031c00700006001fffb1c003ffffc003fffff00003c1ce0].
Definition hanzi_rows_22 : list N :=
  [0x186198800e30cc6000f863e000006062000effb0800ffff860038e1f8800ffffff00001f80000180300000606308000300860003fffc0000ec0c300006031800600006003fffb080030180c003ffffe00001e3800;
   0x1c6199c00e31cc7003e061fc007066670007ffb1c01ffffc70010c0f9c0001c1c000001fc00001d57d400070731c000381c60007fffc0001dc0c3003f7031c0071ffc6003fffb1c0030180c0000000700000ff000;
   0x186198800e30cc600380603c006066620003c3b08000381860000c0388000381c00000fff00001ffff8000703308000380860000000000038c0c3003ffa3180061ff860000603080030180c00000006000003e000;
   0x1c6199c00fffcc700100601c006066670001c3b1c0003c1c700000039c000700e0001ff0ff0001ffffc003fff318000381c70000000000071c0c30007fff1c007181c600006031c0030180c00000007000001f000;
   0x186198800fffcc600000600000e066620000c3b080003c186001fffb88000e0070003f801fe000000c0003fff308000380860000000000060c0c300006ff1800618186000060308003ffffc000fffe70002aafe00;
   0x1c6199c00fffcc70007fffe000c066670001c3b1c0003c1c7001fffb9c003ffffc003c0007c000000e000380031c000381c7000fffff00001c0c300007031c007181c600006031c003ffffc001fffe70003ffffc0;
   0x1aeb98800e00cc60007fffe000c066620000c3b080003c186000e0038800fffffe0007fffe0003ffff000380030800038086000fffff00000c0c30000603180061818600006030800001830000eaae30003fffff0;
   0x1fff9fc00001cff0007fffe001c0677f0001c3bfc0007e1ff0006003fc00fc007f8007fffe0003ffff80018003fc000381ff000c000700001c0ff00007035c007181c60000603fc00001c30001c00670003800ff0;
   0x1fff9f800000cfe0006000e00180667e0000c3bf8000661fe0007003f8008c00330006000e0003800fc001bffbf8000380fe000c000300000c0ff0000603f80061ff860000603f800000c70000c00630003800e00;
   0x1c6001c00401c070007000e00070677f0011c395c000e700700030001c000c00700007000e0003800ff001bff81c000381ff000c000700001c0030070703fc0071ffc600006015c00000ee0001c00630003800e00;
   0x6000801c00c060006000e0003063020030c3808000c3806000380008000c00300006000e0003800e780180000800038006000c000300000c0030070600180060018600006000800000fc0000c00638003800e00;
   0x706001401c01c050007000e0007060070071df81c001c1c070001c0014000c00700007000e0003800e3001c0001400038007000c000700001c00300707001c007001c600006001c000007c0001c00618003800e00;
   0x306000000c00c000006aaae0003060000030ff80000380e000001c0000000eaab00006000e0003800e0001c0000000038000000c000300000c00000306000000600006002aeaa0000003fe0000eaae18003aaae00;
   0x356000000fffc000007fffe0003fe000003fc7c0000f00f800000c0000000ffff00007fffe0003fffe0001c4000000038000000fffff00001c000003ff000000750006007fffe00015ffdfc001fffe1c003fffe00;
   0x3fe000000fff8000007fffe0003fe000003f8180000e003c00000e0000000ffff00007fffe0003fffe0000fc000000038000000fffff00000c000003fe0000007f0006003fffe0000ffe03f000fffe0e003aaae00;
   0x1fc0000001fd0000007000e0001fc00000000080000c00180000040000000c00700007000e0003800e00007c000000038000000c000700001c000000540000003f000600000000000ff0007001c0060c003800e00;
   0x0;
   0x0;
   0x0;
   0x0;
   0x0;
   0x0;
   0x0;
   0x0;
   0x0;
   0x60000000000000000000000000000000000000000300000001000000000180000001c0000000000000006000000000000001000000000180000000070000001c00000003000000300000000004000000c00000;
   0x6000001ffff8003fff80000fffe00000fffff0000308000001a00000000180000000c00000000000000060000001ffff800187f800000180000000060000000e000000030000003e000000000e000000c60000;
   0xc06000001ffff8003fff95400fffeff001fffff0000318000001ffdfc0000185500001c3fc001fff55000060154001ffff800187f954000180ff00000e0000000e0ff0000703fc003ff0ff00000f000000c60550;
   0x1e0e00000180038000003bf800baaafe000001800000318fe0001bfdf80000187e00000c3fc000ffffe0000603fc001800180018603f8000180fe00000e000000060ff0000e03f80003f8fe00001f800000c60fe0;
   0x71effc001c0038000003bfc001c1cff000001c0000031dff0001b819c00fffc7f00000e3fc000c18ff0004603fc001c00180018603fc00ffffff000fffff0000c70ff0000603fc000078ff000079e00001c70ff0;
   0x3deff800180038000003b0800181cc2000000c0000abb8c200019818800fffc66003ffe30c000c18e2000e6638c0018001800186038800fffec6000ffffe0000c38c3003fffb08000038c60000f0f00001830c20;
   0x1fe700001c0038001ffbb1c001c1cc70001fffe000fffdc700019c19c00fffe67003fff31c000e18e7000c6739c001c001800186039c00ffffc7000c00070001c38c7007ffff1c000038c70003e37c0003838c70;
   0x7630000180038001ffbb0800180cc20001fffe000fffcc200018e18800ecce6600380730c000618e2001c6338c001ffff800187f388000180c6000c0006000381cc3000000308000038c6000f8f1e0003018c20;
   0xe6380001ffff800183bb1c001c0cc7000180e0000030fc700018719c00ece76700184731c000618e7001c6339c001ffff800187f39c000180c7000c0007000701cc700000031c005578c7007f1e0fc00701cc70;
   0x1c61c0001ffff800183bb0800180cc2000180e0000030ec200018618800ee6366001863b0c007e18e200386338c00000000001803388000180c6000eaaae0007feec30002aa30800fff8c600380803c00e00ec20;
   0x7860f00000180000183bb1c01fffcc7000180600000307c700018719c00e673e7001c61f1c007f18e7003863b9c0000000000180339c007ffec7000fffff000ffffc70007fe31c00fff8c70011fffe401d557c70;
   0x3f060780000180000183bb0800fffec2003fffffc000302c20001be18800e631e6000c61f0c006038e2003061b8c003ffffc001803388003ffec6000ffffe000e63ec30003ae308001c38c60003fffe000bffec20;
   0x3c07c3c0000180000183bb1c01fffec7003fffffc000301c70001ff19c00673167000060b1c00703ce7001061f9c007ffffc00180339c00301cc7000000070004670c700070e31c001c18c70001d5540003ffcc70;
   0x3c0800ffffff00183bb08001f00c200000000000abaac200018ff88006338660000e030c00307ce2000c61b8c000018000018ffb88003818c6000000060000630c300030e308001c18c60000e00000030e0c20;
   0x7fffe000ffffff001839b1c001f80c700000000001ffffc7000187f9c00631c670000f031c00307ce7001c6039c00001c0000187fb9c001818c7001ffff70000630c700070e31c001c18c7000070000003060c70;
   0x7fffe000aafeaa001f39b08001bc0c200000000000fffec200018618800638c660000f030c0038ece2000e6038c00001c000018e0388001c38c6000ffff70000630c300030e308001c18c60002baaa0003060c20;
   0x7fffe00000ff00000f39bfc001de0ff0007fffe0000301ff00018719c00618e7f0001f03fc001dccff0007603fc00ffffff0018603fc000e70ff001d55770000630ff0007063fc001c1cff0007fffe0003070ff0;
   0x7000e00001db80000039bf80018f0fe0007fffe0000300fe0001861f80061877e0001b83fc000d8efe0007003fc00ffffff0018603f80006e0fe000c00330000638ff0003063f8001c18fe0007fffe0003070fe0;
   0x7000e00003d9c0001039c1c001c78570007000e0000300070071871fc0061c3070001b815c000f860700038001c00007e0000186001c0007c057001c003300046185700170715c001c1c570007000e0003070070;
   0x7000e0000f18e0003039c0800183e020006000e0000300020021860080060e00600039c00c000707020001c000c00006e000018600080003c006000c0033800c61c03002307008001c0c060007000e0003838020;
   0x7000e0001e187c007039c14001c1f070007000e00003000000718701c0070700500071e01c001f87050000f00140001e7000018600140007f007001c0033801c61c0700770701c001c0c070007000e000381c050;
   0x7000e000f8183e003038e00001807800006000e00003000000318600800303800000e0f000003fc38000007c0000003c3c0001860000001e7800000ffff1800c60e00002303800001c0e000007000e000381c000;
   0x7fffe000f0180f003ff8e00001d41000007fffe000030000003f8740000303c00003c07c000079f1c000001fc00001f81fc001875000007c3f00001ffff1c00fe0780007701c00001c07000007fffe0001d0f000;
   0x7fffe000401802003ff0700001fc0000007fffe000030000003f87e00003f1800003801e0000f078e0000007c0000fe003f00183e00000f80f80000c0030e00fe03c0003f00e00001c07000007fffe0001f87800;
   0x7000e0000018000017c0600000fc0000007000e000030000001f03c00001f0000001000c00004010c0000001c000070000700181e00000c00180001c0030c007c01c0001e00400001c02000007000e0000f03000;
   0x0;
   0x0;
   0x0;
   0x0;
   0x0;
   0x0;
   0x0;
   0x0;
   0x0;
   0x1c0000000000000000180000000180000000000000000000000006000000018000000000000000000000000000000000000000000000000018000000504000000000000000e00000001c00000000e180000000000;
   0x3fe0000003ffff800018600000018000000000000007ffe000000600000001c0000007fffe0000ffff8001fff00000fffe00002aaa8000001800000060c000000000000000e00000001c00000000e180001ffff80;
   0x7ff954007ffffc0001871fc0003c055001fff154007ffe7f0005740000001c0000007fffe0001ffff8001fff15400fffe55003fff954000180ff00071c3fc007ffe000000e01fc0001c00000000e1c0001ffff80;
   0x63f9f8003aaab80001831f80003e0fe001fff1f8006aaeff000ffe3f80003e0fe000600060000c0038001aab3f800aaae7f003fffbfc000180fe002eaebf8007ffefe0000e03f80001c00000000e0c0001c00380;
   0x6319fc0070181c0001831dc000770ff001c371fc00600eff000fff3f8000770ff000700060001c0038001c033fc0003067f000003bfc000180ff003fffbfc0000c0fe0000e03fc0001c0ff000ffffe0001c00380].
Definition hanzi_rows_23 : list N :=
  [0x63198800301818000183988000e70c600183318800600ee3000c06318000e38c2000600060000c00380018e330800030663000c03b8c000180c6003fffb180000c0c60000e0398002beafe000ffffe0001c00380;
   0x63199c0073ffdc003fe199c001c38c7001c6319c00600ee7000c07318001c1cc7000700060001ffff8001c6331c00030667001c1fb9c000180c700071c31c0000c0c6003fffb9c007ffee700000e070001c00380;
   0x6319880033ffd8003fe998800381cc6001cc3188007ffee3000c0631800380ec20007fffe0000ffff80018e330800038663000e3bb8c00fffec600060c3180000c0c6003fffb98007ffee200000e038001c00380;
   0x63199c0070181c003199d9c0070dec7001dc319c007ffee7000e0731800f00fc70007fffe000000000001c6331c007ff667000e73b9c01ffffc700071c31c0000c0c60038e3b9c0001c0e700000e01c001ffff80;
   0x6319880030181800319cd8801e1c7c6000c0318800000ee3000fc631800eaabc2000006000000000000018e330800ffe663000663b8c00abaac600000031800aaeac60038e3b980001c0e200000e000001ffff80;
   0x63199c0077fffc00318ff9c00c383c7007fffd9c0000eee70007c7318005ffdc7000006000003ffffc001c6331c007ff6670007e3b9c0003c0c7001fff31c01ffffc6003863b9c0001c0e7003fffffc000000000;
   0xe319880037fff800398ff88000100c6003fffd880000eee3000006318000ffcc2000aaeaa8003ffff8001863308006386630003c3b8c0003c0c6000fff31800ffffc60038e3b980000c0e2003fffffc000000000;
   0xc3199c0070001c00318619c001554c7001c1319c0070eee7000007318001c1cc7001fffff8003d555c001c6331c006186670003c3b9c0003c0c700078031c000360c60039f3b9c00ffffe7000000000007ffffe0;
   0xc319880030000c003986188003ffcc6000c3b1880078eee3003ffe318000c0cc2001aafab80038001800186330800618663000383b8c0003c0c60001c0318000360c60039b3b9800ffffe2000000000003ffffe0;
   0xc31d9c0073ff9c0039c319c003ffcc7001c7319c003ee6e7003fff318001c1cc7001c0703800381c1c001c6331c006186670007c3b9c0007e0c70000e031c000370c6003bb3b9c0001c0e70007fffc000555d540;
   0xc319880033ff8c00388f988001800c6000ce3988000fe6e3003800318000c0cc200180f83800381818001863308006186630006e3b8c0006e0c6000070318000370c6003b3bb980003c0e20007fffe0000018000;
   0x1cf9dfc0073818c0019dd99c001c00ff001dc19fc0003e6ff0038003f8000fdcff001c1fc3800381c1c001c733fc0061c67f000e73bfc000e70ff0000383fc000370fe003f1fbfc0003e0ff0007fffe000001c000;
   0x1898df80033818c0038d8df8000e00fe000c019f80000e6ff003aaabf8000fccfe001879e38003818180018333f80061c67f000c33bfc000c70fe00001c3f8000338fe003e1fbf8000760fe0006000e0003ffff80;
   0x1d98c1c0073818c0018dfffc00073807003fff81c0000e757001fffc1800251cff001df0f3800381c1c001cb301c0071c707001c3f81c001c385700100e3fc00033806003c0f95c000770070007000e0003ffffc0;
   0x1998c080033818e0018fff080003f806003fff80800c0e303001aaa81800600c020019c07f800382e180003b80080060c30300081f80c0018380600300601800031c06003803818000e38020006000e0000018000;
   0x3bdce140073ff86001871f1c0001f005000c0001400c0e30700180000000601c07001d801b80001ef1400079c0140070e30500000b8140038fc0700300701c01c31e0000380381c001c1c070007000e000001c000;
   0x3bfc6000032ab860018600000003c000000e0000000c0e38000180000000600c00001800038000fe3c0000e0e000003063800000038000071ee0000300300000830f0000380380000380e000006aaae0000018000;
   0x737e70000700187001f3000000078000000f6000000ffc180001d00000007ffc00001d40038007f01fc001c0fc00003f7380007fff80000f3c700003fff00001ff0780003d0380000f00f800007fffe000ffffff0;
   0x320c300003f0003800f38000000e00000007e000000ffc1c0001f80000003ff800001f8003800f8007f003803e00003e3980003fff80000e383c0001ffe00000ff03c0001f0380000e003c00007fffe000ffffff0;
   0x200001f0003000510000000400000003c0000007f8080000f8000000155000000f800380060001e001000c00001e110000000000000c101800007f400000540180001f0380000c001800007000e0000000000;
   0x0;
   0x0;
   0x0;
   0x0;
   0x0;
   0x0;
   0x0;
   0x0;
   0x0;
   0x4000000180600000700000000040000001c00000018000000018000000070000000e00000000000000000000000001800000000000000380000000000000000000000000300000000000000060000000438000;
   0x3e0000001806000007000000000f8000001c0000001800000003c000000030000000e000000aaaa00000aaa00000003800001f8000000038000000000000002aaa0000000300000000000000060000000638000;
   0x1fc00000018570000030150005547ff00001c55000018000001c78000000030550010e100000ffff7f000fff3fc00007c00001fffc0000038055003fff954007ffe7f003fe300001ffffff0000603fc0006387f0;
   0x3e000000039ff80000383f8007fe07f00000e3f8000180fe000ce00a8007ff8fe0018e31fc00fffe7e000fff3f80000fe000000ff9f8000380fe003fffbfc007ffe7e003fe30fc00fffefe0000603fc0006387e0;
   0x1c01fc000f9ffc00031c3fc007ff061007ffe7fc007ffcff000dc01fc007ff8ff0018e31fc0007077f000c073fc0001e7800000611fc00fffefe0001c03fc0061867f0030c31fc007000ff001fff3fc000638670;
   0x1fc001f8e1c00070c31800606060003ffe318007ffce2000e801f800601ce20018e318c00020262000c03308000383e000186118800fffee60000e038c006186660038cba8c003000c2001fffb0c000638620;
   0x7f99c0079861e000e0e31c00707060007fff71c00718ce7000e1819c00700ce70018e319c00070767000c0731c001f01f0001c6399c00e386e700006039c006186670038dffdc007000c7001fffb1c00463b670;
   0x7f98c0071873f000c0631800606060000063b1800618ce200061818800600ee20018e318c002aa262000c03308007ffffe000c6318800e386e600007038c006186660038dfe8c0033fcc200006030c00e63b620;
   0x107019c006187f2001c0731c00707fff000073f1c00718ce700071819c0077ffe70018e319c007ff767000fff31c01f9ffdf000c6719c00e386e700017039c007ffe670018d99dc0073fcc700006031c00767b670;
   0x386018c000183e0003fffb1800606fff000061f1800618ce2000b181880063ffe2001aeb18c006ab262000fff30800e00007000e6618800ebaee60003f838c007ffe660018d988c00330cc200006030c003efb620;
   0x1cf559c000183e0003ffff1c00707070003ff0f1c00718ce7001f9b19c00771de7001fff19c00673767000c0731c0000000000066619c00fffee700077c39c006186670019d9ddc00730cc700006031c001efb670;
   0xeefd8c00003ff0007003b18006060f0003fe031800618ce2001b9b18800630ce2000aea18c00623262000c03308003fe3fc00066618800ebaee6000e6e38c00618666001998c8c00330cc2003fffb0c000e3b620;
   0x7ffd9c00ffff7c00100031c007071f800007071c00718ce70019d999c00771ce70000e019c00673767000c0731c003fe7fc00046019c00e386e7001c6739c00618667001d9cddc00730cc7003ffff1c00063b670;
   0x3ee18c007fe81f800000318006063f800006031800ffffe20038d998800630ce20038e198c00623262000c033080030630c003fffd8800e386e6003863b8c00618666000d8cc8c00330cc20000f030c00063b620;
   0x1f619c00000007001fff31c0070777c00007071c01ffffe70030f999c0077fce70038e199c00673767000c0731c0030670c007fffd9c00e386e7007061f9c0075d667000d8cfdc00730cc70001f831c00063b670;
   0x3e718c001ffff8000fff31800606e6c000060318000380e20030799880073fce20038e198c00623262000fff3080030630c0000601f800fffee6003060f8c007ffe66000f0fcfc0033acc20001f830c00063b620;
   0x7771fc001ffff8001c073fc0070746e003ff07fc0007c0ff007079dfc007f5cff0038e19dc007f377f000fff3fc0030670c0000601fc00fffeff0000603fc007ffe7f0007079fc0073fcff00037c3fc00063b7f0;
   0x6639fc001c0038000c033f800606466003fe03f80007c0fe003038df8003e0cfe0038e19fc003a327e000c033f80030630c0000600a800ebaefe0000603fc0061867e00070f0ac0032acfe00076e3fc00063b7e0;
   0xe71c1c001c0038001c073fc0070706700007001c0006e00700001c81c00141c070038e19fc00070757000c0715c0030675c00006001c00e3860700006001c0001805700071f01c00700c5700076715c00c63b070;
   0x1c61e0c001c0038000c03018007fe063800060018000e600200181e00800800c020038e180c00020202000c03008003f63fc0000600080003800600006000c00018006000f9b80c00300002000e6380c00c63b020;
   0x7870f1c001c0038001c0701c007ff061000070010001c780000181f01401c01c050038e181c00070707000c0701c003f67fc0000600000003800500006001400018007000dd9c0000700007001c63c1c00c6fb070;
   0x3060780001c0038000c03000006ae06000006000000383c0000181b80000c00c00003fff80000000200000c030000000600c0000600000003800000000000000018000001ce0e0000300000003861e0000c6ff000;
   0x2070100001ffff8001fff0000070706000007000000701f00001ff9c0000fffc00003fff80000ffff00007fffe000000600c00007400000038000007fffc0000018000003870f0000750000003060e0000fe3fc00;
   0x7e000001ffff8000fff0000020606000006000000e00780000ff8e0000fff80000380000000fffe00003fffe000000600000007e00000038000003fffc0000018000003838300003f8000000060000007e03800;
   0x3e000001c0038001c070000000006000007000000c001000007f040000000000003800000000000000000000000000600000003e0000003800000000000000018000001010000001f0000000060000000000000;
   0x0;
   0x0;
   0x0;
   0x0;
   0x0;
   0x0;
   0x0;
   0x0;
   0x0;
   0x70000000000000000600000070180000000600000e000000000700000000000000007000000018000000000000001818000000700000000e00000001c00000000c000000e00000001c000000000000007070000].
Definition hanzi_rows_24 : list N :=
  [0x60000007feffc0000600000030180000000603000e0aa0000006000000aaaa0000006000000218000000000000001838000000600000000600000038c00000000c000000e00000000c000000aa8aa0003030000;
   0xe0154007feffc001861bfc0038385500000707800e1ff7f003fffd5400fffe5500006015400e186ff007fff800001c187f0000e00000000705500078c1fc00000c7f0000e00000001c0ff001ff9ff8007030550;
   0xc03f80060ee0c001c63bf8003830ff003fff1e000e9ff7e003fffdf800fffefe003fff9f800618efe003fffff8000c1c7e0000e02a8003ff8fe000e0c3f800fe0c7e0000e03fc0000c0fe000eb8eb8003038fe0;
   0x7fffbfc0060ee0c001c633dc001c70ff001fff9c000ec1c66003fffdfc0000e0ff003fffdfc00719cc7001c067fc000c1c67003fffbfc003ffcff000c0c3fc00ff0c670000e07fc007fc0ff001c19c38007018ff0;
   0x3fffb880060ee0c000e6339800fffee300183180000ec0c62000060188000ce0e2003aab988003198c2000c06618000e0c62003fffbf800383ce600000c38800e2aee20000e030c003fc0c2000c18c38003018e20;
   0x20439c0060ee0c00066739c00fffee7001c71c0000ec0c67001fff99c001c70e7003001d9c001998c7001c0671c0046ce67003001b1c001c3fe7003ffff9c00e7ffe6007fff71c007fc0c7001c19c3801fffce70;
   0x70c3880060ee0c000666398000180e3000c70e0000ecfc62001fff988003838e20037019880019b8c2000ffe61800e6e662003001b08000e77e6003ffff8800e2eee2003fff30c0000c0c2000eb8eb800fffee20;
   0xe0e39c0060ee0c00076639c000180e7000c7830000edfc67001c7019c00743ce7003ff1d9c001db0c7001ffe71c00776767003001b1c0007e3e7003ffff9c00e7cc670000e071c0001c0c7001ff9ff800701ee70;
   0x1c06388006aee0c000062398000180e30000f83e000ecc662001860188007ffee20001fe188000180c2000c06618003fffe2002000b080003c0e60000cc38800e2ce620000e030c0000c0c2000ff8ff800301fe20;
   0x380739c007feffc003ffff980055d4e70001dc1fc00ecc667001fff99c00fffee700007f19c01ffffc7001c0671c003f3fe7003fffb1c0007c0e70019cc39c00e7ce670000e071c01ffffc70000000000070dfe70;
   0x3a03b88002aaffe003ffff98007ffce300038f03c00ecc662001fff98800c082e200003318800fffec2000c0661800383b62003fffb08000ff0e60018ce38800e2ee620000e030c00ffffc20000000000030dbe20;
   0x370ff9c001000cc0015f579c007ffce7001f07c1c00ecc76700007199c004180e700003019c01ffffc7001d5671c00181866003fffb1c001e7ce7001dce39c00e7c6670000e071c0155d5c70000fff800071dde70;
   0x30c388001980ce0000f8398000180e3003e01e0000eceb62000061988000180e2003830188000e60c2000ffe618000c1c620000e030800f81fe6000cc638800e2e662001ffe30c0000c0c20000fff80003198e20;
   0x31c39c0031c1ce0001f839c000180e700100060000ec7fe7003fff99c000180e7003ff019c000e70c7001ffe71c000c0c670000e031c01f047e7000fc639c00e7e667001ffe71c0001c0c70000d578000739ce70;
   0x3983880070c18e0003ec3f8000180e30007fffe000ec79e2003fff988007ffce2002fff988000e30c2000c066b800060e620000e03080081e1e60006c638800e2e662001aae30c0002c0c20000c0380003318e20;
   0x1f83fc0060e18600036c3fc00ffffff0007fffe000ec717f0018701fc007ffcff00007fdfc000e70d7001c067fc00ff7f7f0000e031c0007c0e70007c73fc00e7667f0018067fc000fc0ff0000c038000771cff0;
   0xf03f800e0638600076601800ffffff0006000e000ec307e0018f81f8002ba8fe0000309f8000e30fe002c062b800ff7f7e0000e0308000e00fe0003c33f800e2667e0018063fc003cc0fe0000c0380003018fe0;
   0xf001c01c07f06000e6701c00ffff070007000e000ec3007001edc01c0001800700003001c000e38ff007ff601c000707070000e03fc000400ff0001c381c00e7670700180601c0079c0570010c018000701c070;
   0xf000800002e06000c63818000180030006000e000e01802001fdc00800018002003030008008e3802003fffc18000000020000e03f8000008060000e380800e2630200180600c00e0c0020030c0180003018020;
   0x3fc01400001e07001c61c00000180070007000e000e01c0700038e0140001800500303001401ce1c07001c7fc14000000070000e001c0000fc070071f1c1c00ff63870018060000041c0070030c01c000701c050;
   0x79e00000003c03007860e00000180000006000e000e00e0000070700000018000003030000008e0e00000c0000000ffff800000e00080003f0060030f8e0000fe6180001ffe0000000c0000030c00e0003018000;
   0x1f0780001fff803003060600000180000007fffe000e40700001f03c0001ffff00003ff000001fc0700001c0000001ffffc00000e001c001fc000003fdef0000e77dc0001ffe0000001c000003fc007c00751c000;
   0x3c03e0000ffe003800060000000180000007fffe000f80380003c00e0000ffff00001ff000000fc03c0000c0000000aaaa800000fc000003e0000003f8470000e23ce0001aae0000000c000003fc003c003f18000;
   0x3000c0000540001000060000000180000007000e000780100003000600000000000007c000000700180001c000000000000000007c00000180000001f0030000001c400018060000001c000001f8001c001e1c000;
   0x0;
   0x0;
   0x0;
   0x0;
   0x0;
   0x0;
   0x0;
   0x0;
   0x0;
   0xc000000001c0c0000060000000180000000e0000001c30000000000000000000000000000000001c0000000600000000000000186000000000000001700000000300000007000000038000000030000000380000;
   0x1fe0000000cc0c00000600000001800000006000000183000003fff80000fffe000003fff800000180000000600000fffe0000018600000aaaa000007f00000000300000006000000038000000038000000380000;
   0x7ff9fc001dc0c00000f015400018055000578150001c30ff003fff80000ffff550003fffc000001800001fff1fc00fffe5500018715400fffe00000f70000000030000000e00000001c0ff00001c000000380ff0;
   0x3f9f80038dffe0000f03f8000180fe001ffc3f8001830fe003aabbfc00aeeafe0003aab8000ffffff001ffb1fc00eaae7e0001831f800fffefe001c600000000387e002aeabf80001c0fe000ffc3f8000380fe0;
   0x19fc0071dffe0001f83fc007ffeff001ffe3fc001c30ff003801bfc000660ff0003801c000ffffff0018c31fc00e1867f0001831fc000000fe003fffff000ffff7f003fffff8007ffcff001ffe3fc00fffeff0;
   0xc0198800e0c0c000039c388003ffee2000e07b18001830c6003801b8c000660e2000380180000000000018c398c00e18662000183988000000c2003fffff000ffff62003ffff88007ffcc6000e0e30800fffec60;
   0x1fc199c0041c0c000071c39c000180e700070ff1c00fffec7003ffdb9c005774e70003801c0000555500018c1d9c00e18667003ffd99c003ffcc7003fffff00000186700003839c00600cc700060f31c000380c70;
   0x7f99880000c0c0000e0e388000180e20003bcb1800fffec6003bfdb8c00fffee2000380180000ffff80018c1d8c00e18662003ffd988003ff8c20000600300006186200001838800600cc600071fb08000380c60;
   0x1f999c00ffffff001c0739c000180e70001f831c001c30c7003801b9c00fffee70003fffc0000ffff8007ffdd9c00f5d6670003c1d9c00301cc700007553000061867000e1c39c00600cc70003b9f1c000380c70;
   0x19998800ffffff003fffb8800abaae20000f8318001830c6003801b8c00e666e20003fff80000c0038003ffdf8c00fff6620003c1f88003018c2001c6ffb00006186200070e388006aacc60001f0b08000380c60;
   0x119999c0055d5550037fff9c00ffffe70001ff31c001c30c7003bf9b9c00e666e7000155540000c00380018c1f9c00fff6670003c1f9c00301cc7001c6ffb00066dc670007ffb9c007ffcc70001f031c007ffcc70;
   0x399998800218000000000b8800fffee20000cff18001830c6003bf9b8c00e666e2000000000000c00380018c1b8c00e186620003e1f88003018c2000e600300066cc620003ffb88007ffcc60001f0308007ffcc60;
   0x1d9999c00718554000000398000180e7003ff1b1c001c30c7003b19b9c00e666e7000000000000ffff80018c1b9c00e186670007e1b9c003ffcc7000e655300066cc670019d7b9c00600cc70007fc31c000000c70;
   0xf9998800318ffe000000388000180e2003ff0318001830c6003b19b8c00e666e2003ff8ff8000ffff80018c198c00e386620007a1988003ff8c200066ffb000666e620038e038800600cc6001f1f308000000c60;
   0x71999c00398ffe000fff39c000180e700383c31c01ffffc7003b19b9c00fe76e7003ff9ffc00257750001ff999c00e7c667000db199c00301cc70007effb000776667001c7839c00600cc7007c07f1c005554c70;
   0x319988001b8c0e000fff388002baae200180e31800ffffc6003b19bac00fe3ee2003818c1800783380001ff99fc00e6c662000db1988003018c20003ec3b000332662000e3e388007ffcc6003ffffa8007ffcc60;
   0x7199fc001f8c0e000e073fc007ffeff001c17bfc01ffffff003b19bfc00e01eff003819c1c003c71f00018c19fc00ece67f001d999fc00301cff0003cc3b00017277f00071f3fc007ffcff001fff7fc007ffcff0;
   0x6199f8000f0c0e000e033f8007ffefe000e7bbf8000000fe003bf9bfc00e006fe003818c18000ee0f80018e180c00ec667e0019999f8003ff8fe0001cc3b8000703fe000383ff8006aacfe000c033f800700cfe0;
   0x619d5c00470c0e000e0701c000180070007f03fc001c7057003bf981c00e00607003819c1c0007c0ff80006181c00fc760700319d81c003ffc070011cffb8000f81c70003c19fc00600c57001c0701c00701c570;
   0xe18c0800878eae000e03008000180020003c0018001c380600381980c00e00602003818c18000380cf00006180000f83e0200718f808000000020021eff98000d81c20003e000800600c06000c0300800700c060;
   0x1dd8c1c01c7cffe000e07014000180050001e001c00381c0700381980000e00605003819c1c000700c100007180000e01605002185814000000000071f0398001dc0c700077801c00600c07001c0700000701c070;
   0x39f8e0000cfeffe000eab000000180000000f800000700e0000380180000fffe00003ff8ff8003e3ec000003180000fffe00000181800000000000033b83980038e000000e3e000007ffc00000c0300000700c000;
   0x787c60000dcf00e000fff00001ffff8000007f00000e00f0000380180000fffe00003ff9ffc01fc3fe000003980000fffe0000018180001ffff8000371e01c00707800001c0fc00007ffc00001fff000007ffc000;
   0x301c60000f8380e000fff00000ffff8000000fc0000e00780001f0180000e00600003ab8eb800f003e000001980000eaae0000018180000ffff80003e0f00e00e03c00003803e0000600c00000fff000007ffc000;
   0x60000701000000e0700000000000000001c0000400300001f0180000e00600003819c1c0040006000001980000e0060000018180000000000001c0600400401c00001001c0000600c00001c0700000701c000;
   0x0;
   0x0;
   0x0;
   0x0;
   0x0;
   0x0].
Definition hanzi_rows_25 : list N :=
  [0x0;
   0x0;
   0x0;
   0x7000000074000000000000000000000001820000001c0000000400000001c000000000000000180000001dc000000300000001c380000003000000380000000000000000000000000000000070c000000380000;
   0x600000036e000002aaaaa8000000000001860000000e0000000e0000000180000003fc000000180000000cc00000a308000000c38000000300000038080000000000000000000003ffe0000030c000000380000;
   0x700000077fc7f003fffffc00ffff550001c71fc000c70550000601fc000180550003fc1540003c0550019cc15000e30cff0011c395000707055000380dfc00ffff55003fffbfc003ffeff00070c0000001c0550;
   0xaea80000663fff000baaaa800fffefe0000c30f8001c707f0000601f800fffe7e00030c1f80003e0fe0038c63f800e30cfe0038c39f800fff8fe000381cf800ffff7e003fffbf800380efe003fffffc0001c07e0;
   0x1fff9fc00c61f67000715540000180ff0000c31dc0038387f003fffdfc00ffff7f00030c1fc000760ff001dc73fc00e30cff001fff9fc007fffff0003819fc0006707f000003bfc00380eff007fffffc0055d47f0;
   0xfff9f800c6186300033ffe0000180c2003fc38c8003a1c63003fffd880018186200030e188000e70e2000ec738800e30cc6000fff99800306ec600038388800062062000003b0800380ec6002baeb8c00fffe620;
   0x7019c0006186700073ffe0007ffec7003fe59dc007ffe67003070d9c001c306700030e19c001c38e70007c7b9c00e30cc70001c399c0078e0c70017d11dc00067067001fffb1c003ffec700070c39c00fffe670;
   0x60188000618630003380e0007ffec200306ccc800ebfe63003070d88000c306200030618800781ce20003c7b8800fffcc60000c3998001cc0c6003ff808800062062001ffbb08003ffec600030c38c00e006620;
   0x7019c01ffffe700073d5e0000180c700307cddc00438067003078d9c000f7067001f0719c00f00fe70001f7f9c00fffcc70031c399c000fc0c7003ff81dc00c673670001c3b1c00380ec700040039c00e006670;
   0x3fffd8800ffffe300033ffe0000180c200303fec8000398630000f81880007e062003f0398800ffffe20030feb880000e0c60020e399800c3e0c6000183e8800e62362000183b0800380ec6000c0338c00efe6620;
   0x3fffd9c0006186700071ffc00055d5c70030a7fdc00039c670010dc19c0007c06700006199c001ffbe70031d739c000060c70075ff99c00c7fcc7000383fdc006677670001c3b1c00380ec7000e0739c00efe6670;
   0x19818800e6186300030000000ffffc20038c70c800038c630038cc188001ff862000060188000000e20031c6388007fe0c6003f9f99800fe3ec6000383a8800662662000ffbb08003ffec6000e0638c00ec66620;
   0x19c19c00661867003fffffc00ffffc70031c31dc007ffc67003cce19c01fc7f6700006019c000000e7003fc739c00fff0c7001f8399c007c04c70007c31dc00767667001ffbb1c003ffec700070639c00ec66670;
   0xd9998800669863003fffffc000c38c20039838c8007ffe63000f8718800f00f62003fffd88000000e2000a06388006ab8c6000060198002000c6000ec308800362662000183b080000cec600070e38c00ec66620;
   0x1d9d99c0077fc67000700000001c38c7003b91ddc0003876700078799c001c3067003fffd9c007ffee700006039c00701cc700006019c00ffffc7000cc31dc00367e670001c3b1c0061cec700030c39c00ec66670;
   0x1999988003effe3000600000000c38fe003b1fcc800038763000387d88001830620000f8188007ffee200006038800304ec60000601f800ffffc6000ce308800362e62000183b0800718eee00039c3fc00ec66620;
   0x199ddfc001c1fff00071ffe001ffffff003f1fffc0003827f000307ffc001c307f0001fc1fc0000e0ff003fffffc0038e6ff003fffdfc000670ff001c631dc001e7c7f0001c3bfc003f8eff0001d83fc00ec667f0;
   0x398cdf8001c18ff00061ffe000ffff82003900ef800ffff7f0003065f80018307e0003ec1f8000860fe003fffff80039c0fe003fffcb8000630fe0018730f80006207e001ffbbf8000f8efe0000f800c00efe67e0;
   0x318cc1c000c18070007180e0001c180700180001c00ffff0700070615c001c300700076e01c001c70070015757fc001f80ff00006001c0006300700383b1fc00067007001fff95c00070e070000f001c00efe6070;
   0x318ee08008e18030006180e0000c180000181800800038003000e0600800183802000e6700800183802000060008000f00060000600180086380600303b00800062002000003808000e0e060000f800c00e066020;
   0x186414019f180700071ffe0001c1c0000181f81c00038005001cc601c001c1c05001c63c1c00381c0500006001c0007800700006000001c6380500101301c0006700100000381c001e0e000001fc00000e006050;
   0x187000009b980000061ffe0000c0e00001807e0000038000001cfe00000181c00003861e00003f9c000000600000003e00000006000000c61c0000000fc0000062000002aab800003cee0000078e00000e006000;
   0x18780001f9d8000007000e0001c0700001d01e000003800000787e000001c0f00001060c00007fff000000600000000fc0000006000000fe1f00007ffde0001ffffc0007fff80000f9fe00001f07c0000e406000;
   0x1f3c0000f8df800007e0000000c03c0000f800000003800000300e0000018078000006000000e0fe0000006000000003f0000006000000fe0780003ff8e0000ffff80003fff80000e03e00003c03e0000f806000;
   0x1f180000704f000003e0000001c0180000f0000000038000000006000001c01000000600000060000000006000000000600000060000007c0300003fc04000000000000000000000400600003000600007806000;
   0x0;
   0x0;
   0x0;
   0x0;
   0x0;
   0x0;
   0x0;
   0x0;
   0x0;
   0x1800000000c00000300400000030000000000000000700000000c0000000001c00000000000007000000198000001003000003000700000e00000000e00000000000000000000000000000000180000;
   0x3fff8000001800000001c00000383e00000038000007ffffc0000380000001c0000000001c000ffff00000060000003d8000003e03000007e00600000e000000c0e000000aa8ff8007e7f80000aaa80000c186000;
   0x3fff95400319c55003fffff0001ffc5500039c154007ffffc00039c1540001c055001ff81c001ffff550000e03fc00718000001fc3154001ff0700015f515400e0e055001ff9ff800fe7f95001fff95400e18e000;
   0x303f80031987e003fffff0000fe07f00070c1f8002aaaac00070e1f80003807e001ffbffc00abaa7f003fffbfc006180fe0003e31f80000f7ff003fffbf8006ffe7f000eb8eb800c66ebe001fff9fc00618cfe0;
   0x383fc00319c7f003fffff0001ff07f000e0e1fc0000001c000e071fc00ffff7f001c1bffc0001807f007ffffdc01ffffff0000631fc000037ff003fffbfc007ffe7f001c19c380066667f0018619fc00719dff0;
   0x3838800318c62000018030007cfe63000ffb188001fffcc001fff98800ffff6200181b8c0007ffe6300000038c00ffffc200006bb88000030600000e03880038e063000c18c380066662200186198c003198c20;
   0xfff39c00318c67000ffff300070df67001fff99c001fffdc003fffd9c00ffff67001c198e0007ffe67001fff39c000180c700007ffdc00fff0700000e039c001ce063001c19c3800666677001d7599c003999c70;
   0xfff38800398c62000ffff300040e26300380f9880000000c0010029880000006200181986000618663000fff38c000180c200006ff8800fff7e0003fffb88001ce063000eb8eb800266622001fff98c002ba8c20;
   0xe1c39c00399c67000e1c0300055756700100e19800fffffc00079c198007ffc67001d5987000618667001c0739c007ffec70000631dc001c37ff003fffb9c00ffff63001ff9ff800367ff7001fff99c007ffdc70;
   0xe1838800799e62000e1803000ffff6300000618800fffffc000e0e188003ffc62001ff9fb8006bae63000c0338c007ffec2003fe3188000c307f003001b8800ffff63000aaaaa800367fa200186198c007ffcc20;
   0xe1c39c007db667003fffff001ffff67001fff19c0010719c001c0719c00000067001ff8f1c007ffe67001fff39c0075d6c7007fe31dc001c3870003001b9c000380630001c70000036667700186199c00600dc70;
   0x2eaeb8800edb662003fffff00003b863001fff1880038e18c003813d880000006200000000800618663000fff38c006186c2000c63188000c18600037ffb880001c0630003860000036662200186198c00600cc20;
   0x7ffff9c01cfe767000e1c03000039c6700157799c001fd19c003039f9c007ffc67003fffffc0061866700000039c006186c7000c7f1dc001c1c74000ffe39c003ffc63000f0700000666677001fff99c007ffdc70;
   0x2aaab880087a3e2000ebaa38002bac63000061d880007bf8c00001c588003ffc62003fffffc006bae63000fffb8c007ffec2000c6f188000c0e7c000700388003ffc63002eafaa800666622001fff98c007ffcc20;
   0x39c00018167000ffff38007fff6700006099c007f1fcc001ffe19c00000067000300000007ffe67001fffb9c007ffec7000c7ffdc001c041c0003c039c001e3c63007fffffc00c67ff700006019c00755dc70;
   0xaaa38800018062000abaa38007fffe3002aea98800f8038c000fff18800000062000302aa0002baa63000f003fc006186fe000c63f88001ffff80000e038800079e63003fffffc00c67fa200006018c00600cc20;
   0x1fff3fc007ffe7f00001c03800639f7f003fffdfc0040000c000e07dfc007ffe7f000307fe00001c67f0003c03fc006186ff000c637fc001ffff80015f53fc000187ff00001f80000c6667f001fff9fc00600dff0;
   0xeab3f8007ffe7e000ffff3800638c7f003fffdf8003fffce00070fff8003ffe7e000306ae00000ce7f0000e000c007ffeaa000c631f800180038003fffbf800ffffff00001b80000c6663e003fff9fc007ffcfe0;
   0x1c0301c00018007000ffff1800639c070000f001c003fffce00039cc1c00700e070003060600000dc0700006001c007ffe07000c6301c001c0038007fff81c00ffff83000039c0000c66707001fff81c007ffc070;
   0xc0300800018002000c0031800638c030000f8008003800ce0001f800800300e020003060600000f80300006000000618602000c63008001800380000e000800018003000070e0000fe630200006000c00600c020;
   0x1c0301400018005000c0031c00739c050003dc014003801c60000f001400700e05000307fe00000780500006000000618600000c73014001c00380000e0014000180010001f0f000076630700006001400600c000;
   0xc0300000018000000c0031c007b8c0000078e000003800c70003fc00000300e00000307fe00003fe0000006000000618600000c33000001800380000e0000000180000003c03c00006618000006000000600c000;
   0x1fff00001ffff00000ffff1c003b9c00001f07c00003fffc7001f9fc00007ffe00000300060007fdfc000006000000618600000c33e00001ffff80000e000000018000007f801fc000671c0007fffe0000600c000;
   0xfff00000ffff00000ffff0e00038000003c03e00003fffc3803e03e00003ffe000003f006000fe03c000007e00000798600000c3be00001ffff80000fc0000001f000003e000fc00067ce0003fffe00007e0c000;
   0x1c0300000000000000c0030c00038000003000c00003801c3003000e0000700e000001f000000f0000000007c00000798600000c11c00001c003800007c0000001f00000300001c00063c40000000000007c0c000;
   0x0;
   0x0].
Definition hanzi_rows_26 : list N :=
  [0x0;
   0x0;
   0x0;
   0x0;
   0x0;
   0x0;
   0x0;
   0x18000004000000000c0000000700000001c00000007000000000000001000000000270000000061800001c0000000600000000000000001c00000038000000060000000c3000000000000000180000;
   0x1fff80000001800000fe00000001c0000000600000000c000000060000003ffc0000307fe000007700000000e1800001800000006000000aaaa0000001c00000018000000861800000c3000001fff800000180000;
   0x1fff95400001c55001fff9540001c0550015755540000c0000000e0154007ffc5500307fffc0007707f00001c1c0007fc055003fff95400feff550007fc000007ffc00001c63bfc000c3055001fff95000ffff550;
   0x1aab9f800fffc7f00006f9fc007ffe7f003fffdf80000e0fe003fff9f800300cfe003360efc000e38ff000ffffe0007f807e003fff9f800eeeb7e0007fe1fc007ffcfe000c633f800ffff7f000aea9f800fffe7f0;
   0x18619fc00fffe7f0000601fc007fff7f007fffdfc00ffffff003fff9fc00700cff003360fcc000c18ff001fffff00001c07f0000701fc00c6c37f0007ff1fc00755cfe000e673fc00ffff7f0000601fc0001807f0;
   0x186198800ecee6300006018c0018186300031818800ffffc2003803988003ffcc6003360e8c00fffce300000c070002baa6200003018800c6c36200038398c00600cc600066e388000c3063000060198000180630;
   0x1bfd99c00ee6767003fffd9c001c386700071c19c001c70c700380399c007ffcc700337ffcc00fffce70007ffff800fffe67001fff19c00c6ff670001c3d9c00755cc600076439c000c3067003fffd9c007ffc670;
   0x1bfd98800e66363003fffd8c000c3063000e06188001838c200380398800300cc600337fe8c00061ee30007ffffc00eaae62001fff18800c6ff62000ffff8c007ffcc6000fffb8800000063003fffd98003ffc630;
   0x186199c00673067003fffd9c000e7067001fffd9c00399cc7003fff99c00700cc700330cfcc00071fe700000c06c00e1c66700001819c00c6ff67000fffd9c007ffcc6001fffb9c00ffff6700000019c000180670;
   0x186198800633863000e6318c00ffff63003fff98800718ec2003fff988003ffcc600330ce8c00061be300000c06000788662002aba98800c6c362000c6398c00600cc6000eabb8800ffff63000000198000180630;
   0x1ffd99c00631c67000e6319c00ffff6700300599c01ffffc700155799c007ffcc700330c7cc007fffe70007fffe0001ffe67003fffd9c00c6c367000c6399c00700cc6001c43b9c00c00367001fff99c00ffff670;
   0x1bfd98800618e63002eebb8c0000c063000aaa18800ffffc2000cc3988000000c600337fe8c007ff9e300000c0600003fe62002bae98800c6eb62000c6398c007ffcc6000c63b8800c08363001fff99800ffff630;
   0x180199c0071c767003ffff9c0000e067001fff19c00718fc7001dc399c000000c600337ffcc00071ce700000c06000c1c66700076719c00c6ff67000c6399c007ffcc6001c73b9c00c1c367001c0399c000060670;
   0x1801988007ee263003ffff8c00006063000c0318800318ec20038c3988007ffec600336de8c000618e3001ffffe000ff8662000e6718800c6ab62000c6398c000060c6000c63b880000c063001823998000070630;
   0x1bfdd9c003c4067000e6319c01ffff67001c0319c007ffec7003fff99c007ffec700336dfcc00071ce7001ffffe0007f8667001fffd9c00c60367000c7399c000060c6001c73b9c007ffe67001c6399c007ff0670;
   0x1bfc98800008863000e6318c00ffff63000fff188003ffec2003fff988006006c600336de8c002eb8e300000006000000662003bfff8800c63362003fffd8c00fe60c6000c63b88007ffe63001863998003ff8630;
   0x1b0ddfc0071fe7f000e631fc001c187f001fff1fc00718eff0015d59fc006006ff00336dfdc007ffcff000555540000fe77f0033fedfc00c6737f003fffdfc01fffffe001c73bfc0070c07f001c639fc00387c7f0;
   0x1b0cdf80063be7f003fffdfc001c1c7f000c031f800318efe0001c19f8007ffefe00336defc002eb8ff0007fffe0000fe67e0000601f800c6637e0000f81fc0003fefe000c73bf80030e07f0018639f8001c7e7f0;
   0x1b0cc1c00673f07003fffc1c000e3e07001d5701c007ffe070001e1c1c007ffe0700336dffc00071c570007fffe0000c670700157501c00fe73070001d81fc000065fe001c7395c00306007001c7381c000ee7870;
   0x1bfcc0800e23b0300006000c000efc03000fff008003ffe020003e0c080060060600306db0c00061803000600060000c6302001fff80800feff0200019c00c00c06006000c3b808003070030001f00180007c3030;
   0x1bfce1400d83b050000600040007f005001d5701401c18e00000770c140060060500307db0c00071c0700060006001cc6305001fffc140056df0500038e01c01c060060001dc01c003038050007b80100007c0050;
   0x180c60000d83b00000060000001fe000000c0300000818000000e38e000060060000307db8000fff800000600060008c73800000600000006c380000f0780000c0e000000f8e00000383c00000f1c000000ff0000;
   0x1d00700005ffb80001fffc00007dfc00001c0300000d58000001c1e700007ffe0000301d98000fffc000007fffe000cc79800000600000006c100001e03c0000ffe000003e07c00001f9f00001c0f800007e7e000;
   0x1f00380000ff000001fff80000f03f80000f8300000ff800000380ff00007ffe00003e0c180000018000007fffe000fc3dc000006000000060000003800f0000ffc000003803e00001f0780003803e0000f81f800;
   0x1f001000007c00000000000000600700000783000007f000000300320000600600001e0c00000001c0000060006000781c800000600000006000000100060000000000003000400000f0100001001c0000c007000;
   0x0;
   0x0;
   0x0;
   0x0;
   0x0;
   0x0;
   0x0;
   0x0;
   0x0;
   0x3800000070300000001800000070000001c0c0000006000000060e000000600000003800000039c00000000000000060000000018000000700000000000000070700000001c00000000000000380000;
   0x3fff8000003800000030300000001800000030000000c0c00000060000000e0e0000007000000038000000398000002a2a000000600000000180000007000000ffff0000030600000001800000000000000380000;
   0x3fff95400039c550007031fc007ffffe003870154000c0c55001fffd54000c0e550000f81fc0001c00000039c15400ff7f7f0018663fc00001c5500006015401ffff7f0007071fc00003800003fffd5400039c550;
   0x3333bf8007f887f003fffff8003ffffe001bffbf8000c0c3f003fff9f8000c0e3f0001d81f8007ffefe0003981f8006a6a7e0018623f800000c7e003fffdf800eabb3e0003061f800ffffff003fffdf8003f987e0;
   0x3333bfc007f9c7f003ffff9c00555d54001fffbfc00060c7f0000601fc001c0e7f00039e1fc007ffeff00179d5fc00607067001c733fc00fffe7f003fffdf800601b7f00070719c00ffffff0000701fc007f9c7f0;
   0x3333b0800038863002babb88000c1838000eba388007faea3000aea98800ffeea3000f0f18800618ec2003f9f98800333662000e63b0800fffe62002aaa98800601b22000306188000300c0000038188000398620;
   0x3333b1c00039c67000301998000e187000077039c007fbff7001fff99c00fffff7001e07d9c00618ec7003f9fd9c003f3f67000671f1c00e0176700060c19c006fdb77003fdff9c000381c000001c19c00039c670;
   0x3fffb0800038863000387988000618e00003303880061bfa300006018800003fa3007aabf88007ffec2000398188003c3c620001f8b0800e01be200070e188006f8b22003fdff880001838000303f18800ffff620;
   0x3fffb1c01ffffe7007ff7d9c01575d55007ffff9c00618c77007fffd9c00618e770037fe79c007ffec700039c19c007c7c670007fc31c00e7fde700070619c006dcf770007071980055d5d4003c37d9c01ffff660;
   0x3830800ffffe3003ff6d8800ffffff003fffb8800618c23003fffd8800618e230002ea18800618ec200039818800eeee62000f1e30800e7fce2000387188006c8f22000707188003ffffc001e61f88000000620;
   0x1831c000180670015d6d9c01ffffff007ffff9c00618c7700155559c00618e7700006019c00618ec7003f9f99c00c74767003c0ff1c00e06e6700078f19c006cdf77000f8f19c007ffffc00077159c000000670;
   0xabc3080061866300018ef88000000000000783880061ac23000aaa18800618e23000060188006baec2003f9f988000383e2003863f0800e06662000fdf988006c9b22000f8f9880030c70c0007fb988003ffc620;
   0x1ffc31c006186670001dff9c001ffffc00003c39c0061fc77001fff99c0071be77003fffd9c007ffec700179d19c00010167001060f1c00e06467001cf9d9c006cdb77000f9f99c0071c38c0007df19c007ffc670;
   0x1aae30800618663003fdff88001ffff8001ffe388007fbfa3001aab9880033be23003fffd88002ee8c200039818800ffff6200006030800effe620018c0d88006cb322000b96988003781cc000ec798800300c620;
   0x1c0731c0061c667001fc619c0018001c001ffff9c007f8ff7001c4399c00730ff700006019c0006f0c700039c19c00ffff6700386331c00efff6700007019c006cf377001fd7d9c007f00fc000de7d9c007ffc670;
   0xe1bb080063c6630018061880018aa98001c0ff8800618ca300186398800330fa3000060188000638ea00039818800e360620018633f800ec6662000060188006cb32a001bc6d88003dffac000decd88003ffc620;
   0x73dffc0067c67f001c361fc0019ff9c001c0ebfc00618c7f001c639fc00330e7f001fff1fc00061cff007f9fdfc0063717f001c71bfc006c667f007fffdfc006ff37f003767dfc0071ff8c001dfc5fc00700c7f0;
   0x7f03f8006ee67f000cbf9f800198198001ffe3f800618c3f0018639f800330e3f000fff1f800aeaeaa003f9fdf80076337e000ef1c08006c667e003fffdf8006fbb3e0033667f80031818c00199c1f800300c7e0;
   0x3e001c007c7607000fdfe1c0019819c001ffe01c00618c07001c6381c00330e07001c0315c01ffff0700039c01c00363f070007f1e1c006c6607007fffc1c0060df0700777771c0071818c0019cf01c007ffc070;
   0x1c000800683603000786e080019ff98001c0e00800618c03001863808003b0e03000c0300800aeaa02000398008003e1c020001b8008006ffe0200006000800608b0200233e3080031818c0039c7808003ffc020;
   0xf00140060160100078601c0019ff9c001c0e01400618c010015f1014001b0e01001c0301c0006000000039c014001c7c0700039c000006ffe050000700140060030700071731c0071ff8c0071c1e1400700c050;
   0x78000007ffe0000070600000180018001c0e000007f8c000003bc00000180e00000c0300000060000000398000003e7e0000070f00000600000000060000006003000003060000030ab8c0020c0c0000300c000;
   0x1f000007ffe00000e06000001ffffc001ffe000007f8c00001f1f00001ffee00001fff0000006000000039c0000077a780001e07c0000700000000070000007403000007070000070018c0000f400000700c000].
Definition hanzi_rows_27 : list N :=
  [0xfc0000600000000c06000001ffff8001ffe000006b8f80003c07e0000ffef80000fff0000006000000039800000e3e3c0003c01f00003e0000000060000007c0300000306000003f000c00007e000003e0c000;
   0x1800006000000004060000018001c001c0e00000618700001001c0000000700001c030000006000000039c00000c0c0c0003000600003e0000000070000003c0300000707000001f000c00003c000001e0c000;
   0x0;
   0x0;
   0x0;
   0x0;
   0x0;
   0x0;
   0x0;
   0x0;
   0x0;
   0x71c0000018c000000580000000018000001c3800006018000001801c000070040000060000000000000000000000001c0000007100000001c0000000070000001c0000000030000001c000000180000001018000;
   0x70c0000018cc00000d80000003fd8000000c380000601800000180180000300e0000060000007ffe00001fff8000001800000031e000000180000000060000000c00000000700000018000000180e00003818000;
   0x71c1540018cc7f003980154003fdc7f0011c3954006018550001801c0000381c00000601fc007ffe54001fff9500057d57f00071fffc0055d455001fffff0007ffe7f003f8615400018055000181d54001c38550;
   0x3fffff80018cc7f0031801f800300c7e0038c39f8006dffbe000180180007ffffe003fffdfc00618e7e0018639f800fffefe000303ef800fffe7e000fffff0007ffe7e003fae9fc00abaa7e0001839f8001c30fe0;
   0x3fffffc00ffff67003fffdfc00300c67001fff9fc006dffff007ffdffe007ffffe007fffdfc00618e7f001c639fc00ffffff0007071dc00fffe7f0001c03000071c0670031bfdfc00ffff7f003ffd1fc000e70ff0;
   0x70c38800ffff63003fffd8800300e620007ff988006c1822003ffdffe0000180000006018c007ffe66001fff98800c0e2e2000303088001838620000e07000060c0620039bad8c00eaae62003ffc188000600e20;
   0x71c39c0018cc670015d5d9c01fff7670001c399c006c18770001801c0001ffff800007019c007ffe67001fff99c00c077e70037471dc001c3067001fffffc01ffffe70019b0d9c00c0076700199c1dc00fffee70;
   0x2383880018cc63000180d8800fff7620030c3988006cffa2000180180001ffff800006018c00618e6600186398800bff2e2003343088000c3062003fffff800ffffe20019b0d8c00c0066200198c18800fffee20;
   0x3039c001fcc670011ffd9c0001c7e70071c399c006cfff70001801c000001800003fffd9c00618e67001c6399c003ff8e700375ffdc00ffff6700380601c0071c067001dbfd9c0000006700199c7dc00e38ee70;
   0x38388001fcc630033fed880000c7e20030ff988006c99a200018018000001800003fff98c006bae66001fff98800183ce200337fe8800fffe620038060180060c062000dbfd8c007ffe6200018cf8800e38ee20;
   0x7ffff9c00000c67001b01d9c0055c7e7003fffd9c006cd9f7003ffdffc00ffffff003b1dd9c007ffe67001fff99c001c7fe7001f671dc00c10767003fffffc007fff67000db0d9c007ffe67001ffdddc00fffee70;
   0x3ffff8800aaac63001b00d8800ffe6e2001fa3988006c99a2003ffdffc00fffffe003b9998c002aa866000060188000ee6e2001b6788800c18262000bfffe0007ffe620009b0d8c00018062001ffd98800fffee20;
   0x1c39c00fffc67001b7fd9c00fff76700007019c006cd9f7000000000000e1870003999d9c0000006600006019c0007c0e7001f7f9dc00c187670007060e00001c0670019bfd9c00018067001d7c1dc00e38ee70;
   0xc38800aba863000b7ed8800063662000030188006cffa2000000000000618600038c198c00ffff66003fff988000fe0e200170f888007ffc620003060e00060c3620039bfd8c00018c6200186c18800e38ee20;
   0xe39c0001c067000f66d9c00063f67001fff99c006cfff7001ff9ff800ffffff003bfdd9c01ffff67003fffd9c003ef8e700071fddc007ffc670007e60e00067d767003180d9c00018c67001c7c1dc00fffee70;
   0x1ffe38800abaa63000f66d8800060662001aab988006c1c22001ff9ff800ffffff003ae998c00038c660038609f801f83fe200079bc8800618c620003e60e00066f362003188d8c003f8c62000cec98800fffee20;
   0x1fff3fc00ffff7f000766dfc01ffff7f001c039fc006c7c7f001ff9ff800000000003861dfc00431c7f003b61dfc00f55fe7000787ffc00718c7f0000060000065d77f00718cdfc007f8c7f000ecdddc000380ff0;
   0x180fbf800abea7f00076edf800fffe7e0018039f8006cfe3e001819818000aaaa8003aeb9fc00f30c7e003a608a8003ff8ea000f836f800618c7e0007fffe0006cdb7e003188dfc00018c7e0006ccdf8000380fe0;
   0x1c0dc1c0007f00700277ec1c000f0707001fff81c0061df07001819c18001ffff8003fffd5c007f1c07003ff1c1c003ffcff000dc771c00718c070007fffe0006ddb07003198c1c00019e070007ccdfc01ffff070;
   0x180ce08000fb803006786c08000f0602001fff80800619b820018198180018003800386180c001e0c06003ffe8080038082a000cc330800618c02000600060006cdb02003b9cc0c00019e0200038ec0800ffff020;
   0x1c0cc14001ddc070067c6c14001f8707001c03814006019c1001819c18001c0038003861c1c001c1c04003c7fc0000381c07001cc721c007d8c05000700060007ddf07003dbfc040001be050007c6e1c000380050;
   0x180c00000798f00002ee06000039c600001803800006019c00018198180018003800386180000398c00003800800003808020018e300000398c000006000600068cf800001b3c000001f700000ee6608000380000;
   0x1ffc00001f1c7c0003c706000070f700001fff800006018c0001ff9ff8001ffff8003861c000079fc00003801c00003ffc00003877000000180000007fffe00061c9800001b1e0001ffe300001e77700000380000;
   0x1ffc00000c18380003c3860001e07e00001fff800007c1840001ff9ff8001ffff8003e6180001e0fe00003e00800003ff800003033000000180000007fffe00060c1c000018000000ff838000383b300000380000;
   0x1c0c0000001c00000181040000c01700001c03800007c1800001819c18001c0038001e01c0000c01c00001e01c0000381c00001027000000180000007000600061c08000018000000fd0100001013000000380000;
   0x0;
   0x0;
   0x0;
   0x0;
   0x0;
   0x0;
   0x0;
   0x0;
   0x0;
   0x700000001c00000000000000180c10000470000000180000000700000001800000070c0000001c0000000000000001c000000060000000000000000000000000180000000e000000180000000000000001c0000;
   0x6000000018000002aaa80000180c18000c61800000180000000300000001800000030c00000018000002aaa80000018000000060000007ffe00001fff0000000180000000600000618600001fff800000180000;
   0x1fffd540015d454003fffc00001c1c38000e739540003e07f0000301fc007ffe5500070c1fc0001c054003fffc0000018055001fff000007fff55001fff15400ffffff000ffe15400618655001fff954000180550;
   0x1fff9fc003ffc7e0000603f8000e38700006631f80007707e003fffdf8007ffe7f00030c1fc00ffff7e003fffdf800ffff7f001fff3f80061867e0018033f800fffffe0007fe1fc0061867f001801bf8007ffefe0;
   0x701fc00755c7f0000703fc000618700007771fc001e7c67003fffddc0055d47f007fffdfc00ffff7f000001dfc00ffff7f001d573fc0061877f001c033fc000018000006071fc0061867f001801bfc007ffefe0;
   0xaea98c00300c62000fff308007ffffe003fffd8800381e6200038e18800199863003fffd8c00afea62000aa8d8800c00363001c03308007ffe62001fff388003ffff800060318c00618663001fffb88003818e20;
   0x1fff99c007ffc67001fff31c007ffffe003fffd9801f557e700074719c0019186700070c19c000ff067001ffdd9c00c00767001fff31c007fff67001fff39c003ffffc0007ff19c007ffe67001fffb9c001838e70;
   0x6018c003aac62000c03308006018060001f818800dffbe2000e6398800ffff6300030c18c001db86200188cd8800ffff63001fff30800618662001803388000000000007ff98c007ffe63000001b88001830e20;
   0x157559c00700c67001fff31c006018670003fc19c001ffc67003c71f9c00ffff6700070c19c0079dc670019cdd9c003ffc67001c0331c0075d767001fff39c001ffff000070019c00000067000001b9c001c70e70;
   0x3ffff8c003ffc62000eab30800601866000f6f18800200062003ffff880018186300000018c00f18f62001aacd8800000063001c03308007ffe62001fff388000ffff0003ffff8c00000063003fffb8800ffffe20;
   0x3fffd9c007ffc67001d5731c001ffff0001e77d9c0064ff670027ff59c00181867001fff99c01e1c7e7001ffdd9c003ffc67001fff31c007fff6700155739c001c0030007ffff9c01ffff67003fffb9c01ffffe70;
   0x11c18c00300c62000fff308000abab8003861f880066ff62000060188003ffe63001fff98c00aaa96200188cd88003ffc63001fff30800000062000006388000c003000003818c00ffff63000231b88000000e20;
   0x3d719c007ffc67001c0331c0000181c00107059c0066c76700007019c007ffe6700186199c003ffc670019cdd9c00355c6700000031c007ffc67003fff39c001ffff000181f19c0001c067000639b9c000000e70;
   0x1ff98c003ffc62000eab308000018080000381880066c362001fff98800300e6300186198c003aac62001ffcd8800300c63000000308003ffc62003fffb88000300c0003e3bf8c0000c063000e1db88007ffce20;
   0x77d99c001d8067001fff31c00ffffff00155d59c0066ff67001fffd9c00710e6700186199c00300c67001ffdd9c00355c67003fffb1c00700c670030c1f9c000381c0000f71d9c00ffff67001fffb9c007ffce70;
   0xe1e18c0039806200001c3f800ffffff003fffd880066ff6200002018800318e6300186198c003ffc620000c0df8003ffc63003fffbf8003ffc620030e0f8800ffffff0003fc18c00fffe63001affb8800600ce20;
   0x1fffdfc00ffff7f000ffe3fc00000000003fffdfc0066c77f00007019c00718e7f001fff9fc003ffc7f0001c0dfc00355c7f0000603fc007ffc7f0030e3ffc00ffffff0006ef1fc00e6677f0000c1ffc00700cff0;
   0x1fffdfc00ffff7e000fff2a8000aaaa800030e1f80066eb7e0000601f800318e7f001fff9fc00300c7e001ffeca800300c7f0000602a800300c7e0039f3bf8000000000006e3ffc00e6667f0000c0ff8006aacfe0;
   0x387141c00ffff7f000707c1c001ffff800038701c0066ff07000fff9fc00718e0700186195c00355c7f001ffec1c00355c07001fff81c00755c0700339f81c001ffff80006f1c1c00e66707001fffc1c007ffc070].
Definition hanzi_rows_28 : list N :=
  [0x32700c0003e00200078fe08001aaab80001cf8080066c302000aea8080031ce0300186180c003ffc020000c0e08003ffc03001fff808003ffc02003a0b808001ffff8000cfc00c00e66603001ffec0800600c020;
   0xf73804000770070003fc600001800180001fe0140066c70700007001c0007c40100186181c003ffc070001c0600003ffc05000060000007ffc05003fff814001c0038001ccf01400e667050000c0c1400700c050;
   0x1c21c00000e38000000f8000001800180003f80000060c300000060008003ef000001aeb800000000000000c06000000000000006000000300c00003fff800001800380038c3c0000e666000000c0e0000600c000;
   0x3870f00007c1e00001fff400001ffff8000fff0000060d700003fffe0000787f00001fff80000ffff80007fff70001ffff80007fffe0000700c00001800000001ffff80070e1f0000e66700007fff700007ffc000;
   0x303c60000f00f80003f8ff00001ffff8001e0fe00007cf300003fffe0001e00f80001aab80000ffff80003fff30000ffff80003fffe00003e0c00001f00000001ffff80020fc20000fe6600003fffb00007ffc000;
   0x3c00000400700003c01f0000180018000c01c00003c770000000000000c001800018018000000000000000020000555500005555400003c0c00001f00000001c003800007c0000076670000155530000700c000;
   0x0;
   0x0;
   0x0;
   0x0;
   0x0;
   0x0;
   0x0;
   0x0;
   0x0;
   0x180000000300000001c0000000600000001800000000000000041000000607000001818000000000000000600000006000000018000000000000001c38000000700000001c000000030c0000100c000;
   0x3fffe00000180000000386000001800000007000000618600001ffcff80006300000070e00000381800003fffc000020600000006800000018000000fff800000c380000003000000018000003fb8c0000380c000;
   0x3ffff540055d455000019f54007fff55001fff9fc00618655001ffdff8001c187f00070e1fc001c387f003fffd540077ff00001f7f15400ffff550007ff9fc001c387f00007015400038055003f99d50001c1c550;
   0x6031f8007ffe7f002abbcfc007ffe7f000fff9fc0061867e001aa8c1800381c7e00038c1f8000c307e0000001fc003ffe7e001f679f800fffe7e00038e1fc00ffff7f000fff9fc00fffefe0031998f8000c387e0;
   0x7ff1fc007fff7f003ffd8fc0055d47f001c019fc0061867f001801c180070cf67003fffd9c000c7077001fff1fc001c607f0018619fc00ffff7f0001ff1fc01ffff7f001fff9fc00ffffff00319d1fc000e307f0;
   0x7ff1880000c063002aac0cc00018063000c0198c007ffe62001800c1800e2e7e2003fffd8800ffffe2000fff18c000e60620018619880000c0620001f818c000c386300003018c00c186e20031bfe88000400620;
   0x60319c003ffe6700000c0dc00ffff67001fff9cc007ffe67001ffdff800c7716700003019c00ffffe7001c0319c01ffffe7001f6f99c003ffc670007dfd9c001df86700007019c00c187e70031fffdc007fff660;
   0x7ff188003ffe6300000e0cc00ffff63000fff98c00018062001bfcff8000e386200003018800080862000c0318c00ffffe2001f6f988003ffc6200060398c0009c863003ffff8c007ffce2003f86088007fff620;
   0x7ff19c00006067001fff6dc00d5d767001c019cc0055d567001800000001fdc67001fffd9c001c1c67001fff19c0010f86700186199c00300c67003fdfd9c0007e067003ffff9c007ffce7003fb6ddc000420670;
   0x260318800aaeae3001ffafcc00c0e363000eab98c00ffff62001800000003ffe62001fff988000c0c62000fff18c003e3e62001861988003ffc62001fdfd8c000e706300030e18c000180e20031b6c88000e70620;
   0x3ffff9c01ffffe70019d9cdc00c47367001fff9cc00ffff67001bfbffc00707e6700001819c004e0c6700000019c001fffe7001fff99c003ffc67001c5cd9c001c3c6700070719c007ffce70031b6ddc001c38670;
   0xffff8800aebae3001b998cc000e386300003018c00018062001bfbffc0000006200001818800e6e662002aaa98c00c0f9e2001fff98800300c62000fcfd8c00381e63000e0318c007ffce20031b6c8800381e620;
   0x60019c00181c67001f180dc0007fc670000381cc0001c067001b1bb6c007f7fe7007ffff9c00677767003fffd9c00d57867001fff99c003ffc6700070f19c01ffff67001fffd9c000180e70031b6ddc00f00fe70;
   0x3feff880037ee63003ffe0cc001bfc63003ffff8c003ffe62001b1ba6c007f7fe2003ffff880063336200300898c00fff862000060188003aac62001f9f98c00effbe3003fffd8c00abaae20031b6c8800c003620;
   0x3ffff9c00f7f767007fff0dc0038f067003ffffcc007ffe67001b1bb6c0060616700000e19c007fbfe700330dd9c005fc06700006019c00300c670039f9f9c0080016700300159c00ffffe7003fb6ddc007fff670;
   0x38d818800e183e30018488cc0038386300038e1ac00318662001b1ba6c00636362000006188003fbfe200339898c002aaa7e001fff988003ffc620000205fc0000007f000aaa98c000180e2003fbfc88003ffe620;
   0x19dc5fc00d5d57f0019fdcfc007ffe7f0007771fc0071c67f001b1bffc006e6e7f001fff1fc00181c77003199dfc007ffe7f001fffdfc00355c7f003fffffc003ffe7f001fffdfc000180ff0031bfdfc0073777f0;
   0x198cff8007ffe7f00198ccfc00ebfe7f000e63cac003bae7e001bfbffc006c6c7e001fff9f800180c7e0037fe9fc0030062a000e071f800300c7e003fffe0c003ffe03001aaadfc003ffcfe0031b20f80032267e0;
   0xd8fc1c007ffe07001b0cc1c0041c007007c71f0c007ffe7f001bfbb6c007070070015d5c1c007c3e7f0037ffc1c0070060700070e01c01ffff870001fc01c00300e07001dddc1c007ffc070031c301c007377070;
   0xf07008000fe003003ffce0c00199803003fffe0c003baa0200181ba6c007c7c020000c0e08006e260200306080c003ffe0200039c00800ffff820003ae00000300e02001888c0c00300c020030c3008003226020;
   0x70f014001df801003ffc61c0039cc01000fff8000039c00700181bb6c006f6f070000c0f1c00666707003061c14007ffe000001f8014000c700500077700000300e00001dddc1400700c050030c1810007377050;
   0xf9f80000399c00000c0060000718e0000006000000718000001803a6c0063e3800000c030000fb7f80003060800003006000001f8000003c3800000e2380000300e00001888c0000300c000030e1800003226000;
   0x1dd9e0000718f00000c007000061c70000007000000ffff80001d03b6c00616100007fffd0000ff7fc0003061c00007ffe00001fff00000781f00007c71f00003ffe00007ffff00007ffc00003061c0000ffffc00;
   0x38f0f0000218300000fc038000e1e30000006000000ffff80001f83e6c00787c00003fff80000c3e380003e60800003ffe00003f0fe0000e00780003820f00003ffe00003ffff00003ffc00003e70e0000ffffc00;
   0x1060200000180000007c03000001e00000007000001c00100001f01f6c00787c0000000000001c0c000001c41c0000700600001c01e000040010000007000000300e0000000000000700c00001e30400000000000;
   0x0;
   0x0;
   0x0;
   0x0;
   0x0;
   0x0;
   0x0;
   0x0;
   0x0;
   0x30000006730000003000000001800000070000000000100000000000000000000000600000067000000f000000001c0000001c180000041c0000030700000000000001c0000000041000000000000000c30000;
   0x6300000062300000030000007fd800000060000002afe18003fffc0000ffff0000000600000066000001f00000000180000000c1800000e0c00000302000007fe000001ffe800000e3800000fff800000c30000;
   0x3fe30fc000677400015754fc007fdc54001ff0000007fff18003fffc0000ffff7f003fffffc01ffff7f003b001fc00ffff540000c39fc00061c150003071fc007ff1d50007ff954003c1c14001fffd5400ffffd50;
   0x3fefef80006ff80003fffef80060ce7e001fe01f8006aee180000603f80006607e003fffffc00ffff7e0013000f800fffefe0000e30f80006ffbf0003bfef80038837e0018629f8007c0f3e000c219f800ffffff0;
   0x31bfedc0006ffff007fffedc0060c77f0000701fc0060c7180015753fc000660670000060000057757f007fffddc001838ff007ffffdc00feffff0001fffdc001fc77f001c631f800ef3fff001c61dfc005d757f0;
   0x19bb0c800aea33f00060c6c8007fc3e2003fffd880060c6ba001fffb88007ffe62000fffff000066062003fffc88001830e6003fffe8800fe0c33003f86088000f0662000c661880003f022000eab988000c30630;
   0x199b0dc00ffff3300060c6dc007ff9e6003fffd9c0060c7ff001c03b9c007ffe67000fffff000ffff6700030cddc000c70e70001f5ddc00d75d33007fc71dc001c0c67000e6619c0007f076001fffd9c000c3c670;
   0x199b0c800eebf3300060c6c80060d862003030d880060c6ff001fffb880066666200000000000fffe6200030cc88007ffee60001b0c8800c3ffb30018ffe8800ffe062003fffd88003f7e22000c3198800aaac630;
   0x1dfffdc00c61c3300171d6dc0075dc67003d31d9c007fff18001fffb9c006666670007fffe000e6676700337cddc007ffee70001d0ddc00dfffb30019fffdc00fff067003fffd9c01fddff7001c71d9c01fffe670;
   0xdffec800e6aeb3003fbfec8007fce62001ffed88007efe18001803b88006666620007fffe000fffe6200337cc88006186e6003fc0c88006fc9b30019e608800c66062003018d8800eae3a2000cd998800eaa6630;
   0xd870dc00c6ffb3003fffedc00554f6700017fd9c00000718001fffb9c007ffe6700060006000ffff6700330cddc006186e7003fcfddc007dcdb30019e71dc00d777e700301cd9c001ff077001f9dd9c007007670;
   0xd838c800e6ebb300070e6c800aaaf62001830d8800000618001aabb88002aaa620006aaae000e66262003b0cc88006ba6e60002efc88004cc9b30019e608800ffe7e2001fff988000e3e22000d0f9880062a7630;
   0x19bfcdc00c6cdb300071e6dc00ffefe7001ff0d9c00ff7fff001d57b9c000000670007fffe000e66767001bffddc007ff6e700076cddc000cddb3001dfffdc00fff667001fff99c00073ff7001d55d9c0077f7e70;
   0x19bfec800e6c9b3000f3e6c800baafe2000fe0d8800fffefe001fffb88007ffe620000e070000fffe62001bffc88006186e600026cc88000cffb30009bfe8800c6666200000c1880003f322000fff988006627e30;
   0x31b1fdc00e6ddb3000fff6dc00180fe7000130d9c00637ff700071c39c007ffe67000060600007fff67001b18ddc006186e700174cddc001c7fb3001f019dc00d7766700000c19c0005f077001fffd9c007637e70].
Definition hanzi_rows_29 : list N :=
  [0x31b0dc800e6ffb3000faf6c800fffe62000332df8006306e2000e183f800000062003fffffc002aaa62000f18e88006fe6e6003fecc88001c3e33000f0188800ffe662000ffe18800063e2a000820188006626e30;
   0x31b5cfc00e65d3f001fcd6fc01fffe7f003b33dfc007707e7007fff7fc00ffff7f003fffffc007ffe7f000f7f7fc006ff6ff007ffcdfc001c7e3f000f3fdfc00fff67f000ffe1fc00ff9fff000c76dfc0076367f0;
   0x31bfcf800e60c3f001ecdef800180e7e001b36ea8003606e2003fffea800ffff7e00000018000600e7e000eda6f8006c26fe00070cef8001eef3f000e3f8f800c6667e000e0f1f8007fe03e000ce6df80067e67f0;
   0x31bfc1c0067ffc30036cdf1c0018ce07001f3661c003effe7001c35e1c00018007001ffbffc00700e7f0006db7fc006c760700070c61c0036df83000619c1c00c6760700071f01c0070f8070018c6c1c0077f6070;
   0x3fb0c080063ffc300366cf0800198e02000f36608001cfee2000e7000800199802001ffbff8007ffe020026db608006ea606000f8c60800364d83000f18c0800fe66020003bb8080038fe02003a86608006026030;
   0x1db1c1c00631c0300767cf1c001b8e07000f36700001c07ff0007e000000398c07001c1b8c0007ffe07006719f1c006ff607001d8c61c00771dc1001f18e1c00767f050001f1c14001fc601003606614007036010;
   0x1bfc0000638c0000062c30000180e00000330700003e06fe0061f00000071860000181b8e000600e00002f98300006026000019ce70000630ce0001f9860000003b800003e0e0000078000003606700006006000;
   0x1bfc0000619c0000060c300001d0e00007ffff00007787070077ff00000e18780001ff9870007ffe00003dde300006006000038e630000e19c400039dd70001fff1c0001ffc7000001fc000017fe300007006000;
   0x1b0c00007ccc0000060c380001e0e00003fffb8000e3c602003f8fe0000c1f180001ff9f3e007ffe00003cee38000780600007077b8000c1cc000030ff38000ffe0c0003e3fb0000003f800003fe000003e06000;
   0x1b1c00003cdc0000060c100001e0e0000000010000c0c700003e01c000001f000001c19f1c00700e000018401000078060000303790000809c0000304710000550080003c0710000000780000000000003c06000;
   0x0;
   0x0;
   0x0;
   0x0;
   0x0;
   0x0;
   0x0;
   0x0;
   0x0;
   0xc00000001c0000000cc0000018180000007000000180c00000000000000000000000700000001c00000101cc0000063000000007000000000000000060000000000000003000000000000000060000000180000;
   0x8df800000180000000cc00000183800000060000001c1c00001fdfc00002aaa000000600000000c000003808c0000063000002a86000007fff00003806000003ffe00000070000007f7f0000206080000618e000;
   0x1fdfd5400ffff550001ce3fc001c387f003fffd54000c1800001fdfdfc007ffe7f003fffd540000c055001f1ccfc00f7f755003fc7154007fff7f001c575fc007ffe7f003fffdfc007f7f55003061d5400718c550;
   0x7981f800ffff7e0001863f8000e307e003fff9f800ffffff0018d8dfc006bae7f003fffdf800ffff7f0003eaefc007ef33e003abfffc0060037f000c7fff800300e7f003fffdf8005b6b7e0030619fc00399c7e0;
   0x139cdfc0001c07f003fff3fc007fff7f0006061fc01ffffff001fdfdfc007996770000701fc00ffff7f0001fffdc000e377f0039ffffc0060037f000e7ffdc007ffe77003555d9c005b7b7f003061dfc005ddd7f0;
   0x3b0dd88007ffe62003fff308007ffe6200070e18800036063001fdfd8c0069b663000aea988000372630000eaecc0086332200388618c007fff63000706188003ffe63003038d88005b6b62003fff98c00ffff620;
   0x1f0f99c007ffe670001c7b1c00799f6700175d59c007fff630010c0d9c006db667001fff99c00e637670001dcccc01ffff770039c718c007fff770003ffddc00700e77003670d9c005b7b67003fffd9c00ffff670;
   0xeae18800000062000183f0800699a62003fffd88007fff630030f0d8c006da663000000188007e3e630000c8ccc00feffa2003abfd8c002803630001bfd88003ffe630007ec188004b6b6200000018c00c003620;
   0x1fff19800ffff67003ffff1c006db767007fffd9c00636763003fffd9c0065e667001fff99c003c1c670001dfccc000037f7003fffd8c007fff770010555d8007ffe770003cd99c005f6f67003fbfd9c00d557670;
   0x3cab98800ffff62003ffff080067b26200000018800632363003f9f98c006bae63000fff988003ffe63003fcfccc000ff822003ab0d8c0003fb6300380018800000063000dcd988004b6f62003fbf98c00bffe620;
   0x7801f9c00c003670001c771c0067a767001fff99c007f3f6300010419c007ffe67001c0399c01ffffe7007fdcccc001ffc770039f5d8c00575377001c7fddc01fffff70018fdd9c001c1c670031b9d9c003ffc670;
   0x3ffff8800dfff62000183308006baa6200186198800600b6300030e18c00018063000eab98800f80fe30018c8ccc000e0e220038bfd8c007ffb63000e3ad8800ffffe3003a7cd88003e3e620031b898c00300c620;
   0xfff19c00dfff67003fff31c007fff6700186199c007fff6300030e19c00018067001fff99c001ffd67001ddfccc007ffff70039f5d8c00775b77000770ddc0000c77700361cd9c00776767003fbfd9c00301c670;
   0xe0318800000062003fff30800000062001fff988007fff63003fffd8c007ffe63000606188001ffc630018cfccc007fffa2003ab0d8c00631b630003b0d8800eaee6300360f18800e3a3e2003fbf98c003aac620;
   0xe0319c003ffe670001c731c003ffc67001d7599c00755763003fffd9c007ffe6700070619c00180c67001ddcccc00618677003fffd8c007ffb770003ffddc00ffff770017ffd9c004161670031b9d9c003ffc670;
   0xeab188003ffe62000183308003ffc62001861988007fff7f00030e1fc0001807f002bae98800180c630018c8ccc006bae22003abfd8c007ffb7f00003fd8800e2c6630003f8d88000060620031b898c000180620;
   0xfff1fc00300e7f007fff3fc003d5c7f001fff9fc005f557f00030e1fc0001807f007fffffc001ffc7f001cdddcc007ffe7f0039c71fc005757ff007038dfc0066c77f0000701fc01ffffff0031b9dfc0001807f0;
   0xaaa1f800300e7e003fff3f800380c7e000aea9f800aeaaab002baea0c00ffff03002aaa9f8000aa87f0018ffffc0061863e0038c61fc00fffd830038389f80066fe7f000c619f800babafe003fbfdfc002baa7e0;
   0x70601c003ffe0700000715c003ffc7f00006001c01ffffc3007fffe1c00ffff07001fff81c0009c407001cffffc0061867f0038fff0c00fffd8700181981c007cff07001c7181c001c1807003fffc0c007ffe070;
   0x30e008000c1802000d9b008003ffc02001fff80800aeae83003fffe0800300400001fff808001c8c030018ccc0c007ffe020038fff0c00eb0d80001c09808003cc603000c61808000e3c020030b8c0c002baa020;
   0x38c014000c300500199b01c00380c07001fffc14000e0e0000039c00000776e00001c038140039ce05001cdce0c007fff070038c700000ffddc0000e7d800001dff07001c7181c0007fc050031f8c14000180050;
   0x18c000000e3000003bbb80000380c00000060000000e1c00000f0f00000666600001803800007087000018786000061830000386600000ffecc000073fe00003cff80000c61800000fe0000030f8e00000180000;
   0x3fffe0001ffff80003331800003ffc00007fffe00000e3800001e07c0000e66700001fff80000e1c3c0001c687000061838000387700000f00ce00003c7e00007fc780001fff800007ffc000034fc60001ffff800;
   0x3fffe0000ffff80007331c00003ffc00003fffe00000fc000003801f0000cce380001fff80000c0f18000187038000798180003e3600000e80c700001e020001e7c000000fff80000f83f80003cfe60000ffff800;
   0x3110c0000380c000000000000007c00000100060000c4c100001c038000000f000001c2010000390180001e3700000700c600000c000000c1c000001c0000000600700001c5c600005555000;
   0x0;
   0x0;
   0x0;
   0x0;
   0x0;
   0x0;
   0x0;
   0x0;
   0x0;
   0x700000001c0000007060000000000000030c000000c0000000030000001c3000000070000000c0c0000003000000000000000000000000000000006060000001c00000001c0000001c000000000000000660000;
   0x600000001800000030600000fffe0000030c000001c0000000070000000c3000000020000000e0e00000070000001ff800003fffffc003fe3fc0006060000000e00000000e0000001c000003fffe0000e666000;
   0x3fffc0000ffff55007fffffc00fffe55003fffffc001c7f55003fffffc00ffff55001ff015400060600001fffd54001ff87f003fffffc003fe7fc000606154007fff7f0003fe1540007f055003fffe54007666550;
   0x3fffdfc00ffff7f003fffff80001807e003fffff800baeb7e003fffefc00ffff7f000aa01f800fefe7f001fffdf80018187e0000060000030630c003fdfdf8007fff7e0001af1f8000e387e002aaaef800366c7e0;
   0x701fc0000007f00070619c00ffff7f00032c19c00ffe37f003000fcc001c307f0015755fc01ffff7f0007061fc0018187f000ff67f00030670c003fdfdfc006107670015d79fc007cdc7f000667ffc00366c7f0;
   0x3fffd8c003ffc6300036618800ffff6200036b18800aae36200318ce8c002aaa63003fffd88003b1b6300030e188001ab862000fe67f00030630c000f0f18800699b62001fffd8801f08fe2000266e8800ffff620;
   0x3fffd9c00355c67007fffd9c00c183670000e319c00636377001fff9cc007ffe67003fffd9c0073bbe30057dd59c001ff867000c766300030670c001f9f99c006db767001861f9c00dfffe7000766fdc00ffff660;
   0x3000d8c00300c63003fffd8800fdff62001fff98800626362000fff88c00300e63001a30d880061f1e3003ffff8800000062000c26630003fe3fc001fbf9880067b362001861988001ffce2000226e88001818620;
   0x3fffd9c003ffc6700000019c00fdff67001fffd9c00767f7700018c1cc00755e67001fffd9c006191e3007ffff9c00ff7f66000c76770003fe7fc0036d6d9c0075d767001fff99c00371666007f7ffdc001838670;
   0xfff98c00000063000fff18800018062000aebf8800367f6200018c08c003ffe6300103ed8800aaaa6300000018800ff7f62000fe67f000038e00003666f88007ffb620018619880033f662003fffe88000c30620;
   0xd7599c00ffff67000fff19c007dfc67001ffff9c00750377000fff9cc00700e67001ff1d9c00ffff63001fff99c00c36367000556550000f0e0000266659c0075f76700186199c0031c667003318fdc00ffff670].
Definition hanzi_rows_30 : list N :=
  [0xfff98c00ffff63000e03188000180620000e198800ff8362000bae88c003aae63001fe0d8800aaea63000c0198800c36362000aaeaa800ffffff0006061880067e362001fff9880037f662002f5be8800ffff620;
   0xc7199c00d55767000fff19c00555567001fff99c01ff837700018c1cc007ffe67001555d9c0011cc63001c0199c00c36367001fffff800ffffff001fff99c006db767001fff99c003636670035db7dc000180670;
   0xfff98c00ffff63000fff18800fffe62000aeb98800187f62003fffe8c00003863003ffed880038cc63000fff98800ff7f62000aaeaa80001c1c0001fff98800699b62003fffd88003ffe620037dbe88000180620;
   0xfff99c0020e06700000019c01ffff67003fff99c001c7f77003ffffcc00fffc670000e1d9c0019cc63001d5599c00ffff67000ff67f0000780f000000019c00619f67003fffd9c003ffe6700155b7dc007ffe670;
   0x1fc0070f863003fffd880000c062003fff9880018676200030608c00fffc63003878d880018ce7f000c0198800018062000fe67f0000e0078000000188006083620000001880000c062000e5b688002baa620;
   0x3fffffc003ddf7f003fffdfc00fffe7f0000019fc00ff677f0007771fc00c18f7f001cdfdfc003ddf7f001fff9fc00ffff7f000c76630007fe7fe003fffffc0001c07f001fff1fc00ffff7f000e5f7fc0001807f0;
   0x3aeaaac000fe67f003800df800fffe7e000fffdf800ff67fe000e638fc00e18fff000fe2df8007edb2b000aba9f800ffff7e000c2663000ffe3ff803fffff800ffff7e000fff1f800eaeb7e000e7f6f800fffffe0;
   0x187301c001f7807003bfcc1c00c66607001fffc1c001c6787001fffe0c00e3cf07000fbcc1c00e7f383000c7441c0007e07f000c7663000ffe7ff00007101c00ffff07001c0301c00e67307000e7f61c01ffff870;
   0x1fe380c003f8f03003b0cc0800c66602000e0380800186782003bfef0c00e7ec03000dcec0800c3e1c3000ce6c08000ff002000fe67f00030630c0006638080003e002000fff00800ee3302000a086080003c0020;
   0x7f38000076f705003b0cc1c00c666050007df01c001c77c500107060c006c7c05001d77e140001c0800018c6c14001dfc07000ff67f00030670c001e71c1400077007001fff01400effb07001b0c7040007e0050;
   0x63c0000663800003bfcc0000c666000001fc00000187e800000600000062ac00003bb86000000c000003e0660000798e000000060000030630c001860e00000e3800000c0300000eafb00001b0e300000e78000;
   0x157ee0001e71f00003bfcc0000c666000017ff000001c7e00003fffe000067fc0000719f70001ffffc000760670001f1c7c0003fffffc003fe7fc003870f00007c1f00001fff00000e00b00003187300007c3e000;
   0x3ffc7800043c380003e0cc0000f66600003f8fe0000180600003fffe00007c00000021e330000ffffc00027fe30000c18380003fffffc003fe3fc00307c20000f80fc0000fff00000fc03000030c338000f80f800;
   0x3ff03000003c000001e00c0000766600003c01e00001c0600001555400007c00000001e0300000000000003fc0000001c0000000000000030670c00003c00000c001c0001c03000007c030000204010000c003000;
   0x0;
   0x0;
   0x0;
   0x0;
   0x0;
   0x0;
   0x0;
   0x0;
   0x0;
   0x1c0000000000000000000000000000000000000000000000000c0000000060000070000000003000000000000000000380000000000000000000000c0000;
   0x1fffff8007ffffe001fffff8007ffffe001fffff800001c00001fffff8007ffffe000000000007ffffe00000000000ffff80000aaeaa8007ffa00000070000003ffe00000000380003fe7fc001ff8ff80001c0000;
   0x1fffffc007ffffe001fffff8007fffff001fffffc00000c00001fffffc007ffffe001fffff8007fffff001fffff800ffffbf001fffff8005fff55003fffffc007ffe7f003fffffc003fe7fc001ff9ff800ffff7f0;
   0x1aaaab8006aaaae001aaaab8006aaaae00180001800000e00001aaaab8006aaaae001fffff8006aaaae001fffff8003ffe3f0002aeaa00060c67e003fffff80001807f003ffbffc0030660c001818c1800ffff7e0;
   0x1800c1c0070180600181801800601c0700180601c007ffffe00180001c00600006001fffff800603807001c00038003fff330007fffe00071ce7e0000001dc00ffff67000700380003fe7fc001ff9ff800d5577f0;
   0x1800e180060180600181801800600c06001806018007ffffe0018000180062aa86001838c1800603806001c00038003ffe3300060606000398c62001f9f98800ffff63000383ff8003fe7fc001ff8ff800c19b620;
   0x195571c0077fff600181801800600c0700180601c0070800e00180001c0067ffc6001c38c1800601807001c00038003fff330007fffe0007fff67001fdfddc00c183670005c3ff800000000000000000007fff770;
   0x1bfff18006ffff600181801800600e060018060180061800e00187fe180063aa86001838c1800601806001c0003800fffff3002aaeaa8007fff6200189898800ffbf63000fe000000ffffff000ffffe0007ffe620;
   0x19fff9c0077fff6001bfffd8006ffff7001bfffdc0071c04e00187ff1c0061e006001c38c1800601807001c0003800fffff3003fffffc00667367001fdfddc007dfd67001df3ff800ffffff000fffff00077e6770;
   0x19bb998006318e6001bfff98006ffff6001bfffd80060e0ee00186ae180060f006001838e1800601806001c0003800ff7ef30032a8aac00662362001f9f988002baa630039bbff800000c0000000606000367b620;
   0x19999dc007718e600181c01800618307001bfffdc0070f3ce00186071c00603806001c38e1800601c07001c0003800f363f30037fdfec007fff6700175d5dc007ffe6700719f818001ffff80007ffff0001c79f70;
   0x1998cf8006318e600181e0180061838600180701800607f8e001860618006abaa6001838e1800601c06001c00038003f7e33000209860007fff62003fffd8800010c6300218b818001ffff80007fffe0000c3e620;
   0x199cc5c007718e600181f0180061c1c700180701c00703e0e00186071c006ffff6001c3861800607c07001c0003800175d330007fdfe00070ff67001fffddc00038c67000183ff8001c1c18000700070001ffe770;
   0x198c6180063ffe600181b8180060e3c600180f01800603c0e001860618006abaa600183871800607e06001c0003800ffffb30000606000020ff62000bae988007ffe63000182ee800180c180007fffe00037fe620;
   0x19c671c0077ffe6001819e1800607f8700183f81c0070fc0e00186071c00603806001ff07180060e707001c00038007fffb3001fffff801fff767001fffddc007fff67000180c60001c7e180007ffff001f557770;
   0x198639800601806001818f1800603e060018318180061ee0e00187fe1800603806001ff03980061c706001c00038003fff3300006060000ffff6200030c188000307e3001fffffe001bf71800000606000c003e20;
   0x19c31dc007418060018187d800607c07001871c1c0073c78e00187ff1c00603806001c001f80063c387001c00038007fff3f000fffff00075e37f007fffffc007fffff001fffffe001fc3f0001fffff0007fff7f0;
   0x18c3898006c18060018181980061fe060018e0e18006783ce00182aa18006038060018000d8006381c6001c0003800aebabf0000606000022ff7e003fffff8007ffe7f00183800000f800ff001ffffe0007ffe7e0;
   0x18f5c1c007ff80600181f0180067c7c70019c071c007301ee00180001c00603d06001c00018006701e7001c0003800ffffc3003fffffc00767f070010dc01c0003060700183bff80075455f0000000000011c47f0;
   0x18f8c18006ff80600181f018006f03f6001b803d8006000ee00180001800603f06001800018006e0076001c0003800633803000c0fe00002e3b02003ccf808007ffe0300183bff8003fe7fc001ff8ff800198c020;
   0x187801c007000060018050180064006700190019c0070004e00180001c00601706001fffff800600027001c00038003f1f03000f387f0007c7305000f87f1c007ffe0700183b0180075675c001ff9ff80039ce070;
   0x1800018007ffffe001800018006aaaae001800018007ffffe001fffff8007ffffe001fffff8006aaaae001fffff8000e0fe00003f03fc00207b00000706e000003060000183b0180030660c001818c18007186000;
   0x1fffffc007ffffe001fffff8007fffff001fffffc007ffffe001fffffc007ffffe001c00018007fffff001fffff8007dfdc00007cff9400707f00001e7f00000fffe00001ffbff8007fe7fc001ff9ff80061c7000;
   0x1fffff8006aaaae001fffff8007ffffe001fffff80060000e001aaaab8007ffffe001800018007ffffe001eaaab800e0fe00003f03f80003ccf8000383f00000fffe00001ffbff8003fe7fc001ff8ff80061f3000;
   0x180001c007000060018000180060000700180001c0070000e00180001c0060000600000000000600007001c0003800c01c00003800180003c41000030070000000060000183b0180070660c001819c180000f0000;
   0x0;
   0x0;
   0x0;
   0x0;
   0x0;
   0x0;
   0x0;
   0x0;
   0x0;
   0x1c00000000000000000000;
   0x1fffff8007ffffe001fffff8007ffffe001fffff8007ffffe001fffff8007ffffe001fffff8007ffffe001fffff8007ffffe001fffff8007ffffe001fffff8007ffffe001fffff800001c00001fffff8007ffffe0;
   0x1fffffc007fffff001fffff8007ffffe001fffffc007fffff001fffffc007ffffe001fffffc007ffffe001fffffc007ffffe001fffff8007fffff001fffff8007fffff001fffffc00000c00001fffff8007fffff0;
   0x180801800600006001aaaab80060000600180201800600806001800018006aaaae001800018006aaaae001800018006aaaae001aaaab800600006001aaaab80060080600180001800000e00001aaaab8006aaaae0;
   0x1879c1c0067ffe70019861980070180600180601c006318c70018fff1c0060000600187601c00600c0600180181c006000060018060180060380700184001800601c0700180601c007ffffe001806018006000070;
   0x18f0e180067ffe60019861980067ffe60018aea98006398c60018fff180067ffe60018e601800600e06001801c180062aaa600180601800603c060018f801800603e06001806018007ffffe001806018006000060;
   0x1bc07dc006666670019861980077ffe60019fff9c00619d870018c031c0067ffe6001bfffdc006ffff60019ffe1c0067ffe600180601800607e070019fffd800607f07001bfffdc00701c0e0018060180067ffe70].
Definition hanzi_rows_31 : list N :=
  [0x1900098006666660019fff980062baa60018060180067ffe60018c031800600e06001bfffd8006ffff60018fff180062baa6001aaea980060e706001807f980060e386001bfff9800700c0e0018060180063ffe60;
   0x1bfffdc0067ffe70019fff980077ffe600180601c0067ffe70018fff1c0061ffc600180601c00600706001870fdc00601806001bfffd80063cbc70018060180063c1c700180601c0073fe0e001bfffd8006000070;
   0x1bfffd80067ffe600180001800601806001bffff8006006060018aaa180061ffc60019fff9800600386001839dd800601806001806018006f1ce6001806018006f80f60018060180073ff0e001bfffd8006000060;
   0x180301c00601c07001bfffd8007ffff6001ffffdc007ffff700195551c006187060019fff9c0063ffc600181f8dc00601806001806018007e387f001bfffd8007e007f0019fff9c0073838e00195f558006ffff70;
   0x19fff98006abaa6001bfffd8006aaaa6001830c18006ffff60019fff9800618206001986198006301c600181f8180063ffc600180601800683026001bfffd8006881960018fff98007181ce00181f818006ffff60;
   0x19fffdc006ffff70018070180073ffc6001811c1c006181c70019fff9c006ffff60019fff9c006355f60019fff1c0067ffc60018fff180061ffc700181f8180061f18700180601c0071c7ee00183fc18006ffff70;
   0x1998998006006060019fff980063ffc60019fff180063aae6001986198006aaaa60019fff980063fff6001fe0ff8006098060018fff180063ffc600183f81800607d860018060180070ef6e001876e18006063060;
   0x199f9dc006157070019fff98007355c60019fff1c007ffff70019c619c0061554600198619c006301b6001b079dc0061d8060018c07180061c007001877c1800601f87001bfffdc00707c0e0018e6718006063070;
   0x19989980063ff060019999980063ffc6001806018006cc1be0019861980063ffc60019aeb980063018600181f818006398060018c03180060c0060018e6e1800630386001bfffd80070780e0019c6398006063860;
   0x199f9dc00635707001999998007300c6001bfffdc0060d1970019c719c006300c60019fff9c0063ff8600183c01c006718060018c07180060e6070019c679800630187001b8601c0070fc0e001b861d8007c63870;
   0x199f998006303860019999980063ffc6001bfffd80060798600199b998006300c600198619800630186001800e18006fffe60018eab1800607f06001b863d8006301860019860180071cf0e001b060d8006c61860;
   0x19999dc006181c70019999980073ffc600180601c0063018700187fc1c0063ffc600198619c0063018600181ff1c006ffff60018fff1800603c070019061d80063ff870019f601c007187ce001906058006fe1e70;
   0x19fff980061f8e60019b99980063a0c60018060180063ab860019e0f980063ffc60019f61980063e1860018fe018006000060018aaa18006078060018060180063ff060018e6018007001ee001806018006fe0fe0;
   0x19fffdc0061f8770019d99980073e0c600180601c0063ff07001bc07dc006000060019f619c0061c18600187001c006000060018000180060e00700180601800617c0700180601c0070006e001806018006000370;
   0x18000180060000600180001800600006001800018006000060018000980060000600180001800600006001800018006aaaae00180001800604006001800018006aaaae001800018007ffffe001800018006aaaae0;
   0x1fffffc007fffff001fffff8007ffffe001fffffc007fffff001fffffc007ffffe001fffffc007ffffe001fffffc007ffffe001fffff8007fffff001fffff8007fffff001fffffc007ffffe001fffff8007fffff0;
   0x1fffff8007ffffe001fffff8007ffffe001fffff8007ffffe001fffff8007ffffe001fffff8007ffffe001fffff8007ffffe001fffff8007ffffe001fffff8007ffffe001fffff80070000e001fffff8007ffffe0;
   0x180001c006000070018000180070000600180001c0060000700180001c0060000600180001c0060000600180001c00600006001800018006000070018000180060000700180001c0070000e001800018006000070;
   0x0;
   0x0;
   0x0;
   0x0;
   0x0;
   0x0;
   0x0;
   0x0;
   0x0;
   0x1c006000000018000c000e0000000180000600e000400018000400040000380180000000c000000038000006000000000180004000e0000070180000000600000060000000000000000030000006000000000000;
   0xc00e000000018000f800e0000ffe180000e00e000601c38000e0006000038018000aaa0e00000003800000600000000018000f800e000003018000aaa0600000060000000000000000030000006000007ffffe0;
   0x1c00e0001fff18000ffc0e0001fff180000c00e000631c38001ff006000038418001fff0e0007ffc38000006000007ffc180007f00e000003018003fff060000007000007ffff801fffe30000006000007fffff0;
   0xc00e0000fff180000fe0e0000eaa180000c00e000631c380003ff86000038c18001fff0e0003ffc38000006000007ffc180000ff8e000003818003fff060000003000007ffff800fffe30000006000006000060;
   0x1c00e0000c181800001e0e000070018003fff0e000631c380000ff06000038c180018070e0007000380007ffff00000001800003f8e000fffc180000c006000ffffff0003801c001fffe300000060000067ffe70;
   0xc00e0000c181800000e0e000038018003fff0e000631c380000e006000638c180018030e0003000380007fffe0000000180000308e000fffc180000c006000ffffff0001c0380000600300000060000066eee60;
   0x1c77fc000e195d00000e7fc0001e05d0000030e000631d7d0000e0060007f8dff0018075f4007001ff000006000000001ff0000300e000555c7f0000c07fc00ffffff0001f070000070030000006000006666670;
   0xc37fc000618ff00000e7fc000070ff0000033fc00631dff0000e03fc007f8cff001803ffc003001ff000006000000000ff0000307fc00000eff0000c07fe000081c0000079e00000603ff0000060000067ffe60;
   0x1c77fc000619ff00155e7fc00557cff0000037fc00631dff0000e07fc0067edff001807ffc007001ff00000600001ffffff0000307fc000007ff0000c07fe0001c0e000003fc00000703ff0005575500067ffe70;
   0x3fc30e0007e1818003ffe0e000fffe180000030e000631c380000e02e80063fc180018030e000300038000aaeaa800fffe180000300e0000003180000c0060000180e000003fe0000060030000fffff8006ffff60;
   0x3fc70e0007f1818003ffe0e000fffe180000030e000631c380000e00600063ff180018070e000755438001fffff8000070180034300e0007ffc18007fff8600001c0700007fdfd000070030001fffff8006ffff70;
   0x2ac30e00060381800070e0e000eee0180000030e000631c38003fff86000638f98001fff0e0003ffc38001fffff800003018003ff00e0003ff818003fff86000018038003fe03fe00060030000006000006000060;
   0x1c70e000703c180007060e000e660180000030e000631c38007fff86000638f18001fff0e0007ffc3800000600000003018001fffce0001f0018007fff8600055d53c003f0607c000700300000060000063ffc70;
   0xc30e000307c180007060e000e670180000030e000631c380000e006000638c180018030e000300c380000060000000381800003f8e0000700180000c0060007fff3e00000600000060030000006000006300c60;
   0x1c74e000307c180007060e000e730180000030e000631c380000e006000638c180018070e000501d38000006000007ff818000031ce00003c0180000c0060007fff3f000006000000700300000060000063ffc70;
   0xc36e00038ec18000706ee000e33818000003ae000630c380000e006000638c980000030e000000df8000fffff0007ff8180000300e00001e0d80000c0660000180370002aeaa0000602300000060000063ffc60;
   0x1c77e0001dcdd8000707fe000639cd8000003fe000631df80000e0760007f8df8000007fe000001df8000fffff0007ffdf80000307e00000f1f80000c07e00001c0310007fffe0000703f0000006000006f3f070;
   0xc33f8000d8ff80007063f800618ff8000003bf800630df80000e07e0003b8cfc000003fe000000c7e000fffff0007000f8000030fe00000387e0000c03e0000180300007fffe0000603f00000060000063f3c60;
   0x1c707e000f86ff00070707e0061c6ff00000187c00630efe0000e01fc00438c1f8070071fe00c01c1f8000060000070007f0010301fc00403c1f8000c00fe0001c030000006000000701fe0000060000061c3f70;
   0xc300c0007071f00070301c0060e01f80000181c00630e1f8000e003e00c00c0700300303c00c00c030000060000030000f00303007c00c00c030000c003c000180300000060000006003f8000060000063bb060;
   0x1c7004001f870700070300400707007000001c04006307070000e001c01c00c0100300700401c01c010000060000030000100303001c01c00e010000c00040001c03000000600000070007000006000006e1f870;
   0xc3000003fc38000070380000703800000000c00006207000000e000000c00c0000300300000c00c000000060000038000000303000000c00e000000c00000001803000000600000060000002aaeaa8006403860;
   0x7fffe000079f1c0000701c0000751c00000000e00006007000000e000000fffc00003fff00000fffc00003fffffc003fe000003ff000000fffe000000d400000ffffb0003fffffc00070000003fffffc007fffff0;
   0x3fffe0000f078e0000701c00003e0e00000000e00006003800000e000000fff800001ffe00000fff800003fffffc001fe000001ff000000fffc000000fc00000ffffb0003fffffc0007f000003fffffc007ffffe0;
   0x4010c0000700800001e0400000000400006001000000e000000155000000000000003ff000000000000000fc0000007c0000005ff00000007c000005555300000000000003f000000000000006000070;
   0x0;
   0x0;
   0x0;
   0x0;
   0x0;
   0x0;
   0x0;
   0x0;
   0x0;
   0x600000000c01800007006000000018000000060000000180000005000000c0180000180700000c0180000060000000001800001c060000000180000202000000001800006006000018018000010060000000180;
   0x60ff80000c018000070060007ffc38003fff86000000018000fff6000000c0180000180600000c0180001060800000001800000c060003ffc18000070600000e20180000e00e000018018000038060007800180;
   0x70ff80001c018000575060007ffc38003fff860007ffc18001fff7380000c0180008180700001c01800030618001ffff1800000c060007ffc180000f0700000c60180000e00e000018018000018060007ffc180].
Definition hanzi_rows_32 : list N :=
  [0x6061800038018000fff060006aac38002aab860007ffc18000c066380000c018001e180600003801800038618000ffff1800000e060003aac180001c0380000c60180000c00e00001801800001c060000ffe180;
   0x7071800030018000fff06000700c380000e186000555418000e0c7380015d418001fdbff0000180180003861c00007001800155606000705c180003c01c0001c70180000400e001ffff18003ffc060000016180;
   0xf039800ffff18000c0306000618c380000e18600000001800060c638003ffe180003fbfe000fffe180001860c000038018003ffe0600030ec18000f000e0001c3018003fffce000fffe18003ffe060000006180;
   0xf079800ffffff000c0306000718dff0000e1bfc000001ff00071c738007ffeff00007957001ffffff0001c61e00001c05d003fff3fc0071dc5d001fffffc001830ff007fffce0000180ff003fff7fc000006ff0;
   0xf8e1800babaff000e037fc00618dff0000e1bfc000000ff8003b86380030c0ff000018060000000ff0003c63e00001c0ff0038033fc00338cff003fffffc003838ff0000187fc000180ff0038033fc000006ff0;
   0x1f8c1800181cff000e037fc00718dff001ffdbfc000001ff8001f07380070c0ff001018070000001ff0007e67f00005e0ff0018433fc00731dff0013fffc800701cff0000187fc00718eff003803ffc007ffeff0;
   0x398c18001818180007c306000618c38001ffd860000000180000e06380030c018003018060000aa818000ee6730000ff01800186386000330c1800038180000700c180000180e000618e1800380dc60007ffe180;
   0x71cfd8001c18180007c306000718c38001ffd86000ffff180001f87380070c01800301bc70001ff818001c76e38001df818001c61c6000711c18000181c0000e00f180000180e000718e1800181e860007036180;
   0xe0e398001c381800000306000618c380018e186000ffff18000fbe6380030c018003ffbff0000eb81800383ec1c0039bc18000c60c6000baae18000180e0000ffff18001ff80e000618e18003838060003036180;
   0x1e07818001c301800000306000718c380018618600000e018007f1ff3800ffff18001ff47f0001c381800301601c00f1df1800006086001ffff180001f87c000fffe18001ffc0e000718e18001870060003076180;
   0x3c03c18000c3018003fff06000618c380018618600000e018003c0360000ffff18000006030000c381800000600801e1879800006006000ffff180000f81f00030e0180018180e000618e180018e0060003866180;
   0x1007818000e7018003fff06000718d380018618600000701800100600000ffff18000006000001c381800055755000c1c3180000f006000700c1800000707000306018001c1c0e000718e18001b400600018e6180;
   0x60000006e09800380006000618df8001861b60000870180000060000003e0d8000006000000c3818000fffff0000180180000f026000300c18000006000003060d800181c0e0007ffed8001b80660001cc6980;
   0x60000007e1f80018007600071cdf8001871fe0001c31d80007ffff0000361f8000fffff0001c19d8001fffff00001c1f80000f07e000700df80007fffe0003071f8001c1c7e0007ffff80019e07e0001dc7f80;
   0xfffff00003c0fc003aaafe00060cc7e001830df8001839f80007fffe00007607e000fffff0000c19f8000006000000181f80001b81f800300ff80007fffe00030307e001c0e7e0006baa7e0018f83e0000f87fe0;
   0xfffff00003c01f801bffdfc0072cc1f801c31c7e00381c7c0007ffff00006701f800557550005c1c7f0000060000001c07f8001b807e00700e7f8007fffe00030301f801c0e1fc0071801f80183e1f80007871f8;
   0x60000007e007001aaa83e000ee003001838c0c00300c1f800006000000e3803000006000008c1c0f8000060000001800f80039c01c0030060f80000600000383803000c0703e0001800300180f83e000783070;
   0x6000000ff00100180000c001e7001001c18e04007f4e07000006000001c1c0100000600001dc1c030000060000001c00100071e0040070070100000700000381c01001c0700c01c18001001c0701c001fc3010;
   0x6000003e3c0000180000000383800000c1c600007fff0000000600000380e00000006000008c0e0000000600000018000000e0f0000030030000000600000381c00000c0380000c18000001c00000003ce3800;
   0x3fffffc00fc1f00001c0000000701f00000fde70000e7ff00003fffffc00f00f00003fffffc01dc0700003fffffc0001c000001e07c0000700380003fffffc001d0f00000f61c0000c18000001c1000000787dc00;
   0x3fffffc00f00f80001f8000000e00f80000f8e30000c00200003fffffc00e003c0003fffffc00fc0380003fffffc00018000003801e00003e01c0003fffffc001f8780000fe0f0000ff8000000fe000000e03fc00;
   0x400100000f80000004003000007c43000040000000000000000c00180000000000007801000000000000001c000001000400001e0180000000000000f03000007e0600007f00000007e000000400c800;
   0x0;
   0x0;
   0x0;
   0x0;
   0x0;
   0x0;
   0x0;
   0x0;
   0x0;
   0x700600010000000004006000100018001c00060000000180000000600006001c00000006000000018000000060007000180000700e000000018000e070600001c01800000006000000010000060060000380180;
   0x60060001fe8000000e0060003f8018003f800600000001800000006000061818000aaa86000000018000aaa86000ff80180000600e000aaaa18000e060600001c018000fff060003ff818000060060000380180;
   0x60060001ffffc0000f0060001ffc180007ff06001ffff18001fff06000061c1c003fff86000ffff18001fff860001ffe180000700e000ffff18000e0706000018018001fff060003ffc18000060060000380180;
   0xe006000003ffc0000f00600003fc180000ff86000ffff18001fff06000060c18003fff86000fffe18001fff8600018fe180000600e000ffff18000e0606000038018000eab060003ab818000060060000380180;
   0x60060000018000001b806000001c180000c786000700018001c3706000060c1c003801860000700180018018600018c6180000700e000018018000e0706000ffff18001c0706000301c18001fff86001fffe180;
   0x3fff8600000180000039c06000000c180000c38600030001800183306000060e18003801860000380180018018600018c618003fe00e000618618003fffc6000ffff18000c0306000301818001fff86000fffe180;
   0x3fff974007ffffe00071e17400000d5d0000c3bfc007001ff001c673fc00ff865d0038019740001815d001801bfc0018c65d003ff07fc00718c7f007fffd7400c007ff001c077fc00301c18001861bfc00e386ff0;
   0x3fc007ffffe000e0e3fc00000dff0000c3bfc0033fcff001cc33fc00ffa67f003bf9bfc0001c1ff001fffbfc0018c6ff002ae0ffc00318cff002eaebfc00c003ff000c033fc003019ff001861bfc00e386ff0;
   0x6043fc005f5d74001c77bfc00fffdff0001c3bfc0073fdff001dc33fc00c6777f003bf9bfc0005c1ff001fffbfc0018c6ff000070ffc00318cff000e073fc00c01fff001c077fc003ffdff001861bfc006386ff0;
   0xe06060000e1860003863c6000fffc180000c386000338c18000c0306000c67318003b19860000fe0180000018600018c6180000600e000398c18000e0606000801a18000fff060003ff818001aeb860006386180;
   0xe06060000e18700030e1c6000fffc18003fff86000738c18007fffc6000c63fdc003b19860001df01800001d8600018c6180000700e000199c18000e0706000001818001fff06000301c18001fff8600017d6180;
   0xe0e06000aebaea0000c006000060c18003fff86000338c18003fffc6000e63f98003b198600039b8180000198600038c6180000600e000199818000e0606000381818000c0306000301818001aeb860007ffe180;
   0x60e06000ffffff000fff06000060c18003fff86000738c18001c1306000c6181c003b1986000719c18001c1d8600030c6180000700e000018018000e07060007c1818001c0706000301c18001861860007ffe180;
   0x60e06000ffffff001fff06000062c1800018386000338c18000c3b86000e61818003b1986000e18e18001e198600030c618001fff0e000ffff98000ffe060001f9818000c0306000301818001861860003036180;
   0x70c060000e1870001fff0600007fc1800018386000738c18001c7386000e70c1c003b1986001c187180007ddc600030c618001fff0e001ffff98000fff0600007f818001c0706000301c18001861860003076180;
   0x60c060000e1860000e000600007cc18000183a600033ac18000ce3b6000e23e18003b19a6000c183180003f9b600030c6180018036e000abaa98000e060600000f898000c03660003ff818001fffb60003866d80;
   0x71c760000e1870000700660001f0dd8000183fe00073fdd8001dc3fe00067777c003bf9fe0000181d800007dfe00077c7d8001c037e0000180f8000e07760000039f8001fff7e0003ffdd8001ffffe0001c67f80;
   0x30c7e0007ffffe0003007e0003e0ff8000383bf00032adf8000c039f800e363f8003bf9bf8000181f8000018df8006663f80018033f8000180fc000e067e0000018fc000fff3f8003019f8001aeb9f8000ec77e0;
   0x31c3fc007ffffe0003887f800f606fe0003038fc00700c7f003fff87e00637fff00381987e000180ff00101cc7e006663ff001c0307e0001803f000e073fc0040181f801fff07e00301c7f80186187e000fc71f8;
   0x39807e000018000001dc0fe0066061f00633383c0030000f803fff80c0063ff8f80381981c0001801f803018c0c006e631f80180301c0001800f000e0607e00c0180700000001c0030180f00006000c000783030;
   0x38401c000018000000fc01c0006070700676380400700007000c000040061c7c30038018040001800700301ce0400ef7307001c0300400018001000e0701c00c0180100000000400301c010000600040007c3810;
   0x180000000018000000f0000000603000026fb80000300000000e00000006180000038018000000000000301860000cff180001aab00000018000000ffe00000e0180000000000000301800000060000001fe1800;
   0x7fffc00003ffffc0001e000000060300003edf80000750000000f40000007cc00000380180001ffff00003d5c70001ddf9c0001fff00000018000000fff00000fff800007ffff0001ffffc0000060000007cfdc00;
   0x3fffc00003ffffc00038000000060380003ccfc00003f80000007e0000003ce000001f0180000ffff00003ff8300009831c0001fff00000018000000e06000007ff000003fffe0000ffffc000006000000f03ce00;
   0x10000000060100001841800001f80000003c000000144000001f0180000000000001ff030000800080001c0300000018000000e07000001540000000000000000000000006000000400c400;
   0x0;
   0x0;
   0x0;
   0x0;
   0x0;
   0x0;
   0x0;
   0x0].
Definition hanzi_rows_33 : list N :=
  [0x0;
   0xc00060000338c000000006000101818000070060000000180000060000001c0180007000000001c0180000018000000c01800001c060000380180000000700070000000010c3000001c01800001c060000087000;
   0x1fe8060000738e0000fff86000381818000060060000ff0180000060000021c018000ffe00000018018000063c000000c01800000c06000038018003fff8600062bffe00038c3800001801800019c0600003c3000;
   0x1fff860001e3070000fff86000183818000060060000ff0180000060000071c7180005ffff0000380180000e1f000015d41800000c06000018018003fffc700073bffe000f1c1c000ffc01800079c060000f03000;
   0x3f86000283070000c0386000183018003fff860000c30180007fffe00071c618000002ff000abaa180001c0780003ffe18000ffe06000018018003aab86000638630000e0c1c000ff8018000e0c06000aeabaa0;
   0x386000fff038000c03860000c7018003fffc60000c30180007ffff00071c61800000007000ffff180007fd5c0003ffe180007ff060007ffe18003801c7000738630003c1c0e000ffc018000c1c06000ffffff0;
   0x3860003fffb8000c0386000aeba18003aab860000c38180000060000039ce18002aaaab000ffff18000fffff00030c018000607060007ffe1800380186000638630003ffe0f00001801800000c06000aabbaa0;
   0x397400707fbe000fff97400ffff5d003801d74000c385d0000060000039cc5d003fffff00000e0ff001e05ff00075d51800070f86000600e18003bfdd7400739775001fffef80001c1ff003fffd74001871800;
   0x3fffbfc0038603f000fffbfc00fffeff003f01bfc000c18ff0000060000019ccff002aaaab0000060ff0004e00c000ffffff00038dffc00600eff003bfdbfc0063bfff00003befc007ffeff003fffbfc001e31c00;
   0x7fffbfc001ce03f800c03ffc000181ff003fe1ffc007c1cff001fffffc001ddcff000000070003870ff0007704e000ffffff0001ddffc00600eff003801ffc0073bfff0000700fe007fffff003fffffc000f71c00;
   0x2aab860000fe03b000c03860000180180003fe06000fc0e18001fffff80001c018000fffe3000183818000e30e600030c0180000f8c6000600e18003801860006386380000700ec006006180000cc0600003f0e00;
   0x38600047c038000c038600001801800007f0600001861800155555000ffff98000ffff70001ffc18000c38c300035d4180000f0060007ffe18003bf9c70007386180070e00e0007006180019cc06000c1f8700;
   0x386000c3e038000fff860007ffc18000033060000180180000c018000ffff98000e00230000ffe18001ffce98003ffe180001f8060007ffe18003bf98600060061c0030e00e0006006180018cc06000c03e380;
   0x155586000c7fc38000fff860007ffc18000030060000180180001c01c000577d18000e0077000675e18001ffdffc003ffe180007de06000600e18003b19c700074061e0033c00e000700618001dcc06000fff79e0;
   0x1fff86000ef1fb800003386000018018003e3006000ffff180000c018000063818000eaaa3000e3801800380f83c0000c018000f0f86000600e18003b09860003e060f003f860e0007ffe18000cce060007fe00f0;
   0x1ffd860007e173800187386000018018003ffc06000ffff180015d55d400073818000ffff300071e018000006000007ffe18007d57f6000600e18003b19c70001e1e06001f060e0007ffe18000fc6060001558070;
   0x180d86000381838003c6386000018098000fffc600003e018001ffdff800063898000abaa300038f8d8000006000003ffe18003fffe60006aae18003b09a6000001800000006000006aaed80006c6060000018000;
   0x181db6000001800001f63f6001fffff800003ff600007f1d8001ffdffc000719f800001c030003c7cf8000557550007ffed8000fff360007fffd8003b19ff000155d54000fffff0007007f80007c7760000018000;
   0x180dbe0003ffffc0007e3be000fffff80000303e0000fb0f80000c0180000618fe000018038000e0f7e000ffffe00000c0f8000c033e0006aaef8003bf9bf0001ffff8000fffff00000067e0003c77e0003ffff80;
   0x181ddfc003ffffc0001c39f801ffff3f8000303fc001db8ff0001c01c000071c1f801ffff380007061f800fffff000ffffff000c031fc00600e7f003bf9cfe001ffffc0007ffff00000071f8001c33fc003ffffc0;
   0x180dc7e0000180000038387e0001800f80303007e00399c1f8000c018001860c07000ffff18000f800300000600000ffff8f800c0303e00600e0f80380981e00001800000006000000007030000e387e000018000;
   0x1d5dc1c0000180000078381c0001800100303001c00718f070001c11c001c70e0100001c01c001de00100000600000ffff07000c0301c00600e07003801c0400001800000006000000007010071f1c1c000018000;
   0x1ffce0000001800000f3b8000001800000303000000e187800000c1fe001860f0000001801c0038f8000000060000000c000000c03000007ffe0000380180000001800000006000000003000030f9c00000018000;
   0x1ffce0000ffffff003e7f80000018000003ff000000418300007fffffc01c707c0003ffffdc00703f00003fffffc0000c000000fff000007ffe00003d01c0000ffffff003fffffc00000380003fdee0001ffffff0;
   0x180c70000ffffff00380f80000018000001ff000000018000003ffe03c00fe03e0003ffffce00e00f80003fffffc0000c000000fff000006aae00003f0180000ffffff003fffffc00000180003f8c70000ffffff0;
   0x181c60000ffffff001001800000180000007c000000018000000000000007e0040000000004004007000000000000000c000000c0300000600e00001f01c000000000000000000000000180001f00600000000000;
   0x0;
   0x0;
   0x0;
   0x0;
   0x0;
   0x0;
   0x0;
   0x0;
   0x0;
   0x1c0600000c01800000006000018018000000060003c00180000700600000c0180000300700001c018000060060000e0018000060060000000180000301c00000000000006006000000000000000070000000180;
   0xc0600000e01800000006000038018000fff060007fe0180000600600001c01800003006000218218000060060000e0018000060060000000180000300c0007ffffe000060060000ffff800000006000aaaa180;
   0x1fc060000e7018003fffc6000575418001fff060001fff180000600600001c0180000700700071c618001c61860000e031800007006000ffff180000301c0007ffffe000070060000ffff8003fffc7000ffff180;
   0x3fe060001c3018003fffc6000fffe1800080306000203e18002aea86000aaaa1800006006000618618001c63860000e0718002aba86000ffff18000fffffc002aebaa000060060000c0038003fffc6000ffff180;
   0x3d70600038381800006006000ffff18001c030600070c418003fffc6000ffff18003fffc700071c618001c63060000e0618003fffc60000670180007ffffc0018c310000070060000ffff8000038070000000180;
   0x183060003fac1800006006000000618000fff06000318c18003aab86000ffff18003fffc60007ffe18000c63060000e0e18003fffc6000062018000e300c00038c318003fff860000ffff800031c060000000180;
   0x15d7bfc007ffeff003fff974003ff718001fff06000319cff003001d7400e1c75d0015555fc007ffeff000e673fc00ffe45d00039c1740006705d00063a1c0001cc338003fff974000c003800070e3fc003ffc5d0;
   0x3fffffc00e0beff003fffbfc003ff6ff0008033fc003998ff003001bfc00e0c3ff0003001fc002aaaff0006663fc00ffe0ff00070e3fc000620ff00063fec0000cc330003801bfc000eaab8000e0e3fc003ffcff0;
   0x3fffffc004038ff003861bfc001807ff001c033fc001d98ff001fff7fc00e0e7ff001b01dfc000000ff0007663fc00ffe0ff000e077fc00c673ff00061effc000ec370003801bfc003ffff8001f473fc00301cff0;
   0x3863c6000001818003861860000cc618000fff060001ffc18000ffe0600000e018001b8f860002aaa18000060060000e0f18003fffc6000e62318000e783fc0006c360003aa986000781838001fffc6000300c180;
   0x3863c60007ffc18003fff860000fe718001fff060003ffc180000000600000701800199fc70007ffe18001fffc60000e0f18007bffe60006677180007fc1dc0004c300003bf9860003c7838003fffc7000301c180;
   0x3aeb860007ffc18003fff86000078618000000060001ea81800000006000ffff180019d9860003ffe18001fff860001e0c1800200046000662618006fce0c000ffffff003bb9860000ee038003020860003aac180;
   0x3fff8600055de18003861860004f0718001fff860000e001800000006001ffff180018f9c7000700018001800060001f0c1800000006000667618006c8f1c000ffffff003b198600007cff8001060070003ffc180;
   0x3aeb8600001871800386186000fffe18001fff86000078018003fff860001838180018f186000300018001800060003b0c18003fffc6000262e18003c078e800000000003b19860003f8ff8000060060003aac180;
   0x386386000018218003fff860007fff18001fff86000038018007fff860001c18180018f1c70007ffe1800180006000330c18003fffc6000367c18003c070f800001800003b1986000fe1c7c00006007000301c180;
   0x3863b6000abaad8003fff86000630318000060060000180d8000398060001c1c180018f1b60003ffe98001fffb6000338c1800000c06000362c1800000603800001800003b1986000601808001fffa6000300d980;
   0x3fffbe001fffff8000071760007707d800006036000fffff800039c360000c1dd80019f9ff0007ffff8001ffffe00071ccd800000c260003e7cd8000006000003ffffc003b19b6000001c00001fffbf000301df80;
   0x3fff9f800ffff7e000073fe0003303f8003ffffe000ffff7e00038c3e0000e7df8001b999f800000efc001aaa9f800e0ccf8000aae3e0000620f8000ffffe0003ffffc003bf9be0001ffff80000601f0003ffcfe0;
   0x386187e0003c01f8000773f80037037f007fffdfc0001801f80038c1f80007f0fe001f1fc7e00400e1f80180007e00e0ec7f001ffe7f00006707f000fffff0003ffffc003bf9bf8001ffffc00006007e003ffc3f8;
   0x386180c0007e00300003e07e0003030f80006003e0001800300038e07e0003c01f801a0f81c00c00e0700180000c00406c1f800eaa0fe0006201f8000060000000180000381987e0000180000006001c000000070;
   0x3861c04000f700100001c01c0007018300006001c0001800100738701c001fc007001805c0400c00e0100180000400001c07000c0001c000670070000060000000180000381181c00001c00000060004000000010;
   0x3860c00001e38000000fe0000003018000006000000018000002387000003ee000001fff80000c00e00001fffc0000003e00000c00000000620000000060000000180000380180000001800000060000000000000;
   0x3860e00007c1f000007f7c00000701c00000600000001d000007783c0000787c00001fffc0000fffc00001fffc0001fff700000e0000001ffffc0003fffffc01ffffff00380180000ffffff007fffe0001ffffc00;
   0x3e60e0000f00f80003f83f000003e0e00000600000001f000003f81e0000601f00001aaa800007ffc0000180000000ffe3000007f800000ffff80003fffffc00ffffff003e0180000ffffff003fffe0000ffffc00;
   0x1e0060000c00300003c007000003c0c00000600000001f000001f006000040070000180000000000000001000000007f01000007f00000000000000000000000000000001e0180000000000000000000000000000;
   0x0;
   0x0;
   0x0;
   0x0].
Definition hanzi_rows_34 : list N :=
  [0x0;
   0x0;
   0x0;
   0x0;
   0x0;
   0x700600001c0180000700600001c0180000600600001c0180005c00700001801800000006000000018000c000600001801c00000006000198018001c000600040001c0005c00700001c018000000060000000180;
   0x3006000018018001860c60000180180000600600000c018000ec00600001c018000fff060003ffc18000c0006000018008001fff06000398018003fe006000f80f8c000ec006000018018000aaa860007ffe180;
   0x300600001c018001c71c6000018018000070060003ffe18001dc00700003c018000fff060003ffc18000c1fc600001841c001fff06000f18018001fffc60007fdf9c001dc007000038018001fff860007ffe180;
   0x3fffc60003ffe18000c6386000fffe18001fff860003ffe180038c00600003e018000c0306000380c18000c1fc60002b8c080018030600061801800003f860000fde8c0038c0060003ffc18001aeb860003800180;
   0x7fffc60007ffe18000e7306000ffff18001fff86000300e18003fffe70000f7018000c0306000381c18000c1fc60007f9c1c001c0306001ffff18001870060001c4c1c003fffc70007ffc18001861860001e70180;
   0x2bae8600031801800066706000c0021800186186000300e18003fffe60001e3818000c0306000380c18000c18c60002b8c0800180306000ffff18001863860000c0c0c003fffc6000300c180018618600007f0180;
   0x70e1740071c0ff00037617400c4475d00186197400355eff0001c0174007cdcff000d57174003ffc5d005d5cd7400019c5d001c031740001805d001c637fc001c067f0015d5d7400700c5d001fffbfc0007c0180;
   0x66e3fc00ffffff0000603fc00cee2ff001fffbfc003ffeff0000c01fc00f1cfff000fff3fc003ffcff003ff8ffc00018c7f001fff3fc000180ff000ce33fc000cc67f000180dfc00300cff001fffbfc000f00ff0;
   0xe773fc01ffffff001fffffc001c70ff001fffbfc003ffeff0011dfdfc00e387ff000fff3fc000001ff007ffcffc01ffff7f001fff7fc007ffeff000cc77fc001cc77f0001c1dfc007ffcff001fffbfc007ffeff0;
   0x1c6386000318018001fffc600038381800186186000000e1800399fc6000010018000060060002aaa18000c18c6000ffff0800000006000fffe180006ce06000fcdf8c003980c60003ffc18001861860007ffe180;
   0x7fffe600071c018001fffc6000701c18001861860007ffe180019d8c70007ffe18001575460007ffe18000c1fc600155d51c00000006000fffe1800070206000fcdfdc0039ffc7000700c18001861860006186180;
   0x3fffe60003ffe18001800c6000e00e18001fff860006aae18001998c60003ffe18003fffc60006aae18000cffc6000018808003fff86000e18618000600060000cd88c0019bfc6000300c18001861860006186180;
   0xc71c60007ffe180019fcc6000400618001fff86000700e18001dd8c70001c0018003fffc6000710e18000cdcc6000719c1c003fff86000e18618000700060001cd81c001db9c70007ffc18001fff8600075d6180;
   0xc61860000180180019fcc600000001800023806000600e18000d98c60000c0018003831c6000618e18000cd8c6000718c080000e006000fffe18003fffc60000cd98c000db8c60003ffc18001fff860007ffe180;
   0xfff8600071c7180019dcc60007ffc1800031c060007ffe18000f9fc70000ec018003871c6000718e18000ddcc6000718e1c0000e006000ffff18003fffc60001cdd9c000db9c70007ffc18000060060007ffe180;
   0xeeb86000718ed800198cc60007ffc1800030e260007ffe9800079fc600006c0980038f9c6000618e18000d98c6000398e080000e006000e186d8000600360000ccf8c000fb8c6000618c18000060360006186980;
   0xc71b60003fddf800198cf60000180d80003077e00001c1f800079fdf0000199f80039d9f6000718f98000d9cf600039877c0015f576000e187f80007077e0001ccf5c000798f7000f38dd8003ffffe0006187f80;
   0xc61be0000ff87e00198cfe0000180f80003023f8000180fe0003a03e000339e7c003b9dfe000618ff8000c98fe0001d8378001fff7e000fffe7e00060e1f8000ccf7c000798fe0003b0df8003fff9f8007ffefe0;
   0xfffbfc000ff01f8019fcff80001807e007fffc7e01ffff9f8003bc1fc00771f1f003f1fff80071cffc000c1fff8001e007f001fff3fc00fffe1f80071c07e00ffc77e00239dff8001f0cfe003fff87e007ffe1f8;
   0xfff87e001dbc030019fcc7e0001801f803fffc1c00ffff830023ffe3e00601b07003a0fc7e0000c03f800c1fc7e000f000f8000e007e00e1860300061c00c00ffce1f80639ee7c000e0c1f80006000c006186030;
   0x707181c0079df0100180cc1c000180070003000040001c0010077e7f0c00d81b01003805c1c000ef007000c00c1c000780070000e001c00e1860100071800400001f070067c661c001d0c07000060004006186010;
   0x306000000f18380001808c00000180000003000000001800000277020000d81b80003801c00003c7800000c00c000003e0000000e000000e186000006000000000fb800026e0600003cec00000060000006186000;
   0x307000000c1c100001800c0000ffff000003000000001c00000367800001dd5980003801c0000783f00000c000000000fc00003fffc0000e1860000071000001fff1c0007e7070000f9fe00007ffff00006186000;
   0x3fe00000000f000001f80c0000ffff0000030000000018000003e1c000000ff800003f01c0000e00f80000fc000000003f00003fffc0000f986000007e000000ff80c0003c3838000e03e00003fffe00007d86000;
   0x1fc00000000f000001f00c00000000000003000000001c000001c080000007f000001f01c0000c007000007c000000000700000000000007986000003e00000000000000181010000400600000000000007986000;
   0x0;
   0x0;
   0x0;
   0x0;
   0x0;
   0x0;
   0x0;
   0x0;
   0x0;
   0x30000004000600000000600001801800001c0600000001c0000000700000c0180001c0300000370180000c01c0000818100000000700000001c0000e006000060060000070060000000180000000700001c01c0;
   0x383f8007e0070002aaa8600001801800000c06000000018001fdfc600001c0180001c0300000330180001c0180001c1838003fff860003ffe180000e006000060060000060060003ffe18000fe00600001c0180;
   0x155d7f8007fdfff007fff860000180180001fc06000ffff1c001fdfc700001c018003fffffc00073018000180380001c1870003fffc70003ffe1c003fffc6000575574000060060007ffe18001fff0700001c01c0;
   0x3ffff180000cfff003fff860007ffc180003fe06000ffff180018d8c6000ffff18003fffffc000e3818003fffffc000e186000380186000300018003fff860007ffffe003fff86000300e1800007f06000ffff180;
   0x3ffff980000c01c0001c1860007ffc180003ff06000e1831c0019d8c7001ffff180001c0300000e1818003fffffc00ffffff003801c70003ffc1c003fffc60007ffffe003fffc6000700e1800006007000ffff1c0;
   0xe1980000c0cc0000c18600001801800018306000e183180018d8c60000ce0180001c030000fffc180000600e000ffffff003801860003ffc180000f006000060060000e02060003ffe180000600600000c0180;
   0x1ffe1d801ffc1ce001ffd9740001805d0001c397400e1835d0019d8dfc001c785d0001fff0000fffdff001fe1fe000ffffff003fffd740030005d0007f03fc0007ffe0000607174007ffeff003fffd740000c0ff0;
   0xfff0d800ffcfff001ffdbfc00abaaff001fffffc00ebabff001fdfdfc00381cff0000aea0000060eff001fe1fe000e00003003fff9fc003aaa7f000fbc3fc0007ffe00006063fc00300eff003fff9fc003ffeff0;
   0x1c0f99801ffdfff001ffdbfc00ffffff001fffffc00fffbff001fdfdfc007fffff00055754000071fff001ff1fe000effff7000001dfc003ffe7f003e1fffc0006006000070e3fc00700eff003fffdfc003ffeff0;
   0xffdf180018e0c00000c186000aaaa18001861c6000e183180018d8c6000ffff180007fffe000060f9800183186000efffe30000c1860000000180038038600006aae000030c060003ffe18000c6606000380e180;
   0x1ffdf180018f1c00001c1860001e701800187186000e1831c0019d8c7000c01718000757560007fff18001c3187000ce00770019cdc7000ffff1c007fffe600007ffe0005755460007ffe18000c6707000380e1c0;
   0xc0c21800187fe8002aeb86000383c1800186186000e183180018d8c60002aa818000606060007ffc18001839830000e00600018cd86000ffff98003fffe6000060060003fffc6000003818002eee860003ffe180;
   0x1ffc71800187fff003fffc6000f0df1800187186000e7f31c0019d8c70007ffc180007fffe000071c18001c1dc38000e00700019cdc7000d5d79c007fffc6000060060007fffc6000001c18007fffc70003ffe1c0;
   0xc0c3d8001870cf002aab86000c0e71800183186000eff3180018d8c6000300c180007fffe000060c18000e8ef98000fffe00018cc86000c18398000c0006000ffffff00000006000fffc18002eee86000380e180;
   0x1c0c1d8001871c00001c1c60003ff018001fff86000ec331c001fdfc7000700c1800000600000071c18000f84f1e000ffff0001ffdc7000d5d79c001cff06000ffffff00000006000ffffd8000c67070003d5e1c0;
   0xf8c018001820c00000c1860003ff818001fffa6000ec3398001fdfc60003ffc18000aaeaa0002ead9800000600400001800001ffcc60003ffe18000cff260000608e0000fff06000cce7f8000c66060003ffe980;
   0x78c01800101c00003ffff6000183cd80002f87e000ec33fc0018d8d70007ffcd8001fffff0007ffdf8000006000000018000001c0d70007ffedc001ce37e0001e1870000fff36000ce77fc001d77370003d5efc0;
   0x600000001800003ffefe0001c7ef80006f83f800ec33fe0018d8fe000300cf8000006000002eacfe000fffff0003ffff80030c6fe000318ef8000ce33f800381838000c033e000e631df803fffbe000380ef80;
   0xfffff0003ffffc003ffcdfc000ee77e000edc07e00eff33f8018d87f800755c7f00000600000071c1f800fffff0003ffffc0031c6df80071cefe001ce307e00f7ffff000c033fc00e73887003fffdfc003ffe3f0;
   0xffffe0003ffffc0000c0c7e0007e21f801ccc01c00eff3070018d863e003ffc1f800ffffe000060c07000006000000018000030c6e7e00318e1f800cff01c00e7ffef800c0307e00e31c0100006003e003ffe0f0;
   0x600000001c000001c0e1c0003c0070018cf00400e003010018f871c00755c07000fffff000071c01000006000000018000031c6e1c0071ce07001cff00400401803000c0301c00638e0000006001c00380e030;
   0x6000000018000000c0600000ff0000030c780000eaab0000187830000300c0000000600000fffc00000006000000018000030c6600003d8e00000c0300000001800000c030000061c70000006000000380e000;
   0x3fffffc00ffffff007fff700007e7f000035c3c0000ffff00001d7f30000740c00003fffffc00fffc00003fffffc00ffffff003ffe700003dce00001c00000007ffffc000fff0000070e380001fff80001ffff800;
   0x3fffffc00ffffff003fff30000f81f80003fc0f0000eaab00001e7f380003e0c00003fffffc00000c00003fffffc00ffffff003ffe30000018000000fc0000003ffffc000fff000007e7000001fff80000ffff800;
   0x15555540000000000000020000c00700001fc060000e00300001e2510000140c0000155555400001c00000000000000000000030003000001c000000fc000000000000000c03000003c6000000000000000000000].
Definition hanzi_rows_35 : list N :=
  [0x0;
   0x0;
   0x0;
   0x0;
   0x0;
   0x0;
   0x0;
   0x0;
   0x0;
   0x600000000000007006000003018000000060001c301c00006007000000018000600380000060100000000000000001800060707000000018000000070000000180000001800000181c0006300600000001c0;
   0xfff86000fff7fe000060060003f7818000aaa86000183018000060060007ffe1800060038000206018002aa3ff800ffff18000603060003ffc18002aaa860003ffe18000fffd80003fd81800063306000ffff8c0;
   0x1fff86000fff7fe003fffc60003f1f18001fff86000ffff1c001575070007ffe18000603ff800e06018003ff3ff800ffff18000607070007ffc18003fffc70007ffe18000fffdc0003fdc1c00063306000ffff9c0;
   0xc0186000066606003fffc6000330718001bbb86000ffff18003fff86000666618000603ff80077fe18003ab303800000318003fffe6000300c18002afa86000300618000e00ce000300c1800063306000aeba8c0;
   0x1d5586000067606003fffc600033071800199986000ffff1c001fff87000666618007ffc3800077ff18003833038007ff718003fffe7000700c1800007007000755618000e01c6000300e1c003fffe600006301c0;
   0xfff860000627fe00059b060003303180019998600019301800003006000666618003ff8380003aea18003833ff8007ff318000603060003ffc18001fff860003ffe18000fffc7000300e18003fffe600006300c0;
   0x1d5597400fff7fe000d9f3fc0033175d001999bfc001db05d001fff9740077765d000607ffe001c6018003833ff8007077ff000757174007ffc5d001fffd740070065d000fffc7801fff75d00063317400ffff5d0;
   0xc01bfe00fff606001999bfc0033bf7f001fffbfc00abaa7f001fffbfc007ffeff000622aaa000e60ff003833038007ff3ff0007ff1fe00300cff001999bfc003006ff80003007c00fff77f0006333fc00ffff7f8;
   0x1fffbfe00fff75600399dffc0171bf7f001fffbfc00ffff7f0000183fc007ffeff00067038001ffffff003833578007ff7ff0007ff1fe007ffcff001999ffc007fffff803ffff7e015557ff0007f33fc00e6337f8;
   0xfff860000f07fe003198e6000f1831800007006000aaae1800001806000000018000662ba800ffff18003833ff800603318000603060003ffc18001999860003ffe18003ffff6c0000c7d80007f306000e6330c0;
   0x60000f07fe00019c46001c1c71800006006000000c1c007fffc70005555180006e3ff801ffff18003833ff8007ff7180007ff07000557418001999c70000000180015ff5600000c7dc00000306000e6331c0;
   0x2a8a860000d8186000aaa8600000c318003fffc6000000c18003fffc6000ffff180006c03800000e018003830c38002aa3180007ff06000003818001999860000000180003b706000ffe698000aab06000eebb0c0;
   0x3fdfc6001cdc3c6001fffc6000ffff18003fffc60007ffc1c00070707000ffff1800060038000007818001f31f380001871800060707000fffc18001d99c7000ffff18000733c6000ffe61c001fff06000ffff1c0;
   0x3a9a86000acf7fe000c0006000ffbf1800000c060003ffc18000e0706000018018000607f80007ffe18000f33ff800fffb1800060306000fffc18001d9986000ffff18001e31e6000067618000aea06000aaaa0c0;
   0x31d8c6000fc7e7f001c000600061871800001c0600000001c001fffc70000186180007e7ffc007fff980000371fc00ffff18007ffff7000c30f18000461f700001c418003c307600006361c0000700600001c01c0;
   0x319986000281806000fffb6000630318000aac2600018cc18003fffe60000186980007c62fc00703b980000360180038e398003fffe6000e183980000603e000018c1800003626000062698002aea8600001800c0;
   0x331bf6000001800001fffbe000730778000ffc7e00019cc5c007f06d70007f87f8000146000007039d80000060000018e7f8000131d7000e1cdd8003fffff0007fcdd800000600001fff6fc003ffff60007fff5c0;
   0x3b1b3e0003ffffc0000019f8003323f8000eac3f80018ccf80026061e0007f86fe000006000007ab8f8000fffff0000fe37c000331be000e3ccf8003fffcfc007f8ff8000aaeaa000fff6fc002afabe0007ffffc0;
   0x3e1e3f8003ffffc001fffc7e003e7f7f000c0e07e0019cc7f0007fe1fc0001861f8007ffff0007ff87f000fffff0001f071f800719dfc00ee7cfe0000f003e0055ceff000fffff0000f063f8001fc3f8007fff7c0;
   0x379f87e00001800001fffc0c001e1fcf800c0e01c0018cc0f8007fe03e000186070007fffe0007ab80f800006000003fe303000e1d87e00ec2c1f8000f800c00018e1f800aaeaa0000f060f0003ee07e0001801f8;
   0x31d9e1c00001800001800004001c07c3000c070040199ce0700070601c00018601000006000007038070000060000071ff01000c0dc1c007ffc070001dc0000001df07000006000001b860100077781c0001c0070;
   0x30d8e0000001800001800000003e0300000e038000198ce00000606000000186000000060000070380000000600000000b00000401800006ffc0000039e0000001bb00000006000003b8600001e63c00000180000;
   0x301800000ffffff001c000000077c700000f43c0001d9c7000007fe00001ffffc0003fffffc007ff800003fffffc01ffff00003fffc0000700000001f0fc0001fff380007fffffe0071e600007c71f0001ffffc00;
   0x3e1e00000ffffff000fc000000e1e3000007e0e0000f8c3800007fe00000ffff80003fffffc007ff800003fffffc00ffff00003fff800007e0000007e03f0000ffe1c0003fffffc01e0f60000306060000ffff800;
   0x1e1e000000000000007c000000c047000007c040000700100000706000000000000000000000070380000000000000000000000000000003e000000300060000ff008000000000000c03600000070000000000000;
   0x0;
   0x0;
   0x0;
   0x0;
   0x0;
   0x0;
   0x0;
   0x0;
   0x0;
   0x30060001c1818000070060000c411c0000000000001c018000000060000000180000601c000000070001c06070000000180000600700000001800000700000018018000070060001c1818000001830001184000;
   0x30060000c1818000060060000c630c001ffbff800018018000fff060007ffe18000060180007fe06000180606000aaaa1800006006000ffff1800000e00000038018000060060000c1818001ff183000318efe0;
   0x7006001ffff98000060060000c631c001ffbff8007ffe18001fff060007fff18000063ffc007fe7fe001c0707001fffe1800157547000ffff18003fffffc0057d418000060060001c1818001ff1c6000398cfe0;
   0x3fffc6000ffff98003fffc60000ceb8c000e23198007ffe18000c0306000600618000063ffc0060e7fe00181fc6000aaae18003fff86000000018003fffff800fffe18003fff86000ffff98001830ee0001998c60;
   0x3fffc60001c1818003fffc60000dffdc000773ff8001c1818001fff06000600718000ffdff80070e606001c1fc7000070618003fffc70007ffc1800380001c00fffe18003fffc6001ffff98001837ffc001dd8c60;
   0x306060000c18180000c0c60000c630c0003e3ff8000c3018000c03060006aae18000ffdff8007fe7fe001818c6000030618000030060003ffc18003860618003838180000c1860000c1818001ff7ffc00fffec60;
   0x30e1fc001ff85d001fffd7400ff635d0007c3198000c305d001c07174007fffff000e61c18007fe7fe007fd8d7400fff65d000fff3fc00700c5d003fffffc0018305d0000c1d74001dd85d001ff119000fffec60;
   0x38c3fc000ba8ff0008c0ffc00ff7f7f002bab19800ffffff000fff3fc002aaeff000e61ff80060e606003fdfdfc00fff6ff000fff3fc00300cff0007fffe0001c30ff000fffbfc0009c8ff0018331980000e0fe0;
   0x15dd7fc0055d4ff007dd5ffc00cc7f7f003fffff800ffffff0005553fc007777ff000e7dff8007067fe005d5fdfc00e036ff000c033fc007ffcff00006060001ffffff001ffdffc0003f0ff001833198000060fe0;
   0x1fffc60007ffe18003fffc6000cc630c003babff800000018003fff860003be618000e78ff8007fe7fe001818c6000e03618000fff060003ffc1800006060000eaae180008c1860000f7818001ab3198000060ee0;
   0x1fffc60007fff18001cc1c6000cc7f1c001980180003ffe18003fff86000078718000cf1ff8007fe106001cddc7000fff618000fff070000000180007fffe001c18718003fffc60001e3c18001ff3ff800ffffc60;
   0x18d8c6000618618000aeac6000cc7f0c001983ff8003ffe18003999860007bfe18000ff0700006063860018dfc6000fff618000c0306000aaaa180007fffe000c38618003fff86000780f1800183bff800ffffc60;
   0x199cc600071c718001fffc6000cc631c001183ff800300e1800399986000f77f18006dbbffc007077c6001ddfc7000e03618000fff07000ffff1800006060000038018001cc1c6001ffffd800181b1c0001c18c60;
   0x1b0ec60007ffe180000c0c6000ce630c000180180003ffe18003fff86000030618002c1bffc007c37fe001998c6000e03618000eab06000c02218003fffffc00fffe18000aeb86000cff99800181c0e000399cc60;
   0x1e07c60007fff18001fffc6000c7ffdc000187fd0003ffe18001fff86000077718006c1c180007c363f001d9ff7000fff718000c0307000cc3718003fffffc01ffff18001fffc6000000018001f0e07800718ffe0;
   0x19fef6000018098001ffec6000e7ffcc0001f3ffc00300e18000800060000333d8003c0e18000001802001b9ff6000aea618000fff06000ce62180000e07000000e0180000c0c6000000018000f0603800e187fe0;
   0x19fcfe0007ffff80018c7d6000c67dfc0001f605c003ffed8001fffb60007ff7f80038061f000001800001f1e170000707d8000d5737000c667d80001c63800000e0d80000c1f60003ffcd800000601000c183c70;
   0x198ccf8007ffffc001ffefe000e66dfc000006000003ffef8000eafbe0002bbb3e000006000003ffffc00181e1e0003663f8000c033e000dffaf80007861e0007fe0f8001ffefe0003ffcf8000aaeaa0003ffcc60;
   0x198cc7e0001c03f801fffdfc00c66dbf000fffff0000770fe000f0e3fc00071f1f800fffff0003ffffc001c1b9f8007773fe007fffffc00dffffe001fffff8007fe07f001ffedfc00300cfe000fffff0007ffcc70;
   0x19acc0c003ffe0f0018c2e7e00e6c78f000ffffe00006301f80079c07e00abab03000fffff000001800001819c7e0066331f803fffe3c00c1821f803cfff3c0030700f801806c3e00300c1f8002aeaa0000180c30;
   0x19fcc00007ffe01001fff61c0067458100000600000c730070003f801c00ffff8000000600000001800001c18f1c00e73b8700031c01c00c1870700100601c00707007001c0661c00300c07000006000000180c30].
Definition hanzi_rows_36 : list N :=
  [0x180cc00000180000018c26000063ff8000000600000c638000000f800000aba9800000060000000180000181878000c61980000f0e00000c182000000060000030380000180660000300c00000006000000180c30;
   0x1800c0001ffffc00018c7700007fff80007fffffc00d71f000007ff000000701c0007fffffc00ffffff001d1838001c719c0001e07c0000c18700001fffff800301e00001ffe700003ffc00003fffffc00ffffd30;
   0x1e00c0000ffff80001ec238000398000003fffffc00fe0f80003f0fe00000301c0003fffffc00ffffff001f9e0000007c0c0003801e0000f98200001fffff8003f0f80001ffe300003ffc00003fffffc00fffefb8;
   0x1e00c0001555540001e4710000010000000000000007c0380001c01c00000700800000000000000000000071e0000003c00000100040000710700000000000001f0300001c0620000300c00000000000000000790;
   0x0;
   0x0;
   0x0;
   0x0;
   0x0;
   0x0;
   0x0;
   0x0;
   0x0;
   0x18000000300700000e01c00000030000001c000001c00000000006000030307000000000000f000700003701c0007060700000c01c0006060600000001c000070070000c0c1c000000060000381c00;
   0x7c0000000018000000300600000c018000007f0000001800000181ff8001fcaea000303030001ffff8001ffe860003322180007060600000c018000606060003fe618000060060000c0c0c003fffc60000380c00;
   0x7ff00000001800007fffe7000ffff9c003ff7f0000ffffff003ffdff8001fcfff000307070001ffff80001ff8700033771c00030c070007fc01c00070e060003fef1c001fffc70000c0c1c003fffc6000ffffff0;
   0xfffe000001800003fffe6000ffff98003fe030000ffffff003ffd8180018c0600003bfe30001b1898000c6286000332618001fff860003fc01800038c06000330c18001fffc60000eff8c00006006000ffffff0;
   0x7ff8000018000000000700000001c00187fffc00076070000c318180018c7fe0001bff70001999d8000c67070001b7c1c001fffc700000c01c001fffc600073611c00157547001feffdc000067060000381c00;
   0x60f000001800001f9f860003ffe180018f800c00066038000e31ff80018e462002b800300018999800066606000bbae1800006006000ffff18001fffc6000f36398000c6386000fe0c0c001fe2060001ffff80;
   0x600000001800001fdfdfc0035565d001cdbfec007ff19c001775ff800f877fe007fdff74001ddd5800076e17400ffffff001fff87000ffff7f001e67d7400f37f7f000e771fc00070c5d001fe71fc001ffff80;
   0x6000000018000018989fc0030067f000ccbae8007ff98e003ffe01800aaa6ea003f9fffc001ffff8003fffdfc000c18ff000fff9fc0060c3ff001a66ffc00fbb47f0007661fc0003ffff0000623fc001800180;
   0x600000555d55001fdfdfc003ffe7f000dc777000063cff003fff558007ff7fe0019d87fc00155d50003fffdfc000e187f0000701fc0074c3ff001b6dffc01d9bc7f0003741fc0003ffff0015775fc001ffff80;
   0x600000ffffff001f9f86000000018000f8e7b8007ffc7e000181ff8003ae7fe0019d8630000018000001f806000063818002aea860000ffb180019ecc6000998c18003fffe600001618c003fffc60001ffff80;
   0x600000ffffff00175f47000ffff9c000785fd000577738003ffdffc0038cfff0019ffe70003ffffc00037c07000ffff1c003fffc700047fb1c0019edc600019c61c007fffe70007f759c003fffc60001800180;
   0x3fffffc00001800003fffc6000ffff980003078e00006339c003ffd83800198fff0019ffe300000180000066e06000ffff18002eea86000c0c318001aeac60001ee718000000060007e7f8c000003060001ffff80;
   0x3fffffc0000180000175f47000d5559c00079fffc007ff3ff003ffd87c001f8c66001de007000555d55001e670700000c01c000677070007fc31c001fffc60001f631c00155507000707f9c001fff060001ffff80;
   0x2aaeaa800001800000bae86000ffff98000fcbfe8000631ce000181ffe000f8c62000d9fe3000ffffff003863860002aea18000666060003f831800000006000018018001fff8600038618c003fff060000003800;
   0x600000001800001fffc700060e01c001cf707000fff0e00001c1ff4007ffffe000f1fe7000ffffff007fffe70007ffe1c007fffe70000cc31c000fff0600055d51c001fffc7000187f9c00000186000ffffff0;
   0x60000000180000030e0600070f81800387bfe000fff07800008600000f0fffe000f0e0300038e318002fff6600000c0d8003fffe60004ccb58000fff06000ffff58001800b60001c7f8c002aabb6000ffffff0;
   0x600000001800007fffff0003ddfdc003037ff00000381f00000600000401800000f071f00070d71c001c633f00055d5fc0000003f0006cdf7c000f5736000fffffc001bfdff0001c0c7c003fffbe0000718e00;
   0x600000001800003fffff8000fe2f800000600000001806000ffffe00000180000063b1f000e0db0e000c633f800fffffe000fff3f0006cdbfe000e033e00007e03e001b0c9f8000e0c7e003aaa8f8000e18780;
   0x6000000018000018fc07e001f7c7f001fffff0003ffffc000fffff0003ffffc00073fffc005ffffe001fff07e00ffff9f800fff0fe007cd99f800fff3f8000ff01f801b0dc7e0006ffdf80376d87e007ffffc0;
   0x600000001800001ecf80c003f8f8f801fffff8003ffffc000006000003ffffc000f0bf3e001ffff8000fff00c0003e003000c0301e003cf983000fff07c001db803001bfc80c0086ffc30036ed80c00f7ffef8;
   0x6000000018000007c7f040076f3030015575500000180000000600000001800000f8310c00001800001c6300400077001000c03004003cf181000e0301c0079de000019fdc0401875d400034cdc0000c018070;
   0x6000007ffffe000786f0000e63c000000060000000180000000600000001800001dc300000001800000c63000000e3800000c03000000cc180000e0300000f1878000180080001830c000030ccc00000018000;
   0x1fffff0007ffffe001f7e10001c71fc0007fffffe00ffffff003fffffc00ffffff0038e300000ffffff001fff000007c1f00000fff00001ffffc0000fff00001c1c380001fffc0001c30c0000300ce00007ffffe0;
   0x1fffff0002aaaaa003c3f0000083e380003fffffe00ffffff003fffffc00ffffff007073e0000ffffff000fff00000f80fc0000fff00000fffec0000fff00000818000001fff80000ff0c00003f00400007ffffe0;
   0x30070000003c0000000000000000000000000000000000000003021c0000000000001c03000006001c0000c0300000000000000e030000001c000001801c0000fe0c00001f00000000000000;
   0x0;
   0x0;
   0x0;
   0x0;
   0x0;
   0x0;
   0x0;
   0x0;
   0x0;
   0x1e0000007001800000700000001c0000000000000018070000007000000700c0000000e0000000000000000180000007000000601c0000007000000060000000180000000600000001800000006000000180600;
   0x2af8000003001800000600000000e000002aaaa000018070000003000000380c000002af0000fffffe000000180000003800000601c0000007000000060000000180000000600000001800000006000000180600;
   0x7fffc0007f801c00000e0000007ff000007ffff00001807000000380000ffffff00007ffc000ffffff0015555c00007ffc00000601c000000300003fffffc00ffffff003fffffc00ffffff003fffffc000180600;
   0x3c03e0007f82ac003fffffc000fff800007fffe00001803000000380000ffffff0000301e000001800001ffffe0000fffe00000600c000000380003fffffc00fffffe003fffff800ffffff003fffffc000180620;
   0x1f9c400071c7fc003fffffc0007ffc000060007000019ff0000fffc0000001c100007ffff0001ffff8001fffff0000ffff0000067fc0000555c00000060000000180000000600000ffffff001557554000180630;
   0x3f8000030e7fe000038300000380f000060006000019ff8000fffe00007eae30000fffffc001ffff8000000038000780f8000063fe0001fffc0000fffff00000180000000600000001800000006000000180670;
   0x7ff80039fe070000183800003c17c0007fff7000019d58000ffff00007eff36000e1f078001c00180007ffffc0003c3de000063fe0001fffe0000fffff0003ffff8000fffff000155d54000557550000180660;
   0x73f0001f860300001c3800000e39c000efff6000018c1c000e007000062ebf6000effe60001ffff80007fffcc0000ff0e0001e3060000e00e0000000000003ffff8000ffffe0003ffffc000fffff00001806e0;
   0x3fffffc000f06ff801ffc1c000007f0000060707000078c1c000e00380007efff6000ee0f60001ffff80007001c000007e040003e3870000e00f0001fffffc00000000000000000003ffffc001fffff00001807c0;
   0x3fffff8000786fe001ffe0c00000be00000e03860000f8e0e0006001c0007ec3360007fffc0001800180007fffc00000ff800003e3870000600f8001fffff800aaaaaa0000000000000000000000000000ffff6c0;
   0x380001c0007c6c6001c070e00001df80000657870001f8e070007005f00046ff360007000c0001ffff80007fffc0001ff7f0000761870000701fc00180001c00ffffff003fffffc007fffff000fffff001ffff600;
   0x3bfffd8000efec6000c330f00000e3f0000eff870003d863f000381e780082c3f60007fffc0001ffff80006000c001ff80ff800e618f80003819e001aaaa9800c00003003fffffc007ffffe000ffffe0000180600;
   0x3bfffdc005776c6000c738f800fff1ff00067fc700079877b0003c7c3800feffff0007fffc0001c00180007555c000fc003f001c61cdc0003c38f001bfffdc00c0000300300000c00755557000fffff0000180600;
   0x600000ff06c6000ee7cf800fff83e000e60e7000e187e20001cf8100028800f0007aaac0001ffff80007fffc0001ffffb003860ccc0001c38600000000000dffffb003030c0c00600006000c06060000180600;
   0x7fffe000ffc6c60007c6ede00701e04000e7077001e183c00001fe0000007c1c10007fffc0001ffff8000000700001ffff8001860dc80001e7000003fffc0001ffff8000431c400063ffc7000c06070000180600;
   0x6aeae000e1e6c600030e6cc00380f80000e31bb000c183800000fc000001e0cf00007000c00000038000000070000181818000060f800000fe000003fffc00000c300000e30c600063ff86000c06060000180780;
   0x6060600061f6fe00039c0c4003c1bf0000e3f9b0000181c0000078000007c0f3f0007fffc0000fffe00007fff80001c181800006078000007c000003000c00018c31c000731ce0000381c0000fffff00001807c0].
Definition hanzi_rows_37 : list N :=
  [0x7fffe00073befe0001f80c0001e38f0000e1e030000181c000003c0000027ff8e000000e00000ffff80003aabe0001abab800006070000003c000003000c00018c338000330cc000038180000fffff00001806f0;
   0x757560003f17060000f00c0000f7020000c1c030000180e000001e0000007ffe00001fff80000781fe0001c07f0001ffff8000060f8000007f000003fffc0001cc3300003b1dc0000381c0000d55570000180670;
   0x606060003e06060000f00c00003e000002c0e038000180f000000f800000383f80001eabe00003c78f0000f0e3800181818000061f800001ef800003fffc0000ec3700001f0d80000380c0000c00030000180610;
   0x7fffe0001f07000001fc0c00001f800006c0701800018078000007c000001e7bc0000f0f7c0001ff0200007fc10001c1818000007de00007c3e00000e07000006c360000031c0001c380e0000000038000180600;
   0xe02000007830000079e0c000007e00002c03c180001803c000001f000000fe0000003fe080000fe0000003f8000018181800003f8f0001f80f80000606000000c300000030c0000c380f0000000038000180600;
   0x7f07c00003f3f0001f07cc000001ffc007c01f1c0001801f0000007e00007ffd00005fff00001ffff4001fffff0001ffff8003ffe07c01ff007f003fffffc00ffffff007fffffc00d7807c00000001c00ffff600;
   0x3f001fc0000fbe0003c03ec0000003fe00380070e0001800f0000003f000ffc3ff003ffbffe00ff80ff803fe07fe001ffff8003ff803e00f8001f003fffffc00ffffff003fffffc00ff801f80000000e00fffe600;
   0x1c0001c000030000030004c00000001e0038000040001800200000006000fc001f003f001fc00fc001f001c0007c001c001800000001c0040000700000000000000000000000000007f000700000000c000000600;
   0x0;
   0x0;
   0x0;
   0x0;
   0x0;
   0x0;
   0x0;
   0x0;
   0x0;
   0x600000001c00000000e00000018000000060000000180000000600000000c000000060000000700000000700000001c000000070000000000000000700000001c0000000600000000000000006000000700000;
   0x600000000c00000000e0000001c000000070000000180000000600000000e000000060000000602000000618000000c00000006000001f80000000060000000180000000600000000000000006000000707fe0;
   0x155755000000e000000fff0000001c0000000700000001c0000000600000000600001557554000070f00000071c000000e00000007000003ffffc00000700000001c00000006000007ffffe000006000007f87fe0;
   0x1fffff800ffffff0001fff8000ffffff00000380000000c0000000600000aaafaa003fffffc000063e00000060c000000e000000060000003fffc00000600000001800000006000007ffffe00000600000ff86660;
   0x1fffff800ffffff0001fffc000ffffff003fffffc00ffffff001fffff800ffffff003fffffc000077c00000070e000ffffff0007fffe000001d7c0007ffff0003ffffc000007000007ffffe0000070000071c6660;
   0xf80000aaebaa0000e01e00000c380003fffffc00ffffff001fffff800ababaa00000600000006200000ffffe000ffffff0007fffe0000018000007ffff0003ffffc000006000000018000000060000030e6ee0;
   0x7fc000001c1c00000700f00003c1c0000070e000001e700001557550000381c00007ffff000007004000fffff00001c38000060706000001800000707000003ffffc00000700000001c00000007000003bfffe0;
   0x1f9e00000389c0000038078000f00e00000e07000003c3800003060e0000700e00007ffff00000603e000006070000381800006060600000180000060600000001800003fffffc00001800000007000001fa6ee0;
   0x7c07f0000718f00007ffff8001e007c0001c07c0000781f00003861c0000f55700007575500000707c000007038000701c000060706000001c0000070700000001c00003fffffc00001c00003fffffc001e06660;
   0xf003f8001ebaf80007fffe000fffffe0007801e0003e00f80001861c0003fffb8000606000000071e000000603800070ce00006060600000180000060600000001800002aafaa800001800003fffffc000706660;
   0x1555574007ffffc00070606000ffffff003f000fc01fd003f8001c7180007bffdf0007ffff0000070c000000701c001e1c7000060706000ffffff00070700000001c0000001f00000ffffff00000f0000007c7fe0;
   0x3fffffc00febabe0007060600000001a003f020fc00e3000f0000c638000e0000f8007ffff000003000000006000003c0c3c00060606000ffffff0006070000000180000001f00000ffffff00000f000000ef7fe0;
   0x3fffffc00fc1837000706060000701980017061dc0003000000004718000c0000300055757000ffffff003fffffc01f80c1f00175757400ffffff003fffffc00ffffff00001f80000ffffff00001f800000770600;
   0x300000000c1832000706060000387980003060c000ffffff003fffffc003ffffc00000603000ffffff003fffffc00efffff803fffffc00003c00003fffffc00ffffff00003b80000003c0000001b80001ff0aea0;
   0x705540001ffff00007070600001df180007061c000ffffff003fffffc003ffffc001fffff000ffffff00155f554004ffff3003fffffc00003e0000000f00000003c00000039c0000007e00000039c0001ff8fff0;
   0x30ffe0000ebab0002fafae80000fc180003060c00003002000000f800000000c0001fffff80000380000000f800000e0e0000000f80000003e0000001f80000003e00000031c0000006e00000039c0000e1efff0;
   0x70fff0001c1830003fffffc0000f0180007061c00003007000001f800000000e0001d5f55000001c0000001f800000c070000001f8000000770000001f80000007e00000071e000000e700000071e0000e1f1f00;
   0x30e060000c1830003fffffc0003fc180003060c0000300e0000039800000fffe000180f8000000ec00000039c00000e0700000039c000000e7000000398000000e7000000e0e000000e7800000e0e000073bbf80;
   0x70e070001ffff0000039c000007df180007060c0000301c0000079c00000ffff0001c1f8000003ee00000071e00000e0700000071e000001c380000071c000001e7800001c1f000001c3c00001e0700007f177c0;
   0x30e060000ffff0000070e00000f07980003060e0000303800000f0e00000e0000000fb9c00000787000000f0f00000e03800000f0e000003c3c00000f0e000003c3c00003c3f80000381e00003c0380003e0e6c0;
   0x70fff000c018300001e0f00000c01d80007060e0000303800001e078000060000000770f00001f07c00001e0780000601c00001e0780000781e00001e0780000781f00007879c0000f00f00007803c0001e046f0;
   0x30ffe000e018200003c03c0000000980003060e0000303000003c03e0000600000001e0780003c01e00007c03e0000600e00003c03e0001f00f80003c03e0001f00f8000f0f0e0001e0078000f000e0000f80670;
   0x70007000757800001f001f0007ffff800070607800035000001f001f800070400001fc01f8007000fc001f001fc0007507c001f001f800fc007f001f001fc01fc007f003e1e07c007c003f003e0007c0003f0630;
   0x3f8060007ff800003e0007e003ffff80003020380003f800003e0007c0003fc00003f000fc00e0003f003e0003c0003f03e003e0003c00f8000f003e0007c00f8000f00381c03c00f0000f003c0003c0000f8610;
   0x3f0000003ff00000100001c000000000007000100001f8000010000180001fc00003c0001c0040000600300001c0001f01c00300001c0040000700380001c0040000700100001c00400007001000018000030600;
   0x0;
   0x0;
   0x0;
   0x0;
   0x0;
   0x0;
   0x0;
   0x0;
   0x0;
   0xc000000c0000000600000001800000003000000000000001c0380001c00000000e071000001c0000007030000001c0000000700000001c00000000180000018000000070000000180000000600000001c000;
   0xc000000e0000000600000001c00000003800007ffffe0000e0700003ff8000000e031800000c000000383000000180000000700000000e00000000180000018000000038000000180000000600000000e000;
   0x1ffe0e000000600000006000001ffffc003fffffc007fffff000070600001ffffe0000e071800555f55001ffc31c00557d5500000380000555f55003ffdffc003ffffc00000380000001c00001fffff000000e000;
   0x1ffe0e000000600002aaeaa8001ffff8003fffffc00001c00001fffff800380bfc0000e031800ffffff003ffc33800ffffff00000380000ffffff003ffdffc003ffffc003fffffc00aaaeaa000fffff000aaaeaa0;
   0x1d5c06000000700003fffffc001d555c001575754001ffff8001fffff800181818003fffff800ffffff001d5f37000ffffff003fffffc00ffffff0018e018000001c00003fffffc00fffffe00000700000ffffff0;
   0x180cae800000300003fffffc001998980001e3b80001ffff8000019800001c3838003fffbf800038380001807b700000c300003fffffc000389e000386018000000c00000070e0000fffffe00000380000ffffff0;
   0x1c1dffc00ffffff0000060000019999c0007c39e0001c0018000fffff0000e3670003ffff00000701e0001c1d320000ec3380000e0700000f1cf8001861ff8001ffff80000e0700000077000007ffff00001c1c00;
   0xc19ffc00ffffff003ff6ffc0018db98003fbfff8001ffff8000ffffe000070f200000e03a8000ffff0000e38380001cc3180001c6380003e0e3e001861ff8001ffff80001c63800000e3000007fffe0000381c00;
   0x1c19c7000ffffff003ff6ffc00195d5c003dffffc001c0018000e19c700003c3c00000e07fc003ffffc0007f03f00038c31c0007c61c001fbff9f001870180000007000007861c00001c3c0000001c00000700f00;
   0xc38c30000701c00003060c0001bffd80020e380c001ffff8000eb8e600001e0e00000e03b800f800fe0003e03780030c38e000f060f000e1ebe200183018000aaafaa000fffff0000781e0002aaaea8000e00780;
   0xe38c30000701c0001fe67f800195f5c00007b800001ffff8000ff07f000047ff00000e073000e555e70001fc31c0070c1c6007fffffc0000e1fc001839ffc00ffffff007efff7c001f00f0003fffffc003ffffc0;
   0xe30c38000380e0001fe67f80018ff18003fffffc00180018000e00360000e1ef0001fff3380007ffe200003fb0c0020e8e00039fffbc00007bb800181dffc00ababaa00380601c00fffffe002aeafa800fbffcf0;
   0x770e18000380600018666180019dbdc003fffffc001ffff8000fffff0001c07c0001fff71c000000e000000fb000000f87c00100600400019f00001f8f180000781c000000600400ffffff0001c638000e000078].
Definition hanzi_rows_38 : list N :=
  [0x770e1800038070001fe67f8001b18f800000380000000e00000e00060003fe9e000000031c000000e00000062000000383c0000c63000000cf80000f86180000fffe0000fffff0004c183b0003861c0000000010;
   0x76063c0001c070001fe77f800181c5c000001f0000555755000fffff0007ffffc0000060080007ffe000000700000001c000000c6300003ff3f0000007180001ffff8000fffff0001c18380007ffff0003ffffc0;
   0x3e07f80000e1f800186f618000018000003fffc000ffffff000ffffe000601afc0000060000002aae0003fffffc00001c000000c0300003ff8fe0000060000078183e000002000000c1838001efff78003ffffc0;
   0x1c07e00000e7e0001d7f75800ffffff0007ffff800ffffff00000600000001c00003fffffc000000e0003fffffc00ffffff003fffffc001c1e1e003fffffc01f0181f800006000001ffff8007cfff3e003ffffc0;
   0x1c03c000007f00001ff9ff800ffffff0003003fe000781e0002aaeaa800ffffff003fffffc00ffffff00000f00000ffffff003fffffc000e0780003fffffc00dffffb0002aeaa0000ffff800300600c000018000;
   0x3e07800000fc00000039c0000007e0000075579c001f81fc007fffffe00ffffff00000f00000ffffff00001f80000007e000015d57d400071df000001f800001ffff80007fffe0001c1838000557550000718600;
   0x3e0fc00003fe00000070e000000ee000003fff8000fd81bf802aafaa800007e0000001f800000381c0000039c000000e7000000c03800003f06000001b80000006e000002aeaa0000c1838000fffff0000e18700;
   0x779de00007df800001e07000001e78000075578000f1818700001fc000001e700000079c00000700e0000071e000001e7800000c01c00001f000000079c000001f700000006000001c1838000fffff0001c18380;
   0xe3c8f0001f07e00003c03c0000383e0000300380000181c00000f9e000003c3800000f0e00000e80780001e0f80000383e00000c00e000007e000000f0f8000078380000006000000ffff80000060000038181c0;
   0x3c1f07c007c01ff001f801f8007f01fc0007fff80000181f00017f0ff0007f01fc001fe07f0001ffffc001fc07f0007f01fc0000c00f000001ff0001fe07f0001f01f0003fffffc001ffff80000060000070180f0;
   0x380783e0078003f003e0003c00fe003f0003fff80000180f8003f803fe00fe007f003f803fc0038aff8003f000fc00fe003f0000c0078000003fe003f800fe003800fc003fffff8000c003800000600000201f860;
   0x100300c0020000600100001c00f0000700070038000018018003c0007c0070001f001c0007c00100000001c0001c007000070000c00100000001c003c0001c0030001c000000000001c003800000600000001f800;
   0x0;
   0x0;
   0x0;
   0x0;
   0x0;
   0x0;
   0x0;
   0x0;
   0x0;
   0x6000038038000000060000380180000000600003801800007006000000018001c000e0000000180000000e00001c060000007000000000180000001c00000c0380000000e000070018000000060000000180;
   0x1fff8600003803800000006000018018000e000600003801800006006000aaa818001f800e0000000180000000e00001c060000006000000000180000000c00000e0380000000e000030018000000060000000180;
   0x1fff87000038018001fff0600003c01c001ff0060000380180000e007000fffc1c001ffc060003ffc180015550e00001c06000000e000007ff8180000000c000006018001ffe06000071818003fff070001ffe180;
   0x183006000038018001fff0600003c0180003ff060000380180001c006000fffc180000ff060003ffc18001ffe0600000c060003fffffc007ff818003ff80c000006018001ffe06000031818003ffe070000ffe180;
   0x1c30070001380180015550700007e01c0000ff07000fffc1c0015d40700018601c0000c70600018001c001fff0600000e063003fffffc0070001c003ffc0c000007018001c000700007181c0000c0070000c301c0;
   0xc302b8003bb0ba0000002e8000e60ae0000c02b800fffcba003ffe2b8001860ae0000c02e8001818ae0018002e80000e0670000000e0006000be003818ae800fff0ba000e002e8006318ae0000c02b8000c30be0;
   0x1c307fc0073b1ff0000007fc001c71ff0000c07fc00fffdff003fff7fc001861ff0000c07fc001819ff001c00ffc01ffff6e0000000e0007003ff00381dffc007ff9ff000700ffc00ff19ff0000c07fc000c31ff0;
   0xc307fc0063b9ff0000007fc0038b9ff0000c07fc000381ff0038067fc001861ff0000c07fc001819ff001800ffc00ffff6c0000000e0006003ff003819ffc00e019ff000380ffc00ff19ff0000c07fc000e31ff0;
   0x1c387300063998c0000007300071ddcc0000c06300003818c003807730001861cc0000c063000181dcc001c0067001ffff7c0005555e00070038c00381d86000601d8c0001c0c3000eff9cc0000c06380006318c0;
   0xc3833800e3998c00000063000e38f8e0000c06380003818c0038066380018618e0000c06300018198e00180063000383068000ffffe00060038e00381986000e00f8c0000c0e3000e3f98c0000c06380006318e0;
   0xc3873800c39dce003ffff30004707c6003ffff38007ffdce003807738001861c60000c0638001c1dce001c0063000183060001ffffe00075518e00381dc7000600fce0001c0e3800e77fce0015d571800fe31ce0;
   0xfff31800c38cc6003fffb38000300c6003fffe18007ffd8600380631800fffec6003fffe38001c0cc6001ffe63800183860000003800007ff98e003819830006030c6002aea63800e31ec6003fff61800fe30c60;
   0xfff31800438dc6001575318000000c6003ffff18007019c6003fff31801fffec6007ffff1800fffcc6001ffe718001c1860000001c00007ff9c600381dc30006071c6007fff618006718c6007fff71c00e031c60;
   0xc18318002388c6000070318003ffcc60000e0318003038c6003ffe31800baeac3002aea31800fffcc6001800318001c1870003fffffc006039c6003818c380060e0c6003fff61800e318c60000c031c00e038c60;
   0xc1839c007380c700003031c003ffce70001e031c003830c700380739c001870c70000c031c00e000e7001c0073c001c1c78003fffffc005039c700381cc380061c0c70001c071c006718c70000c031c006018c70;
   0xe183bc003380ee0003383b8003800ee0001e03bc001870fe0028061bc001860ee0000c03f800e000ef001800378000e3c7c002beaea8000038cf003818ef0006380ee0000c0378006318ef0000c03b8006018ee0;
   0xe1c1f8003b807c00071c1f0001c007c0001f01f0001c607c0000071f00018707c0000c03f00060007e001c003f0000e786f0001c0700000038fc00381c7e00067007c0001c03f0007f187c0000c01f00060187c0;
   0xe1c1e000180078000e0c1e0000c00780003b01e0000ee0f00000071e0001830780000c01c0006ffe780018003c00007e0678000e038000003878003818780006000780000c01e0003b18780000c01e0006018780;
   0xe1c1c0001e00f0000e0e3c0000c00f00003381c00007c1f00000071c0001830f00000c07c0006ffe70001c007c00007c0630000707c000c038f000381c700007000f00001c07c0004718f00000c03c000601cf00;
   0xe0c3e0000f01f8000c0e7e0000e00f80007183e0000383f80000033e0001839f80000c0fe0006000f8001800ee0000f806000003bf8000c038f8003818f80006001f80000c0fe000c019f80000c07e000600cf80;
   0x60c7700007c19c001fd7770000701dc000e1c7f00007c39c000003f70001839dc0000c0ef0007001dc001d55e70001fe06000007fc0001c03bf8003ffddc00070039c0001c1ef001c01bdc0000c0ff000700edc0;
   0x60c6780003e01c003fffa780007018e000e0e670001ef11c000003a380018189c0000c0c700070019c001fff478003cf0600001ff80000c03b9c003ff98e00030011c0000c0c7800c0399c0000c0e780070061e0;
   0x7fffe3c0000fc0f00397f03c0003000f003c0723c007c7e0f000001c3c00181c0f003fff03c0071008f001fff03c00707c60000fe7fc000fff90f00381d0780075000f0001c003c00fff90f0000c043c0075870f0;
   0x3fffc1e00003e0700300001e0003800700380381e00f01f07000001c1c00180e07003fff01c003f000700180000c00e01f60001f00ffc00fff00780381803c003f80070000fc01e00fff0070000c001c003f83870;
   0xc0000060300100000c0001000100100100c00c00603000000c0c0018040300000000c001f0003001c0000400400660000c00078007fe00300000001c001f80030000f8004007fe0030000c000c001f01030;
   0x0;
   0x0;
   0x0;
   0x0;
   0x0;
   0x0;
   0x0;
   0x0;
   0x0;
   0x60000180180000c00600001801c00000006000001c000000070000003801800000006000038018000000060000470180000700600000001c00000006000018018000000060001000000000000e000070c180;
   0xaaa060000180180000c006000018018001ffe060000018000000060000003801800000006000038018003fff060000e60180000620600000001800000006000038018000000060003fe000001ffe0e000060c180;
   0xfff0600001c0180000c00600003c01c001ffe07000001800001fffffc00038018001fff0600003801c003fff070001c701c00007786000fffc1c001fff06000030018001ffe060001ffffe001fff06000070c180;
   0xffe0600000c018001ec00600003c00c001806060007ffffe001fffff800038018001fff06000038018003aab0300038600c00006706000fffc0c001ffe06000030018001ffe0600000bffe000e0006000060c180;
   0xc07070001ce01c003ff40700007e00c001826070007ffffe0000070000057d41c001c070700003801c0038030700070701c00007e07000000c0c0000700700003001c00000007000380c0400070806000070c1c0;
   0xc062e8001860be0003fe2e8000e702e0018662b8000700e00002aeaa000fffcae0018032e8000380ae0038032b8002030ae00006c2b800300cae0000702b800fffcbe0000002e800180c0c0003b82e800060cae0;
   0xc077fc003871ff0000df7fc001c38ff8018e67fc000301c00007ffff000fffdff001c077fc00fffdff0038037fc00fffdff0000707fc00307dff8000707fc01fffdff0000007fc001c1c1c0001f87fc00470dff0;
   0xc067fc003039ff0000c67fc003898ff8019c63fc000381c0000606000000381ff0018037fc00fffcff003fff3fc00fffdff003fff7fc0038ecff8000707fc0000e1ff0000007fc000e18380000e07fc00e60cff0;
   0xfff73000701d8c0000c76300071decc0019867300055d5d5000607000000381cc001c0763000e38dcc003fff330000071cc001fff6300019ccce0000706300000e18c000000630000638300003c063000775dcc0].
Definition hanzi_rows_39 : list N :=
  [0xffe63000fffd8e0000c363000e18fce00180633800ffffff003fffffc0003818e001fff63000e38ccc0000033380000318e00383063800198cce002abae380000e18e003fffe3000073870000380630003efccc0;
   0xc0773000ffffce0000c773800c306c6007fffb1800ffffff003fffffc000381c6001fff73800e38cce000033318005571c6001870718001f8cc6007ffff180000e1ce007ffff3800030e30007ffff30001ffcce0;
   0xc0633801c02cc60000c3618000300e6003fffb180000060000060600000fffec600180361800e38cc600003331800fff0c6001830618000f0cc6003fffe18007fe0c6002bbab3800000600003fffb38000e0cc60;
   0xc07318004001c6003fff718001554e6001c07318000007000007ffff001fffec6001c0771800e38cc600183339c007ff0c6001830718000f0cc70001f0718007fe0c6000318718005557550030e071800070cc60;
   0xc06318000000c6003fff318007ffc6200183339800aaabaa0007fffe0000780c600180331800fffce6003e33388006070c60018f8318000f0ce30001b83180060e0c600031831800ffffff0038e031800060ce60;
   0xc0731c007ff8c70030f031c007ffc67001c7719c00ffffff0000038000007c0e7001c0731c00fffce7000f3319c0070f0c70019f831c001f0c670001f831c0070e0c700031831c00ffffff001ce031c00070c670;
   0xffe3bc007ff8ee0030f03f800380067001ce31bc00ffffff002aabea8000fe0ee0018033f800e38c6f0003f399c0030f8ee001b983f8001b8c670001983f8007060ee0003183b8000301c0000ce03b800060c6f0;
   0xfff1f00070187c0030f81f0001c007e001dc31f8000701c0003fffffc001fe07c001fff1f000e38c7e0001f39f80039d87c001b1c1f00039cc7e0001dc1f00070707c0003181f0000380e0000ce01f000070c7c0;
   0xc061e0006018780030d83c0000c003c000c830e0000380e0002baaea8001bf078001fff1c000e38c780000338e0001b9878001b1c1e00030ec3c00018c1e0007070700003181e0000180e00000e01e000060c380;
   0xc071c0007018f00030dc7c0000e7078001c031c00001c1f00001c0700003bb8f0001fff3c000e38c700000319c0001f1c70001c0c3c00070fc780001ce3c0007071f000031c3c00001e7f00000e03c000470c700;
   0xc063e0006019f80038cefe0000770f8003fff3e00000eff00000e0780007399f80000007e000e38cf8002031be0000f0cf8001c0e7e000207cf800018e7e0003039f800230c7e00000ffc00000e07e000c68cf80;
   0xc077e000701bdc003ec7e700003e1fc003fff7f00001ff0000007ffc000f39ddc00000067000f7dddc007031ff0001f0ddc001c0777000002dfc0071c777000703d9c00730e7700001fe000000e0f7001c7fddc0;
   0xc062700060191c001ec7470000381ce000c007380007fe0000007f80000e38f8e00000007000fffd8c003030d38003fce9c000c0327800000d8e002183a7800301c0e00330e4700007ff000000e047000c6fe8e0;
   0x7fffc3c007ff80f0000c3c3c00078087000e0023c003fdff40007fff4000c3860f007fffc3c00fffd0f003ff0e1c0079f70f000f63c3c01fffc8f007fc1c3c003d9e0f00370783c001f87fc0000f403c00ff3e8f0;
   0x3fffc1c007ff8070000c181c00060003800fc001e007c03ff001f81ffc00038007803fffc1c00e00c07003ff060e00e07f07000fe1e1c00fffc03803f80e1c003f8f07803f0381c003c00ff0000fc01c00fe0e078;
   0x8007018030000c000c000600010007c00040070001f000c001fc0003800100000000c00400c03001fc040400c032030007e0c0400000001001500604001f8601001f0180c0010001e00007c00c000000030;
   0x0;
   0x0;
   0x0;
   0x0;
   0x0;
   0x0;
   0x0;
   0x0;
   0x0;
   0x60000180180000c006000030018000000060000000180000600600000c018000c000600001c01c0000c0060000380180001c010000066018000404060000000180003c000000070018000000070000300180;
   0x3fff060000380180000e006000038018002aaa86000aaa8180000600600000c018001fe8060000180180000c00600003b8180000c038000066018000c0e060007e7e180007ffa0000030018000c03030000300180;
   0x3fff070000380180001f00700001801c003fff87000fffc1c003fffc6000e0c01c001fff0700003801c0000c00700003b8180000e07000006601c000e1c070007e7e1c0001ffff000073818000c170300003001c0;
   0x3aab030000300180001b003000fffe18003fff86000fffc18003fff8600060c01800003f0600003000c0000c00300003b818000aeaea80006600800061c0600066660c0000062b000033818000c3b0300003001c0;
   0x386303000fffc1c0003b807000fffe1c00000007000061c1c003fffc70007ffc1c00000307001fffe1c007fff8700003981c001fffff800c6671c0007180700066660c0000060000007181c000c770300003001c0;
   0x38632b800fffcba0003182b8000ce0ae0000002b800060cae0000602b8003ffcae0000032b800fffe0c003fffab8007ff8ba000aaeaa800e666ae0003082b80066662e002aaeaa8000318ba000c732b8000300ae0;
   0x38637fc00c00dff000f1c7fc001c71ff001fff7fc00061dff001fffffc001cc1ff0000037fc000011ff0000c07fc007ffdff00000600000666fff003fff7fc006666ff003fffffc00fffdff000c677fe00fffdff0;
   0x38637fc00d80dff000e0e7fc003871ff000fff7fc00060dff001fffbfc000cc0ff003fff3fc001c30ff0000c07fc00038dff000fffff000366cff003fff7fc006666ff003fffffc00fffdff000ce33fe00fffdff0;
   0x3d7773000ff0d8c003c0773000703dcc001c07630007fdd8c001860330000ec1cc007fff730003839cc0000c073000038f8c000fffff000367ccc000718730006666cc000076e0000070d8c000cc73180003018e0;
   0x3fff338000fe18e007fffe3800fffece000c07638003fcd8e00186033800fffece002aab338007018ce0000c063800038f8c000006000001e78ce000318338006666ee0001e678000030f8c000ec33180003018e0;
   0x3fff7180001fdce0037fdf1801ffffc6001c077180070ddce001fff31801fffec600000333800e01cc6003fff718000385ce001557554000660c600071871801ffff660007c63e0000707ce000e47318000301c60;
   0x386331800018986000000318008002c6000c073180020cdc6001fffb1800abeac600000331800e82ec6003fff31800abab86003fffffc000660c600031831800ffff66003f060f8000306c6000e03398000300c60;
   0x38e33180001c1c6000000318000000c6001fff7180070ddc6000063b980000e0c600155331800dc37c600000071800ffffc6003fffffc001e70e600071831801ffff66003c0787c000704c600060739c000301c70;
   0x38e3318008180c600000031800fffee6000fff3180020ccc6000063b98000070e6001ffb398000c30e600000031800fffec6000001c00003e7866003fffb1800666666000001808000300c600060338c002ba8c70;
   0x39f339c00ffc0c7001fff39c00fffee7001c0731c0075dcc7003fff99c00707c67001fff19c000c706700155431c0007c0c7001555d5400767c67003fffb9c00666677001555d5400fff8c700070718c007ff8c70;
   0x3bb33b800fff8ee001ffe3b80000386e000c073b8003fccef003fff9bc003c7e6f00181b1bc000e606e001ffe3b8000fe0fe003fffffc00e66f6e0003181bc0066663f003fffffc00fff8ee0007631bc006ab8ee0;
   0x3b331f00007fe7c001c071f00000387c001c071f0007fdc7e0030701f8001f77fe00181f1f80007e07c001ffe1f0001ff07c003fffffc01c6777c00071c1f80067663e003fffffc0007007c000f771f80060187c0;
   0x3a3b1e000018e780018061e0003ff878000fff1e000060c780038f00e00003f33800181b8e00007c0780018061e0001bb0f00000e03800006303800031c1e0006666380000e038000030070000fbb0e0006018780;
   0x3e1f1c00001c0f0001c071c0007ffcf0001fff1c000061c70001ff81e00000f07000181d9c00003c0f8001c061c0003bb9f00000f01c0000630f800071c1c0006766780000f03c0000701f0001f9f1e0006018700;
   0x3e0f3e0000181f80018063e0003001f80000003e000060cf8001f981e0004070f8001819be00003c1f80018063e000339df8000078fc0008638f800030c3e000636678000079fc0000301f8001987be0006018f80;
   0x380777001c1c3dc001c07770003001dc00000077000061dfc00039c3f000c071dc00181df70000fe1dc001c0677000f39f9c00003ff0001c61ddc00070e770006367fc00003ff000007019c0039c3f70006019dc0;
   0x3fff27000c1839c001aae2780030018e00000067000aead9c00070e33800c0718e001ff9e38001e788e00180667000e38f1c0000ff80000861c8e0003076380063634e0000ff8000003001e0030e1238007ffb9e0;
   0x3fff03c00d5c10f001fff03c0038010f007fff83c00fffc0f001e07c1c00fff08f001ffcc3c007c3c0f001ffe03c00c3870f000ff7fd001d60f07000707a3c00777307001ff7fc001fffe0f00707023c007ff98f0;
   0x3aab01c00ff8007001ffe01c001fe007003fff81e00aaa807803c03e0e00ffe007801818e1c00f01f03801ffe01e00038207003f80ffc00fe0783800303c1e007bfb83003f00ffc00fffe0700203800e006ab8070;
   0x380300c007f0003001c0700c001fe00100000000c00000003003000c04007fc00100181c40400c00601001c0600c00038003001c0017c007c030100070180c00193901001c001f800000003000010004006018030;
   0x0;
   0x0;
   0x0;
   0x0;
   0x0;
   0x0;
   0x0;
   0x0;
   0x0;
   0x1c00600030101c000000060000000180000000700001c0180000000700001c00c000000060000380300000070000000001800001c0600000001800010600000018018000660000001300180000060000000601c0;
   0xfb806000383818002aaa060007ff818003fbfc2000018018003fff8600008c03c001fff06000038038000006000003e001800000c060000000080007060e000018018000f60000003b0018000006038000060180;
   0x1dff0700018301c003fff070007ff818003fbfc3000038018003fff870001ddc78001fff060007ffc18003fffffc007ff81800101c06000fffe1c0003861c00001801c001c600000077001c0015570f8000ff01c0;
   0x198fc20001c300c003fff020006018180031bb830003ffc180038038300038ce200018e3060007ffc18003fffffc0003f818001ff806000fffe0c0003863800001800c0018600000063000c003fff9e0001ff00c0;
   0x39cfc70007ffe0c0000030700070181c0039b3030007ffc1c0038038300071c6070018e307000639c18001fffffc00038018001fffc70000e600c0001c6380007ffc0c003fffff80067001c001fff980001ff81c0].
Definition hanzi_rows_40 : list N :=
  [0x318e2b8007ffeae0000032b8006018ae0019b30b800300cae003803ab800e8c71e0018e32b800638c18000030c00000380ba00083fab8000e600c003fffff8007ffcae003fffff800fffeae001c31c00000e18ae0;
   0x1ce7fe007ffeff801ffb7fc007ff9ff0019b31fc00701dff003fffffc00fdc39c001fff7fc007ffdff8001b0dc0000181ff001c307fc000e60ff803fffffc000181ff80006003801ffffff001c70e0000061dff8;
   0x18e3fe006180ff801ffb3fc007ff9ff0019b31fc00300cff003fffbfc004ec3a0001fff3fc007ffdff8003b0cc000fffdff000f303fc000e60ff80003f800000180ff8000e0038000300ff000e7850000fffeff8;
   0x7ffff30006180ce0000037300000018c001dbfd98007ffdcc000403b3800074170001fff73000639d8c000730ce001fffdcc0007f033000ce67c400007fe00000180cc0018ffff8000731cc0000fc1c000ffffcc0;
   0x3ffff38006ba8c60000033380000018c000dbfd98003ffcce000f83b180003c0380018e333800638d8c000e30c70001ce18c0031e033800ce66c60000e6780000180c60018fffb800e630ce0001ce0f000000fce0;
   0x18e318007ffcc6003fff318007ffdce000db319800701cce0007ffb180001fd1c0018e3338007ffdcc001c30c38001871cc0031ff318006e66c60007c63c000fffec6001ce1c38006730c600078f07c00001fc60;
   0x398e398002bacc6003fff318007ffcc6000db319800300cc60000ffb1800003f8e0018e3318002aa8ce001830c18003870ce003b8fb18006e6ee6003f860f800fffee6000ce0c38006630c6003f03e0c007fccc60;
   0x198e39c00018ee7003fff31800601dc60019b319c007ffcc60010c7b9c00000787001fff318000001c6000001c1000703dc6001f03b18006e6c66001c0787c000180e7000cc5f78007774c6003c01f04007fdcc70;
   0x198e18c000186630011b339800600cc60019b3888003ffce6001fc3b8c00000e02001fff39800fffec6000001c0001e03ec6000c00398006e6c62000001c0800018063000ccfff80036fee6000001e000060cce20;
   0x1dfe19c00fffe670039b319c007ffcc70031bffcc007ffc67001fff99c005557550000e019c01fffec7003fffffc00d86ec6003fffd9c007e6c67003fffffc00018067000ecd7780037fe67001555d540070dc670;
   0xfbfdb800fffe6f001f331bc007ffcef0031bfedc00618c6f0000ff99c00ffffff0000e01bc000030ef003fffffc001860ee003fffdbc003e6c6e003fffffc007ffe6e0006ce338003e306f003fffffc0060cc670;
   0xf8fdf000c1c07e000f331f800601c7c0031b18f800f39c7e0030c19f800ffffff001fff1f00000307c0001c07000018607c0015dd5f8003e7c7c0015d5754007ffe7c0007c63b8001e307e003fffffc0070dc7e0;
   0x70ede000c1e0380003330e000600c780031b98f0003b0c38003fc18f0000381c0003fff0e0007ff0780000e03800018607800019c0e0000e60380000e0380002baa78000386f98000e38380000c0380003ccc3c0;
   0x70e3e000c1f0780006331c0007ffcf00031b18e0001f1c70001fff9e00003c0e0001fff1c0007ff8f00000e07c00018707000019c1c0000e60700000f01c0000180f80033c3e18000e18700000e03c0003ccc780;
   0x238e7e000e1b8f8000e33be0007ffdf8003fb89e0000e0cf80000ffbe00001e3f00000e03e0003001f8000073f80001870f800018c3e0000e60f800007bfc0000181f80061c7818008e18f800007bfc00040ccf80;
   0x67ce77000fd9ddc001d31f7000601ff8001d98df0001d1ddc0070c1ff00000ffc00000e0770007001dc00007fc00001871dc00718e3f0000e61dc00003ff00000181dc0073ffe1c019f1ddc00003ff0000c0cffc0;
   0x26ee23800798e8e0019b9a3800600d9c000198e380039ec8e0020c0d380003fe000000e06380030001c0003ff0000018399e00218e338000e600c0001ff8000001808e0033e879c019b8f8e0003ff80000c0cfce0;
   0x7e7e01c0079878f0079f9c3c00601d0f00019861c01f1fc8f007fc0e1c003fdff0007fffa3c0030000f001fe7fc000181c0f007587c3c01ffff8e001ff7fc001ffff870037781dc01f9e68f001ff7fc000ffc7870;
   0x3e3fc0e00018303803078c1c007c0c0700019f70c00e03e07803fc0e0e007e03ff003fff81e003f8007003e00ffc00180e07003f83e1c00ffff87003f00ffc00ffff83803e3c00e00f0f007803f00ffc00ffc7038;
   0x1c07c0400018001000018c04007c1c0300019f20400000403001f004040030007e00000000c001f0003001c001fc00180401001f00c0c00000003000c001fc00000001001c0c00400603001001c001fc007f03010;
   0x0;
   0x0;
   0x0;
   0x0;
   0x0;
   0x0;
   0x0;
   0x0;
   0x0;
   0x600001801800006006000018018000f000600003001c0000700700003001c000007070000180180000700700001c004000000070000000180000000000000001c000001070000000180000000600000c0180;
   0x1fff860000180180000e006000018018001ffe06000638c0800003006000030008000003030000180180000600300000c01e003fefc30007ff818000003ffc0000aa88001ff3860007ff818001fff0600000e0180;
   0x1fff8700055d41c0001c0070000180180001ff06000739c1c003fffc700057541c001fc70300001801c0015f507000ffff7c007fffc70007ff81c001fffffc0001ff9c001ff3070007ffc1c001fff060001ff01c0;
   0x1801820007ffe18003fff860007ffc180000c3060003bb80c003fffc3000fffe0c003fc3030007ffe0c003fff830007fff20003aaec3000601818001ffd83000feea8c0018070300070180c001803060003ff0180;
   0x1861870007ffe1c003fff870007ffc180001c70700019900c00157543000fffe0c003fff030007ffe1c003fffc300071c30700180cc300070181c001c19ff000ffc70c00184603000701c0c001c07070001c381c0;
   0x1861ab800638eae003001830000180ba002bab2e800fffc0c0000300b80001800c0030bf0b8000180ae0030018b80030c30f00180ecb8007ff8ae000c39ff000c6c20c0018600b80070182e0018032b8000c38ae0;
   0x1bfdffc00638fff003001ffc000181ff803fff7fc00fffdff801fffbfe0007c1ff8031c71fe000181ff003005ffe007fff1c001bf6dfc007ff9ff000e71c3000c6c7ff801861ffe007ffdff801c077fc000e1dff0;
   0x1bfdbfc007ffeff003aabffc000181ff802bab7fc0000c0ff800fffbfe001ee0ff8038831fe007ffcff002006bfe003fff08001be6dfc006019ff000661ab000c6feff801861bfe007ff8ff001fff7fc007fffff0;
   0x1861b30007fffcc000ffe73001ffffcc0003877300000c0ce001c70338007c7ccc001987198007ffccc001fd7338001c3bb0001b76d98007019cc0007e1ff000c6ffc6001d75f380057d4cc001fff630007fffcc0;
   0x1861b3800618ece000eae23800fffe8c00230363000aaeac6002ebab1800f03ec60019abb98000180ce001fbf318000e73b8001b22d98007ff8ce0003c183000eec2e6001fffb18000380c600000063800630cce0;
   0x1ffdb1800618ec6000c06718001c39cc00677f73801fffec6007ffff18004006c60019fff98000180c60019ff3180007e1dc001b76d98007ff9ce0007f7c30006cc766001ffff18000380c600000071800631dc60;
   0x1bfdb18006beec6000c06318000c30c6003e7fb1800aeeac6002ebab9800fffec60019aeb9800fffec60019b3b98000fe1ce001b2ed98000000c6003e7fffc006cc266001861b9800fffee6003fffe1800630cc60;
   0x1801b98007ffec6000d56318000c60c6003c1f318001c70c6001c7019c01ffffc6001d861dc00ffffe60019f199c00ff7ee7001b7cddc000000c6003c1ddfc006cd7670018f1d9c00fffee7003ffff1800631cc60;
   0x1801b980006e0e6000ffe318007ffcc6001800318003838e2000fff98c003000e2000f16c8c0003e0e60019b198800f80c62001b2cc8800fffcc6000001800006cfe620019f198c00c18663000060318006bacc60;
   0x1bfd99c00067067000ffe39c007ffce7001fff39c007ffc67001fff99c0073fc67000f36ccc004370670019dfd8c00000600001b7cdcc00fffce7000001c00007cff730019f9d8c00c1866700006031c007ffce70;
   0x1bf99bc0006386f0000061bc0001806e000ffe3f800fffe6e00003019c0033fc6e000f36cdc00f3386f00199fd9c00aaafaa001b28cdc00e00cef003fffffc0038c236001b7999c00c3866e0000603f8002ba8ef0;
   0x1b0d9f800061e7e001ffe1f80001807c001c071f001d81f7c0000731f800730c7c000776cf8007f3e7e001ddc1f800ffffff001bfccf800e00c7e003fffffc003cc73e001f6ddf800c7c67c007fffdf00003c07e0;
   0x1b098e000aeaa38001ffe1e000018078000c061e000981a38001ff30f000330c380006666f0001e3fb8001f980f000aeabaa001befcf000fffc780001c07000038c23c001e6f8f000cce678003fff9e00003c0780;
   0x1b0ddc001ffff70001ffe1c000fffe70001fff3c0001d1870001ff31e000730c700007666e0000e37780007cc1e0000701e000187fce000fffc700000e03800019ff38001867de000dc76f80000f03c00003c0700;
   0x1bf8fe000aeaaf80018063e000fffef8000ffe7e000cf18f80000379e00033fcf8000f866e0001c307800018e1e0000380e0001820de000e00cf80000f0fc00038ffb80018619e000d83ff80001f87e00003e0f80;
   0x1bfcf70000601dc001806770000181dc001c0767000c519dc00007fbf00073fddc001d867f0001d30fc0071c63f00001fff0001800ff000e00ddc00007ffc0007cdf7c001861ff000d037dc0003bcf7001c371dc0;
   0x1808e380006008e0018066700001808c000c0647800c0388e00003dd3800300c8e001dc60b8003bb0ce0021873380003fe00001800db800e00d9c0000ff800006ec0ee00186193800c0068e00071e67800c3399e0;
   0x1d0063c0006008f001ffe43c0001800f001fff03c00fff80f007ff8c1c00700c0f0038e601c01f1f0cf0071c391c001ffff0001f80d1c00fffc0f000ffff4000e7c0c7001f61c1c00c00607001f0f83c00ff1e8f0;
   0x1f0071e00060007801ffe01e00018007000ffe01e007ff007803fe0e0e003f000780707780e00e07803803f81c0e00fe03ff001f00c0c00fffc07803f81ffc00c3c003801e0180e00fc0603803c03c1c00ff0f078;
   0x1f002040006000100180600c00018003001c0700c00000003000000404001f000100306380400401801001f00c040070005f000500c0400e00c03001c001fc00c3c001001e01c04007c0601003001c04007c07010;
   0x0;
   0x0;
   0x0;
   0x0;
   0x0;
   0x0;
   0x0;
   0x0;
   0x0;
   0xc000700000001800070c0700001c01c000e060600000001800040c0600001c01c000000070001870180000e0060000180000000700600001c018000c0406000000000000000070000000180001c01c00003801c0].
Definition hanzi_rows_41 : list N :=
  [0x1ffe86000fffc1800030c0600000c018000e0606000000018000e0c06000018008003fff860001830180000e006000018ffe00006006000038018000c0e060007fe7fe000000020007ffc180000c0180000380180;
   0x7ffc7000fffc1c00175d4700000c01c000e0607000fffe1c00071c06000fffe1c003fff870005d74180000600700001cffe0015f546000038018000e1c060007fe7fe003fffc70007ffc1c0001c01c000fffe1c0;
   0x1c3083000e38c18003fff830007ffe0c003fff86000fffe0800031806000fffe0c00386603000fffe18003fff86000ffc388003fff86000fffe1800061806000606606003fffc3000600c18003ffdffc00fffe0c0;
   0xc7387000e38c1c003fffc30007ffe0c003fff8700001c01c003fff87000fffe0c00186603000fffe1c003fffc7000ffe1fc007fffc7000fffe1c0007180700076666600000003000700c1c003ffdffc0003800c0;
   0xe632b800e38cae00030c0b8006006ae000e062b80000c00c003fffab80038300c001fe62b8001830ba0000602b80030e1e000000003000c0860c0003882b8006666660000000b8006aac0c0003e03c0002ba8ae0;
   0x7673fe00fffdff00076c3fc007556ff800e067fc00ffffff0000e07fe001871ff001fe73fe001871ff0000607fc0039ffff000fff7fe00c187ff801fff7fc007666660003fc3fc007ffdff0007f07e0007ffdff8;
   0x3fffbfe00fffcff0000603fc007ffeff000ffe3fc00eeeeff000aea7fe000c60ff00006f3fe0009a1ff002aeabfc00199fff000eae3fe00c186ff801fff7fc006266660003fc3fe00600dff0006f0fe0000380ff8;
   0x3ffff3000000ccc001fff330007556cc000ffe73000e66ecc001fff63000fffece00007f3380001c1cc003fffb30001f0cf0000c07730007ffccc0018e37300077667600136c31800700dcc000fd9df00057d4ce0;
   0xc33800000cce000fff318006006ce000e0633800e66ece000aea63800fffec6003ffbb180000c18c003aabb38000e0ef8000ffe330007ffccc0018e3638006766f6003a6cb18006aac8e001cdc9b800fffece0;
   0xc318007ffcc6001c63318007ffec6000e0631800e66ec60000e071800c386c6003fe1f1801ffffce003b1db18001f84dc000fff33800718cce001fff738001f81f0003b6df98007ffdc60079cf1dc01ffffc60;
   0x3ffff98007feec6000c63398007ffee6000ffe31800e66ec6002aeab1800c386c6000000b9800fffece003b19b180039e0cf00000031800618cc6001fff318003987b8003a6cb98002aa8c60030c618c000000c60;
   0x3fffd9c00607ce6001c6319c000000e7000ffe31800e66ec6007ffff1800c386e6001fff39c000060c6003999b1801f0faf3003ffff1800718cc60018e33180071f61f003bfdd9c00060cc60001c1dc0007ffce70;
   0xe18800602ee6000c63188000000620000e039800fe6ee6002aaab08007ffce2000fff18c000060c6003991b9800c03ef0003ffff98007ffce60018e331800607206003bfc98c00060cc6000001c00007ff8e30;
   0x55619c007ffe67001d7758c00ffff670000e019c00754e670000603bc007ffc67001c0718c000070e7003ffd99c00000700003555d9c007ffc67001fff39c00000700003b6dd8c00c60ce7003fffffc00701c670;
   0xffe1bc007fee6f003fffd9c00ffff67003fff9bc0001806e0000601f000638c6e000fff1bc007ff8ee003ae99b800ffffff003000db800618c6e001fff3b800ffffff003a6c99c00f6fcee003fffffc006ab8670;
   0xfff1f80060767e007fffdf80001807e003fff9f800ffff7c003fff9e000639c7c001fff1f8007ffc7c0038619f000ffffff003fffdf000718c7c0000e01f000ffffff003b6ddf8007ffc7c003fffffc007ffc7e0;
   0xe0f0e0006026380000e00e00001803c0001f00e000ffff38003fff9c000638c38000c030e000603e78003ae99e0000301c0000fff0e000618c380000e01e0000701c0003bfc8f0000eac780000e03800060183c0;
   0x71f1e0007ff6780001f01e0007ffe780003f81c00003c0700000f03c000639c70001c071c000607f70003ffdbe0000380e00000e01c0007ffc70007ffffc0000380e0003bfdde000060c700000f01c000701c780;
   0x3bbbe0007fe6f80001b83e0007ffef80007fc3e00007c0f80001b07e000638cf8000fff3e0006036f8003861be00001c3f00000e03e0007ffcf8003ffffe0000381f00038009e000060cf8000079fc0007ff8f80;
   0x1f1f70006077fc00039c770000181fc000eee7700006e1dc0003b8670007f9ddc001fff770006071dc003861f700001ffc00000e077000718ddc0000e07700001fff0003801ff001c60ddc00003ff00007ffddc0;
   0x3e1d38006023ce00070e238000180ce001ce7a38001e708e00071c238007b8c8e000c032380060309e003861a380003fc000000e02380001808e0000e02300003fe00003fffb3800c68d9c0000ff8000060198e0;
   0x1ffce1c007ff30f001e0701c01ffff870078e3c3c007c3c0f001f1f03c001b840f001c0701c007ff00f00386183c007fdff00000e001c000180070000e003c001fffd0003fffc1c00d7fc8f001ff7fc000701c8f0;
   0x3e3f70e007fe387803803c0e00ffff838030e181e00f01f07803c07c1c00038007800f8300c007ff007803e6181e007c03ff0000fc00c000180030000e001c007e07ff003aaa80e00fefc07801f80ffc007e18038;
   0x380720400607101003001c04000000010000e000400c00703003001c0c00038003000f0700400607003001e018040030005f00007c004000180010000e00040070007f003800004007c0c03000c001fc003c1c010;
   0x0;
   0x0;
   0x0;
   0x0;
   0x0;
   0x0;
   0x0;
   0x0;
   0x0;
   0x700000001800000007000000018000070060007000180006020600003001c00000007000018018000070060000c301c0000e0060001184000000e00600003801800100007000000000000000060000000180;
   0x1fff060007ffc18003fff86000fffe180000e0060007ffa180007070600007000c002aaa8600001a018000060060000c30180018e306000398efe00006006000018018001fe006000fffee0000aaa060003ffc180;
   0x1fff070007ffc1c003fffc7000fffe1c0000e0070001ffe1c00070e0700006000c007fff87000fdfc1c0000e007000ffff1c0018e30700019dcfe000070070007ffc1c001fffc7000fffe78000fff060007ffc1c0;
   0x180303000618c180001980300000ce08003fff83000618a1800038e02000fff80c002bab83000fdbe0c003fff82000fffe0c0018e30600018d8c6000ffe06000fffc1800083f8300001803e000eab06000300c0c0;
   0x1fff03000618c1c0001980300000ce1c003fff83000719c1c003fffc7000fffc0c0001c183000e1861c003fff870000c300c0018e3070007ffec6001fff07000f55c1c001871070007ffc07000c0707000701c1c0;
   0x1aab030007ffcae003fff830003feeae0030018b8003398ae003fffcb8000099ae0000c18b800e1860c0030018b8002eba2e001fff2b800fffec6000c062b800ec6cae0018632b8007ffde0000c032b8003ffcae0;
   0x1c077fc007ffdff003fffbfc003fefff003701bfc003b19ff0001cc3fc00019f7f003ffdbfe00fdffff803001bfc007ffeff801fff7fc0055f4c6001fff7fc00e7edff001c677fe00731cf0000fff7fc007ffdff0;
   0x1fff3fc00618cff003999bfe00033eff003fffbfc00fffeff00008c3fc00019b7f003ffdbfe00fdbeff803fffbfc000c30ff8000e03fc000060fe000ffe3fc00e38cff000ce63fe00638c3e000eab7fc00300cff0;
   0x1fff330007ffdcc003999b38007ffecc0007fe33000fffecc001fffb30007fdf6600301db3000e187cc000fff330000c30ce0015f573000fffffe001c0773000efcdcc00064633000719c0f000c0773000755ccc0;
   0x2aaab38007ffcce003bbbb18003ffece00000633800c066ce001fffb38007fde6600300db1800e186ce00007033800ffffc6003fffb3800ffffee000c0633800fcfcce00000e33800618f82000c03238003ffcce0;
   0x3fffb180001e0c6003fffb1800070ec600000639800c076c60019cc318000edc66003ffdb1800fffec600183c31800ffffc6007ffff18005d7dc6001fff31800fd7cc6001ffe3180077ddc0000fff718007ffcc60;
   0x3119b18001870c6000000398000f8ec6001ffe398007ffec6003aaeb98000e7866003ffdb9800fffec6003c6e398000180e60000e031800381cc6000ffe31800fffcc6003fff398001ee0f8000fff318000000c60;
   0x3119b18001f7cc6000fff19c0038fec7001ffe198007ffee6003fffd98000e7c6700301d99c007ffcc7000f67d98007ffc670000e03180071dec6001c07318007ffcc6001fffb9c007c7e7f00000031800ffffe60;
   0x3fff9880007fce6000fff18800106ee2000386198000030e6003aae998000e1e2300300d988000180e60007f1998007ffc63001fff31800e0c7c6000c0639800060cc6000061f9800e01e0f00000031800ffffe60;
   0x3fff99c003bdc6700055519c00fffe670003861dc000030670019cc19c00ffff77003ffd98c000180670007fc19c00718c67001fff39c00c0c3fe001fff19c00460ce700006119c00400700001fffb9c000180670;
   0x1b80030f06f0000001b800fffe6700038619c003ff06f001aae99c00ffefbf002ba999c00fffe6e0006ce19c007ffc6e0018e31bc00fffefe000ffe1bc00e60c6f003fffdbc00000380001fffbb8000198670;
   0x1fff9f0007ffc7e003fffdf00001c07e0003861f8003ff87e001fff9f8000e1dbe0001819f8007ffe7c000dc7df8007ffc7c0018e31f800fffec70000701f80076fc7e007fffdf800ffffff0019999f000019c7e0;
   0x1fff8e000fffe38003fff8e00023b038003fffcf00038783800038e0e0000e0c38000d998f000301838000de1ce000618c78001aeb1e0001830c20008ec0e0003efc780000600e000ffffff0019999e0007f8c380;
   0x1c0e1c001c1de700004621c000377678003fffce0001cfc700003cf1e0001f0c7800199dde0003c3870001df81e00075ddf8001fff1c0001c38c7001dcd9c0001e0c700018619e0000700e0001999bc0007f9c700;
   0xf1c3e0001998f8000e663e0007036f80000081e0000dccf800068f3e0001b0e7800398cde0001ef0f800399e3e000fffff8000aea3e0000ef8c300188dbe000060cf8001861be0000383f0001999fe000019ef80;
   0x7fc77000399ddc001c67770007877dc00071c3f0000fcfdc000fcff70003b86fc00318eff0000fe1dc0071cf3f001ffffdc000ee07700007f0c3003e0df7000460ddc001861f700001fff0001999f700001bfdc0;
   0x1f023800718c8e001863a3000f8338e000e0e338000f878e001c8de380031c64e003186f380007e08c0030c3d3800600c8e001ce0638001f80c300360ce380086ec8c001861a380003fe000019998380001f68e0;
   0x1fff03c00e18f0f003861c3c00dd730f003c07d1c007ff78f0079cce1c00e0e70700718671c007ffc0f0001c1c1c00700c07003fffa3c007dfcd300760cc3c01fffc0f001fff83c003fdff4007fffe3c01ffe70f0;
   0x3f1fe0e00c1f707803078c1c00dff207807801e0e00f8ff8380308c60e00c073830001f060e00f83f078000f800e007e0c03803fff81c00703efb8027fcc1c00fe3e07001fff80e00fe03ff003fffe0e00ff83838;
   0x3c01c040001e00100007800c000fe00100300040400e01d010001cc00400c031010001f040400f00703000078004007c0c01007000004004006790003fc00c005404030018000040070001f001555404005401010;
   0x0;
   0x0;
   0x0;
   0x0;
   0x0;
   0x0].
Definition hanzi_rows_42 : list N :=
  [0x0;
   0x0;
   0x0;
   0x7006000001c000000070000000001c0000000700000001c00007006000070000000070070000180180000600700001c01c00030c0600000001c000306070001180180000000700001801c0000603800001c01c0;
   0xe006000001800003fc23fc00fffe18001fffc20007ffc18000070060000607fe000060060000180180000600600000800c00030c060007ffe0800030602000718c18003fff82000038008000060380000180180;
   0x3fffc7001ffffff803fc33fc00fffe1c001fffc70007ffc1c003fffc7000fff7fe003fffc700001c01c001fff87000ffc01c003fffc70007ffe1c00030603000319c1c003fff87000ffff1c003ff3ff8007ffe1c0;
   0x3fff83000aaaaba00324336c0001800c0018b083000664c0c003fffc3000fff606003fffc3000fffe0c001fff83000ff800c003fffc200062e00c00033fe300039b80c0000c003000fffe0c003ffaba8007ffe0c0;
   0x1c300015555c00364336c00ffff0c001bb383000664c0c0000000700030c60600007003000fffe1c0015750300001c00c00175d4700067ee0c00037fe3000ffff1c0000c60300018300c001d5c380001c300c0;
   0x6188b8003ffff8003adff6c00fffe2e001b37030007ffc0c001fffab80018c7fe000aea8b80046e42e000c630b800fffe0c00030c2b8006eec2e003f860b800fffeae001fc60b80018302e000e3fffc000c202e0;
   0x619ffc00555550003fdfffc00c187ff801e3e3fe007ffcff801fffbfc00fffffe001fffffc00ec6eff000e673fc00fffeff8005557fc0074f8ff007f861fc00c007ff001fc63fe001c70ff80077fffc01ffffff0;
   0x3ffebfc001ffff800325b3ec00fdfeff801fbe3fe000000ff0018a9bfc00fff8060000003fe007c3cff00066e3fc00c8c6ff800fffbfc007cf8ff0019bfdfc00c006ff0000c63fe00aeaaff8003e0fc000fffeff0;
   0x3ffffb0001ffff800365936c00fdffce001bf7f3801ffffce0019fdb30000707fe001fffb38001c38cc00037c330007ffec6000fffb30006fffce0019ffd9800ffffcc0015d771000fffec60003c1ff0000000cc0;
   0xe38b9800180018003259b6c000180c60018b2b3800fffec6001909b38000206ae000fffb18003ff8ce003ffff380020fec6000c03b380063e2c60019f659800bfface003ffff1800ebaec6000ffbbb8002aa8ce0;
   0xf7dd98001ffff8003fd9bfc007dfcc60000ee318000000c60019fdb18007ff61f001c03b1800fffec6003ffff180075c6c6000fffb18006180c60019f6598003018c6003ffff1800e186c6007e7f39c007ffcc60;
   0x1ffc998000aaaa8003fd9bfc000180e60000c6398007ffce6001801b18002aa60b800eabb9800f01fe6000000398007f86e6000fffb180003c0e6001bf6598003018c600000639800eba6e600380c38800600ce60;
   0x37dfd98003f8c7e00071d86000555567003fff198007ffc66001fff998000707fd001fff99c007ffe6600155519800400667000c03b18000ff067001b765dc003ff8e6003fff19c00fff6e7003fffff000755c670;
   0x36dbd98003f8c7e002bacae800fffe62003fff99800600c66001fff9980002060000060618c003ff866001fff998007fa663000eabb98003c3862000b3fccc003ff866003fff18c00e18663003fffff0007ffc660;
   0x65bddc0031ff46003fedffc01ffff630001c3d9c00700c6700055519c0000070000070619c00301867001fff99c007ff667000fff99c01fb9f63000f3fccc0001806700000318c00e1866700000603000701c670;
   0x20cfc0033ae6e003fefbfc0000c067000aebfb8007ffc6e000fff1bc00ffffff002baeb9c003018670018039bc0026066e00006019c00e1cf67000f070dc0001806f002aab19c00efe66e00000703000600c6e0;
   0x170cf80037b67e00330f77000fffe7e001fffff8007ffc7c000c031f800ffffff007fffff8003ff87e001bfb9f80067767c0000701f8008cf17e000f0f0f8007ffc7c003fff9f800efe67c001fffff0007ffc7c0;
   0x3b8ce00037b34600330e33000fffe3c0000c30e000c3e038000fff0e0000701c0002aaaaf0002ba838001bbb8e000266638003fffcf0000e383c00061f870006bac38003aaa8f000ec2638001fffff0002ba8380;
   0x1dcde0003db35600319e33000c666780015d71e000f77078000fff1e0000380e0001fff9e000119070001b1b9c001ffff78003fffde00077907800073f86000618c7000374d1e000ec66780001c1c30000380780;
   0x6eefe0003d9f7e0031bb33000c666f8001fff3e0003e3ef8000c033e00001c3f0001fffbe00039b8f8001bfbbe000fffaf80000f83e00039e078000f36ce000618cf80036c9be000efe6f80000c0e3800fffff80;
   0xc767f0003ddc560031d331800c667fc0015d7770001c3fdc000fff7f00001fff0001c03bf000719dfc001bfbf70000707dc0001dc7f0001c7cfc001f96df000618ddc003cd9f7000efe7dc0000f7f1801ffffdc0;
   0x1a3863801b0fc420038e3b1800c667ce0000c3238003a320e000aaa3380003fe00001803b3800618ece001803a380006030e00039e338000f08ce0019866b800698c8e003099a3800e0268e00007f8180003808e0;
   0x1ffc71c01b0f743001971ffc00c66687003fff03c00f7f007007fffe3c003fffd0001fff81c00e18707001fff81c00070387001f0f83c0007f0070039c669c00798c0f003019c1c00e006070007ffc1c000380070;
   0x33fe30c00f063fb801e38dee00f66603803fff00e00e1f803803fffe0e00fe07ff001fff80e0041e203801fff80c0007e183803e03e0e0000fe038030e620e00098007803f0080e00f80603801f87fce000380038;
   0x300420400f06179000e100440076660100000300400c018010015554040070007f001c038040001e0010018038040003c101001801c0400001c0100206600400018001001f0000400780601001c007cc000380010;
   0x0;
   0x0;
   0x0;
   0x0;
   0x0;
   0x0;
   0x0;
   0x0;
   0x0;
   0x1c00000000c0000000018000000000000000038000001c000000006000001c00000000c000000000700000007000000000000000000000001000000000000000000000000000000000dcc0c000000070000c301c0;
   0x3fe0000001ffe80000018000000ffff0000c038000000c000000006000003ffe800000c0000000007000000070000000000000007fff80001880000000000000000000000000000002c8c0c001fff860000c30180;
   0x7ffffc0007fffc00001dffc000ffff0001e038000000c7ff0015575540017fffc0000c1ffc0000070000000e00000fff7ff00007fff80001dfff000fffff0001ffffc0007ffff0007ccc0c001fff87000ffff1c0;
   0x67f7fc00001afc001ffcffc00078000000effff00000e3ff003fffffc000802fc0000c0ffc00aaabaa001fffff800fff7ff00006030000019fff000ffffe0003ffffc000ffffe0006cce0c00006003000ffff0c0;
   0x67370000001800001ffee000001e0000007ffff000006380003fffffc00180c100000c070000ffffff001fffffc007007000000707000001cf00000780000001e000000078000000edfe0c003fffc30000c300c0;
   0x663380000018000018067000000f80000038380000ffe180000006000001c0c180000c030000ffffff00180001800380380001ff0300000187000001e0000000780000001e000000cfeb0c003fffcb8000c302e0;
   0x6731c000ffffff001807300000038000001e380001fff1c0000006000000c1c380004c4380000001c000180001c001c01c0001ff03800001c3c00000f00000003c0000000f000000cf33ff803060ffc000ff0ff0;
   0x6630e000ffffff001803b80007ffffe002afbaa8003038e0001fffff8000e1830000ecc1c0000000c0001800018000e00e0001800380000181e00000380000000e00000003c000000c017f803f6fffc000ff0ff0;
   0x6730e00001df800019ffdc0007ffffe003fffffc00307c70001fffff800071870000ccc0e0001ffce00019fffdc000700700018001c00001c0e000001e0700000780000001e00001ffffe6001f6f73000194ccc0;
   0xe630e000039bc00019ffcc000003800003fffffc00387c3000180001800000000000cce0e0007ffc600001fff80000600600018000c0000180e000000e0f00000380000000600000ffffe600006039800dbeee60;
   0xc730e0000f18f0001dc68c00000380000000780000387e70001c00018001ffff8001cc60e0003ffc700000f000000070070001cffff00001c0e000000e1e000803800000006000000cdc66001f6f99800fb6f660;
   0xc634e0003e18780019860c000003800000003e000018ec300019fff98000ffff80018c66e0001e003800007800000aea860000cfff7800019ee000000e3c000f8380000000600000cfcf66000060198007a6e660;
   0xc737e001f9555f001dc6fc000001fc00007fff80001cc5f00011fff90000780000018c77e00007003c00001e00001ffff70000f7003c0001dfe000000ef0000fff800003fffffc004fdf77003fc719c001b6c660;
   0xc23bf000e7ffe7001986fe000001f800003fffe0001cc3f80000f00000001e0000038c33f00003803e00000e00000fffff000073c008000183fc00000fe00000ffe00003fffffc006cc823003fc6188001a6c620;
   0xc738fe0007fff0001dfe1fc000005000001f01fc000dc07f00003c000000078000030c30fc0001803f003fffffc000701ff00001e0000001c0ff80000fc0000007ffc000006000007fdf370030fffcc019b6c770;
   0xc338fc0000f0000019fe0fc003ffff800003c03c000f803f00000e000000038000030c38fc00abaabb803fffffc0006007f000006000000180ef00003f00000003bff000006000006fcf360030ffedc009aefb70;
   0x1df18e400007800001fd60c4003ffffc00001c00c00078071003fffffc00ffffff0070c18e401ffffb9003fffffc00070071003fffffc0001c0e10001fe0000000381f000006000003cdc3c003fc70f801fbefbe0;
   0x19b18e000aabaaa000f860c00038c318003fffff000070030003fffff800ffffff0030c18e000ffffb800000600000060060003fffffc000180e0003fee00000003800000006000003aca380030c70f000f00c3c0;
   0x19b18e000ffffff0005060c00038c71c003fffff000078070003fffffc000038000000c10e0000180380000060000007007000155755401c1c0e0007f8e00000003800000006000001fdf780030df9e0000000780;
   0x1b398e000aabaaa0000060c00038c31800000c000000fc030000006000000038000000c00e00001803800000600000060060000006000018180e000380e000000038000000060000098c878003ffede0003b6c780;
   0x3b19ce0000018000070060c00038c71c00000c000001de070000006000000038000000c00e0000180380000060000007007000000600001c1c0e000000e00000003800000006000019fdcfc003fd7df000776efc0;
   0x3bfcce0000018000030060c00038c31800000c0000038f830000006000000038000000c00e0000180380000060000006006000000600000c180e000000e0000000380000000600001bffece0030c6638006666ce0;
   0x77fce7c0000180000355e0c000ffffff00000c00000f87c70000006000000038000000d40e0000180380000075000007007000000600000d5c0f400000f50000001d4000000750001f7ff87003fc761c00e667070;
   0x360867800001fc0003ffe0fc00ffffff00000fe0000e01e3e000007f0000003f800000fc0f80001f838000007e000007e07e000007e0000ff80fc000007f0000001fc0000007f0000f38083003fc600e00cce3838;
   0x100047800001f80001ffc07800000000000007c000040041e000007f0000001f8000007c0780001f838000003e000003e01e000007e00007f007c000007f0000001fc0000007f00006180010030c700400c441010;
   0x0;
   0x0].
Definition hanzi_rows_43 : list N :=
  [0x0;
   0x0;
   0x0;
   0x0;
   0x0;
   0x0;
   0x0;
   0x700000000c0000000700000001c0000000700000000c0000000700000001c00000003000000181c000000000000c000200001c0300000000000000601c00000000000000700000018000000603040000000e00;
   0x700000001c0000000600000001c0000000700000001c000000070000000180000000300000018180003fff80000fe00780000c0300003ffffc0000601c000ffffff00000600000038000000e070e0002aa0600;
   0xe00000001c0000000e00000001c0000000e00000001c000000060000000380000000700000ffffff003fffffc007fffbc0015f5754007ffffc00006018000ffffff003fffffc000701ff0007061c0007ff5750;
   0x1fffff8007ffffe001fffff800ffffff001fffff8007ffffe00000e0000000380000000e00000ababaa0000603fc0002ff8e003fffffc0030000c000063ffc00aabaaa003fffffc000701ff00038e1c0006aefff0;
   0x1fffffc007ffffe001fffffc00ffffff001fffffc007ffffe001fffff8007ffffe001fffff8000381f0003ffff8000c659b7003fffffc0070000c000063ffc00001c00001fffffc01ffffc0003fffffc0070e7ff0;
   0x180001800600006001aaaab800e00007001800018006aaaae001fffff8007ffffe001fffff8002ba2ba003fffd8000e6d9a20004e08c0003ffffc000ffe00000039f00000030c0000fffec0003fffff80038c6180;
   0x180601c00700c0600184001c00e000070018c001c00600406001c0001800700006001fffff8007ff3fe003060dc0006dd9b7000e71ce0007ffffc000fffff8000fdfc00003b0dc00001c0e0003fffffc001dc70c0;
   0x180601800600e0600186001800e000070019f801800600606001800018006000060018000180018e306003f7fce0006d9ba20007f8ff0000aaa0c000eebff8003e18f80007b0ce00000e070003800018000f83be0;
   0x180601c0070070600186001c00effff70018ffc1c00600706001c001d800700006001c00018005dd3fe003f7fc60007d9fbf0003fc7f8000fff0c000c61c1800fc187f000f30c600038703000380001c000701f00;
   0x600000000700000060000000ffff000000ffe0000006000008001880020000200180001800fffbfe00006006000001faa000fc8f880003c00c000c618180060180e000c30c70001830300039fff98001fc7e00;
   0x155755000ffffff003fffffc00001800000003ff0000007000001801c000555555001c00018005757fe001f7f060007fdfbf001cf1dc00055754c000c75ff800401800001c30c3c001f78300001fffc000fdff7c0;
   0x3fffff800ffffff003fffffc000018000000038000003fffc0003e018000ffffff000000000002ba7fe000060360007fdfaa001eb9e60007fffec000c6fff8002aa060001830c18000ffc300000e000000e0301f0;
   0x3fffffc00ffffff003fffffc000018000000038000007fffc0001fc1c000ffffff000000000007ff7060015557e000381dbf003fffff80055754c000c7e000007ff0700001fffc00007fdf000007c0000047fff70;
   0x1f800000301c000006000000001800003f838000003070000003f98000001800000000000000307fe003fffdf8001c19a200303f0f80000600c000c79ff8003aa2ba0003fffc000e381f800001e000000fffe00;
   0x3fc00000380e00000600c000ffffff003fffc000007070000000ffc000001800000000000000707fe007fffc7e000c19b70011fffc000007c0c000c71ffc001c07ff0003fffc00071c0ff0000060000007c0000;
   0x76e00000180600000601c000ffffff0002ffffc00030300000000f80000018000000000000007fff000003006e000c19b20003fffc0007fcfee000cf0700000e06ba0000f80000038f03f003fffffc0000f8000;
   0xf67000001c1f00000603c000001800000007ffc000703800000001c000001800000000000000ffff0003fff86401fff9bf0000f8000007fdfee000df03c00007071c00003e000003c7c31003fffffc000038000;
   0x1e63800000efe00000603800000180000000380c00030380000000180000018000000000000003e000003fff86000fff9bf00003e000001c070e000fbbb8000fffb0c003fffffc001e1e3000000600000ffffff0;
   0x3c63c000007f0000006070000001800001803800004701c0001c001c00000180000000000000007800003199860000c1fb7003fffffc000e1306002d9bffc00fffb9e003fffffc000f0c3000000600000ffffff0;
   0x7860e00001fc00000060e000000180000380380000c300e0001c001800000180000000000000ffffff003199860000c0f98003fffffc00ffffe6002c1c3fc000601be000006000000f8030000006000000018000;
   0x1f060f00007ff000000604000000180000380380000c700f0001c001c00000180000000000000ffffff003199860000c019800155755400ffe7f7006c1c1c0000701f0000006000001fc030000006000000018000;
   0x3c0603c001f8fc00000600000000180000380380000c30078000c001800000180000000000000001800003199860000c018c000006000000e0307002c0e180000603f00000060000038f030000006000000018000;
   0x380601c007e03fc00007500000001d40001fff00000ff003e000ffff8000001fc000000000000001800003199874000c018c000006000000e0303003c071c000070f7c00000750000f07c3000000700000001d400;
   0x60080078007e00007f00000001fc0001fff00000fe000f0007fff8000001fc000000000000001f80003d99878000f8186000007e00000f83e38038039f00007e21f000007f0000e01f3f000007f0000001f800;
   0x60000030001c00003f00000000fc00007fc000007c000600000000000000fc000000000000001f80001d9983800078183000007e00000781c00018011f00003c006000003f000040071e000003f0000000f800;
   0x0;
   0x0;
   0x0;
   0x0;
   0x0;
   0x0;
   0x0;
   0x0;
   0x0;
   0x700000001c0000000700000001c0000000700000001c0000000700000001c0000000700000001c0000000700000001c0000000700000001c0000000700000001c0000000700000001c0000000700000001c000;
   0x700000001800000006000000018000000070000000180000000700000001c0000000700000001c000000060000000180000000700000001c0000000e000000018000000060000000180000000600000001c000;
   0x3fffffc007fffff001fffff800ffffff001557550007fffff00000e0000000380000000e0000000380000000e000000038000000060000000380000155f5540000380000000e0000000180000000e00000001c000;
   0x3fffffc00ffffff001fffff800ffffff001fffff8007ffffe001fffff800fffffe001fffff8002abaaa001fffff800ffffff001fffff8007ffffe003fffff800fffffe001fffff8007ffffe003fffff8007ffffe0;
   0x380001c00ffffff001fffff800ffffff001fffffc007fffff001fffff800fffffe001fffff8007fffff001fffffc00ffffff001fffffc007ffffe003fffffc00ffffff001fffff8007ffffe003fffffc007fffff0;
   0x380000c00e0000700180181800e000030018000180060070600180001800e00006001800018007ffffe00180001800e000070018000180060000600380001800e0000600180001800600206003800018006000060;
   0x3d5555c00e00007001c01c1800f5555700195555c0060078700180601c00e1c70600180c1180060000700180001c00e0006700180001c0060180600380001c00e000070018000180060070600380181c006000070;
   0xffffe800bffffa002aaaea800bffffa001bfffd80067ffc600180601800e3c30600180c3980060000600180001800e0006700180001800601806003bfffd800e0000600180001800600e06003801818006000060;
   0xfffff0001ffff8003fffffc001ffff80003fffc00007ffe0000fffff00007070000180c718007555570019fff9c003fe077001bfffdc006018060003fffc000e7fff7001555554006e3c06001001c140067fff70;
   0xc06000003018003fffffc00038380000000000000381f8000fffff00002030000000ce00001ffff80001fff80003fe2b00003fffc0000018000003000c00007ffe0003fffffc000e7800002aaaea80007ffe00;
   0x1c07000003018000000700000781c00001fffc00001c7bc000f5757000fffffe00000c420001ffff80001c0180003feff00003fffc0001ffff80003000c000000000003fffffc00077180003fffffc000000000;
   0x2aea60000030180002aab80000e00e00003fffc00000ef0e000e0603000fffffe00000c0e00000180000018018000306eb8000006000001ffff80003000c000000000000000e000003a180003fffffc000000000;
   0x7ffe70001ffff80007fffc0001ffff80003801c000007e04000e060700000638000000c1e000001c000001fff8000306e1c0000061c0001818180003fffc000000000000000f00001fc19c000000700000000000;
   0x3aae60000ffff80006003e0003afff80003800c00000fe00000fffff00008638000000e380000018000001fff800030660e0000061c0001818180003fffc000ffffff0000007000039c18c00001c70000ffffff0;
   0x700670001c00180007003f8001018180003fffc00007f7c0000fffff0001c618000000e10000055d500001fff80003067370005561c0001818180000000c000ffffff0007fff800030f18c00001c70000ffffff0;
   0x300660000c00180007fffbe000018000003fffc000ff83f8000e06030000e61c0000006000000ffff8000180180003067738007fe0c0001818180000000c0000018000007fffc00070798e00000e3800000c3800;
   0x700670001c00180007fff9c00155d500003d55c000ffffff800e06070000761c0003fffffc001ffff80001c0180003e63e10007fe0c0001ffff80007fffc0000418000007fffe000703d8e0000861c00000c1800;
   0x3ffe60000ffff8000600380003ffff80003800c0006fffef000e060300003e0e0003fffffc000198000001fff80001e63c00000061e0001ffff80007fffc0000e18700006001f000e01f860001c71c00000c1800;
   0x7ffe70001ffff8000755780003ffffc0003d55c0000ffff0000fffff00001f07000001380000079c000001fff80000061c00000061e0001818180007555c0001e18700006001fc01c60f870003c38e00000c1c00;
   0x1c060000030180007fff80000018000003fffc0000e0060000fffff0004078700000fb800000e180000018018000c060e00000063e0001818180006000c0003c183800060019c00ce03c200038387000c0c1c00;
   0x1c070000030180007fff80000018000001fffc0000e0070000e0607000c07f380001f1e00001c1c000001c018000c060f0000006770001818180007000c00078181c00060018c000e01f0000701c7801c0c0e00;
   0x1c0600000301800060038000001800000000000000e006000000602000c06f9e000f80f800008180000018018000c06078000007e38001abab80006000c00070180e0007fff80000e01fe000ff8e3c00c0c0f00;
   0x1fffff0007ffff800070038000ffffff003fffffc000ffff000000600000ffe30f001f007f000ffffff003fffffc00ffe03e007fffc3c001ffff80007fffc000e01d070007fff800007ff9f001ffff1c00ffc07c0].
Definition hanzi_rows_44 : list N :=
  [0x1ffffe0007ffff80007e038000ffffff003fffffc000fffe000000600000ffe006001c000f800ffffff003fffffc00ffe00f003fff01e001ffff80007fffc000001f820006aab800007ff86001c2fe0800ffc01f0;
   0x5555500003e038000000000000000000000e00700000060000015000000100003000000000000000000007fc007003fd000c001800180007000c000000f800006001800001ff00001800000007f00070;
   0x0;
   0x0;
   0x0;
   0x0;
   0x0;
   0x0;
   0x0;
   0x0;
   0x0;
   0x700000001c0000000700000001c0000000700000001c0000000700000001c0000000700000001c0000000700000001c0000000700000001c0000000700000001c0000000700000001c0000000700000001c000;
   0x600000001800000006000000018000000060000000180000000600000001c000000070000000180000000600000003800000007000000018000000060000000180000000700000001c00000007000000018000;
   0x1fffffc007fffff001fffffc007fffff003fffffc00557d55003fffffc007fffff00000e00000ffffff001fffffc00ffffff001fffffc007fffff003fffffc00557d5400155755400ffffff00000700000ffffff0;
   0x1fffff8007fffff003fffff8007ffffe003fffffc00ffffff003fffffc007ffffe001fffff800fffffe001fffff800ffffff001fffff8007ffffe003fffffc007ffffe003fffffc00ffffff001fffff800ffffff0;
   0x180001c007fffff003fffffc007fffff00380401c00ffffff00380401c007fffff001fffffc00ffffff001fffffc00ffffff001fffffc007fffff00380001c007fffff003fffffc00ffffff001fffff800ffffff0;
   0x180001800600007003801c180060000600380600c00e0000300380600c0060000600180001800e1838600180021800e000030018000180062180600380000c0060180600380200c00e2000700180001800e018030;
   0x1bfffdc006180070039c7c1c006ffff7003fffffc00e00067003fffffc006000e7001bd001c00e1c38700187071c00f5555700180001c00661877003bfffdc00655d5700380701c00e7300700180001c00e018670;
   0x1aaaa98000187fc0038ee618006ffff60007fffe000000060000ffffe000ffff60001bffa1800fffffe0018e079800bffffa001bfffd8006718e6002baaac8006ffff6003ffffec000e3002001aaaa9800e018630;
   0x155540003f87fc00077476000055d50000007000007fffe000000600000ffff7000187ffdc001ffff80003c63c0003ffffc0003fffc0000318c00003801c0001ffff0000fffff0001c7000001bfffdc000018700;
   0x3fffc0003f8000000e386600000180000003f800007fefe00002aeaa00000c0380000003c0000183800007061e000000018000003800000398c00003fffc0000018000002eaaa000fffffc0003800c0003ffff00;
   0x3801c000018000001e9f770001ffff80001f9f000070c0600007fffe00000c0380000001c00001c380001e0f078001fffdc000703f00001ffff00003fffc0003ffffc0001c030000fffffc0003801c0003ffff80;
   0x3800c000018000001d87e38001ffff80007c07f00070c060000606000002aea3c000aaaac0000aaaa0000c1f838001fffd8000783780000ffff00003800c0003ffff80000e07000000600c0003800c00000181c0;
   0x3fffc0003fffff003981f1c001c18380017555f40070d575001757554007ffe3e000ffffc0000ffff0000079c100000001c0003c71fc001c00300003fffc0000018000000607000010601c0003fffc00000181e0;
   0x3fffc0003fffff0031fffc800181838003fffffc0030dfff003fffffc003aae3f000aeaac0000eaab00000f0f00000000180000ef838000c00300003fffc000aabaaa003fffffc0038e00c0003fffc00000180c0;
   0x1821980001ffffc001ffff8003fffffc0039dfff0017060000070063f8000e01c0000c1c300003c07c000fffffc0000fde00001ffff0000001c0000ffffff003fffffc001ce7fc00000000000ffffff0;
   0xffffe0001cf19800000007c001ffff8000300000001980e00006aeaa00030063b0000e00c0000c1c30000f801e000fffff80000fcf80000ffff0002aaaea800aabaaa000006000001cc7fc00000000000ffffff0;
   0xfffff0000fc19800000601c001c183800031ffe0001f86ec0007fffe0007ffe380000e01c0000c1c30003fffff80010719c0001de3f0001c0030003fffffc00001800000006000000fc61c000ffffe00000e1800;
   0xe06060000781980006060600018183800030ffe0000f0eee000006000003ffe38003fffffc000c2c30003bffffe0038618c00019f0f8000c0030002beafa8001ffff80000060000007c60c000ffffe00000e1800;
   0xf57570000fc19c000606060001ffff800031c060000f1ce60000061c000700638003fffffc004c7c300013801dc001ee19c00039fc18001ffff00000e0380001ffff8000fffff00007c70c000e000600000e1c00;
   0xffffe000dde18c000606060001ffff800030c060000f18e6000ffe1c00030063800002020000cc6e300003800c00007c18c000718e00000ffff00000f0fc0001c0038000fffff00083870e000e0006000c0e1c00;
   0xf5757001d8798c0006060600001818000031ffe0001f98e7000ffe1e0007006380001f078001c077000003801c00007818e000f1c7c0001c003000007ffc0001c003800000600001c7e74e000e0006001c0e0e00;
   0xe0606000c0318e0006aeae0000fc3e000030ffe00039e0e30000063e0003aae380003e03e000c063c00003800c0000f618e003e1c1f8000c00300000ff800001c003800000600000c7f3e6000e0006000c0e0700;
   0xfffff000ffff870007fffe0007f00fc0003000600078f0e0007ffff78007ffe38001f001f800d571f80003fffc001fc7fc7003c1e07c001c00300007f7fc0001ffff800000600000de7de7000ffffe000ffc07c0;
   0xffffe000ffff038007fffe000f8003f0003f002000e038fc003fff83e003aae38003e0003c00ffe07f0003fffc000f80fe380200fc08000f8030001f80ff8001ffff800000600000fc1c03800ffffe000ffc01f0;
   0xe0007000155403000600000006000070001f000000401078003ff400c00700638001800018007fc01f0003801c0004001c3000007c00000f8030000400078001c003800000600000700c01000e00060007f80070;
   0x0;
   0x0;
   0x0;
   0x0;
   0x0;
   0x0;
   0x0;
   0x0;
   0x0;
   0xe00380003800600000070000000000000000000000001c000006000000003800000000700000001c0000000700000001c0000000700000001c0000000700000001c0000000700000001c0000000700000001c000;
   0xe0038000380060000003000001ffffc0007fffe0000018000006000000003800000000e00000001c0000000700000001800000007000000018000000060000000180000000e00000001800000006000000038000;
   0xe0018000380060001fffff8001ffffc0007fffe000001c0000060000000038000003fffffc007fffff001fffffc00ffffff001fffffc00ffffff003fffffc00ffffff003fffffc00ffffff003fffffc00ffffff0;
   0xe01ff0003802ea001fffff80018000c000700000003ffffc00060080000038000003fffff8007ffffe001fffff800ffffff001fffff800fffffe003fffffc00ffffff003fffff800fffffe003fffff800fffffe0;
   0xe01ff000380fff001557d50001c001c000700000003ffffc000601ffc0003800000395555c00601807001870e1c00e0000700180001c00e0000700380011c00e1c30700380001c00f5555700386061c00f555570;
   0xe0183000380ffe0000038000018000c0007fffc0002abaa8000601ffc00038000003bfffc800601806001860e1800ffe7fb00180031800fffffa00380e38c00e0c303003fff8c800e0000600386061800e180c20;
   0x7ffd83001fff060000fffff0001ffffc0007fffc000001c00007fffc0000ffffff000719cc0007fffff001fffffc00fff7ff001fff31c00ffffff003ffdfdc00ffffff003fff9dc00fffff7003fffffc004181c50;
   0x3ffdff000fff060000ffffe0001ffffc00070000000001800003fffc0000ffffff0002188c0000ffff80007fffe00018c638000fff31800000c00000ffbfe0001ffff8000e000c0002ebab20007fffe0000180ce0;
   0x7ffdff001fff060000001c000060001c00070000000555d55007fffc00000380000007fffc00030e704000070e00001bc670000030318000ffff0000e198700001c300000fff9dc001c1830000060600007ffdce0;
   0xe0183000380fff000000c000060000c0007aaaa000ffffff000600c10000380000002aaa800039c39c0007fffe0001b07e00002ba318000eaab0000639db8001ffff0000eaa8d8000ffff0000060600007ffcce0;
   0xe11d7000380fff003fffffc007ffffc0007fffe000ffffff000600c3800038010003fffffc001f81f80007fffe0001fd7f00007ff318000ffff0000370f1c001ffff0000e001d8001ffff00007fffe0000181ce0;
   0xe19ff00038e020003fffffc003ffff80000c000000030000000608e7000038038003fffffc000ffff0000060e00001bfe7e0006ba3f8000ffff00001e0628001c0030000fff8f8000c18300002eaea0000180fe0;
   0xe39d700038c0600015d5754000100000000c00000003000000061c6e000038070000000000007ffffc003fffffc00187f1e0006183f8000d55700003fffe0001ffff0000fffdf0001ffff0000060600000181fe0;
   0xe318300038c060000180700000300000000c0000000300000006187c0000380e00003fffc000fe007f803fffffc0003e780000618300000ffff0000ffffc0001ffff0002aaaad0000ffff0003fffffc00fffec00;
   0xe71ffc0039c57500018070000030000003fffffc00ffffff000638780000381e00003fffc000e7ffe70001c6700001fd1f0003fffb00000c0070007f7fcf0001c0030003ffffc000001800003fffffc00ffffc00;
   0xe61ffc00398fff001ffff8000ffffff003fffffc00ffffff000630700000381c00003000c00007ffe000038638001fe3c7e003fffbfc00ffffff00380003c001eaab0003800ec0003ffffc0000e07000007c0ff0;
   0xee1ffc003b8fff001ffffc000ffffff0000c030000030020000670f80000383c00003fffc0000600600007061f000f00fdf0000003fc00ffffff0007ffffc001ffff0003ffffe0007ffffc0001c3b800007e1ff0;
   0xe41b80003900600001800e0000300600000c070000030070000620f8000038380000bfffc00007ffe0001fffff80001c3f0000ffe330000e00700007fffe000001800003fffef8003abaac00038f9c0000de0cc0;
   0xe01bc000380060000180ef0000300e00000c0f00000300e0000601dc000038100001e1de000007ffe0003dfffbe0000fc00001fff330001ffffc00000610000ffffff0007071fe0071980c001f3c0f0001db1cc0].
Definition hanzi_rows_45 : list N :=
  [0xe018e000380060000181c38000301c00000c0e00000301c00006038e000038000000fb8fe000021820000026208000c3f80000c0633000fffffe0001c638000ffffff00038e0cc0033f80c003c1003c0039b8ce0;
   0xe018f000381fe000018381c000303800000c1c00000303c00006010f0000380000001f07fc000718700000f6700001f07f0001c0733801f706070007c61c000007e000001fc1c40077ffec00380071c00719dc60;
   0xe0183800381fff800187008000303000000c080000030380000600070000380000003e833c001e18380003e63c00003e020000c0631800830700000f060e00003e7800000f80c000362bec00000ff8000e18fc60;
   0xe0181c003d01ff0001d1000000301000000fe0000003f80000075003c0003fe00003fcff00003c181e0007860f00001ff00001fff31c000303c0003c0607c001fc3f40007ff1c00070000c00007fc0000c187c70;
   0x7e1f88003f80030001f80000003f8000000fc0000003f8000007e001c0003fe00003e03f8000701f8e000207c2000001ffc000ffe30c0003f0fc001807c3800fe00ff003f8fec0003e000c0001f8000000182c30;
   0x7c1f00001f00000001f80000001f80000007c0000001f8000003e00080001fc0000100070000001f04000007c00000001fc001c0730c0001f078000007c0000f0001f001c01dc0003e000c0001c0000000181c30;
   0x0;
   0x0;
   0x0;
   0x0;
   0x0;
   0x0;
   0x0;
   0x0;
   0x0;
   0x1c01c0000700180000001c0000043800000006000001c01800004300000001c0000000600000001800000006000000018000000070000000000000000070000001c0000000600000070060000c00000000180700;
   0x4c0180000300180000000800000e380000000e000000c0180000e300000001c000007060e000021840000e06030000018000000060000001fffe00000030000001800000006000000300e0000c0fff80001c0600;
   0xec038000070018001ffe1c00007c380001c00e000000c0180003c300000001c000007061c0000799c0000e06070000018000000070800001fffe00000038000001c00000006000000381c0000c0fff8007fe0700;
   0xcc3ffc00078018001ffe0c000078380001fffc000000e01800078300000001c00000386180000e18e00006060e0000218e00001c6380000180c00000003800000180000000600000ffffff000c0e01800fff0600;
   0x1cc7ffc000fc0180000c01c000060380001fffffc007fe018000f0300000001c000001c6380001c18780007061c0000f18700003871c00001c1c00015555c000041c3000000600000ffffff000c0e01800703c730;
   0x18c2aa8001ce7ff0000c3ffc00ffffff000201ff8007fe7ff00040300000000c00001fffff80038183c0003861c0001c18300007060c0007fc0c0003ffffc0000e183000000600000006600000c0e01800382e670;
   0xc00000038f7ff0000c3ffc00ffffff000701800006077ff003fffffc00555d55001fffff80070181f0001c6180003c1838000f070e0007fc0e0003ffffe0001c1c30000006000003ffffc007fffff8001c777e0;
   0x3ffdff8007078d80000c00c0000833800003c380000603198003fffffc00ffffff0018000180000180c0000060800070181c000e06070006000e0001806070001818380003860c0003ffffc003fffff8000ee06c0;
   0x3ffdff801f03ddc0000c01c0001c31800001f7000006039d8003fffffc00ffffff00180001800001c00001fffff000f0180f001c0707800700070001c0607800381c1c0007060e00038671c007ff00180007c07c0;
   0xc1818005868d8001ffc3c0000f318000383e0000060199800000380000000c00001bffff800000c00000fffff000e0180700380603800600030000c060380030181c0006060e0003fe38c000c000180003e0680;
   0xc1818001861dc001ffc7c00007f18000187ff000060f1d800001f80000007c00001bffff800ffffff001c000300040180200100701800701038000e0601c00701c0c000e060e0003fc1fc000c07fd8001cfc700;
   0x3e1818001860d80000c03c00030f180001bf9ff80061c19800000f80000006e000002aaa8000ffffff000c00030000000000000060000030181e00040608800e0180e000e060600038006c000c37fd800183f600;
   0x3e1ff8001861dc0000c07c0003c31c0001fe01f0007181dc00001d80000007e0000000000000007700001c7fe3000001800000007000003e180f0001c638000c01c07001c06070003ffffc000c70018001c06700;
   0x361ff8001860dc0000c03c0000e31c0000e000000063819800000d800000066000000000000001e380000c7fe3000001800000006000001e180200038618000401802001c060300038000c000ce001800ffff700;
   0x360380001861dc0000c07c00007f1c0001555554007701dc00001dc0000007700003fffffc0007d1e0001c7fe3000001800003fffffc000318600007061c0001c1c00003806038003ffffc000ccfff800ffff7c0;
   0x360bb0001860cc0000c03e000e1f0c0003fffffc0060018c00000cc0000006700003fffffc003e18f8000c60630003ffffc003fffffc00071860000e060e0001c1800003806038003ffffc000ccfff80018007e0;
   0x371fb0001871cc0000c0760007870e0003fffffc007001cc00001ce0000007380000001e0001fc187f801c60630003ffffc00000f000000e1870000e060f0000e1c0000700601c00030000000dc0c18001c1c7f0;
   0x331bb0001830cc003fff360001e30e00000306000030018c00100ce00000063800000e0e0000e318cf000c60630002abaa800000f800000c1838001c060700007800000700600e00ffffff000c86c9800181c678;
   0x333398001839ce003fff770004fb070000030600003501cc00701c70001c071c00001e0700000798e1001c7fe300000180000001dc00001c181c001c060380003c00000700600c00ffffff000c06cdc001c38730;
   0x233b398001838ce00000033000c3f030000030700003f018e00300c38000c060e0000380380000e1870000c7fe3000001800000039e000038181e00380601c0001f00000000600000030060000c0ccd8001870600;
   0x631d39c00581dc600700073801c0fc3800103070001df01c600301c1c001c070f00007801c0001c1878001c55630000018000000f0f000070180f00100601800007c00000006000000301f0000c0cc7c001c70700;
   0x631c38c00c009c700300033800c03f9c00303038000c0018600380c0e000c060780007fe8e00038183c000c00630000018000003e07800070180600000600000003f80000006000000303c0000c0cc6c001820600;
   0x7f0e38000ffffc7003ffff1c00fff71f003d701f000ffff87003ffc07c00fff03e000fffff00030181e001d4003001ffffff001fc03f000001d00000007500000007ff00000750000030780000c04c2e001c00700;
   0x3f073e000ffff83803fffe0e007fe007003ff00fc00ffff83801ff803c00ffe00f001c0bff000001f80000fc003000ffffff003e000fc00001f80000007e00000000ff000007f000003f200000fc0f8c001f80600;
   0x14061e0001ffc0300055500400000002001fc001c001ffc030007d001c007fc007000c0001000001f000007c003000000000001c0001c00000f00000007e0000000017000003f000001f0000007c0780000f80700;
   0x0;
   0x0;
   0x0;
   0x0;
   0x0;
   0x0;
   0x0;
   0x0;
   0x0;
   0x6601c0;
   0x1fffff0003ffffc000aaaaa0002aaaa8000fffff0002aaaa8000aaaaa0003ffffc000fffff0003ffffc0002aaaa0003ffffc000fffff0003ffff8000aaaaa0002aaaa8000ffffe000000000000aaaaa00006600c0;
   0x1fffff0007ffffc001fffff0007ffffc001fffff0007ffffc001fffff0007ffffc001fffff0007ffffc0007ffff0007ffffc001fffff0003ffff8000ffffe0007ffffc000ffffe0001ffffc000ffffe00006661c0;
   0x1eaaab00030000c000eaaab0003aaaac000c00030003aaaac000fffff00030000c000eaaab0003aaaac0006aaae00030000c000eaaab000380038000eaaae0003ffffc000ffffe0001ffffc000ffffe000ae660c0;
   0x1c000700070001c001c000700070001c001c000700070001c001c000700070001c001c000700070001c0006000700070001c001c0007000380038000e000600070001c000e000e000180e00000c000e000ff661c0;
   0x1c000300030000c000c000300030000c000c000300030000c000c000700030000c000c000300030000c0006000600030000c000c0003000380038000e000600030001c000e000e000180e00000c000e000ab660c0;
   0x1fffff0007ffffc001fffff00075555c001fffff0007ffffc001fffff0007ffffc001fffff00075555c000755570007ffffc001fffff000380038000e000600070001c000e000e000180e00000c000e0000b67ff0;
   0x1fffff0003ffffc000fffff0003ffffc000fffff0003ffffc000fffff0003ffffc000fffff0003ffffc0007fffe0003ffffc000fffff0003aaab8000ffffe0003aaabc000e000e000180e00000c000e0000de7ff8;
   0x701c700000001c000000070007ffffc000000070007ffffc00055d5700000001c001555570007ffffc0007ffff0007ffffc0001c0070003ffff8000ffffe0007ffffc000e000e000ffffff000ffffe00039e67c0;
   0x381c300010608c001ffffb00000600c0006186300000600c0000180700000000c0000000300000808c0000000600000600c0003fe030003ffff8000000060002ababc000e000e000ffffff000ffffe00030666c0;
   0x181870003861dc001fffff00000601c00071c670003061dc000018070001fffdc000ffff70000181dc0015555700000601c00007fff000030018000000c6000001c1c000ffffe0005d5f55000ffffe00060647c0;
   0x1ffffb00018638c0000838300000600c0006186300030618c003fffff0001fff8c000fffe30000180cc001ffffe00060600c00000ff3000030018000000c600000181c000ffffe000180e000000000e00000206c0;
   0x1fffff0001c671c0003c1c70007fffdc003ffffb0003061dc003fffff0001c01dc000555530006181dc001fffff00078efec00074e0300007011c000700c6000001c1c00001c0e000180e00000000060007ffe6c0;
   0x183830000e670c0007a8e30007fffcc003ffffb00030618c0000180300018618c0000000300071aacc0018000300038efec000ffe030000e0f9c000f80c60000fffec0000180e000180e00000000060003ffe6c0;
   0x1c387000fffffc000fffff0007060dc003ffffb0003fffcc000018070001c71dc000000030003dbfdc001c7ff70001fe60c0001fffb0001c7f1c0003f0c60000ffffc000018060001d5f540000000600076666c0].
Definition hanzi_rows_46 : list N :=
  [0x18383000ffffec001c3ff30007060cc000618630003fff8c0000180300018618c003ffffb0000faacc00187fe300007e60c00000ffb0001cf80c00007ec60000e0c0c000038060001ffffc0000000600032666c0;
   0x15d7d3000fffffc00081c030007060cc00071c6300000600c000ffff30001c71cc003ffffb0000781cc001c7ff300003670c001f0e0300078c00e00001fc70000e0c0c000070070001ffffc0000000700076666c0;
   0x3ffffb00003f80e000018030007fffcc000618638006060ce000ffff300018618e000007038000180cc0018606380007630e003ffe03800f00006000003c70000e0e0c000070070001807000000000700032666e0;
   0x3fffff800077c0e000ffff38007fffce0007fc638007060ce000c00738001c71ce000183838000181ce001c60738000e638e0001fff7801e00007001800c70004e0e0e0000e00700000070000000007000ffff660;
   0x181838000e6e0e000ffff38007060ce0007f8638006060ce000c003380018b18e000381c1800c180ce001c60618001c61c600000ffd800c000e3001800c30018e070e0001e00300000038000000003000ffff660;
   0x1c1c18001c678600001c018007060c6000000618007060c6000c007180003dc06000701c1801c1b1c6001c7ff1c007c61e700300e1dc00001ff0001800c3001ce07060003c0038000001c0000000038004000670;
   0x180e18007861e7000018018007060c6000000618006060c6000c00318000f9e07000e80e1c00c1bec7000c7fe0c00f060f700300e01c00007f80001c00c38018e0386000780038000000f000000003800c000670;
   0x1c071c01f060f7003ffffdc007fffc7001fffe1c007fffc7000ffff1c003e0fc7000ffff9c00ff9fc7000c0070e00407477003ffe01c0003fc00001fffc1801de01f7001f0001c0000007c00000001c00ffffe70;
   0x1803ce00c06023803ffffce007fffc3801fffe0e007fffc3800ffff0e007803e3801cfff0e00ff83e3800fc000c00007e03801ffc00e0007c000000fff81c00fe00f3803c0000e0000003e00000000c00ffffc30;
   0x1c018c0000600000000000c007000c300000000800700003000c0070c006000e3001c0010c007d00c30007c000000003c00000ff000c00070000000000018007c003300100000c0000000e000000008000000030;
   0x0;
   0x0;
   0x0;
   0x0;
   0x0;
   0x0;
   0x0;
   0x0;
   0x0;
   0x6000000018000000000c0000700300000000c0000000700000300c0000018000000070000000180000000000000000000000000000000000000000000000000000000000000000000000000000000000000000;
   0xc060300030180c0000180c0000300300000000c0002aa0300000380c00000180000000600000001800000fffff0003ffffc000fffff0003ffffc000fffff0003ffffc000fffff0003ffffc000fffff0003ffffc0;
   0x1c060300030181c0000180c000070030003fff0c0007ff0700000380c00000180000000700000001800001fffff0007ffffc001fffff0007ffffc001fffff0007ffffc001fffff0007ffffc001fffff0007ffffc0;
   0xc060300030180c0000180c000030030003fff0c0007ff0300000180c00000180000000600000001800000c000300030000c000c000300030000c000c000300030000c000c00030003aaaac000eaaab00030000c0;
   0x1c060300030181c003ffc0c000070334003fff4c400600175003ffc0c000001800001fffffc0030180c001fffff00070000c001c000700070001c001c000700070001c001c000300070001c001c000700070001c0;
   0xfffff00030180c003ffccc8000303320003184c800600332003ffc4cc00201800001fffff80030180c000fffff0003ffffc000fffff0003ffffc000eaaab0003ffffc000fffff00030000c000c000300030000c0;
   0x1fffff0003ffffc00001ccdc00e71b360003184cc0060077700000e4cc0070180e0000070000030180c001555570007ffffc001fffff0007ffffc001fffff0007ffffc001fffff0007ffffc001fffff0007ffffc0;
   0x3ffffc00000ccc800e31b320003184c8006003320000064cc0070180e0000060000030180c0018c6e300000630c0000c00300008200c000aaeab00008000c000000030003ffffc000fffff0003ffffc0;
   0x70000000ccdc00e71b360003184cc006007770000074cc0070180e000e070700030180c001ccc730007ff18c0000c4e70001c639c001c06070001fffdc003ffdfb00007061c000c186700003071c0;
   0x38000000ccc800e31b320003184c800600332000003ccc0070180e000e060300030180c000ec83b0007ff8cc000acc730000e670c000efff300003ffcc003ffffb00003060c000e18e300003038c0;
   0xfffff8000557c000000ecdc00e71b360003184cc007ff777001ffc4cc0070180e000e070700030180c003fff5f000001cfc001fcc3f000fffffc0007fff700000601c000c019b0007ffffc000719c7000fffddc0;
   0xfffff8003fffe0003ffecc800e31b320003184c8007ff332000ffc4cc0070180e000e060300030180c003fffcb0003fff2c0000cc9f000ffffec000386030003fffcc000c019b0007fffec00039983000fff8fc0;
   0xc00000001ffff0001ffecdc00e71b360003184cc007577770007004cc0070180e000e070700030180c0007f06300070378c0000ccc700003fc1c0015f7570003fffdc000dfddb00007061c000ffff700003077c0;
   0xc00000000c0078001800cc800e31b320003184c8006033320003804cc0070180e000e060300030180c000edc730003ff18c003fffe30000e6f0c003ffffb0003860cc000df8db00003060c000fffe300003030c0;
   0xc00000000e013e001800cdc00e71b360003184cc000077770001c04cc0070180e000e07070003ffffc007ccf7b0007ff1ec003fff730007c67dc003fffff0003fffcc000d9cdb00007061c000c00770007ffb9c0;
   0xfffff00007038c001800cc800e31b320003184c8000033320000e04cc0070180e000fffff0003ffffc0030f33f0003030fc0000c03b000f078ec00001e030003fffcc000d899b800fffffc000eaae30007ff9ec0;
   0xfffff000078704001955cdc00e71b3600031c4cc000077770000704cc0070180e000fffff0000018000000307f8007ff0fc0000cc3f000001c0c000fffc300000600c000d9d9b800fffffc000ffff30007071fc0;
   0x300003ce00001bffec800e31b3200031c4c8000033320000384cc0070180e00000600000001800003fff3780000e0ce001fce37800ffffec000fffe30007fffee000d8b9b80030e38c000c00630003861bc0;
   0x700001fc00001fffffc00e71b7600331c5cc0040777700101c5cc0070180e00000700000001800003fff718007ff0c6001fc633800fffffe000c01ff8007fffee000dff198003dc38e000c00738001ce1de0;
   0x10000300000f800001800ff800e31bfe00230c7f800c033fe00300c7fc0070180e00300600000001800000e0e318003ab8c60000ce3380006060e000fffdf80063606e000dfb998000f838e000fffe38000fc18e0;
   0x700007000003e00001c00c0400e71b7e00730e5fc01c077fe00700e5fc00755d5e0070070000000180000077f71c001cfec70000de31800079f06000fffc5800777066000c1dd9c00078386000ffff18000781c60;
   0x300003000000f80000c0000000fffb0000230740000c0330000300e400007ffffe003006000000018000003f831c000fcec70000fe31c0003fe06000c00c18006fff67000c00d9c000f7b86000c00618000fc1860;
   0x3fffff0000007fc000f4000000fff800007f0780000fff000003ffe000007ffffe003ffe00000001800001ff071c001fc0c7007ff331c001ffc07000fffc1c007c5767000c0019c007c7fc7000c0071c007ff1c70;
   0x1ffffe0000000fe000fc000000e00000003f03c0000fff000003ffc00000700000003ffe00000001800003e3fb0e00fcfcc3803fe3b0e00fc3fe3800fffc0e007c0063800f8018e00f80fc3800fc060e00f87d838;
   0x5555000000001c0007c000000e00000001e01800007fc0000017f000000700000001ffc0000000180000100770400e01cc3003d0130c007007e3000c01c0c007c0063000780180006001c30007c070c00c01dc30;
   0x0;
   0x0;
   0x0;
   0x0;
   0x0;
   0x0;
   0x0;
   0x0;
   0x0;
   0x600000000030000038040000018000000000c00000603000000600000001c00000006000001c00000000000c00000180000000006000008000000006000000300300000000c000001c00000000000000000100;
   0xc06030003ff0300000180c00030180c002aaa0c00000603000080602000000c00000c06030001fe800001ffe0c00030180e0000000600001c180000c06030000300300000000c00030180e0007ffff000fffc180;
   0x1c06030003ff03000001c0c00030180c003ffe0c000007030001c0603000055f50000c060300007fffc001ffe0c00070180e003fff060000381c0001c0603000030030003fff0c000301c0e0007ffff000fffc180;
   0xc060300030303000001c0c00030180c003ffe0c000003030000c06030000ffff8000c0603000001ff8001aae0c00030180e003fff060000700e0000c0603000030030003fff0c00030180e00060603000baa8180;
   0x1c0603000303134003ffc4c4003ffffc00000e0c001fff934001c06030000ffff8000d5757000001c00001c0e4c4007ffffe000003064001e0070001fffff000fffc300006184cc003ffffe000607070001819190;
   0xfffff0003031b6003ffe6c8003ffffc00000ecc800fff9b6000c06030000c0038000fffff000000c0000188ecc8003ffffc000c0326c003c003c000fffff000fffd330006186cc003ffffe0006060300018189b0;
   0x1fffff0003031b6003ffe6dc0015555400000ecdc01fffdb6001fffff0000c07b8000fffff000000e00001ccecdc007ffffc000c1f76c01ffffff00000e000000301330006186cc001555540007ffff00018199b0;
   0x3031b60038066c80000000000000ecc800019db6000fffff0000c0f3800000000000ffffff0018cecc800000000000e3b26c00efffe700000f000000301330006186cc000000000007ffff00018189b0;
   0x3ff1b60038076dc00555555001ffecdc0001cfb6000000000000e3c380007fffe000ffffff001ccecdc007ffffe00067376c004f575200001fc00000301330006186cc0003fffc00000007000181d9b0;
   0x3ff1b6003803ec800ffffff001ffecc800018fb6000aaaaa00007b0380007fffe00001c3800018cecc8007ffffe00066326c000e0600000079e00000301330006186cc0003fffc0018000300018189b0;
   0x3fffffc003031b60039fd6dc00ffffff00180ecdc00ffc5b6000fffff0000780380007000600007c1e0001ccecdc0075555e0007e376c000607000001f07c0007ffd330006186cc0001c1c0001c0007001fffd9b0].
Definition hanzi_rows_47 : list N :=
  [0x3fffffc003031b60039fc6c8000c000000180ecc800ff81b6000fffff000000038000620060000f00f00018cecc80063000e0003c326c00060380000f83be0007ffd33003fff6cc0000c180001eaaaf000fffc9b0;
   0x700003031b600398c6dc001c000000180ecdc0001c1b6000e06070007ffff8000770660007e187c001ccecdc007380ee00038376c000701e0007f070fc00703933007fff6cc0000c1c0001ffffe001fffd9b0;
   0x700003031b600398c6c8000c3ff800180ecc8000181b6000e06030007ffff8000638e6000f8180f0018cecc80061c3ee00038326c0007e0f800380e03c007031330006186cc003fe1c00003fff80001e009b0;
   0x380003031b600198c6dc001c7ff800180ecdc0001c1b6000e060700060030000071dc6000c01807001ccecdc0071e78e0007c376c0003e07c00000c000003071330006186cc003ff3c0000006000001f019b0;
   0xffff80003ff1b600198c6c8000c3038001ffecc8000181b6000fffff00060830000061f8600038180c0009eacc80060fe0e000ee326c000018080003fffe0003861330006186cc003807e0000806000001b809b0;
   0xffffe0003ff1b60019fc6dc001c7038001ffecdc00ffc1b6000fffff00061830e00060f0700038181c0001e0cdc00707c0e000e7376c0038181c0007ffff0001ce1330006186cc001c0fe0000c060300019c19b0;
   0xeaabf0003031b60019fc6c8000c3038000aaecc800ff81b60000000300061830e00060f0600038180c0001e0cc80060fc0e001c3326c003818180003aaaa0000ec1b30006186cc000e1c60000c060300018e09b0;
   0xc001f8003031b60019fc6dc001c7ff800000ecdc0001c1b60000000700071830e00063fc700038181c0011f0cdc0071ef0e001c3b76c0038181c0001c0000000fc1ff00061c7cc00077c70000c060300018719b0;
   0xc001be003031fe00180c7f8000c3ff800000eff8000181fe0008000300061830e002639e300038180c0061b8ff80063838e00081b3fc003818180000e0000000781ff00060c7fc0003f038000c06030001838ff0;
   0xc0018c003031fe0018007fc001c557800000effc0001c1fe0038000700071fffe006670f380038181c0071bcff8007701fe0000037fc0038181c000070000000fc10100060e7fc0003f038000c0603000181fff0;
   0xc0018000303182001800600000c003800000ec08000181820038000700031fffe002ee03b8003abaac00219cc00006200ee00000320000381818000038000001ef00000060e000000ff81c000fffff000180e800;
   0xffff8001fffe00001c00000001c0000007ffe0000001c000001fffff00031d554007c4011c003ffffc00358f0000070000e007fff000003ffffc00003c000007c7c00000607000007f7f0f000fffff0001fc4000;
   0xffff8000fffe00000f80000000fe000003ffe00000018000000ffffe0003f0000003c0000e003ffffc003f87800007f000e003fff000003ffff800001e00000f01f0000060380000f80fc7000eaaaa0000f80000;
   0xc0018000000000000f800000007e0000000000000001c000000000000001f000000180000c00380000001d01000003f000e0000000000038000000000c0000040060000060100000c001c3000c00000000780000;
   0x0;
   0x0;
   0x0;
   0x0;
   0x0;
   0x0;
   0x0;
   0x0;
   0x0;
   0x6000000380300000000c00000e030000000040000070100000000c0001004000000700c00000180000000600000001800000006000000000300001c00c0000c0000000086100000100100000000c0000700300;
   0xc06030000380300000000c00000e030003ffe0e000007038000aaa0c000380e180000300c00030180c001c0603800201808000c06030007ff8300000c00c0000ff8000003c638000038030003ffe0c0000300300;
   0x1c0603000038030003fff0c0001ff030003fff0e000003038001fff0c0001c1c1c0000380c00070180c001c060380030181c001c06030007ff8300001c00c0001ffff00007861c00003c030003ffe0c0000700300;
   0xc06030007ff830003fff0c0003ff030003aaa0e000003838001ffe0c0001c1838001ff80c00030180c001c060380030180c000c06030006018300000c00c000000ff000060e1c00003c0300038c60c0000300300;
   0x1fffff0007ffd310000000c0001831310030074e4007ff838000e1c4dc000e1870001ffc4c4007ffffc001fffff8003ffffc001fffff0006019310001c0ccc0000003000140c0e00007e0310038c64c4000701310;
   0xfffff0002ba9b30000004c8001c39b30030026ec007ff8ba0006384c800060820000c1eecc003ffffc001fffff8003ffffc000fffff000601b320000c0cc800000030003fff8e0000e60b20038c66c8000303320;
   0x1c00000000381b3001ffe4cc000c1db30037f76ec007ffdbb0007f04dc007fffff000e1fecc007ffffc001fffff8003ffffc001fffff000601b37007fffccc007ffff0003fffef8001c71f30038c66dc00fffb330;
   0x180fff8000381b3001ffe4c800ffffb30037f26ec00600fbb0001e04c8007ffffe00073becc0000020000000000000000e00000000000007ffb32003fffcc8007ffff000001aefc003838b2003aee6c800fffb320;
   0x1c6fffc01fffdb3001c0e4cc00ffffb30030076ec00600fbb0007f04dc007555570003f3ecc007fe7f000000030000000700003fffff0007ffb360001c0ccc005755700000380fe0070ddf3003ffe6dc00e71b330;
   0x186018000ffffb3001c0e4c800001fb30030026ec0067ffbb001f3e4c8006000060001e0ecc007fe3fe001fff318002aabaa003fffff000061b320000c0cc8000300300010300ec00e18eb2003ffe6c800e31b320;
   0x1c601c001fffdb3001c0e4cc000019b30033f76ec0067ffbb007c1f4dc006018070001e0ecc007fe31e001fff318007ffffe003fffff000061b370001c0ccc000300300030700e000c387f30038c66dc00e71b330;
   0x1863fc0001801b3001c0e4c8007fd9b30033f26ec006619bb0030c34c8006018060003f0ecc0060630e001800318002aabea00000003000061b320000c0cc8000300300031e00e0000302b20038c66c800e31b320;
   0x1c63fe0001c01b3001ffe4cc007fd9b30033376ec00661dbb0001c04d800101800000f3cecc0070630e001c00318000038e0001ffff3000575b370001c0ccc00575575003fc00e0001555f20038c66dc00e71b330;
   0x186307000fffdb3001ffe4c80060d9b30033326ec0066b9bb003ffe4c80038180c003e1fecc0060630e00180031800003870001ffff3000fffb32000aeacc800ffffff001f860e0003ff8b20038c66c800fffb320;
   0x1c6387001fffdb3001c0e4cc0061d9b30033376ec0067fdbb003ffe4dc0038181c007c37ecc0070630e001c0031800003838001ffff3001fffb37001ffeccc00ffffff001c06060003ffdf3003ffe6dc00fffb330;
   0x186187800baa9b3001c0e4c80060d9b30033326ec006619bb002aea4c80038180c0020f2ecc0060630e001ffe318003ffffc000018030000e1b32001aaecc800001800000006000001800b2003ffe6c800ebbb320;
   0x1c61dfc001c31b3001c0e4cc0061ddb30033776ec00661dbb0001c04dc0038181c0003e0ecc007063ce001ffe318003ffffc000018030000c1b3700180eccc0030181c000e06070001c01f30038c66dc00e71b330;
   0x1860f88001831b3001ffe6c8007cd9b30033f26ec006619bb0000c04c80038180c000780ecc006063fe00180031800003800003ffffb8000c1b3200180ecc80030180c000e06070000e00b20038c66c800e31b320;
   0x1c60f00001c71b3001ffe7fc0079ddb30033f76ec0067fdbb007fff5dc0038181c000300ecc007063ff001c00318000638e0003fffff8000c1b3700180edcc0030181c000e06070000731f30000c06d800e71b730;
   0x18607000018e1ff0000007f80000cdff0030327fc0067f9ff003fff7f80038180c00000cffc007e638e001800380000f38e0000018038000c1bfe00180eff80030180c000e06070000370fe0000c07f800e31bfe0;
   0x1c00780001dc1ff00000040401c1cdff0030077fc00701dff0001c07fc0038181c00007effc007e61c0001c001c0001e3878000018018019c1bff00180edfc0030181c000e060700003e1fe0000c07f800e71b7f0;
   0x18003c00018018000000000000c0cd80003002600007009820000c0400003ffffc0001f8e00000060e0001fff1c00038383c00001801c009b9b00001ffec00003abaac000fffff0000380800000c060000fffb000;
   0x1d401f0001c0000007fff00000d5ce00003007000007500000001c0000003ffffc0007c0000000060f0001fff1f000703d1f00001801c01fbfc00001ffe000003ffffc000fffff0000700000000c000000fff8000;
   0xf80078001f8000003fff00000ff8600003f02000003f00000000c0000003aaaa8001f000000000603e00180007000603f8600001800c00f0fc00001aae000003ffffc000eaaaa0000e00000000c000000eab8000;
   0xf80018000f8000000000000007f0600001f07000001f00000001c000000380000000c000000000601c001c0002000001f0000001800000601c0000180e00000300000000e00000000400000000c000000e018000;
   0x0;
   0x0;
   0x0;
   0x0;
   0x0;
   0x0;
   0x0;
   0x0;
   0x0;
   0x6000000380300000c00c00003801000061c0400000180000000600000000030000070040000000420000700c0000700300000100c00006c0180000600c000001c00000030040000000100000180c0000380300;
   0xc06030000300300000e00c0000380180006180600030180c000c0603000fffc30000070060002aaae30000300c0000308300006380c00016e0180000e00c0000018000000380c0003e00300000180c0000380300;
   0x1c06030000700300000e00c00003801800061c0600070180c001c0603000fffc30000738060007fff77000ff80c000c71830000e180c00036fe180001c00c000557d550003f80c0007ff8300010300c0000380300;
   0xc0603000fffc300001f00c0007ffc18003fff8600030180c000c060300000c03000061c060003aea3e000ff80c000e33830000c1c0c000363e180000c00c000ffffff0007fc0c00003f830001ff00c0000380300;
   0x1fffff001fffdb30003b86c4007ffc19007fff864007ffffc001fffff00001c131000e0e0640030603c000e1c6cc00773030001c0c4cc00663119003fff4c400ffffff0007fc6c400030131001fff6c400fffd300;
   0xfffff000c00db30007186c80003809a000618268003ffffc000fffff00000c1b2001fff2680030601c00061e6cc003330b20038cecc80066309b003fff6cc0000c30000038e6cc000381b300083f6c800fffdb20;
   0x700001c00db3000f1c6dc00739ddb00061c76c00003000000007000003ffdb7003fff36c003ffe3e00073fecc003f61b30070c7ccc0046319b0004106cc0006c3700001876cc000181b3001c706cc000381b30].
Definition hanzi_rows_48 : list N :=
  [0x600000cdcdb3001c0e6c80033989a0002082680000383800000e000003ff9b2003203268003ffe370003f3ecc000301b30021e3cc80006309b0006386cc000ec330001fffecc00fffdb3000e606c8006399b20;
   0x1fffffc001ce1b3003fff6dc003399db003ffff6c000038380007fffe00038e1b700073836c003070330001e16cc007ff9b30001f0cc801ffff9b000e1c6cc001cc338001fff6cc00fffdb30017e06cc007399b30;
   0x1fffff8003861b30037fbec8003bb09a003fffa6800fff8380007fffe00038e1b2000e1c268003830300003f06cc007ff9b30003b0cc800fffe9b001c0c6cc0038c31c0018606cc001ce1b30031e06c8003399b20;
   0x180001c007079b3002555edc001bb1db003555f6c007ffc380006000e0003861b7001c0e36c00383070001f7c6cc006019b3000738ccc0006319b001c0e6cc0070c30e001c606cc0018e1b30031fc6cc0033b1b30;
   0x180001800e03db30000006c8000b909a003021a6800600dff0006000e000baebb200383726800fffff0003e8fecc006019b3000e18cc80026309b003a076cc00e0c30e003aea6cc003871b3003f9f6c8001bb1b20;
   0x19fffdc004019b30018606dc00ffffdb003061f6c0071cdff0007fffe001ffffb7007033f6c00fffff80030c7ecc007559b3001c1cccc0066319b00371f6cc0000c304007fff6cc007039b3001f076cc001191b30;
   0xaaa80002aa9b30018626c800fffe9a00006026800318e380006aaae000aaabb200003926800000078001ffe6cc007ff9b300380ecc8006fb09b0007386cc00008200003fff6cc01e03fb30008006c800ffffb20;
   0x7ff9b3001c666dc0007c1db001fff76c0031c7380006000e0000001b7001ffc36c0001c07c001fff6cc007ff9b3007fffccc007df19b0007306cc00001800001c606cc00d86db3003fffecc01ffffb30;
   0x1fffff8007ff9b3000cc66c80007e09a001fff2680031c6380007fffe0007ff9b2000ffe2680061836e0000c06cc006019b3003fffcc8003cfe9b0003b06cc0030180c0018606cc001865b3003fffec8000381b20;
   0x1fffffc000701b3000cc66dc000fe1db001c7076c0003c0380007fffe0007ff9b7000e1f36c0061c777801ffe6cc006019b3001ffdccc003c3f9b0001f06cc0030181c001fff6cc001861b30003306cc0007c1b30;
   0x6000000301b3000ecc6c8001fb09a001c302680003e138001c060e0006019b200071ba6800618363001ffe6cc007ff9b300080ccc8001c329b0001e06cc0030180c001ffe6cc001861b30003386c80006c1b20;
   0x186180000701f30006cc6dc003bb9db001c3876c000763f8001f0e0e0007019b70003b9b6c0061c7700000c06cc007ff9b3001c0cdcc001c319b0001c06cc0030181c001d747cc001861b30003187cc000ee1ff0;
   0x3c61c0000301ff00020c7f800339cfe000c183f8000660fe00079c0e0006019fe0001f03f8006183700000c07fc006019ff00080cff8008c30ff0003e07fc0030180c0008607fc001871ff0003187f8000c71fe0;
   0x7860e0000701ff0003007f800f39ffe000c1c7f8001e703f8001f80e0007019fe0001f03f80061c770003fff7fc006019ff001c0cdfc019e31ff0007f07fc0030181c0000607fc001871ff00631c7fc001c79850;
   0xe0607000030180003fffe0000e38e80000c0e200003c38030000ff8e0006019800003f8200007fff30003fff6000060198200080cc00009f3002000f3c600003abaac0000606000018398000630c60000383c000;
   0x1c0603c01fffc00003fff80000438400000e4700000781f000007cfff0007ff800001f9f000007fff3d0000c000000741800001ffc00000fbb000003e1f000003ffffc00006000000181c0000770f00000f01e000;
   0x1807e1800fffc00000000000000380000007c380000f00f80003f00fe0007ff800003e0fc00006aaa3e0000c0000007c1800000ffc00000f1be0000380f800003aaaa800007c00000181e00003f0780000e00f000;
   0x3e0000000000000000000000380000007c180000400300001c0006000701800003801c000060001e0000c0000007c1800001c0c00000609c000010030000030000000007c00000180c00001f0180000c002000;
   0x0;
   0x0;
   0x0;
   0x0;
   0x0;
   0x0;
   0x0;
   0x0;
   0x0;
   0x40000018000000070000000180000000600000501804000006000000018000000600600060183000000006000001800000060040000000180000e006000001800000006000000018000000c00c0000000100;
   0x2aaa8600030180e000c060300030180c000c060300070180e001c060380030180c00006006000707830000fff0600030180c0000e00e000fffc180000e00600030180c000c060380030180c0000c00c000fff8180;
   0x3fff8600070180e000c070300070180c001c060300070180e001c060380070180c000070060003df030001fff0600070180c0015d50e000fffc180000e00600070180c001c060380030180c003fff0c000fffc180;
   0x2bba8600030180e000c060300030180c000c060300070180e001c060380030180c003fff860000f8030000eaa0600030180c003fff8e000c00c18001fff0600030180c000c060380030180c003fff0c000e018180;
   0x3b8064007ffffe000fffff0007ffffc001fffff0007ffffe001d57578007ffffc007fff864003fc135000700164007ffffc003fff0e000c00c19001fff164007ffffc001c06038003ffffc0015f56cc00e01d190;
   0xbba268003ffffe000fffff0003ffffc000fffff0002aaaaa001fffff8003ffffc002bbaa6c00f8f9b200038026c003ffffc0000002e800c00c9b0000e036c003ffffc000fffff8003ffffc0000e06cc00e0189b0;
   0x1fff66c00000000000fffff0001dc00000000000000700070001fffff80055555400071c76c0063fdb70019c1b6c007ffffc001ffe6ec00fffddb0000e036c00000000001fffff8000018000007f06cc00fffd9b0;
   0x1bbb268001ffffc0006001800038c000000aaaaa0007f8070000000000000c2030000eec26c000181b20018c1a6c00003c00000ffe2ec00fffc9b002aeab6c00fffffc00001c30000001800000f386cc00fff89b0;
   0x199366c001ffffc00060018000fffffc001fffff0001fdfff001ff9ff0000c6070000cef76c0055d5b6001cc1b6c00007f00001c066ec00060ddb003fffb6c00fffffc00001c380007ffffe001c1f6cc00061d9b0;
   0x19932680018180c000603ff800fffffc000c000300000dfff001ff9ff0001c6030001ce726c00ffffb2001ecda6c0003e780000c062ec00e62c9b002aaab6c0000600c001ffffc0007ffffe00080e6cc0006189b0;
   0x1dd766c0018181c007fffff80001c00c001c060300000c018001c19c30001873ff007ffff6c01ffffb7001fddb6c001fc1f0001ffe6ec00e67ddb00071c36c0000700c001ffffc0007ffffe007fffecc00061d9b0;
   0x1fff268001ffffc003ffc1800031bfec000caeab00000c0dc001819830003833ff003fffe6c000061b2001bd9a6c01fe00fe000ffe2ec00e62c9b001e2e36c003fffcc0000180e000030180003fffecc00fff89b0;
   0x1fff66c001ffffc0006001800031bffc001dfffb00000c1cc001ff9ff000703870001ce776c007ff1b70019d1b6c01fbffdf8000006ec00e67ddb003c77f6c003fffcc0000180f0000380c0001c006cc01fffd9b0;
   0x302680018180c000603ffc0039830c000caeab000ffcaee001ff9ff000e39c780008e326c007ff9b20018c1a6c0083ffc3000ffe2ec00e62c9b003039b6c0000600c000abaaf8000380e00018006cc0006189b0;
   0x157566c001d5d5c00061fffc003995dc001c0603000ffdfff001ff9ff001e19ef8001fff76c00703db70019f1b6c00001800001ffe6ec00fffddb000ffc36c0000700c000ffffde001fc3f0001dfe6cc00061d9b0;
   0x3fffa68001ffffc000638180001bbffc000cfff300018eaea00181983800c1cdb8000aeb26c00603fb2001ff9a6c000018000007002ec00ffec9b000ffc36c007fffec000abaacc003ce7380018ee6cc00060c9b0;
   0x3fffe6c001ffffc000670180001f35dc001cfff300018e1c0001c19c30000dc3fc001ce776c007ff7b7001e5fb6c003ffffc0003c06ec000605db00061f36c007fffec0000180c000387a1e001dc66cc00fffd9b0;
   0x60c26800081e80000663ff8000f18ee000ce03300018f8c0001ff9ff8000ce33e0008e326c006031b2001cc7a6c003ffffc0000c02ec00c6369b00071fb6c0000600e000abaac0000038040018c66cc00ffec9b0;
   0x70e66c001c79d80006e3ffc000f1dee001ce073000187ffd001ff9ff8001c6177001fff76c007031b7001841b6c000e1870007fffeec00c637db0003b9b6c003fffce000ffffc000ffffff001dfe6cc00e07d9b0;
   0x39e3f80038f0dc00064018000060fe6000cfff3000186fff00181981800387037000fff3fc007ff1fa001879bfc00061860003fffbfc00c636ff0001f03fc003fffe6000abaac000ffffff0018fe7fc00e06eff0;
   0x1fc7f8007761cc00060018001c71f06001c7ff30001871df001c1dc18003038730070e77fc007ff1fe001879bfc000718e00000c07fc00c637ff0001f03fc000070070000180c000555d55001c067fc00e077ff0;
   0x3e020000e700ce000607f8000cfbb86000c00030001830c000180d818007fb8300030e020000603180001fffa00000398c00000c020800c636800003f8300000060070000180c00000180000180660000e066800;
   0x1ffc00000e7ffc7000607ffc00ddf1f7001fffff0001831c0001d0dd1c007ffc700030e000000703000001fff80000ffffff0000c000000fff700001fbf00000fffff7003ffffc000001800001c0000000fff7000;
   0x3c1f80000c3ff820007e03fc00f8f033800fffff0001838c0000f8ef0e00e0fc30003fe0000007c3000001aaa80000ffffff0000fc00000fff300003e0fc0000fffff3803ffffc000001800001f8000000ffe3000;
   0x10078000001ff000007c000400706013001c00030001811c0000f0470400400070001fc0000003c30000018000000000000000007c00000c0030000300180000fffff10000000c000001800000f8000000e073000;
   0x0;
   0x0;
   0x0;
   0x0;
   0x0;
   0x0;
   0x0;
   0x0;
   0x0;
   0x60060000300100000600c00030101000000600000101018000406010000300180000060000000180000071c0600003801800000006000001800000000060003000100003600000000180000060c0c0000000100;
   0xe006000638c180000600c000383830000c0603000383018000c06038006318180018060180060180e00031806000038018000fff0600030180e003fff060007fe838000f607800030180c00060c0c000fefc180;
   0x3fff060007bbc18001ffe0c0001c7030001c0603000187018001c0603800731818001c060180070180e007fff86000038018001fff0600070180e003fff060001ffc38001e607fc0070180c00060c0c000fefc180].
Definition hanzi_rows_49 : list N :=
  [0x3fff060001bb018001ffe0c0000c6030000c06030001c6018000eaeab8003338180018060180060180e003fff86000fffc180008630600030180e0038c30600003a8380008600fc0030180c003fff0c000c6cc180;
   0x61c16400018019001c064c400fffe31001fffff0000c6119001fffff8001b7019001fffff8007ffffe00071c16400fffc59001c63164007ffffe0038c316400038038003fff8c4007ffffc003fff4c400c6cd190;
   0x31826c003bb09a0018066cc00fffeb2000fffff000fffe9b00000600000fffe9b001fffff8007ffffe00031826c00afe89b000fff26c003ffffe0038c326800fffeba003fff8c0003ffffc00060c6cc00c6cc9b0;
   0x7fffb6c007fff9b001ffe6cc000181b300000700001ffff9b00000600000fffedb00000f0000000c01800071c76c001fe0db001fff36c00004000003fff76c01ffffbb0001f00c00006e00000075c6dc00fefddb0;
   0x3fffa6c00e6ce9a0018066cc000180b2000aabaa00008309b003fffffc000fc09b00001f8000000c018003fffa6c003bf09b00086326c0000c60c003fff268000381bb0000b02e8001ee0000007fc6cc00fefc9b0;
   0x36c001ce19b001d566cc007ffdb3000fffff0001c319b003fffffc001fe0db00007dc000000e7fc003ffff6c0073bcdb001c6336c0000c70c00155776c001bb1bb0011f0ffc007df5540007fc6dc000001db0;
   0xaaa26c0038709a001ffe6cc007ffcb2000e06060000c389b000000000003b389b0003e0f80002ae7fe0038a3a6c01e38e9b000fff26c00ffc60c00000326800cbb1bb0030b8ffc00fffffc00060c6cc003ff89b0;
   0x1fff36c00f83d9b001ffe6cc0001c1b3000e06070004cd99b0007fffc000f31cdb001fd57f000ffe0060038e3f6c00c106db001fff36c00ffffff001fff76c00fbbfbb0031dc1e000fffffc0007fc6dc007ff9db0;
   0x180326c00fffe9a0018066cc0000c0b2000ffffe000eec89b0003aaac000e30e9b003effffe00efe0070038e3a6c003ff89b00006026c00c07fff003ffb268003bbbbb003b8e1e00000c00c0007fc6cc0000009b0;
   0x1d5736c00ffff9b001ffe6cc00ffffb3000fffff00066cd9b0007000c00003c4db00385553c00e773ff8015f576c003ff8db00006036c0066670c00381f76c001bb1bb003fc7bf00070dfec00060c6dc000001db0;
   0x1fff26c0030189a001ffe6cc00fffeb2000e07060007efe9b0003fffc00001c09b000e02aa000673bff003fffa6c0030189b003fffa6c0066760c00381b268008bb9bb000a036f00030dfec00060c6cc00fffe9b0;
   0x1c0736c0070199b0000e06cc000061b3000e07070007f7f9b0007fffc00055d4db000e73ff000673830003ffff6c003018db003fffb6c0066770c003fff76c00dbbfbb0000e06f00039c00c007fffedc01ffffdb0;
   0x180326c003ff89a003fff6cc000060b2000ffffe000336a9b000aaaaa800fffe9b000e33030002718300001f026c003ff89b003861a6c002637fc003ffb26800fbb3bb0000e00d80019dfec003fffecc0000309b0;
   0x1fff36c007ff99b003fff6cc007ff1b3000fffff00018319b001fffff800fffedb000e73570000707ff0003f876c003ff8db003b61b6c000707fc00381f76c0077f1bb0030e38dc001ddfec0003476dc005571db0;
   0xaea26c0030189a0001f06cc007ff8b200008f8000018389b001aaaab80018309b000e33ff0000703ff0003fc26c0030189b003a61a6c000f060c00381ba68000fe1bb0030e38cc000f986c0007e66cc007ff89b0;
   0xe036c007ff99b0003f86cc000739b30006cdc00007c599b001cfff18001c38db000e73070000d80300006ec76c003ff8db003ff1b6c000f070c003ffff6c001ff1ff0030e38cc00079c6c0006676dc007ff9db0;
   0x3fffbfc003ff8fe0007f87fc00061cfe0006ece0000ecccff0018fff18000ef8ff000e33030000d8030000ee63fc003ff8ff003fffbfc001f860c003ff9bf8003bb9ff0030e38c40003986e000c367fc003000ff0;
   0x7fffffc007019fe000efe7fc00070ffe001ffcf0000cccdff001cc07180007f0ff000e73ff0001dc730001ce7ffc000000ff003c7dbfc001dc75c00381dffc00739d810030e38c001c7dfe6001c377fc003001ff0;
   0xe020000301880001ce760000060f800038ec3c000fefe800018eab18000f8080000e330300038e7f00038e3e0000000080003801a000038e7fc003819a0000e38e000030e38c0008eeae6000816600003800800;
   0xe0000007018000078e7c0001ffff0000355c1f801ffff00001cfff18007ff000000e0307000f071f80030e180000fffe000038018000070f7fc003ffdc0001c38700003fff8c001de7867003fff000003800000;
   0xe0000003e18000030e180000fff800003ffc07c00838200001f8031800f8fe00000fc3e3000e03c380000e000000fffe00003e0180000e07e0c003ff8c0000838200003fff8c000fc3c03803ffe000001f80000;
   0xe0000003c18000000e0000000000000017d001c00010000001f0001800601c000007c1e7000c018100000e000000000000001e018000040170c00381cc00000380000030000c000701803000000000000f80000;
   0x0;
   0x0;
   0x0;
   0x0;
   0x0;
   0x0;
   0x0;
   0x0;
   0x0;
   0x1c306000000000000700060000000000000000000014060100000301800070c060004018040000060000010180400001c060001830180000c006000231018000c0004000181018000000060000180600;
   0xe38700018e381c0070606000080002000103020001806038003ff81800020c0600060180e001c060380030180e0000ac06000183018000cbf86000631818001ff806000183818003fbf860000180600;
   0x71e3c001c7383800707060001c04070007870e0001c06038003ffc18001ffc0600070180e001c060380070180e0003fe060001c6018000fbf860003338180007ff060001c7018003fff8600001cfff0;
   0x1fffff800078e3c000c7187000706060000c0e06000383870001fffff8001c0e18001a2c060007ffffe001fffff8003ffffe00038606000aeea18000798060003b30180018c3060002eaa1800303006000aacffe0;
   0x1fffff8001f1c70000e71cf000707060001c0e070001c3870001fffff8007fff5900175d164007ffffe001fffff8007ffffe0015d716400fffe59003399964001f3059001cc6764007fffd90031b396400ffc5740;
   0xaaeaa8003c78e0000638ce000706060000c0e060001c18380000c0000006007db0032ff96c000000e000000000000003860003fffa6c0006c09b003b0fb6c00fffedb000cce26c006bae9b00333626c00bae7fe0;
   0x7000003ffff8000718c4000707060001c0e070000e1c380000c1fd0007ffedb0017ddd6c00ffffff001ffc41800007070003ffff6c0057d4db001f0f36c00fffedb0006cc76c007997db00363476c0030f5740;
   0x6000003ffff8000318e000071e36c000c0e060000e0e18001ffcff8007ffedb0002ec96c00ffffff001ffcf98003ffff8000673a6c007ffc9b000eae36c000fe0db003fffa6c0069b69b00383826c0038f8600;
   0x70000038181800039c6000073f36e001c0e07000070e1c001ffc18000470edb007fffd6c00070070001e007f8003ffffc001c3bb6c0077dcdb001fff36c001f70db007ffff6c006db7db003f3e76c0019dfff0;
   0x60000038181800018e60000736366000c0e0600003060e00188dffc00fefedb002fce96c002ba7fe0007330380000303c0038cfa6c0066cc9b003aabb6c007b38db0003f826c006da69b0033bfa6c000f80300;
   0x7000003ffff800018c77c00777766001c0e0700003870e0019cdffc00170edb0016fcd6c007fe7fe0003f3018001fffff001187b6c007e7cdb007801f6c01f31edb0007dc76c0065a7db0031b1f6c000f07f80;
   0x6000003ffff800039ce7c00766666000c0e06000018386001ffc7e000aefedb00327896c006ae60e000781ff800003037803fffa6c00602c9b002ffeb6c00c30edb000ece26c007ffe9b00202026c000e07f80;
   0x700000381818000718c60007e7677001c0e0700001c387001ffdff000fe7edb001effd6c006667fe001755ff0001ffff3003fffb6c007ffcdb000fff36c003318db003cc776c007fffdb0000e076c001f861c0;
   0x600000381818000638c60007c6e63800c0e0600003870e0018cd9bc000038db001eff96c006666ae003ffe030000ffff0000003a6c006aac9b000c0236c00ba18db0038c3a6c0000009b000aea26c0079e60e0;
   0x7000003ffff8000e71c6000747671001c0e0700007071c001ddd1dc003ffcdb001e00d6c006667fe003ffdff000007070001ffdb6c00755cdb000c0736c00fffcdb003ffff6c003ffddb001fff76c01f0f7cf0;
   0x6000003ffff8000c7186000706070000c0e06000070e1c001ffc0c0001e0edb000efed6c006667fe001981ff8003ffff0000003a6c007ffc9b000eaa36c0030ecdb001ffe26c003ff89b001aaa26c00c033c30;
   0x700000001800001c6386000707070001c0e070000e1c1c0005e1ffc00ffffdb000ec7d6c0066675e001dd819c003ffff0001ffdb6c005d54db000fff36c0037c6db0018c776c00301ddb00180776c000018000;
   0x600000ffffff0018e306000706030000c0e070000e1c38000de0ee800c306db000ec2d6c006667fe001f98188002a82b8001ff9a6c000c009b000aaa36c0032ebdb0018c626c0030089b00180226c0030180c0;
   0x700000ffffff0038c706000707038001c0e070001c38700015f0c7000c186db0006ffd6c0067660e001fdfffc007fc3fc000001b6c01fffedb00070e36c00377adb001fff76c003ffddb001fff76c0030181c0;
   0x60000000ff800038c20e000706038000c0e03800383870003fb067800fffeff002666dfc00636fff00019bffc006ac3ac001ff9bfc00aeaaff00030c3fc00ff30ff001ffe3fc003ff8ff001aaa3fc0030180c0;
   0x15575540003dbc00000001f80070701c001c0e03800387070003fb87f000fffcff006764dfc00130fff0001dc3c00071d70c001d5dbfc000c38ff00031c3fc01ff30ff0018c77fc00301dff0018077fc0030181c0;
   0x3fffffc000f98f800000079c0070600e000c0e038007070e000219cfc000bbe0c0002fec700003b83980001bc7e00060ff0c001809a00000c7080000398308003018c00018c620000300880001802200003abaac0;
   0x3fffffc01fe187f003ffff1e0070700f001c0e01c0070f0e000618fff001f37c00006dff6000071c71e0015ffe700071ff0c001ffdc00000c6000007fffc0000301c00001fff000003ffc00001fff000003ffffc0;
   0xf8180f003fffc0c00700007000c0000e0020e0c0003f8703c00ff1f8000398360000e0fe07003fe683c007e000c001ff8c00000f8000003fffc0000300f00001ffe000003ff800001ffe000003ffffc0;
   0x40180200000000400700002001c0000c00000000003f0101c00fe07000038c000000407002003f0601c003c000c00181cc00000780000000000000030060000180700000301c00001807000003000000;
   0x0;
   0x0;
   0x0;
   0x0;
   0x0;
   0x0;
   0x0;
   0x0].
Definition hanzi_rows_50 : list N :=
  [0x0;
   0x180000000300000e03800000060000000300000000000000006000000000000000607000000000000000000000000000000000000000380000001801000000000000000000000000000000000000000007000;
   0x2aaa980001ff8300000e038000000600000007000007e0000000006000003fe7fe0000606000000000000000000000000000000000000000300000001c0380000000000002aa000002aaaa8000000000000003000;
   0x3fffd80001ff8300000e038000000700000007000007fffff000006000007fe7fe000060700003ffffc0007ffff0001ffffe0007ffff0000703ff0001c0700007ffffe0003ff000007ffff8007fff800000007000;
   0x3fff998001838300000e03880000030000000e000000bfffe0000060000030660e001fffff8003ffffc0007ffff0001ffffe0007ffff000ffffff000aeaea8007ffffe0003ff3fc007ffff8003fffaa8000003000;
   0x60198001838300000e039800ffffff003fffffc0000195e0000060000070660e001fffff800381c0c000600070001c000000070000000fffdc0001fffff8000018000003037fc00000018000038ffc000003000;
   0x6019800183bff001fff39800ffffff003fffffc00001800000aaeaa0003fe7fe0000606000038180c00060003000180000000600000000181c0001fffff8000018000003032e800000018000038ffc00ffffff0;
   0x157519800183bff001fff398005555d500000600000001800001fffff0007fe7fe00006070000381c0c000600070001c001c000700000001dc0e0000007000000c18600003030e0000000180000180c000ffffff0;
   0x1fff19800183b330018e3398000021c000000600000001800001fffff000606c0e0000606000038180c0006000300018001c0006000000038e070000003000000e18600003030e0000000180000180c0000001800;
   0x1fff19800187b330018e3398000070c0000006000003ffffc001c06030007fe7fe00157575400381c0c000600070001c001c000700000007071fc000fffff00006187000031f0e0001ffff800001c0c0000001c00;
   0x18631980018fb330018e3398000030e0000aaeaa0003ffff8001c06030007fe7fc003fffffc0038180c0006000300018001c000600000007fb9de000ffffe00006183000031b0e0001ffff800000c0c0000001c00;
   0x18631980019fb330018e339800007070000fffff0003ffffc001c06030001701d0007fffffc00381c0c0007ffff0001c001c0007ffff000ffff8f8000018000007183000033b0e00018001800000c0c0000001c00;
   0x18631980019bb330018e3398003ffff8000ffffe000381818001c06030000380c00000e0300003ffffc0007ffff0001ffffc0007fffe000c0bb03000001800000718380003330e000180018003ffc0c0000000e00;
   0x1863198001bbb330018e3398007ffffc000e060700038181c001c06030000381c00001c0380003ffffc0007ffff0001ffffc0007ffff000591000003fffffc001f18780003730e000180018003ffe0c0007fffe00;
   0x1863198001b3b330018e33980030307e000e0606000381818001c06030007ffffe0003fffc00038000c0006000300018001c000600060001bb3ff003fffffc001f98f80003638e0001800180038000c0007fffe00;
   0x1863198001f1b330018e31980070707f000e060700038181c001c06030007ffffe000fffff00038000c0000000700014001c000500070001bb3ff000000e00003b99dc0003038e0001800180038000c00000e0700;
   0x1863198001a1b330018e319800303077800e0606000381818001c06030000380c0001ec03f80000000c0000000300000001c000000060001bb0300000007000071db8c000303ee0001ffff80038000c00000e0300;
   0x186319000181b330018e318000707073000e060700038181c001c06030000381c0007cc03be0000000c0000000700000001c000000070001bb030000ffff0000f1fb0e001301fe0001ffff8001800fc00000e0380;
   0x186318000181bf30018e318000303070000e0606000381818001c06030000380c00030eab8c0000000c00000003000c0001c001000060001bb030000ffff8000e0f807002301bfc00000018001800fe00000e0180;
   0x18631c000981df3001fe31c000707070000e060700038181c001c0603000ffffff0000fff8000c0000c00300007000c0001c007000070001bb0300000381c000405807007301c7e000000180018007fe0000e01c0;
   0x1e630c001981c32001ee30c000303070000ea6060003f9818000fe603000ffffff0004aab8000e0000c00380003000e0001c003000060001bbb300000380e000001802003301c0c0000001800180003e0000e00e0;
   0x1e630e001981c300006e30e0007f7070000fe6070001f981c000fc60300003c3c0000c0038000e0000c00380007000e0001c003000070019b9bf000003807800001800007300c0000000018001c000000000e0070;
   0x600e000980e300000e00e0003f30700003e6060000a1818000006000000f81e0000c0038000e0001c00380007000e00018003800060009b9cff80003803e00ffffff003300e0000000018000c000000000e0038;
   0x6007001f807300000e00700000707000000600000001800000006000007e00fc000ffff80007ffffc001fffff0007ffff8001ffffe0019b8e1f003ffffdc00ffffff003f00700007ffff8000ff800000fffff30;
   0x6003800f803b00000e0038000030000000060000000180000000600000f8003f0007fff00003ffff8000ffffe0003ffff0000ffffe000fb8703003ffffc000aaaaaa003f00380007ffff8000ff000000ffffe00;
   0x60010000003300000e00100000700000000600000001800000006000006000060001ff4000017ff40000000000000000000001555000070060000000000000000000000000300000000000007f0000000000000;
   0x0;
   0x0;
   0x0;
   0x0;
   0x0;
   0x0;
   0x0;
   0x0;
   0x0;
   0x60060000000c0000006000007010300000c00c0000c18700004080c000001c000000000c00000380000000000000030030000007000000380300001c00c000030030000000180000010380000c00c0000c00100;
   0x60060007fc0c000000e000003038300000c00c0000c1830000c1c0c000001c000000000c0000018000003fffe000033030000007000000380300000c00c000030030000aa8180002030380000c00c0001e00f80;
   0x6006000ffdfff00001c00000387030003fc00c0000c1870000e180c000001800001ffe0c0001ffff80003fffe000033030000006000000380300000c00c000030030001ffc1c0007030380000c00c00007c7f00;
   0x3fff0600070dfff003fffff000386030003fc00c000ffffff0006380c0007ffffe001ffe0c0001ffff800030000000033030003fffff8000380300000e00c000030030001ebbffc003830380000c00c00003ff800;
   0x3fff0600031c0c0003fffff0001c6030003fc00c000ffffff0007300c0007ffffe001c0e0c0001ffff80003fffc000033030003fffff8000380300000e00c001fffc30001c19ffc003c3038003fff0c00001ff000;
   0x307fc0018c0c0000381830002ea9ff0000c0ff8000c1830000330ff8000700e000180effc001800180003fffc000fffbff00380001800ff83ff001ffeffc00fff9ff000e39860001c31ff003fffffc0007efe00;
   0x1fff7fc001ddffe000381c30007ffdff0015d4ffc000c1870003fffffc000701c0001c0effc001d555800030000000fffbff003871e1c01ff83ff001ffeffc00c31dff000671c70000f31ff0000c0ffc001f0ffe0;
   0x1fff66c0038cffe000381830006ab9b3001ffecc8000c1830003ffecc8000381c000180eccc001ffff800030000000031b33003be0f980003833300180eccc00c319b3000760ef80007b1bb0000c0ccc0018063c0;
   0x1fff66c0071c0c0003fffff000601db3001ffecdc00000000000638cdc007fffff001c0eccc001ffff80003fffe000031f33000fc03e00003833300180eccc00631db30003e07e00003f1bb001ffeccc000007000;
   0x3066c00e0caea003ffffb0006019b300180ecc800fffffe000638cc800fffffe00180eccc001800180003fffe000030f33001e060f80003833300180eccc006319b30001e0f800001b1bb001ffeccc00ffffff0;
   0x7fffe6c00e1dfff000381c3000601db3001ccecdc00ffffff000638cdc00ffffff001c0eccc001d555800000000000030f33000c060700003833300180eccc007ffdb30007f3fc000ffffbb001ffeccc00ffffff0;
   0x3fffe6c00fac060000381830006019b30018cecc800e01806000638cc800e0180600180eccc001ffff8003fffff8000303330000060000003833300180eccc007ff9b3003e3d8f800ffffbb0000c0ccc000031c00;
   0x555d66c007fc0700003ffc30007ffdb3001ccecdc00e0180700177dcdc00e01807001ffeccc001ffff8003fffffc00ffff33000fffff0007ff33300180eccc007ffdb3003c1e07c00ffffbb0000c0ccc000031c00;
   0xe1866c0008c83c0003ff838007ff9b30018cecc800e01806003fffcc800eabaae001ffeccc0000180000380601800ffff33000fffff0007ff333001ffeccc006039b3000006008000331bb002aeaccc000030e00;
   0x1f5c66c0001d81f000018030007ffdb3001ccecdc00ffffff007fffcdc001ffff8000000ccc00555d5400380601c00070333000c0607000603333001ffeccc00707db30007fffe0000731bb007fffccc003ffff00;
   0x3ffc66c002abaae000018038000e61b30018cecc8001ffff8000638cc8001abab8000000ccc003ffffc003fffff800078333000c060700060333300180eccc0038e9b30007fffe0000631bb003aeaccc003ffff80;
   0x7ffe66c003ffffc001ffff38000e61b3001ccecdc001c1838000618cdc001c1838000418ccc007ffffc0007fffe000078333000c060700060333300180eccc0019ddb3000606060000e31bb0030c0ccc0038307e0;
   0xe067ec003ffff8000ffff38000e61f30018cefc800181838000618fc800181838000618fcc0030180c0006060e0000f83f3000c06070006033b300180eecc001d8df3000606060000c31fb0030c0ecc0038306f8;
   0xe7f76c0038181c001c18318000e71f3001ceeedc001c18380006187dc001c1838000e1cfcc0070180c0007060e0001dc1f3000c06070006033b300180eecc000f8df3000606060001c31fb0030c0ecc003830770;
   0xe6386800381818000c18318000e303200086a0c80018183800061c2c800181838000c0c2c80030180c0006060e0001ce032000c06070006030b200180e2c800070c320006060600018303a0030c00c8003830600;
   0xee1c600038181c001c1831c01ce38300003700c0001d183800061c0c0001d1838001c0c0c00070180c0007060e000387030000c060700060303000180e0c0000f8e30000606060003b3038003ec00c0003830700;
   0xec0e60003a9818000c1831c008e1c30000f380c0001f983800060e0c0001f983800180e0c0003a180c0007e60e000383830000fc6070007ff030001ffe0c0003fc6300007c60600073f038001ec00c0003f30600;
   0xe00c60003f181c001f9831c01fc1f30001c1f0c0000718300006070c0000f98380038070c0007f180c0007e60e000f01c300007c6070007ff030001ffe0c00079f7300007c606001e3f8380004c00c0001f30700;
   0xfc006000021808000f9830e00fc0f3000380f8c0000018000006030c0000018000038038c0000a180c00008600000e00f3000000600000603030001aae0c000e07b3000000600000c078380000c00c0000030200;
   0x7c00600000180000001800c007c03300030030c0000018000006010c0000018000010030c00000180000000600000c006300000060000060303000180e0c000c01230000006000000018380000c00c0000030000;
   0x0;
   0x0;
   0x0;
   0x0].
Definition hanzi_rows_51 : list N :=
  [0x0;
   0x0;
   0x0;
   0x0;
   0x0;
   0x30000000000000000000001c6018000060060003000300003b8060000180180000000c0000381c0000000060000000300000000c0000000380000000000000003000000006000038018000206040000660300;
   0x38000000000000000000000c60180000e0060007ff8300033bb86000038018003fff0c0000380c0001ffe060007ff830002aaa0c000fff838001fffff800fffc30003fff860000380180007060e00007e0300;
   0x180007ffffe001fffff800fffe18003fff060001ffc30001bbb06000fffc18003fff0c000ffffff001d57060007ffc30003fff0c000fffc38001fffff800fffc30003fff86000fffe180003861c0000660300;
   0x1ffffc0007ffffe001fffff800fffe18003fff06000731830001bbb06000fffc180003300c000ffffff00180606000601830002aaa0c000e0183800180001800e00c3000380386000fffe18000386180000e70300;
   0x1ffffc000001800000007000001c6018000e1c06000333830000fbe060001870180003300c0000381c0001fff06000755c300000000c000e01c38001bfffd800f55c3000380386000038018001fffff8000470300;
   0xaaeae000081818000006000000c60ff0006187fc003b31ff003fffbfc000c61ff003fff7fc001ffff80018063fc007ff9ff001ffe7fc00fff9ff001bfffd800ffedff003803ffc002ba8ff001fffff800fff9ff0;
   0x1c070001c183800000700000ffffff0007187fc005f75ff003fffffc01ffffff003fff7fc001ffff8001d577fc00601dff001ffe7fc00fffdff0003000c000f55dff003fffffc007ffdff00180001800fff9ff0;
   0xc070000c183000000600000fffe9b003fffe6c00fffd33000e0c26c00ffff9b0033336cc00180018001ffe26c006019330018066cc000019bb0003fffc000e00db3003aebe6c0003809b00180001800063db30;
   0x1c03c000e187000000700000c0079b007fffe6c00fffd3300060c66c0000019b0033336cc001ffff800000076c007ffd33001c066cc00001dbb0003fffc000fffdb3003863e6c01ffff9b0019fff9800063db30;
   0xffffdc0006186000000600000dff69b00000066c000fe13300060c26c002aa99b003fff6cc001ffff8003fffa6c007ff9330018066cc00fff9bb0003000c000ffedb3003863e6c00fffe9b0019fff9800063fb30;
   0x1ffffc8000718e0000007000001ff19b001ffe66c001f7133003fffe6c007ffd9b003fff6cc00180018003ffff6c00631933001ffe6cc00fffdbb0003fffc000c01db3003863e6c0055559b000180180007fffb30;
   0xaaeac0000318e0003fffffc0000009b0018c666c007b3933003fffa6c00600d9b0000006cc001ffff8003111a6c00631933000aaa6cc003399bb0002aba80002aa9b3003bfbe6c002aa89b000180180007ff9b30;
   0x1c1c000001800003fffffc00fffd9b0018c666c01f31f330000e066c00755d9b001ffe6cc001ffff8003111f6c007339330000006cc00719dbb000001c00007ff9b3003ffbe6c007ffd9b0001fff80000639b30;
   0xc0c000ffffff00000600000abe89b001ffe66c00c30f330000e026c007ffd9b001ffe6cc00000380003fffa6c00333133003fff6cc0060d9bb003fffffc006ab9b3003963e6c006aac9b0001fff80000639b30;
   0x1c1c000ffffff0000070000060f19b001dd666c007ffd33001fff66c00701d9b0015546cc00ffffff003ffff6c001b3133003fff6cc00fffdbb003fffffc006019b3003b63e6c00711d9b00000e000000639b30;
   0xc0c000aabaaa00000600000f9be9b0018c666c007ff933001fff26c00600d9b0000006cc00ffffff00000026c00ffff330030c36cc00cfe9bb0001c6380007ff9b3003e63e6c00638c9b00000e000002eb9b30;
   0x155d5d400001800000007000001fc59b001ffe66c00631d3300006066c007ffd9b003fff6cc000718f0001ffff6c00ffff330030c36cc00061dbb0007c61e0007ff9b3003e63e6c00739d9b000fffff0007ff9b30;
   0x3fffffc00001800000006000001f70fb000aea7ec006309f3003fffbec002ba9fb003fff7cc001ebab8001eaebec000ce1f30030c37cc00060dfb003fffff8006019f3003ffffec00638cfb000ffffe0002eb9f30;
   0x3fffffc00001800000007000001b3edb0000c076c007ffdf3007fffb6c000381db0000c47cc007ffffe000e0e3ec000c61f3003fff7cc00ffedfb003fffffc007559f3003ffff6c00719ddb000e0e070000639f30;
   0xc000000018000000060000033ce1a003fff068007ff8320001f006800fffe1a000ecc0c800eebabf80071c068000c6032003fff0c800ffec3a0003860c8007ff83200380386000618c1a000e0e060000638320;
   0x1c000000018000000070000077f018003fff06000631c300003f006001ffff18001cc60c000cc18330003f8060008c70300030c30c000060e380003861c0007558300038038600045d418000e0e070000638300;
   0xc0000000180000000600000e238180000c006000630830000738060000380180038c70c0000c18300001f0060018c38300030c30c0000606380003860c000601830003fff860001ee018000e0e06000fff8300;
   0x1c0000000180000000700001e71f18007fff860007ffc30001f1f060000380180070c38c0000f9830000fff060018c3c30003fff0c001ffff380003f61c0007ff830003fff860007c7c18000fce07000fff8300;
   0xc000000018000000060000083e218003fff860007ff830007c07c60000380180020f18c0000f9830003f0fc6000fc0f30003fff0c000fffb380001e60c0007ff83000380386000e01f180003ce060000038300;
   0x1c000000018000000070000001e01800000006000601c30003001860000380180000f00c000001800003c01c6000fc06300030030c0015552380000060000060183000380386000c0071800000e000000038300;
   0x0;
   0x0;
   0x0;
   0x0;
   0x0;
   0x0;
   0x0;
   0x0;
   0x0;
   0xe0000000300000000e0000000180000000e0000000380000000e0000000180000000e000000038000000060000000380000000e000000018000000060000003806000000010000000400000006000000600600;
   0xe0000000380000000e0000000380000000e0000000380000000e0000000380000000e0000000380000000e0000000380000000c000000038000000060000003806000000038000000e00000006000000e00e00;
   0x155d5500000700000001c0000000700000001c0000000700000001c0000055755400001c0000000300000001c0000000700000001c000000070000000461000003807000155418000000e00000006000000700e00;
   0x3fffff000fffffc002abeaa000fffffc003fffff000fffffc003fffff000fffffc002abeaa000fffffe002abeaa800002000003fffff0000070000018c631800038030003ffe1c000000700000ffffe0000301c00;
   0x3fffff000fffffc003fffff000fffffc003fffff000fffffc003fffff000fffffc003fffff000fffffe003fffff800fffffc003fffff000fffffc0018c631800038030001ffe1c000000780000fffff0000381c00;
   0x1c300000000c003fffff00000080c0000000300000600c0000000300000600c003fffff00000000e003fffff800fffffc002aaaab000fffffc0018e6398000380380038000e000020380000006000002baaaa0;
   0x1c30001f000c0000000300000380c0000000300000600c0000000300000700c0000180300001814e0000180380000600c000000c300055555c001866198007ff01c001800060000f01c0000006000007ffffe0;
   0xfffe30003fff8c0004000300000180c000aaaa300000e00c0007fff300000600c000018030000180ce0000180380000600c000000e300000001c001a26898007ffe1c001801870000780e0000006000007ffffe0;
   0xffff300005ffcc001c0e030007fffec001ffff30007fff8c0007fff30007fffec000018030000181ce0000180380000600c000000e300000001c001b36cd8007ff70c001801c700003c070003fffffc000301c00;
   0xc007300001c18c000c0c3b0007fffec000abaa30003fff8c000380030007fffec000018030000180ce0000180380000600c000e00e300000001c001bfecf80063830e001801c380001c038003fffffc000300c00;
   0xc003b00001c1cc000c0c33000000e0c00001c0300070018c0001e3c300000700c003ffffb0006181ce003ffffb80000600c001f00e300000001c0019fe7f8006383ff001800ffc0001fffc0001c0380000301c00;
   0xc3fff00001818c000e0c3300000c60c0000180300030018c00007f8300000600c003ffffb800f180ce003ffffb80000600c0007e0e300000001c00198e6f8006383ff001800ffc0000fffc0001c0380000300c00;
   0xc7fff00001c1cc00061c7300001c70c00001c0300070018c00003e0300015754c003ffffb0003dbfce003ffffb8007fffcc0001fce300000001c0019c6318006181c700180075c0000787c0000c0700000301c00;
   0xc306b8007fff8e0006186300000c38c003ffffb0003aab8c000afaab8003fffcc00007e038001fbfce00003c038007fffcc00003fe380000001c001bc6718006180c000180030000003c00000aeaba000ffffff0;
   0xc70630007fffcc000718e30007fffcc003fffff0007fff8c003fffff8001fffcc0000ff038000781ce00003c0380000600c00000fe300000001c001b66d98006180e000180038000031e00000fffff000ffffff0;
   0xc306380003818e000338e38003fff8e00006c030003aab8e001abaab8001c038c0000db038000380ce00003e0380000600c000001e380000000c001a2699800618370001800d8000070f00000aaeaa000abaaea0;
   0xe7fe38000381ce0003b8c380001c00e00006c038007001ce001c18038000e070c0001db838000181ce00007e0380000600c000000e380000001c001ff7cd80061c770001c01dc000070780000006000000300c00;
   0xebfe380003018e000180c380000c00e00006e0380000018e000e1803800070e0e000399c38000180ce0000e60380000600e000000e380000000c001fffff80060c6380018038e0000e01c0000006000000300e00;
   0x17c0618000771c60001c0c180055d546000067038000001c600071801800079c0e000719e18004181c60001c70180000600e003800e380000000c001c7f9f80060c61c001c03870001c00f0003fffffc000300e00;
   0x338061800c761860000c001800ffffe6000067018000000c60002180180001f806000e18f1800c180c60003838180000600e003800e180000000e0018068180060efee001c03fb8003f8078003fffff8000300600;
   0x700061c00c671c70000e001800fffff7003063818000000c600001801c0001f806003c187dc01c1b1c7000781c1c00006006001800e1c0000000e00180601800607fff001c07ffc003ffffc001557554000300700;
   0x300061c00cedf87002aeaa980000c007003061e18000000e700001801c0003fe060038181dc00c1bec7000f00e1c00006006001800e1c00000006001fffff800607c3f000e060fc0073fffe000006000000300380;
   0x3fffe1c00fdcfc7007ffffdc0001c007003fe0f9c000000e700001801c007fdfc70010180dc00ff9fc7003e0079c00fffff7001fffc1c00000007001fffff8007f3c07000ff601c0070017c0000060000003001e0;
   0x1fffc0e00f981c3803ffffce0000c003803fe03ce0000007380001fc0e00fe03f300001800e00ff83e38038003ce00fffff3000fffc0e00000003801800000003e1c000007e2000006000000000060000003000f0;
   0x55500c0070004300000000c0001c0030017401cc0000007300001fc0c00700073000018004005d00430010001840000000300055500c000000030018000000014080000000000000000000000006000000300060].
Definition hanzi_rows_52 : list N :=
  [0x0;
   0x0;
   0x0;
   0x0;
   0x0;
   0x0;
   0x0;
   0x0;
   0x0;
   0x70000000380000000e0000000380000000c0000000380000000e0000000180000000c0000000380000000e0000000180000000e000000038000000060000000180000000e0000000380000000e000000018000;
   0xe0000000380000000c0000000380000000c0000000380000000e0000000380000000c0000000300000000e0000000380000000e0000000300000000e0000000380000000e0000000380000000c000000038000;
   0x7fffff000557554003fffff000fffffc00001c00000fffffe00001c00000fffffe003fffff00000700000155d5500000300000001c0000000700000001c0000055755400001c0000055755400001c000000070000;
   0x3fffff000fffffc003fffff000fffffc003fffff000fffffe003fffff000fffffe003fffff800fffffe003fffff000fffffe003fffff000fffffc003fffff800fffffc003fffff800fffffc003fffff000fffffc0;
   0x7fffff000fffffc00155d57000fffffc003fffff000fffffe003fffff00000700e003fffff800fffffe003fffff000fffffe003fffff000fffffc003fffff800fffffc003fffff800fffffc003fffff000fffffc0;
   0x300006060c0000180300000700c0000000300000180e0000180300000300e0000000380000000e0003818300000000e0000180300004000c0000080380001080c0000008380000700c002aaaab000aaaaac0;
   0x3ffe7300057575c000ffff30003fffcc00038183000001c0e00001c070003fffce001f01fb8001c730e0003818300003070e000018030001c070c00019ce3800038c0c0006018380000700c0000100700000700c0;
   0x3ffe33000fffffc000ebaa30003fffec00038183000ffffee000ffff30003fffce001ffbfb80018630e0003818300003030e000ffff30000e0e0c00038c63800070c0c000601c38003fffcc0000300300000300c0;
   0x15d473000fffffc001f5d5700038700c00038183000fffffe001ffff700000700e0001fdd38001c738e003fffff00003038e000ffff3000070c0c00070c738000e0c0c000601c38003fffcc0000300700000700c0;
   0xc03300006060c003fffff00038700c003ffffb0000e060e000c1833000fffffe000180c38000c618e003ffffb00003038e000018030007fffec000e0c338007fffec000600e380030700c000030030007ff00c0;
   0x1ffc7300007ff0c001f5d57001fffffc003fffff0000c670e001ffff7000fffffe000180e38001e73ce00038183000fffdce000018030007fffec003ffffb8007fffec003ffe6380030700c001fffe70007ff00c0;
   0x1ffdf300007fe0c000e1803000fafaae0003818300018638e000ffff300000040e000180638003e67ce00038183000fffdee002abaab80000600e003ffffb80000ce0c003ffe73800ffffec001fffe30002ab00c0;
   0x180df300000000c000ffff300038700c000381830007fffce001c1877000078f0e001ffbf3800777eee0003ff830000781ee003fffff00000600c0000071380000ce0c00060073801fffffc001c306700000700c0;
   0x18cc330001fff8c000018030003fffee00038183000ffffee000c18330003e1bce001ffbfb800e3ecee0003ff830000fc1fe0000000380000600e0000070380038c60c0006087b80030700c0018306300000300c0;
   0x19cc730001fff8c000ffffb0003fffee00038183001f861fe001ffff3000781dfe0001818b800c1f87e000000030000fc1fe000180038007fffce0007ff0380018c60c00061c7f80030700c001c306700000700c0;
   0x18cc3300018018c000ffffb80020704e0003ff830009aebbe000ffff3000200e2e0001819380000602e0006aaab0000f619e000180038007fffce0007ff838001cc60e0006186b8003abaac001830630003fffcc0;
   0x19cc7300018018e000c1c3b8007071ee0003ff830001fff860000c7030000fff06000181998007fffe6000ffffb8001b71ce003ffffb80000600e0007ffc38000ec70e000638638003fffec001fffe30003fffce0;
   0x18cc338001fff8e000ffffb8003cf38e000000038001861860000c3e38000eab86000180d98003fffe60006aaeb8003b318e002baaab80000600e000383c380007c30e000630638002afaae001fffe30003800ce0;
   0x18cd718001fff8e000ffff98001ffb0600064033800186186007fffff8000707e6003ffcf18007fffe6000781c38007339c6000180e1800fffff60003cfe180007c3060006706180000f80e001c30630003801ce0;
   0x8ebf180000e186000c183980003fe06000e63318001fff86003fffff800038e76003ffcf18000060060003c381800e31d86000181c1800ffffe60001fe7180081c3860006206180001f806001830638003800c60;
   0x761f180001c1c6000ffff9c001f77c7001c6731801dfff870015d55580001fc07000000f1c000070070001ff01801c30fc700018381c00fffff70000fc7dc01c0f1c70006006180003dc06001c30638003801c70;
   0xf7831c000380e6000ebab9c007c71ff0018e639800c061830000c00180000f803000003f1c0000600300003e0180083058700018301c000060070000fc1fc00c0f8e300060061800078f06001830618003aaac70;
   0x1c3c11c001f00f7000c1c39c00f070770038c71dc00c060030000c001c001fdfc3007ffffdc00fffffb0007fff1c000301c700018000c00006007000fdf0dc00ffdcf300074061c007f07c7001fffe1c003fffc70;
   0x380f00e00fe0073000fd838e00803f038030c61ce00ffe0038000c000e00fe03fb803ffe1ee00fffffb803fc3fce000301838001f800e00006003803f07e0e00ff883b8007e060c00fc01f3001fffe0c003aaac38;
   0x100700c00700023000f9c38c00003f0300104508c007fc0010000c000c00f00071003fd004c00000001003c001cc000301c10001f800400006003001c01c0c007f00100007e060c00700073001c00608003001c30;
   0x0;
   0x0;
   0x0;
   0x0;
   0x0;
   0x0;
   0x0;
   0x0;
   0x0;
   0x700600001401000000c000001c00000007000000000000000000380000000e0000000380000000c0000000180000000600000001c000000060000000300000000e0000000380000000e000000038000;
   0x600600001c03800000c000001fe000000fe00000000000000000300000000e0000000300000000c0000000380000000e0000000380000000e0000000700000000c0000000300000000e000000038000;
   0x1fffff8000700600001c0380003ffeff001fffbfc007ffcff0000007f800fffffe003fffff800fffffe003fffff000fffffe003fffff800fffffe003fffff000557554003fffff800fffffc003fffff0005575540;
   0x1fffff8000600600001c0380003ffe7f0000ffbfc0003fe7f0000007f800fffffe003fffff800fffffe003fffff000fffffe003fffff800fffffe003fffff000fffffc003fffff800fffffe003fffff000fffffc0;
   0xc0700000700600001c03800030c0700000e018000031e700000003000000700e0000006180000000e0015555700000000e001555d7800fffffe000181c3000fffffc00155557800fffffe003fffff000fffffc0;
   0xc0300000600600001c03800030c0300000e01c00003003000000038000aaeaae002aa0618003fffce000aaaa30007fdfee000001c380007030e0001818300000600c000000c380006070e00000e0300000600c0;
   0xc0700005755750001c038000ffffb80000e00c0000300380000001c000fffffe003ff7f18003fffce000ffff30007fdffe003fdfff80007175e003fffff0003f6fdc003fc1c380007060e000ffff3000156f0c0;
   0xc030000ffffff0001c038000ffff980000e00e0000308180000000c00000000e003983f98003aeace000c18330006198ce003fdfff800033ffe002babab0003f6fcc003fcffb800ffffee000ffff30003f6fcc0;
   0xc070000ffffff0001c03800030c01c0000e007000030c1c0000000e0003fffce0039c3198003fffce000d5d730007719ce0018d557800573ffe0001d5c30003060dc0018cffb800fffffe000c1c330007f61cc0;
   0xc0300000600600001c03800030c07e001fff0b000ff0cae000000ff0003000ce0038cffd8003060ce000ffff30007e198e0018cffb800ff830e0001ff830003060cc0018cc1b800018c0e000c18330003060cc0;
   0xc070000070060003fffffc003ffeff001fff7fc00ff0cff000000ff00033fcce0018efff8003fffce000c1c330007f1f0e001ccffb801ffbfee00001c030003f6fdc000ccd5b8003fffce000ffff30007060cc0;
   0x3fffffc00060060003fffffc002aeaea0000e03f800030cea000000e1000330cce001e7cd980000600e000c183300063fbee000ccc1b80031ffee000ffff30003a60cc000ccffb8003fffce000ffff30003f6fcc0;
   0x3fffffc000700600001c03800000c0600000e030000030cc00000006000033fcce001e3cd98007fffce000ffff300071f86e0006cffb80071c706000ffff30003060dc0006cffb800318c0e000c1c330007f6fcc0;
   0x3fffffc000600600001c0380007ffe600000e030800030ce0000000638003000ce00036ff98002aea8e0000c38300003de0e000ecffb80031e30e000e18338003fffcc000ecc1b800bbaeae000c0c330003060cc0;
   0xc0700000700600001c0380007fff670000e039c00030ce7000000730003fffce00036ff9800fffffe0000c3830001f0f8e001cc003800337ff6000ffff30003fffcc001ccffb801fffffe000ffff30007060cc0;
   0xc0300000600600001c01800000c0660000e019800030c660000003300000000e003fecd9800fffffe001ffffb000fee3ee0018cffb8003b3ff6000ffff380000600c0018cffb800318c0e000ffff30003aeacc0;
   0xc0300000700600001c01c00000c07e0000e019800030c7e0000003f0007fffc6003ffcd98000f0f06001ffffb800f07c760030cff98001f01c600001c038001fffec0018c559800318c0600031e038007fffcc0;
   0xc0380000600600001c01c000ffffbc003fff9f800abac7c0000003e0002aaa8600033ff98003e67e60000c383800030f860030c3818001e3fc6000ffffb8003fffec0038c3198003fffe60003be038002afa8e0;
   0xc0180000700600001c01c000ffffbc003fff9f000fffc3c0000001c000fffff600031ffd800f071f60015d7d580001c3860030dd818001e1fc6001ffff98001c070e0030c7198003fffe6000db70180000f00e0;
   0xc01c0000600600001c00e00000c0380000000e000fffc380000003e000fffff6003ffcc9800bfffe6003ffffd80008f8060038dffd8000c38c6000018018000e0e0e0038c619800078f06000ab30180001f8060;
   0xc01e00007ffe00001c00f00000c07c0000003f0000000fc000001ff000046207007ffccdc007fffc7003ffffdc001c1f87001fc1fdc001e18e7000ffff1c0007fc06001fcf19c000f8f87001ff3c1c00039c060].
Definition hanzi_rows_53 : list N :=
  [0xc00e00007ffe00001c0070000083ee000000ff0000003fc003fffe78001e678300030cccc000060030003e381c000f8383000ec180c003f186300001801c0001f806000ecff8c003d8dc30038f1e1c000f0f070;
   0xc00780007ffe00001c007801ffffc7007ffff3c01ffffcf003fff83c007c61f300030cccc01fffff3000781f1c0003fc030000c180c0073d87300155d55c001fff070000dcfcc00798cf3007570fdc007e07c70;
   0xc003c000600600001c003c00fffe07803fff81e00fffe07803ff801800e07cf380030fc6e00fffffb803e00fce00003fe38000c1f0e00e1ff3b803ffffce00ff0ff38000c808e00618c33803ff03ee00f801fb8;
   0xc0018000700600001c00180000000300155000c0000000300000000000407c0100030706400000001001c00180000007c10000c0f0400c04f1300155554c007001f30000c000400418c11001fe00c000c000710;
   0x0;
   0x0;
   0x0;
   0x0;
   0x0;
   0x0;
   0x0;
   0x0;
   0x0;
   0x1c00000010000000004000000600600000c000000000000000030c0000380000000000000000e018000013000000000c000000c131000001c000000060000000180000000000000001c0000000000000000c000;
   0xc3fc000380ff00080e3f8000600e00000c03fc000382aa000030c0000381ffe000000000003e01820007b000000038c000000e33380000180000000700000001800000fffff800001c000007ffff000000e000;
   0xc3fc00638cff001c0e7f8000700e00000c53fc000383ff000030c0000381ffe0007ffff0006e01cf000f300000007cc0000006333000557d5500001f800003ffffc001fffff8000018000007ffff00001c7000;
   0xe3a800638cea000c0e300000301c00000c33a8000383ff000abaea8003818000007ffff000ce00fe001c30000001e0c00003fe1b2000ffffff000039c00003ffffc00000600000ffffff000600030000383800;
   0x3ffe30000638cc0000e0e700003ffffe0000c730000018380000fffff80038180000060000000ce007c000830000001c1c00003ff7ff800ffffff0000f0f000000180000000600000ffffff000700070000701e00;
   0x3ffe30000638cc000070e300003ffffe0038c330000018380000fffff80038180000060000000fffef8003fffffc00000c0000183bff80000c3000003e078000001800000aaeaa000008380000600030000e00f00;
   0x18c730000638cc000038e70000355d54001fc73000001c380000c30c000038180000060000001fffffc003fffffc00001c00001c7f318000ec338001fffff000ffffff000fffff00003c3c00007ffff0001fff7c0;
   0x18c33f8007ffcfe0001ce3f800301800001fe33f80001c380000c30c0000381ffc00060000000aeab8e00003000000ffbc00000e7e7d8001cc318007e2aafe00ffffff000006000000700e00007ffff0003ffffe0;
   0x1cc3bfc007ffcff0000fe7f0003018000019ff3fc0001c3fe000c30c0000381ffc0007fffe0000c010780007000000fffffd0007cff580038c31c00380001c005557d5000006000000e0070000800070007057fc0;
   0xc18080003800200006e038003abaa80018ff0080000c3fe000fffff000380aac0007fffe0000c0033000030000000bffff000782b780030c38e0003fffc0000781c0002aaeaa8001ffff8003800030002300800;
   0x4c581c00038007007fffc38003ffff80018dfc1c0000c006000fffff00038000c000000060000d547000007000000001c7f0007c7b780070c1c60003fffc0000f00e0003fffffc003ffffc001c00070000301c00;
   0xece00c00038003003fff838003ffff80018c3e0c0008e006000030c300038000e000000060000dfc30000077ff800001800000fe23380020f8e00003000c0003ffff8002aaaaa800300028001ffffe0000300c00;
   0xcce01c007ffe07007fffc180000181c0018c7c1c000ce007000030c300038000e000000070000dffff000077ff800003800007c7ff180000f87c0003000c0007ffff80000c0700001381c0000ffffc0000301c00;
   0xcc63fc007ffeff0000ce2b80000181c0018c33fc000c6003000030c3800381ffe000000060000c63ff0000603000000380000383bb18000309b80003fffc0007000b80000c0300000380c000000028000ffffff0;
   0x1cc63fc00701cff0001ce7f800555d5c0018c73fc001c73ff003fffff800381ffe001fffff0000c7070000060300000030000000c0700000301c00003fffc0000301c00000c0700000381c00000c038000ffffff0;
   0x18c6300003038c000018e3a800fffffc0018c3300003873ff003fffff800381aaa000fffff0000c61bc000060300000030000000e0300000301800000c060000030180003fffffc00ffffff0000c038000abaaea0;
   0x18c7300001870c000038e700007ffffc001fc730000387180003fffff800381800000c00000001c71f60000e0300000070000015f575400ffffff0000c0700005755d5003fffffc00ffffff003fffffc000300c00;
   0x38c3380001ce0c000030e30000601e00000ec33800030398000383060000381800000e00000000c63b60000e030000006000003fffffc00ffffff003fffffc00ffffff002aeaba800abaaea003fffffc000300e00;
   0x30c3b80000fc0c000070e30000601f000010c7300007039c000383070000381c00000e00000001c73770070c03000040e000003fffffc005755d5003fffffc00ffffff0000c0380000380c0003fffffc000300e00;
   0x30c1b80000780e000060e30000601bc00060033800070398000183038000381800000e00000009be3330061ce30000c0c0000000e0300000300c00000c0300000300c00000c0380000380e00000c0180000300700;
   0x10c11800007c060000ece300007019f0007007180007fddc0001fb03c000381c0000060000001dbfc730071cff0001c1c0000000e0380000300e00000c0300000300e00000c01c0000380700000c01c0000300700;
   0xc0180001fe060001cfe380003f187800300718000fffec0001f301e000380c000006000000098fe30003383fe000c380000000e01c0000300700000c0380000300e00000c00e0000380380000c00e0000300380;
   0xd41d4007c7c7500787e390003f183f003fff1d400e1fcfe0005300f800380ff00007fe00000f814700037807fc00ff00000000e01f00003007c0000c01f0000300780000c007c0003803e0000c00700003001f0;
   0xf81f800f03e7e00300f1f8000a180e003ffe1f800c004fe00003003c00380fe00003fc00000f0003e003f0003800fe00000000e00780003001f0000c00fc0003003e0000c003c0003800f0000c003c0003000f0;
   0x780f800c0063e0000061f0000018000005500f80040007e000030018003807e00001fc0000070001c001e00000007c00000000e0018000300060000c00180003001c0000c000c000380070000c0018000300020;
   0x0;
   0x0;
   0x0;
   0x0;
   0x0;
   0x0;
   0x0;
   0x0;
   0x0;
   0x1801c0000001c0000000000000018000000007000000000000000018000000000000000000001010000000000000001c00000000000000001c000000000000000000000000018000000000001c000000001c0000;
   0x180180000000c00002aaaa00030180800000030000000000000ff018000fe007f000aaa2a8003838ff003f9f9fc000180ff001ff9ff800001800002aaabfc000aa8ff000aa818000fffcff003fe03fc000180ff0;
   0x3ffdffc000fffc00007ffff00038181c001fff700003ffffc000ff3ffc00ffffff000fff7fc001830ff003fdfdfc000380ff001ffdffc00ffffff007fffbfc007ffcff001ffdffc00fffdff0007ff3fc000380ff0;
   0x3ffdffc000fffe00007ffff000381818001ffe318003ffffc000c33ffc00eaffea000eaa3fc001c70ea00399898000fffeea00180180000ffffff003fffb00003ffcea001c1bffc00eae8ea00067f3a8000380ea0;
   0x1801c000060060000700000001c1838001fff718003d5554000c3018000c01870000c07700001c60c00039d9d8000fffec0001801c0000ffffff000c06300001c00c0000c31d740060c1c000067330000ffffc00;
   0x1801800006aae0000300000000c183000180031800380000000c31ff800c01860000c02200000e20c0003998980000000c00018018000004c330000c06300000e00c0000e3187000e0c0c000066330000fffec00;
   0x1ffdff80007fff00007fffe0000e187000180071800380000000c31ff800c01c70000fff700007ffec00039d9d80000000c0001ff9ff8001ec370000c06300000f00c0000770c700060e1c000067330000ffffc00;
   0xba8ba80003aaa00003fffe00006186000180031800380000000c3800000eaff6a000ffe2a8007ffeff003b9a9f8007ffcff001ff9ff80038c338000ffe3f8000780ff0003e0ff80060e0ff0006633fc0000c0fe0;
   0x1801c0000300000007000000004180000180071800380000001c3bffc00feff7f000fff7fc00638eff003fdfdf8007ffcff0000380380078c31c000ffe3fc000fc0ff0003e0fc0006071ff0006733fc0010e0ff0;
   0x3ffdffc00ffffff000300000002abaa800180031800380000003c1fffc00fec37f0000e03f800638e03003b9a8ac00600c030000380380060c30e000c06008003ef003000ffbfc000603803000e6300c003860020;
   0x3ffdffc00ffffff003fffffc003ffffc00180071800380000007c1f55c0006c3030015f501c007ffe070039d9c1c00700c070000180180060c304000c0601c00fc7c07007f3d9fc007e3c07000c7301c003c70070;
   0x18018000000f00003fffffc003ffffc001ffe318003ffff800000bffc0006c303001fff00c007ffe0300399880c00600c03000ab8ab8000aaaa8000c0600800e01f0300380c03c003e0e03000c6300c001c38030;
   0x1801c000380ff000040600000300000001ffe718003ffffc001ffc0000006c303001fff01c00638e070039d9d5c00700c07001ff9ff8001ffff8000ffe01c00c006070007fffe400000407000c7301c000f5c070;
   0x3c1cfe000e0e0600030000000180031800380000001ffdff800aec32b0018e32ac00638eff0039989fc007ffcff001aa9aa8000c0000000ffe3fc000000ff0003fffe0000001ff000c23bfc0007feff0;
   0x7ffff0001f3e1f000f0e1f00030000000180071800380000001c31ff800ffff7f0018e37fc007ffeff003fdfdfc007ffcff001811810001c0000000ffe3fc007ffcff000700000007ffdff000c73bfc0007fcff0;
   0x7ffff00003f78200039e3c0003aaaa800180031800380000000c3180000eaff6a8018e33fc007ffee0003f9f980000380e00018f98f8000ffff8000c06300007ffce00003fffc0007ff8c0000c33b80000380c00;
   0x6000000007f1f00001de780003ffff800180031800380000000e71ff000c0c360001fff700000380c00039d9d80001390c0001be1fe0001ffff8000c06300000380c00007fffc000601dc0001df1b000019c0c00].
Definition hanzi_rows_54 : list N :=
  [0x600000000678fe0000ffa00003ffff800180038000380000000661ff800c0c360001fff300000380e0003898d80003bb8e000198198000000018002c06300000380e00000000e0006018c00019b1b800018e0e00;
   0x7fffe0000e7e1e0000f7f0000300000001800380003800000007e001800c0c3600004e030001ffffe00038d8dc000739ce0001f81f000055555c007ff6300000380e000055556000601dc00019b1b80003870e00;
   0x7fffe0001c6f800001e6f8000300000001800180003800000003c1ff800c0c360000ee030000ffffe00038d8d8000638ce0001be0fe0003ffffc003ffff80000380e0000ffffe0006018c0001b39b80003038e00;
   0x600000007863f00007c63f000300000001fff1c0003d55540003c1ff800c0ff70001ce0300000380600038d8fc000e38e60001cfdcfc00355554000c7ff8000038060000fffff000601cc0003b19d8000701c600;
   0x60000000f060fc001f060fc003aaaa8001fff0e0003ffffe000ff180000e0ff60001ee0380000380600038d86c000c38660001c18c1c00380000000c0038000038060000e00000006ab8c0003bfcd8000fffe600;
   0x7ffff000e0751f003e06018003ffffe001fff0f0003ffffe001e7dc0000e0ff75003ffffd00003807500387d7c000c3d675001c00f4000380000000c001c001ffff74000600000007ffcf40077fcfd400fffe750;
   0x7ffff000003e02001807e00003ffffe00180007800380000003c1ef80007ec33f0033ff9f80003807e003e7e3f80003f07e000fe0fc0001fe000000c001f800ffff7e0007f8000007ff8fe003608ff800c00e7e0;
   0x60000000001f00000007e000030000000180003000180000001006780007c011f0070001f00003803e001e4e2780001f03e0007c07c0001fe000000c000f80000003e0003f800000601c7c0010004f80040003e0;
   0x0;
   0x0;
   0x0;
   0x0;
   0x0;
   0x0;
   0x0;
   0x0;
   0x0;
   0x181800001c0700000000c00000006000007018000000000000000000000000c0000000300000018180000007000000100000011800000001c00000000000000000000000400000018c000000000300000001c00;
   0x381c0000180700000018e0000ffc700000601800000e000001c0fff8006000c000180030000201818001c0030000703f8000039800000001800001c02aa0007000000000e00000018c3ff0003fff80000000c00;
   0x700e00001c038003ff1870000ffc380000e01c00000f000001e0fff800707fff001e1fffc00701818000e0ff0000781fff000f1800000003800001e07ff000783fff0000f800001fffbff0001fff800007ffc00;
   0x600e00001801c003ff1838000e0c380000c00e000007800000f0e03800383ffe000f0fffc0038181800078ff00003c00ff000e38000007ffffe000f07ff0003c3fff00003e00000baeb000001801800007ffe00;
   0xe007800ffff1e0039c183c000e1c1e00155547800003c0000078fff8001e0c18000795754001c18180003c0700001f1040000818000007ffffe000786070001f0e1800001fc00001be3000001fffc0000700600;
   0x3fffc3c00fffe0f00398180e000e0c0f003fffc3c00000f000003cfff8000f0e380001e0300000e18180000efff8000fb8e2003fffffc000700c00001e61b000078e18000003f00000663fe0001eaa800007ffe00;
   0x3fffd1c0061c7670039cd9cc000e1c67003ffff1c000007c00000fe0380007ffff0000f5750000fffff00004fff80003d8c6007fffffc000701c00000f63f00003ce18000001fe000fff3fe003fffffc0007fff00;
   0x2aea9800061866000398f8c0000e0e60000018380000103e000006fff800017fff00000fff80003ffff00380c3180000198e0000380000003818000002633000008e180000803c000fffb00003fffffc000300000;
   0x701c00071c7700039c7fe000fc0f7000001c1c0000380e000380fff800e0000000380fff800411c18001c0c31800600d9c00033000000fffffc00380677000e00e180003c0040000e3b0000017099000ffffff0;
   0x600e0003186380038c1b7000fc07b80000180e00001c00000380030000700aa800180000000e03c38000e03f1800e00e980001b0ff800fffffc001c0663000e00e180001e0000007fffff0003b8db800ffffff0;
   0x700f00015d71c0039c1870000003fc00155c0f00000f000001e1fffc00781ffc001e07ff800703c7c000783ff8007801c00001f0ff800fffffc001e0667000787fff000078000007fffff0005fcdf0005555550;
   0x600f8003ffe1e0038c1838000000be001ffc0f800007800000f1fffc003c180c000f07ff800387c7c0003e43f8003c00c0000c78e180007800c000f06030003c3fff00003e000002eb180000e70ba80006060c0;
   0x700fc003fff1f0038c187c007fffbf001ffc0fc00003c000007c0000001f1d5c0007c6018001cfedc0000ec318001f3fff00067fe180001fc0c00079fffc001f7fff00001fc00007ff180001ffdffc0006560c0;
   0x1fff8fe00381e1f8038c183e003fffbf801c1c0fe00001e000001e7ff000079ffc0001e6018000edede00380ff180007bfff00036ee1800003fcc0001ffffc00078e18000003f00000e31800018fc3e00046ff0c0;
   0x1fff8ec0018371b0038c18740038063b001c1c0ec00001f800000e7ff00003980c0000e6018000fdf5e001c07e180003bfff0013f0e18001c07cc0000f60700003ce18000601fc000fff7ff0017f1ff000f65f5c0;
   0x600e4001833180038ed83000180e38000c0c0e000001be000000603000c0180c000007ff800c31b1a000c02a98000003e00038e0ff8000f000c00300603000c08e18000e0038000fff7ff000ed89b8003e1bfc0;
   0x700e0001c77180018ff870001c1c38001c0e0e0000019f000700757001c01ffc007007ff800c01b1b000f03f9801c007f0001cf8ff80007f00c00380603001c00e1800078000000157184001ccc19c001e5d7c0;
   0x600e0000ee318003867830000e3838000c0e0e000001860003807ff000e000c000380386000e0199b800383b9800e00ef8000efe0000020fe0e00380603000e00e180003c0000007ff18e0000c0300000eff0c0;
   0x700e00007c318001871c7000077838001c070e000001800001c05750007001c0001c01860007019990011e319800701ddc000fce00000703fce001c0603000700e1c0001f0000007ff19c0015d57540007ff0c0;
   0x600e0000383980018308300003f038000c070e000001800000e0333000383fff000e018e0003818990030f3198003818ce0003c1a00003c0386000e0603800380e0c0000f80000038e1b8003fffffc0006180c0;
   0x700e00007c3980018380700001f038000c078e000001800000707730001c7fff00071dcc0003c18180070731dc001c11c70021c1ffc001f0006000706038001e0e0e00003f000001fc190007fffffc01c67c0c0;
   0x600e0000ee19800181c030000ff838000e038e000001800000386338000f00c000039ff80000e18180030031cc000f00c38023f03fc0007e006000386018000f0e0e00000fe00000f81800000c03800086ee7c0;
   0x7fffee0007c7dd8001f9e070007f3f38000ff1ce0000018000001fe71c0007c1c00001f7ffc00071818003fff0cc0007c1c100777e01c0001ff070001f7c1c0007ce07000003fc0007fc1800000c01c000ffc77e0;
   0x3fffee000f83ed8000f8f03000fc0ff80007e0ee0000018000000f03c80001c0c00000f80fc0003d818003fff0ee0003e0c0003e0f80000003fe38000f7c0c0001ee038000007e000f8fdf00000c00f800fe838e0;
   0xe000400498000f02070007001f80003e04e0000018000000303c0000001c0000030004000198180005540440000c1c0001c07000000007e300003140c00004e030000001c000c038f00000c0078005401060;
   0x0;
   0x0;
   0x0;
   0x0;
   0x0;
   0x0;
   0x0;
   0x0;
   0x0;
   0x70180000007100000700c000018060000060180000670200000001800000c030000070180000180600000101800001c060000000180007018600000001800000186000007018000000060000000180000000600;
   0x30180000003380038608e0000180700000601c000063070000fff9c00000c0380000601c00001c0700000381c00000c0600000001c000301870000fff9c0000018700000601c0000aaa60000aaa1c0000000700;
   0x381c000fe031c001871c700001c0380000630e000067038001fff9e00000c01c0000700e00001c03800001c0e00001c070001fffce000383878000fff9e000001c780000701e0007fff70000fff1e000ffff380;
   0xfff8e000feff8e001c6383000ffff380000630700006301c000c038f0007fff8c0000600700003e01c00060e070003ffe38001fffce000383038000c018e000000c3c000aea8e0003ffe38000fff0e000fffe380;
   0x1fffc7800c6ff87000c7303c00ffff1c001fe30380056751e001d57878007fff8f001fffc380007700e000787078007fff1e001800c78001c701e000c01878007ffe1e001fff878001c001e000e070780003801e0;
   0xc0183c00c6198380066701c0000c00e001fe301e00fe3f0f000fff81c002aea87001fff81e000e38278003e381c0030c00f001800c3c00fffe0f000c0183c007ffe0f001fff83c000e000f000e0303c0003800f0;
   0x1d55d1c00c619f10007771cc0007e0e780006338c00fe7f67001d5798c0010c77300007038c001c1ce30000fff8c0071c047001800f9c00ffff47000fff91c0075576700007011c00070047000e0711c000380470;
   0xfffb8000c618f80000600c0001f786300006318000063060000c039800038c63000006018000780f7000033bd8000ffffe00019fcd80000180e0000fffb80006003e0000060380000380e0000e03380000380600;
   0x1d55dc000c6181c001fffce0007c3e700000631c000067070001fff9c0001cc6380000701c001fffff000071c1c001fffff00019fcdc000018070000c019c0006003f00000701c00007f070000fff1c0000380700;
   0xc018e000c6ffcc001fffc6000700fb8003fffee000063038000fff8e0000cce18003fffee000dffdb8000e0f0e00030c03800198cce000018038000c018e00063ffb8003fffee0003ef838000fff0e000038c380;
   0x1fffcf000c6ffde001fffc700060071c007fffe7000fe7f1c0000000f0000ccc1c007fffe700015d41c001fffc700071c03c00198cc700055d43c000c018f00063febc007fffef0007c3f3c000e070f000038c3c0;
   0xfff8f000c6180e001800c7800ffff9c00006007800fe3f1e002aaa8f80000c41e0000600780001801e003fffe78003ffe3e00198cc78007ffe3e000fff8f80063063e0006000f800e00fbe000e030f8002b8c3e0;
   0xfc00c6181f8019fcc7c01ffffdf00006387c0056751f003fffcfc00ffffdf00006007c0001c01f80301d47c007fff3f00198cc7c007ffe3f000fff8fc0063063f0007000fc0040073f000e070fc007f8c3f0].
Definition hanzi_rows_55 : list N :=
  [0xfc00c6198f8019fcc6c0030001f00006386e0006301f802baa8ee00ffff9b00006386e00abaa9b80100e06e0000c03f80198cc6c0001803f8000318fe0063fe3f802eaa8fe0000003f800e030fe007f8c3f8;
   0x3fffcec00c6f99d0019dcc640031541b0015638640006701b0003000ec0001f01900006186400ffff99000fff0640055d53b00198cc640001803b0018718ec0063fe3b003fffeec007fff3b000e070ec00038c3b0;
   0x3fffce000c6f98c00198cc600031fe19001fe386000063018002baaae00003f018001fe186000abaa98000fff860007fff380019acc6000018038003c618e400630638003fffee0007ffe38000fff0e000038c390;
   0x700e000c6199c00198cc600031d618001fe186001fe7f98003fffee00007d818001fe18600011c418000707c60007fff380019fcc6000ffff38000f618e0007306380007030e00001c038000fff0e000038c380;
   0x600e000c6198c00198cc600031861800006386000fe3f98003fffee0000edc1800006186000198c1800038ee600000c0380018a8c6000ffffb80007e18e0006306380006030e000018038000e030e000038c380;
   0x1fffce000c6199c0019fcc6000318618000063c60000670180003030e0001cce18000063c600039ce180003dc6600055d538001800c6000ffff380001c18e00073fe380007070e00001c038000e070e000038c380;
   0xfff8e000f6198c0019fcc600031fe18000067c60000630180003070e00038c718000063c60007186180000f806000ffffb8001800c60000180380001818e00063fe3800060e0e000018038000e030e000038c380;
   0x700e00077fd9c00180cc600031fe1800006ec600006701800030e0e000f0c3d8000067c600061c7180000f806000ffffb8001800c60000180380007818e00070063800071c0e00001c038000e070e000038c380;
   0x600e00007ffec001808c600030061800007ee600006301800030c0e000e0c1d800006ee6000e183980003fe0600000c038001fffc6000018038000f398e0003002380006080e000018038000e030e000038c380;
   0x3fffee000061fdc001800c6000300618007ffc7600006701800030c0e00040c058007ffc76000c1c198001fdfc600001c038001fffc6000018038003e3f8e0003500380007100e001ffffb8007fffee001ffffb80;
   0x3fffee00006000c001f80c60003f8018003ff0760000630180003f00e00000c018003ff83600000f818003e03f600000c038001800c600001803800380fce0003f80380003e00e000ffffb8003fffee000ffffb80;
   0xe00006001c001f00c60001f0018003fc0360000670180001e00e00000c018003fc03600000f8180038006600001c038001800c60000180380010018e0001f00380003e00e0000000380000000e0000000380;
   0x0;
   0x0;
   0x0;
   0x0;
   0x0;
   0x0;
   0x0;
   0x0;
   0x0;
   0x6000001c00380001700000000000000000700000300038000000000000000000000000e000000038000000400000000e0000000000000c0c180003030c00001c070000303040000e0c10000c00180001000300;
   0x6000000c00380003f000000aaaaaa000003000007e0038000aaaaa8001ffffc0000000e000000038000000e00000000e0000000800000c0c180003838e0000180700003030e0000e0c38001fe01c0003f80380;
   0x6000001c0038000f7000000ffffff000007000007ffc38000fffff8001ffffc003fff8e000155438000e03c00000000e0000001c00000c4cdc00019fe7001ffffb800031b37000066cdc001fffee0001fff1c0;
   0x6000000c0038001c7000000fffffe0000030000003fc38000fffff800180000003fff8e0007ffe38000e07800000000e0000003800000e4cce00019fe3000ffff9c00019b33800066c8e00082fc700003ff1c0;
   0x3fffffc001c007800187000000001c00000fff00000030478000c06000001c0000003fff8e0007ffe7800071f000000000e000000f00000064cc70001986380001c00e00019b31c00066cc7001c308780003030e0;
   0x3fffffc000c00fa003fffffc0000f800000fff000000300fa000e061c0001800000038383e0003800fa00039c000000006e000001e00000fe4cc3802b9861c0000c007003f9b30e00ae6c83800c3181c000303070;
   0x600001fffcff003fffffc0003fc00000007000000300ff000e071c0001ffff80038387f8001c00ff00038840000000eec00003c00001fe7ff1007fdffcc007fffe3007fdf7c401ff6cf1000c7198c00ffff730;
   0x600000fffcbb000060000000f9800000003000000300bb000e030e0001ffff80038386f8000e00bb0001c060000000cec00003020000667ff8003fdfec0007fff610018dffe000ff7fb800066398000ffff300;
   0x6000001c01bb000070000001e1c00000007000000301bb000e03870000000180018386fc000701bb0001e077000001cee0000107000067001c0018d86e0006677700018fff7000637fdc0007071c0000383380;
   0x6000000c01bb00006018000381800000003000000301bb000e01c3000200018003838eec000381bb0002e0630000008e600060070000677fcc0018dae60006623380018e00300063000c001fff0e0000383180;
   0x1fffff0001c003b00006038000101c00003fffffc0057543b000601e00006000180018184ec0001c03b000770730000000e6000e007300067ffce0019ffe700066771c0019fff780067d55e001fff8700003831c0;
   0xfffff0000c383b00006070000001800003fffffc00fffe3b800600f00007000180018180ec0000e03b000e38630000000e7000e007300067860f0019e1878007fff1c00199ff380067ffce000061c78007ffb1e0;
   0x1fffff0001c30390000606c000001c0000000180001fffe390007f07c0007ffff80018180ec0000f039001c1c738000000e3001c007300077170f801de307c007fff1e001d8007e0077ffdf800070e7c007ffb1f0;
   0x1800000c70380000e0ec800000e00000007800000300380003e01f8003ffff00018180e000007038001c0e638000000e0001c00738003c3b8f800dbff6c0000001f000d9ff3e0036000f80006047e00601b1b0;
   0x7c00001c60380000e7cd8001c1e4000000f000000300380000038780000040000181c0e00000383800180771c000000e0001800738003c1fcd000f3ff7401ffff9f800d9ff7400367f9d007ffff6c00755b190;
   0xe000000ce0380000ec0d800181cf800021c3000003003800060300000000e0000180c0e000001838003803e1c000000e0003800738003c6ecc000f00c6000ffff99000f03030003c3f8c003fffe60007ffb180;
   0x71c370001cc0380000dc0d8003838fc00073c77000030038000607370001c1cfc00180c0e000401c38003001f1c000000e0003800718003cc70c000701c700000c01800071ff70003c719c007ffff6000755b180;
   0xe38330000cc0380000d80d8003070ec000e1033000030038000e0e330003838ec00180e0e000c00e38003000f0c000000e00033807180018ffec00061fc600020c01800071fe30001c218c00186086000601b980;
   0xe10330001c40380061db0dc007070ec001c0073000030038001c1c330003070ec001c060e000c007380013007c0000000e000738071c001dffcc00071fc700071db18000703070001df19c001870c60007ff9980;
   0xc80338000c00380061ba0cc006e00ee00188033800030038001c88338007260ee0018070e000c003380003007e0000000e000338070c003cac8c000f18c6000639b18000f03030001cf18c001860c60007ff9980;
   0x1d80318001c00380073b70cc00e600e600398071800030038001b80318007620e6001c078e000c007380003007f8000000e000018070c007e6dcc000f9cc7000641998000fbff70003e719c001870c60007019980;
   0x398031c000c00380063830ce00e600e600398031c00030038003b8031800e600e6000c038e000e0073800038063e000000e00001807000066eccc001d8866000c81998001dbff30007731cc001860c60006019980;
   0x39fff1c001c0038007703fc00047ffc70031fff0c000300380031fff1c00e7ffc7000f61ee0007fff380001ffe1c000000e00001fff0000e7cc6c0039dc77001dd59d80039c007000e391dc001fffc60007ff9d80;
   0x1fff08000fe038003e03fc00003ffc00001ffe00000300380001fff080007ffc2000fe0ee0003ffc380001ffe00000000e00000ffe0001c38f4c0038ef3e0008ff8980030e003000e1c0ec001fffc60007ff8d80;
   0x7fc000007c038001c000000001550000007f4000003003800007fc00000155000007e04e0000000380000ffc00000000e000007f4000081870c0030471700007f01800206007000c0c05c001800060007018d80;
   0x0;
   0x0;
   0x0;
   0x0;
   0x0;
   0x0;
   0x0;
   0x0;
   0x0;
   0xe060000001c0000c000e0000070380000000e000001c00000070060000180380000700e00000c0380000300600004103800001806000007038000060060000018000000070000000000000003006000001c000;
   0x6060000000c0001f800e000003038001fffce000003c00000060060000180380000600e00000c038000030060000e30380003180600000303800006006000001800000006000003ffffc000070060000018000;
   0x7060000000e0000ffc0e000003038001fffce000007f00000070060000180380000700e00001c038000030060000c3038000718060000038380000600600000180000000e000003ffffc0000e0060000038000;
   0x3fff060003ffff00000ff0e000003838000c380e00000e780000060060000180380000600e000038038000030060000c3038000e1806000003838000060060003ffffc003fffffc002aaea80000e006000ffffff0;
   0x7fff160003ffff00000071e000001878001c381e00003c3c0003fffd6000018038003fffde000038078000fff960001c3878001c1816000fffcf8000060160003ffffc003fffffc000006000001c016000ffffff0;
   0x39e800318e380000033e800fff8fa000c383e8000f8cf0003fffde800fffefa003ffffe800fffefa000fff9e8001818fa0008181e800fffcfa003fff9e8003abaac0001c038000000600002aaa9e8000000300;
   0x1dfc0031c71c0000033fc00fffcff001c383fc007e1c7c00007036c00ffffff003fffffc00ffffff000fffb7c00181cff003ffff7c0057ddff003ffff7c0030180c0000e070000000700007ffff7c000000300;
   0xffff6c0030c38e0000033ec00e00dbb000c382ec00f8381f80006036c00c187ba0000603ec00ababba000c3036c00380cbb003fffb6c00038fba003aebb6c0030180c000070e0000ffffff003ffff6c000000300;
   0xfff76c0030e3c70000036ec00610fbb000c186ec00f03007001c71f6c00c187bf0000706ec0001c1bf000c3076c00700dbb003ffff6c000387bf003861f6c0030180c00003dc0000ffffff00000676c000000300].
Definition hanzi_rows_56 : list N :=
  [0x36c003861c0003fff6ec00618ebb000c186ec0006aaa8001861a6c00c1873b0000606ec000183bb000c3066c00600ebb00001866c0003823b003861e6c0030180c00001f800000381c000000666c000000300;
   0x16c003870f0007fff0ec0071873b000c180ec000ffff8001c7186c00c1c63b001fff8ec0001c03b000c3006c01e1c73b00005c06c0003803b003861c6c003ffffc00001fc00000701e000000606c007ffff00;
   0x7ffc6e003838780003830ee003183bb800fff8ee000eaaa800186186c0003803b001fff8ec0007803b000c3006e00c0c33b8000cc06e0003803b00386186c003ffffc0000fff80000e0ee000000606c003ffff00;
   0x7ffc6400181c3c0003830e400018239000fff8e400070000001c718640003c039000c030e4001fc039807fffe640040e2390000dc06401ffff39003861c6400001800001ff07f0001e0e78000006064007ffff00;
   0x600060001f8e080003838e000018038000e180e0000382000018618600003c038000e070e0003d8038003fffe600000e0380000cc06000ffff3800386186000001800003f830fc00380e3c000006060000008000;
   0x600060001f87000003830e00003c038000e1c0e00001c700001c718600003c0380006060e00079c038007fffe60000070380000cc0600157d538003fffc6000001c00001c0781c01f60e3f00000606000001c000;
   0x60006000028a000003838e00003c038000e1c0e00000ee00001fff8600003c03800070e0e000e180380000f8060000e70380000ce06000038038003fff86000001e8000000e00000ee7e67800006060000038000;
   0x60006000101ce40003838e00003c038000e1c0e0001c1cdc001fff8600003e03800039c0e000c1c0380000d8060001c70380000c606000038038003861c60001c3ddc00031c720000c6e73000006060003870dc0;
   0x600060003838ec0003838e00007e038000e0c0e0003838cc001aea860000360380003b80e0000180380000d8060001838380000c606000038038000060860003870cc000718660001cee70000006060003060cc0;
   0x600060003070ee0003818e00006e038000e0c0e0007070cc001c7006001c370380001f80e00001c0380001dc060003818380010c706000038038000060060007061cc000e107700038ce30000006060007060cc0;
   0x2e00060007260e60003818e0000e7038000e0c0e0006200ce00006006001c338380000f00e00001803800038e06000301c380030c386000038038000060060007600ce000c806300038ce38000006060006600ce0;
   0x6e00060006600e7000381ce0001c783800060c0e000e600c600707006001c33c380001fc0e00001c038000707060007f1c380030c38600003803800006006000e601c7001dc07380071ce1c00000606000ee00c70;
   0x2e0006000e600e3000380ee000383c3800060e0e000e600c700306006000c31e380003de0e000018038000e03860007ffe380030c1c600003803800006006000e600c700398061c00208e08003ffe06000ce00c70;
   0x6c0006000c7ffc3000380ee000781f38007fffee001c7ffc300707006000ff0f38001f0fce00001c038003e03c6000e7fe38003fc0f60000380380000600600047ffc30071fff1c00000e00003ffe0600047ffc30;
   0x3c000600003ffc20003806e000e007b8003fffee00003ffc2003fe006000ff07b8003e03ee000018038003800e6000e00238001fc0660000380380000600600003ff800000ffe08000007c00000000600007ff800;
   0x38000600001ff000003804e0004001380000000e000000000001fc0060007c01380030006e00001c03800300066000400038001700060000380380000600600001fd0000005f400000007c0000000060000000000;
   0x0;
   0x0;
   0x0;
   0x0;
   0x0;
   0x0;
   0x0;
   0x0;
   0x0;
   0x1c01800000006000018018000070060000380380000000e000000060000060060000000c000001c060000000180000e00e000001038000000060000000180000e0700000018000000000e0000081800;
   0x7ffff00001c01800000006000018018000030060000380380000000e000000060000060060000000e000000c060007ffe180000600e000201838000000060000000180000e0300000018000000000e00001c3800;
   0x7ffff00001c018000fff0600001801800003806000038038003fffce0007ff070000060060000000e000000c060007ffe180000f00e000701838003fffc60007ffe1800006030000001c00003fffce0000381c00;
   0x6060300003e018000fff0600001801800003806000018038003fff8e0007fffff00006006000ffffe000000e060006aea180000f80e000381838003fff860003ffe1800006038000001800003fffce0000700e00;
   0x60607000077078000c0316000018058003fffd600001c0780000e01e000706fff001fff96000fffff0007ffe1e0006060580001f81e0003c1878000001d600000c05800007038000ffffff0000e01e0000f00700;
   0x606030000638fa000c033e80001807a003fffde800fffcfa0000e03e80030e618000fff9e800000e38003ffe368006060fa00039c3e8001e18fa000c019e80000c0fa0000e038000ffffff0000603e8003c00380;
   0x7ffff0001e3cdf000c0337c01ffffdf00001c37c00fffdfe0000e03fc0038c71c001fff9ec00000e38007fff37c007070df00070e7fc000f19ff000c1ddfc0000c0df0000f07c000007c000000703fc007ffffe0;
   0x7ffff0001c1cdb000c0336c00ffffdb0000ee36c00e00dba0000e03ec0019c30c000c61b6c003ffe1c00003336c006070db000e076ec000799bb000e1db6c0000c09b0001f0fc000006e000000386ec00e7ffef0;
   0x7575700078efdb000c0366c000181db0000e776c00e00dbf0000e06ec001d831e001c61b6c003ffe0e000033b6c007039db001c07eec0003d9bb000739f6c0000c19b0001f9dc00000e7000000f86ec00c7fff70;
   0x60603000f1c79b000fff66c0001819b0000e726c00e00dbb0000e36ec000f83bc000c61b6c00000e0f000031a6c0070389b003aabeec000098bb000371a6c00aaea9b0003bb8e00001c3000001fc6ec000606000;
   0x60607000e183db000fff06c0001801b003fff86c00e00c3b0000e30ec000701f0001c6196c00000e06003ff1c6c007f1e1b003fffcec00ffff3b000371c6c01ffff9b00071d8f00003c7c00003fc0ec000707000;
   0x6aeab00001801b800c0306c0001801b003fffc6c00e00c3b002ae30ee000f83e0000c6186e007ffe00003ff086c003e0f1b0007fe4ee00ffff3b8003e186e00ffff9b800e0e078000f8fe000073e0ee000603800;
   0x7ffff000155419000c0306400018019003fffe6c00e00c39003fe30e4003df7f8001c61864007ffe00000030064000006190007060e400ffff390001c1c6400036019003c0703c003f3cf8000e770e4000701c00;
   0x7ffff0003ffe18000c03060007ffe180038e3e6000fffc38003fe30e000f8f23e003fffe6000000e00000030060000000180006060e0000318380003c18600003601800380301800fc783e001c338e0000300e00;
   0x1800003ffe18000c03060007ffe180038e366000fffc380000e30e000f0341f007fffe6000000e00000030060007ffe180007060e0000718380003e1c600003701800100100000f0701f003871ce00003e07c0;
   0x7800001c0018000c03060006aae180038e306000e00c380000e30e000000e020000f006000000e00000030060007ffe180003060e0000618380007618600003701800020380000000e02003030ee00001e43c0;
   0x71f770001e0018000fff06000700e180038e306000e00c380000e30e000103dc00000f006000101e44003ff006000700e180007f60e000061838000671c600003701800070f370001c1cdc0010704e000001e000;
   0xe3c330000e0018000fff06000600e180038e306000e00c380000e30e0001c79980000f8060001838cc003ff006000600e180003e60e0000e1838000e3986000033818000e0e330003838cc0000300e0000c38c80;
   0x1c1873000071818000fff06000700e180038e306000e00c380000e30e0003861dc0001d8060003870cc00003006000700e180009460e0001c1838001c1dc6000033818001c1c330003070cc0000700e0001c79dc0;
   0x1c803380003b81800000006000600e18003ee306000e00c380000e30e00032018c00039c060003060cc00003006000600e180038060e0001c183800080f86000031c18001db8338003260ce0000300e0003860cc0;
   0x1dc07180001f01800000006000700e18001ee306000e00c380000e30e0007701ce00071e060007c00ce00003006000700e180018060e0003b1838000005c6001c31e18001b80338007e00ce0000700e0007721ce0;
   0x398031c0001e01800000006000600e180000e006000fffc380000e30e000e3018e000e0786000ee00c6000030060006aae180018060e00073f83800000186000830f18003b8031800ee00c60000300e000e300c60;
   0x31fff1c0003c018003fffc60007ffe180000e006000fffc38007fffee001c3ffc7001e07c6000e7ffc7000030060007ffe18001ffe0e001f1fc38007fffc6001ff07980031fff1c00e7ffc70000700e001e7ffc70;
   0xffe0800070018003fffc60007ffe180000e006000eaac38003fffee000c3ff82003801f6000c7ffc2000030060007ffe18000ffe0e000c03c38003fff86000ff03d80001fff080007ffc20000300e00043ff830;
   0x554000006001800000006000700e180000e006000e00c380000000e00001ff000030006600001ff0000003006000700e180005500e000000c3800000006000540198000055400000155000000700e00001ff000;
   0x0;
   0x0;
   0x0;
   0x0;
   0x0;
   0x0;
   0x0;
   0x0;
   0x0;
   0x1c01c0000070000001801800000c0e0001c0040000000060003800000001c030000018018000060060000730180000000e00000001800000018000018018000000060000001800000700e0000006000;
   0x7fe000002180180000060000001801800000c0e0003fa0e0000aaa860003800000001c03000009801800006006000063018000aaa8e0007ffe1800000018000018818002aaa860000001c00000380e0000087000;
   0x7feffc0071c71c00000e0000001801800000e0e0001fff70001fffc60003807ff0001c0700001d801800006006000073018001fff8e0007ffe18001ff95c000019c18003fffc600001ffe00000380e00003c3c00;
   0x60effc00718e18003fffffc002baa1800000e1e00000ff38000fffc6000baafff0000e0e000039801800006006000063018000eae8e0006aae18000ffbfe000019c18003fffc600001ffe00000180e0000701e00;
   0x70e0c00031ce7c003fffffc007ffe58003fff3e00001c03800070716000ffff00000070c0000718058001575160007fff58000e061e000600658001c1bff000019c580000601600001c07000031c1e0001e00700].
Definition hanzi_rows_57 : list N :=
  [0x60e0c000398c7a000030c00007ffe7a003fff3e80000c03c00070e3e800fffb020002baea00021807a001fffbe8007fff7a00070c3e80060067a000c1b87000018cfa0018639e80000e03800070e3e8001ffffc0;
   0x73e0c00019dc7f000130c40000180df003fffffc0055d53f0003dc37c003803070007fffe0000180db001fffb7c0067307b00079c3fc006006df001c1983800fffcdf001c631ec001ffffe0006063fc007ffffc0;
   0x67e0c0001998fb0003b0cc0000180db003803ee800ffffbf8000f836c0038238e0007fffe000fffedb00006036c006630db0003f83ec007ffedb000e99c5c00fffedb000c6336c001fffff000e073ec003000000;
   0x7e60c0001dd8df000730cc0000181db003801eec00fffffb0000f876c003871fc0007000e000ffffdb00006076c006730db0001f07ec007fffdb000f98cec000187db000c6736c001d5556001c037ec001ffff00;
   0x6c6ec0000180db000e30ce000ffff9b0038ffeec0000c0380003fe26c0038e0f80007000e00003e09b00006066c007fffdb0001f86ec0000069b000298fc00001879b000e6626c001c0000003fffeec000ffff80;
   0x6707ff001ffff9f001c30c7001ffff9b0039ffcec0001c038001f9fc6c0039c1f00007000e00007e01b00006026c007fff1b000fff0ec0000761b0010187800001871b00066706c001ffff8003fffcec001d55780;
   0x66039fe00ffff9b001830c380018001b8038838ee0000c038003e23e6c003883f00007000e00007e01b002aea86e0006331b807f0feee0000661b8030183800001831b80066606e001ffff80030038ee000c00380;
   0x7701c3c0157751d001830c10001c00190039c38e40055d538001070464003807f80007fffe00007f019003fffc6600073319803c43ce4007076190030181c000018019000060064001c00000010000e4001c00380;
   0x3e00e0000063018000030c0000baaa180038ab8e0007fff380000600600038073c0007fffe0000db018003fffc60000633180000600e000786618003ff80f0007ffe18003fffe60001c00000000000e0000eaab80;
   0x1c074000006301c00000300000ffff180039ff8e0007fff38001fff860003f021f000003000001db81800007006000ffff180000600e0001f7618001ff187c007ffe18007fffe60001ffffc000fff0e0001ffff80;
   0xe3000006301800060728000ffff180038838e000000828000fff860001e0c060000078000019981800003806000ffff980000600e00007e618000003818002baa18002aeaa60001ffff8000fff0e0000aaaa80;
   0x71c7700006301c00060f3f0001c08180019c38e000101c0000007006000101c0000060f71000399c1800031c06000d77518001fffce00001f71800060f7000001801800006006000000c00000c030e000000f000;
   0xe1833000063818000e0e3b000181c180018838e0001878c8000060060003838ec000e1c33000318e1800030c06000c63818001fff8e00000661800061c3600001801800006006000181c00000c030e000003ca00;
   0x1c387300046181c001c1c3b0001c3c180019ff8e00038f1dc003fffe60003070fc001c3873000718f1800070e06000c718180000600e000407718000e1877000018018000060060003838fc000c030e0003878fc0;
   0x188033801861818001c983b8001838180018ff8e0007040cc003fffe60007260ee00181033800e18718000e0606000e618180000600e000c06318000c8033800018018000060060003230ee000c030e0003060ec0;
   0x398071801c61c1c001980398001c7018001c038e0007601ce003fffe60007620e600398071801c18398001c07060007f1c180000600e001c07318001dc073800018018000060060007670ee000c030e0007600ee0;
   0x318031c01860e1800398039800182018001c000e000e600ce00006006000e600e600338031c00c18118001fff860007e0e180000600e000c0639800398031c0001801800006006000e620e6000c030e000e600e60;
   0x71fff1c01fe071c0039fff1c001c4018001f600e001c7ffc700007006000e7ffc70031fff1c00018018001fffc6000070718007fffee000ffe1980039fff1c00ffff9800006006000c7ffc7000fff0e000e7ffc70;
   0xffe0800fe03d80001fff08001f8018000fe00e000c7ff820000600600003ffc20001fff080001801800380386000060398003fffee000ffe1980000ffe0800ffff980000600600047ffc2000fff0e000c7ffc30;
   0x55400007c019c00007fc00000f80180007c00e00001ff000000700600001ff000000ffc0000018018001000060000701980000000e0007fc11800007fc00000000180000600600001ff00000c030e00001ff000;
   0x0;
   0x0;
   0x0;
   0x0;
   0x0;
   0x0;
   0x0;
   0x0;
   0x0;
   0x18018000007000000181c0000c00060000000180000380e000000000000000060000000000000700600000180000000c06000000070000006000000600600000001c00001c018000000060000000380;
   0x3fffe00001801800000700000018180001f8006000fffe180000180e0003ffff8000fff860007ffffe0000700600000180400000c06000000060000006000000600e00000001c00001801800000006000aaaa380;
   0x3fffe00003c018000157540000181c0001fff06000ffff1800001c0e0003ffffc000fff860007ffffe00007006000001c1e00000c060007fffff0007ffff0000701c0001ff81c000038018003fffc6000ffff380;
   0x3000e00003e0180003fffc0003ffffc0000ff86000eaae18000ffc0e000381818000c038600000180000003006000fffc7800000e060007fffff0007fffe000038180001ffbffc00030018003fffc6000fffe380;
   0x3fffe00007e0580007555c0003ffffc00006116000e00758000ffe1e00038181c000c0396000001c00000030160007ffef0003fffd6000618070000006000007ffffe001d7bffc01fffe5800019c160000000780;
   0x3fffe0000e70fe0003000c0002baba80000601e800e0067a000e0f3e8003aba98000c03be8003ffffc001fff9e80070c640003fffde800618060000006000007ffffe001c3bae800fffe7a0001981e8000000fa0;
   0x3000e0001c38de0007fffc0000181c000006037c00eff75b00070fffc003bffdc000fffb7c003ffffc001ffff7c0070c7000000061fc006187fe001fffffc00001800001c39870000010df00019c37c007ffcff0;
   0x3aaae000381cde0003fffc00001818000006036c00eff6db00039dee800381c18000fffb6c0030c30c001998b6c0038e380000186368006183fe001fffff800001800001c39830001c30db003fffb68003ffcbb0;
   0x1ffffe000701fdf0007000c00055d5d5007ffff6c00e007db0001f8eec00387e1c000c03f6c0030c31c001999f6c0011e14000018637c0071c070000006000001ffffc001c39c78003839db003fffb6c00755dbb0;
   0x1e060e000efff1b0003000c000ffffff003fffe6c00e0069b0000f06ec0038e618000c03e6c0030c30c001998a6c0001e0f000018636c0060c060000006000001ffff8001c38ff800701d9b003999a6c00300dbb0;
   0x70e0e000dfff9b0007fffc000ffffff00557546c00efe71b0000f00ec0039c79c000c0386c0030c31c001999c6c0003f07e0019b716c0070e7ff000fffff000001800001c387c000701c1b00399986c00700c3b0;
   0x3bc0e00000001b0003fffc0000300e000006006c00efe61b0001f80ee003b81d8000fff86c0030c30c00199886e0007380f0019b306c007077ff000fffff000001800001eb8f8000e82e1b00399986c00300c3b0;
   0x1ff0e00000001b0007000c00007007000006006400ec67190007de0e40039005c000fff864003ec31c001999c64001e1e070019b306c007f787000000600000555d55001ffbdc000dc3719003999864007ffc390;
   0x3e7fe0000000180003000c0001e063800006006000ec2618001f0f8e0003ffff8000033860003ec30c00199886000fc0f8000199b860003e186000000600000ffffff000aa98f8000c3018003999860003ffc380;
   0x7fc1ff0003ffc180007fffc0007c063c00157506000ec6718007c03fe0003ffffc0018738600014081c001999c60007007c0001dd986000000070003fffffc00ffffff00000307c000c7018003f9d86000700c380;
   0x3e020e0003ffc180003fffc000f3062f001fff06000ec2618003fffee000000800003c6386000001c8000199886000000c80000cc986000000e00003fffffc00000e00000007008000e6018003f8d86000300c380;
   0x100700000300c1800040700000e67667001fff06000ec6718000fff0e0001c1dc8001f63860001c39d8001999c6000003c000005c9c6000181c4000000300000003d4000060f1100007e018003d0786000700c380;
   0x20e62000300c18000e0e3b0000e667000180306000efe618000c030e0003838d80007e3860003870d8001998860001c79980001c0e60003838ec000607320001c7998000e0e3b00003c018003803860003ffc380;
   0x71c77000300c18000e1c3b0001ce630001c0306000efe718000c030e0003871dc0001c3860003071dc001999c60001cf1dc0003e0760003070ec000e1e770003cf1dc001c1c3b00003c018003801860007ffc380;
   0xe3863000300c18001c983b80018c63800180306000e02618000c030e00072e0cc000383860007220cc0019988600038418c000360760007260ee000e183700038018c001c883b80007c018003801860000000380;
   0x1d9073000300c18001d883980038c61c001c0306000e00718000c030e0007601ce0007c3860006701ce001999c60007601ce000770360007600e6001d88730007701ce001d80398000fe018003801860000000380;
   0x1980638003aac180039803980030c60800180306000e00618000eab0e000e600c6000f3b86000e600c600199886000e6018e000e3806000e600e600398033800e3018600398039c003e7818003fff86000ffff380;
   0x39fff1c003ffc180011fff1c00000600001fff06000f40718000fff0e00047ffc7003e7f86000c7ffc7007ffff6000e7ffc7001c1e0600067ffc70039fff1c00e3ffc70019fff1c007c3c18003fff86001ffff380;
   0x10ffe08003ffc180000fff08000007c0001fff06000fc0618000fff0e00003ff8200380f8600003ff80003fffe600003ff8200380f0600003ffc20000ffe080003ff820000fff0800f00f18003aab86000aaaa380;
   0x7fc0000300c18000055400000007c0001c03060007c0718000c030e000015500001001860000155000000000600001ff00001007060000155000000554000001ff0000005540000c00618003801860000000380;
   0x0;
   0x0;
   0x0;
   0x0;
   0x0;
   0x0;
   0x0;
   0x0;
   0x0;
   0x30060000180180000600600000301800000006000000038000603060001c00000005c0070000038000000e00e000000018000000000000000180000100700040001800006006000000038000380070000000000].
Definition hanzi_rows_58 : list N :=
  [0x1380600001801800006006000003818000fff060007ffe38000603060003ffa00000f8006000003c000030e38e0002aaa180003fffe000aaaa1800003806000c0001800186186000fffe38000380060007ffffe0;
   0x39c0600001801800006006000001818000fff060007ffe380007070600007fffe001dc007000007f000038e38e0007fff180001ffff000ffff1800003007000cdff1800186186000ffff3800039fe70007ffffe0;
   0x70e06000ffff18003fffc6000fff818000c0306000600e3800038e06000041afc0039800600003e3c00018e70e0006aab180000f0e0000ffff1800007006000ccab1800186186000aaae3800039fe60002aebaa0;
   0xe0716000ffff58003fffd6000fffc58000c0316000700e780015d5560000e18700011c0170001f81f0001ce71e00061835800007ff0000e06358003ffff7000cdc3580018619600003077800039ff700000e7000;
   0x1fff9e800abaa7a0000601e800000e7a000c033e8007ffefa001fffde800061860003fffde800fffffe000eee3e80061837a00003e00000e0e37a003ffffe800cc9b7a001861b68001b06fa0003801ec0038e3180;
   0x3fffd6c0001807f0000601ec0000077b000fff36c007ffeff001ffff7c000718e0007fffdfc00f3ffdf0004e43fc0061835b000fffff000e073df0015555fc00cddb7b001fffb7c003307ff003fe01fc001ce7180;
   0x3902b6c002baadb003ffff6c002aabdb000fff36c00600fba00183036800ffffff0001801ec000018020000e03e8006183db000ffffe0003ffedb0003001ec00cc9b7b001fffb6c006306fb003fe01ec001ce3380;
   0x79c36c007ffedb003ffff6c007ffedb00000076c00700fbf00187076c00ffffff00018037c00555d54001fff6ec007ffbdb000e06070007fffdb001b81f7c00cddb5b00000076c006307fb00318017c000ce7700;
   0xf0e36c007ffe9b003aaad6c007aec9b00000066c007fffbb001fffa6c00aaffaa001999b6c007ffffe001fff6ec007ffb9b000ffffe00000399b001986f6c00cc9bdb00000066c000307bb00339fe6c000ee3700;
   0x1c0796c0061861b003000c6c0071cc1b001fff86c007ffe3b001fffc6c0001db8000199997c00555d540018030ec0061c31b000fffff00003981b0019cfd7c00cddb5b001fff86c00ffff3b00319ff7c0004e7100;
   0x380bc6c0061861b8037ffc6e00338c1b001fff86c0000003b000abac6c000399e0001999866000798e00018030ec0063c31b000e060600003981b0018dcc6c00cc9b1b001fff86c00fffe3b8039818660000e3000;
   0x3039e64006186190007ff06400730c19001861864007ffe3b000071c64001f18f0001d99874001e1878001fff0e40067e319000fffff000039c190018f9c7400cddb19001d5506400070739803181c7400ffffff0;
   0x1c460007ffe1800038006000ffff98001861860007ffe38000030c60003c183e000dffe600038183c001fff0e0006fe318000ffffe0007ffe180018f0c6000cc9b180018000600007863800398d86000ffffff0;
   0x1ffe060007ffe180001c006001ffff98001861860007ffe38003fffc6001f8181f800fffe7000701f1f001d570e0006db318000e06070007ffe18001871c7000cddb18001c000600007873800398dc7000000c000;
   0xfff0600003e0180000e006000306e18001aeb86000018038003fffe6000e00e0700079986000200f060018030e00079bb18000e86060002baa180018f0c6000cc9b18001800860000d833800398cc6000080e000;
   0xe07c600007f0180015754600031c618001fff8600001803800187c06000001f00000799c7000001e000018030e000799f180007c7070000380180019f9c7000cddb18001fff860000d87380039dcc70001c1cfc0;
   0x70fe60000fb018003fffc6000338618000aab86000ffffb800183c060000e3998000318860001818ec001fff0e000618b1800008380000038018001b9cc6000cc9b18001fff860000d83380038d8e60003838ec0;
   0x39c660001db818007fffc600031061800000186001ffffb8001877060003c71dc000399c70003838ec001fff0e00061831800071f36001ffff98001f0fc7000cddf18000001860001dc3380018df670003070ec0;
   0x1f806000399c1800006006000fffe1800100186000abaa380018338600038219c0023d8c60003270ee0018030e000618318000e3c37000ffff98001a06c6000c02c180000018600018e3380018fff60007260ee0;
   0xf006000718e1800006006000ffff1800700186000018038001f73c60007601cc0067f8c70007660e60018030e000618318001d1033000038018001805c7000c07c180070018600030e3b80018f1f70007600ee0;
   0x3fc06000e187980000600600038001800300186000018038000f30e6000e6018e0026e0e60006600e60018030e0006aab18001b8033800038018001fffc6000c0e618003001860007071b800186006000e600e60;
   0x1fdfc6001e1839800006006000180018003fff8600001803800057076001c755c700367877000e7ffc7001d030e0007fff18003bd571c00038018001fffc7000c1c718003fff86000e039f8001f7007000e7ffc70;
   0x3e07e600081801800007e060001f8018003fff860000180380000302600043ff82003e3c2600023ffc2001f830e0007fff180031fff0c00038018001aaa86000fd8398003fff86001e01cf8000f300600007ffc20;
   0x3001e600001801800007c060000f0018000554060000180380000700600001ff00001c1807000015500000f030e0006003180000ffc0000038018001800070007d019800055406000c00cf8000730070000155000;
   0x0;
   0x0;
   0x0;
   0x0;
   0x0;
   0x0;
   0x0;
   0x0;
   0x0;
   0x600001c01c00007006000018018000c000600001c018000031c00000e70180000700600000001c00000407000000000000006000000018c00006060e0000018000000700e00000c040000000060000000180;
   0x1fff8600000c01800006006000018018000fe806000018018000030c00000e601800007006000ffe398003ffc060000ffff0000006000000018e0000e060e0000018000000600e00000c0e0003fff860007ffe180;
   0x1fffc6000ffff9c003ff0060000180180007ff86000018018003ff1ffc000e701800007006000ffe71c003ffcc70000ffff0003fffffc00555c7000070e0e0003ffffc0000600e00000e070003fffc60007ffe180;
   0x1aab86000ffff98003fe0060007ffe1800006b86000ffff18003ff0ff8000e6018002aea86000c00e18003aecc60000c0030003fffffc00fffe3000070c0e0003ffff8000fff0e000ffe1b8000038060006186180;
   0x1861d600001c07c001570160007ffe5800006016000ffff58001571d54005e7558003fffd6000c01c1c00186cd70000ffff0000006000007fff3800031c1e00038181c001fff1e000fff1bc000038160006186580;
   0x18619e8002aea7a0000601e80001807a003fffde800aaaa7a000030c0000fe7f7a003aaade800c0c83a0018ecde8000ffff0000fffff00061873c000baabe800381818000c033e80038399c0000381e80061867a0;
   0x1bfdd6c007fff7f001fff96c000180df003fffd6c001c38df001ff1ff800fe7fdf003001f7c00c1c37f001cccdfc000c0070000fffff0007183be001fffbfc003ffffc001c033fc00387d9e000fffb7c007ffedf0;
   0x1bfdb6c0000c0db000fffb6c00abaada0001f836c000c18db001ff0ff8000e60db003000f6c00c1837b000eccdec000ffff0000000000002189bf001aabee8003ffff8000c032e80018fd9f000fffb6c007ffedb0;
   0x1861f6c0055d55f001d55b6c00ffffdb0003fc36c000c1ddb001ff1ff8000e70db001fff76c00dffb5f00078cf7c000ffff0001fffffc001d9c3b001c03efc00001800001fff6fc001ccd9b000c1c76c0075d7db0;
   0x1861b6c00ffff9b000c01b6c00ffff1b000f6e36c000e1c9b000030c00000e609b000fff26c00dffbdb00038cf6c000c0030001fffff800398c38001803eec003ffffc000fff6ec000fc198000e1c66c0061879b0;
   0x1ffdd6c01ffffdf001fffb6c00381c1b001e67d6c001e3c1b001571d5400fe7f1b00055506c00c6135d0007ccd7c005d557500180001c00718e38001c038ec007ffffc001c030ec00078198000e1c06c0061861b0;
   0x1bff86c0000001b800fff86c0018381b003861e6c007f7e1b003ff0ffc00fe7e1b00000006c00c63b19000fecc6400ffffff00187fe18006186380018038ec0030180c000c030ec00078198002eae86c006bae1b8;
   0x1801c64007fff1d001d55864001c3019003040c6400f3e719003ff1ffc005e751900000006400c7731d007cfcc74015757d500187ff1c00e18738001fff8ec0070180c001fff0ec001fc198007fffc64007ffe190;
   0x1801860003ffe18000c01860007ffe18000fff06000430318000030c00000e6018003fffc6000c3e31800382c060000701e00000606000061a238001fff8e0003ffffc000fff0e0003cf998002aaa860002baa180;
   0x1bfdc600070071c001fff860007fff180007ff0600001c018000031c00000e7018003fffc6000c3c31c000074070001ff4700030607000001f0380015dd0e0007ffffc0015770e001f87c18000000060000180180;
   0x1bfcc60003aae18000fff860002baa1800038006000018018000003000000e601800006006000c18318000060060003ffffc003ae13e00000ac380001980e0000018000018e30e000e00c18000aaa860000180180;
   0x1b0dc60007fff1c001575060000180180001e006001ffff9800070772001fe7f9800046106000c3c31c001575470007017fc001fe71fc00101c4000019c0e000001c00003ce30e000101e00001fff860007fff180;
   0x1b0cc60003006180000600600001801800006006000ffff9800060e36000fe7f98000e6306000c6e318001fffc6000201c00000a86038003838ec00018c0e000081e08000ec30e000183cc8000eab86000ffff180;
   0x1b0cc600070071c007fffe6000ffff98003fffe600055d518000e1c770000e7018001c6306000ce731c001fffc70001c7dd800060e3f0003070fc00018c0e0001c7dd80007c30e0003870dc001c03860007fff180;
   0x1bfcc60003ffe18003fffe6000ffff98003fffe6000018018000cb8330000e601800186386000cc3b180000600600038719c000e8c3b0007260ee00018e0e00038e0dc0003830e00072e0cc000c03860000180180;
   0x1bfce60007fff1c005575460000180180000600600001c018001d80738000e7018003861c6000c41f1c000070070007761cc001d803b8007c20e60071870e0007741cc0007430e0007e40cc001c03860000180180;
   0x180c660003006180000600600001801800006006000018018003980318000e6018003060e6000c00b1800006006000e3018e00198039800ee00e60021870e000e600ce000e7b8e000ee00ce000c03860000180180;
   0x1d007600070071c000070060000180180000600600001c0180071fff1c000e701800306046000c0031c007fffe7001e3ffc70019fff1c00c7ffc7003f83ce000e7ffc7007c7f8e001c7ffc7001fff86001ffffd80;
   0x1f00360003e06180000600600001801800007e060000180180000ffe08000e601800007e06000fe0318003fffe600043ff820008fff0c0007ffc2003f81ee00003ffc200380f8e000c7ffc2000fff86000ffff980;
   0x1f00360001e071c0000700600001801800007c0600001c018000055400000e701800007c060007c031c0000000700001550000005540000015500001f006e00001ff000010018e00001ff00001c03860000000180;
   0x0;
   0x0;
   0x0;
   0x0;
   0x0;
   0x0].
Definition hanzi_rows_59 : list N :=
  [0x0;
   0x0;
   0x0;
   0x1c00000000600000380700000003800007006000001c000000c40600001c01800071c0600070001800000e0600000001800000007000000018000060060000630000001c03800001c01c0000700600000c0180;
   0xe0000aaaa70000138060003ffc38000060060000018000000ce06000e1821800030c06000fffa1800000606000ff7f98003fffc60003ffc18000060060000f3000000180380000180180000700600000c0180;
   0x3fff8000ffff3c00079e070007ffc380000e006000ffffff0001c60600061c71800071c060001ffe1800000706000ff7f98003fffc70007ffc18001c67060003c3000001fffff80055d51c00006006000ffff980;
   0x1eabe000abaa1e00070f06000300c38002aea86000fffffe00018606000718e18002bae86000018618003fff06000602018003800c6000300c18001c6306000babaaa001fffff800ffff18003fffc6000ffff980;
   0x1f0ff00001806f000ff79f000700c78003fffd6000001c000001871e00031dc58003fff96000018658003fff16000603178003b0dd7000700c58000c6316000ffffff0015d57d000ffff5c003fffd60005555580;
   0x7be3800018c62001fff9e8003ffcfa003fff9e8003ffffc003fff9ec00199c7a003fff9e800abae7a003b3b9e8003333fa003988de8003ffcfa0006639e800aaeaaa00018038000c0037a0000003e80000007a0;
   0x1f81800018c7000187f9fc007ffcff0000c1dec003ffffc003fffb6c001dd87b00071c16c00fffedb003999f6c003f3f5b003999dfc007ffcdf000771f7c001870000001fff8000c0077f00000036c003ffedf0;
   0x3fff80007f8c3800001836c00300cba0000c1b6c0038180c0000c3b6c000188db00030c36c00abaedb00398cf6c003c1cdb003898d6c00300cdb0001f036c001867fc0001aab8000800edb000fff36c003aaedb0;
   0x7ff0ffe007f8c1c003ffff7c00755dbf0000c1f6c003ffffc0001c3d6c007fffdb00071c36c000707db0019cc76c003c3cdb003ffff7c00700ddb0007f876c001ce7fc0001c0380007f5cdf001fff76c003006db0;
   0x3e000fc00018c1e003fffe6c003ffdbb002ac1a6c003ffffc0000c3e6c007fff9b003fffa6c0086069b0018c626c003e7e9b003ffef6c003aad9b000f1e26c000cc60c0001fff80007ffedb000c0366c0030069b0;
   0x7fffe400018c1f00038607c007ffc3b003fc1c6c00381c1c001fff76c0075571b007fffc6c00ce761b0018c706c0077671b003871d7c007ffc1b001e0fc6c000fc70c0001fff800067fe5f001c0366c003ffe1b0;
   0x60606000018c1a00070706e00300c3b002ac186e003ffffc001fff26e0060031900000006400fc7f1b00186386e00e38399803860c640000381b803863c6e000787fc0001803800063e61b800c0306c003ffe1b8;
   0x75756000018c18001e63c7400755c390000c1c64003ffffc0001c30640067f31900000006400f81f19001c71c6400410119803861c740000181900107186400c78554003fffffc0067671d001c03064000000190;
   0x7fffe000abae98003c71e60003ffc380000c1860000718000000c30600067f318001fff06000200018001fb8c6000ffff98003ffec6000aabc1800086006000c3c800003fffffc00636318000fff060003fff180;
   0x75756000ffffd800383c770007ffc380000c1c60001f5c000001c306000677318001fff060007ffe18000f1006000ffff98003fffc7000fffc18001c7706000cfeffd0001c138000676d9c001fff060003fff180;
   0x60606000aaaa9800038fa6000300c38001fffc60003ffffe000aeb06000663318001c03060007ffe1800003006000633018003818c6000eeee18000c7306000fe7fff0003839c000637d98000060060000e00180;
   0x7fffe000001c000003c7c7000700c38001fffc6000ffffff001fff06000663318001c0706000700618000c76c600067311800381dc7000e66718000e73860007c3417000f0f0f00077789c0004670600007c0180;
   0x2aaaa0000038800000f086000ffffb800180ec6000600e00001fff06000663318001fff060006006180018e6c6000663b98003818c6000e6739800067186000001e00003f0ee78007b3018000e67060000180180;
   0x607760003870dc001c7e07001ffffb800180fc60001c3cec0001c30600067f318001fff060007ffe180018c6c6000361f18003bfdc70006731980007f1c6000187cdc003b9cfde0017381c000c6306001ffffd80;
   0xe0e760003070ce000e0f8600008303800180ec60003870ec0000c30600067f318001c03060007ffe180038c6e60003e1e18003bf8c60006318180000f8860003870cc000700ecc0003181800186386000ffffd80;
   0x1c9c770007660ce0007c3870001c783800180ee60007660ee0001c306000603318001c0706000700618003706660001c1c18003801c7000639c180001dc060007660ce0006c0ee001c71c1c001861c600001c0180;
   0x1988738006e00c60001f006000383c38001ffee60006600e6003fff06000602318001c0306000600618003206660003e3e18003800c6000618e1800078e060006600ce000ec0e6000c30e18003860e60000180180;
   0x39fff1c00e7ffc700007f07000701e38001ffe76000e755c7003fff06000600318001fff060007ffe180017fe76000f77798003d01c700071c718001f07c6000e755c7001cf5e7800c7071c003074c600001c0180;
   0x30ffe080007ffc200000fc6000e00fb8001aae76000e3ffc2000003060007e0318001fff060007ffe180003fe06001e3e3d8003f00c60003ee018003c03e6000e3ffc200087fc3000fe039800007c0600001f8180;
   0x55000000155000000018700040073800180e6600001ff00000003060007c0318001c070600070061800015406000c181d8001f01c70003e60180010006600001ff0000007fc00007c019c00007c0600000f8180;
   0x0;
   0x0;
   0x0;
   0x0;
   0x0;
   0x0;
   0x0;
   0x0;
   0x0;
   0x6000001c0000000e06000018000000060060000030000000001c00001c0180000c0c00001c0018000000060000381c0000070060000180180000001800000601800000006000101038001003070000000180;
   0x2aaa8600000380000000e06000018ffe00006006000003c00001fe18c00001c0180000c1fe0000c7818001fff860000380c000003006000618618000aa818000006018001fff06000383838003c0386000ffff180;
   0x3fffc60007ffffc0000070600001cffe0000f00600000ff00001fe7cf00001c0180000c07fc001c7f98001fff86000ffffff00003006000618618001ffc18000ffff18001fff06000183038003fc187000ffff180;
   0x2afa860003ffffc003fff06000ffcc060001f80600003e38000000e03800ffff180000c0180000c0f9800180186000ffffff001fff86000618618001aac18000ffff18000c63060001870380007ffe6000aaab180;
   0x70160000700c0003fff96000ffcc0600079e160001f81f000000401c00ffff580038dc180001c1c78001c01960000387c0001fff96000618658001c1dffc00003058005c63560001c70780001fff70000703780;
   0x301e8000381c00000019e80030effe000e079e800fffffe00000018800e0037a0018ccba8000c0c7a001fff9e8000386c00018039e80061867a00180dffc002ab8fa003ffffe8000e20fa0000cbaec0003037a0;
   0x3ffff6c00ffffff001fffdec0031fffe007d57ffc00f1ff9f003ff1dc000e0037b001ccdffc00dd1c5f001fffb7c00ffffff001d57b7c007ffedb001ffc1c0007ffcdf007d77ffc007ffeff0001c1dfc007ffb7b0;
   0x3ffff6800ffffff000ffffec0039b0c6003ffefec00a80003003ff7ce000ffffdb000ccebe800cd0cda001801b6c00ffffff001fffb6c007ffedb001aac1c0002eaedb000c63b68007ffebb0000c2dec007ffbdb0;
   0x35ddf6c00000000001c0336c0019bffe0007ff76c0039cffc000607070001ffcdb000dc67c000dd7fdb001c01f6c005555d5001d57f6c000000db001c1c7e000070f9b000fffb6c00638fbb0015c6dfc001703db0;
   0x3188e6c000ffff8000eab36c001b1ffe00080036c0038ceac000600078000000db0001e27e000cdff9b001fffe6c000000e0001803e6c0000009b00180cfe000ffff9b000fffb6c00638fbb003fc6d6c003333db0;
   0x319dc6c001ffff8001fff16c001f15d600193fd6c0039cffc00060407c003ffc5b000371df0007d9c1b001fff86c001ffff0001fff86c01ffff1b001ffddb000fffb9b00000016c007ffe3b007fc667c0037631b0;
   0x31a8c64000c0038000c0306e000e09860019bfc6e0038cffc00060e06c003ffc1b0003709b8006d9e1b80006306c001ffff8001fff86c00ffff1b801aad9b80000001b800fff86c007ffe3b0008eee6c001b631b8;
   0x31fdc64001d5578001d57064001f19860019b0c640039cc1c000607060003d5c1b0007389bc007dde19000063064001c00fc0015550640001c019001c1d19c007ffc19000fff86400638e39001dfff74005753190;
   0x31a8c60000ffff8000fff060003b9bfe0019b0c600038cffc00060386000380c18000e1c19e005c3e18002aeb860001800ef8000000600000c01800180c18c003ffc18000c0186000638e380008ffe6000fffb180;
   0x319dc60001c003800155d06001f1ffff0019bfc600039cd5c000601c60003d5c18007c1f18c001c7f18003fffc60001d55e7003fffc6000ffff18001ffc18400700c18000c41860007ffe38001cc6070005757180;
   0x3188c60000c003800000c06000e0ee0e0019bfc60003a0e8c0007e0c60003ffc18003806180001e6f18002aebc60001fffe0003fffc6000fffe18001ffe18000300c18000c61860007ffe380008c6060000783180;
   0x31fdc60001ffff8001fff06000001e000019b0c60001e0f1c0007c3060003d5c18000003980001e5f18000060e60001fffe000006006000e66718000407000007ffc18000c7186000038038001cfe070001dc3180;
   0x31f8c60000aaea0000fff86000083c880019bac60000a0c0800000700000380c18000607280003e0d9800006066000003e0000006006000e66618000e0e330003aac18000c61860000380380008ff8600018c3180;
   0x31ddc6000181dc800070fc60001c71dc0019bfc6000183d8800061e3f0003d5c18000e0e3f000371dd8001fffc60001c79dc001fff86000e66718001c1c73000700c18000c7186001ffff38001cc7f700070f3180;
   0x3188c600038799800039ce600038619c0019b0c600038f198000ebc3b0003ffc18000c9c3b000330cd8001fff8600038e0dc001fff86000e66618001c98338003ffc18000c3186000ffff380008e6e6000607b180;
   0x319dc60003171dc0001f8460007701cc001930c600073619c001d983b800155418001d9c3b800731c98000060060007641cc00006006000e667180039c0718007ffc180001b806000038038001c6607000603b180;
   0x3baac600073018e0001f80600063018e001830c600063018e0019803980000001800398039800638c1800006006000e600ce00006006000e6661800398031c00300c180007de06000038038000866060000003180;
   0x3fffc6000e301c7001fff06000e7ffc7001830c6000e7ff870039fff1c00ffff980039fff1c00e1dc18007fffe6000e7ffc7007fffe6000e667180011fff1c00700c18001f0fc6000038038001c7607001ffff180;
   0x3aaac600023ff86003f0fe600043ff82001f3cc6000c3ff820001fff0c00ffff980000fff0800c0cc18003fffe6000c3ff83003fffe6000fe66180000ffe08003e0c18003803f600003803800083606000ffff180;
   0x3001c600001ff00003c01e600001ff00000f1cc600001ff0000007fc000055551800005540000409c180055554600001ff0000155546000766718000055400003c0c1800300066000038038001c26070000000180;
   0x0;
   0x0].
Definition hanzi_rows_60 : list N :=
  [0x0;
   0x0;
   0x0;
   0x0;
   0x0;
   0x0;
   0x0;
   0x181c000000006000038018000306060001c041c0001c01000040001800000000000006018000070070000180180000700600001c01800000006000000038000330000000000000000000600000c0180;
   0x1fffff000018180003fffe6000018018000306060000c0c180000e0380007e0018001fffff000206018000030060000180180000200600000c018000aaa860003ffe380007b0000000ffff8001fbf8600000c0180;
   0x1fffff000ffffff003fffe6000ffff18007fffe60000e1c1c0000e0700007fff18001fffff00077fe18001fffc700001c018000fff860007fff18001fff860007ffe38000e30000001ffff8001fff8600001c0180;
   0xc183000ffffff00060186000ffff18003fffe6000063818003fffffc0002ff1800001c030003ffe18001fffc60007ffe18000fff860007fff18001bbb86000300638003fffff0000c18380018b986000ffff180;
   0xffffb0000181c00007ff9e00055d55800030616000ffff9c003fffffc0060c15800055d530001c6058000070170007fff58000c719600001c07800199996000700678003fffff0001ffff80019f996000ffff580;
   0xffffb0001ffff80007ff9e80000c0fa0003361e800ffffb80000e01800070c67a000ffff3000aeea7a000fff9e80061867a000c219e80018cc7a0019999e8003006fa000030030000ffff80018b9be800baba7a0;
   0xc7830001ffff800070196c003ffcdb0000701ec0007307f0004709c00031c6fb000e0033000ffffde001fff9fc0071c7df000fff9ec001d5cdb00199997c007ffeff001c7ffb0001c1838001fffb7c001818df0;
   0x6030001800380007ffb6c003ffcdb003ffff6c0003307b000e318e000398edb000eaab3000abeada00003036c006baedb000fffb6c00ffffdb001fffb68003aaefb000c6ffb0000ffff8001fbfb68001c38db0;
   0x1fffff0001ffff80007ffb6c00300ddb003ffff6c007fffdf00071dc7000198cdb000ffff300030f0df00157557c007fffdb00007036c00ffffdb001fffb6c007007bb000e60030001ffff800000077c000c31db0;
   0x3830001ffff8002e0186c003ffc9b000003b6c003fffdb0003feff800180c1b000e00330003f3c9b003fffe6c0061c69b003fffe6c00180c1b00007026c003007bb000667fb000001800000fff66c00aeba9b0;
   0x7ffc30001c0038003ffff6c003ffc9b00000386c007730df0001fc7f80055701b000ffff300007ff9b00157d47c0071c71b003fffe6c001c1c1b00006016c007ffe3b0007e7fb0007ffffe000fff06c01ffff9b0;
   0x7fff30001ffff80006ffe6600300c1b00000386c00abba9b0006c0b80007ffe1b800ffff3800603b9b00019e06e0060c61b00000006e002aaa1b803fffc6c003ffe3b8003c61b8003ffffe00000006c00aaaa9b0;
   0x701ff0001ffff8000700064003ffc19001fff86401ffff9d800e71de0007f1f1900019c430007ff8190003d7c74007fff19001fff864003fff19003fffc64000000390071c61980071d80e00000006c000000190;
   0x6aacb000000380001fefe60003aac18001fff86000abba98000c3987000600618000398e38007ff8180000ffc60007ffe18000fff860003aaa1800000c060000000380031e6b980033faae003fffc60003ffe180;
   0x7ffc3000ffffff001ffff6000300c180000000600077301c001fffffc00600718000f1c7b80000001800077dc700019e018001c018600030071800001c060007fff380033f7f9c0077ffee007fffc60007ffe180;
   0x3000ffffff0018cc060003ffc18000633060002bba18003affbf800600618001e1fbf8003ffe18000e0f0600019e018000c618600030c218000aac060007fff38003f3800c0034002e00000e06000300e180;
   0x1fffff000070ef00018cc26000355c18000673060007fff1c001401000007f7f1800080f098003ffe18001fffe700039f018001c718600031c718000ffc06000677338001e1100c007c0e0e00055606000700e180;
   0x1fffff0000e0e78000c8ee6000300c1800063306000073818000607230007f7e1800000801800300618003fffe60006db018000c618600030c218000eac06000622338000003288001c3e0e000ffe060003aae180;
   0x607310007d8e5e000d87c6001ffff98000673060000f3c1c000e0e77000600718000e1cd98003ffe18003030470007db818001c718600031c718000c0e060006773380006073b0001878dc001fff060007ffe180;
   0xe0e3b000f33eef80078386001ffff98000633860001b3e18000c8c33800600618000c38d98003ffe1800033306000ffb818000c318600030c218000c0e06000622338000e8e3b00038e0cc000c00060003aae180;
   0x1d9c3b000477e73000707860001c3018002671860003f371c001dcc71800600718001d70ddc00300618000f3387000c59c18001cf98600007e518000c0706000677338001d9c3b8007640cc000c0006000700e180;
   0x19883b8000e6e30000f8fc60003c3c18002631860007333980039c0318006aae18003b00ccc00300618000c31c6000818e180003dc060001e7818000e038600062233800198839800e600ce000e0006000300e180;
   0x39c039c001c6e3c001dece6000701f18003671c6001e731dc0011fff1c007fff180013d5cec003ffe18001c30f7000d58798001f0f860007c3f18000f43c6001fffff80039c031c00e7ffc7000710060007ffe180;
   0x1fff0c00084f980038f07e000e00798003e30f6000c330d80000fff08006aae180001ffc4e003aae1800383c66000ff83d8001c03e6000e00fd80007e0e6000fffff80001fff0c00c3ffc20007f8060003ffe180;
   0x7fc000000078000303016000400118001c706600007301c00007fc00006007180000ff00c0030061800003c07000550198001001e6000c001980007c04600000003800007fe000001ff000003f006000700e180;
   0x0;
   0x0;
   0x0;
   0x0;
   0x0;
   0x0;
   0x0;
   0x0;
   0x0;
   0x30070000000180001c0000000180000000300600001806000000600000030018000046060001c1c180000413000001c01c000070060001800000001c0380000c181800000007000070060000180070000000180;
   0x38060003ffe180001c1f80000187fe000070060000180e0000aaeaa800237f180000e6060001c38180000e33180001c01800006006000180ffe000f80380000c1818002aa0060002ea2ea0001b0460003ffe180;
   0x18070007ffe180015d1ffc0001c7fe001fffc600001dfff001fffffc003f7f180001c7060000c3818000063b700055d51c00006006000181ffe001dc57d4005d5d18003fefe70007ff7ff0001b0670007ffe180;
   0x3fffe6000300618001ff81b800aac380001fffc6000aacaaa000006000001e60180001c3060002eba18002ae1b6000ffff18003fffc600018080e003987ffc00ffff98003feee6000060060002bb8c60003006180;
   0x7fffff0007ffe58001ffc18001ffd5d50007071e000ffc7fe000ffffe0004e7758003fff1e0007fff58003ff0b600057d71c003fffd6000fffffe0011c7ffc005d5d5800060c6f0007fe7fe003ff9df0007ffe580;
   0x118c9e8003ffefa00181bffc00baefff0003061e800bae7fe000ffffe000ee3f7a003fff9e80060837a002eb3ff80003833b0000e0de800ffeffe002bab398000c187a0006cc6e8007fe3fe002bb99e80030067a0;
   0x3b8fdfc007006df001fffffc0030f75f0017df5ec0038f60e0007fffc0007c1cdb0015d7f6c007ddf7b000c3fff8007ffb7f001ffedec00ffe00e003ffdbb0000ff8db0006cfffc0057557500018d9fc007556db0;
   0xf07b6c003ffeda001ff81800030f60e003ffffec0038f7fe0003fffc0003abcdb0000c3f6c006c9bdb000e7a318003ffb7b0008e0f6c00180ffe002be9bb0000ff8da0006cffec00fff7ff0001883ec003ffedb0;
   0x70737c007fffdb00181c1800039fffe00555576c001dfd540007000c0007ffedb001ffff6c0067f3db00067ff580061835f007ffff6c0019cff60001c7ffc0055d4db00064c7fc00575575007ffc37c000000db0;
   0xfffb6c0000c09b001819ff80019960e00000036c000d97fe0003fffc000f2a71b001ffff6c0062b3db0006eab5800ababdb003ffff6c001980060003c7ffc007ffe9b00066c7ec00060060003ffc16c00ffff1b0;
   0x7fffe7c00ffff9b001ffdff8001f87fe001fffc6c000f8ffe00057574001e003db0001c3f6c0061c35b0007c7f7800ffff5d001ce0c6c001bbffe0003c07c00075d61b00066c77c001ffffc005555f7c00ffff1b0;
   0x3e03f6600ffff9b801ff9818000f07fe00182186e000703e000006060000bfff9b8000c3a6e007fff19800382b7800a18319000aeac64001b0bae0006e0fc000718619003fefe6e001aaaa8000001e6600e633198;
   0x27ff6740000001900181d818000f070e001c71c64000f1ffd003fffffc003ffe19003fff864005555198007c73780061831d001ffec64001f0db6000671fe00075d619003fefe7400180000001ff9d7400e633190;
   0x7ff060003ffe18001ab9818001f8f8e001fff860001f8fff002aaaaa800380e18003fff86000000018000ee2318003ffb180000e0c60001819b6000e3bbb0007ffe18000300660001ffff8001ff986000ffff180;
   0x603070003ffe18001ffdff80079ffff001d75c60003de0650007fffe000380e180001c3860003ffe18003c7ff18007ffb1c001fffc600018199f001c3f3bc0055d418000704670001d555000183987000ffff180;
   0x60306000300618001ab8ab800f0f63f00182186000f0f8600007fffe000380e180000c3860003ffe1800383bb1800018b18001fffc60001f11bb80381e38c0001801800078666000180000001839860002000180;
   0x7ff0700030061800101fc1800d03f00001fffc6000e0307c0006000e0003ffe18003fff86000300e1800000701000f39f1c0018e3c60001f01e100100f38400ffff1800078c670001ffffc001839870007fff980;
   0x2ea060003ffe1800020780000181cec001fff860000008280007fffe0003ffe18003fff86000300e1800020f200003bbb98001fffe6000000ca000040700000abaa1800078c660000aaaa8001839860003fff980;
   0x671070003ffe1800071e760003838ec00007006000181ccc0007fffe0001c1818000003860003ffe1800071c370001fb19c001df766000183cec000e0e3f00001c0180007df67000101cc4001ff9870003c1c180;
   0xe638600009c818000e08370003230ee001fffc60003830cc00020fa20000c1818000cd9860003aae18000e98330000de1980018e3660003830ec000c1c3b0007ffe180026fbe60003838cc001ff9860001e38180;
   0x1c71c70001ddc18001d80730007670e6001fffc60007670ce000f5e760000e1818001ddd86000300e18001d80330003dfd9c001fff760007670ee001d9c3b8007fff18006679e70007670cc00183fc700007f0180;
   0x1860c600039ce1800398033800e620e6000060060006620c6001ec867000063818003999860003aae1800398033800f19f980018e3360006600e600398839800018018002630660006620ce00000ee600003e0180;
   0x3870f700071c7980071d571c0067ffe7007ffff6000e755c7003cc073c00ffff98003198c60003ffe180031fff1c00e185dc0018e336000e755c70039d571c01ffff9800363827000e755c7007ffc770007fff180].
Definition hanzi_rows_61 : list N :=
  [0x107e66000e1f3d80020ffe0c0003ffc2003fffe600007ffc20030ffe1c00ffff98003318e6000300e180001fff080081e0d8001ee33e00003ffc20001fff0800ffff98003e1c06000c3ffc6003ff826000fc3f980;
   0x3c0700040f01800007fc000001ff800000000600001ff0000107fc000000001800311866000300e180000554000001e05c001e431600001550000007fc0001555518001c0c0700001ff0000000007000f007980;
   0x0;
   0x0;
   0x0;
   0x0;
   0x0;
   0x0;
   0x0;
   0x0;
   0x0;
   0x1c000000460000001180000000460000018c000000047000000c00c00007007000070c0600000001c000038070000c0c1c000386010001c00180000700600000060c00070e0600017001c00000c070001c1c1c0;
   0x398000000e60000003980000001ee000003cc0000001c300001fe01800003002000030c060007ffe1800003806000060c0c0003860380018ff9800003806000ff860c00030e060003e00180002ae060000818180;
   0x718000003c6000000f180000007c60000070c0000007c700001ffbffc00031fff007fffc60007fff1c003ffff70007e0c1c003fffff0001c7f98001fffc6000ffbf0c007fffc600076001c0007ff070001c1c1c0;
   0x1e1800000386000001e38000000f0e00000e0c000000f0700000effffc00ffbfff003fffc6000018018003fffe60007e7f8c003fffee000183218001fffc6000cc7f0c003fffc6000ffff1800038386000ff7f180;
   0xc180000030600000083800000040e00000c1c000000c07000007c067000ffb07000070c16000ffff5c00000007000737ffc00038600000ff1f7f001d55d6000cc339c00070e16000ffff5c000181df000ff7f7c0;
   0x3fffffc00fffffc003fffff0003fae00003fffff000800700007efaee800e1b3fe003fff9e800ffff7a001fffce800338c3e002aaaa0000ff1c7f001b66de800c639be001fe83e80006037a003ffffe8003c1c7a0;
   0x3fffffc00fffffc003fffff0003ffffe003fffff000fff700003fffffc006df3fe003fffdfc00c1837f001fffdfc00318c7f003ffff1c001dff9c001b6ddec00c61dff001fffb7c0067577f007fffffc007e3e7f0;
   0x180000000e00c0000380300000fffe002abaab000ffffff000ff0000006cc000003198b6800ffbf7b0018aadec00ffaeef00018c078003cffbc0019ecf6c00eb7faf00006036c0067ff7b0006309ec006e7e7b0;
   0x181800000e00c00003007000000c1400001c07000017fff000181ff8000c27ff0035ddf6c00ffbf5f001dfef7c00ff7fff0001c4070003edc7c001d7df6c0073ffef007ffff6c007603df001c1dd7c00df5fdf0;
   0xc381800070e00c001c3003000000c0000041803000100e0b003ffd818000e27ff003fffb6c000180db001986f6c00c36caf001fffe00003edefe001ffef6c00016def003fffe6c003cabdb0038ceb6c00cb9b9b0;
   0xc381800070c00c001c3007000f41c00001c1807000380e00001555ff8001e360300000006c007fbe5f001dfed7c00db6d9f001dd7640007f5f5e001d75d6c001e6d8f00006006c003dff1f0011c7c7c001d9d1f0;
   0xe381800038c03c000e3003000fffe80000e18030001c0e00001ff9ab8001b3fff003fffc6c0001801b001800c6e00db6c8f0018ce6e0007b9b9e0019f8c6e001a6d8d001fff86e001c8b19803ffe8640008081b8;
   0x7301800038c0fc000e7007000ffffff000718070001e0c00001d59ff8003b9d54007fffc640055551d001fffc7400db6d9d0019df67000dd99db001b6dc6400ff7f8d001d75864009d8f1d007fffc7400ffff1d0;
   0x733ffc0018c1ec000633ff000001bff000738030000e0c00001999ff80071cffe003000c6000ffff18000aaa86000db7f8c001bfb63000d9d8db001a66c6000ff6f8c001861860019c8b9800000086000ffff180;
   0x373ffc001dc3cc000777ff0003818010003b807000079c0000199818001e1fbfe007fffc600055d51c000fffc7000db7f9c001e73e38009c9e59001847c60005f6d8c001fff860019ffd9c001ffdc700061c01c0;
   0x3b0180000f870c0003e0030001c38000001b00300003d80000189bffc00c26306002fff8600000e018000fff86000db0e0c001831e1800180e18001860c600019ed8c00186186000f7a998000000c6000618c180;
   0x1f01800007c60c0001e0070000e30000001f00300001f800001ed95d4000703fe000c0306000ffff1c00000007000db1f1c001f3061c001c0c1800007006000197d8c001d7586000f241dc001ffdc700021cc1c0;
   0xe01800003800c0000e00300007f0000000f00300000f800001ef01800026c3fe000fff06000fffe18003fffe6000cb3f0c000e0260800081e00003fffe6000ff7f8c001fff8600020e818001ffcc60003f8e180;
   0x30f01c00043c00e0010f00300043f00000107003000407c0000383f900007ed984000fff06000e6671c003ffff7000cf7d9c00040f420001c79d8003fffe6001ff7f8c0000600600031cd9c000000c70003fce1c0;
   0x30f80c000c3e00e0020f803800c0f0000060f803800c0ff00000e0f3b0006cd98c000c0306000e66618000231060000c6d8c000e3c6600038e19c0000f806000186c8c002aea86000638d98001ffec6000018e180;
   0x71fc0e000c7f0060071fc03801c1fc000070fe01800c1e7c0000d8e3b000e0d9dc000fff06000e6671c000773870003c0ddc001d90770007741dc0001dc06000186dcc003fffc60006d0d9c001d5ec700001df1c0;
   0x31de06000c6780600339e01800c3df800031cf81800e3c3f0001d843b800f0dbe8000c0306000e66618001e31c6000760ccc00198063000e6018e00038e06000186ccc00006006000cc0cd800180e6600001bb180;
   0x378f07800fe3e07003f8f81c00ff87fc003787c1c00ffc0fe0019fff1c01f0dfff000fff06000e6671c003870f7000e70c5c0039d573801c7ffc7001f07c6000186ccc007fffe6001cd5cdc001ffe67001fff39c0;
   0x3f0383c00fc0f03803f03c0e00fe00f8003f00e0e007f003e0039fff0c003fc80f000fff06000fe661800303e36000c3cc0c0031ffe1c00c3ff82003e03e6000187cec003fffe60000ffc98001ffe76000ffe1980;
   0x1e0101800700603001c0180c007c0018001e0060c007c0004000055400001fc000000c030600076671c00003e07000418c1c00007fc000001ff000030006600018704c0000000600007f01c00180e2700055019c0;
   0x0;
   0x0;
   0x0;
   0x0;
   0x0;
   0x0;
   0x0;
   0x0;
   0x0;
   0x1c0000000300600000c00000001c0c00000c0000001300000000c00000001c0000000e1830000180e0000000000001d80000000e018000038040000138000000461c00001380000000e4000001980000004e0000;
   0x78fefc001380e00004cfffc000d80c00000c7ff8001b03ff0004e67fc00098ffe0006e1830001980e0002aaaaa8003d80000006e0180001380e00007b8000000e60c60007b8000000cef80000398000000ee0000;
   0xfcfffc003b15d5000ecfffc003dd5d40006c7ff8003303ff000ec77fc001dcffe000ee1830003980e0003fffffc00718000000ee0180001b80e0001f38000001c61c6000f30000001cdffc000f18000003ce0000;
   0xd8c48800333fff000cc0cc000719ffe000cc601800730308000cc3d8000398c06000ce7ffc00719fff002aaeaa800618000000ce0180003381f0001c38000003860c6001c380000038e0ff001e380000038e3ff0;
   0x19cdddc00733fff001cccccc0071dffe001cc755800633f1c001cc9dcc00718c06001cc7ffc00e19fff00055754000fffffc001cc0180007301f0003fffffc007061c6003fffffc0070c0c6001d5d5500070e3ff0;
   0x398d8b0006330030018ceccc002180c00038c7ff800e33f880038dd8dc00718ffe0018c1830006380e00007fffe000fffffc0018c3f80006303b8003fffffc0020e0c6003fffffc0060c0c0003fffff00000e3000;
   0x18f1e000033fff0000c6cd80055d5d50000c75580003315c0000cf8f800218ffe0000c1ff0000380e00006000600001810c0000c7f800003071c003fffffc000061c6003fffffc0020c0c0003fffff000d0c3800;
   0x3f8fcf800ff0ffc003ec6cd800ffffff003ac601800fb33fc003ac386000018000003ec1ff000ff8ffe0007fffe00001830c0038c018000fb0e0e00003800000ffe0c60000300000000c0c000003803000ffeb820;
   0x7ffdfdc01ffe0c0003ff7cf000ffffff003fffff801fff35c003ffb07000ffffff003ffd83001fffffe0007fffe00001870c003ff418000fffc0f001c3155000fffffe000431c6000ffffff000038030007ffd870;
   0x1fc0880003e0c00003f2cc0000181b8000fffff80003fbac000ff303800ffffff0003f98300003fc060006000600063bf0c0003fc180000fec07800c31ff00002fefe000c3186000ffffff000c380300000fd8e0;
   0x118470000471ffe0001cfffc007183980011d0700006739fe0011d7ffc0003860e0000c1ff000430d560007fffe00073bf0c0010dc180000307ff000c31ff00070e1c0000c71c600001c0c0000c31ff00071c1dc0;
   0x3180f8000e31ffe0039cfffc0071bffc0038c0230006238e60038c7fec0023860e0018c1ff000e30ffe0007fffe00033830c0038c0180006307fc000e318300030e0c0000e318600020c0c0000e31ff00030c0f80;
   0x3983ef0006718c60019c00000031bffc0019c073000671be70019c0304007387fe0019c183000730d560006000600033070c0019c3ffc0077070c0006718300038c1c0000e71c600071c0c00006718300031c0f80;
   0x1b8fa3c006618c6001980000003b830e001987ff800761f7b801980300003387fe0018c183000330c060007fffe0003b7ffe001983ff80033060c0007718300018c0ea00066fffc003998c00007318300039c0f00;
   0x1f8e71c00771ffe001d87ff8001b975f001dc7ff800361e19000dc03000033060e000dcfffc00370ffe000575d40001b7ffc001dc301c0037070c000771830001dc1ff00077fffc001ddfc0000771830001dc0f00;
   0xf083c0003e1ffe000d86ab8001b9fff000f8020c003e1ffe000f8fffc003b060e000f8fffe003f0ffe0000e0c00001b030e000f83018003e030c0003e1ff0000fc0ff000361860001d8ffe0003e1830000d80f00;
   0xf01cfc001e18c6000f87018001f030c00078070e001e1ffe00078fffc001f07fe000781d18001f05f4003ffff50001f1f6e00078301c001e070c0001e1ff00007c1c60003e1c60000f80ff0001e1830000f81f00;
   0x700e38001e18c6000786ab8000f030c000787ff0000e1926000780380000f06ae000381b98000e00e0003fffffc000f336e000783018000e03ec0000e0000000380c60001e1860000780cf0000e1838000783b80;
   0x7067c0000e1ffe000707ff800471ffc002387ff0000e1936002380780004f060e0003831d8008f1fff800703d7c0087777600038301c004e01ec0030e00000043c1c60031c1c700043c0c00070e1c380047839c0].
Definition hanzi_rows_62 : list N :=
  [0x23871f8008e0aaa002386ab800c70bac006380200008e19260063c0f80008f1fae0063c30d8018f9fff8003c7000018763360063c3018008f0c0c0030f3e000083e0c60020e18300083e0c00030f0fb800c3c30e0;
   0x67c3c7801df07300077c701800c7830c0077c070001df19360067e3dc000cf9fff0073e10d8019fd5f50011fe00001cfa73f0063e301c01cf8c0c0071ffff001c7f1c60071f1c3001c7f0c00031fcf9800c7e10f0;
   0x26e0f0000df86380036e6ab800cffffc0036f6a0000dbbf260066f38e000cfc6bf0027f7ff8009de0e000203e000008dc3070027f3ff800dfcc0c00339e3fc00c738c60033b983800ce3cc000339e01800cef0038;
   0x3e787f000fddc1e003e7fff800fdfffc003e7fffc00f9ffff007e7f07800fde601003e7fff801fcf0e00071fffc000ddf707003e7fffc00fdff5c00378f01c00de1fc700379dc1c00de1ed4003f8f01c00fe7c030;
   0x3c380fc00f8f80f803e3601800f8700c003e38bf800f8e3ff003e1c03c00786600003e1800000f838e0003fe0ff800f873c3803e1b01800f8e7fc003f0780000fc0cc3803f0e00800fc0cfe003f0780e007c18000;
   0x181001c00704807001c0701800702004001c0000400704007001c0801800702600001c00000007010e0001f80078007031c1001c01014007007f0001e01000007805c1001e040000078007c001c0100c007800000;
   0x0;
   0x0;
   0x0;
   0x0;
   0x0;
   0x0;
   0x0;
   0x0;
   0x0;
   0x181c00001c000000000380001c000000000600000001c0000000e00000001c0000000700000001c00000006000000018000000070000040040000000700000001c0000000700000001c00000070700000700000;
   0x181800001c000000000380003fe00000000e0000000380000000e0000000180000000700000001c0000000e0000000380000000e0000078078000000600000003800000006000000018000003e0300001b3fff0;
   0x181c00001c000000000380000ffffc001fffff000157d54001fffff000157d54000006000007ffffc00055d5500055755400000e000007fcffc00055f55000157d5400055f5500000380000077fff800373fff0;
   0x181800001c00000000038000003ffc000ffffe0003ffffc000fffff0003ffffc000fffff0003ffffc000fffff0003ffff8000ffffe0000fe1fe000fffff0003ffffc000fffff000003800000e6fff8007631620;
   0x181c00001c00000000038000001814001c00070007ffffc001c00070003ffffc000fffff00070000c001fffff00075555c001fffff00001e016001fffff0003ffffc000fffff0001ffff8000c60700006737770;
   0x18ba800abeaaa000003ff800001800000c000600030001c000c000300030000c000c000300020000c000c0003000300018000c0006000006006000c000300030001c000c00030001ffff8002aeaba80066366c0;
   0x19ffc00ffffff000003ffc00001800001fffff00070001c001fffff00030001c000c00070007ffffc001c000700070001c001c0007000006006001c000700030001c000c00070001d5558003fffffc00073c7c0;
   0x18ffc00ffffff000003ff800001800000ffffe0003ffffc000fffff00030000c000c00030003ffffc000eaaab0003aaab8000eaaae0000063fe000fffff00030001c000c0003000180018002aeaaa800fe3ffe0;
   0x181c00001f000000000380007ffffc000018070007ffffc000555470003ffffc000fffff000001c0c001fffff0007ffffc001fffff0000067fe001fffff0003ffffc000fffff00018001800006fff801fff3f70;
   0x181800001f800000000380007ffffc000c188600001981c0007ffe30003ffffc000fffff0000aae0c000aaaab0002aaab8000ffffe000ffe306000008030003ffffc000fffff000180018000c6fff8000ff0680;
   0x181c00001dc0000000038000001800000e1cc7000019c1c0006007700000001c00000c070001fff8c0000000700000701c00000007001ffe70600001c0700015555c0001c007000180018001c6c718004601980;
   0x181800001ce000000003800000180000071ce60007f9ffc000600230007fdfec00001c030000e01ee00000003000003018000aaaaf0001863060000180300002601c000183830001aaab8000cefff800e603980;
   0x19fc00001cf00000003f800000180000037c770007f9ffc0007fff70007fdffc0000380700007cf6c001ffff7000fff01c001fffff00018670600155d570001f701c0001c7870001ffff8000ced75800663ffc0;
   0x19fe00001c780000003fe0000018000003ee0600001980c0002aaa300060180c003ffffb00001fc0e001ffff3000fff018001aebbb0001863fe001ffffb0001c600c00019e030001ffff8000ecebb800662bae0;
   0x183fc0001c3c00000007fc00ffffff000787c7000019c1c000ffffb0007198cc003fffff000007c0e0018003700000701c0018e31f0001877fe001ffffb000fffffc0001dc130001800180006cfff80076038f0;
   0x181bc0001c1e00000003f800ffffff001e19fb0007f9fec000ffffb0006398cc00081e0300001efee0018003300000300c0018e31b00018600600000303000ffffec000180fb0000800180006c18c0003e1fff8;
   0x181c40001c0f000000039800001800001c18770007f9fec000c1c3b00077198c001c3f830003ff3fe0019ff330007fffdc0018e31b0001870060005570300000700c0001c1e300000001c0007cfffc001e1fff0;
   0x10181800001c07800000038000001800000418c300001980c000c183b800661b0c000e31e38003ffc260019ab330003fffcc001ffffb000187006000fff8380000f80c0021838380000001c0003cfff8001c038c0;
   0x70181c00001c03c0000003800000180000061ce3000019c0e000ffffb8007c1d0e0007f1ff8003c1f86001983338007000cc001ffffb800187006000fff8380001f80e003ff50180000001c0003c18c0000e1ffc0;
   0x30181800001c00f0000003800000180000073c63800ff9fee000ffff98007f1f8e0001e0ff8001e1be6001983338003000ce0018e31b8001830060006018380001980e003ffff980000000c00019fffc018e1ffc0;
   0x30181c00001c007000000380000018000003fe31800ff9ff600300039c0077dbf60001c1c5c0007f8c70019ff318007000c60018e319c00183807000601c1800079c060001dffdc0000000e0073d555401df038c0;
   0x30181800001c002000000380000018000000e78180001980600300039c0060d8760003a0c1c0003f0030019ff318003000c60018e319c00183803000600e1c000f0f060001800dc0000000e0033e0ce000dbabac0;
   0x3ff81c00001fe000000001f800001d400007c3f1c00019c07003ffff1c00705817001f3fc0c00007f4300180331c007fffc70018e319c00181c0300070079c007c07c70001c000c00000007003773c7000f9fffc0;
   0x1ff81f80000fe000000001f000001fe0003f00f8c00019803801ffff0e007e1f03003e0fe0c00000ffb801f0030e003fffc3801ee318e00180e038003f03ce00f801f380018000800000003803e3b03800f0e00c0;
   0xf000007c000000000f000000fc0001c0038800019c03000555404003c1f0300300040000000179001f0030c007000c3001e0018400180c010001f01cc004000730001c000000000003001c11018006040040;
   0x0;
   0x0;
   0x0;
   0x0;
   0x0;
   0x0;
   0x0;
   0x0;
   0x0;
   0xe00e0000000180000380e0000700380003000e000000018000000060000000300000010700001001800001c060000000380000000e0000000700000000e0001000380000000e0000000300000000e00001c0700;
   0xe00e0007800180003380e0000300380003180e0007ffe180003ff86000000030001ff182000038018000018060007e00380000000e0000000300000000e0003e00380000000e0000000300000000e00000c0600;
   0xe00e0007ffc180007380e00007003800031c0e0007ffe18000fffc6000555430001ff30700003001800001c060007ffc38001fff0e000fffc700015550e0003fc0380003ffce001fffc3000018c0e00001c0700;
   0xe00e0000ffe18000e380e00003003800031c0e00060c0180003aa860007ffc30001803020000300180000180600003fc38001fff0e000fff830003fff0e00003fe380003ff8e000fffc3000038c0e00000c0600;
   0xe00e000001e18001c380e00007003800071c0e00070c0180001c0060007ffc3000180707000fffc1800001c06000031438001d570e000070070003fff0e00001fc3800030e0e001fffc3000038c0e00001c0700;
   0x1fff2e800000eba0008382e8000300ba00060e2e80030c0ba0000e02e8006003ff00180e8a800fffcba000018060000300ba001c037fc000302ba0000e02e8000180ba00038e2e8000e02ba00038e2e80000c2ea0;
   0x1fff7fc00000eff003fffffc00071dff000e0e7fc0070c1ff0000787fc007003ff001801dfc00555cff0007ffffc000301ff001c077fc000707ff0000e07fc000181ff00018e7fc000e03ff00038e7fc0001c7ff0;
   0xe07fc00000eff003fffffc00030dff000e067fc0030e0ff00003c7fc006002ba001800dfc00000cff0007ffbfc000300ff001c030e0000303ff0000e07fc000181ff00018e3fc000e03ff00038e7fc0000c7ff0;
   0xe00e0007ffe18003fff8e000071c38001c070e00070e01800155f06000700030001801c7000000c1800071c06000030038001c070e0000700700000e00e0000180380001860e0000e003000030e0e00003c0700;
   0xe00e0007ffe180000180e000ff0c380038038e00030e018003fff86000600030001800c2000000c1800061c06000030038001c030e0000300300000e00e0000180380001860e0000e003000030e0e00007c0600;
   0x600e000703e180000d80e000ff1c38007d55ce000306018003fff86000700030001801c7000000c1800071c06000575438001c070e0000700700000e00e000f58038001fc60e0000e00300003060e0001fc0700;
   0x600e000303e180000d80e000ab0c38003fff8e0003ffe18003b18060007ffc30001800c2000000c1800070c86000fffe38001c030e000fffc300000e00e000ffe038001fc60e0000e02300003060e0003cc6600;
   0x3ffffe0003076d80000dc7e000071df8000fff4e0003ffef8003b9c7e0007ffff0001801df000000cd800071ff6001fffff8001c077e001fffff00000e07e0001ffff80018067e0000e03f00007067e00079c7f00;
   0x3ffffe0003866f80000dc7e000030df8000c387e0003060f800398c7e0006003f8001800df800000cf800070fbe0000300fc001c037e0000303f80000e0fe00001bff80018067e0000e03f80003067f000f0c3f80;
   0x15f51fc0018e67f8000dc1fe00071c7f800c187fc0030707f8039ce1fe007000ff001801c7e00000c7f00071e1fe0003007f801c077fc000701ff8000e01fe0001807f8018071fe000e007f0007071fe01e1c07f0].
Definition hanzi_rows_63 : list N :=
  [0xf00fc001cc61f0000cc0fc00030c3f000c180fc0038601f0038c707c0060003f001800c2e00000e1f00077e07e0003003f001c030fe0003003f8000e00fc0001803f0018030fc000e003f0006070fe0000c06f0;
   0x1f00e4001dc7190000ce0e400071c39000c1c0e4003870190018e386400700031001801c7000000e190007fe06400030039001c070e4000700710000e00e4000180390018070e4000e00310006070e40001c0710;
   0x1b80e0000f86180000ce0e000030c38000c1c0e000383018001861c6000600030001800c2000000e180006c606000030038001c030e0000300300000e00e0000180380018030e0000e0030000e030e00000c0600;
   0x39c0e0000787180010c70e000071c38000c0c0e000387018001870c6000700030001801c700000061800070706000030038001c070e0000700700000e00e000418038001c038e0000e0030000e038e00001c0700;
   0x31c0e0000783180030c70e000030c38000e0e0e00038301800183806000600030001800c200000061800060306000030038001eab0e0000300300000e00e000c180380018038e0000e0030000c038e00000c0600;
   0x70e0e0001fc3180070c38e000071c38000e070e000183018001c1c06000755430001801c700000071800760386000030038001fff0e0000700700000e00e001c18038001c01ce0000e0030001c01ce00001c0700;
   0xe0f0e0003ce3980030c38e000030c38000e070e000183818001c0e060007ffe30001800c2000000318003601c6000030038001fff0e000030030003fff8e000c18038000c00ce0000e0030003801ce00000c0600;
   0x3c07cf400787ddd003fc1c7401ffffb8000743cf401ffff1d001d47074007ffe34001d01c700000039d003e01e740003001d001c070e000070075007fffcf400ff803d000f40e74000ff03f003801ee00001c0740;
   0x3801ef800f03ddf003fc0e7c00ffff9f0007e1ef800ffff1e000f83c7c0060003e001f80c3c0000039f003e00f780003001f001c030f80003003e0000000f800ff803f000fe077c000fe03e003800ef80000c07c0;
   0x1000c7800c00c8e00150047c0000001f0003e0c780000001f00078187c0070001e001f01c3c0000019f001c0027c0003001f0000000780007001e0000000780055001f0007e067c0007e01e0010004780001c03c0;
   0x0;
   0x0;
   0x0;
   0x0;
   0x0;
   0x0;
   0x0;
   0x0;
   0x0;
   0x60007000300000380e0001c00380000000e00000003800000006000000018000000070000000180000700e00001803800003006000018038000000000000070380000700600000001800040006000070c380;
   0x60007e00300000300e0001c00380003fe0e000000038000e00060003ffc18000018060002aaa180000300e000018038000030060000180380003fffc00006603800006006000fffe18000f8006000070e380;
   0x1fff860007ffc300000700e0001c10380003fe0e000ffff38001ffc060007ffc1800001f070007ffe180000700e000018038000070060000180380007fffc0000e603800007006000fffe18001fff06000070e380;
   0xfff8600003f8300000600e0001c78380003060e000fffe380007ff86000380018003fe7c60007ffe180000300e0000180380000e0060000180380003c0000001c603800006006000000e180000ff86000070e380;
   0x3006000001c300000600e0001df0380003060e000575438000637860001c0018003fe1c7000618e180005750e0001180380000c006000ffff380000f000000386038003fffc6000000e180000c386000070e380;
   0x302e800001aba003fffae8001dc0ba0003062e8000300ba000631ae8000e70ba003860ce800618eba000fffae80039b8ba003fffae800fffeba000078000001060ba003fffee800000eba0000c3ae800070eba0;
   0x307fc00001fff007fffffc001d81ff0003077fc000381ff000631ffc0007f1ff003861dfc00618eff000fffffc007199ff003fffbfc0055d5ff0001de00000f461ff0000703fc007feeff0000c3bfc00470fff0;
   0x303fc00001bff0000007fc001c01ff0003077fc000181ff000631bfc0003c0ff003860dfc00618eff000c307fc006199ff002ababfc000180ff00118e3fc00fff9ff0000603fc007feeff0000c3bfc00e70fff0;
   0x3006000001c300000000e0001c0038003f038e00005c038000631860000f0018003861c7000618e18000c700e000619c38000070060000180380039c63fc007ffe38001c718600060ee180000c386000775e380;
   0x2aba86000fff8300002aa0e0001c0c38003f03ce0000fe038000631860000e0018003860c6000618e18000c300e000e19c3800003006000018038001dbff800000ee380018618600060ee180000c3860003ffe380;
   0x7fffc6001fffc300007fe0e0001c7c38000001ce0001df03800063186001fffe18003861c7000618e18000c700e000c19c38000070060007ffe38000fffd800010c038001c718600060ee18003fff860001ffe380;
   0x3fffc60000c18300003ae0e0001cf0380000000e00039b838000e3186000fffe18003860c6000618e18000c300e000c18c380000f0060007ffe380007861800030c0380018618600060ee18003fff860000f0e380;
   0xd8760000c1ff000070e7e0001ce1f8001ffffe000719df8000e31f6000e381d8003861df0007fffd8001d757e000418ff80003f036000701df80003061c00038c1f8001c71be00060eed80015d7f6000070ff80;
   0xd87f0000c1bf800030e7e0001c01f8000fffbf000e18ff8000e31be0006381f8003860ff8007ffef8003fffff0002181f8000fb03e0003819f800037fec00038c1f8001861bf00060eef80001c3be000070ffc0;
   0xdc1fe000c1c7f80070e1fe001c007f800e039fe01c1877f800c31dfe0073807f803861c7c00600e7f807fffdfe0071807f801e701fe0038187f80077fec0001dc07f801c719fe0060e67f0001c39fe00070e7f8;
   0xdc07e000c1c3f00030e0fe00fc003f0006030fc0081823f000c3187c0033801f803860c7c00600e1f0000f00fe0031803f00083007e001c383f0006060e0000f803f001fff87e007cee1f00018387c00070e3f0;
   0xdc064000c1c310007060e401fff0390007070e400018039000c31c64003b8019003871c7400000e190000f80e400398039000070064001c703900060606000078039001fff864003ce61900018386400070e390;
   0xce060000c0c300003060e0001ffe3800038e0e000018038000c30c600003801800386ec6000000e180000f80e000180038000030060000ee038000efff7000038038001aea8600000e61800018386000070e380;
   0xce060000c0c300007060e0001c7e380001dc0e000018038001c30c6000038018001f6fc7000400e180001dc0e0001e00380000700600007e038001cfff7000c3c038001c700600040e61800138386000470e380;
   0xc7060000c0e300023070e0001c00380000f80e000018038001830c6000038018001f63e6001c00e1800038e0e0000f00380000300600003c0380038060380183e03800006006000c0e61800230386000c70e380;
   0x70c7860000c0e300077070e0001c00380000f80e000018038001830c600003801800056047001c00e1800070f0e00007c0380000700600007f03800780601c01c7f03800707006001c0e71800733386001c7fe380;
   0x20c3860000c06300023038e0001c00380003fe0e000018038003830e600003801800006006000c00e18000f078e00001e038000030060000ff83800300600c00ce3c3800306006000c0e31800373f86000c7fe380;
   0x7fc1e74000c0734007701cf4001c003d001fdfcf4000180380030306740003801d00006007400fffc18003e03ce00000fe38000070074007c3f38000007f0000fe1f3d00306007400ffe39d003e1f87400ff3f3d0;
   0x3fc0f7c000c033e003e00efc001c003f003e03efc0001803e00303077c0001f81f00006007c007ffc1e003801ef800003f3f00003007c00f80f9f000007e0000fc063e003fe007c00ffc19e003e0387c00fe0e3f0;
   0x150063c000c021e001e0047c001c001e001c0067c0001801e00103003c0001f01f00006003c0000001e0030004780000061e00007003c00c0031f000001e000070001e001fc003c0055011e001c0087c0000001f0;
   0x0;
   0x0;
   0x0;
   0x0;
   0x0;
   0x0;
   0x0;
   0x0;
   0x0;
   0x600e0000060300001cc060000000180000e00e0000000180000600e000038038000c000600000383800007006000018018000000070000000380000600e00003803800006006000000038000070060000c061c0;
   0xe00e00000603000018c060007ffe180000e00e0000000180000600e000038038000f800600000383800003806000018018002aaa860007ffc380000600e00001803800006006000000038000070060000c060c0;
   0xe00e0000070300001cc060007ffe180000e00e000fffe180000600e000038038001ffc0600000183800003806000018018003fffc70007ffc380000e00e00003c0380000f006000fffe38000070060000c061c0;
   0xc00e00000303000018c060006006180000e00e000fffe180000600e0000380380000ff860002ab83800001806000018018003fffc6000700c380001c00e00003e0380000f806000fffe38001fff860000c060c0;
   0x1c00e001fff830001fffc60007006180000e00e000e38e18003fff8e000fffe380000df86000fffc3800031c06000fffe1800006007000700c380015d50e00007e0380001dc06000000e38001fffc60000c061c0;
   0x3fffae800fff8ba001fffce8006006ba0000e02e800e38eba003fffae800fffeba0000c3ae800fffeba00070e2e800fffeba001863ae800300cba003fff2e8000e70ba00039c2e800300eba0000382e8007f062e0;
   0x3fffffc01fffdff0019cc1fc007007ff003fffffc00e38eff003d77ffc00ffffff0000c3bfc006006ff000e063fc00e186ff001c633fc00700dff003fff7fc001c39ff00070e3fc00307fff0000183fc007f577f0;
   0xc07fc00018fff00198c1fc007ffeff003fffbfc00ebaeff003863bfc000381ff0000c3bfc006007ff000e073fc006186ff000c633fc003f8dff0038077fc00383dff000e073fc0038eeff0000183fc006e7fff0;
   0xc00e00001ce300019cc060007ffe180035f58e000fffe180038638e0000380380001c38600067ffb8001c0306000718618000c67070001f8c380038070e000701e38001c038600019ce38007fffc60006c7f9c0;
   0xc00e000018730001fffc60000386180030e18e000fffe180038638e0000380380000c38600063ff38003fff86000318618000e6606000000c380038070e001eaaf38003801e600019ce38003fffc60006e660c0;
   0xc00e000ffc630001fffc60000306180030e18e000e38e18003fff8e000038038003fff86000670e38003fffc600035d61800066707000fffc380038070e000dfff38003006e60001f8e3800155d4600066661c0].
Definition hanzi_rows_64 : list N :=
  [0xc00e000ff803000018cc60000306180030e18e000e38e18003fff8e000fffe38003fff86000630e38003003860007ffe1800066606000fffc380038070e0001ff838000206460000f0e3800000e0600066660c0;
   0xc07e00001c1f00001ccde0005756d80030e1fe000e38fd8003863fe000fffff80001c3b6000670ef8001000360007ffef80000601f000607df8003fff7e0001819f80007063e000070ff80000063600066667c0;
   0x1fff7f0000181f800018cff800fffef8003fffff000ebaef8003863ff00007c1fc000183bf000630ef80000003f000303efc003fffff000706df8003fff7e0001819f80007863f0000f0ffc000ffe3e00066667e0;
   0x1fff1fe0001c07f003fffe7c00fffe7f803fff9fe00fffe7f0038639fe0007e07f8001839fe0067fe7f800fff1fe0038367f807fffffe0070cc7f8038071fc001c187f8001f61fe001f0e7f801fff1fe0066661f0;
   0xc00fc0001803f003fffe6c0003061f003aeb8fe00fffe1f003aeb8fc000fe03f80018387e0063fe3f800fff07e0018761f802aea87e0038cc3f0028030fc0018183f0000fe07e001b8e3f000e0007c0066660f0;
   0xc00e400ffc0310035dd464000706190030e18e400e38e19003fff8e4001ff039000183864007e0e39000c03064001c67190000600740039cc390000070e4001fd83900001e0640039ce390007000640067671c0;
   0xc00e000ff803000318e060000706180030e18e000038018003aeb8e0003bb838000383860003e0e38000c03060000ee718000060060001b8c380000030e0000f983800000e0600030ee380003800600063630c0;
   0xc00e00001c0300031c6060000706180030e18e0000380180018638e0007b9c3800030386000140e38000c030600007c718000060070001f0c380000030e0006518380000060600070fe380001ce0600077631c0;
   0xc00e00001803000398606000c606180030e18e0000380180000600e000738e3800232386000c00e38000c0306000038318000060060000e0c380000038e000e0183800380606000207e380000fe060003be30c0;
   0xc00e00001c030003fc706001ce06180030e18e0000380180000600e001e3873800776386001c00e38000c030600007c398000060070001f0c380000018e00060183800380606000002e3800007c06001d1639c0;
   0xc00e000018030001d8386000cce618003fff8e0000380180000600e000c383b80026fb86000c00e38000c03060001ee398000060060003f8c380000018e00060183800380606000000e380000f006000c0618c0;
   0x7fffce00001c0350001c1c7400fcff1d003fff8e00003801d0000600f400038138003edf87400d55c38000fff070007c7ddd00006007400f9ec38000001cf4007ff83d001ffe07401fffe3d0003c007400ffe1dc0;
   0x3fff8fc0001803e000180e7c00f83f1f0030018fc0003801e00006007c0003803e003ccf87800fffc1f000fff07c00f03edf00006007c00e0fc3f000000ef8003ff83f001ffe07c00fffe3f00038007c00ffe0ef0;
   0x7c0001c01e0001c063c0070071f00300187c0003801e00006007c0003801e001c0187c007ff81f000c0307c0040048f00006003c00406c1f0000004780015401e00000007c0000001f00010007c0055404f0;
   0x0;
   0x0;
   0x0;
   0x0;
   0x0;
   0x0;
   0x0;
   0x0;
   0x0;
   0x400000000180000700600001801800000c060000c001c00000c060000470380000000e0000000380000000e00001c0180000e00e000018038000c1c0600001c0380000700e000000018000c000e0000000380;
   0x2aaaf80007ffe180000380600001801800000e060000c0c1800000e060000e30380000000e000aaa838001fff0e00001c0180000e00e000218038000c0c060000180380000600e000000018001fc00e0000000380;
   0x3fffffc007ffe180000380600041841800000e060000c0c1c000006060003c7038007fffce000fffc38001fff0e00001c0180000600e000618638000c0c060000180380000700e0007ffc180007ff0e0007ffc380;
   0x3ffe0fc006aea1800031c06000618e18000006060000c0c1800000606000703038003fff8e000fffc380018030e00003e0180000600e000618e38000c0e060000380380000600e0007ffc180000ff0e0003ffc380;
   0x1c01c40060e01800070e06000618e18003fff060000c0e1c003fff060006070380000300e000000c38001c070e0000770180000700e000719c38000c06060000180380000700e000704c180000070e000700c380;
   0x1c00c00060e0ba000e062e800618eba003fff3fc000c063a003fffaea00fffeff0000382e800000cba0018032e8000638ba001fff2e800319cba000c072e800fffeba003fe02e80070ccba0000072e800300cba0;
   0x15d41c0006071ff001fffbfc00618eff003fffbfc00ffc77f0000c3bfe01ffffff0000187fc00000dff001c077fc001e1cff001fff7fc00199dff007fff3fc00ffffff003ff07fc0071ccff0000077fc00700dff0;
   0x3ffe0c0006070ff001fffbfc00618eff003801ae800ffa37f0000e1ffe000030ba0000187fc00000dff0018033fc003c0eff0018037fc001988ff003ffbbfc000000ff002ae07fc00738cff0000077fc00300dff0;
   0x3ffeffc0070701800380586000618e18003801c6000cc731c0000e5e600000303800001c0e0003ffc38001fff0e00078ef180018030e00055d438000c07c60001810380000700e000770c18003fff0e000700c380;
   0x1c0ffc0070381800030c060006bae180038aae6000ce3398001ce6c600000303800000c0e0003ffc38001fff0e000f1c3980018030e000fffe38000c03c60003818380000600e000300c18003fff0e0003ffc380;
   0x1c01c0007f1e1800070c060007ffe180018ff46000ce3fdc001fe7060007ff03800000e0e000300c380015750e0004381980018030e000fffe38000c37e60003818380000700e001ffff18003fff0e0007ffc380;
   0x1c00c0003e0f1800030c060007ffe180018eb06000ee3f98001be6060003ff038001ffe0e000300c380000600e0000180180018030e000018038000c33660003838380000600e000ffff180001870e000300c380;
   0x3ffe1c0000006f800070c360000180f80018c33e000c6187c001dff360007039f8001fff7e000300df80000707e0001554f80018037e0000181f8000c77760001831f80015757e000704cf80001877e000700df80;
   0x3ffe0c0000000fc003ffffe000e186fc0018c33f000e60c7c0018ffbe0003039f8001807ff800300dfc002aeaff0003ffef8001fff7e0000181fc000c633e0001830f8001fff7f00030eefc0001837e000300df80;
   0x1c0ffc007ffc7f803fffdfc00e1867f8018c31fe00e62c7f801ce7dfe0038787f8018079fe00300c7f803fff9fe003ffe7f801fff1fe0001807f800ce71fe001c307f001fff1fe0071ce7f8001ff1fe00700c7f8;
   0x1c0ffc007ffc1f80030c07c00e1861f8018c307e00e63e1f8018e6c7e0018f83f001807cfc003ffc3f003aba8fe001c001f0018030fc00ffff3f800cc307c0018303f0018030fe00338e1f8001f30fe00300c3f0;
   0x1c0ffc00700c1900070c06400e186190018d70640067771d001ce7064001cdc39001806ee4003ffc390018700e4001e00190018030e401ffff39000dc7064001c70390018030e4003306190007c30e4007ffc390;
   0x3fff0e000600c1800030e06000e186180018ff06000e66318000ee6060000dcc380018066e000000c380018300e0000e00180018030e000018038000c03060000c60380018030e000300618000f830e0003ffc380;
   0x7fff0e000700c1800070606000e18618001cff06000677d9c001fe7060000f8c380018064e000000c380018380e0000718180018030e000018038000c07060000c70380018030e000fffe18003f830e0007ffc380;
   0x1c00e000600c1800030606000e1861800180306000637fd80002e606000078e380018060e000000c380018380e00003b8180018030e000018038000c03060000e60380018030e000fffe180019838e0000000380;
   0x1c007000700c1800070706000e18618001c010600063c7dc007047060000f87380018060e000000c3800181c0e00001f0180018030e000018038000c07060000e60380018030e0003000180011818e0000000380;
   0x1c0038006aac1800030386000fffe18001c0006000618018003006060001fc738001ffe0e000000c3800180e0e00001e018001fff0e000018038000c0306000060038001fff0e0003800180001818e0000000380;
   0x1c003c007ffc18000703c7400fffe1d001d40074007dc01d003557074007df3b8001ffe0f400fffc3d001c078e00003c01d001fff0e000018038000d4706001ffff38001fff0e0003d001d000181cf400ffff3d0;
   0x1c001c007ffc1f000301e7c00e0001f000fe007c003ce00f003ffe07c00f079fe001aae0f800fffc3f000f83cfc0007001e001aab0fc0001803f000fc307800ffff3e001aab0f8001f801f000180e7800ffff3e0;
   0x1c001800700c1f000700c3c00e0001f0007c003c001c4007001ffc07c00c0111e0018060780000001e000f81c7c0002000f0018030780001801f0007c70780000001e001803078000f000f000180c780000001e0;
   0x0;
   0x0;
   0x0;
   0x0;
   0x0;
   0x0;
   0x0;
   0x0;
   0x0;
   0x7006000101018000030060004010380000600600000380000070c060000000180000e00e000060018000c00060000000380000600600001c038000604060000000180000300c00000e01800001c060000000180;
   0x300600030181800003006000e73838000060060000c383000030e060003ffc180000e00e000360018001f80060002aaa3800066206000038038000e06060000000180000300c00000e01800038c06000300e180;
   0x700600038381800383006000731c380000f0060000e187000070e060007ffc180000e00e000760018001fff060007ffe38000e670600003803800070e06000fffe180000300c00000601800078c06000300e180;
   0xaba86000183018001bff86000338c380000f8060000618e000030e060003aa8180000e00e000e600180000ff860003ffe38001c630600003003800030c06000fffe180000300c000ffff18000e0c06000303e180;
   0x1fffc60001c7018001fff8600039cf7d0001dc06000175dd400070e060001c0018003fff8e001c600180000610600038383800187306000fffe3800031c06000e18618001ff00c000ffff18000c0c06000307e180;
   0x1abbae8000c20ba000e302e80018c7ff00038c2e8003ffffc00030e2e8000f00ba003fffae8000600ba0000602e8001c70ba000033ae800fffeba00038806000e186ba001ff02e8000030ba00000c0600030eeba0;
   0x1c71ffc00fffeff0007303fc0039cfff00070f7fc003ffffc003fffffc000380ff0000e03fc00ffffff0000607fc000ee1ff003fffffc00c00eff001fffbfc00e186ff0000307fc000030ff007fffffc0030ceff0].
Definition hanzi_rows_65 : list N :=
  [0x1871bfc00fffeff0003b03fc00739c38001e073fc00000600003fffbfc004380ff0000e03fc00fffeff0000603fc0007c1ff003fffffc00c00eff001fffbfc00e186ff0000307fc0002baff003fffffc0038ceff0;
   0x1fffc60001c7018007fffc6000e71838007c03c6000ffffff00070e06000e3ff180000e00e000060018007fffc600007c03800157dc6000c00e3800155506000fffe180000300c00003ff180055dd4600039ce180;
   0x1fff860000c3018003fffc6000c63838003fffe6000ffffff00030e0600073bf180000e00e0000e0018003fff860001ff83800001806000800a3800000006000fffe180000300c00003ff180000cc06000398e180;
   0x1c71c60001c70180000f00600043d138002fff4600057d5d500070e060003fb018001fff0e0000e001800557506001fc7f3800001c06000fffe3800000006000e186180015750c000039c180019cc060003b8e180;
   0x1861860000c30180000780600000c1f8000aea060000380e000030e060000fb018001fff0e0000eaa1800006006000f08f38001ffc06000fffe3800000006000e18618003fff8c000038c980018ce06000188e180;
   0x1d75fe0001c70f8001ffc3e0007fe1fc000060360000fff7000070e3e0000db8d80000007e0000ffed800006076000c183f8001ffc36000fffff800000076000e186f8003ffffc000038ef8001dce76000180ef80;
   0x1fffbe000fffffc001ffe3f000fff03f8000603e0003c3ffc00030e3f0000d98f80000003e0000ffefc0000607f0000180fe000c0e3e0000300f8000aaa3e000e186fc0000307e0007ffefe000cc67e000180efc0;
   0x1fffdfe00ffff7f80001fdfe00f5783f0000601fc01f8181f007fffdfe001d9c7f8015551fc000c307f8015751fe007ffc7f800e1f1fe0003007f000fff1fe00fffe7f8000301fc007ffe3f800fc67fe001c0e7f8;
   0x8e187c000c301f80000fe7e00601c39000fff87c00effff7003fffc7e00398c1f001fff0fc000c301f001fff07c003ffc3f00063f07c0003003f000fff07e00fffe1f8001b00fc0003801b8006c607e003c8e1f8;
   0x1ce0064001c301900000cf6400704f38001fff86400cffff1007fffc6400718e19001fff0e4000c3019001fff064000180380007338640003003900000006400f5d6190007b00c4001398180003c7064003dee190;
   0xec0060000c3018000ffe2600038e7380000600600000180000000006000e18718001c030e0000c3018001803060000180380003f38600003003800000006000e18618000f300c0003b98180003c3060007efe180;
   0x7c0060001c3818000ffe060001dc03800006006000155d5400070c06000c18398001c070e0009c3018001c0306001ffff380001e1c600003003800000006000e18718001e300c000739c180001c386000767e180;
   0x23c0060000c3818000c00060000f8038000060060003ffffe00070e0600001b118001c030e0019fb01800180306000ffff380001e0e600003003800000006000e183180018300c000638e180000e186000e71e180;
   0x61f0060001c1c18000c000600007803800006006000555d54000e070600001f018001c070e001dffc18001c0306001ffff380003f07600003003800000006000e183180000300c000e387180071f1c6000e70f180;
   0x23be060000c0c18000e000600003e03800006006000001800001c0386000002018001c030e000d8ff1800180306000018038000f3826000030038003fffc6000e183980000300c000c383980030fce6000c382180;
   0x771fe70001c0f1d0006000740000ff3f007fffc7400001800003c01c6000ffff9c001fff0f400f81f1d001fff0600001803d001f1f0740003003d003fffc6000e1819d0000300d001c3d39d003fde76001c1c0180;
   0x3f03c7c000c079f0007f807c00003fbe003fffc7c00001f80003800e7c00ffff9e001fff07800f0001f001fff07c0001801e003c0f8780003f03f002aaa87c00fd81df0000300f80003f01f003f843fc0080e01f0;
   0x1c0043c001c030f0007f007c0000070400000007c00001f8000100047c0055551e001c070780070000f001c0307c0001801e00300307c0001f01f00000007c007d009f0000300780001f00f00150017c0000401f0;
   0x0;
   0x0;
   0x0;
   0x0;
   0x0;
   0x0;
   0x0;
   0x0;
   0x0;
   0x1c070000000180000600e000007018000060060000e001c00040007000001c000000701c00001c018000038060000730180000700600001c01800000018000001c380000600e00001801800000e000000180380;
   0xc060003e00180000600e000003018000060060000e0218000e0086000001800000030180000180180000300600006301800006006000018018000aa818000000c380000600e00001801800000f800000180380;
   0x3fe070007ffe180018638e000407018000060060000e071c000e01c7000ffffff0005745d4000380180000700600007301800007006000018018001ffdffc003c1c380000600e00001801800007fc000003c0380;
   0x3fe0600003fe180018630e0007fe018000060060000e0618000e0186000ffffff0007feffc00ffff18003fffc6000463018002aba86000abaa18001ae9ffc003f8c380000600e0002baa180000f0f800003c0380;
   0x3d70700001c018001c630e0007fff18003fff860000e0e1c000e018700055d7550007ffffc00ffff18003fffc6000e73318003fffc6000ffff180018601800007fc38001fff8e0007ffe180007d57f00007e0380;
   0x183aea0000c0ba000c672e80020feba003fffae8000e0c3a003ffb8e80004c33000063018000c003ba003aaace8006633ba003fffffc00fffeba001861ff80000fcba001fffae8007ffeba007fffffe000e70ba0;
   0x1c1ffe0000c0ff000c677fc0070c0ff0000603fc0057447f007ffb1fc001ec33000063efc000c423ff003800dfc007737ff00039c3fc00c147ff001871ff801c01dff0000607fc000180ff003c5551c001c71ff0;
   0xfffffe00ffffff000e667fc0038c0ff000c633fc00ffe07f000e001fc003cc33800063eff800ce73ff003b80dfc00363eff00070e2e800c0c6ff00183018000c00dff0000603fc000180ff0002aaa80003839ff0;
   0x1fffe7000ffff180006660e0001fc018000c6706000ffe01c000e000700078c31c0006781fc001c3818003ff0c60003f3c18000e0706000c0e718001c39ffc00c01c380000600e0000180180003fffc000701c380;
   0xc30060000e70180000600e000478018000e6606000060f98000e3806000e0c30e002efc18000381c180000fe060001e3c18003fff8600000e018001f9dffc00fff838002aea8e000ffff180003000c000fffe380;
   0x1c70070001c3018001fff8e000c7fc18000666060000e0f9c000e73e700060c306006cce1c000700f1800001f86000073018007bffe6001557518000f0e180007ff838003fffce001ffff180003555c000dfff380;
   0xc30260001c3898001fff8e000ee7f9800066e060000e0e98000e63fe0000ec300003c879f80060069800001886000063098002000c6000ffff180003e018000000038003fff8e0001800180003fffc0000002380;
   0x7fffff000781cf80018007e0007c1ef8000766360001f0c7c000ee31f0001ffff8003c031f0001554f80000183e0000f30f800000036001ffff180007fffe0000001f80000607e0001800f8000100000000001f80;
   0x3fffff800f82efe0018007f0003800fc003ffffe0003b0c7e000ec30fc0000bff80007ffa80003ffefe003e183f0001e38fe003fffbe0001839f800002ffe0007ffdfc0000607e000baaafc0007ffea0000001f80;
   0x1c7007e01ec3fbf8018001fe00ffff1f003fffdfe00330c3f000fc307c000018000001ffff0001ffe1f803ffc1fe007f3c1f803fffdfc001c39fe000006000007ffc7f8000601fc00ffff7f80017fff0003ffc7f0;
   0xc3006e000c3b1f001fff8fe00ffff1f002afa87c00338c1f000e03064003ffffc0000060000003801b0003ffe7e00f63f1b80000c07e001c183f800fffff000600c3f800aea8fc00fffe1f800006000003ffc3f0;
   0x1fff874000c3819001fff8e4005775190001f006400718c1d000e03070007ffffc001fffff00001c01800001fc6401e737d900000e06c001c1c1f001fffff000601c39001fff8e400181019001fffff000381c390;
   0xfff860000c3818001aaa8e0000630180001b00600061cc18000e0306000001800000fffff00000f01800001806000c63998000aae060000e7c18000006000007ffc38001fff8e000181818000fffff000380c380;
   0x1d75070000c18180018000e0000670180003b806000e0ec1c000fc3070000018000000060000040781800001806000071818001ffe0600007f018001557554007ffc380000600e00018381800000600000381c380;
   0x830060000c18180018000e00006301800039c06000c0ec180007c386000ffffff003fffffc00c01c1800301806000861818000eaa0600007c018003fffffc00600c380000600e000183018003fffffc00380c380;
   0x70070000c1c180018000e000c6381800071e06000405c1c000007c7000ffffff003fffffc00c00c1800301806001c71c18000c00060001fc018003fffffc00601c380000600e000187018003fffffc00381c380;
   0x30060000c0c18001fffce000c61c18000e0f06000003e1800003ce600000180000000600000c00e1800381806000860e18000c00060003fe01800000600000600c380000600e000182018000006000003aac380;
   0x71074000c0f1d001fffcf400d61f1d003c07c6001fff79d007ff877c0000180000000600000fffe18001ff807401ff0798000e0007400787c18000006000007ffc38007fffe74001c0018000006000003ffc3d0;
   0x3e07c000c079f00180007800fe0f9f003803e7c00ffe39f003fe027c00001f80000007e00007ffc1f001ff807c00fe03df0007f807c00e03f1f000007e00007ffc3f003fffe7c001f801f000007e00003ffc3e0;
   0x3e03c000c030f00180007c007c030f001000c7c007f010f00000003c00001f80000007e000000001f00055003c007c019f0007f003c0040061f000007e0000601c1e00000007c000f801f000007e0000381c1e0;
   0x0;
   0x0;
   0x0;
   0x0;
   0x0;
   0x0;
   0x0;
   0x0;
   0x0;
   0xe0060000000380038000700070001800000006000000018000000060000000180000000600000701800100007000000018000030030000000180000700600000001c000010060000000180000000700000c0180;
   0x30e1860007ffc3800383fc20007f8018000fff06000aaaa18000fff860003ffe18003fff86000003018003e07e60003ffc180002300f800fffe18000060060007e7f8c000038060002aaa18002aaa8600000c0180;
   0x38e3860007ffc3800383fc70007fff18001fff06000ffff18001fff860003ffe18003fffc600007f018001fffe70003ffc180007331e000fffe1800007106000fe7f9c00039c060007ffe18003fffc700001c0180].
Definition hanzi_rows_66 : list N :=
  [0x18e706000600c380039b0c200020ff18000eab06000eaab18000e000600030e018000038060000ff8180003f606000300c18000e3388000aaae18000e6306000c66e8c00030e060003aaa18003fffc6000ffff180;
   0x1ce706000601c380039b0c7000e1c018001c0306000e1871800078c0600030e018000018060000f5c1800031707000300c18001c31c1c00000e18000e7306000e6661c00070706000700018003818c7000ffff180;
   0xeee2e8007ffcba0039b0ca800618eba000c032e800e183ff0001fe2e80030e0ba0000182e800060cba0003031fc00300cba003a30e7800000eba0006632e80066662e000ffbae8003aa8ba003818ce8001818ba0;
   0x4e47fc007ffdff0039b0dfc00718cff001c033fc00e187ff0001f03fc00ffffff000fffbfc00070fff0003031fc003ffcff0077307b0007ffeff0006733fc0066667f001fffffc007ffcff00381cdfc001c18ff0;
   0xe03f800600dff0039b0dfc00338cff000c033fc00e183ba0003c03fc00ffffff000fffbfc007fffff0003038e8003ffcff0003b0080007feeff000663bfc0066667f00380fbfc003aa8ff000fff9fc000c38ff0;
   0x1fff06000601c380039bfc70003b1c18001fff06000ffff18001fffc6000307018000c1c060007fff98000301870000000180001e00e000000e18000f7786000767f9c00180706000700018000fff870000e70180;
   0x1fff060007ffc380039bfc20001b1818000fff06000fffb18001fff86000307018000e0c06000618718003fefc60000000180000f807000000e18001f6f86000367f8c0000030600030001800000e0600007e0180;
   0x1803060007ffc38003983070001c001800157506000e1c718001861c6000357418000e0c06000618618003fefe70007ffe1800001fc3800fffe18003bfdc600036661c001fff860007ffe180000e60700007c0180;
   0x1803060000000380039831a00018001800006006000e3c318001861860003ffe18002eae8600061861800030c060007ffe18000203e1c00fffe180031f8f600036660c001fff860003ffe180000e6060001ff8180;
   0x1fff760007ffdf80039831f0001c00f800006036000e7e7f8001ffffe0003ffef8007ffffe00061c6f800030c1f0006186f80007ff50c00577ed80071f8fe00066667c001575de0001c00f80000e717001fe7f780;
   0x1fff3e0007ffdf80039bfefc00fffffc0000633f000ede3f8001fffbf0000018f8002aaabf0006baef800030e5f8006186fc0000fffe000466ef80020e07f80066667e000030ff0001800fc001fffbf000e00ffe0;
   0x1d571fe007ffc7f0039bfe7c01ffff7f803fe31fe00fdb77f001fffdfe00001c7f8000001fe007ffe7f800306c7c0061867f80000754000e66e7f80007047e00c67f9f8000705fe01ffff7f801fff9fe001c181f8;
   0x180307c0003803f0039b30240018081f803fe307e00f9bb1f80186187e007ffe1f000aaa87e007ffe1f000306c6c006bae1f800aaeaa0007e6e1f000aea86c00c67f8f002abaa7e00ffff1f800aea87e000c181f0;
   0x1803064000380390039b3070001c1c1900156306400f19f19001861c64007fff19001fff8640003c019000307c70007ffe19001fffff0003c6619001fffc6400c6661d007ffff64015d55190000e0074001c18190;
   0x1fff06000ffff380039b38200018181800006386000e18b18001fff86000601f98000eab8600003e018003ff7860002aae18000aaeaa0000c6618001fff86000c6620c003fffe6000180c180000e0060000c18180;
   0x1fff06000ffff380039b1870001c381800006386000e18718001fffc6000701bd8001c0386000036018003ff387000000618000006000001c661800007006000c6671c000078060001c3c18007fffe70001c18180;
   0x180306000abaa380038318200018701800006786000e1831800186186000601998000c038600083701800000306000400618003fffffc0038661800006006000fe630c0000f806000183818003fffe60000c18180;
   0x180306000038038003831c70001c701800006fc6000e18718001861c6000701818001c038600183381800000787001c00618003fffffc007467180000700600076639c0001de060001c70180000e0070001c1c180;
   0x180306000038038003830c200018201800007cc6000eaab1800186186000601818000c0386001833c1800003fc6000c006180000060000077e3180000600600006618c00038f060001820180000e0060000c0e180;
   0x1d030740003803d003838e70001d401d007ff8e6000ffff18001861c60007ff81d001fff87401ff1f1d007ffce7400fffe1d00000600001e7e31c007ffff74000661dd001f07c74001f801d0000e0074001c071f0;
   0x1f830780003803e003f1e73c001f801f003ff077c00ffff1f001e6187c007ff81e000fff87c00ff07df003ff077c00fffe1f000007e0000c0f39e003fffe7c00067cef003e01f7c000f801f0000e007c000c039f0;
   0xf030780003801e001f1e33c000f801f00150067c00e0071f001e61c7c0070180f001c0383c0054018f00150023c0015500f000007e000000611e00000007c00063c4700380063c0005000f0000e003c001c010f0;
   0x0;
   0x0;
   0x0;
   0x0;
   0x0;
   0x0;
   0x0;
   0x0;
   0x0;
   0x1800700001c0180000600600001c0180000600600010001c0000000e00040001c0000000600001c0380000700600001c018000070060000070180000600600000001800030c060000180380000000e0000000380;
   0x19e060000180180000700600001c018000060060003fe018003fff8e00060aa98003fff8600001c0380000600600000c01800003806000007018000070060003ffc1800030c060003d8038001ffe0e0007ffc380;
   0x19fc70000180180000f00600001c018003fffc60003ffe1c003fffce00067ff9c003fff8600001c0380000e00600055d518000fff860001ff018000070060003ffc1800030c06000798038001fff0e0007ffc380;
   0x183e6000fffe180000f806000aaea18003fffc600001ae180000018e00066ae98003801860007ffe38001fff86000fffe18000fff860003ff8180000f806000380c18003fffc60006180380018060e000600c380;
   0x1fc0e7000ffff180003dc06000ffff180015754600001801c0001c1ce000660c1c003801860007ffe38001fff86000ffff18000d57860001d5c180001dc06000381c18003fffc6000ffff38001c070e000600c380;
   0x3fc0ee800aaaaba00078e2e800ffffba0000602e80001803a0000c1ae80066263a003801ae8006186ba001801ae80000e0ba000e0bae8000e0eba00038e2e800380cba00030c3fc00ffffba0018062e800600cba0;
   0x35c0ffc001830ff001f373fc000e70ff001fffbfc00ffff7f001ffdffc0066677f003fffbfc006187ff001801bfc007ffeff000e1fbfc000707ff0007073fc003ffdff00030c3fc000181ff001fff7fc007ffdff0;
   0x30caffc001838ff003c73ffc001c38ff001fffbfc00ffff7f001ffdbfc0066e37f003fffbfc007ffeff001801bfc007ffeff000e7bbfc003fffff001e03bfc003ffcff0000002e8000180ff001ffe7fc006aacff0;
   0x1bffe70001c18180030e1c60003c1c18001c60060007ddd1c0015d5ce00066ff1c0015d5860007ffe38001fff86000007018000673860003fff18007fffc6000000018003fffc6000fffe380000000e000600c380;
   0x1b6ee60000c181800004006000780e18003aea860003988180000c18e00066ff980000c186000618638001fff860000030180006c386000318e18003bfee60002aaa18003fffc6000fffe380000000e000600c380;
   0x1f7ee70003e7c18001fff86001ffff98007fffc6000399c1c0001c1ce00067879c0001c18600061863800155586001ffff980007c386000318e18002154460007ffe18003000c6000fffe38003fff0e0007ffc380;
   0xf2ee600076ee18000fff86000cffb98003aeaa6000bbaa18003fff8e000669878003fff860006186380006c186000ffff9800000386000318e18000000060006aae18003020c6000e18638003fff0e0007ffc380;
   0xb0e7f000e747f8000700360000001d8001c603e001ffff7c003ffffe00066187c007fffbe0007ffff8001ec1b60001ddcf8003fffbe000318ed80018303e000700fd8003070de000e187f80038037e0000181f80;
   0x30eff8004307fe0003003e0000000fc001fffbf800fffff8000001bf80066183f0000c1bf0007ffffc0018c1bf000398efe003fffbf800318ef8001821bf000618ef80000303f800fffffc0038037e0000381fc0;
   0x30e67c0001827f8003b01fc007fff7f801fff87e00399c7f8001c1dfe0067ff9f0001c19fe0006f07f803fff9fe0075d71f8030001fe0031ce7f801c731fe00718e7f001fff8fe00fffe7f803fff1fe0003807f8;
   0x38e67c0001801f8001b007c007ffe1f80006086e0039881f0000c08fe0066ff990000c187e0006783f803fff87c00fffb9b80300c07e00ffff9f000c6307e00618e1f801fff87c00e1863f803fff0fc00fffe3f8;
   0x78e67401ffff190000660640055d519000063860007ddd1d0015d5ce00066181c003fffc6400063e390015d5c6400dff9d800319cc6400ffff98000e6306400718e19001c3006000e186390038030e400fffe390;
   0x78e66000ffff18000ce786000018018001fe386000ffff18003ffece000661818003fffc6000aeaeb80001e18600001801800398cc600003e01800066306000618e18000c3806000ebae380038030e000abaa380;
   0x78e67001ffff18001dc7c6000199c18001fe186000ffff1c003ffece00064181c00380fc6001ffffb80001e1c60007fff1800399cc60000770180007670600071ce18000c1806000fffe38003fff0e0000380380;
   0xcce66000018018001806c6000318e18000063860000180180000c0ce00061981800380ec6000ffffb80003e0c60007ffe1800398cc60000670180003020600020ee18000c1c06000ebae38003fff0e0000380380;
   0xcce77000018018003606c6000718618000067c600001801c0001c0ee00061ff1c00380ec6000060038000770e600055d5180019ffc60001e3c18000300060001ef018000c0e06000e186380038030e0000380380;
   0x18ee36000018018003606e6000e1871800006ec60000180180000c0ee000607f9800380ee6000060038000e38660000180180019ffc60003c1e18000180060003c7818000e0f06000e186380038030e0000380380;
   0x386e3740001801d00775677400c1839800557ce60007ffe1d007fff7e0007e07dd003ffe77400060038003c1e7740001c018001d8007400780f1d003fffc7400781f1d0007e7c7400e186380038030e001ffffb80;
   0x303e33c0001801f0003fe07c00c1f11f003ff877c007ffe1e003fff77c007e001f003ffe77c0006003f00380f3780001801f001f8007c00e003de003fffc7c00e00f9f0007c1e7c00f9863f001f030f800ffffbf0;
   0x102401c0001800f0001fc03c0001f01e003fc037c0000000e00000027c0000000f00380e23c0006001f0010072380001c01f000f8007c00c0019e00000003c00c0011f0003c043c0079861f001f030780000001e0;
   0x0;
   0x0;
   0x0;
   0x0;
   0x0;
   0x0;
   0x0;
   0x0].
Definition hanzi_rows_67 : list N :=
  [0x0;
   0x70060000310180000700600000c018001c0037000000018000070060000180380000000600000c01c0003180e000006018000007070000300180003060400001c01c000070060003000180000000700001c0180;
   0x30060000338180000600600000c018001860330002aaa1800007006000018038003fffc600000c0180003180e00000e018000003060000300180007060e000018018000060060007fa018000a8a860000180180;
   0x30060000718180000600600001c018001c67ff800ffff1800006006000619838003fffc600001c01c0003180e000007018000003070000300180003861c00001801c003ff0060001fff18001fdfc70000380180;
   0x3fffc6000061818003fffc6000fffe18001867ff800eaab18003fff86000718838003800c6000ffff980003180e0003ff01800000386000fffe18000186180007ffe18003fe006000202e18001a9a86000abaa180;
   0x7fffc6000061c18003fffc6000fffe18001c6031c00e00318003fffc600031cc38003801c6000ffff9c00171d0e0003ff018003fffc7000fffe18003fffffc007ffe1c0015700600071c61800181c07001ffff180;
   0x2bbeaea00fffcba803000ffc001818ba00186fffc00e623ba0000002e800198eba003800ee80000003a003f1fae8003838ba003fffce8000180ba003fffff8001818ba0000602e800318eba800cccce800ffffba0;
   0x30e3fe00fffeff803101ffc001c18ff001c65754006e73ff0000003fc0019c7ff003fffffc0003187f003f1fffc001c1dff003806dfc0007c0ff00380001c001818ff001fffbfc00318cff800fcfdfc000307ff0;
   0x76e3fe00060eba8033b8ee8000c30ff001862ba8001c38ff000fff3fc0003c0ff003fffffc0003187f0003183fc000c0dff003806ffc001ee0ff003bfff98001838ff000fffbfc001998ff800f8f1fc000303ff0;
   0xe6706000070f1800071c060000e7018001c67ff800381c18001fff060001fe038000001c60007f9c1c0003180e0000e0f180039ff770007c7c18003bfffdc001c301c001d5586000ffff18001f1f070000307180;
   0x1c6386000060f98000e0e06000ffff1800186631800700e18000c03060003e70380000c0c6000ff8c180003180e0000607180039ff26000f03e18000380180000c3018000c0186000ffff18001f9b86000ab03180;
   0x7fffe60007ffdd8001c0706000ffff18001c063180061c718001c0306000783e380018c7c6000e1c61c003f1f8e00004e318003819870004006180003fffc0015f551c001fff86000c003180039f1c7000ff07180;
   0x3fffe60007ffd980038038600000c018001f07b1800218218000c0306000e18e380018c6c600062c618003f1f8e0002af81800381986000ffff180003fff8000ffff18000fff86000c003980000e0e6000ab03980;
   0x1c63fe000070cf8001001b600000e078001f013180001c0f8001c03360004187f80018c7de00066c77c0003187e0007f1ef80038181f001ffffd800030000001ffff7c001d55be000c003f80000005f0000307f80;
   0xc63bf000060cf8000aaabe0000060fc0003ffaa000fffffc000fff3e0002181fc0018c6ff0006ce7fc0003187e0006a06fc003bffdf8003000fc0007fffa0000000fc000c01bf0003ffefe003fffff8000303fe0;
   0x1fff9fe00070c7f801fff9fc01ffffff80007ffe000ffff3f001fff1fe00619c7f801ffedfe003df7df0003181fc0060067f803bffc7c0031547f80007fff00000007f801fff9fe003ffe3f803fffe7c0003071f8;
   0xeeb87e002eac1f801fff87e00ffff9f8000060000003e01f00006007c00718c3f801ffec7e0039be9f0003180fc0060061f803b1987c0033fc1f800006000003ffc1f800fff87c00381c1b8038d807c007ffb1b0;
   0x1c63864007ffc19000060064001c1819001fffff00007f01900046706400318c390000c0c64001b161d007f1fce4007ffe19001b198740033dc19001fffff8007ffc1d001575064001c18180018dc474007ffb180;
   0xc63860007ffc18000060060001c1c18000fffff0000fb018000e6706000398e380030c6c60001b0618003f1f8e0007efe18001b1986000338c18000fffff800300c18000060060000c3818001d8ce6000601b180;
   0x1fff86000070c18000060060000c3c18000006000001df818000c63060001bc7380030c6c60001f061c0003180e000600618001b1987000338c1800000600000700c1c007fffe60000e7018000d8fc7000601b180;
   0xfff86000060c18000060060000efc18003fffffc00399c180018638600003e0380030c6e60000e06180003180e000600618001bff8600033ac18002aaeaa800300c18003fffe600007e018000f8706000601b980;
   0x706386000070c180000600600007e018003fffffc0071cf18001861c60000f70380030c6660001f061c0003180e000600618001bff8700033fc18003fffffc00700c1c0055754600003c01800071f070006019980;
   0x206006000fffc18000060060001fe01800000600000e18798003860e60001e38380030c6660003b86180003180e0006aae180018000600030ac1800000600000300c18000060060000ff018000f9f860007ff9980;
   0x306007400fffc1d007fffe74007dfc1c00000600000c1c198003074c74007c1f38003ffe7740071e61c0003180f4007ffe1d001c0007400300c1d000006000007ffc1d000070074007f7f18001de9e70007ff9dd0;
   0x3fe007c00000c1f003fffe7c00f03f9f000007e000001801f00007c07c00f00fbf003ffe37c00e0f60f0003180f8006aae1f000f8007c003e001f000007f00003ffc1f00006007c00f80f9f0038f87fc006ab8df0;
   0x1fc003c00000c1f00000003c0060070f000007e000001c01f00007c07c00c0031f00300023c0040360f0003180780060061e000f8003c001e000f000007f0000700c0700007007c00f0031f00303033c0060189f0;
   0x0;
   0x0;
   0x0;
   0x0;
   0x0;
   0x0;
   0x0;
   0x0;
   0x0;
   0xc000600000001800070c0600001c018000060060000000180000c00600001801c0000060700000001800001007000181018000018070000000180000380700040004000007006000000018000006060001c70180;
   0xfe0060003ffe1800060c06000018018000060060003ffc18000cffc600001c018000006060007ffc1800013802000381818003fb8c2000ffff1800003806000f826f0000060060002aaa18000006060000c30180;
   0x7ff860007ffe1800070c06000018018001575460007ffc18001fffc600003e01c000ffe070007ffc1800039c070001c3818003f99c7000ffff18000ff8070007fb67f0015f5460007fff18000007060001c70180;
   0x7f06000300e1800060c06000ffff18003fffc60003c0018000798060000770180007fe06000718e1800070e020000c701800319982000e00318000ff8060001fb61f003fffc60007ffe1800000306000aeba180;
   0x6006000755e18003fffc6000ffff18003fffc60001f7018001398860001e3c1c00060707001718718000ff7870000c701800319d87000e0071800003807000187719003fffc600000c018003fff06000fffe180;
   0x602e8003ffeba803fffee800c003ba0000302e80007e0ba003b9fee800381e3a0006ab2e800ffffba001fff8a8000e20ba0019bfea800e003ba003fffce800186318003800ee80000c0ba003fffae800fffeba0;
   0x3fffffc00700eff80070c3fc00c007ff001fffbfc0057d5ff001f0fbfc01f557ff0007ff3fc01f5d7ff00183f9fc007fffff0019bfffc00ffffff003fffdfc00186318003801ffc0000e0ff003001ffc001c70ff0;
   0x3fffffc00300eff80060c3fc00ffffff001fffbfc00fffeff000f0e3fc00dfffff0006003fc0031867f0000181fc007ffeff0019861fc00ebabff001818dfc00bae3ba003aaaffc00ffffff003038ffc000c30ff0;
   0x1575460007ffe1800070c060003ffc1800001806000f7d518000e07060001ffc1c000700070003ffe18003fffe7000618e18001d8707000e18718001ffcc7000ffc1ff003fffc6000ffff98003339f60001c70180;
   0x60060003ffe180002080600000001800001806000636018001e0386000200018003fffe60003ffe18003fffe2000618e18000d8602000e18318000bfec6000ffebff002aaac6000aeba9800333be6000ffff180;
   0x6c06000000018001fff860003ffc18003fffc6000737818007fffc600064ff1c007fffe700000001800038e070007ffe18000d8707000e1871800181ec7000187fd8000001c60001c38180031bb06001ffff180;
   0x1f6f86000000018001fff860003ffe18003fffe6000331c18003ffee600066ff18000038060003ffe78000707020007ffe180019861a000eff318001838c6000187f98001ffec60001818180039bb060000000180;
   0x1f67b6000fffff8001d75be000355ef80003073e00003eff80000707600066c37c00181f1f0007ffefc000e639f000618ef80019ffff000eff7f8001ff0df000186618001fffde000387cf80030fb3e0000000d80;
   0x1861be000fffffc001861bf000300ef80007ff1f80000e2fe0000603e00066c37c003e3bff80030063f003c71ff000618efc0039bfef800e783fe000000ff8001866ba00180edf800706efc003fffff0007ff8f80;
   0x18619fe0001847f8018619fe00355e7f801fffc7c0001807f8000701fe0066ff7f800f71e7e0071c61f00383cffe007ffe7f80318707c00ed873f000060c7e01ffe7ff00180fc7c01e067ff803fffdfe007ffc7f8;
   0x186187c00018c1f80186187e003ffe1f003c61e6c0001801f803fffc7c0066ff1f8003fc06c0031c61900038fa3c007ffe1f80318702c00e9831b000060c6c00ffe2ff001ffec6c00fa679f80387c07e0060181f0;
   0x1f6f864007f8c19001fff86400355e19003070e6400ffff19003fffc640066c31d0006ef0740071c6180001c78740001801900318f07000e98718001ffec700018771c001d5ec6000336d190038fc06400701c190;
   0x1f6f860003f8e18001fff86000300e18000fff86000ffff180000f00600066eb180006e3e600031c6180000f00200001801800318f82000fffb18001ffee600018630c00180ec6000336e180039fe060007ff8180;
   0x186186000558e1800186186000355e18000fff8600007f0180001f80600066ff1c0006f0c700071c618001c7e07001ffff18003d9d87000ffff180018706700018730c001d5ee6000666618001bbf060007ffc180;
   0x186186000018e18001861860003ffe18000038060000fb8180003980600066c318000cfc0600030c618000e0f82000ffff18003fb982000e003180018306600018230c001ffee6000e66618001b3b860006018180;
   0x186186000019f18001861860001554180001dc060003dbc1800071e0600064c31c001ccf0700007f0180007c307000018018001db1c7000e00718001c306700018718e001d5e66000c66318001839e6000701c180;
   0x1aeb8600001bb18001aeb8600000001800078e06000798e18000e0f0600060c3180038c3c60001f78180003f0020000180180001b0e2000ffff180018387600018318600180e76000c66398001838e60006018180;
   0x1fff87401fff39d001fff87400ffff9d001f0706001f18798001c07c740060d31d0070e1f70007c3f1f00007f0700001801d0001b077000ffff1d001c1e77400183dc700180e7740000601d001d78474007ffc1d0;
   0x1fff87800ffe1df001aab87c00ffff9f003c03e7c00c1831f001801e7c007cf31f0020fc27c00f00fdf00001f83c0001801f0001803bc00e0031f000f8fbfc001f08c3801f8e3f80000781f000fb807c007ff81f0;
   0x180183800ff008f00180183c0055550f001000c7c0001801f001000c3c003c730f00007c03c0040018f00000183c0001800f00018013c00e0070f000f8713c001f0003000f0e0380000780f000f8003c00701c0f0;
   0x0;
   0x0;
   0x0;
   0x0].
Definition hanzi_rows_68 : list N :=
  [0x0;
   0x0;
   0x0;
   0x0;
   0x0;
   0x4600600000011c0000180600006001c0000000e00006301c0000700600000001c000c0006000001c1c0006300600000001800070007000070e180000600600000001c0000000700001c0380000000e000181c180;
   0x1c63860007fe39800001c06000060618000fff8e00006331800006006000feaa98001ffe86000aa8818000631860007ffc1800031e06000030e18001861860007fff18003fffc6000018038000ffe0e000180c180;
   0xc63060007fe71c0007fc0600007071c000fff8e00007331c00007006001ffffdc0007ffc6000ffff1c000631860007ffc1800071fe7000470e18001861860007fff1c003fffc7000038038001fff0e000181c180;
   0xe6706000600e180003fe06000030318000c038e000ff3318003fffc6000c2eb98001c3086000eeff1800063186000600c18000303e6000e30e1800186186000600318000000c60007ffe38000c060e000ffff980;
   0x76606000606c1c000387060007f7f1c000c038e000ff331c003fffc6000c7631c000c3386000cc1c1c003fffe6000700c18000707070007ffe180018618600060071c001ffcc70007ffe38001c070e000ffff980;
   0x3fffee80060633a000183ae800ff7fba000eabae80001b318002bfaae80062633a000e232e800cc083a003fffee8007ffcba0003030e8001ffeba001861ae8007fffba000ffcce8003818ba000eae7fc00180cba0;
   0x3fffffc006ff37f001fffffc00ff81ff000fffffc000df37f0003fc3fc0067637f0007773fc00ce7f7f000631bfc007ffcff0077471fc00070eff001fffbfc007fffff001c0cdfc001819ff001fff7fc001d5cff0;
   0x1f83fc006ebb3a001aebbfc00c181ff000eabffc001cf37f00076e3fc00227f7f003fffbfc00c67f7f000631bfc00600cff0033431fc00830eba001fffbfc000003ff000ffcdfc001838ff000aaa2e8001ffcff0;
   0x3fc06000677f1c00186386000cdffdc000c038e00078331c001e7706000377f1c003fffc6000c61c1c0007f1860007ffc1800375fe7001c70e180000000600000071c001ffcc70001c30380000000e0001d5c180;
   0xf6e06000636f18001863860006cff18000c038e000203218003c63c600032631800000c06000e62a180007f1860007ffc1800337fe6000c3fe18000000060007fff18000c0cc6000ffff38003fff8e000180c180;
   0x1e67c600061c71c001fff860006c8c1c000fff8e00000001c007871e600037631c00000c06000677f1c00000186000555c1800176707000ffff18007fffc60007fff1c001ffcc7000ffff38007fffce0001ffc180;
   0x3861c600063e378000afa060000c0c18000fff8e0003ffe18002aaa46000626318003fffc60007baa18000aab86000001818001b67860007e8e18003fffc600018e318000ffcc6000000038000c060e0001ffc180;
   0x1070be00067737c0001d8360000c0c7c0000007e0003ffe5c000fff3600067777c003fffe600079dc7c001fffbe000fffcf8001f7f9f00001c0d80000703e0003877fc000060df0000001f8001d577e000181cf80;
   0x383f0007e3f3f8020dc3e0000c7ffe0000007e00030067c000eab3e000e27f7e00000e3e00000087e000ababe000fffef800170f9f80000c0f80000303f0003833fc003ffedf8003ffcf8000ffe7e000180cfc0;
   0x155d5fe007c1f1f8075cf1fe000c7fdf801fffdfe0031c67f800c031fe00c77f1f8005563fc0001c01f0000701fe00c3077f00071fc7e007ffe7f803fffdfe007fff7f803fffc7c007ffc7f001d571fe01ffffff8;
   0x3fffc7c006ffb18003f83c7c000e0c1b001fff8fc0030c61f000fff07c00c2631b000ffe07e0001c01b002abaa7c00c3839f00079bc6e007aae1f003fff87e00ebfb1f800e38c7c00300c3f000c060fc00ffff9f0;
   0x3fffc64006ffb1c001f19f64001e0c1c00199dce40030c61c000fff06400c7631d000d5f07c00ffff9d003fffe6400c38f19000787e7000700e19003999c640003031d00071cc7400700c39001fff0e4000cc7190;
   0x70e060006c1b180000fc260001e0c180018888e00030c618000c0306000c2e318000e0f06000ffff98002afaa6000e7ce18000d8366000700e18003999860000303180003f8c60003aac38000ffe0e0000cc6180;
   0x307060006c1b1c0003f0060001f4c1c00199dce00030c61c000d5706000f7ff1c00071f0600003e01c0001fc06000ce7e18000dc7770007ffe18003999c60007fff9c0007e0c70007ffc38001c070e0001867180;
   0x38f060006c1b1800038006000337c180018888e00031e618000fff06000fa7fd80003bb8600003e0180003be06000e82e18000dc3360007ffe18003999860007ffb98000ff8c6000300c38002e060e0003866180;
   0x1fc060006ffb1c00001f8600073fc1c00199dce00001f01c000555060007761dc0001f1c600007701c00077706000fffe18001cc737000700e18003999c600003019c001c7ec7000700c38007fffce0007037180;
   0x3f0060006c1b1800007e06000619e180018888e00181f818000000060000260180003e1c60000e3818000e3386000effe180018e306000700e1800399986000030198000802c6000300c38002fffce0000006180;
   0x1fff06000641b1d0003f007000e1c61c007fffff401d5bf1c003fffe700007601d001ffcf60007c1f1d003c71f740060001d003877070007ffe18003999c7401ffffdd007fffc74007ffc3d001c004f400ffff1d0;
   0x3e0fc7c0078030f00078007800c0e00f003fffef800ff8fdf003fffe780002600f003e3f7fc00f80fdf00183067c007c001e00307303c007ffe1f003f9987c00fffeff003fffc7c003ffc1e000c000f800fffe1f0;
   0x1801c7c0078030f0006000780040400f0000000780055018f0000000780007600700380737c00c0018f00107003c007c001e00102703c00700e1f001d99c3c0155544f00000003c00700c1e001c000780000000f0;
   0x0;
   0x0;
   0x0;
   0x0;
   0x0;
   0x0;
   0x0;
   0x0;
   0x0;
   0x70607000019c1c000007000001c18180000030300001c018000000070000000180000384700000c018000060060001c041c0000000600018181c0000600600001c01c00076006000000038000c000700070641c0;
   0x30606000038c1800000e000000c1818000fc303000018018001fdfe60003ffe18003f98c200000c018000068060000c0e08000fffc60001c381800006006000038018000f6006000fffe38001ff80600030c7180;
   0x70607000030c1c001fffffc001c1818000fc303000018018001fdfe70001ffe18003f99c700001c018001f7f060000c1c1c001fffc60001c381c0015f506000ffff1c001c6006000fffe380007ffc700039ce1c0;
   0x3fffe6000fffe18001fffff800ffff98000ccfe3000fffe18001818060000e381800319982000ffff18001f6786000063808000e39860000e3018003fff86000ffff18003fffc6000e00e380000cbc6000198c180;
   0x3fffe7000fffe1c00186061c00ffff98000cdfe3000ffff1800181c0700007fc1800318d87000ffff1800186186000ffff9c00077306000ffff1c00175f4600055f51c003fffc6000e00e38003fc0c7000ffff9c0;
   0x3260e800030f3a001860618000c18ba000cc86b8000306ba0018180e80007e0ba0031bfea8000000ba801861ae800ffffaa0003e62e800ffff3a00060c0e80008f03a0000602e800eaaeba003fc0ce800ffffba0;
   0x7761fc007fffff001fffffc001d98ff000cdd7fc000307ff001fdfdfc001f7fff0031ffffc003ffcff801f6fbfc0007307f0003de3fc0000c07f00070c1fc001c3c7f001fffbfc00ffffff0000c0dfc00f557ff0;
   0x3761fc003fffff0002eaea00009c8ff000cc9efc003ffeff001fdfdfc00180eff003f820fc003ffcff801f6fbfc0003307f0000f83fc0000c07f00030c1fc000ffe7f001fffbfc002aaeff000aeace800e003ff0;
   0xf807000030f1c0005757400003e018001cff630007ff7180000c0c7000ff7f18003fb767000300c18001861860007fff1c0001f8060007ffe1c003fffc600017fe1c0018618600018ce38003ffec7000ffff9c0;
   0x1dc060003ffe180007fffe00007701800386b630002306180000c0c6000ff7f180031b262000300c18001861860003ffe080007fe060007ffe18003fffc600038e018001aeb8600018ce38003086c6000bffe980;
   0x38e070007ffe1c000060600001e3c1800107f63000ffff180000c0470007373180031b7670003ffc18001fff8600077301c007fffe600000601c003071c6000707c1c001fff86000fffe380030c6c70001d5e1c0;
   0xf2786000030e18003fffffc00381ed8000aaae3000fffe18003fffe60003f3f980031b2620003ffc18001fffa6000abba88003831e6000006018003060c6000ffff18001861a6000fffe38000ffec6000180e180;
   0x1e73df000fffe7c003fffffc01fffff8001ffff30007307f8003fffff0001c1dfc0031b77f0000000780015753e001fffffc001fffbe000ffff7c0000601e000dfff7c001fffbe00018c7f80015f6df00019ce7c0;
   0x3860ff000fffefe0000c038000effbfe001aeaef0002baefe0038181f8007e7eff0031b27f0007ffffe0000603f000abbafe000fffbf800ffff7c003fffbf000c001f8001fffbf80018cef80030c6ff80018ce7e0;
   0x1fffcfe00000e3f0003ff5c00000011f001cdd7f8007fff7f8030d867c00e7e79f803fb767c007fff7f80006007c0077301f801c719fe0000383f803fffcfc007ffe7f80186187e0018c67f003fc6c7c0019ce1f0;
   0xfff87c000fff1f000f3fee00000001b000cc9e7e002bab1f803998c6c00018119003fbfe3c0060031f801fff86c002bba0b000c3187e0000181f00001807c007ffe1f001b0186e00fffe3f001f86c6c0018ce1f0;
   0x1fffc740007ff1d003e0607c003ffc19000ddf63e00030719003b9dc7400ffff980031bfe74006ff719001fffc64007fff1c001c71864007ffc1d00001c0640061861d00575546001fffe390007e6c740018ce1d0;
   0x26006000063818003bffffc003ffc18000f8b630007ffb18003d1e86000ffff980030b3020006ff318000e0706000073808000fff860007ffe18000ffc06000618618003fffe6000c666380007e6e60001bce180;
   0x77707000ff381c0013fffc400300c1800079f730007ffb18001f1f8700007f0180031c3070006c371800070e060000f3c1c001fff8600057571c000ffc060007ffe1c007fffe60007e6738000666e70001bee1c0;
   0xe6386000ea181800000600000300c1800070863000601b18001bebe600007b0180030c3820006c331800039c060001b3e0800063006000030398000c0c060007ffe18000303060003c63380006666600003e0180;
   0x1c71c7000e01c1c000fffff000300c1800071c730007019980019fcf70001ddc180030c1c70006ff7180001f8060003f371c000e70060000303dc000c0e0600061861c000707060001c633800267767001c3f01c0;
   0x1860e6000e00e18000aaeaa000300c18000f883300060199800182c36000398e180030e0c20006ff3180001f806000733388001c30060000301d8000c060600061861800030e060003e63b800263376000c3bc180;
   0x187047400600f1d000006000003ffc1d001dfd330007ff9dd001c0c07001f1c7d8003060e740060071d001fff07401e731dd001fffe6000ffff5d000e07874007ffe1d00071c0600077f1fd00663b77400ff9f1d0;
   0x3c078007e039f000007e00003ffc1f0038ff3bc007ff8df001f8f87c00e1839f003e3063c0078031f003f0fe7800c330cf003bffe7c00fffe1e000fe3e7c007ffe1e0003e007c00e1f9de003e1db7c00ff07df0;
   0x3c038003e018f000007c0000300c1f00106711c0070188f000f0783c0001c01f001e3001c0078070f001c01e380007300700300007c0000000e0007c0c3c0060060e0003e007800c0309e001c0903c0000018f0].
Definition hanzi_rows_69 : list N :=
  [0x0;
   0x0;
   0x0;
   0x0;
   0x0;
   0x0;
   0x0;
   0x0;
   0x0;
   0x60700000c30180000000700001c01800000e000000180180000000600000c01c0000700600000c01c0000000600000c0180001c00700001c018000c00060000000180000300600000001c000000060004018400;
   0x60600000c3018001fff8600003801800000c00000e18618001fff8600001c0180000600600000c018003fffc600000c0180006c00200001c018001fe006000fffe1800003006000ffff98000fff86000f818f00;
   0x3fffffc00ffff18001fffc7000038018003fffff800e18618001fff86001ffff9c003fffc600055d51c003fffc600055d5180006c007000018018001fffc6000ffff18001ff006000ffff9c001fffc60007f9c7f0;
   0x2aeaea800ffff1800006006000ffff18003fffff800e1861800186186000ffff98003fffc6000ffff98003800c60007fff18000ee002000ffff1800083fc6000c66618001ff006000380618000c21860001fbc1f0;
   0x60700000c3018003fffc7001ffff18000300c3800e186180018618600155551c00070606000ffff9c003801c60007fff18000c67e7000ffff18001c3106000c66718000030060003ffe1c001c61c60001876190;
   0x7fffe0000c30ba003fffce8000007ba000300c3800fffeba001fffae8002e133a00030e2e80040c03a003800ee80000603a002ab7ea800e003ba000c33ae800c666ba003fffee8003ffe7f000eabae8001866180;
   0x755560007ffeff003060dfc0038c7ff003fffff800fffeff001fffbfc00777f7f00030c3fc00e0e3ff003fffffc007fff7f003ff71fc00fc03ff000c633fc00c667ff003fffffc0038067f001fffffc0018e3180;
   0x6aaae0003ffefe003f6fdfc0038c7ff003fffff8000388ff001861bfc0023e37f001fffffc0066677f003fffffc003ffe7f002eba1fc00ffffff0006633fc00fffeff003830ffc00380618000c31bfc00bac3ba0;
   0x7fffe000755618001f6f4700038c7180007c3e3800031c18001fff8600077e71c001fffc600037fe1c000411c600000701800063f2700007fc1800070706000ffff18001831c60003ffe1c001c71c6000ff7fff0;
   0x6000600030061800006006000ffff18000fe6f3800070c18001fff860002e7b18001860c600013f818000c18c600000301800063f62000000c18001fff060000180180002b0c6000380618000cd986000ff3eba0;
   0x7fffe0007ffe18001f6f87000ffff18003b74df800fffe180000380600074171c001861c600011d01c000639c6000ffff9800063367000001c18001fff060000180180007ffc6001fc061c001f9dc60001855180;
   0x7fffe0003ffe180000600600038c718003330cf800fffe1800071e060003fff18001aeac60003eec18000630e6000ffff98003ff3da0007ffc18000061860002baa1800003ec6000fffff8000d0f860001800180;
   0x1555f54007006d8001fff9700038c7f8000740c1800070ff80003ff360007fff7c001fffd600076777c003ffffe0001c1c78003ff3df0007ffcf8000061f60007ffef8001031fe0003fff7c001d55fe0001855180;
   0x3fffffc003ffef8001fffbe00038c7fc000ffffb800030ff80000ffbf00001c07e001860fe000effbf8003ffeff800382e7e0006338fc00060cfc000060bf0002baafc001ff0ff80028003f800fffbf000baffba0;
   0x15d57d4007ffe7f8000001fe0038c73f00005ff1800ffffff800e7d1fe0055d51f001861dfe00cff9ff800631c7c007f7f1f00063387e00071c7f803fffdfe0001807f801ff0c7e00ffffdf001fffc7c01ffffff0;
   0x3bffc00001c01f003fffe7c003fc31f00001801800ffff9f000c3c07c00ffff9f001bfcc7e0008881f000630c6c00ff3f9f00063382400060c1f803fffc7c0001801f800000c6e00ffff9900002007c00ffe3ff0;
   0xf07ef00001c019007fffe74003fc719001ffff9800070e19001fff06400ffff9d001bfdc640001c01d000630c6000d807d9003ff787000071c1900157546401ffff19000060c600063301c000c76c64001863180;
   0x3eaeabe00ffff9800000e06000000318001ffff9800030e18003fff86000e26398001b0cc6000aaea98003fffc6000980698003ff7c2000ffff9800186086000ffff18000cdac6000633b98000ce6c60001863180;
   0x39fff9c00ffff98001ffe0700074131800001801800fffe1800706786000e6339c001b0dc6000ffff9c007fffc60001f7e18000636c7000ffff98001861c6000107018001ddec6000371f1c0018c6c600018631c0;
   0x60000003e018000fff0600066db98003ffffd800fffe1800066206000effb98001bacc6000aaea98000638e60001f3e18000636e20000810180018618600018301800199ae60003e1e18003ac66600018630c0;
   0xfffff000077018000c00070006ddb98003ffffdc00070e18001c6706000fffb9c001bfdc600001c01c00061866000180618000630770001e7818001861c600030381800341b660001c1e1c00360666000187f0c0;
   0xfffff0000e3818000c0006000cc999800001800c00030e1800186386000e80b9800180cc600000c01800061866000180618002eb03a000383e18001861860007a1c18003c1b660003e3f1800360636000187f0e0;
   0x6000007c1f1d000e0007400dd9ddd00001800c01fffe1d003861c7400e0039d001801c740001c01d00061c760001ffe1d007ff017000700f1d001fffc74007fff1d007619f74007fb3dc0017fe374001877070;
   0x7e0000f80f9f0007f807c00898cff00001f80e00fffe1e00307cc7c00fc039f001f00c7c0000c01f00060e37c001ffe1f002ab003c00e0039f001fff87c00effe1f0007f93fc00e3e1ff0003fe078001f63030;
   0x7c000040038f0007f003c000000cf00001f80400000e0e00007c07c007c038f001f01c3c0001c00f00060427c0018060f00003003c00c0010f00180003c0040061f00015013c00c0c04f000000038001f00030;
   0x0;
   0x0;
   0x0;
   0x0;
   0x0;
   0x0;
   0x0;
   0x0;
   0x0;
   0x38700018181c0000000700000001c000c000600007001c000070060000c0c1c000070070001818180003000700060731c00019dc700011c4180003070300000001c00000007000000018000000060000000180;
   0x2aa383000181818001fdfc60003ffe18001ffa060000fe018000030060000c0c080000600600018381800030a86000f8230800018cc2000318e1800030323000ffff18001fdfc60007ffe18002aaaa6000ff7f980;
   0x3ff387000ff7f1c001fdfc70007ffe1c0007ffc600001ff1c000030060000c1c1c003fffc70001c701800033fc70007f731c00019dc700039dc1800033773000ffff1c001fdfc700075d618003fffe6000ff7f980;
   0x2ba383000fe7f180018d8c6000300e18000c6286000186318003fffc60000eff88003fffc6000aeaa1800031a860000f23080001bfe2000bbaa1800033363000aaab180016dac600061861800018806000e260180;
   0x31ff700018181c001fdfc70007ffe1c000e67060001ff41c003fffc600057ffdc00070707000ffff1800039c0700007ffdc0001bff7000ffff1800031f63000199f1c0016dec70007ffe1800019c06000e767180;
   0x31feb800ffff3a001fdfce8003ffe3a0006662e80000ff3a001198ae800fe262a00030e0e8000260ba003f8c0e80003ffea003f8cca800c003ba803f9beb800099b3a0016daeea007ffeba003fffee800ee6eba0;
   0x3fe39fc00ffff7f0010c0dfc00700e7f0007663fc007c777f00399dffc01fe777f003fffdfc005775ff007fffffc0007737f007fdddfc00dfffff807f9fdfc000d9b7f0016deffe006186ff003fffffc00fc6cff0;
   0x3fe38b8003c3c7f0030f0dfc003ffe7f003fffffc007ff87f001f0fbfc0062637f003fffff8007fffff003bbfffc0003233f0018ccdfc00dfffff8019bfefc000c9b7f0012daffe006baeff003988ffc00f070ff0;
   0x3063870007e7e1c003fffc70007ffe1c003fffc6000c1ff9c000f0706000677f9c001555470006767180019d8c7001577f1c0018fff7000180c180019fff3001fdff1c0017dbc70007ffe1800399cc6000fc7c180;
   0x326ba3001e7c798003f9f860000000180001f806000e06218000fff8600067cf88000aaa860006263180019d8c6000ff3f080018fff2000180c180019f223000ffff180012dbc6000003818003988c6000ef6f980;
   0x336fe7000c1731c00010407001ffff9c0007fc060007ff01c007fffe600067c01c001fff870007e3f180019dfc7001ff731c001de0070001ffc180019f333000cc631c000707070003ffc18003fffc6000e767180;
   0x336aab0007ffe1800030e06000ffff98000e6e260003fc018003603e600067ff8800186186000601b180019dfc60002323080019ffe20000aa898001bf6a3000b56f18000f8f860003ffc98003fffe6000e0a0180;
   0x33601f0007fff5c00030e1f00000c77c001c67be000783c7c0007ff5e000757ffc001d759f0007fffd8001978df000777f7c001d9fff0003fd0f8001b77b3000d76f7c001dd9df0003c1ff80000003e00001c0f80;
   0x336aafc000038f8003fffff000eac2fe007861ff8003fbffe0007ff3e0003c63fc001fffbf8007ffff8001b58df800233f7e000d987f8003ffefe000b3eaf000f76ffe0038e8ff0001e7ffe001fffbf8002aeafc0;
   0x336fe7c00019c7f803fffdfe00ffff1f003fffe7e000f87df0006031fe003c77ff801c7187e0060077f001f18c7e0073731f000d9fe7e0001d41f800f3fff000d56f1f8010585fe0007e11f801fff87e007ffe7f8;
   0x336c63400018c1f00030e07e00e3c21f001fff86e006c3e1b00060307e003c7f8f00186187c007fff1f000f1fc6c0023230b000f1fe2e002baa1b800e3aa7e00396f9f00001807c000fe01b00000006e003aae1f8;
   0x336c670007ffe1d00030e0740066c71d001c6186000ffffdc0007ff064003c779d001fff874005d5519000f1fc740073ffdd00071d670007fff18000f3ff3e00397d9d007fffe7401ffff18003fffe60007006190;
   0x336c630007ffe18002baea600066fe18001861860000f87980002ea06000186388000060060000c0018000e18c600023ffc80007186200001801800063ae300039fd98002eaea6000f80f98003fffe60003006180;
   0x136c6700001801c007fffe70007cff1c001fff86001fc761c000471060001c7f9c00157547001ffff98000658c700073555c00071fe700001801800063b7300039759c000706070007fff18000070060007ffe180;
   0x38c63000abaa98003fffe60003cc218001fff86001ffff98000663060003c7f88001fffc6000aeae98000e7fc6000233b08000f1fe2000ffff98000e3223000286198000387060003ffe18000663060003aae180;
   0xf8fe7000ffff9c00039c070001dff1c001c61860001f87dc001e73860003e639c001fffc70000c1c18001f7ff700071f31c000f986700155d518001f33330006c71dc0001ff07000300e18001e73860007006180].
Definition hanzi_rows_70 : list N :=
  [0x1d8fe3000abaa98000f0f060003cff98001861860018c6618001861c6000666388000060060000c3818001b98e600021e188001d9862000018018001bb2230006c30d80003f806000300e18001c61c60003006180;
   0x38e06740001801d001e07c74007fc79d001fff86001dc7e1c003870f7400e7639c007ffff74000c701d0039d80740071e1dd0039d8670000180180039f333000c61cdd001fff074003ffe18003870e60007ffe1d0;
   0x307023c0001801e003801f7c01e7c01f001fff87c00fc0e0f00307c67c00c3fb8f003fffe7c000f801f0070f807c0020c0cf0070fe63c0001f81f0030fa23c01c30cee003e1fe7c003ffe1f00307e67c003ffe1f0;
   0x303003c0001800e00300063c00c1c00f001c0187c0000020f00003c03c00c17b8e00000003c0007800f0020d803c007080c700305c63c0001f80f0030db31c0083044e001801c3c00300e1f00103c07c0070060f0;
   0x0;
   0x0;
   0x0;
   0x0;
   0x0;
   0x0;
   0x0;
   0x0;
   0x0;
   0x646470000000180003180c00003001c0000300700001c01800000006000060c0c0001c0000000c001c00007007000000018000060e600000001c0000380700000001c0006030700017001c0000300700000301c0;
   0x6c6c60007ffe1800030f8c00003018c0000300600001c018001fdfc600006cc8c0001c0ff800080018000070060007ffe18000062ee8001ff818000030060007fff18000603030003e0018000030060000038180;
   0x3fdfc70007ffe1800174f5d400fff99c003fffc70007ffe18001fdfc6000066d8c001ffdff8001c7f1c0001fc070007ffe18001577ffc001ff81c003fffe70007fff1c0007030700076001c003fffc70000ffc1c0;
   0x3fffe6000018018003fef7fc00fffb8c003fffc60006aae1800189886000066f8c001ffc81800baeb1800038e06000666618003ff0e6000181818003fffe6000018018000f3ff3000ffff18003fffc600006ac180;
   0x66667000ffff18003ffdffc0030631c003555c70007ffe18001b99c6000063d0c000631ff800fff31c001f3707000666618001d780300018181c0000000700055d51c000fbff7000ffff1c003880c700057571c0;
   0x3fffee800ffffba000f889e00038c32e003066ce8007ffeba001b1b2e800fe7fae000630ff800aae33a003e23cea007ffeba000c3bff8001ab83a001fffce800ffffba000d830b80006033a003b9cce8007fffba0;
   0x7fffffc00c183ff001fddff0005dd77f001fff5fc007ffeff001c1c3fc00ff7fff003ffe01800e3737f003fffffe007ffeff00067f01c001ff87f001fffdfc00d5d7ff0019c31fc0067577f003f0fdfc006187ff0;
   0xd8d9fc00fdbfff003befad800fff03e001fff9fc007ffeff001f9fbf800631e2e003ffeab80062637f0027ff1fe000000ff0007eb3fc0000007f0018a8dfc00c183ff0038ffffc0066ff7f003c63dfc0061867f0;
   0xdbd8700055d51800737f2dc00d5701c001df9c7000755e180019dbc6000637f0c0001c1ffc00767f1c000dc587000ffff180003c337c00ff7f1c0019fdc7000ffff9c00707fe700076031c003871e70007ffe1c0;
   0x6dbcc600029aa1800233fccc00c2300c000d9ec60007ffe180018dac600063ef8c003ffd83c00367f98000cfd86000ffff180003e3b3000ff7f1800190cc60002ba818003ff8630003eab18000fff860006186180;
   0x7ccee70007dfe18000309cc400dff7dc00071e670000000180000660600077cdcc003ffd87c0075031c000c7187000000018001f7dbf000c3631c0019fdc700001c01c001fdd670003dff1c001fff8700061861c0;
   0x3840660000108d8000000c0000dff3ac00070f86000ffff980000e70600026ccac000181ffe00ff8398000dfd860003ffe98003c1de3000c36318001800c60003fbe9800061fe30001c8b18000c61860007ffe180;
   0x1fff9f000039cfc003fffffc00c6377c000fff9f000f5d7f8001fff3e00036863c0001c1ff401ff81fc000d5d9f0007ffef8001105e0000c3637c001fffdf0007ffefc00071d7f0009d8ffc001fff9700055547c0;
   0xfffbe000fffe7f803fffffc00dfb33f000dff9f000fffffe001fffbf80036063f0003fa00000187ffe000fffbf000300efc0003fffe000ff7ffc001fffff0000080fe0006187f0019e89fe000fffbe000ffff7e0;
   0x1d559fe00ffff1f0001fc3c000dfb71f003d55c7e00ffff1f8000c3dfe00367fcf0007ffff0001c7f9f0005751fe00700e1f00017fff000ffff3f8005550fc007fff1f803fffffe019ffd9f0000701fe00ffff1f0;
   0xc6187e000307190007bffe000d8b30d003000e7c00e1831b800aebe7e003c7fcd0000060a00018639f00003807e003ffe1f0000060000001801f000fff87c007ffe1b803fffe3c00f3a99f002aea87c0000001b0;
   0x1c71874007fffd8001f0767800d9b71c001fffc7400ffff18001ffff64001c738c001fffff000ff679d003fffc74007ffe19001fffff000ffff1d000c018740061c71c003fe307400f041dd003fffc74007ffe1d0;
   0xc61860007fffd8003dfffbe00dfb30c001fff860000000180000c3860001c318c000fffff000ff6398003abac600063f018000fffff000ffff18000fff860006182180006030300020e898003860c60003ffe180;
   0x1c71870000306d80031fff9c00d5b71c00007107001ffff980015d7860001c37cc000006000001c67dc00399cc7000f73c180000060000007e01c000fff870007fff1c00073ff700031cd9c003870c7000700e1c0;
   0xc71860007ffe1800000600000f8330c00066306000ffff98001fff860001c1e0c002aaeaa8001862d8003b8cc60003e1f98002aaeaa8000ff018000c01860007ffe1800063ff3000638d98003aeac60003ffe180;
   0xf0070007ffe18000fffff00070371c000e73870000c30180015d7860003e3c0c003fffffc001c76dc003bfec70001e1f98003fffffc001dfc1c000fff8700061c71c000703070007d0ddc003fffc70007ffe1c0;
   0x3bc06000030618000aaeaa000000f8c001c61860000c38180000c386000777e0c00000600000187ed8003a3ec60003f981800000600000798e18000aaa8600061821800060303000c80cd8003860c6000300e180;
   0x1f9fc7400fffe1800000600001fffddd001871e70000c1c18003fff87400e3e7cc000006000001c7e1d003800c7000fbfc1d00000600001f1c7dc007ffff74007fff1c00070307001cd5cdf000070074007ffe1f0;
   0x3c07e7c00fffe1e000007e0000fff0cf00187cc38000c0fdf003fff87c00c1c1ee000007e000018020f003f00c7c00e0fc1f000007e0000c1839e003ffff78007ffe1f00060303c000ffc8f000060078003ffe1f0;
   0x1001c3c0000060e000007e000015004700003c038000c039f00000383c00c18046000007e00001c0607001f00c3c00400c0f000007c000001c00e0055555380060070f00070301c0007f00f00007003800700e0f0;
   0x0;
   0x0;
   0x0;
   0x0;
   0x0;
   0x0;
   0x0;
   0x0;
   0x0;
   0xc0b800003801c000060c000000e0700000c00c00001c070000060000000180300000e0000000060000000700000000c07000003060000000300000007000000018000000300300000001c0001830700000c01c0;
   0xe1b8000038018000061f800000e0300000e01c00000c060000060000000180700000e0760000060000000300000000e0700000386000000038000000600000001800003fffe30007f7f180001818600001c0180;
   0xe3b800001801c0000707fc000067730000e01800000c070000077ffc0001c07000006067000007000000030ffc00006070000038600000001c000000700000001800003fffe300063631c003fffc7000ffff9c0;
   0x6738000019ffc0000601f8000063330000603800000e060000033ffc0000c0e0000060e70000032aa000030ff8000061b8000038618000001c000000600000001800000fff830007f7f180006e6c6000ffff980;
   0x657d40001dffe0000701c000007377000067ffc0000e0700000303800000cfff000071c30000033ff000038c00000071b8000018618000001c0003fff000007fffff000d75c300063631c000c6ce700000001c0;
   0x3fe7ffc00ffc006003ff018000fff3b6003fe3ffc00ffefff003ff838000ffefff003ff1c3800fffbff003ff8c0000fff198003ff861800ffffe0003ffe000007ffffe000fff8b8007f7f3a000fffce8007e7e3a0;
   0x7ff7ffc00ffc007007ff01c001fff1f6003ff040001ffffff007ff838001ffefff003ff181801fff830003ffcc0001fff19c007ffc61800fffff000000700000555d550005755fc0077777f001d559fc0077777f0;
   0x3ab03800060cfff002eb818000bab1b6001c30e6000307aea001c183800030e018002eb381c00301830000c1cc0000bab99e002eac618000e007000000600000001800003fffffc007f7f7f000fff8e80062627f0;
   0x1c373900070efff800c3bffc00303970001c39c7000307070001c1c3980070f018001c3b01c00381c30000c1cc000030399e000c1c618000600780000070000000180000355573000019c1c001d55870007f7f1c0;
   0xc3bb980030ee2c000c3bffc00383bff000c3b83800307860000c3c3980030f018000c3baae00383e30000e1ec0000383d9f000e1e6180007007c0002aeaa800001800003fdfb30007ffc18000fff860007e7e180;
   0xc7dfb80031fe6c000c7c1c000387fff000c3f01800387c70000c3ff980030fff8000c7dffc00183730000e3fff800387d9f000e1f618000700fe0007ffff8001ffffc003cd8f30007ffe1c001d55870005d751c0;
   0xc7cfb00031bece000e6e18000186eba000e3fe1c0038fc60000e3ff980038fbf8000c7cff800183730000e37ff800186f9b800e3f618000380ce0003ffff8001ffffc000fdf830002baf18000fff9e000ffff180;
   0xe6cfe00039bece0006641c0001cec78000e7ee7e0018cffe0006763980019df18000e6dcc0001c7330000633018001c679d000633618000381c78003801c0001d55740005d75f0007ffffc001fff9f0005d757c0;
   0xee83a0003bbfff800660180001cc0f800066c6e00018c3fe000660398001983180006e8ce0000c6030000732018001ce1980007306180001c383000380380000e0060003fffff8002baf7e002abeafc002ebafe0;
   0x6c0780001b3fff8007e1ffc001dc1fc0007607e0001dc706000760398001d871c0006c0ce0000ee030000770018000cc19c0007706180001c7000001c0300000700e0001fffe7e007ffe1f003fffe7c007fff1f0;
   0x7c1fc0001f06360003c1ffc000f81bc0003e0380000f83060003e0398000f83180007c0ce00006e2300003e0018000fc1980003e06180000e7000000e0700000701c0000fffc3c00030e1f000737064000c301f0;
   0x7c3ff0001f06660003c181c0007877e0003c0380000f87060003c0398000f071c0007c0c600007c7f00003e00180007c19c0003e07d800007e000000f0e000003c3c0001fffc3400fffe1d001f9fc7001ffff9d0].
Definition hanzi_rows_71 : list N :=
  [0x3873b8000e06c600038181c00078336000380780000703060003c23980007030c000380c60000383fe0001c0018000381980001c07f800003c00000079e000001e780002baea3000000e180038fff6000ffff980;
   0x38739c000f17d60003c181c000782770003c0fc0000787060001c7f98000f071c0003c0c700007c07f8001c1e180007819c0001c067c00007c0000003fc000000ff00003ffff30007fff1c00177f7700043701c0;
   0x7c038c000f1ffe0003c181c000f80338003e0ce0000f83060003e3ff8000f830e0007c0c300007e0030003e0f98000fc1980003e06080000ff0000001f80000003e000018ce030003fff18000e8e06000f33e180;
   0xfe0384001f9fff0007e181c001de0710007f1c70001de7fe0007707fe001dc30e000fe0c30001ef0000007707f8001ef01c0007706000003e7c000003fc000001ff00000fc7c30001c1c1c001fff870003e1fdc0;
   0xe703800039c600000e71ffc0038f030000e788380038f3fe000e3803e0038e306000e70e38003c3c00000e3c0fc003c7818000e38600000f83f00000fff800007efe0000383fb0000f7818000a62860001c1b980;
   0x3c7c38000f0f700003c7dffc00f87c70003c3c01c00f87c06003c3e00400f07bd7003c7cfdc00f81f00003c1f01c00f83e1c003c1e600007f00ff001ff0ffc01ffc1ff001f7f7340017f01c001f670740079fc1f0;
   0x381e3f000e07be000381f81c00e01e3000380f00c00e01e0600380e00000e03fe380381e78c00f00f8000380f00001e00f1800380f60000f8003f003f801fc00fe003f00383f83e00ffff9f00387de3c00e0fc1f0;
   0x10041f0004031e000100401c00c00c7000100600000400400003006000004019e100100400000c0018000100700000c0061c00100660000600007001c0001c0070000700300701c00f0078f00107c41c00c01c070;
   0x0;
   0x0;
   0x0;
   0x0;
   0x0;
   0x0;
   0x0;
   0x0;
   0x0;
   0x38002000000c00000007000000706c00000e01800007006000006138000038318000060380000304000000c01c00001831c0000e0000000300e00000c0380000300c00000e01c0000300e00000c0180000180000;
   0xf8007000001c0000000700000030ec00000e0180000700e00000633980003831800006018000030c620000e0180000183180000e0aa8000388e20000c2380000380e00000ee0c0000380e00000e018000018fff0;
   0x1fff0e000ffffff00000f00000033fff000067ffc000700c0000063bb80001975d0000615d000030c660000603800001831c0000e1ff800039ce70000c739c000380e00000671c0000380e000006018000018fff0;
   0x3bff0c000ffffff00000e00000033fff003ff2ba800071fff000061bb000019fff000061ff800038eee000067ffc00019fff000061ea800038ce60000e3398000181f0000063ff800018ffe000063ffc000180300;
   0x33000c0005755f500000c000000300c0003ff15d000ff1fff000071ff00001dfff000071d58000186cc000077ffc0001dfff000071c0000018ce6000063bb800ffc7f8000073ffc0001cfff000073ffc0001c0300;
   0x33807fe000381c0003fffffc00ff9ffe000c3bff800ff0000003ff7ffc00ffc318003ff181800ff860c002af000000ffc318003ff0c0000ff8eee003fe1bb000ffce38003ff38c000ffc0e0003ff018000ffc0300;
   0x7fffffc0001e780003fffffc01ff9fff000c7f198000707fc003ff7ffc01ffc31c007ff1ff800ffd555003ff3ff801ffc31c007ff7ffc01ffc6ec007ff1ff000ffde1c007ff1dc000ffc0e0007ff018001ffc7ff0;
   0x3fffb800000ff000003801c0006198c6000e6f198000707fc002eb07c00030e00c000c39ff80071dfff003ffbff80070c318003ff7ffc0060c2e00018303800030d80e001c3fffe0030effe001c30ba80070e3fe0;
   0x57555800001ff000001801c00061dfff0007c3ff80007060c000c79fe00070effc001c398180071dfff000c3b0380070ffff000c398300071dffe001c77ff80031efff001c3fffc0070effe001c79ffc0070e7180;
   0x30818800bfeff80001c03800063daee000383ff8007fe60c000c3bbf00030effe000c398180031f803000c3b0380030ffff800c398300031effe000c73ff80031e3fa000c387000030f0e0000c399880030e3180;
   0x31819c00ff81ff0001c03000073ddd70003c0fc0007ff7fc000c7f3bc0030fc07000c7dff80031ffff000c7fff80031f000000c3dff00031fc07001c7f19c0031f000000c7c3800030f8e0000c7d99c0031f7180;
   0x31899800e0000f0000e07000033fffe000fe39f0006ae7fc000e6c39c0038fc07000e6caa80033f7fc000e6fff80039b000000e2dff00031fc02000c7a1880039a000000e6fff00038bfff000e6f9880039bfff8;
   0x3199f800ffffff000070700003378c7003e7d1bc0060c00000066e1c40039dcff80066c180003b775400066c0000039b7fe00067d830003bbdf7000cdf5dc00198c66000e6dff000399fff000e6d99c0039bfff8;
   0x3f98f000ffffff000070e000033188600383c18c0070cffe0006e00c000198cff0006e3ffc001b2380000663ff8001b86ae000665830003b2db2000ec2de8001b0ce60006e0e7800198aba0006e1ff8001980000;
   0x3f98e000001c00000039c00003f10e500155555400719fff0007c3ffc001d8cc60007e7ffc001f01e00007c3ff8001f060e000761d70001b1d170006c7dfc001f0ecc0007c073c001d80300007c1ffc001f80000;
   0x3b98c000000c0000003f800001e3fff800fffff0003988020003c3ffc000f8cc60003c0060001e0ee00003c0e00001f07fe0007e1ff0001b0d12000682de8000f06cc0007c038c001f0ff80003c03c0001f07fe0;
   0x7199e0003ffffc00001f000001e3fff801fffff8001b1df70003c1870000f0cc60003c1560000e1ffd0003c0700000f07fe0003c1ff0001f1d17000787dfc000f06dc0003c7580000f0ff80003c07c0000f07fe0;
   0x319be0003ffffc00000f000000c0038000006000001b09b2000381830000f0cc6000381fe0000e03ff000387b00000e060e0003c1830000e0d120003829a8000e03c8000387ffa000f0e38000380fe0000e06060;
   0x719b700030c30c00001f800001c0ff80007fe1c0001f1d170003c0cf8000f0cfe0003c1ff0000f00f70003c7ffc000f075e000187830000e1df70003879bc000f031c0003c5ffc000706180003c1df0000f06060;
   0x2619b300030c30c00007be00001e0ff80007fe0c0000e09120007e0fe0000f8efe0003c1870001f00e00003e0ffc001f07fe0003c7ff0001f0cb20007821a8001f8f800007e018c000f0e180007e39b8001f06060;
   0x66d99380030c30c0001f0f80003f0c1c0000061c0001f1df7000e70f80001fce060007f1c70003b80e00007f031c001fc75e0007e1ffe003f9c170007c719c001fdff00007f0180001f861c000ff119c003fc6060;
   0x2eff8180030c30c0007e03e000738e0c0000060c0003b88b2001e39fe00039e600000e798380079e0e0000e783000039e60e000e7183c003bcc02000ee21880039e1fe000e781800039e60e000e7819e0079e6060;
   0x7e7fe1c0030c30c007f801fc00f1ce0e007fffffc0071fc17003c3ccfc00f0f700003c3dd1c00f0f0fc003c3c30000f0f60e003c7980000f1fd07003c7f59c00f0f01f003c3e18000f0f7ef003c3c18c00f0f7fe0;
   0x3c03c0e003ec30c003e0007c00e0efc7003fffffc00e0ff8200380e03c00e03fe000381ef8e00e038f800381e3f000e07fce00383f80001e0ff0200383f98800e0380200380e1f000e07bc700380e18001e07ffe0;
   0x1800004001c000c00100001c00c047c300000000000c06f0700000600400c013e0003004704004010780010041e000c0178e00300d80000c0270700101991c004010000030061f000c0100300100418000c016060;
   0x0;
   0x0;
   0x0;
   0x0;
   0x0;
   0x0;
   0x0;
   0x0;
   0x0;
   0x2000000007000100183000600180000c0000000000070000060c00000c000000030000000060070000c00c600030060c000000000003000c0000c000e0001800300000e0000000002040000030000000c3000;
   0x3fff78000780060003e0183000f80186001f00aa8007800300000f0e00001fe0000007f800000060030000c00c600030060c000ff9ff0003000c0000c00060001800300000e000000aaa70c0000038000000c3000;
   0x3fff7f8007fc0e0001ff1830007fd997001ff0ffc00ffc0300007c0780001ffff00007fffe000070070000c27ffc0030860c001ff9ff00030c1e0000c107e0001867330000e038000ffee1c003fe73fc00ffc3ff0;
   0x3b330f8000fefff0003f1830000fc9b60001fcffc000fefff000fe03e00000fff800003ffe0000f87ff800c37ffc0031dfff000c198300031c3f0000c38ff00018f3330000e0f8000eaac18003fe73fc00ffc3ff0;
   0x3b3301800006fff000077ffc0000cdb700001c0600001efff001ef0ff8000001780000001e0001dc7ff800cf0c6000339fff001c1983000338f38000cf0f700019c3370000e3f0000c11c100007060700000c3000;
   0x3bbb0180000670c000037ffc0000cdb600000c06000006aba00087bc30000000180000000e00019c030000cc2ee80037060c000eb9ab000371e1c000dc0638001b83b60000e780000c180ff00063fe600000c3000;
   0x3fff0180000631c0000318300000c7f700000c0700000601c00001f810000000180000000e00078e070000dc7ffc003607fc001ff9ff000361c1f000d80718001901b60000e300000d5d7ff00073fe70007fc3fe0;
   0xaba018000063180000318300000c18600000c0300000609c00003f800000000180000000e000f073ff000c80c60003007fc000aa8aa0003017ff800c01ffc001801b60000e000000dffb60000618060007fc3fe0;
   0xcff800006198000031ff00000dfff00155c030000060dc0007fbfc0005555580000000e001fc7fff000c00c600030060c000000000003007ff000c01ffe001801300000e007000d5d77000071c4700000c3000;
   0x3ffeff800ffffff003ff1ff000ffdffe003ffc03800ffe0cc003fe07f800fffff80000000e000ccfb03000c3fffc0030660c001fffff80030e0e0000c1999c00183bff0000e01f000c1833200060ce6000aac3aa0;
   0x3fff19801ffffff007ff183001ffc1c7007ffc7f801ffe0ce003f401fc00fffff8003ffffe0001dc357000c7fffc0031e7fc001fffffc0031e0e0000c7999800187fff0000e07c000dfff3700070cdfc00ffc3ff0;
   0x303399800186060000e318300038c3c600060c7f800186aee0003fe0080000e018003ffffe0000f83ff000ce03000033c7fc001860e18003380e0000ce19980018e0380000e0f8000dbbb36003fed9fc0000c3000;
   0x3031d9800186060000e31ff00038c7c700070c63c00186fff0001fffc00000e018000070060001d1357000dc3ff80037860c001861e1c00371fff000dc1ff80019c0780000e0e0000ddff3e003fed9740000df000].
Definition hanzi_rows_72 : list N :=
  [0x33ff99800186aea000e39ff00038efe600060c63c00186aea000002fc00000e018000030060000c3b03000c83ff80033060c00186781800300fff000c81bb8001880f80000e000000dfdb3c000ea7860000018000;
   0x33ff19800187fff000e318300038ddf700070c63c001860c00000001c00000e798000070060001cf3ff000c0331800301fff800067040013000e0004c01998001801fc003ce000000dbdf3800070707000ffffff0;
   0x333319800186aea000e398300038e9be00060e634001860c0000aaabc00000ff98000030060000ce3ff003c03bb800f01fff0000603c000f800e0003e0199800f801bc003ff800000dffb3800060606000ffffff0;
   0x333319c0018636c000e3fffc0038e19f00070e63000186dc0001ffffc00001fc1c00007007000dc0070007fc3ff801ff034600006078001ffc6ec007ff1ff801ffc336001ffff0000dfff78000707070000700e00;
   0x3bff1980018636e000e3fffc0038e18e00060e63000186ff8001ffffc0000fe01800003006000fe0030000ffb318003fe666000061e00003ffeee000ffdff8001fff360000ffffc00c3c37800060f060000381c00;
   0x33ff19c00186666000e1d55400386187000706630001877ff0000701c0007fe01c000070070007ff7ff800c7b3180031e676003ff0c000031fce6000c7d99800187d370000e07fc00c7e77c00070fbf00001c7c00;
   0x39b018c00186e66000e186e0003861860006066b0001830ff0000600c00038e00c000030030000fffff800c0fffe00300c36003ffffe000300ce6000c01998001800338000e000c00cdb3ee00061dbf80000ef000;
   0x1b7019c00187c67000e1ce7000387fff0007077f0001830c10000700e00030e00e000070030001c1870000c0fffe003004160005ffffc00301ce7000c01998001800310000e000000d9bf4600071ddfe00007c000;
   0x1bff98c00183062000e0dc3800387ffe0006072b0001838c00000600600000e00e000030038000c0030000c03018003000060000600bc003008e3800c01988001800300000e000000c98b07000600e0e0003ff800;
   0x1e5f18c00183878000e0f83c00387000000703030001818c00000700700000e00700007001c001c0070000c0301800301ffe000060000003000e0000c01d8c001800300000e000000c18703807ff0700007fc7fc0;
   0x1e0018e00181878000e0701c0038380000060383000181cc00000600380000e00700003001c000c0030000c03e1800301ffe000060000003000fc000c01f8c001800300000e000000fc0301003ff030000fe00ff0;
   0x1e0018400181010000e0700800383000000701000001808c00000700100000e003000070018001c0070000c01c180030000000006000000300078000c01c04001800300000e0000007c07000000002000070001f0;
   0x0;
   0x0;
   0x0;
   0x0;
   0x0;
   0x0;
   0x0;
   0x0;
   0x0;
   0x100c00000c0700000701800000c070000070180000180600000701800001c0600000601000001c0600000c03000001c0600000701c0000070000000e0300001c006000001c000;
   0x180c00000e0600000303800000c0e0000070380000180e00000703800000c0e00000603800001c0e00000e03000001c0e0000070380000060000000e0300000c00e0000018000;
   0x7fffe000fff3fe001fffff800555c180000060e0005570300015560c00000707000001c1c00000707000000c0c00000707000001c1c00000607000001c0c000007030001fffffc000060700001c01c0000038000;
   0x7fffe000fff3fe001fffff800fffc38003ffe0c000fff830003ffe0c000fff870002aac18000fff870002aae1c000aab07000000e1c000006060003ffe0c000fff070001fffff8000060600001e0180000038000;
   0x7000e00006030600000700000fffeff003fff7fc00ffffff003fff7fc00fff975003ffcffc00fff975003ffe5d401fff7ff003fffffc00fff7ff003ffeffc01fff975001fffffc00fff7ff0003f1ffc005575550;
   0x6000e000062306000007000002086ff000003ffc00030fff000063ffc00001bff803ffeffc00001bff003fffffe00ffffff003ffeffc00fffbff000007ffc00001bff8000c038000fffbff000371ffc00ffffff0;
   0x7000e0000663fe0000070000031875d000e1dffc007fffff0000e1d74000edfff800037ffc00001fff000043ffc00001fff0001c7ffc00203fff00060757400001fff8000e070000053fff000739ffc00ffffff0;
   0x6000e0000663fe000003000001b060c002eaec30007ffe0c001fff830000ece0c000033060007ffe0c0000cf83000001c180000c386000781c18000f83830002aac0c000aeaea800061c18000e1c060000003800;
   0x7000e00006735600000700000ffe60c003fff8700057d01c001fff030004ec41c00003b070007ffe1c0001cd87000fffc1c0001c1070007fde1c0007fdc70007ffe0c001fffffc00471c1c001c1e070000003800;
   0x6000e00006330600000300000ffec0c002eae030000f800c00023803000eec80c001ff80600060180c0000ce03000fff818003fff0700007f81800007f030007ff40c001aaaab8007e3c1800780f070000003800;
   0x7000e000073306003fffffc00070cfc000e1c7f0003df1fc00071c7f0006eddfc001ffcff0006019fc001ffe7f000e303fc007fffff0000773fc0000667f00071f1fc00180701c007f73fc003027ff0000003800;
   0x7fffe000fffbae003fffffc0067c0fc000ffc7f000707dfc000fae3f0007ed9fc0000cefe0006ab9fc001ffe7f0006303f80000c0ff0004633f80018607f0006331fc001806018006fb3fc0000e0ff0001fff800;
   0x7fffe000fff3fe00001f8000074efcc000ffc73001ffffcc001fff330003ef18c0001c7e70007ff98c0001c76300073119c0001c067000e6731c001ffc6300077718c00155f5540067f39c0001f0c70001fff800;
   0x6aaae0000302ae00000f800003f0fcc000e0c63000ffff8c00182e330001ef18c0000c4e300000198c0000c3e300023338c003ffee3000763398000fff6300066318c003fffffc0066fb8c0003c0c30001801800;
   0x7000e00007000600001dc00001fcccc000ffc730017555cc000000330000ed18c0015d4e700001d98c0001c16300057319c003ffe670003e731c00007f6300175758c003fffffc00677f9c000300c70001c01c00;
   0x6000e00007818600000dc00003ceccc000ffc6300030018c000666330003ee18c003ffee300060998c001ffe630007f318c0030c6630000e339c00206063000fffd8c000000e0000663b8c000000e30001801c00;
   0x7000e00007818600001dc00007f0ccc000e1c7300073f9cc000666330007ef18c003fff630007dd98c001ffe630007f318c0031c6630000c739c003fe063001fffd8c0000006000067738c000000c30001c01c00;
   0x6000e00007838600000ce0000eb8cce002eaee380033b98e00066633800eefd8c0001c0e30001e998c0000c06380003318c0030c6630000c338c003fffe380060318e0007ffe00007e338c000000e30001c00e00;
   0x7000e00007c38600701c70000ddfc46003ffff18007319c600066631800ceed8e0003e06300007d98e0001c06180003798c0031c6630001c718c00007f718007031860007fff00007f718e000018e38001c00e00;
   0x6000e00086e3e600300c380000c2c66002aaab18003318c6000666318000e65860003606380000998e0000c06180003798e0030c66380038318e001060218006031860003003800006318e000078e38000c00700;
   0x7555e000c6777e00301c3c0000f1c670007387180073f9c600666731c004e71c600077061800c1ddc60001c07180003f9860031c66180037718600706071c007039c70007003c001c571860001f0618000c00780;
   0x7fffe00086723e00300c1e000023e63000e1c3180032b8c700266338c008e3186000e3861800c08d86002aeae1c0003d986003ec66180077f18600306031c006039870003001e0008031860003c061c000e003c0;
   0x7fffe000fe380f003ffc0fc01fff77f001c0e35c007018d70076639cc01dc3dff003c1e7dc00d5cdf7007fffffc01ffddd7001fc67fc01e1f1d7003fe035c00701dfb0003840fc01c071c70007807dc000ff81e0;
   0x6000e000fe1c02001ff803c00ffe37b803807bee003e00fb803e61dee00fc1ef380380f3ce00ff8ef3002aaabce00ff0ff38000c03ce00e039f3803fe03ee003c0ef38003f803e00ffe1f38006003ce0007f00f0;
   0x7000e00050180000055001c005501110010031c4003e00710014008e4007c0c5100100314400550452000000144005404f10001c0144004010f10015401c4003c0c510001f801c007fe0f10000001440003f0060;
   0x0;
   0x0;
   0x0;
   0x0;
   0x0;
   0x0;
   0x0;
   0x0;
   0x0;
   0x600000001c000000000000000000000000000000004000000180000000000000000000000000000000000000000000000000000e00000000060000001c00000000000000001c000000000000000000;
   0xffffe00000600000000c000001ffff8000000000001aaa000000e0000001800000007fffe000aaa8000007fffe000aaa8000007fffe000000e00000000060000000e00007fffe00008000c000000038000aaaa00;
   0xfffff0000071ff00000c7fc001ffff8003fffffc003ffe7f0000c03fc001801ff0007fffe000fffdff0007fffe000fffdff0007ffff000000600001ffc060000000e00007ffff0001ff01c001fffc38000ffff00;
   0xe00060000030fe00000e3f800180018003fffbf8001ffe7e0001c03f8001801fe00060006000fffdfe00060006000fffcfe0006000600002aeaa001ffc060000000600006aaae0000ffffc000fffc38000ffff00;
   0xe0007000fff9c7003ffe71c001800180000e071c000f0067003fff31c001801d7000700060000381c7000600060000301c70006000700007fffe001c1c06000fffff000060007000005ffc001c00c38000c00300;
   0xffffe000fff886003ffe318001ffff80000e031800078062003fff31800baa9860006aaae0000381860007fffe0000300860007fffe00007fffe001c0cae800fffff00006000600060000c000c00c38000c00300;
   0xfffff000fffdc70015f771c001ffff80000e071c0001c06700155731c01fffd860007fffe0000381c70007fffe0000301c70007ffff000470700001c1cffc00e000380007ffff00070001c001c00c38000c00300;
   0xe0006000e00e860000e3318001800180000e03180000f06200000331800fffd860006aaae0000381860006000600003008600060006000c60380001c0cffc00e000180007fffe00070001c000c00c38000c00300;
   0xe0007000e00fc70000e3f1c001800180000e071c00557c6700000731c00180187000700060000381c7000600060000301c700060007001c701c0001c1cc6000e0555c000600070003ffffc001c00c38000d55700].
Definition hanzi_rows_73 : list N :=
  [0xffffe000e027860000e1b18001ffff80000e031800fffe6200000331800180186000600060000381ae0007fffe0000300860007fffe000c601e0001ffcc6000e07fee000600060001ffff8000c00c38000ffff00;
   0xfffff000e077ff0000e1ffc001ffff80000e07fc00fffc7f0000073fc001839ff0007fffe001ffffff0007fffe0005755ff0007ffff000ff00fc001ffcc6000e07ff700075557000000000001c00c38000ffff00;
   0x80000e0e0fe0000e03f800000c00001fff3f800cce07e0000033f8001831fe0007fffe000fffffe00000000000fffefe00000080000fe003f001eacc6000e060678007fffe000000000000fffc38000c00300;
   0x1ffdf0000e1c1c70055f571c00001c00001fff71c00cc606700000731c0018718700000600001ffffc700155555001ffffc7000001c000000001f001c1cc60006060730007ffff0001ffff8001fffc38000c00300;
   0x1ffcff000e38086003fffb1800ffffff000aea31800ce30620000033180018e18600000600000038186001fffff8000300860000abaa8001ffff8001c0cc6000e06060000006000001ffff8000c00c38000c00300;
   0x1d5c1f0006d01c7007ffff1c00ffffff0000e071c00c6386700000331c0019c187000406000000381c7001fffff8000301c70001ffff8001ffff8001c1cc7000607ff0000006000001d5558001c00c38000c00300;
   0x180c03000ee00860000e0318000700e00000e031800e318620000033180019c186000c0603000038186000006000000300860001ffff800180038001c0cc6000607fe000000600000180018000c00c38000c00300;
   0x1c1c030006781c70000e071c000781e00000e071c00e31e6700000331c00198187000c06030000381c7000006000000301c70001c1c00001c0038001d5cc7000606070007fffffc00180018001c00c38000ffff00;
   0x180c0300063e0ae0000e0318000383c00000e031800638f6a000003b1800180186000c06030000381ae003fffffc00030086000180c00001aaab8001ffcc3000606060003fffffc001ffff8000c00c38000ffff00;
   0x1c1c0300060f9ff0000e07fc0001e7800000e07fc0061c67f000003bfc001801ff000c06030000381ff003fffffc000301ff0011c0e00001ffff8001ffcc3000606070007fffffc001ffff8001c00c38000000000;
   0x180de3000603efe0000e03f80000fe000000e03f80060e07e000003bf8001801fe000c06030000381fe002aaeaa8000300fe007180e0000180038003000c3800607fe000000600000180018000c00c38000000000;
   0x1c1dff800701c070000e001c00007e000000e001c00707007000001c1c00180007000c0603000038007000006000000300070071c0780001c0038003000c3800707ff000000600000180018001d55c38000000000;
   0x1f8c3f8007000060000e00180003ff800000e001800303802000001c1800180006000eaeab000038006000006000000300060031803e000180038003000c180070006000000600000180018000fffc3800aaaaaa0;
   0xf9c038007040000000e0000007fc7fd007fffc0000381c00000001c00001fc000000fffff00003d00000000600000030000003fc01f8001ffff8003fffc1c00704050000006000001ffff8001fffc3800ffffff0;
   0xc000003f80000000e000000ff00ff003fffc00003f0e00000000e00001fc000000fffff00003f00000000600000030000003f8007c001ffff8001fff80e003fc000000006000001ffff8000c00c3800ffffff0;
   0x1c000001f80000000e000000700007000000000001f06000000004000007c000000c000000001f0000000060000003000000150001c001c0038000000004001fc00000000600000180018001c00c38000000000;
   0x0;
   0x0;
   0x0;
   0x0;
   0x0;
   0x0;
   0x0;
   0x0;
   0x0;
   0x600000001c0000000e00000000000000007018000000000000c00000000381c00000000000000300000070000000000000000000000000000000000400000001c00000000000000000000000000000000000000;
   0x60000000180000000e0000001ffff8000060180001ffff8001f80000000381c00007fffe0000038000007ffa0000fff0000003fffc0001ffff8000060000000380000007fffe0003ffffc001c00000001ffff80;
   0xf03fc000380ff0000e03fc001ffff80000715c0001ffff8001ffc7fc000381c00007fffe0000018ff0001fffe000fff3ff0003fffc0001ffff80000e07fc000700ff0007ffff0003ffffc003ffc7fc001ffff80;
   0xf83f8000300fe0000e03f8001800180001e3fe0001800180001fe7f8007ffffe0006000e0000018fe00000cbe000eab3fe0003000c0001800180000c03f8000700fe0006000600038001c0003ff3f8001800180;
   0x1dc31c01ffffc7001fff31c001800180007f3ff0001c001800001e71c007ffffe0007000e000001cd700000c06000e033870003000c0001800180015d571c005750c70006000700038001c00001771c001800180;
   0x38e31800fffec2001fff318001ffff8000f63870001ffff800000e618002babea0006000e000fffcc200000c06000e033860003fffc0001ffff8003fffa1800fff8c60007fffe0003ffffc000003308001ffff80;
   0xf0f31c01ffffc7001df731c001ffff8001e71cf8001ffff800000e71c000381c00007fffe000fffcc7003ffffe000e033870003fffc0001ffff8007ffff1c00fff8c70007ffff0003ffffc00000371c001ffff80;
   0x3e03b180000c0c20018e331800180018001861cdc0018001800000e618000381c00006aaae000eceec2003ffffe000e033860003000c00018001800003821800e018c60006000600038001c000003308001800180;
   0x7ce1f1c0010e0c70018e731c00180018000870fc8001d555800155e71c0057d5d50007000e000ce66c700003806000fff3d70003000c0001ffff800001871c00e018c70006000700038001c001fff71c001ffff80;
   0x3070b18003860c20018e3318001ffff8000060f80001ffff8003ffe61800ffffff0006000e000ee67c200107006000fff3fe0003fffc0001ffff800001821800e018c60007fffe0003ffffc001fff308001ffff80;
   0x3c3f8001c70ff0018e73fc001ffff8000071f8000155550003ffe7fc00ffffff0007fffe000e673ff0030f3c6000e033ff0003fffc0000000000015587fc00e018ff0007ffff0003ffffc001fff7fc000000000;
   0x10e3f8000c38fe0018e33f800001870003ffffe00000000000030e7f8000000000007fffe000e633fe0033e3ff000e0338600000000000000000001ff83f800e018fe0000c78000000000000181b3f8000000000;
   0x387b1c000fdcc700186731c00001870003fff1f0003ffffc00070671c00000000000000700006731c7003fc07f000e03387000000000007ffffe001ff871c00fff8c70001cffc000006018001c1b71c00fffffe0;
   0x1833180007fec2007ffff18002abab8002aa003e003ffff8000306618000ffff0000000380006338c2001e0003000e03386000fffff0003ffffe001c1821800fff8c60000c0ff800206018000c3bb0800fffffe0;
   0x1e031c0007fcc7007ffff1c003ffffc00055555c0000000000070671c000ffff0001ffffc000631cc70007fffe000fff387001fffff000001c00001c1c71c00e01cc70001c077000786018000e33f1c0000300e0;
   0x870318000380c20000e0318002abaae0007fffe000000000000306618000c0030001ffffe000639cc20003fffe000fffb86000c0003000001c00001c1821800a018c60000c0600003e6ff8000633b080000300e0;
   0x1c3c31c0019c0c70001f031c0000180f0007fffe000ffffff00070671c000c0030001c71c7000618ec70007000e000f57bff001c0003000ffffff001c1c71c00001cc7003fffffc001feff8000771f1c0000780e0;
   0xe0f3b80018e0c20001b0318000018060006000e000ffffff000306618000ffff0000c71c3c006186ea0003000e000e03bfe000fffff000ffffff000c0c21800001cc6003fffffc0003e0180003e1b080000780e0;
   0x7073fc003870ff0001b83fc001ffff80007fffe0000103c00007077fc000ffff0001c30e1c0061c7ff0007fffe000e01c07001fffff000007e00001c0c7fc00001cff0001c0700000060180001c1ffc0000fc0e0;
   0x3803f8003038fe0003b83f8001ffff80007fffe0000381c00003037f8000c0030000c387000060e3fe0003fffe000e01c06000c0003000006700000c0e3f800000cfe0000c030000c060180001c1bf80001cc0e0;
   0x1e001c00701c0700071c01c000018000006000e0000700f000070301c000c0030000c1c780007071070007000e000e01c05001c000300001e780000c0701c00000e070001c038001c060180007f1c1c0003ce060;
   0xf801800fffe02000e0e018000018000006000e0000e8078000303818000c0030000e0e1c0003070020003000e000e00e00000c000300003c3e0000c0301800000e060000c03c000c06fb8000f78c08000f07860;
   0x7f00000fffe00001c07c0000ffffff0007fffe0001ffffc000703800000ffff0000e0f0f0003038000007fffe000f40700001fffff0007f01fc000f63800000007000001c01f000fffffe001e3ee00007e03c70;
   0xf80000c00e00003803e0000ffffff0007fffe0003afffc000301800000ffff00007e7860003f1c000003fffe000fe0380000fffff000fe003f000fe1c00000003000000c007800ffe0fc003c0f60000f800fb8;
   0x380000400000003000c00000000000006000e00070001c000701000000c00300007e3000001f08000007000e0007e0100001c00030007000070007c0800000002000001c001000150004003006600007000730;
   0x0;
   0x0;
   0x0;
   0x0;
   0x0;
   0x0;
   0x0;
   0x0;
   0x0;
   0x1c000000000000000000000000001000000000000000000000060000000000000000000000000000000001c0000000000000001c00000018000000007000000100000;
   0x2aaa800003ffffc0007fffe0001ffff8000198000003ffff80007fffe000000078003fff000001ffff8000066000001ffff80007fffe000fffe0000000c000001ffff800001c00000018000000007000000380000;
   0x3fffbfc003ffffc0007fffe0001ffff800079c3fc003ffff80007fffe0005541f0003fff3fc001ffff80000663fc001ffffc0007fffe0007fffff00000e3fc001ffff800001c7fc000180ff001fffff80003c0ff0;
   0x3fffbf80038000c00060006000180018000e183f800380018000600060007f83c0003aab3f8001800180000663f800180018000600060006aebfe00000e3f80018001800000c7f8000180fe000fffff80007c0fe0;
   0x3180038001c00070006000180018001c1c31c003800180007fffe0007fc30000380331c001ffff800006735c0018001c0006000600060c1c7003fff31c001ffff8007ffe71c007ffec70000030000006e0c70].
Definition hanzi_rows_74 : list N :=
  [0x308003ffffc0007fffe000180018000018318003800180007fffe000608000003803308001ffff8001fff318001ffff80007fffe00060e186003fff308001ffff8003ffe618007ffec6000003800000c60c20;
   0xfff31c003ffffc000755560001ffff8003ffff1c003ffff80006000600061c1fe00380331c00180018001fff31c001ffffc0007fffe0006061c7003fff31c001d5558007fff71c007ffec7000fffff0001c70c70;
   0xfff3080038000c000600060001ffff8003fffb18003ffff80006aaae0006081fe003fff30800180018000063b180018001800060006000606186003803b0800180018000033618000180c6000fffff0003838c20;
   0xc0731c003d555c000755560001800180015dd71c0003801c0007fffe00061c180003fff31c001ffff8000063b1c0018001c0007fffe0006071c7003801f1c001ffff8000073f1c000180c7000001c000071dcc70;
   0xc073f8003ffffc0007fffe0001800180000cc3180003001c000000000006ab380000003308001ffff8000061b18001ffff80007fffe0006039860038aaf08001ffff8000033e18000180c6000000e0001e18fc20;
   0xc073fc003ffffc000555540001ffff80019dc3fc000f555c003fffffc007ff3800000333fc00000300000061ffc001ffffc000555540007f1dff0038ffffc0003c3c0003ff1ffc000180ff003fffffc00c386ff0;
   0xc0730800181838000c38c30001ffff80018cc3f8001ffffe003fffffc006abbbf0000333f8002aa7f80000603f800000800000000000003e0ffe0038eb3f8000f00e0003ff07f800fffefe003fffffc000300fe0;
   0xfff31c001c1870000e38c7000000000001dcc31c007f557e0000070000061dfbf00183331c007fe1fc007ffff1c00001c00003fffffc000007c70018c331c001f407800007071c00ffffc70001c0780003ffcc60;
   0xfff308000e1860000738ce00000c300000ccc31800f60037000006000006087b8003e33308007ae60c003fffb1800003800003fffffc000001860038c3308003ffffe0000306180003c0c60003aabc0007ffcc20;
   0xc0731c000718e00003f8dc00070c30c000fce31c0047fff7800fffff00061c798000f3331c0070670c0055f571c007ffffe000006040007ffdc70018c331c007ffffc00007071c0007c0c70007fffe0007ffcc70;
   0xc0730800ffffff0000b8c800038c30c0006ce3180007fff2000fffff000608f980003f3b080070660c0000e0318007ffffe000006180007ffd860018c3308002380c0000030618000fe0c6000faabf8003800c20;
   0xc0731c00ffffff0000f8f000018c3180007c631c00060070000c0f030007fcd9c0001f3b1c0070670c0001f031c000200400005561c000601dc70018d731c000381c0003ff071c000df0c7007d801fc001c00c70;
   0xfff3f80000c3800003f8fe0000cc3380003c731800060030000c3f830007f9d8c000033b080070678c0001f0318000600e0000ffe0c000600d860018ff30800abaaea003ff0618001db8c600398019c000c00ea0;
   0xfff3fc0000c180001f38dfc000ec3700001c73fc0007fff0000c79c300055798c000031bfc007067fe0001b83fc000700c0000ffe1e000601dff0018ff3fc00ffffff0000707fc00399cff0001fff84000e20ff0;
   0x80000c180000e38e3c0006c3600020e3bf80007fff0000ce0f300000718e002031bf8007063fe0003983f8000381c00000063e000600dfe0018033f800abaaea0000307f800399cfe0001aab80000770fe0;
   0x1c01c0c1c00018387040000c3000071f9c1c00000000000dc07f00001e187007031c1c007e638e00071c01c000181c000000677000601c07001c0301c000380e000007001c00718f070001801800003f0070;
   0xc0c0e000303838000aaebaa8030ddc1800000000000c801b0000fc183803030c08003e61c0000e0f0180001c180000006f38006aac06001c00008000380f000003001800e187860001801800003c0020;
   0x7fffe0000d5c07c003ff81f001ffffff803fccf00007fffff000c0003001ff0181003ff0e00000061f0003c07c0001ffffff007fffe3c007ffc00001d400000003807c00007000000c183800001fff80000780000;
   0x3fffe0000ffc03f003ff00fc00ffffff803f80700007fffff000fc003000f801f0003ff06000000603e003803e0000ffffff003fff81e007ffc00000fe00000003801f000030000000180000001fff80000e00000;
   0x7fc00700154001800000000000000300000000000007c0030004001f0001fc04000000601e003000c000000000000155000c00601c000007c00000003800600007000000018000000180180000400000;
   0x0;
   0x0;
   0x0;
   0x0;
   0x0;
   0x0;
   0x0;
   0x0;
   0x0;
   0x3000000000000003000700006e000000000000000c010000000600000007000000018000000000000000000000001dc000000070000000000000001800000000000000038000000000000000000000;
   0x7fffe000003800003fff800007e0030000ee0000003ffff8000e0f8000000600000023800000018000002aaa800001ffff80000cc00000003000003fff80000038000000ffffe000018000001fffff800aaaa000;
   0x7fffe0000018ff003fffffc001ff070003ce03fc003ffffc0007ff3fc000ff0ff00071c1fc0003c0ff003fffdfc001ffff80019ce3fc004070ff003fffffc000301ff000fffff00001c07f001fffff800fffeff0;
   0x60006000fff8fe0000383fc0000f3ff0000e03f8003800180003f83f8000ff8fe00060c1f80007e0fe003fffdf8001800180038c63f8007fe0fe002bbabf8000300fe000e000600001807e000038c0000fffefe0;
   0x7fffe000fffcc700001831c000037ff003fffffc003ffffc0007fc31c000d5cc7000e0719c001e70c7003811d9c001ffff8001dc731c007fffc700019839c00ffffc7000fffff00001c067000e39c700000e0c70;
   0x7fffe000000cc200001830c00003030003fffb18003ffff8001e3fb0800061cc6001fff9880038b8c2003838d88001aaab8000ec73080020fec200019838800fffec6000ffffe000fffe62000638ce0000ce0c20;
   0x60006000000ec7000fffb1c00fff5700000e031c0038001c001c37f1c00070ec7003fff99c0071dec7003819d9c001d55580007c7b1c0078c0c70015dd39c0001c1c7000e0007000fffe66000739cc0001c70c70;
   0x7fffe0007fffc2000fffb0c00fff3fe0000e031800380018001038b08007fffc600310398800e18fc2000fff988001ffff80003c7b08003cc0c2003fffb880000e0c6000e0006000e006620003b8cc0003838c20;
   0x7fffe0007ffac7000c1c31c001c31ff003fff31c003ffffc00155d71c007fffc700039c198004307c7001fff99c001555500001f7f1c001fc0c7003fffb9c001871c7000fffff000e006670001b9dc000753cc70;
   0x6098c2000e0c30c000c3832003fff318002ebaa8003ffff0800618cc6000f0e188000100c200000c188007ffffe0030feb0800c7c0c2003999b88001c30c6000aaaaa000eaa662003fffffc007ffec20;
   0x3fffff00071d8ff000e1c3fc001c1c700038e33fc001f7000007fffffc00618cff001c071fc007ffeff0000ee1fc007fffff0031d73fc00c7fcff003999bfc001d79ff00000700000efe67f003fffffc00fffeff0;
   0x3fffff0006398fe002eaebfc000c1c300038e33f8001830000000ee3f800618cfe0038139f8003ffefe0000e61f8006006060031c63f800ee7ffe003999bf8000ffcfe001fffff800eee67e002aaaaa800c082fe0;
   0x3000771cc7007ffff1c001c0e7e0038e331c00fffffc0000e731c00618cc7003039d9c001c00c70000e719c00755757003fc731c007c0ec7003999b9c0007fdc7001fffff800ec6667000000000004180c70;
   0x7fffb000ffffc2002aaab0c000c043e003fff31800fffffc000aeb308007ffcc600001c988000e00c2001fff988003ffffe000a06308003000c2003999b8800e380c600180381800ec66620007fffe0000180c20;
   0x7fffb001ffffc700000031c001ffff0003fff31c0038600c001ffff1c007ffcc7001ffe19c000700c7001fff19c001555d400006031c00ffffc7003f9db9c0071c1c7001801c1800ec66670007fffe0000180c70;
   0x300030ccc2000aaa30c001ffff00038e33180018e00c001ffff080006c0c6000fff188000300c20000e0188000030e000006030800ffffc2003f8fb880038f0c6000001c0000ec66620006000e0007ffcc20;
   0x3fffff00071ccc7001fff31c001c00300038e331c001cc7fc0018e7f1c0007c0c700060799c003ffec70000e019c00003070003ffff1c005775c7003807b9c003c7dc7003fffffc00ec66670007000e0007ffcc70;
   0x3fffff000338cea000eab30c001c0030003fff318000ec7fc0018e33080006e0c600070ffa8003ffec20000e01a8003ffff8003ffffa8000670ea003801b88001e1ec6002beafa800efe66a0007fffe0002ba8c20;
   0x1c1c73800330cff001c033fc001ffff0003fff3fc0007c70c0018e73fc000760ff00039cdfc00300eff007fffdfc003ffff00015757fc000670ff003801bfc000f05ff0001c078000efe67f0007fffe0000180ff0;
   0xf3863800fffefe000c033fc001ffff00038e33f80003860e0018e33f8008670fe0001f81f800300efe003fffdf8000030000000603f8000630fe003801bf8000f80fe0000e038000e0667e0006000e0000180fe0;
   0x3f071800fffe07001c0301c001c00300038e301c01c7c706001ce701c01c738070000f001c00300e070000e001c00ffffff00006001c01c6380700380181c001dc00700007ffc000e046070007000e0000180070;
   0x3ec61800300002000c0300c001c00300038e301800c7e3e6001ee300800c61e060003fc00800300e020000e000800fffffe00006000800c63802003fff8080038f80600007f80000e006020006000e0000180020;
   0x7f8ff1c00380000001fff000001ffff00038e300000fe7fe7000ee700000ff0f80001f9fc00003ffe000000e00000000300000006000000d61f00003fff80000707e000007fff0000e006000007fffe001ffff000;
   0x3e03f8c003f0000000fff000001ffff0003ee300000fc3c038000e000000fe03e0003e03e00003ffe000000e00000000300000006000000fe0f8000380180000e00f00003f81ffc00f806000007fffe000ffff000;
   0x100070c001f0000001c03000001c0030001ee3000007008030000e0000005401c0003800e0000300e000000e000000003000000060000007c030000380180000400700001c001f8007806000007000e0000000000;
   0x0;
   0x0;
   0x0;
   0x0;
   0x0;
   0x0;
   0x0;
   0x0;
   0x0;
   0x7000000300000000060000000000000000c0000000000000000018000001c0000010001c00001c000000000070000000000000000000003800000006000000001c0000000000000070060000060000000660000].
Definition hanzi_rows_75 : list N :=
  [0xe0000007ffa00000060000001ffff80008ff80000fefe0000000180000018000001f801c000018000000000070001ffff80001fff8000038000000060000007008000007fffe0000700e0000060000000660000;
   0xe03fc001fffff0000603fc001ffffc001fffbfc00ffff7f003ffd9fc000180ff001fffffc000380ff001ffbff0001ffff80001fffc000fffeff001c61dfc007e1c7f0007fffe0000301c0003fe03fc0006607f0;
   0x3fffbf80070c2fe003fffff8001800180007983fc00c0c67e003ff98f800fffefe00003bffc00fffefe001ffbff80018001800018018000fffefe001c619f8000f087e000600060007ffffe003fe03f80006607e0;
   0x3fffb180071ccc6003ffff5c001ffffc000398b1c00c0c7670000019d800ffffc700003877000fffec6001d5839c001ffff80001801c0000380e7000e7399c00031c670007fffe0007ffffe00156031c007ffe770;
   0xe0630800398cc2000060318001ffff800339df0c00c0c662000003a8800c006c2000038338000000c600181838c001aaab80001fff80002ba8e2000673188000308620007fffe00008e310000060308007ffe620;
   0xe0c31c00199cc700006031c001c001c003f0fb1c00c0c767001ff7fdc00c007c7003fffffc000000c7001c1bffc001800180001fffc0007ffce700077719c00037fe7000700060001ce718001fff31c007666670;
   0x60c30800fffec2001fffb18001ffff8000f0e30c00c0c662001ff7e8800fffec2003fffff8003ffcc600181bffc001ffff8000180180000380e20001fa18800037fe20007fffe0000ce338001fffb08006666620;
   0x71c31c00ffffc7001fffb1c003ffffc000e0731c00ffff67001835fdc003ffcc7000638700007ffcc7001c195d4001555500001801c00057d4e70007fc19800031c670007fffe0000ce770001d57b1c007666670;
   0x3fffb08000030c2001a61b1800700600001e03b0c00fefe6200183de88000000c200061830000300cc60018183c0000180600001fff8000fffee2000f1e18800ff0c620000070000006e330001803b08006666620;
   0x7fffffc000030ff001f65bfc003ffffc003fffffc0000077e001835ffc003ffcff00061fff400701cff001ff9fe00003dff00001fffc001ffffff001e0fdfc01ff1c7f003fffffc00ffffff001fffbfc007ffe7f0;
   0x3f800fffffe001b6dbf8000ffffc003ffeffc0000067e001831af8003ffcfe00061affc00300cfe001ffbcf0000f8ff8000000000000000fe003863df800333e7e003fffffc00ffffff001fffbf8007ffe7e0;
   0x31c00ffffc700196db1c0007c60000106071c00ff7f67001ff1bdc00355cc700061c71c00701cc700000187c003dc63e000000000007ffce700107019c00337e6700000000000000000001d57b1c007666670;
   0x1fff308000038c2001969b1800ffffff00006030c00ff7e62001ab188800300cc200060c300003ffcc600000001c00318777001ff9ff8007ffce200086098800336e620003fffc0000aaaa8001803b08006666620;
   0x1fff31c001558c7001fffb1c00ffffff00006031c006757670018319dc00355cc7000555540007ffcc70007fffc00001c3e2001ff9ff800701ce7001c71d9c00335f670007fffc0001ffff8001fffb1c007666670;
   0x1803308003ff8c2001fffb1800003f80001ffff0c00660662001831888003ffcc20007fffe0000380c60003aaac000ffffe0001819818006aace2000c7198800330b620003000c0000eaab8001fffb08006666620;
   0x1c0731c00357cc70001f831c001ffff0001ffff1c007607670018319dc00355cc70007fffe0001398c70007000c0007ffc7c001819c18007ffce7000e7399c00331fe70007000c0001c003800157531c01ffff670;
   0x1aab30800383cc20003fc318001ffffe0000f030c003eae62001ff188800300cea000600060003b98c60003000c00000001f001ff9ff800600cea0006731a8003389e20003fffc0000c003800006030800ffff6a0;
   0x1fff3fc001c7cff00076e3fc0018007f0001f83fc003cff7f001ff19fc00355cff0007fffe000739cff0007fffc0001ffff7001ff9ff800701cff0007ff1fc00319dff0007fffc0001ffff8007fffffc0155557f0;
   0x18033f8000eeefe000e673f8001aaae20003b83fc001cae7e0000018f8003ffcfe0007fffe000638efe0003fffc0000ffff0001819818007ffcfe0000f81f80031887e000006000000ffff8003fffff8000e307e0;
   0x1c0701c0007c707001c63c1c001ffff000071c01c001c070700000181c0015540700070006000638e070007000c0001c0030001819c18007ffc070001dc01c00319c070001e67c0001c003800557541c001c38070;
   0x1803008000f8702007861e1800180060000e0e00c003e06020000018080000000200060006000e387060003000c0000c003000181981800600c0200078e008003188020007861e0000c003800006000800381c020;
   0x1fff000007ff3c0003060600001ffff0001c0780000778700007ffd80001ffff000007fffe000c3d3000007fffc0001ffff0001ff9ff800701c00001f07c000030dc00001f0607c001ffff800006000000700f000;
   0x1fff00000f8fde0000060000001fffe0003803e0000e3c600003ffd80000ffff000007fffe00001f0000003fffc0000ffff0001ff9ff8007c0c00003e03e000030e800003807e3c000ffff800006000000e007800;
   0x1c0700000e01cc000006000000180070001000c000040c700000001800015555000007000600001f0000007000c0001c0030001819c18003c1c0000100060000305c00001007c00001c0038000060000004003000;
   0x0;
   0x0;
   0x0;
   0x0;
   0x0;
   0x0;
   0x0;
   0x0;
   0x0;
   0x60700000000000000000000003000000000000000000000000007000000018000000303000000000000001c1000001c38000000000000001c0000000e070000000000000c00000000000000;
   0x1ffff8000706000003ffe00003fff800007ffa00003fff800007fe3fe00006000000018000000303000003fff020000c3800000c38000007fffe0000180000000e030000fff7fe001ffe80000fffe000;
   0x18001800030e1fc007ffe7f003fffdfc0017ff7f003fffffc007573fe003fffdfc00ffffff0003071fc007fff070000c31fc01ffffff0007fffe000fffe7f003fffffc00fff7fe0007ffdfc00ffffff0;
   0xfffff0001ffff8001fffdf80030067e0039b19f80001807e003999bf800702306003fffdf800fffffe0003bfef80030030e0000c61f800ffffff00060006000fffe7e003fffffc0006660e001c301f800c006fe0;
   0xfffff0001d5558001fffd9c007ffe67003bb399c00ffffe7003999f9c007ff35600060619c000180c70001fffd8007fff1c003ff759c001c38e70007fffe0001c38670000e0700000667fe000c7319800c007c70;
   0xc00030001ffff8000060188003aae62003f3718800ffffe2003fffb88007aa3fe00070e188007ffec2002b80088003aab38003ffff88000eb8e30007fffe0000c30620007fffe0000626ae000e6318800eaaec20;
   0xc00030001ffff8001fff99c00700667003e3e19c0001c067003ffff9c0075735600175d59c007ffec7007f9fddc00700710000075d9c001ff8e700060006001ffff670007fffe000fff60e00076719c007ffcc70;
   0xc0003000ffffff000060188003ffe62003f3f188007ffe62001818388007ff306003fffd88000000c2003f9fc88003fff00000031988000180e30007fffe000ffff620006000e000aeb7fe003fffd8800300cc20;
   0xc0003000ffffff007ffff9c005d7467003bf3d9c007ffe67001fffb9c00703bfe007fffd9c003ffcc70019d8ddc00555d00003ff199c007ffee70007fffe0000000670007fffe0000f055e003fffd9c00701cc70;
   0xc00030002aa2a8003ffff88000c30620038f2d8800699e62000fffba800701ffe000000188003ffcc20019d8c8800038e2a003fe1988007ffee3000060600002aaa620006aaae0000f838e00301cd88003ffcc20;
   0xc00030003fe7fc0007dd1fc00ffff7f0000ce1fc006db67f00075d3fc007c1c00001fff9fc00300cff0019dfdfc007fff3f00374f9fc00718eff001fffff8007ffe7f0007000e001cdc70e00301cdfc007ffcff0;
   0xcaaab00030660c001dbfdf800aeba7e0000c61f80067a67e0003983f8003c38000018619f8003aacfe0019ffcf8007fff3f00320f9f800618eff001fffff800600e7e0007fffe0008ce7fe001fff9f800300cfe0;
   0xcffff0003fe7fc0019c619c000c3067003fff19c007ffe67007ffff9c007ffffe00186199c003ffcc70019401dc000387f800374d99c007ffee700006070000755e67000555d4000fc7e7f001fff99c00701cc70;
   0xcffff000018180003ffff8800ffff62003fff988007ffe62003ffff88007ffffe001fff988001818c2000b3fe88007ffff800026c988007ffee3000060600007ffe62002aaaea80028300200000c188003ffcc20;
   0xc00030007ffffe0055df59c00ffff670001c3d9c0055d46700007839c0071c30e001d7599c001c38c7001f1ffdc007ffef800076dd9c000180e7003fffffc00700e67003fffffc001ffff800000e19c007ffcc70;
   0xc00030000181800031bf98800189862000aebd8800fffe62000abe3880067e3ce001861988000c30c2000f0e08800038638003e6c98800fffee3003fffffc00600e62002aeaba8001ffff8000ffe188000180c20;
   0xc00030003ffffc0019b6f9c00718e67001ffff9c0055d567001ffff9c001f01f8001fff99c01ffffc7000f071dc007ffe38003f6cd9c00fffee70001c63c0007ffe670003c01c0001c0038000ffe19c0057d5c70;
   0xc00030000181800019aeba800e98fea0000c35a80001806a000c07fa80078003e000aea9a800aaaac200063e0a8002bae3800026cda8000180e3000f863e0002baa62000ffffe0001ffff8000e0e1a800ffffea0;
   0xc0003000ffffff001f7fffc00dd9dff0015d71fc01ffffff001c06ffc0027fffc0000601fc007ffcff00077fffc0003863800076cdfc01ffffff007fc677c0001807f007f555fc001ffff800071f1fc01ffffff0;
   0xc0003000babfaa000f019f8000fb07e001fff1f800fffffe000ffe2a80007ffe0001fff9f8003ffcfe000f0fef800fffe380002ecdf800ffffff0038e663c00ffff7e003b001dc001800380003bb9f8000830fe0;
   0xfffff0003ef3f000271fc1c0007f0070015d701c003b3707001d5601c00001800001fffc1c00700c07000f8701c00fffe7c0007fc61c0007e007000056e0401ffff070003fffc4001ffff80001f181c001c38070;
   0xfffff00007e0ff80679fc08003fbe020000c300800733302000c060080000180000006000800300c02001d86008000006fe0003bc608000e70030000fef80000180020003001c0001ffff80003e1c0800381c020;
   0xc00030007f3fc70067d800000798f80003fff00000e77380001ffe00000ffffff007fffe0000755c000039e700001ffffc70057b6700007e7c000007c67f0000180000003fffc000ffffff001ffce0000f01f000;
   0xc0003000fc0fe0003cff0000061f300003fff00000c661c0000ffe00000ffffff003fffe00003ffc000070f7c0000ffff83003f3fb0000f80f80000607ef0000180000003fffc000ffffff003e3f60001e007800;
   0x40006000385f0000001f00000000300001c66180001c060000000000000000000000755c00003063c0000155401003c1710000e00700000407c00000180000003001c000555555003c0620000c001000;
   0x0;
   0x0;
   0x0;
   0x0;
   0x0;
   0x0].
Definition hanzi_rows_76 : list N :=
  [0x0;
   0x0;
   0x0;
   0x1c0007010000000018100006600000001c000000300000000000000000000000000000000000600000000000000000000001c0180000700c00000000000000c300000000000000000000000070000000c3000;
   0x1ff0180003039fe000aa1838000660fe00000c3f8000300fe001ffe7f8002aa2a80000007f8000006000002aaa80001ffff8000180180000380c00007fffe00000c3000007fffe000aaaaaa0000070000000c3800;
   0x1ff0380003871fe001ff1c70000660fe00000e3f8004315fe001ffe7f8007fe7fc001fff7f8000007000007fffc0001ffff8001ffdff8000181c00007fffe000ffffff0007fffe000ffffff0000070000000c3800;
   0x1ab3ff800187186001ff0c60000660c600000e3b800630cc600180e638007fe7fc001ffe61800aaabaa0007fffc000180018001ff9ff8002beaa800060006000ffffff0006000e000ffffff000fffff00000c3800;
   0x1833ff8001c61c6001830e6000c666c6003fff31800631dc600180e6380070e70c00000071800ffffff0007001c0001ffff80015d55d0003ffffc0007fffe00000c3000007000e000001800000fffff00000c3800;
   0x1833ab8002ea986001833ffc00e66ec6003fff31800630cc600180e6380060e60c00000061800ffffff0007000c0001ffff80001c0180003abaac0007fffe0003ffffc0007fffe0002abaa8000c07030002aebaa0;
   0x1833818007ffdc6001837ffc00766cc6003d5731800631dc6001d0e6380070e70c000000718000001c00007001c0001c0018003ffdffc003718fc000700060003ffffc0007fffe0003ffffc000c07070007ffffe0;
   0x1ab3818007ff9fe00183018000366cfe003803b1800630cfe001f8e7f8006ae6ac0000007f8000000c00007000c0001aaab8003ffdffc003318cc0007fffe00030c30c0006000e0003abab8000c06030007ffffe0;
   0x1ff3ff8000381fe001ff0180003e7cfe003801ff800631dfe000f0e7f8007fe7fc0000007f8001fffe00007fffc0001ffff80017d55d40031999c0007fffe00030c30c0007555e00030181c000fffff00070c3860;
   0x1ff3ff8000381ae001ff2188001e78ee0038ffff8007ffcee00000e6b8007fe7fc003fffeb8001fffe00007fffc0000000000003e03c00030d98c000000000003ffffc0007fffe000301818000fffff00060c3860;
   0x1833818000381c600183319c000660c60018ff318007ffdc6003ffe6380070e70c007ffff18001ffff00007001c000ffffff000770fe0003ffffc001fffff80035d75c000555740003ffffc000c060700070c3860;
   0x183381800038186001833188000e60c60038c3318000300c6003ffe6380060e60c002bbae18001800f80007000c000ffffff000e3dc70003ffffc001830e180030c30c000000380003ffff8000c060300060c3860;
   0x1833ff800fffdc600183319c001e60c60018c7318000301c6003d7e6180070e70c000318718001c00fc0007000c00055575d007c1c83c00000000001c30e18003ffffc001ffffc00030181c000c0e0700070c3860;
   0x183bff800fffd86001833188003e78c60018c331800a308c600186e6380060e60c000318618001fffee0007000c00000060c003bffffc00000000001fffff8003ffffc001ffffc000301818000fffff0007ffffe0;
   0x1ff155800fffdfe001ff35dc00767cfe0018c73f800e30dfe001c6e7f8007fe7fc00031c7f8001fffe70007fffc0007ff7fc0007fffe0001ffff0001fffff800000000001d555f0003ffffc000fffff0007ffffe0;
   0x1ff8218000381fe001ffbff800e66efe0018c33f800e30cfe000cee7f8007fe7fc0003187f8001800e30007fffe0007ff7fc0003000e0000ffff0000000000000ffff000180e078003ffff800020c030006aebae0;
   0x18387180007c1c600183bffc00c667c60018ff31800e30dc6000cce6180070670c00031c718001c00e00007fffe00070e61c0007000e0001c00300007ffff8001ffff0001c070fc00001c3000071c0700070c3860;
   0x1838e18000fc18600181a180000662c60018ff31800e30cc6000fce6180060660e00030c618001800e00007000e00038c7fc0003000e0000c00300007ffff8000c0030001c1f0ec00001c3000039c0000060c3860;
   0x1818c18000dc1c60018181c0000670c700180731c00e30dc700078e6180070770600031c71c001fffe0000700070001dc7fc0007fffe0001ffff00003c03c0001d5570001c7dce000000e700001f80000070c3860;
   0x1819e18001ce1860018180c0000630c600180331800e30cc200038e6180060760600230c618001fffe0000700070001f860c0003aaae0000eaab00001e0f00000ffff0000cf0ee000000fe00030f80000060c3860;
   0x181dfd8003c71c700181c0e001c638c7001c0031c00e30dc700078e61c0070770600730e71c001c00e0000700070000f1f1c0007000e0001c003000007fe00001c0030001c555e0000007c000707f0000070c3860;
   0x180fbf80038398300180e060008618c3001c0030c00fffcc3000fce60c0060360600230660c001800e0000700038001f9fff0003000e0000c003000003f800000c0030000cfffe000003fe00030ffe00007ffffe0;
   0x1f8d87c00f03dd3001d0607000d61cd3001d6030c00fffdd3001cfe60c007e3fe7007707f4c001d40e00007fc01c007de7ff0007fffe0001ffff00007fffd0001ffff0000cfffe0017ffdfc0035e1ff0007ffffe0;
   0x1f0e01c00e00ef3801f8703800fe0efb800fc03ee00e000fb80387e7ce007e1bc3803f03fce001fc0e00003f800e00f0f6000003fffe0000ffff0003fe0ffc000ffff0000fe000000ffe03f003fc03f8006000060;
   0xf0400000c004f1000f03018007c06790007c01c400c0007100301e7c4001e1941001f01bc4000fc0e00001f800c004036000007000e0001c0030001f0007c001c00300007c000000fc0007001f00078007000060;
   0x0;
   0x0;
   0x0;
   0x0;
   0x0;
   0x0;
   0x0;
   0x0;
   0x0;
   0x1800000c00000000001c0000000700000601c00000000000007018000000070000006000000118000000181800000180000000600000001800000006000001c3000000001830000000600000001c00001c0000;
   0x1800000e00380000000c0000aa0300000600c00003ffc000003018000080030000006380000398000000181800000180000000600000001800000006000000c307e002aa1830007fe060001ff81800008c0fe0;
   0x1c00000700fc007fff9c0001ff0700000601c00003ffc0000070180000c707000000618000079800000018180000018000000060000000180000000600000ffff7e003ff1830007fe060001ff8180001ce0fe0;
   0xffff80003c3e0003fff8c0001ff0300000600c0000300c0000030180000c60300000061c0000e1800000018180000018000000060000000180000000600000ffff66003ab1830006aefff00181bffc001870c60;
   0xffff80001ff800000381c0001830700000601c0000301c0000070180000c70700005575c0001c180000001818000001800001557554003ffffc000006000001c3066003837ffc0060efff001ffbffc003038c60;
   0xeaea800007e00000038ffc001830300000600c0000300c0000033ffc000c6030000ffffe00008180000001818000001800003fffffc003ffffc000006000000c3066003837ffc0060e060001ff8060007ffcc60;
   0x10c0e000001ff00000018ffc001837ff003fffffc000300c0000073ffc001c77ff000ffffe00000180000001bffc00ffffff003fffffc003ffffc00155755400ffff660038318300060e06000181807000fffcc60;
   0x30c07000003e7c0000018ae8001833ff003ffeffc000300e0000032ba8000c77ff00000607000ffffff00001bffc00ffffff00000600000001800003fffffc00ffff7e003ab18300060effe00181806000c02cfe0;
   0x30c0780000f81f800001c1e0001830700035751c0000300700000f03c0001c707000000607800ffffff0000181c00000ff0000000600000001800003fffffc00d5537e003ff1ff0007fefff001ff9070001e70fe0;
   0x30c03e0003e007e0000181e0001830380038600e000ff00380001f03c0001c707800000603800003c000000183c00000db800000060000000180000000f80000dffb6e003ff1ff0007fee06001ff9e60003838ee0;
   0x3fc00fc001c181e00001c3e0001830780030701e000ff1c1f0007f07c0001c70f800000600000007e000000187c00001d9800000060000000180000001f800001550660038318300060ee0700181dff000701cc60;
   0x1f8603c00001800001ffc6f0001830f80038603e0002a180e000f30fe0001831f8003fffffc0000fe00000018fe000039980000fffff800ffffff00003fc00000000660038318300060effe00180e0f800e04ec60;
   0x700800001800001ffcff0001831fc0038707f000001c00001e71df0001c71fc003fffffc0001df00000019df0000399c0001fffff800ffffff000076c0000ffff66003831ff00060efff001f0f01000c0e6c60;
   0x2aaeaa800ffffff001800cf8001833bc0038306f000ffffff003c319b0001833bc003fffffc00039b800000199b0000718e0000aafaa800003e00000066e000000e066003831ff00060ee06000f02000000060c60;
   0x3fffffc00ffffff001801dd80018377e003870ff800ffffff0078719b00018337c00001fc00000799c00000199b0000f187000001fc0000007f000000e670000707c7e003ff1830007fefff001fffff0007ff0fe0;
   0x3fffffc000018000018008d800183a36003830cd800aafeaa0000301b80038323e00003ec00000718e00000181b8000e183800003ec000000fb000001c63800078cf7e003ff1830007feffe000fffff0003ff8fe0;
   0x700000001840001c001dc001838770038381dc0000ff0000007019c003838770000f6f00001e18f000001819c003c183c000076f000001dbc00003861c0001ff367003837ffc0060657400055755000383cc60;
   0xc6380000718e00018000ce001818338038380ce0001db8000003018c003838330001e6780003c187800101818e0078181e0000e6700000399e00007060e0000fb86200383fffe00606060000006000001c3fc60;
   0x1c71c0001e1870001c001c401981c7380381c1cc00079dc000007018c007018730003c63c00078183c00701818e01f7ffff0003c63c0000f18f0001f06070001b9f6700383d55400607fff8007fffe0000e77c70;
   0x3860e0003c1838001c000c001981c3100381c0c4000f18f000003018000701831000f861e000f0180f00301818400e7ffe70007861e0001e1878003c0603c003be363003838e6000607fff8007fffe00007e0c20;
   0x7070f00078181c001c001c001981c7000180e1c0007c1c7c00007018000701c70001f060f800e0180700301818000401800001f060f8007c183e007c0601e00337863003819c70006070600000060000007c0c70;
   0xe0603800e0180f000c000c001980e3000180e0c000f8181f00003018000e01c30003c0603e0000180200301818000001800003c0603e00f8180f80300600c00733e63003819c3800603860000006000000ff0c30;
   0x1c0701800e01807000ffc1c001f80770001c071c000e01c0700007018001e00c7000300601c00001800003ff81800000180000380601c00e0180700000600001e387f3003d1f83c00741c60003fffffc007e7fd30;
   0x7e0000001f820007f80c000f80730001f838c00000180200003018000400c3000000600000001800001ff8180000018000000060000000180000000600000c1f17b803f0d01e007c1c60003fffffc00f81ffb8;
   0x3e0000001f000003f81c000f00270000f811c000001c00000070180004000700000060000000180000000018000001800000006000000018000000060000001f039001f0c00c007c0c6000155555400c007710;
   0x0;
   0x0].
Definition hanzi_rows_77 : list N :=
  [0x0;
   0x0;
   0x0;
   0x0;
   0x0;
   0x0;
   0x0;
   0x6000000007000000001c0000018000000000c0000380700002701c0000c00300000600c000006070000e001c000380070000006000000018000000001c0001000700000000c0000000700008000c0000000700;
   0x6000000003000000000c0000018000000000c000038030000730180000c00300000e00c000006030000e0018000380060000006000000018000000000c0003800600000000c000000030000f800c0000000300;
   0x60000007ff800015551c000001800001fff0c000038070000e701c0000c00300000e00c000007070000e001c000380070000006000000018000000001c0001c0070003fff8c000fffc70001fff0c0007ffc700;
   0x1fffff8000fffc0003fff0c000fffffe001fff0c000038030001c30180000c00300000e00c000003030000e001800038006000000600000ffffff003fff8c0000e0060003fff8c000fffc300000fe0c000fffc300;
   0x1fffff80007fff0003fff1c000ffffff001c000c000038070001c701c0000c00300000e00c000fff070000e001c000380070003fffffc00ffffff007fffdc000078070001d570c0000300700000c40c000fffc700;
   0xaaeaa8000381f80000e0ffc00001800001c007fc000383ff00187018000ffffff0000e0ffc00fffbff000e0018000380060003fffffc0000ff0000030c0c00003c0600018237fc000300300000c0ffe006018300;
   0x7060e00001c3bc0000e0ffc00001800001c007fc000383ff000071ffc00ffffff0000e0ffc00ffffff007fffffc01ffffff00001fc000001dbc000031cffc0001f7ff001c777fc000303ff0000c0ffe00601bff0;
   0x7060c00000ef0e0000e0ae800001800001c002e8000382ba003870ffc00aea8ba0000e02e800e01eba003fffffc00fffbff00003ee00000399e000030cffc00207fff001c662e8000303ff0000c0ae800603bff0;
   0x3861c000007e040000e01c0003ffffc001c001e0007ffc70007ffd1c0000e0078003fff9e000e00e70000e001c0003c0070000076700001f18f000031c1c000701070001ce61e0000300700000c00e0007030780;
   0x3863800000fe000000e03e0003ffffc001c001e000fffc78002fff1e0000e1878003fff9e000e00e78000e001c0003c00f00001e6380003c183c00030c0e0003800f0000cc61e0000300380000c01e0003030780;
   0x1c63800007ffc00000e07e00038181c001d553e000fffcf800007f1e0000618fc0000e03e0006024f8000e001e0003e01f80007c61c001f8181f80031c1e0001c01f8000ece3f0000300780015d53f0003070f80;
   0x8610000ff83fe0000e06e00038180c001fff3e0000380f80000603e0000639bc0000e07e000e071f8000e0c3e0003e03f8000f060e000e3ffe700030c3e0000e03f8000e0c3f000fffef8003fff7f0003871f80;
   0x3fffffc00fe187f0000e0ff00038181c001fff6f0000381fc0000607f0000631bc0000e06f00060f3fc000e1c7f0003f077c007e0607c000ffff000030c7f00007877c00071c6f001fffffc007fff6f0001863fc0;
   0x3fffffc006018070000e0cf00038180c001c076f0000381bc0000e0fb00006333e0000e0ef00061e33c000e38fb0003b876c00380603c0003aaa000030cef00003e76c00071cef8000301bc0000c0ef8001ce73e0;
   0x1f800000018000000e0df8003ffffc0014074d8000381760000e1df8000773360001f04d80063c17e000e71df00039c67c00115554c0001f00000030ddf80001fe7c000398cd8000303fe0000c04d8001cc7760;
   0x3fc00003ffffc0000e00d8003ffffc0000070d8000380360000e09980003e0360001f00d800638036000e709980038e0660003fffc00000380000030c8d800c030660003b80d8000303360000c00d8000ec2360;
   0x76e00003ffffc0000e01dc00007f000000070dc000380770000e09dc0003e0330001f00dc00670077000e609dc0038f0770003fffc000555d5500030e1dc00e000770001f00dc000300770000c00dc0007c0770;
   0xe6700000018000000e00ce0000ff000000070ce000380338000c018e0003c0338003b80ce00600033800e2018e003878638003000c000ffffff00030e0cc007000638000e00cc000300338000c00ce000380330;
   0x1c6380000319c00000e01cc0003dbc00030070c4000380710071c01cc0003c0310007380cc00700073000e001cc00383c738003000c000ffffff0063071ce003c00738000f00c4000300730000c00c4000780718;
   0x3861e0000718e00000e00c0000799e00030070c0000380300061c01840003e03000071c0c000600031000e0018400381c610003000c0000018000063070c4001e00610001f80c0000300310000c00c4000fc0310;
   0xf060f0000e18700000e01c0001f18780070070c0000380700071c01c0000ff030000e1e0c000700070000e001c0003808700003000c0000018000063071c0000f00700007fc0c0000300700000c00c0001ef0700;
   0x3e0607c001c183c003fff8c0007c183e0030070c000abaa30003380180001e7830000e0e0c000300030000e00180003800600003000c0000018000063038c00003c060000f0e0c0000300300000c00c0003878300;
   0x7c0601c0038181e007fffdc001f0181f003fff0c001ffff700037001c0007c3c30003c078c0007d4070000f501c0003d40700003fffc000001800007f01dc00001f070003e07cc0000300700000c00c000f83e700;
   0x100600800101f040000000c000e01802003ffe0c000fffe30003e0018000f00e30003803cc0003f8030000fe0180003f80600003fffc000001f80003f00ec000007c60003c03cc0000300300000c00c000e00e300;
   0x600000001f000000001c000001800000ffc0c000000070001c001c0004006300030018c0001f80700007e01c0001f80700003000c000000f80001e00dc000001870001000cc0000300700000c00c000c006700;
   0x0;
   0x0;
   0x0;
   0x0;
   0x0;
   0x0;
   0x0;
   0x0;
   0x0;
   0xc000070c380000000c0000070300000000c0000000300000000c0000000300000000e00000003800001c0c000001800000000000000018000000000c00000e0300000e01c0000000380000000e0000100300;
   0xc000060c380000000c0000030300000000c0007800300003180c0007ff830000aaa8e00000003800000c0c0000018000007fffe0000018000000000c00000c0300000e00c0000000380003ff8e0000380300;
   0x3fff0c000070c38003fff8c0000030300007ff8c0007ffc3000071c0c0007ffc30001fff8e000fffc3800000c0c0000018000007fffe000001800007fff8c00001c0300000e01c0003ffe38000fffce0000380300;
   0x3fff0c000060c38003fff8c0000038300003ff8c0000ffc3000071c0c000380030001fff8e000fffc3800000e0c00000180000060006000001800003fff8c0000180300000e00c0003ffe380003aa8e0000700300;
   0x15d50c000070c3800060c0c000fff83000030c0c000005c3000071c0c0001c2030001c300e000e30c38003ffe0c000ffffff00060006000ffffff0055d50c0000180300004e41c0001800380001c00e0000600300;
   0xc07fc00060dff00060c0c000fff9ff00030c7fc00000dff00060c0c0000ee1ff0008387fc00e30dff003ffe7fc00ffffff0007fffe000fffffe0001c00c000fffe30000eecffc001819ff0000e07fc000003ff0;
   0xc07fc00470dff00060c7fc00fffdff00030c7fc00000dff000e0e7fc0007e1ff001c307fc00e30dff003fff7fc0000ff000007fffe000557f550001c0ffc00ffffff001cecffc00181dff0000787fc01ffffff0;
   0xc02e800e60cba00060c7fc00e00eba00038c2e800000cba000c0e7fc000380ba0008382e800e30cba0000e3ae80001db800006000600000ff000000e0ffc000001ff0018eeae8001818ba00003c2e800fffeba0;
   0xc00e000775c3800060c0e000e06e3800018c0e0007ffc78001c070e0000f0038001c180e000e30c780000e39e0000799c00006000600001db000001f00c0000000380018e61e000181c3800155f0e0000070780;
   0xc01e0003efc3800060c0e000e06778003f8e1e0007ffc780038630e0000e0038000c180e000e30c780000e1de0000f18f00006aaae000019b800003f01e0000aa8380038e63e000180c38003fff9e0000060780;
   0xc03f0001ffc7c00060c1e000e0767c001fce3f000706cfc0078739e001fffe7c000d5d1f000e30cfc0000e13e0001e187c0007fffe0000799c00007f83e0001ff8780030e77e0001c1c7c003fff9f0000070f80;
   0x2aea3f0000e0cfc003fff9e000e070fc00180e3f000306cfc003071be000fffefc000fffbf000e30cfc0000e03e000f8181e0002aeaa0000f18e0000efc7e0000eb8fc0030e76e0001c0cfc0033183f0000060f80;
   0x3fff7f000070dfc007fffff000e1b1fc001c1e7f00030edfc0010717f000c381fc000fffbf000fffdfc0000e06f000f0180f000006000001e1870001cefef0001c39fc0010e3ff000fffcfc00339c7f0000071bc0;
   0x3fffef800060dbe00060c6f000e339be000c1e2f80038cdb60000306f000e381b6000c186f800fffdbe003fffaf0005ffffa000006000003c183c0038e7cf0000c39be0008e2cf000fffdbe00398c2f8000063bc0;
   0xc04d800070dbe00060c6d800631936000c3e0d80019cc360000386d800738136000c1c2f800f55d3e007fffcd8001ffff8003fffffc00f8181f0070e3cd8001c39b6001ce05d800e000be0039ce2f8000071360;
   0xc00d800060c3e00060c6d800e61836000e360d800198e360002184d800338036000c080e800e00c3e0000e00d8001eaab8003fffffc00e0180f0020e18d8000c3836000ce00d800e0003a0038c70ec000060360;
   0xc00dc00070c3b00060c4dc0067fc370006770cc001d8e3300071c0dc00338033000c1c0ec00000c3b0000e00dc001c003800001fc00004018020000e00dc001c1833000ee01dc0060003b0018e38ec000070370;
   0xc00ce00060c3b80060e0ce006ffe338007e30ce000f8e3380060c0ce00038033800c0c0ee00000c3b8000e00ce001c003800003ee00000000000000e00ce000c18338006000cc006ffe3b801861cee000060338;
   0xc00c400470c3900060e0cc006c1c310003c30c400070631000e0c0cc00038031000c0c0e400400c390000e00c4001ffff80000f6700001800180000e00c6001c18310007801c4006fff39001870ce4000070310;
   0xc00c400c68c380006060c4006000300003c38c0000f8630000c0e0c400038030000e0c0e000c00c390000e00c0001eaab80001e63800038e3180000e00c4008c1c300003c00c4006000380018380e0000060300;
   0xc00c001c7fc380006070c0007000300007e1cc0001fc730001f070c00003803000060c0e001c00c380000e00c0001c00380007c61e00030c31c0000e00c001dc1c300001f01c000700038001c1c0e0000070300;
   0xc00c000c6fe380006030c000600030000ff0cc0003de330001fff0c000038030003fffee000c00c380000e00c0001c0038001f060f80070c30c0000e00c0008c0e300000f80c000700038001c0e0e000ffe0300;
   0x7fffcc000ff3e380006038c000750030003e7cec00078fbb0003fff8c000038030007fffee000fffc380000e00c0001ffff8007c0607c00e1c70e0000e00c001dc073000003f1c000710038001d470e000fff0300].
Definition hanzi_rows_78 : list N :=
  [0x3fff8c000fe0e38000601cc0003f003000383e7c000e03bb000380b0c00003f030002aaaae000fff8380000e00c0001ffff800300600c00e186070000e00c000f803b000000f8c0003f0038000f838e000aaa0300;
   0xc000000038000600cc0001f003000100c6c000c019300000000c00001f0300000000e0003ff0380000e00c0001c0038000006000004000070000e00c0007801300000019c0001f00380007818e0000000300;
   0x0;
   0x0;
   0x0;
   0x0;
   0x0;
   0x0;
   0x0;
   0x0;
   0x0;
   0xe000018030000007000000000380000600e0000010180000000c000000038000006000000000300003860e0000180380000000000000c0300000e00c0000700700000700e0001000700001000c0000180300;
   0xe000018030000003800002aaa380000600e000203818000fff0c000fffe38000006000000000300003860e0000180380007fffe00000e0300000e00c0000600600000600e0003e00300001980c0000380300;
   0x3fff8e0000180300007fffe0003ffe380000f00e000703818001fff0c001fffe38003fffffc00fffe300003860e0000180380007ffff00000e0300000e00c0000700700000700e0007fc07000039c0c0000300300;
   0x3fff8e0000180300007fffe0003ffe380000f80e000383818000eab0c000aaae38003fffffc00fffe300003860e0000180380006aeae0000060300000e00c0000600600000600e00007f83000030c0c0000300300;
   0xe00e000018030000755560003806380001dc0e0003c3818001c030c000030e38003fffffc00000e300003870e000fffe38000606070000070300000e00c0000700700000700e00000787000070e0c0005554300;
   0x18e37fc000180ff000300c60003a06ff00038c0e0001c3818000c237fc00030eff00000600000300fff0003860e000ffffff00060606000fff0300000e07fc00060060003fffffc00003830000e067fc00fffc300;
   0x1ce77fc01ffffff000703c60003e17ff00070e7fc000f38ff001c637fc00030fff000fffff000307fff0003877fc0055d5ff0007ffff000fff3ff001fffffc00fff7ff003fffffc00003bff001c077fc01ffffff0;
   0xce62e800fffeba00030f860003e3eba000e077fc0007b8ff000c632e800038eba000fffff00038eeba0003867fc000180ba0007fffe000babbff001fffae800fff7ff003aebae800003bff003803ae80000e3ff0;
   0xce60e0000180380003e606000377638001c03ce00003f818001c630e0007ffe38000e060700019ce380003870e00001803800060607000303c300018638e0000700700038718e0000038700077ffce00000c0300;
   0xce60e0000180780000a0060003b6638003aabee00001b838000c631e0007fee38000e0f0300019ce780003860e00001807800060606000383c380018639e0000f80f00038718e000fff8380007fe9e00000e0380;
   0x6e61f00001807c001ffffe00033667c0037ffdf000ffff7c001c633f0007ffe7c000e1fc70001f8e7c0003871f0007ffc7c0007ffff000387e780018639f0000f81f80039f19f001fff8780000181f00000e0780;
   0x6ee3f0000180fc001ffffe0003bc6fc0007fe3f000fffe7c000c633f000638efc000e3fe30000f0efc0003871f0007ffcfc0007fffe000186e780018e3bf0000f83f80000f03f000aeb8f80000183f0007fe0f80;
   0xe07f0000181fc0018000000031c7fc0007077f000ffffdc001c637f000618ffc0005f6f7000070ffc0003cf3f000701dfc000006000001c64fc0019f3ff0001fc77c0001f07f0001c19fc00001c7f0007fe1fc0;
   0x3fffaf8007fffb6001803000003187be0006066f8000338de000c636f800618fbe0003c63e0000f0fbe00038f3f8003019be000006000001ce1fc0019b3ed8003ec66c0000f86f8000c3bbc00000c6f8006061bc0;
   0x7fffcf8007ffeb6001c030000031c6bf0007076f8000739de001c730d800618fbe001f061fc001f0eb60007df7f80038393e003fffffc000cc3be001bb38d80037e67c0001f82f8001c1b7e000ffc6d8007063b60;
   0x2aea8ec006aae360019ffffc0033c63b0003060fc0006389e000cf30d800618e3e003e00e3e001b8e360006dbaf80018303b003fffffc000ec336001b3b8d8003660660000d80ec000c1936000ffe0dc006063360;
   0xe00ec00700e33001dffffc0037e63b0007f70ec000e381b0000f00cc0061863b00301ff0c0039ce330007fb8ec001c703b00155fd540007c737001f1f8cc007770770001dc0ec001c1877000c000cc007071370;
   0xe00ee00600e33800f8fc000036663b8003e60ee000c381b0000f80ce0061863b8000ff8000030ee33800ef38ee000ee03b80003fc0000078233001e0f8ce00e638638000cc0ee000c1833000c000cc006030338;
   0xe00e400700e3100079ff00003677390009470e4001c38190030d80c40071c7390001f00000070fe31000ce18e60007c0390000f6f0000078033801e0f8c401c71c738011ce0e4001c1873000c000c4007030318;
   0xe00e000600e3000007b380003e3b380038060e0001838190030dc0c00060c73800008000000207e30000c61ce4000380380001e6780000fc0310018038c000c60c610020c60e0000c1831000e000c0007038310;
   0xe00e000700e300001f31e001bc1b380018070e0003b38180030ce0c00070e738000001fc000002e30001c71ce00007e0380007c61e0001fe0310018038c000070c700071c70e0001c1c70000e000c0007018300;
   0xe00e000600e30000f830f800b01bb80018060e00073f8180030c70c00030633800001ff8000000e30003838ee0001ef838001f060f8003c78300018038c0000600600030c38e0000c0c300006000c000301c300;
   0xe00e0007ffe30001f0303c00f001b8001ffe0e001e1f818003fc7cc0003f73b80001ff80001fffe30007838fe0007c7f38007c0607c00f83c30001d038c000070070003fc1ce0001c0e700007f00c000351e300;
   0xe00e0007ffe3000080300800e001f8000ffe0e000c07818001f81ec0003e39b80003f800000fffe3000301c7e000f00f3800300600800f01e30001f838c000060060003fc0ee0000c0e300003f00c0003f0f300;
   0xe00e000700e30000003000004001b80005500e000001818000000cc0001f1138000300000000000300010186e000c0073800000600000c00630001f038c000070070001f004e0001c04700001500c0001f06300;
   0x0;
   0x0;
   0x0;
   0x0;
   0x0;
   0x0;
   0x0;
   0x0;
   0x0;
   0xe0000000300000000000000700400001c030003818300001c0180000380380000700c0000380300000000e0000180300000700e00000703000001c0c000000c180000001c0000000380000000c0000006000;
   0xe000fffe300003fffe00000303e00000c0f800381830000180180000380380000300c000038030002aaa8e0000180300000e00e00000303000000c0c000000c180000000c0007ffc380000000c0000187000;
   0x7fffce000fffe300007fffe00000707800001c1e0003818300001c0180000180380000380c000e38c30003fff8e00003c0300000e00e00000303000000c0c000000c18001ff81c0007ffc38001ffe0c00007c3c00;
   0x3fff8e000eaea300001e0000000fff20001f8c08000381830003fffffc00018038000ff80c000638c30003fff8e00003e0300000c00e00000383000000e0c000fe0c18001ffbffc00600c38001ffe0c0000f01e00;
   0x380e00060c03000007fe00000fff07001fff01c00381830003fffffc0001c038001ffc0c000739c300000e00e00007e030003fff8e000fff830003ffe0c000fe0c1800183bffc00701c380018060c0001f40700;
   0x387fc00e0e1ff00003f800000e380f0000ffe7c00fffeff000180180007ffdff000c0e0c00033bbff0000e03fc000e71ff003fffffc00fffc30003ffe7fc00e6ae1800183b8c000600dff0018060c0003ffffc0;
   0x187fc0060e1ff001fffffc000e381c00001de7001ffffff0001c0180007ffdff000e1fffc003bf3ff0000e07fc001c39ff003001ffc00e01dff0038077fc00e6ffff00183b8e000755dff001806ffc0075fffc0;
   0x182e8006060ba003fffff8004e183000000c08000bababa0001fff8000600cba00063bffc001bf2ba003fffae800383cba003001ae800e00fff003803ae800e6eeff00183b8e0007ffcba001806ffc002000000;
   0x1c1e000607038001d5fd5401ce1c7000301c1c0003818380001fff8000700c38000773ce000138038003fff8e00070de7800300d8e000e7ff380038038e000e6cc18001839870005554380018060c0001ffff80;
   0xc1e000603838000e0ee0000ce0e3800380c0e00038187800018018000600c780003e08e000fffc780038e38e000e18f7800200c8e000e7ff380038ffde000e6cc18001ab9830000000380018060e0000ffff80;
   0xe3f0007e1c7c00070e78000ce0f1c001ffc070003818fc0001c018000700c7c0001e01e000fffcf80038e39f000c387fc00000c1f000e75e780039ffbf000e6cc3c001ff9f3c0000007c0018061e0001c00380;
   0x1ffe3f0003e0efc00038e3e000fe078e001ff8038003818fc0001fff8000600cfc0003f03e0000380f80038e3bf0000300fc000e0c3f000e618780038863f000e6cc3c001ff8f1e00fffefc0018061e0000c00380;
   0x1fff7f0000005fc00000fcfc007c19c700055601c003819fc0001fff8000700dfc0007fc7f0000381fc0039e3ff0001555fc001f0c3f000671cfc0039c77f000e6cc7c00000600c00fffffc0018063f0001ffff80;
   0x1807af8000001b600000fc3800001882000006008003ff9be000006000007ffdbe001e1eef0000381bc0039e3ef8003fffbe0003cc6f800e619bc0038866f800e6ccfe000006000000039be001ffe6f0000ffff80;
   0x1807cfc007ffcb600000600000001800000006000003ff836000006000007ffcbe007c0fcd800038136003bf3ef8003ffd360001fc6f800675db60019c70d800e6ccde001557554000018be001ffeed800155d500;
   0x1807cec007ffc33002aaeaa800ffffff003fffffc00381836003fffffc00600c3e0030738d800fffe36003b338f80038003600003c2ec0067f9b60038860d800e6ce9a003fffffc002ab83e000aaacd8000018000;
   0x1806eee00701c33003fffffc00ffffff003fffffc00381833003fffffc00700c3f0001e08dc01fffe37003f3b8fc001c003700001c0ec0077fd370019ff0cc00e6c61b003fffffc007ffc3b0004184dc00ffffff0;
   0x18066e600600c33803fffffc0000ff0000003fc000038183380003fc0000600c3b8003800ce00038033803e1f8ee000e003380000c0ee007c18330018fe0ce00e6c61b80003fc00006aa83b8006180ce00ffffff0;
   0x18064e400701c3100007fc000001db80000077e0000381831000076e0000700c390003000c600038033003c1f8e40007103100100c0e4003c1c330019570c400e6c619000076e0000700039000e1c0c600557f550].
Definition hanzi_rows_79 : list N :=
  [0x18060e000600c300000f6f00000399e00000e6780003818300000e678000600c390000020c4000380300038038e00003f83000300c0e0008018310018060c000e6c6190000e670000700038000c0c0c40001fb800;
   0x18060e000701c300001e67c0000f18f00007c63c0003818300003c63c000700c3800007f0c0000380300038038e00003f03000300c0e001c01c300018000c000e6c7180003c63c000700038001c0e0c00007d9e00;
   0x1ffe0e0006aac30000f861e0003e183c000f860f8003ff830000f860f0007ffc380001fe0c0000380300038038e00003c03000300c0e000c018300018000c000fee318000f860f0003000380038060c0001f18f80;
   0x1ffe0e0007ffc30007f060fc01fc181f007e0607e003ff830007e0607e007ffc38000ff00c0000380300038038e000078030003ffc0e000f55c30001c400c000fe6398007f0607c003d00380038070c001fc183f0;
   0x1aae0e0007ffc3000380603c00e0180700380601c0038183000380601c006aac38001f800c000038030003f038e0000e0030001ffc0e000fff830000fe00c000e6799800380601c003f80380030038c000f0180f0;
   0x18060e000701c30000006000000018000000060000038183000000600000700c38001c000c000038030001f038e000060030000ff00e0007ff0300007c00c000067998000006000001f80380030010c0004018030;
   0x0;
   0x0;
   0x0;
   0x0;
   0x0;
   0x0;
   0x0;
   0x0;
   0x0;
   0x60003000380000700e0000000300000000c0000060c0000018060000180300000060000000003000000600000000038000006000003000300000600c0000070300004000c0000000300000e00c0000000380;
   0x1fdf860007f80380000600e0002aaa300000000c0000060c000003c0600003803000000600000aaaa3000000600000fffe38000006000003e00300000e00c000007030000f800c000aaa8300000e00c0000000380;
   0x1fdf860007ffe380000e00e0007ffe30001fff0c0007060ce00151f0600003803000000600001fffe3000000600000fffe38000006000007ff0300000c00c000003030000ffc0c000fffc300000e00c000fffe380;
   0x18d98600000fe380000e00e0003aba30001fff0c0007c6ace003f8386000030030003fffffc00fffe30003fffffc00aaae38002aaeaa80003fc300000c00c0000038300000fe0c000fffc300000e00c000fffe380;
   0x1dd986000000638007fff8e0003818300018070c0003fefce003f91c6000070030003fffffc00300030003fffffc00018e38003fffffc00037c30003fff8c000fff83000000e0c000001c300000e00c000e38e380;
   0x18d986000000638003fffffc001838300018030c00003efce00399886000fffdff002abfea8003001ff00000600000018e38002abfaa800030dff003fffbfc00fff9ff00000e0c000000dff0000e07fc00e38eff0;
   0x1dd99fc00ffffff0000e07fc001c71ff801807ffc000060ce003999ffc00fffdff000076e00003001ff00000600000018fff000077e0000030dff003001ffc00fffdff00000effc00001dff003fff7fc00e38fff0;
   0x18d99fc00ffffff0000e02e8000ee1ff801803ffc00c060ce003998bfc000300ba0000e67000033f8ba000fffff0003f8eff0000e6f0000030cba003001ae80000ccba00000effc002aacba003fff2e800ebaeba0;
   0x1dd9870000006380000e00e00007c0380018070c000c060ce003999c60000300380003c63c00033fc38000fffff0003fce380001c67c000070c380030018e00001ce78003ffe0e0007ffc380038e30e000fffe380;
   0x18d98f000000638003fff0e0000380380018030e000c0efce0039988e000030078000f861e000330878000cc62300038ce380007861e000030c780020009e00000c678003ffe1e0003ffc780038e31e000fffe380;
   0x1dddcf00055567c003fff1f0000fe07c001d571e000ffefff003999cf00003007c007f0607c00331cfc000cc63700018ee7c001f060f800fffc7c007fff9f000ffc6fc003ffe1e000701c7c0038e31f000e38e7c0;
   0x3fffff0007fe6fc0038e33f0003ef8fc001fff1e0007fc8ff0039989f0000300fc0039fffbc003308fc000ce663000186e7c003c0003e00fffcfc003fffbf000ffc1bc00030e3e000300cfc0038e33f000e38efc0;
   0x7fffff0007ff7fc0038e37f001fd3ffc001fff3f000001c01003999df0000301fc0001fff8000331dfc000c66670001c7efc0013fffdc00575dfc007fffff00001c1bc0003067f000701dfc0038e37f000e38ffc0;
   0x18d9b78006067be0038e36f800e18fb60003986f000001800003998b78007fffbe00000000000330bbe000c26630000c3fbe0003aabc000060dbe0000c06f80000c33600033eef000300db6003fff2d800ebaebe0;
   0x1dd99780070763e0038e36f8000181b600039ced800ffffff003999d78007ffd3600000000000331d36000fffff0001e0fbe0003801c000060c360000c02d80001c3360003fecd800701cb6003fff0d800fffebe0;
   0x18d98680030663b0038e32f80001803300039ccd800ffffff00399887800030036000aaaaa80033a837000fffff0003e0ebe0003fffc000060c360000c00d80000c0330003e64d8003ffc330038e30dc00fffe3f0;
   0x1cd986c0070763b0038e30fc007ffe3300039c4dc00ffffff00399fc6c00030037001fffff80033fc3300001f80000370e3f0003fffc000060c330000c00dc00ffc0330007c60dc007ffc330038e30cc00e38e3b0;
   0x18d886c003e663b8038e30ee007ffe3380038c0ce0000ff0000398fc6c00030033800aaeaa80032a83380003fc0000738e3b8003801c0000e0c338000c00ce00ffc033801f060ce00000c338038e30ce0003803b8;
   0x1cd9c64001e77390038e30e40001803180038c0c60001dfc0001f8dc640003003100008610000301c31000076f0000e1ee390003801c0000c0c310000c00c40001c031003f070c400001c310038e30c4000380390;
   0x18d8c6400406338003ee30e40001803000638e0c4000799e0001f8c064000300300001c6380003000300001e678000c0fe390003fffc0018d8c300000c00c00000c0300033030c000000c300038e30c0000380390;
   0x1cd8c6001c07338001ee30e0000180300073870c0001f1c78000186060000300300007861c0003000300007c61e000407e380003fffc0019d8c300000c00c00001c0300003030c000001c30003df70c0000380380;
   0x18d8e6000c063b80000e00e0000180300063870c0007c183e00018706000030030000f060e000300030000f060f800000e38000000000009b0c300000c00c00000c0300003038c000000c30003fff0c0000380380;
   0x1c7c66000fff3b80000e00e001ffffb0007783cc001f01c1f80018386001fffe30001e0607800350030007e0607e01fffe38003fffffc00fb7c300000c00c00001c030000301cc000fffc30003fff0c0000380380;
   0x1e7e66000ffe1b80000e00e000ffffb0003f81ec000c01803000181c6000fffe30001807e38003f803000380600c00fffe38003fffff800f23e300000f80c00000c030000301cc000fffc300038030c0000380380;
   0xe4e660000001380000e00e000000030001f00cc000001c00000180c6000000030000007c00001f003000000600000000038000000000007006300000780c00001c0300003008c0000000300038030c0000380380;
   0x0;
   0x0;
   0x0;
   0x0;
   0x0;
   0x0;
   0x0;
   0x0;
   0x0;
   0x10300c0000300300000000600001c03000040406000300038000000000000000380000600c000007030001c00060000070380004040c0003000380000600c00000e03800001c0e0001c30380000380c0000000300;
   0x30300c000030030003fdfe600001c030000e0e060007e0038002aaaaa800fffe380000600c000007030000c000600001f038000e0e0c0003f80380000600c00000e0380001980e0000c30380001b80c0000000300;
   0x38300c000033030003fdfe600003803000060c060007ffc38003fffffc00ffff380000f00c000007030001c000600007e03800061c0c0007ffc38001fe00c00000703800079c0e0001c30380003b80c0007ff8300;
   0x1bff8c000033830003a9a8600003803000030c0600003fc38002abaea800aeea380000f80c000003830000c0fc60000f00380006180c00000fc38001fe00c000007038000e180e000fffe380007380c0007ff8300;
   0x1fff8c00003183000381806000fffe3000031806000038438000030c00000660380001d80c000fff830001c1fc60000c00380007180c000001c380015600c000ffff38000c1c0e001ffff380006300c0000000300;
   0xe300c0007ffbff0038181fc00fffe300003883fc000381ff000030c00000660ff00039c3fc00fff830000c1a860000000380003987fc00038cff000060ffc00ffff380000183fc000c3038001fb87fc000000300;
   0x7307fc007fffff0039d8dfc000001ff003fffffc000381ff000fffff0005774ff00070e7fc00f55dff007ffc1fc0003ffff001fff7fc00038dff000060ffc000031ff003fffffc001c31ff001fff7fc000003ff0;
   0x3307fc00030cba003998cf8000c71ff003fffae8000380ba000fffff000fffeba001e072e800e00fff003fec1fc0043feff001fff2e800038cba001fff2e8000038ff003fffae8000c30ff0003ffae8000003ff0;
   0x7fffce000030c78003999870001c703800031c06001fffe38000c30c3000fffe38007c038e000e00e38001c0cc7000e380380015551e000038c38001fff0e000039838003fff8e0000000380000378e000fffc380;
   0x3fff9e000030e78003b998f0003838380003080e000fffe38000c30c3000e66638003fffde000e7ff38000c0ccf0006380380000001e000038e380018031e0000398380000cc0e0007ffe380000301e000fffc780;
   0xf03e0000304fc003b199f000701c7c00031c1f00157d47c000d75d7000e6667c002ffe9f000e7fe78001c4dcf00073bf3c0000003f000fffe7c001c031f000039c7c0011dc1f0007ffe7c001c701f000fffcfc0;
   0x783f0000300fc003b1b1f800e80efc0003081f0000380fc000fffff000e666fc000aea3f000e61878000ccf8f0003bbe7c0000003f000fffefc0018033f000038efc0038cc3f0006aeafc003ff03f0000381fc0;
   0x3ffc6f000ffffbc0038181f800dc3ffc00175d370000381fc000fffff000e666fc0000607f000e618fc001dc71f0001fff7c0000007f0000381fc001c037f0007ffefc001dcc7f00060e0fc0007ff7f0000381bc0;
   0x3ffe2f800ffffbe003c1c368000c31be003fffb78000381be00000600000e666be0000606f800e7f9bc000d863f8000fb0fe000aaa6f8000381be001fff6f8007fffbe000ccc6f80060e1be00107fed800038bbe0;
   0x1fcd8000fc136003f1f16c000c71b6007fffc780057d4be00000600000fe763e0000602d800e7f9b6001d86378000fb9fe000ffe4d8000380be001fff4d8000380be000fcc2f80060e1be0038612d8003bb9370].
Definition hanzi_rows_80 : list N :=
  [0xfed8000fe036003b9b86c000e60b600030c068007ffc3b003fffffc00fe3e3b000fff0d800e619b6000f0e068000f98be000ffe0d8003b983e001aab0d80003803e0006ce0ec0060e0bb001c600cc003398330;
   0xcecc001f60370039d9c6c0007e03700030c06c007ffc3b003fffffc00e01e3b000fff0dc00661937001d1f06c001f9c3b0000000dc00339c3b001c030cc00139c3f0007c60ec0060e03b000ee00cc00739c338;
   0x1ffe0ce001b70338038f8e660003c03380030c06e00600c3b80003f80000e0063b8000600ce00e6b833800c1b06c003b8c3b8000000ce00738c3b8000038ce003b9c3b8003c60ee0060e03b8007e00cc00638c338;
   0x1ffe0c4003338310038586640003c03100030c06400700c3900007fe0000e006390000600c40067f833001c1b86400738e390000000c400638c390000018c400739c398001c70e40060e0390017c00c400638c310;
   0x18000c0007338300038182600007c03100030e06000600c380000e6f0000e006380000600c000601831000c1986400f387380000000c000e38e380000018c000638e390000e30e0007ee0380021e00c000e38e300;
   0x1c000c000e31c30003818060000fe03000030606000700c380003c63c000e006380000600c000601830001c01c6001e387b80000000c000c387380000018c0006387380071f38e0007ee0380071f80c000c387300;
   0xc000c001e30f30003818060003e783000030706000600c38000f861f000fffe380000600c000600030000c00e6000c383b8003fff8c000c387380000018c000e387380030f98e00000e0380033be0c000c386300;
   0xc000c000c30730003f9f86000fc3c30000303860007ffc38007f0607c00fffe38003fffcc000700030001d4066000038138003fffcc000c38338000001cc001c3d338003fdfce00000e03800371fcc00043d0300;
   0xff00c000030230001f1f86000f00f30000303860007ffc3800380601c00e00638003fff8c0003f0030000f800600003f038002aaa8c00003e038000000ec00001f038003f8cee00000e038003e038c00003f0300;
   0x7f00c0000300300007050600040063000030106000700c3800000600000e006380000000c0003f00300007800600001f0380000000c00001e0380000004c00001f0380015004e00000e038001c000c00001f0300;
   0x0;
   0x0;
   0x0;
   0x0;
   0x0;
   0x0;
   0x0;
   0x0;
   0x0;
   0x70000000380000007006000001c000000000e0000070380000600c0000670180000600e00000101800030018000001c000000303000000c0300003800c0000000300000600c00070183800000c0c00000c0380;
   0x6000000c3830000070060000018000000000e0000030380008600c0000660180000600e000003818000300180000018000003303000000e030000f800c0003ffc300000e00c00030183800000e0c00000c0380;
   0x1fff000000e187000007006000ffffff003fff8e0000ff0380038638c0000670180000600e000ff98180003015c000ffffff0007317500000e030001f800c0003ffc300000c00c0003838380000060c000c0c0380;
   0x1ffe000000618e0002aea86000fffffe003fff8e0001ff8380018630c0000660180000600e000ff8c18003ffbfe000ffffff000e33ff8003ff030003b800c000300c300000c00c000383038003ffe0c000e0c0380;
   0x7000003ffffc003fffc6000e006070000018e0001c1838001c670c000c67718001fff8e000000e18003fffff00055d755001c77ff8003ff0300033800c000300c30007fff8c0001c7038003fff0c0007ffe380;
   0x2aeaa0003ffffc003aabbfc00e006060000018e0000e1dff000c660c000e666ff001fffffc0000077f0003018380000c30000383030000383830003fffffc00300dff003fffffc00fffeff0000038c0003fffff0;
   0x7fffe000155f54003871ffc00555755001ffdffc00060dff000c667fc006676ff0000607fc0000737f00031dc7c0006c37000007030000187fff007fffffc003ffdff0000707fc00ffffff000003ffc0038c1ff0;
   0x60006000000600003831ae800ffffff001ffdffc00fffeba000e667fc00666cba0000602e80000303a00031ccec000ec330000030300001c6fff002baaae8003ffcba0000382e8000180ba000aabffc0018c0ba0;
   0x60006000000700003831c60005755d50001c18e000ffff380006660e000367c3c0000600e001fff81c00031cfc0001cc338003fffffc000ee7380003801e000300c38000e1c0e000018038001fffce0001cc0380;
   0x7fffe000ffffff0000380e0000380e00001818e000000fb80000600e0003e7838002aea8e000ffd81c003ffc7800038c31c003fffffc0007c2380003801e000300c7800060c1e000018038000eabce000fffe380;
   0x7fffe000ffffff0000181f00001c5f00001c19f000000d7c007fffdf00016707c003fffdf0017d5c3c003ffc3800070c30e000070300000780780003003f000300c780007ff1f00055d47c001c371f000ffff7c0;
   0x600060000380e0003fffdf00000ffe0001ff9bf0003fccfc003fffdf0000660fc003fffbf000381e3c0003001e00060c306001c60300000fc0f800037fbf0003ffcf80003ff3f0007ffcfc000c733f000abaafc0;
   0x755560000718f0007ffff700007ff00001ffdff0007fcdfc007fffff0001e71dc0000607f000381f7e0003060f00000d304001c75754001ff1fc00037fff0003ffdfc0001df7f0007ffdfc001ce77f00001c1fc0;
   0x7fffe0001e183800060e378003f8ffe000181ef80020cdbe00038c6f8003e709e0000602f800381bde00030603c00001800000e67ffc007879bc00030c6f000018dbc0038e06f8000180be000cc32f80020e1be0;
   0x557540007c181e00070e378007c19ff0001c18f80070ccbe00039c6d800767c1f0000602f800381d5f00010601c00001800000667ffc01f01f3600030c4d800418cb6001c700d8000180be001c472d8007070be0;
   0x600000ffffff80070606c002018000001818ec0020cc3b00038c0d800e66e1b000aea8ec0038181b003fffffc00ffffff0007e038000ffff3600030c0d800f38c36000e3c0d80001803a003fffcd8003c7c3b0;
   0x3fffffc00cffffb00070706c00ffffff0001c18ec0070cc3b00038c0dc01c6771b001fff8ec00381c1b003fffffc00ffffff0003e07c0007ff93700030c0dc007f0c37000f1f0dc00ffff3b007fffcdc001f7f3b0;
   0x3fffffc00007e0000039e06e00ffffff003ffd8ee003ccc3b80038c0cc0086331b801fff8ee0038181980003fc0000aafeaa0003c1fe00030183380030c0ce001f0c338007078ce00ffff3b800c030ce0003ffbb8;
   0x3fc000001ff000001fc06400557f55003ffd8e4003cce3900138e0ce000631190000600e400381c1900007fe000001ff000011c3f700070183100170c0cc000f0c310003c10c400ffff39001c030c40000f3390;
   0x76e0000039bc00001f00600000fb800000018e00080ce380063860c4008638180000600e0003818180000e678000039bc00021e3338003018310026ec0c4000e0c300003e00c000018038000c030c400c070380;
   0x1e6780000f19f00007f00600007d9c00000018e001c0c6380073870c001c61c180000600e000381c180007c63c0000f19f00071f233c007018300076ffcc0001c0c30000ff00c000018038001c038c001c070380;
   0x7861e0001e1878000ff8060001f18f8002aab8e000c0c6380023838c001860c180000600e000381818000f860f8003e18780033bc30c0030183000261fcc00039cc30001e3e0c000018038000c018c000c070380;
   0x7f060fc0038181e001e1f06001fc187f007fff8e000ffc738007f83cc001fe0f18007fffee000381c18007e0607e01fc181f80371f300007ff830003e01cc000f1fc30003c1f8c000018038001d01cc000fff0380;
   0x3c0603c0000180c00380fc6000f0180f003fff8e000ffc338003f81ec000fe0798003fffee0001f181800380601c00e0180f003e0f300003ff830003c000c000e03e30003807cc000018038000f00cc000ffe0380;
   0x100600c00001800001001860004018010000000e000150238001f00cc0007c01180000000e0001f1c1800000600000001801001c0230000701830001c000c000400430001001cc000018038000700cc0005540380;
   0x0;
   0x0;
   0x0;
   0x0;
   0x0;
   0x0;
   0x0;
   0x0;
   0x0;
   0x1c000c0000380380000000c0000e00180000600c00001c0c00000600e0000730180000000c0000180180000600c00001803800001c0e0000000380000000c0000380380000000c0000000000000000e0000000380;
   0x3ff80c000038038000fff0c0000e02180000e00c00000e0c00000600e000033018000fe00c0006186180000600c00001803800000c0e0000000380000300c000038038002aaa8c0000ffff8003fff0e000aaaa380;
   0x1fff8c00057d438001fff0c0000e07180001c00c0007ff0c70000f00e000673818001fff0c0006186180018618c000ff803800101c0e000ffff3800007c0c000038038003fff8c00007fff8003fff0e000fffe380;
   0x80b8c000fffe38000c030c0000e0e180000800c000fff0ce0000f80e000e3181800007f0c0006186180018638c000ff8038001ff80e000ffff38001f9f0c000038038003fff8c0000383e0003aab0e000fffe380;
   0x1c730c000fffe38001c070c0007e5c18003fff0c000757cdc0001dc0e000771c180000700c000618618001c630c000558038001fffce000577538001f870c000fffe380000000c00001fff00038030e00000e0380;
   0xc637fc000380ff000c037fc006ec818003fff7fc00701edc00039c7fc003b1cff0000607fc006186ff000c630c0000181ff00083fbfc00066038001a837fc00fffeff0000007fc0001fe000038037fc000ce1ff0;
   0xc677fc000381ff001c077fc006ec0ff0000037fc007074c800070e7fc001f1fff0000707fc007ffeff000e677fc0055d5ff001e307fc000671ff0018037fc000381ff001fff7fc000fcffc003fff7fc001c71ff0;
   0xee62e800fffeba000eab2e800eec1ff0001832e80038e0e0001e072e8000f9fba003fffae8007ffeba0006667fc007ffcba000f302e8000660ff0018032e8000380ba001ffe2e8000e00f8003bfb2e8003838ba0;
   0x76e0e000fffe38001fff0e000cee39c0001830e0001fc0fc003c03ce00007df38007fff8e00000001c0007660e0007ffc380007f00e000c673380018031e000038038001c070e0007ff7ff0038030e000751c380;
   0xfff1e000c00638000aaa1e000ce673c0001831e0000f80de003fffce000c3fb380003181e0000000380000600e000600c380030f00e000c662380018031e000038038001c061e0007ff7fe0038030e0007ffe780;
   0x1fff1f000c0067c0000001f001ce6e7c0001831f00003f0c70017fedf000c75c7c00071c1f0007ffe7c001fff9f000738c7c0031ff1f000c6767c0018033f0007ffe7c001c071f000386384003bfb1f000fffe7c0].
Definition hanzi_rows_81 : list N :=
  [0x6aa3f000dffe7c003fffbf0000e707c0001833f00000fec20000003f000c718fc000e0e3f0007ffefc001fffbf000638cfc003b8fff0006666fc001aab3f0007ffefc001eae3f0001fe1fe003bfb3f000c080fc0;
   0x7807f0003ff8fc003fffff0004e20fc003ffb7f000001ec00000007f000ff1ddc001c077f0007554dc0018007f000738dfc001f03bf0006676fc001fbf7f0000001fc001fff7f0001fc1f0003b1b7f0004181fc0;
   0x1c06f0001e00fe002aeaef800ee00de003ffb2f8000018800000006f80028189e003a0bad80060009e0018006f800638cbe000c002f800666ffe001aab6f8000001be001eae6d8003ffbfc003b1b6f8000181be0;
   0xe02d8000f00fe0000602d8006e1cde0001830d800001800001fffaf80001809e00361dcd80070001f0018006d800738cbe003fffcf800767cbe0018034d8005554be001c072d800f07b1f003b1b6f8000180be0;
   0x600d80003803b0000600d8006e1c9a0001830d800ffffff001fff8f80001801b00061c8d8006aaa1b001fff8d800638c3b003fffcec00366c3b0018030d8007ffc3e001c060d800001802003b1b2ec007ffe3b0;
   0x3fffcdc0057d43b001fff0dc00700c1b0001830cc00ffffff0000380ec01ffff1b00061c0cc007ffe1b001fff8dc00718c3b0015dd4ec00367c3b0018030dc007ffc3b001c070cc00ffffff003b1b0ec007ffe3b0;
   0x3fffccc00fffe3b801fff0ce00380e1b8001838ce0000ff000002180ee00ffff1b80060c0ce007ffe1b801aaa8ce00618c3b80019c0ee00366c3b8018030ce00700c3b801ffe0ce00ffffff003bfb0ee002baa3b8;
   0x600cc01ffff390015750c4001c0e198001818c40001db8000071c0e40055d51900061c0c4000006190018000c60071cc3900019c0e4000670390018030c400701c39001fff0c40000ff00003bfb0e4000180390;
   0x600c4000380380000600c0001c06190001818c0000399e000060e0e00001801800060c0c0000006180018000c40021cc3800018c0e0000660380018030c000700c380000000c00001fb8000381b0e0000180380;
   0x600c0000380380000600c0000f0718000181cc0001f18f0000e070e00001801800060e0c001c006180018000c00006e03800718e0e0000670380018030c000701c380000000c0000799e00038030e0000180380;
   0x600c0000380380000600c000078318000181cc0003e183e000fe70e0000180180006060c000c00618001fffcc0001e703800318e0e000ffffb8001fff0c000700c38002aaa8c0001f18f80038030e0000180380;
   0x600c000038038007fffcc00003e398007ffecc001f8181f801fffce0000180180006070c000fffe18001fffcc000783c38003587ce001ffffb8001fff0c0007ffc38007fffcc001fc183f003d030e001ffff380;
   0x7c0c00003f038003fff8c00000f398003ffeec000e0180700383f8e000018018000603cc000fffe180018000c000e01f38003f83ee0000000380018030c0007ffc38003fff8c000f0180f003f030e000ffff380;
   0x7c0c00001f0380000000c0000070180000004c0000018000010000e0000180180006018c0001550180018000c000400638001f00ce0000000380010030c000701c380000000c000401803001f030e0000000380;
   0x0;
   0x0;
   0x0;
   0x0;
   0x0;
   0x0;
   0x0;
   0x0;
   0x0;
   0x1c0060003018300000700e0007007000000000e0000700600000600c0000380300000000c0000000300000700e0000300300000c00600000181800000e060004000180000000300001c0300000380e0000000380;
   0xf80060003838300000380e000618ffe003fff8e0000300600038618c000c38e30000fff0c0000000300000600e0000338300000e00600000181800000e06000f83f180003ffcf8000180300000180e0003ffe380;
   0x1dc00600018303000039c0e00071c5ff003fffce0000700600038618c000e38e30001fff0c000ffff300000e00e0000318300001f006000fe1818000006060007fff180007ffdc0000380300003fc0e0007ffe380;
   0x1980060001c303000070c0e0006180c00000380e000fff7ff0038618c000639c30000c030c000ffff30003fff8e0000318300003b806000fe1818003ffe060000ff818000318080003ffc300007fc0e0003800380;
   0x11c0060007ffe30000e0f0e00071c0c00000380e000fff7ff0038618c000739c30001c070c000018030003fff8e0007ffc3000071c06000c6ff18003fff060000c5818000f18c1c007ffc3000070e0e0001e30380;
   0x3fffc60007fffff001fffbfc00619fff0000187fc000f80f8003aeb8c0003bb9ff000c037fc000181ff000aaaffc007ffdff001e0f3fc00e6ffff000003860000c1cff000f18c7c00300dff0003863fc0007f8ff0;
   0x3fffffc0075d5ff003fffffc0071dfff000fffffc001fc1f8003fffffc001391ff001c077fc00ffffff00060e7fc00575dff007c07ffc006618ff000001bfc000c0cff001f1ce7000700dff0001c77fc0007e1ff0;
   0x1803fc006180ba001003ae8006181f0000fffae8003be76c002aeaffc000380ba000c032e800fffeba00060c2e800030cba003801ae800661818001fffffc000c0e18003b0c68000300cba003fffae8000f80ba0;
   0x19b0600061803800079c0e00071c7f8000c1c0e00077776e0000700e0007ffc38001fff0e000e1863800071c0e000030e38000ffe0700076181c001fffc60000c061c00330e7c0007ffc38003fffce0007fff380;
   0x319b0e0006ba878000e0e0e000618fd8000c1c1e000e338678000f01e0007ffc78000fff1e000e1867800031c0e000030678000ffe0e00036183c0018260e000ffbe3c0033062e0003ffc780038c38e0007ffe380;
   0x319b1f0007ffc7c001c071f00071ccce000c1c1f000c710630003fc3e000600c7c0015551e000fffe7c0057dd5f001fffe7c0000e01f00036ff3c001c770f000ffbffc00130707000700c7c0038c71f00061877c0;
   0x399b3f0002bacfc003813bf0006008c7002eaebf000030c60000f2e7e000600cfc0000003f000fffefc003fffbf000fffefc0000e03f00036ff7c0018e31f0000c317e0003e3c3800300cfc003aeb3f0006186fc0;
   0x199b37000018dfc003039ff0007f00c3007fffff000000f00001e77ef0007ffdfc0000007f000e187fc007fffff001fffffc0000e03700066187e001dc71f0000c30de0001f1c1c007ffdfc003fff7f0007ffffe0;
   0x1bfff7800018fb6000018af8003e18c0002aaa8f8000fff800078e3ef0007ffdbe000aaaef800e187b60000e02f8000001b6003fffb7800e618de003ffff78000c3bde000006008003ffdbe003aeb6f8007ffebe0;
   0x1fffc7800fffeb6001ffc2f8000018000000000f8001fffc00031c1cd800755cb6001fffad800fffeb60000e02f8005554b6003fffa7800c6185e007ffff78000c1b5f000006000007ffcb60038c72f8007fff3f0;
   0xf9b07800fffe36000ffe0ec00aabaaa000aaa0ec000e00f00000400d800600c36001aab8d800fffe360000e00e8007ff8360000e006c00c6ff9b000c33068000c1b1b003fffffc00618c360038c30ec0061863b0;
   0xf1b07c00c1c033000e078ec00ffffff001fff0ec0007017c001fff8dc00600c370018038dc0001c633003fff8ec007ffc330004e606c01c6ff9b001c7306c000c1f1b803fffffc00f38c37003fff0ec0061873b8;
   0x71b86e00c1e03380070fcee00ffffff000eab0ee000383ce000fff8cc007ffc338018038ce0001ce33803fff8ee00601833800ee706e00c6ba9b800ce306c00ffde1980001f800003b0c33803fff0ee007ffe398;
   0x71986400c1f03100039dce40001ff00001c030e40003cf040006000cc007ffc310018038c40001dc310015f50e400701c31001ce306400c61c19000cc386400ffde1900007fe00001f0c310038c30e4007fff390;
   0x271986400e1b8300001f80e00003dbc0000c030e00000fe000007000c400600c300018038c00000f8300000e00e0006018300018e386000fe0c18003fff86400000c180000e6700000e0c300038c30e0006186380;
   0x7799c6000fd9c300001f00e0000799f0001c030e000007c000003000c000600c300018038c0000070300000e00e000701c300038e1c6000760e18003fff86000001e180003c63c0001c0c300038c38e0006187380;
   0x27d8c6000798f300003f80e0003e1878000c030e000001f800003800c000600c30001fff8c00003f8300000e00e0006018300030e0c6000060e18000c0006000007e18000f861e0003cec300038c18e0006186380;
   0x3ef0e6000798730001f9fce001fc181f001fff0e0000007fc0001c00c000740c30001fff8c0005fdf300000e00e0007ffc300010e086000060718000e0006001fff798007f0607c00f9fc300038c1ce0006187380;
   0x3c7046000018030003e07ee000e0180f000fff0e0000000fe0000e00c0007e0c30001aab8c000fe0ff00000e00e0007ff8300000fc06000060398000fc006000ffc3d800380603c00e03e30003ec0ee0007986380;
   0x1c3006000018030003001ce000001800001c030e00000001e0000c00c0003c0c300018038c000f001f00000e00e000701c3000007c060000601180007c00600054019800000600000400430001cc04e0007987380;
   0x0;
   0x0;
   0x0;
   0x0;
   0x0;
   0x0;
   0x0;
   0x0;
   0x0;
   0x706040000000180001c01c00001c0180000600e000038018000030c0000000038000e0c0e0000380300000000e000301830000060060000700180000600e000018038000070060000700600010000600001c0180;
   0x7060e000fe7f18000180180000180180000600e000038018000030c00007ffe38000e0c0e000018030001fff8e000303830000070060000302180000600e00001803800003006000030060003e07e60000180180;
   0x3861c000ff7f180001c01c0000180180000e00e0007ffe18003ff0ffc007ffe38000e0c0e00055d430001fff8e000383030000070060005753180000600e00001803800007006000070060001ff7e60000180180;
   0x18618000e26318003ffdffc00abaa18003fff8e0007ffe18003ff0ffc00600e38000e0c0e0007ffc300018000e0001870300000f806000fff618001fff8e000018038003fff86000fff7ff0003f6a6000abaa180;
   0x3fffff800e76318003ffdffc00ffff18003fff8e00001c018000030c0000700e38003fff8e000755c300018000e0001c70300001dc06000fff618001fff8e000fffe38003fff86000fff7ff00071706000ffff180;
   0x3fffff800e263ff00018018000eaaeff000e063fc0000c018000030c00007ffe38003fffffc00600c30001fff7fc002ea9ff00038e3fc00018c7f0000603fc00fffeff0000303fc000f80f00003031fc00aaeaff0;
   0x380001800e763ff0001c01c000c007ff00060e7fc007ffeff001ff0ff8007fffff000e0c7fc007ffdff001fff7fc007ffdff0007073fc000dcc7f000c637fc000181ff0015753fc001fc1f80007039fc001c70ff0].
Definition hanzi_rows_82 : list N :=
  [0x38aaa9800fe7f3a003ffdffc00c006ba00060c2e8003ffeff001ff0ff800600fff000e0c2e8007ffdff0018002e8006aacba001e03860000cc018000c622e8000180ba001fffae8003be3fc0003318e8001838ba0;
   0x39fffd800ff7f1c003ffdffc003ffc1800070c0e000006038000030c0000700e38000ffc0e000601c380018000e000700c38007fffce0000cc01c000c660e000018038001fff8600077776e000731c7000381c380;
   0x39aab9800e2633c00398d98c003ff8380003080e000aaea38000030c00006aae38000ffc0e000600c38001fff8e000600c38003bfeee0007fef1c0006660e0000180380000180e000e33a67003f37c70007fae380;
   0x1801c000e7633c0039dd9dc0000007c0057555f000ffff7c003ff0ffc007ffe7c000e0c1f0007ffc78001fff9f000700c7c0021545f0007fef3c00076c1f000fffe7c007fffdf000c71067003f37ef0007fff7c0;
   0x18018000e2637c00398d98c0000007c003fffbf000aebafc003ff0ffc002aaafc000e0c3f0007ffcf80000203f000600cfc0000003f0000c2c3e0002643f000fffefc003fffdf0000300600003362f800e0befc0;
   0x1fffc000e7637e0039dd9dc000000dc007fffff0001998dc000030c0000070ffc000ffc7f0000381fc0000607f0007ffdfc001831370000c0c7e003fffbf00000c0fc00555d7f00003ffe00007361f8004000dc0;
   0x1fff8000e263de00398df8c00fffede0000002f800399c9e000036c0000060fbe000ffc6f8000383bc0018622f8007ffdbe001821b78000c0cde003fffaf80001c0be000c0c3780003ffe00003365f800198c9e0;
   0x600000ff7f5e001dddddc00ffff5f0000002f8007fff1e00000600000470e3e000e0c2f800ffff36001c672f8007ffcb6001c7307c00ffecdf0001f02f80007b0bf001d5c1780003ffe000073777c0019dc1f0;
   0x600000ff7f1b0003c81c80003801b000ffe0ec00efff9e003fffffc00f6fe3b000e0c0ec00fffe36000c630f800066036000c6306c00ffec1b0001f80e80027323b003ffe06c000300e0000332c6c00198c1b0;
   0x3fffffc00e3631b0007e07e00013801b001ffe0ec00c5d31f003fffffc007ffe3b007fffcec00e38e37000c738ec00067033000e6306c005d4c1b8003fc0ec0076363b807ffe06c00030760000737c6e0019dc1b0;
   0x3fffffc00e3631b8007f0fe0003b981b800c060ee0001801b00003fc00000eae3b803fffcee00e38e33000ef18ee0006303380066306e000c0c1980076e0ee0060363b800c3706e00030f6000033386600198c1b8;
   0x1fc0000e36319000ff1df000339c19001c060e40015d41900007fe0000070e390055554e400e38e330006f1ce400063031000767064000c0c19000e670e400643639000c7306400031c60003ff38640019cc190;
   0x7ee0000e36198001d9b9b800738e18000c060e0003ffe190000e670000060e380003180e000e38e310001f80e000463830000302060000c0c18001c638e000e83638000c6386000833870003ff386000998c180;
   0x1f67c000e36198003ddd1dc00e38718001c060e0007ffe180003c63c001c70e38000f1c0e000e38e3000039c0e001c61c30000300060000c1e18003c61ce000dc3338000ce1c6001c37070000007c600199ce180;
   0xfc63e000e3e19800798f18e00e38398000c060e000018018000f860f000c68e38001e0e0e000fb8e3000070e0e000c61c3000018006000003f18003860ce000cc33b8000c40e6000c3203800003ec60009986180;
   0x7f060fe00e1e1d80031c71cc00c38318001ffe0e000018018007e0607e00d7fe38003c078e0007b8e30001f078e000fe0f30003fffc6001fff3980010604e0004ff138000c0046000ff001e007ffcf6001d9c7180;
   0x380603c00f9fcf80001801800003f018000ffe0e00001801800380601c00fe7e38003803ce000038030003c03ee000fe07b0003fffc6000ffc1980000600e0000fe038000fc006000ff000f003fe076000f983d80;
   0x600000793c580001c01c00001e018001c060e000018018000006000007c06380030018e000038030001001ce0007c0130000000060001401180000600e0000000380007c0060007e0007000000260007001980;
   0x0;
   0x0;
   0x0;
   0x0;
   0x0;
   0x0;
   0x0;
   0x0;
   0x0;
   0x700e0000000380000c00e00001c0380000700c0000700600001c01c0000381c00000700c0000180300000000c00001801800040006000001800000060060003700380000600e00001807000071c0e00001c0380;
   0x600e0007ffe380000e00e0000180380000600c0000600600000c0180000380c00000e00c000018030001fff0c000018018000ff806000001800000c61860007600380000e00e0000180e000030c0e0000180380;
   0xe00e0007ffe38001fff0e000ffff380015f50c0000700600001c01c000ffffff0000e00c000ff8030001fff0c000018018000fff86000001800000e7386000e700380018660e00001c0c000071c0e00001c0380;
   0x3fff8e000600638001fff0e000ffff38003fff8c000fff7ff003ffdffc00ffffff003fff8c000ff80300018630c0007ffe1800006b860007ffffe00067306000c60038001c660e000ffc7fc002bae8e0003ffe380;
   0x3fff8e0006186380015750e000555538003fffcc000fff7ff003ffdffc000381c0003fff8c000558030001c630c0007ffe18000060060007ffffe00077706001ffff38000c670e000ffe7fc003fff8e0007ffe380;
   0x3fc006186ff0000f03fc000000ff003001bfc000f80f00003e03e000028080003003ffc000181ff0018637fc000180ff0000600600000ff00000aba9fc00ffff380006630e00030660c003fffbfc003180ff0;
   0x7fc006ff7ff0007f87fc007ffdff003007ffc001fc1f80007f07f000038380003003ffc007ffdff001fff7fc000180ff003fffffc0001db80001fff9fc000700ff0006737fc0038760c00071c7fc0071c1ff0;
   0xfff2e8006ff6ba000fbc2e8003aacba002002ae8003ee76c000ef9fb0000f81c0003fffae8007ffeba001aeb2e800abaaba003fffffc000399c0000aba8e8000600ff0001f07fc0019be0e00030c2e800ffffba0;
   0x1fff0e000618638003e1f8e000700c38001fd70e000777e6f001ddcdfc001e00f0000ffe0e000755e38001c630e000ffff38001f77470001f18f00000180700046ff380007f80e0001fd7fc00071c0e001ffff380;
   0xc031e0006186380018038e000300c38001fbf0e000663c630038ce18e007ffffe000e061e000600e780018631e000aaaa38000e630f0007e183e00001807000e6fe38000f1c0e0000f07fe003fff8e0003180380;
   0x1c071f0007ff67c007fffdf0007ffc7c0019f71f000073f610011c61cc0077fffe000e061e0007ffe7c001fff1f0001c707c000e670f00078181f003fffcf000e6c73c003c1f1f0001f0006003fffdf00071c07c0;
   0xc033f0006ff6fc003fffbf0003ffcfc0018b3bf00000f7800000e058000060600000e063e0007ffefc001fff3f000783cfc002eeb9f000631862003fffcf80066c27c0038679f0003be0060000003f0003ffefc0;
   0x1c077f0006006fc001c007f0000000fc0019f1ff00003e7e0000070e0000060700000ffe7f000755ffc0000607f001f0dfdc003fffdf0000700700007071f80076c7fc0010613f00071f0070000007f0007ffefc0;
   0xfff2f8006006be000c002f8003ffefe0018b9ad8000f8ef80000e0780000723c0000ffe6f000600fb60000606d800c0e7de003ffff7800030060000e073780036c2fe0008603f800203803800ffe2f8000180fe0;
   0x1fff2f8006ff6bf001cff2f8007ffebe0019dbed801fe1c7f0003c03c00007d8fc0000066d8007ffe36003fffed8003ff0de000e6737800fff7ff001fffd7c0036c7fe0018666f800001803001fff2fc0071c73e0;
   0xe00e8006ff63b000ceb0ec001e003f00189f8cc00f8380f800f800f8000098380000060d8007ffe37003fff8d8003ff81b000e6306800fff7ff003bffe6c003efe3e001c662f800aabaaa000c060ec00718e3b0;
   0x4e60ec006c373b001cc70ec0007803b001dde0cc004ffffb007fffffe00555d55001ffe0dc0055d4330001f00cc00183c1b001f7746c000f8070003306f6e001cff3b000c630ec00ffffff001c070ee003fdc3b0;
   0xee60ee006c363b800cc30ee0001803b801e880ce001ffff80039fffcc00ffffff001ffe0ce000180338003f80ce001c3f1b803fffc6e000fc0f8000306066001c003b800ee38ee00aafeaa000ffe0ee000ff83b8;
   0x1ce70e4006c3739001cff0e400ffff390005cc0c4000f55500001d5d4000557f55001c060c401ffff3100077c0c4000e7719003fffc64001fc3fc000346064000cc0390006f1ce40001ff80001fff0e4000ff0390;
   0x18e38e0006ff338000cff0e000ffff3800008e0c000070000000180c000001fb800018060c000ffff30000e6e0c00007e0180000600640033676e0003e6060008ef8390001f80e40003dbc0000c060e0001dbc380;
   0x18e38e0006ff338001c070e0000180380031c60c0000380000001c0e00000799e0001c060c00155d530001c670c00003c01800006006000777377001946060019f7fb800039c0e0000f19f0001c070e00079df380;
   0x38e1ce0006033b8000c030e0000180380030830c00001c000000180780001f18f80018060c0000180300038638c0000fe01800006006000e33863801806060019b8fb800078e0e0003e187c000c060e000f183b80;
   0x30f4ce0007401f8001c000e0000180380031c38c00001e0000001c03e001fc183f001ffe0c000018030003061cc0007e7e18001fff86001c71c73001d5606001f9c138001f0f8e001f8181f801fff0e000c1c1380;
   0x7c0e0007c00f8000fc00e00001f838003f81cc00000f0000000fc0f800f0180f001ffe0c0000180300000608c000f81f98001fff86000830860000ffe06000f0e038003c03ce000e01807000ffe0e00000f0380;
   0x7c0e0007c00f8000fc00e00001f038001f00cc0000060000000fc07000401801001c060c0000180300000600c000c00718000000060000700700007fc06000f04038003001ce000001800001c070e00000f0380;
   0x0;
   0x0;
   0x0;
   0x0;
   0x0;
   0x0;
   0x0;
   0x0;
   0x0;
   0x3060000000300000600e00003001800000606000181c180000c186000003018000000060000c0018000602060000000300010001c0000180180000000e0000014180000700c00000003800009c0600001c0180;
   0x2aa3060007ffe300000600e00003801800000606000180c180000c3860003ffc18003fbfe60000e3f1800060306000fffe30001f801c0000180180000000e000000c180000300c000fffe380000cc0600001c0180;
   0x3fffc60007ffe300000600e00057d418000ffe06000181c180000c3060003f9f18003fbfe6000063f1800070706000fffe30001fffffc0055d418003fff8e0007f9c180000380c000fffe380001cc0600001c0180].
Definition hanzi_rows_83 : list N :=
  [0x3bbfc6000618630003fff8e000fffe180007fe06000ffff980000e306000338318003998c600006331800030e06000ccce3000003bffc007ffe18003fff8e000ff8c18001fff8c000e00e3800038e06000fffe180;
   0x338306000618630003fff8e0007ffe1800060706000ffff98003ffff6000338718001998c6000ffd31800038c06000ccce30000038770007ffe180000e00e000d7fc18001fff8c000e00e3800030606000ffff180;
   0x39833fc006187ff002bfa8e0000180180006ab3fc00180cff803fefffc003383ff001998dfc00ffdb18002baabfc00cccfff000038338000180180000703fc00c3fc7f001863ffc00e00fff003fff3fc0000c0ff0;
   0x399fffc007fffff0003fc7fc007ffeff0007ff3fc001d5cff800075dfc0031bfff001d98dfc00031b7f003fffffc00cccfff003fffffc0055d5ff00003c7fc00c35c7f001863ffc00ffffff003fff7fc0000e0ff0;
   0x399fce8007ffeba00076e7fc007ffeff0006002e8001ffcba000230c700031bf3a000d9fce800038b7f002baeae800eeeeba003fffff800fffeff00303e2e800e30c3a001fffae800fffeba000183ae8003ffcba0;
   0x19c307000618638000e670e00000c018000700070001d5c3c000758c700171bf1c000d9fc7000558f1c00019c07000fffe78000638700007fff18007c778e000671c1c001fff8e000070e38000187c60003ffc180;
   0x18cbaf000618638003c638e00000e038003fffef000180c3c003270c7000f1c33c000d98cf0007f8f1c00018c0f000aaea7800061830000620838001e638e000660c1c0018638e000030e38000183ee000300c380;
   0x18dfff00061867c007861df000ffff7c007fffef0001ffc7c003f6fcf001f0e73c000d98cf00077db3c00399ccf0000060fc00061ffd000733c3c000ff31f00067fffc0018739f000070e7c001fffdf000300c7c0;
   0x1ee31f0007ffefc002aaabf000ffff7c0000381f8001ffcde003f6fcf80000437c001998df00063fb3c00198cdf0000070fc00061bffc0033707c0007fb3f00066ffbe001873bf000fffefc001fff1f0003ffcfc0;
   0x1e73378007ffffc000fff3f0001c38fc00181f3f800181cde0037ecdf8007fff7e00199fdf80063737e00199ddf800fff1bc00061c75c0003667c0007de3f000761c7e001fffff001fffffc000187370003ffcdc0;
   0x23378000001be000eab7f8003ab8de003e3bf7800180c1e0032fcde8007fffde00399ff78007f33fe00198db78007ff9b600060c30000030ede000cce2f8003e08fe001fffed800030ebe00018337800300cde0;
   0x7017c0001d0b6000c036f8007ffcde000f71f7c01ffffdf00377cd6c0061875f00319dd78007f335f001d9db7c00701c3600060670000033cde000dcfef8003c7f5f00039c2d800070e3e00018717c00355c5f0;
   0x3006c00219b36000fff2f800fabe1a0003fc06c00ffff9b00326cc6c0061831b003198c6c0063331b000d8f86c00382e360000060000003901a000ded8ec001ceb1b00038e0d800030e3b000bab06c003ffc1b0;
   0x3fffe6c00739b33000fff0fc01f81f9b0006ef0660004c71b80376cc6e0073071b003198c6c0063331b000d9f06c0038f733003fffffc00ffff1b001df00ec001cdd9b80038f0cc007ff63b001fff06c00355c1b0;
   0x3fffe6600671b33800c030ee00981b1b0006e3e66000cc61980326ce6600333b198031b8c6e007f3f1b800f8f066001dc233803fffffc00ffff1b0019b80ee001cc999802baa8ce007ff63b800bab06e00300c1b8;
   0x7806400631b31000d570e4001ff819000ef1c66001c6719001f64664003f7fd9003fffc64007f1f1900079f064000f803100003fc000001c01900399e0e4001d9dd9007fffcc400603739000187064003ffc190;
   0xf806000e819b0000fff0e4001ab819000cfc0600038761800026e660001e0fd8003dbff600063031900018c060000780300000f6e00000ee0190031878e0003e88d8002baa8c000603738000183060003ffc180;
   0x1dc06000d819b00005550e000181818001ccf06000303718006766660001e0758000599f600063031800019c0600003c0300001e67c0001cf0180071c3ce000771cd80003800c00060373800018706000300c180;
   0x38e06000d819b00000000e0001818180038c3c6000100618002066360003f03180001980600063031800018c0600000f030000f861e0003878180020c08e0007388180003800c000603338003fff06000300c180;
   0x1f07c6000dff9f0007fffce0001ff8180070e1f6000ffff18007fe6360007fc71800019806000630318007ffff6000007c30007f0607c00701e180000fc0e000e1df180003800c0007ff3b8003fff06001ffff980;
   0x3e03f60000ff830003fffce0001ff8180020fc26000fffe18003fc7be000e1e318000198060007b0318003fffe6000001f3000380603c00e00f9800007c0e000c0ef180003800c0007ff1b800000306000ffff980;
   0x1800660000000300000000e00018181800007c0600000001800150796000404718000198060007303180000000600000063000000600000c0071800003c0e000c040180003800c000603138000007060000000180;
   0x0;
   0x0;
   0x0;
   0x0;
   0x0;
   0x0;
   0x0;
   0x0;
   0x0;
   0x70000000300000600600000003800070807000070e180000600600010003000003006000000030000c650e0000018180000700e000000018000060060000000180000600e000070060000700060000600180;
   0x2aa0060002aa830001c63860000ffe3800031e06000030e18000060060003e8030000830060003ff830000e630e0000018180000600e000000018000060060002aaa180000600e00006006000063fe60000600180;
   0x3fefe70003ffc30001c67060000fff3800071fe7000470e18001575060003ffc30001830060007ffc30000e670e000fffc180000600e000fffe18000060060007ffe180000600e0007ff7ff00077fe60007fdf980;
   0x3feae60003ab830000e6606000061838000303e6000e30e18003fff8600006fc30001fff06000300830000e630e000ffec18003fff8e000fffe18003fffc60006eee18003fff8e000fff7ff000638060007fdf980;
   0x60c67000301c3000076606000fe1838000707070007ffe18003fff86000070c30001fff06000701c30007fffce000060c18003fffce000e38e18007fffc6000666618003fffce0007ff7ff00071dc6000661c180;
   0x6c866000301830003fffbfc00fe18380003031fc001ffeff0000303fc00060dff000eba3fc003aa9ff003fffce000060e18003801bfc00e38eff0000603fc006666ff0000603fc000f81f800060f86000660c7f0;
   0x6cfffc00301dff003fffffc00c7fdff0077471fc00070eff001fffbfc00fffdff0007307fc007ffdff000e677fc00ffeeff003801ffc00e38fff0000703fc006666ff0000607fc003fc7fc003fe73fc01fffc7f0;
   0x6cfffc003019ff0001f82e800e7f8ff0033430f800830eba001fffae800fffcba0003b02e8002aa8ba000e633fc00ffeeff003fffae800fffeba0000602e8007ffeba001fffae80076e66e003fee3fc00ffe6180;
   0x64c670003ffc380003fc0e000e71c3800375fe7001c70e180000380e000070c38007fffce000000038000fe70e000c66f18000fff0e000fffe38003fffc70007ffe1c001fff8e000e7786700071c0600066071c0;
   0x668670003ff838000f6e0e000e33c3800337fef000c3fe380000180e000030c78003fff8e000ffff78000fe30e000c66f980000000e000000e38003fff8e00001c038001a698e000c63863000f7fe60006e833c0;
   0x66c6f00015547c001c679f00063fe7c0017670f000ffff7c007fffdf000070c7c007fffdf000ffff7c0000070f000ffeffc000fff1f000555e7c003b1ddf00001807c001e6d9f000071060000f7fef0007fdfbc0;
   0x3fefef0000000fc003863ff00063c67c001b679f8007e8efc003ffff70007ffcfc0000783f0003018fc003fff1f000eeeebc000fff3f000fffefc0039999f000ffff7c001b69bf000000000000fb70f0002e9ffc0;
   0x3fefff0005455fc001070b70007ff7fc001f7f9f80001c0dc00070e770007ffdfc00003c37000755dfc003fff1f000c66e7c000c033f000fffedc003999f7800ffff7c001b79ff000ffffff001fb71f00006187e0;
   0x3007f800fe7ebc000038278007a3bfe00170f9680000c09e000fff27800603fbe000fff378003ff9be0000603f800c66ede000c036f800e03e9e0038c1b78000030de001869af8007ffffe001eb7b7800fff85e0;
   0x70477800ff7fb600155d478001011be00071fd7c007ffe1f001fff87c00757d36001fffc7c00755cb60000607f800ffefde000fff6f800fffe1e003bfdd7c0000705e001fffaf800701800001fdfb7800fffddf0;
   0x78666800c26236003fffc6c007ffe3e00079bc6c006aae1b003861e6c007ffe36000c0fe6c00301836002aeaaf800aeae9a000fff0ec00fffe1b003ae986c002ab01b001fff8ec00301860003ec686800060d9b0;
   0x78c67c00c76737003fffc6c007ffe3b00078767e00700e1b803060c6c00757e37001c0cc6c007ffc33003fffcfc00066e1b000c030ec00e0761b003861c6c003ff01b0001f80ec00301870003767c6c00060d9b0;
   0x78c66c00c2623300070e06e0066663b800d8366600600e1b000fff06e00603e33800ffc06e003ff833802bfa8ee0006ee1b800c030ee00e0361b803aeb86e003ab01b8003f80ee001ff830007666e6e00ffef198;
   0x7df67400c7673300070706400666639000dc7774007ffe19000fff064007ff631001ffc06400701c310001f80e40007ce19000fff0e400fff619003fffc640030381900077c0e4001ff87000677776400fff7190;
   0x26dbe6400c2623100039f06000666639000dc3360007ffe180000b0060007ff630000c0c06000b8183000037c0e400038e18000fff0e000fff61800386186000303818000e6e0e0000018f8002626364000606180;
   0x6669e7000c767300001fc06000666638001cc717000700e180003f806000607730001c0c06001ffff30000f6f0e000078e180000000e000e07718003861c6000301c18001c670e0000019dc00070736000061f180;
   0x267066000fe7e300003f0060006666380018e306000600e18000f9c06000603730000c0c060003fff30001c678e0000f8e180000000e000e0331800386186000380e180038638e000001bdc00060606000063f980;
   0x363007000ff7f30001fff06001ffffb8003877070007ffe18001e0f060007ff330001ffc06000700030007c63ee0007fee18007fffce000fff398003861c60003d0f18007061ce001ffff8f0007070600157f9d80;
   0x3e3806000c26230003e0fc6000ffffb8003073060007ffe18003803c60007ff3b0000ffc06000300030003060ce000f8fe18003fffce000fff398003e61860001f83980020608e000fffe07800607c6000ffe1f80;
   0x1c1807000c76730001801c600000003800102707000700e18001001c6000607130001c0c060007000300000600e000c07e180000000e000e07118001e01c60001f01180000600e000fff003000703c6000ff00d80;
   0x0;
   0x0;
   0x0;
   0x0;
   0x0;
   0x0;
   0x0;
   0x0].
Definition hanzi_rows_84 : list N :=
  [0x0;
   0x180c00070181c0000660600001c0180000000600001c0180000600600000001c0000001800001c018000001060001b8030000000060000040180000004600001c0380000600600000003000018c060000700600;
   0x8180c0006018180000e606000018018003fffc600001801800006006000fff00c000fe018000018018000003060003b8030001fff8600070e618001ff8e6000018038000070060003ffe3000018cc60000300600;
   0x1dff8c000701c1c0001c706000ffff18003fffc600057d41800157506000fff7fc000fe7ffc00038018003f8706000738030001fff8600071ce18001ffdc60000180380000f8060003ffe300001cdc60000700600;
   0xdff8c000607f18001fff06000ffff18002aaac6000fffe18001fff860000037fe000c63ffc00fffe18003fae86000fffe3000180186000398c1800180386000fffe380001dc06000300e30003fccc6000fff7ff0;
   0xf180c000707f1c001fff86000c00718000371c60005d5518001fffc6000557067000c6018000ffff180039bfc6001fffe30001801860001d9c1800180706000ffff3800078f06000300e30003fcdc6000fff7ff0;
   0x3980c00060637f0000c3bfc00c623ff000320c60001838ff0000303fc007ff063000c62ba800c006ff0019bac600003803000180186000aeaa18001800060003818ff000e07bfc003aafff0000ecc60000f80700;
   0x7fffffc01ff777f001fffffc00de77ff000371ffc001c30ff000fffbfc00757577000c63ffc00cc27ff0019b0dfc007ffdff001fffbfc00ffffff0019fedfc001839ff007d55ffc003fffff00036dffc001fc1f80;
   0x3fffffc00ff7f3e001fffee8003838ba003f3effc000c30ba000fffae800603fff000c62aa800dc76ba0019b0dfc007ffdff001fffbfc00ffffff0019fedfc001830ba0037ffee8003aaeba000f2cffc003bc3fc0;
   0xc7c0e00070771c0000c367000701c38003f7fc6000ffff1c0000180f0007fffff001c73ffc00383838001dbfc7000638c380019c7860001c3818001986c70000c70380007ff07000300e38001c0dc600077e76e0;
   0xf8f0e00060633c0000c30e00060ef38000320c6000ffff38002abaaf0007ff0f0003c33ffc00739838000dbfcf0007ffc380018cd8e000399838001986c7000ffff7800080007000300e7800080c8e000e37a670;
   0x7ffef000737f7c001fff1f00000767c000371cf000c1c77c007fffff0000031f000143f55c00e19e7c000db0cf0007ffc7c000dd98f00071ce3c0019d6cf000ffff7c00193fcf0003ffe7c0000000f000c738670;
   0x103cff000637f7e000aeb1f00000707c001f3ccf000c1837c002baebf000aab3b800001300c0043c6dc000db0df000638c7c0006d19f000e18f7c0019fecf000abaafc0019bfcf8003ffefc000fff9f0000310600;
   0x300c7f00077635e0000c337801fff8dc001f7ddf0000380de00060737800fff71f001ffbffc000fe1dc0019bfdf0007ffcfc001fff9f001f5d7fc001800df0000181fc0019b0df8000001fc000fff9f0000700600;
   0x3ffc3f00066631a003fff37800fff8de000320f7800fffede000dfb87800aaaa0f001ff8ff0001c709e0019bff78007ffcfc001fffb78009ffede001800ff8000180be0019b0fe8000000be000c01b78001ffff80;
   0x1ff87d800767fdf003fff17c0001dedf000371f7800ffff5f003dfdc7c00001802001c6018000783c1e003180d7800638db600180ff78001ffcde001bfed7800ffff3e0019bfd7c007fffb6000c71b78001ffff80;
   0xaaa2d8006e7f9b00002306c0000cf1b003f3ee680000601b003860e6c00aabaaa000c63ffc00f01e1b003188c68007a0cb6001aafa780001801a001bfec6800ffff3b0019bfc6c007ffe36000c31868001818180;
   0x1fff0dc007c781f80006006c00ffc71b003f7fc6c0000701b00357546c00ffffff000cc3ffc01ffff1b00318cc6c015d5537001fffc6c0001c01b001b06c6c0001803b0019b0c6e00677737000c7186c001818180;
   0xeab0ce0060781980006006e00aac01b800320c6e003ff01b801fff86e00ffffff0006c03c000bffb1b80318cc6c00ffff3380180ec6e00abaa1b801b06c6c0019883b8019bac6600622233800c3186c001abab80;
   0x1c030c400707c1d003fffe640001c019000371c64003ff019001fff8640000ff000007c07e000301819003198c6401ffff3100180fc6400ffff19001b06c6400199c390019bfc6400677731000c31864001ffff80;
   0xfff0c400606e18003fffe6000aac018000320c64003030180003f80600003dbc0000380ff000301818003b9cc6400181831001ffec6400ffff18001bfec6400398e380019b0c6000622230000cf9864001818180;
   0x1fff0c00070679c00006006000ffc018000371c600030381800077e060000799f00007c3db800301818001fbfc60001c3830001ffec600001c018001bfec6000718738001930c60006777300010d8060001818180;
   0xc030c0006063d80000600600000c018000000c6000381c18000e67060003e1878000ee119e003018180001b3e600018703000180ee6000018018001806c6000e18738001830c60006222300020dc060001818180;
   0x1fff0c0007061dc0000600600001c018007fffc6000381e18001c63c6001fc181f003c7818c003ff8180001b1e60001c603000180e6600001c018001800c6000c1c338001834c6001fffff00075cf860001ffff80;
   0xfff0c0007e78180000600600000c018003fffc60001f0f98000860c6000e0180f00383c180003ff818000180260001f0030001f0e66000018018001f80c600001f038001f3cc6000ffffb0003fc3e60001ffff80;
   0x1c030c0003c781c0000600600001c018000000060001f03180000600600040180000201c18000301818000180060001f0030001f0e4600001c018001f00c600000f038000f1cc6000000030001500e60001800180;
   0x0;
   0x0;
   0x0;
   0x0;
   0x0;
   0x0;
   0x0;
   0x0;
   0x0;
   0x1980e000600c180000000c0003c001c0001c00600001c018000066060000430180000000600001c0380000e00e0001818180003800600000060c0000003000001c0180000000e0000180300000100e00001c0300;
   0x1980e000600e18003fff8c0007c00180030c00600001c0180000e6060000e3218003fffe600000c0380000600e0001c3818000380860007fc70c0007f038000018018001fff0e00001803000003e0e0000180300;
   0x7fffce000607e18003fffcc000ec001c0031c0c60000180180001c706000063718003fffe60007ffe380000700e0001c3018000181c60007fc3180007f1ff000018018001fff0e00001c030003fdf8e0000380300;
   0x3fffce000667e180001980c0004c0018003ff9c6000ffff18003fff06000063318000188060003ffe38001fff8e0000e3018001ff18600060dfff000631ff000ffff180018030e000fffe30003b818e000fffe300;
   0x1980e0006e77180001980c001ffff1c001ff986000ffff18003fff86001ff371800019c06000700e38001fff8e000ffff18001ff38600075dfff0006198b000ffff18001d570e001fffe300033018e000ffff300;
   0x2bba8e0006c3318003fffffc00ffff180018c39fc00e003ff0000c3ffc00ff33ff001fffc6000300eff001861ffc00ffff180018333fc007fc060003e1f9b0000000ff001fff0e000c0e6ff003319bfc000001ff0;
   0x3fffffc007c75ff003fffffc000c337f000dc11fc00fc07ff001fffffc000337ff001fffdfc007fffff001c61ffc0000c07f001c313fc0075cc66007c0db30003ffdff001d577fc01c767ff003319ffc007ffdff0;
   0x3199bfc0068ffff003999ae8000c237f000ec006000ffffba001fffee80003b33a001988dfc003aaeba001aebae80000c07f0018300600060cc66000ffdab8003ffcba0018037fc00c676ba0031b9ae8007ffcba0;
   0x31998e00060ffdc0039998e000cdf31c003ffd5700017fc1c0000c3460001df71800199cc7000700e38001fff8e0007ffe1c001ff0070007fcd76000ffdffc00301c18001fff0e0000670380031bd8e000700c380;
   0x3fff8e00062db180039999e000cde31c003ffdef000000c38001fff0e00039f338001fffcf0003ffe380018618e0007ffe3c001ff3ef0007feffe000e0983000300c38001fff0e000fff8780031ff8e000e00e380;
   0x3fff8f00067db3c003f9dbf000cc331c0001c1ff000001c7c001fff1f00070b77c001fffcf0007ffe7c001c719f00000603c001573ff000606d7400077d9f0003ffc7c0000001f000fffcfc003ed7df001ffff7c0;
   0x31999f0006efb3c003f8fbf000ec233c0001c19f8003ffc7c0000c33f00060337c0000001f00000e0fc001861bf00000607c0000339f0006060700003e19b8003ffcfc003fdfbf000061efc001e60df001eaaffc0;
   0x3fff9f0007cff7c003805ff0006fff7e0000f19f8003ffcdc003fff370000030dc001fff9f8000061fc001fffff000ffff7c001ff3bf8007c70380007f1918000000de003fdfff000061ffc0000403f000700dfc0;
   0x3fffbf80068dbfe003aabed8006fff7e001ff997800060cde003fff278000000de001fffb7800ffffbe001fffaf800fffffe001ff3b78003c381e001e7df0c00fffe9e0030186f8007fffb6001fff3f8007ffdb60;
   0x7f80060db5e003fffcd8006c635e001ffd97c00061cde000003078007fff5e001c0197c00ffff3e0006702f80000385e001d7397c00001804001c1ff0c00ffff1f0031d9ef8007ffb36001fff2f8007ffcb60;
   0xfff2f800e0db1a0038018cc003c639b00186d86c00060c1b0003ffc68007fff1b00186186c000c383e0006780ec0000181a00183386c00aabaaa00000600000e0061b0033998ec000618330018630e80043e0360;
   0x1fff0fc01ffff1b0038018cc003dfb1f00187586c00061c1b0003ffc6c0067771b001c7186e001d9c3b000e780ec007ffc1b00183386c00ffffff003fffffc00eff71b00331b0ec000618330018630ec00e770330;
   0xc030ee007fff1b003fff8cc003b6b9b801fe186600ffff9b80038c06e0062231b00187186400798e3b801a780ee007ffe1b00183386600aafeaa003fffffc00eff619803a1b0ee002eb833801aeb0ee007e3c338;
   0x1c070e40061d999003fff8c4001b6d9d801ff186400ffff99003f8c06400677719001c7186401f187b9001f7c0e400575719001ff38640000ff0000003fc0000ec3719003e1c0e4007ff831001fff0e4003e3fb10;
   0xfff0e40060d9990018830c0009b6d9800186986000040018003a8e0600062231800183186000ffffb8003fee0e000030399001ff38600003dbc000007ee0000ec3618003f9f8e0000618300018630e0000e33b00;
   0x1d570e00060d9980019d98c0019c679c00187f860001e7018003007060006777180015b9060003ffd380017670e0000303d8001553860000799f00001e678000eff7180033dbce0000618300018630e0001c31300;
   0xc030e00060d9980039998c000be6198001ae7860003c3c18003807060006223180007dc060000180380020638e0000301d800000fc60001e18780007c63e000eff6180030d8ee0000618300018630e0003a30300;
   0x1fff0e00060d9d8003399cc001f779dc001ff1c6000701f18003803c6001ffffd8001f0f86000018038007563ce000ffff58007ffce6001fc183f007f060fc00e007180030180e001fff830001fff0e000f3f8300;
   0xfff0e00060f0d8003338ec000f378d8001ae086000e00798001f81e6000ffff98003c03c6000018038003fe0ee000fffe18003ff866000f0180f003c0603c00f80618003e1e0e000fff830001fff0e001e0f8300;
   0x1c070e0006070d80071104c000e100dc00187006000c00118001f8066000000018001000c60000180380015404e0000000180015400600040180000100600c00780718001e1e0e0000018300018030e000c018300;
   0x0;
   0x0;
   0x0;
   0x0].
Definition hanzi_rows_85 : list N :=
  [0x0;
   0x0;
   0x0;
   0x0;
   0x0;
   0x60000300180000000e00001c030000006000000c001800030007000580c180006060e0000118180000000600001c01800071c0c00000001800030c0600000c0180000600c0000000180007000c0001838300;
   0x3fffc6000337e18000fff0e00000c030002aaeaa8000fe01800030a82000780c1800060e0e000039818001fdfc600001801800030c0c0007ffe1800030c0600001c0180018638c000fffe180003188c0001838300;
   0x3fffc60007f7f18001fff0e00000c030003fffffc0001ff1800033fc7000d80c1800070c0e000071c18001fdfc60007fff18003fff8c0007ffe18003fffc60007fff18001c670c000fffe1800070fcc000ffff300;
   0x2aaac60001e60180007180e000ffff300000060000038621800031a82000d82e98003fffce000060c180016dac60007fff18003fff8c000600618003fffc60007ffe18000e660c000018018002baf2e800ffff300;
   0x767c60004e73180003f80e001ffff300007fffc0003ff41800039c070005d7f98003fffce000fffc180016dec600055d51800175d0c00060061800030c060001c381800066c0c000ffff18003fff7fc001838300;
   0x266c6000ec37ff003fff8e0004660300006060c00000fe18003f8c1fe00ffae980001980e000fffeff0016daffc00318eff00030c0c0006aae1800030c3fc000c307f002aea8c000ffffff002bbbee8001ab8300;
   0x366dfc007c1eff003fffffc00ec77ff0007fffc0007f667f007fffffe00ff8c7f001fffffc00575fff0016deffc0039dcff00071c7fc007ffeff001fffbfc00ffff7f003fffffc00c183ff000788cf0001ff9ff0;
   0x326dfc003abcba0038f07fc007c3fff0002aea80003ff87f003bbfeb800198c7f001fffbfc00030fba0012daee8001d9818003fffffc002aaeff001fffae800ffffba003aabffc00fdbf18000f989f0000ba9ff0;
   0x7f7fc700077fe18001ddc0e000381c38003fffffc0061ff1c0019d8c7001d9ff9c0019998e0007fff9c0017dbcf0000dd81c007fffce000777618001d558600055551c0038018e0003dbc1c001fcfff8007ffc380;
   0x3fffcf000f2af38000c8f8e0003ffe38003fffff800e0603c0019d8cf000d9ffbc001f998e0007ffdbc0012dbce000ffffbc0000600e0003ae638001c018e0002aa83c003fff8e00029aa3c001bcfad8007ffc380;
   0x3318df001e007fc0001c3df000ffff38003ffffdc007fe03c0019dfcf000d99c3c001f9f8f000070d7c0007071f000fffffc0015751f00007063c001fff9f0003ffc7c001fff1f0007dbe7c00377f2dc00638c7c0;
   0x2d5bdf000bffd7c0000f0bf000f00fbc003bfffe8007fc07c0019dfdb800d9887c0018019f000030c7c000f8fb700000007c001fff9f0007ae67c001fff9f000300c7c000c063f0000180fc00337f8ce00638cfc0;
   0x35dbff0003ffcdc003fffff000bfff7c0001557000070387c001978df800799c7c001fff9f0007ffcde001dd9f78005554fe001d77bf000f77e7c001c01b7000355cde000c063f0007ffede000729ec4007ffdfc0;
   0x37dbd7800300cde003fffef8003ffcfc0003fffc0003e3fde001b58d280079a9de001801bf8007ffcde0038e8e78007ffede001863bf8000206de001fffb78003ffcde000c066d8007ffe9e0003068c0007ffdbe0;
   0x145bd7800300cde003911af800301df60003003f8000f8fde001f18d7c0075fdde001fffff800070c5f00105847c007fff5f001fffed8000767de001fffb7800300c5f000ffe6d80000001f000007000000381b60;
   0xe5be68003aac1b003bb98e800300db60003fff3800ecac1a000f1fc2c003fa99a001fffaf800030c1b00001806c0060021b001fffad80002269e00006006c00300c1b000aea0d800ffff1b00000600000fffe360;
   0xe5f66c003ffc1b003f1d8ec003ffc370003fff0000ffff9b000f1fc7e01bfdd9b0003000fc01fffc19807fffe6c0077f71b0018638cc007ff71b00007006c003ffc1b0000600cc00ffff1b003fffffc00fffe370;
   0xe7f66c002aa81b803e0f8ee003ffc33002aaeaa8000f8f9b000e18c2601b98b9b002baaaee00fffc19002eaea6e006432198018638ce002abb1b803fffe6e002ba81b800aea8ce0000381b803fffffc000380330;
   0xe5d664001c1819003fff8e600119c31003fffffc00fc7c19000658c7401bc1f99007fffee400000c1900070606400743719001fff8c600071f19003fffe6400018019001fff8c40015581900001f800000380330;
   0xa08664000c3818003b098e400398c31002abfea800ffff99000e7ec2000e60b990003020e400326e1800038f0600067f218001fff8c400aaab190000f806000ffff98000aea8c4003ffc18000039800007ffc310;
   0x1b0c760000e3018003b198e000718c30000077f00000f8f98001f7ff7000e39fd80003070e0007766180001ff0600075571800020c0c000ffff180001dc06001ffff980000600c000755418000079e00007ffc300;
   0x1b8c36000063018003ba98e0006186300003e6780008c6c18001b98f2000001cd800030e0e000e666180003f806000600218000f1e0c000aaab9800039e060000180180000600c0003000180000f0f80000380300;
   0x31c636000ffff98003bf98e000e18730001f861fc018c7e180039d807001fffcd800031c0e000c66718001fff060007fff18001e0f0c000070198001f0fc6000018018007fffcc000300018001fc07f000ffff300;
   0x30e736000ffff98003e098e00041f230003e0603c00fc1e180070f802000fff0780003e80e000ce6398003e0fe60007ffe18007803cc0000201d8003c03e6000018018003fffcc0003fe018003f800fc00ffff300;
   0x204216000000018001e018e00001f03000100600c005006180020d8070005500580001e00e000c46118001801c6000700718003001cc000070118003000c60000180180000000c0001fc018003c0001c005555300;
   0x0;
   0x0;
   0x0;
   0x0;
   0x0;
   0x0;
   0x0;
   0x0;
   0x0;
   0x1c060700018201800030c0600000c01800003006000018318000001870000700000000000e000007018000070060000c0c1c0000300600003041800001c060000000180000700600020c04400001c060000180300;
   0x8060600018631800030c0600001c01800003006000018318003fc1820000607fe000aaa8e00002b818000070060000e0e1800007006000030c1800000c06000ffff180000600600062eaee00000c060000180300;
   0x1c06070002c3318003fffc6000ffff18003fffe600001dfff003fc7c7000fff7fe001fff8e0000ff8180001fc06000067f9c003fffe60007f06180003fe06000ffff18003fffc600077fefc0007fe06000fffe300;
   0x87fe60006db318003fffc6000ffff18003fffe6000ffcbba00330fc2000fff60e000aea8e0000e1c1800038e06000067f98003fffe60007f86180001ae06000aaab18003fff8600018c0380003ae06000fffe300;
   0x1dffe70003efb1800030c06000d5571800000006000ffe31c00330cc700030c70e0000600e000575e18001f370600006619c000000060007196180015d78600060031800060606000ffff7c000187060000180300;
   0xb66660003efbff00030c06000c19b18000fffbfc0030effc0033066fc0038c7fe003fffce000ffffff003e63c6000ae61bf001fff860003bb3ff001fffffc0061ff1800070e1fc00ffff6f000bebbfc007ffdff0;
   0x1f667fc001c63ff003fffffc007ffdff001fffffc0039fffe0031867fc005dd7fe003fffffc005dd7ff003fffffc01ff7fff001fffffc003ff3ff001863ffc0061ff7f00175d5fc0001c0e7001fffffc007ffdff0;
   0xa667fc002cb3ba003fffffc007ffeff0008a88600019bc07003b9ffb800fff806003060ffc001dc6ba0027ff3fc00ff7f980018a8bfc00301b180018630e80060037f003fffce8003ff8f0001863ee800618cba0;
   0x1c7fe70007fff1c003000c700037e71c001dfdc70001f8cff801cfff70005757fe003f7fce00070f61c000dc58600063619c0019fdc7000755d9c001fff0700060031c007fffc70003ffffc001863ce0007ffc380;
   0x9e6670006fbb3c0037fece0003e7b3800098c8f0000f0efe00085a670000607fe000f6f0e000633e3c000cfd8e000636bbc00190c8e000ffefbc0018630e000fffb1c00000007000381ffe0018638e0007ffc780;
   0x1f6667000ffff3c0005540f0001e79bc001dfdcf0000f06c600079b67000fff61f0000600f00047167c000c719f00067ffbc0019fdcf0015f4fbc0018631f001ffff3c001fff8f0003ff9c7001fff9f000618c7c0;
   0xa666f000ffff7c0000001f0000c3e7c0008009f0001f86fe00069fef800fff60b001f6f8f000fffefc000dfdbf00067867e0018009f000038e7e001fff1f000618bbc0018618f0003ff8e2001fffbf0006bacfc0;
   0x1c7fff80018637c003fffdf0001ffe7c001fffdf80079f6fe0006dfef8000707ff001f7f9f000fffede000d8df7000778c7e001fffdf000c7c67e0015551f000618f7e0018619f80038186000183c770007ffdfc0;
   0x387fff8001823de000038378003ffede000aaab7800e0f780003fda7a8000607f80000603f80000069e000fffa780036ffde001fffb7800e6e35e003ffff7800678bfe001fffb78003ff87e001c3e278003981be0;
   0x7f861fc006db35e001c1f17800f557de000fff97c00401b80003fdb7fc00071800001fffff8007ff61f000575078003cffdf000555178007e5f1f003fffd78006dffdf001d7597c003ff83c000f77c78007580b60;
   0xfee06c006dbb1b001e33c6800c0039a000fff86c000018000006da62c00001800001fffaf80000061b000038068003c031b000fff868003f1f9b00000006c006dfb9b00186186c000018000003f886c00fffe360;
   0x1c6f07c003eff1b0007fcc6c007fff1b00000006c00ffffff00067fe7600ffffff001c638ec007ff71b803fffc6c001c071f000c0186c006dc79b801fff06c007dcd9b001fff86c00ffffff0007dc06c01d7fe370;
   0x8ef06e003e7b1b8003ee06c007ffe1b003fffe6e00ffffff00061fe2600ffffff0018638ee007ff619003fffc6e00187f19800fff86c006ce019800fff06e00688999800aea86600ffffff0006e786e0080c0338;
   0x1dfd874005cf3190006f7c640011c419003ffff640000ff00007fdb6740000ff00001fff8e40000071900399cc66001c7f1d000fff864007e5819001c030640078d9990000600640000ff00000cf1e640031fa310;
   0x9fd860006cb318000ef8c6400198c190002310600001db80003fda6200001db80001fff8e4007ff318003b8cc64003c6318000c0186400eb1e18000fff0600060d998001fff8600001db80000cf8c6000633a300;
   0x7dfdc70007fff18000cde0600039ce18000773860000799f000061b770000799f0001c638e000757318003bfec60003e731c000fff86000ddcfd8001fff0600063d9d8001fffc60000799f00018df06000eb3b300;
   0x230ce6000c38b18001cc786000718618000e31c60001e187800061a220001e18780018638e000603398003a3ec6000762198000aaa86000c8e398000c030600063f8d8000060060003e187c0038c386000d83b300;
   0x355c77000ffff180078e1f600061c718001c70f6001fc183f00061f37001fc183f001fff8e0007ff198003800c6000e771dc007ffff60009c7018001fff0600061fed8007fffe6001fc181f8030e1c6001dff9b00;
   0x3ffc3e000ffff1800307c2600061f31800383e76000e0180f00061e32000e0180f001fff8e0007ff198003f00c6000e3bcf8003fffe60000f0018000fff060007806d8003fffe6000e018070000f8060008ff1300;
   0x5501700000001800007c0600000f01800103e0600040180300061c17000401803001c038e000603198001f00c6000c11c5c00555556000070018001c03060007800180000000600000180000007c060000000300].
Definition hanzi_rows_86 : list N :=
  [0x0;
   0x0;
   0x0;
   0x0;
   0x0;
   0x0;
   0x0;
   0x0;
   0x0;
   0x6000000070c040000c00000001c07000006000000030400000070180000180e0000061c70000180e00000601c0000306000000704000001c0000000600700001c20000001800000001c00000000300000c30180;
   0x62aa800030e0e0000c3ff800018060000062aaa00038ffa000070180000180e0000061830000180e00000600c00003860e000030ee0000180000000600600000c78000001800000001c00000000380000c30180;
   0x67ffc0003061c0000e3ff80001c0e0000073ffe000187ff0000755d400019c6c000071c700001c0e00000704e0000187bf000071c700001dfff0000700700001c7fc00001800000001c0700000038001ffff980;
   0x63aa8000383380000e30180000cfff000033ffe0001806a000033ffc00018e6c00007183000018fff000030e60000183f80000318300000cffe0000300700000c07e000018ffc00000c0f00000018000ffff980;
   0x3ff195000ffbfff003fe355801ffcfff007ff0760007f8060000037ffc00ffc666007ff7ffc00ffdfff007ff1c7000ff81f000157383801ffc007007ff3ff000ffc006003ffcffc00155e3e001ffffc0003c30180;
   0x3ff1bf800ffbfff003fe3ff800ffc60c003ff026000ff8aea003ff818000ffc766003ff3ffc00ffc0e0003ff1eb800ff87f8003fff09c00ffce06003ff3ff000ffe006003ffcc0000fffe78003ffffc0006601180;
   0x3571b5800d5c19800357355800c0e71c00303bffc00d5dfff003ff95d400d5c377003579c7000d5c1f000303bffc00d5cf1f003ff819e00d5e61f00303803000d5600600380cc00007ffe30001ffffe001ffffff0;
   0x3039b1800e0c19800303301800c0e31800309bffc00e0dfff00381bff800c0e0f000303983000c0e3b800309b2f800c0cc3f00319838800c0661e00309803000c060060018aee0800600700001c000e000fffeff0;
   0x3999b18006edfff0031bbff800e773980039df36c0066c06000191fffc00c663f80031ddff000c7771c0039dd07000c6e03000319c7c000c7773f0039dc03000c777fe0018e661c0070c700001c070700006061c0;
   0x1999bf8006eefff0019bbff800e67fff00198f26c0066e06800199c0000066679c00398dff000e6760f00198c03000e67fff00398eee000e6333600198c03800633ffe0018e76380030c380000e06038007ff01c0;
   0x199d950006e799800199c06000677fff0019cf36c00767f7f0019cfff800667e1f0019cfc70006734070019cfff000667fff00198fc6000673b770019cfff8006739c60000e77700030c3c0000607038007771bc0;
   0x1989800000e3fff001b8003000672000001983aec00260f6f000d8fff8006620e700198d83000661fff801981ff800662018001987870006703e60019c1ff8006311860000e23700038c18000070601c006eb3bc0;
   0x18fffe000e3fff000387ff0000705540001c3ffc00061c670001c0000000700600001c1ff000071fff8001c019c000600dc0001c3838000701c70001c1ff8000701c60000e03e00010c120000707010007ff77c0;
   0x38fffe000e0998000386ab800070ffe0001c2aa8000e0c630001c000000060c6c000181ff0000706000001c018c000e0aee0001c701c000701860001c1800000701860000e03c00000e02000000f000006636fe0;
   0x3c3800000e199800038731c00070ffe0001c0180000e1c670001c7ffe00070c6c0001c1c70000706fe0001c018c000e1fff0001c3ffe000703c70001c1800000701c60000e01c00001e07000000f000007ff05e0;
   0x383aa8000e0fff00038619e000f0e060003c0180000e0f7f0001c7ffe000f0e660003c1830000f06fe0003c3ffc000e0aef0003c1ff4000f03e60003c1a00000781860000e03c00001e03800000f800006eb01a0;
   0x7c3bf8001f1fff0007c739c000f0e060003c3ffc000f1f7f0003c0180000f07660003c7ffc000f06c60003c3ffc000f1ccf8003c1830000f07770003c1ff0000f81c60001f03c00003f01c00001f800007e361b0;
   0x6c3b18001b03980006c66d8000f8ffe0003e3ffc001b0c630003e19b8000f82630003e7ffe000f86c60003e0180000f08cd0003e1830000f86360003e1bfc000d81860001b07e00003301c000039c000018061b8;
   0x6e3b18001b079c0006c7cf8001d8ffe000760180001b1c670007e1998001d81f3000765554001d86c60007607c0001b1ccc000761830001d8e3f000771c7c001dc1c60003b87700007380e000071e0001ffff198;
   0xee3b18003b8d9e000ee30180019ce06000670180003b8c63000663998001983f00006606e0001986fe0006706c0003b88cc0006618300019841e000671c000018c186000318e38000e3c0e0000e0f0000baeb190;
   0x1c73bf80071dd9f000c77ff80039ce06000c73d800031dfff000e7319c0031c7b8000e70e700039c6fe000c70ee00031ddcc000e718300039c01f000e31c000038e1c700071c43c001c1e070001e07800018e3180;
   0x183bab80061c99b801c73ff80070eeae001c3bfe80070cfff001c3b18c0070ee1c001c39c380070e606001c39c700070cecc001c39ff00070e006001c38c0000707183000e0e01e003c0f020003c03e00019c1980;
   0x383f81800e0e19900383b00000f07ffe00381c7fc00e0ffff003c1c18400e0741f003c1d83c00f0760000381d83c00e0e4cc003c1dff000f07fff00381cfc000f079c3003c0780c00f807c0001f801f8001981d80;
   0x701fe0000c0719800301fe0000e03e0600300e00c00c0700300380e1e000c0380780380e81c00e03fc000300e01e00c070c000380e03000e07ffe00300ef8000e03d83003803c0000e001e0003e0003c001e00980;
   0x200de0000c02198001019e0000c0340600300400000c0200000300c1e000c01003001004008004017c000300400c00c020c00010040300040300000300478000c01800003001800004000c000180001c001e00180;
   0x0;
   0x0;
   0x0;
   0x0;
   0x0;
   0x0;
   0x0;
   0x0;
   0x0;
   0x1700000003000000001c00000006000000060000000700000000c000000000000000000000000000000000000000000000000000000000030060000070000000038000000706000000000000000c000000380e00;
   0x3b0ffc000303ff00001cffc000073ff000060ffc000387ff0000c0ffc003ff7ff0007f9ffc007e07ff00000000000000000002aaaaa800030060000360000000038000000306000000000000000c000000380e00;
   0xf71ffc000337ff00001cffc00fff7ff000071ffc000787ff0000c0ffc003ff7ff0007f9ffc007fffff003fffffc007ffffe003fffffc00030060000f77ff000003870000070600007ffffe00000c000000183f00;
   0xc30ae8000332ba00000eae800fffaba000030ae80007c2ba0000c0ae8003032ba000618ae80003faba003fffffc007ffffe002abeaa800030060001e63ff0001ff830000030600007ffffe00000c000000187380;
   0x107006000033818001ffe07000fffc18000738060000fc018001ffe060003030180006180600007101800003018000001c0000000f00000fffc60001c70000001ff8700000706000000380000000c00000ffcf5e0;
   0x1fb0060007ff818001ffe07000000e18000618060001ce018001ffe060003030180006180600003001800003018000000e0000002780000fffc62000860000000038300000306200000380000000c00000ff9fff0;
   0x1fff070007ffd1c001d5707000100f1c000e1c0700078701c001dd60700030301800061c0700007011c0000301c0000007000000f7c0000030066001575554000038700018706300000380000000c0e000d5c9530;
   0xffff000030ffc001803ff0003ffffc000c0eff000f23bfc0018c67f0003033f800060cff0000303fc0008300c0000fff800003e6f0000030066003fffffc00003830003c306300000380000000c0e000c0c2a80;
   0x717f000030ffc001801ff0001ffbfc001c07ff001e71ffc001cc67f0003ff3fc003e0eff0000703fc001c37fe0001fffc0000f867c0000307e6003fffffc00ffffff001f77e300000380000000c0e000c6e7fc0;
   0x6063000030f8e0019fee38000e038e003fffe380083878c0018c6638003ff30c003e0fc300003038e001e37fe0000fffc0003e060f8000303e600006020000ffffff0007b7e3000003838001ffc0e000e6660c0;
   0x3f70638000305860019fe6180007c186003fff6180001c186001cc66180030338e007c07c3800575586000f37070000c00f0001c0607c007ffd6600006060000555d550001f7e3000003838001ffc0e00066760c0;
   0x3ff861800abab860019866180001e18600700b61c0000f9860018c661800303386000000e1800fffd860003b3038000e0078000006008007ffc66000060620000818400000f0630003ff83800000c0e0006627fc0;
   0x7fff1c01ffff9f00198673c00fffdcf00100073c001c799f001cc673c0030319f003fff67c01fffd8f0001f387c0007013c00000400000703866000060630003818c0000070630003ff83800000c0e0000607fc0;
   0x106fb6c00ffffbf8019fe37e00fff9ff80000077e000e01bb803fffbfe003031bb001fff6ec000301bf8000f38fe0007039e001fffff8003030660000efe30001818e0000030630002ab83800000c0e0000600280;
   0x38603fc000fc1f90019fe3e600d8d1f9801ffe7f4000701f9007fffbec003031fb001c067cc000701f9000031dec00038f0e001fffff8003070660000efe30001c18700000706300000383800000c0e0000f1fff0;
   0x18e03c0000fe0e00019863c000dc60e1001ffe3c0002380e00000e0380003ff0e0000c0e780000300e1000031f8000039e00000006000003860660000e0630000e18380000306300000383800000c0e0000e0aba0;
   0x1ec0180001f60e000198618000cc70e0001c0638000e1f0c00001e0180003ff0c0000e1c300000700e0000030f000001fc000000060c0001ce0660000c06300007181c0000706300000383800000c0e0000f1df30;
   0xfc0180003b706000198618000ee3860001806180007078e00001e0180003030e000071838000030060000030e000000f000000aae0c0000cc0660000c06300003980e0020306300000383800000c0e0000f0bb60;
   0x7c01c0007338700019fe1c000e71e70001c061c0003818700003f01c0003030700007f81800007007000303070000007800000ffe0c0000fc7e60031c06300001f8040070706300000383800000c0e0001b9f340;
   0x1e00e000631c300019fe0e000e30e380018060e0001e00300003380c0003030700003f01c00003003000303038000003c00000aae0c0000787fe0021806300000f8000070306300000383800000c0e0003b8e3c0;
   0x31f807001e30f38001c060700061c03c001c060f0000f003800071c0e0003030380001f00e0000700380070301c000001f000000060c0000fc1ff00719f63000007f00007077e300000383800000c0e00031dfbf0].
Definition hanzi_rows_87 : list N :=
  [0x23be07000c3071c0018020300060e01c0018060700003c01c000e1e0700030301c0003f80e00003001c0030300f0000007c00000060c0001ee01f80339ffb000000fc0003037fb000aababa003fffffc0070c8b30;
   0x371fc3c0083030e001c0003c0070f00f001ffe03c0001fc1e001c0f03801fffe1e001f3f0780007000f003ff007c000003f8007fffffc007c7c03003707ffc000007ff003ff7ffc00ffffff003fffffc00e0fc310;
   0x3e0381c00030007000fc001c003e3007001ffe01c00007e0700380381800fffe0e003e0f83c00030007001fe003c000000fc003fffffc00f03e00003e000fc000000ff003fe00fc00ffffff003fffffc00e07f3e0;
   0x1c00008000300020007c0008003e0002001c0600800001c0200300181800000006003801818000700020000000000000001800155555400400600001c0000400000006000000004000000000000000000040271c0;
   0x0;
   0x0;
   0x0;
   0x0;
   0x0;
   0x0;
   0x0;
   0x0;
   0x0;
   0x300000001800000001000000000000000000000000c000000000000000000000038000000e0c0000001c0000000000000010100000006000000030000000000000007000000;
   0x7fff8000080000000ffff80003fc070000fe0180003fc038000ff3ff8001fc7f80007f9f80003fe0000000fff00000381ff000e0cffc000381ff0000003fc00383bff0000607fc000383ff000ffeffc00ffe1ff0;
   0x7fffc0001ffff00007fffc0003fc575000ff7ffc003fcfdf000ff7ff8001fc7fe0007f87f0003fefff0001fff0000ffffff003fffffc000381ff001fffffc001873ff0000607fc0003c3ff000ffeffc007ffdff0;
   0x6aabc0001ffff00006aebc00030cfff000c63ffc0038cf86000e330180018c00e0006180f00038effe0000eab0000fffe18003fffae800fffc18000fff86000186018003fffae80007c018000c06ae800202cba0;
   0x6011c0001c183000060c1c00030cfff000c701800038cc07000e370180018c1560007180300038e0070001c03000003801c000e0c06000fffc18000700070001ce01c003fff870000ee01c000c060600071d8180;
   0x6078c0001c183000060e0c00030c30c000c63ff80038cc02000e330180018c3fe0006180300038e6060000c0380007ffc18000e0c06000c00c180003c0030000e2018000030020001c6018000c06060003198180;
   0x61f0c0001c183000060e0c00030c39c000c73ff80038cfdf000e37ff80018c7fe00071c5700038671f0001c0380007ffc1c000ffc07000fc0c1c0001e003000fffc1c0000300700038701c000ffe1700031b81c0;
   0x63c0c0001c183800060e0c00030c198000c300000038cf9e000e32ab80018e20600061cff00038631e0000c0180000000fc000ae87f000fffdfc003fefbf000fffdfc000fffff0007039fc000ffeff0003bb1fc0;
   0x6180c0001c183800060e0c000f0efff001c77ffc00f8ec07007c39998005867fe00071cff001f873370001c01c000fffffc0000c07f0001ff1fc001fefff000e38dfc000fff7f001fffffc0000007f0001f71fc0;
   0x6000e0001c1838003fffffc00f07fff003c3bffc00f06c02003c1d99800f873fe003e0e03000f03bf6003fc00f000fffece001ffe638000030ce00186cb3800e38d8e000c0363800dfff8e000aaa638003ff98e0;
   0x3fffffc01ffffff003fffffc00002070007c1f04c00507fff00000d99801f03f06003e07030000011e7003f8007c00c006c6001fff718000030c60019ecf1800fffdc6000c0761800955786001fff618007ffdc60;
   0x3fffffc00ffffff0006060e0002aa03c00000b0cc00002ffe000aabff800001206000002030002aa9e600000001800dffec60018c2318007ff0c60019ecb9800fffc86000fff61800000186001aab618001aa9860;
   0x70006001ffffff000707060007ffe6f001ff80c0007ff555001fffff8007ff7fe001ffeff0007ff9c70007ffff0005ffccf0018c733c007ff0cf001f6cd8c00e38dcf000fff73c006181cf00180773c001e01c70;
   0x601860000c1818000606060007fe7e3001ffbffc007ff000001ff9998007ff3fe000ffeff0007ff9c60003fffe0000000ff801ffe37e000e30fb800e6c9be00e38cdb800c033fe00618cfb8018e33fc000700db0;
   0x707c70001c1c180007070700070c3f0001c73ffc0070efff001c3199800707006000c0c030007063e70001c01c0007ffc79001fff3f6000e307b000e6cdf400fffcfb000d573e400711cfb0018e73ec000380ff0;
   0x70f060000c0c180007030600030c1b8000c603300030cfff000c31998003867fe000e0c0300030e3660001c0380003ffc700000c01c4000e3070000e6c8c000fffcf0000fff380003318e00018e33c0000380f00;
   0x71c070001c1c180007038700039c7df000e63ff00039c575000e77ff80038e7fe00071c0300039c7770000e070000700c70003fff180000e3070001f6fcc000038060000d57180003318600018e718000fffe600;
   0x308030000c0c18001fffff000198fe70006e3ff800198060000667ff8001cc6ae000738fb0001986360000f0e0000300c30003fff1c000fffe30001b6f8c000038060000c03180003b38600018e318000fffe600;
   0x1fffff0001c1c1c001fffff0001f9df10007c1770001f80600007c001c001dc7060003f1ffe001f863f000079c00007ffc380000c00c000ffff300031e00e001ffff70000fff1c0001b30700018671c0000380700;
   0x1fffff0000c0c18000300e00000f09b8000380300000f00600003c198c000f87060001e00fe000f001e00001f80000083018001ffe0e0000020380001fc06000fffe38000fff0e0000830300009620e0000380380;
   0x1fffff0000ffffc000300f00000f019e0007c3ff4000f9fe00003c39cc000f87070001e0034000f000700001f800001c301c001ffe070001c701c00007c0700003801c000c070e0000c00180007f8070000380180;
   0x380000000ffffc000380380001f8187800fe3ffc001fcfff0007e30cc001fe3030003f8030003fcffe00007fe00000c700e0000c00380038780c0000000380003801c000c03070000e001c000f3c0700003801c0;
   0x380000000c00000003801f00079f1d3001e7835c007df07f001e7f0ee007df353001f3f0300079ffff001ff9ff001ffff8f0055d503c00701c0f007ffff1c0003800e007fffc3800fffe0e003c1f03c0003800e0;
   0x1fc000000c00000001fc0f800f0f8f800383c30000f0780000383c06400f07fe3803e0f83000e07aaa003fc03fc00ffff87003fff80c00e00f07003fffe0e00038007003fffc1c00fffe07007807c1c0003e0070;
   0xfc000000000000000fc07000c0307800100c3000040180000300c040004019e100100703000401000001c0007c000000030055550040040060300000000c0003800200000001800000002003001c080001e0020;
   0x0;
   0x0;
   0x0;
   0x0;
   0x0;
   0x0;
   0x0;
   0x0;
   0x0;
   0x707000000304c40001c0100002000c0000000180000700000001c040000001c00000070300000381000001000000000601c0001860000000601c00001c0700000601c0001c006000001800000006000000000e00;
   0x30e38000038ece000087fc0007800e0000c00d80000fffa00008c0f8000001800000238780000383c00003e00000020601c0001860000000601c0000180700000600c00018006000001800000006000000000e00;
   0x38c3f0000186dc001ff7df8007f01f0001f01cc000007ffc0018dc7f000ffffff00071c1fc000381fc0003ff0000078601c0001867fc0070601c000c1c0700000601c000180070007ffffe001557554000000700;
   0x1fffcfe00ff82c8000aa607e000fe3b80007e18e0003a0c00000ccc0fe00ffffff000e0c07e0003803f80003ff80003e6ffc0001867f80078601c001e180700000600c003ffdff0007ffffe003fffffc00fffff00;
   0x15dd47c00ffdffe001dc706c0007ef3c0001f3f70003ffff0000cce0dc00000000001fce06400ff8037000007ffc000feffc0001866dc003f6ffc000fddff00000601c003ffdff800001800003fffffc00fffff80;
   0xc898600031effe003ffb06000063e1e000197ff800003ffc0004e60c0000ffff0001fff06000ff8030000003af80000e01c0001866c8000feffc0001f9ff00020600c000060018000abaa8000006000000000380;
   0xddd8600039fd56003ff986000071fff0001c6770007f4c040003f00c0001ffff000387f060000380300000038000040601c0001866dc0001e01c00007c0700070601c000e7055c001ffff80005575500000001c0;
   0x68b260001b2bf6000883be0008607fb001980300007fffe8000ff0ec0000c00300000c0260000383b0000e0380000c0681c0011866c800c0601c0000180700078600c000c30ffc000abaa8000fffff0001fffee0;
   0x7dd7fc001f1f36001ff7ffc00ff0555001ff7ffc00605fff001e3cff0001d55700000ce7f0000387ff000fff80000c06ffc003d966dc00c0601c00301c070003c67fc001c39ff000001800000fffff0001ffff70;
   0x3fffcfc000f0b36000ff7cfc00ffe000000fffffc00600c0200180e3fc000ffff00000c63fc000380ff0003fff8000ffe3fe001fbe6c800c06f9c00381a070000f67fc003ffccf000ffffff000000000001804330;
   0x3fffc7c003fdff60001c60640007f87f0001f5fd4007ffc000001c60dc00000000001fff07c007ff83700001fff8007fc01c000fbe7fc00ffeffc003d5fff00007e7fc003ffdd9000ffffff0007fffc0001c1e700;
   0x6000f0faa6001ff6c600006397f000181ce0003ff8000008c00c000ffffff001fff060007ff8300000038f8000000000003867f8007fe0fe001ff9ff80001e00c003000d98000000000003fffc0001838300;
   0x7ff06000e77f06001ff6c60000719630001c3870003f03f00018cc0c000ffffff0000c38600060183000000380000ffffff0001866dc0000070c001ff01f00000601c001dd9d18001ffff00007060c0001c70300;
   0x7ff260000ff800000082f600006196300398733c000ff3ff000ccdec000e380030000c006000601e3000380380000ffffff0001866c8000e0f000000060000000600c000c9bffe000ffff00003060c000ffffff0;
   0x6037f00001fffc001ffbffc00ff197f003ff23cc00437077000cc7ff000e7fff70000c07f000601ffc003fff8000000e0e00001866dc00071c000000060000000601c000ddbffe001c1c30007fffffc01ffffff0;
   0x6ab3fe00200ef8001ffb8fe00fff96b000ff98e0007f03f00006e63fe00e02ff3003fffffe00601bff800ffff800020e8700001866c80003b8c80000060000000600c000c98cd8000c1830003fffffc00ac023a0;
   0x7ff07c003ffc000001c187c001ff9630001f8e7c001ff7ff0003f00fc001fdc00003fff87c0060183f00001fffc007cfffc0001866dc001dc1dc003fffffc0040601c000dd8dd801ffffff005757574001c1f380].
Definition hanzi_rows_88 : list N :=
  [0x603060000bfffe0000838600006396b0001867180003f03f000f700c0001ffffc0000c0060007ff8300000038fc003feebe0001866e80038e0cc003fffffc00c0600c000c98d9800ffffff000303060000c3c180;
   0x760306000f00dfe00001fc600007197f0011c73c000ff07f0001e3c0c000000ffc0000c0060007ff8300010038000007ee170001867fc007079ce00155755400c0601c000dd8d9c000c1c38000303070001c70180;
   0x37ff06000fffc00001ffee60008619630031838f800ffe7fe00381f8c0007fec000000c0060004000300030038000000e7780021867f800623ec600000600000e0660c002c9bff8000c1838001ffffe000aeaab80;
   0x37ff0600047fffe007ff076001c719630071c1c700043f07f0070070c0007fffff0070c006001c0003000700380001c0e3e00071b601c00ee0fc700000600000e067dc006ddfffc007ffff8001fffff000fffffc0;
   0x30000e000c00eff00300006000c61863003180f8000c30e300030000c000c00cfe00308006000c0003000300380000c0e1e00031be00800ee03e300000600000e067fc006c8ce00003ffff8000380e00002eaaa80;
   0x3ffffe000fffc00003ffffe000ff1863003f803f000d70ff0003ffffc000c01c00003ffffe000fffff0003fff80000ffe0fc003f9f0000047fffc000006000007fe0fe006dcc600000600000001c4780000e00000;
   0x1ffffc000fff800001ffffc000fe0f7b003f800f800ff03f8001ffff8000fffc00003ffffc0007fffe0001fff00000ffc03f003f820000007ffbe000006000003fe01e003c8e7c00007e0000001f83e0000fe0000;
   0x155000000000000007c0f3b001f0003000540010000000000007ff000000555500000000000005540000055000600000000000015504000006000000000040010047c00007e0000000f80c00007c0000;
   0x0;
   0x0;
   0x0;
   0x0;
   0x0;
   0x0;
   0x0;
   0x0;
   0x0;
   0x1800000006000000018000000060000000380000000e0000000180000000600000001800000006000000018000000060000000180000000e00000000600000000000030000000100000000000000000070c00;
   0x180000000600000001800000006000000018000000060000000180000000e0000000380000000600000003800000006000000038000000060001fff0e0000aaaaa0007f8000001f8000001e07efc0002b1e00;
   0x1ffffc000fffff0003ffffc000fffff0001ffffc0007ffff0003ffffc000fffff0003ffffc000555570003ffffc000fffff0003ffffc000000070001fff0c0001ffffe0007fff00003fff40001fc76dc000ff87f0;
   0x1ffffe000fffff8003ffffe000fffff8001ffffe0007ffff8003ffffe000fffff8003ffffe000fffff8003ffffe000fffff8003ffffe000fffff00018030c0001ffffe00003ffe00003fff80003feeac0006181f8;
   0x700000001c000000070000000380000000700000001c0000000700000003c0000000e0005555780000000e0000000380000000e000fffff80018031c0001c000e00001c7f0000077f80001f7efc007ffc190;
   0xffffb8002aaabc000ffff70002aaabc0007fffb8001fffee000fffff0002aaabc0000000700000001c000000070002aaa9c000000070000000380018037fc0018000e00000c0600000601800018668c007fff180;
   0xffffbc003fffef000ffff38003ffffe0007fff9c001fffe7000ffffbc003fffef000ffffb8003ffffe000ffffb8003fffce000ffffbc0015555c0018037fc001c000e00001c070000070180001c7efc00718e180;
   0x1e0000000780000001c0000000f0000000080000000200000001c002aaaa7000ffff9c003fffef000ffff9c00000007000ffff9c003fffee001fff038001ffffe00001c06000006018003987efc007ffc980;
   0x7ffffc000555570003ffffc000555578003ffff8000555540003ffff0000000020000000080000000700000000800055557000000008003fffef001fff038001ffffe00001c07000006018003fc66cc0075ddfc0;
   0x7ffff8000ffff80003aaaa0000ffffe0003ffff8000ffffe0003ffff0000ffffc000000000000ffffa000000000000ffffa000000000000000070000c3038000abaae00001806000006018000fffefc007ffcff0;
   0x700c00000d5574000300c00000d5554000300000000d55d4000303380000ffffc0003ffff0000ffffc0003ffff0000ffffc0003ffff0000555570001c30380000180e003fffff000fffff80001fd774007ffc1f0;
   0x600c00000c3830000300c00000c000000030aaa0000c00e000032bba8000c18c00003ffff0000c00000003ffff0000c00000003ffff0000ffff80000c30380000180e003ffffe000fffff8000180330000000180;
   0x77fff8000c187000037fff8000dfffc00033ffe0000dfff000037fff8000c18e0000300000000c0300000300000000c1ffc0003000000007fffc0015d70380000180e00157d57000fffff80001c7ff000ffff180;
   0x66aab8000dfffe00037fff8000ceaac00030e000000ceabc000333380000c38700003180e0000c03000003060c0000c1ffc000300c00000e0000003fff038007ffffe0000380600000e018003987ff8000000180;
   0x760718000dfffe0003043c0000dc30c000307800000c787f0003777d0000c7038000319ce0000cc30c0003061c0000c1860000300c00000e0000003fff038007ffffe0000300700000c018007fc063c003ffdfc0;
   0x620308000c0300000306ae0000cffec00031ff80000c1fe200033fff0000de01c000318ce0000cc30c0003060c0000c1860000300e00000e0000000183038002abaae0000300600000c018000ff863e003ff9ff8;
   0x7ffffc000cfffc000317ff0001dffec0007fc7f8001c7fc0000703398000fffff000319ce0000cc30c0003061c0000c5c70000300e00000e00000001830380000700e0000700700001c0180001ffffe00301c1f0;
   0x6ffff8000cfffc000339e20000cc30c0003e00f8000ff8fe000303398000d3ff2000318ce0000cc30c0003060c0000cfc70000300e00000e00000001830380000600e0000600600001c018000180638003ff8180;
   0x61c1c0001c030000071c7c0001dc78c00073ffe0001dc1df0007ffff8001c71c0000719c60001cc30c0003060c0000dfc70000300700000c00000003837f80020e00e0010e30700041c0180001c063800301c180;
   0x260e3c0008cabaa00270e3f80098cd8c00063ffe000180fe00026ebba8009c30c0002318c60008cc30c0023060e0008cc038002300700008c00000023833f80060e00e0030e606000c39818006183ff8003aa8180;
   0x6607fc0019dffff00670fc78019df8fc007601c0001d83f00006763180019c30e0006719c7001dcc30c006706070019cc0380067003c0019c00000073030000061c70e0071c6c7000c71f180071c577801fffc180;
   0x2e0f8000098030000263fe000098d02c0026018000098103800266b1c000983070002618c300098fffc0027060700098c01c0027001e00098000000277b000006387ee00338efe000c70ff800218063800c000180;
   0x7c7ffc001f80300007e787c001f9fffc003fffff801f01ffc007e7b0f001f8357c007e19c3c00f8fffc00770603c01f8d40e0077000f801f80000007e7f800007f83fe003f9cff000fe01fc007fc7ff800fffff80;
   0x3cf83f800f80300003ce01f800f0fffc003cffff800f0ff80003c0307800f03e1e003e18c1c00f0c000003e0601c00f8fc07003e0003c00f80000003e0f800003e003e003f180f000fc0038003f87ff800fffff00;
   0x184007800f00300003c4003800f1c00c00185555000607000003c0301000701e04001c1800800704000001c0600800707c02003c0001800700000001c01800001c0006001c0001000700000000000038001555400;
   0x0;
   0x0;
   0x0;
   0x0;
   0x0;
   0x0;
   0x0;
   0x0;
   0x0;
   0x100000000400000001000000000000000c00000118000000700100000000400000c01000000004000006000000001c0000000000000018000000001800000006000000018000000060000000380000000600;
   0x380000000e0000000f00000000e000003c00000798000000600380000000e00000c0780000001e00000600000000fc00000000600000180000000018000000060000aaabc000000060000000180000000600;
   0x1fffcf0007fff3c0015551f000ffff1e00000f800001f18000000701f001ffff3c00000c1f0007ffe7c00000f00000007f000000001f000001800003ffffc0007ffff0001ffffc000fffff0001ffffc000fffff00;
   0x1fffde0007fff78001fffb8000ffff3800001f800003c18000000603e000ffff7800000c1c0007ffef000001f8000001f8000000003c000001800003ffffe0007ffff80000000e000fffff8001ffffe000fffff80;
   0x1c0198000755760001fffd000000037000007dc0000555d5500007018001ffff7000000c18000700e60000039c000001e000000000700000018000000000700000001c000fffff000000018000000070000000380;
   0x1c1980000300e00001800000000003200000f0e0000ffffff0000600000006000000000c00000700e000000f0e0000008aa800000020000101800000ffff30001fffee000ffffb8003fffdc0007fffb8002aaabc0;
   0x1c3380000300c00001800000000003000001e07c000ffffff000070000000600000007ffe0000700e000001e078000001ff800000000000781800000ffff38001fffe700000001c003fffce0007fff9c003fffee0;
   0xc6300000300c0000198000000000300000f8e3e000001800000060000000600000003ffe0000700e000007ce3e000201ff800000000000383bff00000001c000000020002aaaa0000000070000000080000000f0;
   0xe6301c00381c07001dc001c00000303007f0e0fc0030380c00007001c0006000700075d41c00700e07007f0e1fc0070380000000001c001c39ff0003ffff8000ffffe0003ffff0000fffff0007ffff8000fffff8;
   0xee703c0038180f0018e007c0000030f00380e03c0038381c003fffe7c0006000e00030c07c00700e1f003e0e03c0078380000000003e000e39800003fffe0000eaaa8000300000000ffffa0003ffff8000ffffe0;
   0x7470f00018183c001cf00f00000031e00000e004003c783c007fffef00006003c00070c0f000700e3c00100e01c003c38000000001f8000779c0000315540000c030000031fff0000c4310000700c00000d55540;
   0x70e0e0001c38380018700c00000033800040e000000e7870003fffec00006003800030e04000700e10000c0e000001e79ff0000000e00003f9c000033ffe0000dfffe00033fff0000ce33800037fff8000c00000;
   0x30e000000c3010001c3800000000310000f1effc000ff8700000700000006001000070e000007f0e00000e1eff8000f79ff0000000800001d9c0000330060000c0300000318000000c779800077fffc000dfffe0].
Definition hanzi_rows_89 : list N :=
  [0x38c000000e7000001c1c0000000030000071eff80003d8e00000600000006000000030e000003f0e0000071eff80003f8c0000000000000198e000033ffe0000cfffc00031ffe0000c3f8c000300c00000dfffe0;
   0x1dc00000076020001c1e000000003000003fe6000001dc400000700000006004000070618000000e000003fe6000001d8c000000040000039860000335560000c030000071ffe0000c7de000073fff0000c1cc00;
   0xf81800007e060001c0f180000003200001fe70000039f000000601800006006000030618000000e600001fe6000001d8e0000000e000007187000033ffe0000fffff0003baaa8000ce37800023fff0000d88ce0;
   0xf01c00003c070001c079c0000003700000fe70000071fc00000701c0000600600007071c000000e700000fe70000039870000000700000f187000033ffe0001d55550007ffffc000cc31e000730070000ddccc0;
   0x700c000018030000c038c0000003380000ee380000e19e00000600c0000600700003030c000000e300000ee38000071870000000300001e1838000300000000cfff8000720c30000cc300000630030000cc8c80;
   0xf80e00007e038001c018e0000003180001ce1c0001e187c0000700e0000600700017030e001c00e380001ce1c0000f1838000000380003c181c00077fff0001cf55c002779c70001ce39800073fff0001cdcd80;
   0x1fc0600007f018000c000600000031c00038e0e0003c183e0000600e00006003800630386000c00e3800038e0e0001e181c0000001c000f8180e0026333300018fff800661fee0009c7f9c00062bba0009868d80;
   0x7de070001e781c000c000700000031c000f0e0f000f8181f0000700700006001c007701c7001c00e1c000f0e070007c181e0000001e001f018070067733300198f55c00661ffc0019c3dce007603300019c7cd80;
   0xf0f838003c3e0e000e0003800ffff0e003e0e07800e018030000600380006000c002300e3800c00e0e003e0e03c00f0180f8000000e000c018020026333300098fff8002e3cdf0009878e40026c3380009808c00;
   0x3e03e3800780f87000ff003800ffff07001c07f1c00401d400000700380007f00e007f00f3c00fffc0e003c0f41c00c01d4700000007000001f80003fffffc01f8f55c007cf0c7c01f9e07c003cc31e001ffffff0;
   0x3800e1800e003c60007e001800ffff06000007e0800001fc00000600180007f006003f00798007ffc0600000fe0000001f8000000003800001f80003cffffc00f0fc18003c40f8800f3803f003cff0fc00f3ffff0;
   0x300061000c0018000014001000000000000003e0000000fc00000700100003f004001c0031000155004000007e0000001f8000000003000001f000018000000070781c001000f0000f1000600107e01800f000000;
   0x0;
   0x0;
   0x0;
   0x0;
   0x0;
   0x0;
   0x0;
   0x0;
   0x0;
   0x700100001c0040007060100000000400000001000000004000000010000000040000000100001800400000001000000000000018010000000040000000100000000400007001000003804000030010000038040;
   0x300380001801e0003060380000001e000000038002aaa0e002aaa838000fff0e0000000380001801e00000003800000000000018038002aaa1e0002aa830002aaa0e0000600780000180e0000380300000381e0;
   0x701f00001c07c0007061f000ffff7c001fffcf8007fff3c003fffcf0001fff7c001fff8f00001847c0015554f0007ffffc00001c1f0007ffe7c0007ffdf0007fff3c0000701f000001c7c0000381f00000187c0;
   0x303e0000180f00003061c000fffef0001fffde0007ffe78003fffde0000eaa78000fff9e000018678001fff9e0003ffffc00001c1e0007ffef00007fffe0007fff780000603e000000cf80000183e000001cf00;
   0x301800001c0600007061800055d560001801dc00060076000070e0c00007006000000018000018660001fffdc00000180000001c18000700e4000060c1800001c07000007018000fffc6000155c18000fffc600;
   0x3000000018000003fffe0000018000001800c000060060000060e0000003c000000000000006186000000700000000180000000c00000600e0000060c0000001800000006000000fffe00003ffe00000fffe000;
   0x3000000ffff00003fffe0000018000001801c000060070000070e0000001f000000000000007d86000000700000000180000000c00000700e0000060c0000001c000003870c0000555700003ffe00000fffe000;
   0x3fffe0000ffff00002baea0000018000001800c000060060000060e00000007800000000000007f860000007000000ffffff003ffff0000600e0000060c00000018000003860c000000030000380700000e006000;
   0x7fffe1c00e1c30700070601c00018007001801c1c0060070700070e01c00555e07007fffe1c0067f60700007001c00ffffff007ffff1c00700e0700060c01c0001c007003870c1c0000038700180781c00e007070;
   0x3fffe3c00e0c30f00030607c0001800f001800c3e0060060f80060e03e00ffff0f003fffe3c0061fe0f80007003c0000180000060603c00600e1f00060c03e0001800f003860c3e0000018f80180383e00e0038f0;
   0x780f000e1c33c0007060f00001803c001801cf00060073c00070e07000ffff3c0000060f80061bfbc0000700f0000018000007070f0007ffe3c00060c0f80055d53c003870cf0001fff3c001c05cf800e013fc0;
   0xf806000e1c33800030606000abaa38001bffc60007ffe18003fffc2000ee30380000060e0006187d800007006000603800000703060007ffe100006ffc6000ffffb8003860c60000ffe38000c0ee6000e039380;
   0xd804000e3e31000070600000fffe00001bffc40007fff10007fffc0000e63010000007040006187c0000070040007839ff000703840007ffe000006ffc0001ffff90003870c4000070010000e7c700006070100;
   0xd800000e3e300002baea0000fffe00001800c0000600600002eae80000e6380000000300000618600000070000003c7bff00030380000600e0000060c00000018000003860c00000380000006f82000060e0000;
   0x1dc08000e77320007ffff0000018000001801c800060072000070604000e71c00000fff00000618620000070000001f79c0000381c0000500e4000060c0000001c000003870c800001c0200007e00000061c0000;
   0x18c18000ee7360003fffe8000018060001800d80006006600006060c000e38e30000fff180006186600000701800007f9c0000383c8000000ee000060c08000018060003860d800000e0600003c0080006180600;
   0x18c1c000fc3b700007071c000018070001801dc0006007700007060c000618770000d551c0007d86700000701c00001d8c00001cf9c000000e7000060c1c00001c070003870dc0000078700001c01c0006180700;
   0x38e0c000fc3b300003060e000018030001800cc0006006300006060e00061c3b8000e000c0003d86300000700c0000398e00000fe0e000000e70000e0c0e000018030003860cc0000038300001c00e0006000300;
   0x7070e000f81f3800070706000018038001801ce0006007380007070700060c198000e000e0004186380000700e0000798700000f80e000c00e30000e0c0e00001c038003870ce000401c380000f00e0007000380;
   0x60f06000e0031800030306000018018001800c60006006180006030300060e01c000e000e000c006180000700e0000f18380001f007001c00e38002e0c07000018038003860c6000c00e18000078070006000380;
   0xe1f87000e0031c0007038700001801c001d55c700060071c0007030300070701c000e0007001c0061c000070070003e181c0007fc07001c00e1c006c0c0700001c01c003870c7001c0071c00003c0700070001c0;
   0x1c39c3800e0030e0003038380001800e001fffc38007ffe0e0006038380070380e00060003800c0060e003fffe3800f8180f000f1e03800c00e0c002c0c0380001800e003fffc3800c0030e00001e0380070000e0;
   0x3c70f3800f4030e000701c1c00ffff8f001fffc1c007fff0f000701c1c00751e0e0007fc03800fffe0e007fffe3800f01807001e0ff1c00fffe0e007c0c01c0001c00e003fffc3c00ffff0e000007c1c007d400e0;
   0x386079800fc0306000300e1800ffff86001800c1800600606000600e08003e0f060003fc01800fffe0600000001800001f80003803f1800fffc0600380c0180001800600380001800fffe06000003e18003f80060;
   0x3000310007c030400070041000000004001801c1000600704000700400001e06040001fc010007ff80400000001000001f80001000700003ff00400380c0000001c004003800010007ffc04000000c00001f80040;
   0x0;
   0x0;
   0x0;
   0x0;
   0x0;
   0x0;
   0x0;
   0x0;
   0x0;
   0x10000018000000700100000040400007001000000004000030010000070040000180000000000400000001000000004000c000100000000400010001000001c0400010001000007004000018010000000040;
   0x2aaaa38000018000000300780000060e0000300380000000e0000300380000700e0000380380000000e000000078003e000e001f800380000700e00019c03800001c0e0003000780000e00e0000380780000000e0;
   0x3fffef8003018000000701f000ffe71e0000700f000ffff3c0000300f00000703c000070078007fff3c001fff9f0007ffc7c000ffc1f00000f03c00019c1f000001c3e0003831f00001c03c0000701f0001fff7c0;
   0x3ffffe0007838000000301c000ffe6380000301e000ffff780000301e0000638780000700e0003ffe78000fffbc00003fff00000ffbe00001c07800038e3e000fffe780001873c00001c0780000703c0000fff780;
   0x701c0003c7bff00007018000e70730003fffec000c00370000030080000e1c700000101c0000000600015551800000d7600000079800007807000030e18001fffe7000018618000038060000060180000c1c600;
   0x30800000e79fe00003000000e20600003fffe0000c00300003fffe00001c0c00003fffe80000000000000000000000c000000003800000700000003060000000070000198ec0000ffff80003fffe00000e18000;
   0x71c000007f9c0003fffe0000e7370000007000000c00300003fffe00001c0e00003fffe00000000000000000000000c00000000380000061800000707000000003800019dcc0000ffffc0003fffe0000061c000;
   0x30c000001d8e0003fffe0000e33f8000003000000800200003830e0000380700000000000000000000000000000000c00000000380000001800000e03800003fff800018d8c0000baae80002aba800000618000;
   0x1ff1c1c000798700015fd41c00e71fc7001c70c1c000ff807003830e1c007fff8700000001c0000000700000001c0000c00700000381c00001807001c0381c003ffdc30018f8c1c00180e0700003001c00071c070].
Definition hanzi_rows_90 : list N :=
  [0x1ff0c3e000f18780000f807c00e306cf000c30c3c000ff81f003838e3c007fff8f8002aa03e0000000f00000003c0000c00f803fff83c0030181e003c01c3c0000000f801870c3c00180e0f80003003c007f1c0f0;
   0x1871cf8007e183c0001fc0f000e7071c001c70cf0000d583c003878ef800e05f9e0003ff0f801ffffbc003fffef000fffffe007fff8f000701b3c007fffef00000001e001870cf0001c0c3c0000700f0007f1c3c0;
   0x1830c6000f81f0f0001bc04000e30608000c30c60000c1810000078060000000180003ff06000ffff98003fffee000ffff9800038386000601b98003fffee0001fff980018f0ce0000c1c180000f00e000303c180;
   0x1871c4000f01f070001fe00000e30700001c70c00000c1800000078040000718100003070400006380000001c04000ffffd0000383840006019800007ffc40001fff900018f0c40000e1c000003f004000303c100;
   0x1830c00001ffff80003b600000e30600000c30c00000c1800000078000000618000003030000006380000001c0000001e00000038380000e01980000618000001800000019f8c00000638000007b000000383c000;
   0x1fffc00001ffff800077700000632710001c70c40000c186000007c080000718000003070800006380000001c0000001e02000038188000c0199000061c080001800000019dcc8000073020001f3000000387c200;
   0x1fffc800018003800063388000e3be30000fffcc0000c186000007c180000618300003031800006382000030e1800003e06000038198000c019b800060c18000180030001b8cd8000037060003c301800018ee600;
   0x1d555c000180038000e739c00061bf38001fffcc0000c1c7000006c1c000071c300003031c0000618700007071c0000370700003819c001c019d800060c1c000180070001f0edc00003e0700018301c0001dc6700;
   0x18000e000180038001c31ce000618f18000c300e0000c1c3000006e0c000061c380003030c0000618380006070c0000730300003818e000c018d800060e0c000380038001f07cc00001e0300000300c0000fc6380;
   0x1c000e0001ffff8003c70e600061c71c001c70060018c1c380010660e000471c1c0013038e000c61c38000e038e000063838000381ce0001019dc00070e0e000180018001907ce00001e0380000300e0000787380;
   0x1c00070001aaab80078307700060c00c000030070018c0c1800306706000c60e1c00230386000860c18000c038e0000e3818000380c600030180c00060606000b8001c001802c600003f0180000300e0000703180;
   0x1c00070001800380030707700060e00e00707007001cc0e1c00706787001c70e0c007301c7001c60e1c001ffdc70001c1c1c000380c700030180e00070707001b8001c001800c70000f3c1c000030070001fc39c0;
   0xc00038001800380000300380060700e003030038018c070e003063c3800c6070e002300c3800c6070e001fffe3800380e0e000380e380038180e00070383800b0000e001fffc38003e1e0e000030038003de18e0;
   0xff001c001ffff800007001c0074780700357001c01fc0787003fe1e1c00ff07c7003700f1c00fe07c700381fc380070078e00038071c003ff807000751c3801b00007001fffc3800fc07cf00003003800f8f1c70;
   0xfe0018001ffff800003001c003e1c06003ff001c00fc03c6003fe0f1800fe03c2003f0079800fe01c600380001800e003c6000380718001ff8070003e0e1800f0000600180001800f003e600003001800e03ce60;
   0x7e001000180038000070000001c0c00001fe000000500180001fc0600007c00c2001f00300005400c000100001000400184000380200000ff0000001f041000e0000000180001000400044000030010004018440;
   0x0;
   0x0;
   0x0;
   0x0;
   0x0;
   0x0;
   0x0;
   0x0;
   0x0;
   0x1c04000030010000000040000300100001c0040000100100000e0040000000100001c004000070010000000000000000100001c00400000001000001c0400007000000018004000070010000706040;
   0x3800001c0e000070038003ffe1e0003300380000c00e0000380380000e20e0002aa8380000c00e00003007800ffff8e002aaa8380001800e0003ff03800001c0e0000300380001801e0000300380003060e0;
   0x7fffef800000c3c0000701f0003ffe7c0007301f00001c03c0000700f00000677c0007ffcf00001e03c0000781f000ffff9e003fffcf00001c03e0003ff0f800001c3c0000700f80001807c0000701f00007067c0;
   0x3ffffe000000e780000e01e0003aae70000e301e00000c0780000e01e00000e6780007ffde00003f0780000f83c000aaabb8003fffde0000180780003071e000000c780000301e0000180f00000301e0000306f80;
   0x1c001c000fffe70003fffd8000300e60001c3018000ffffb000157518000006e20000600dc0000778700001dc1800001c1f0000000cc000ffff700003071c0007ffe70007fffec000018060000470180000706600;
   0xc0000000ffff00003fffc0000300e0000083000000ffff80001fff8000000ec00000680c00000e380000038e00000018180000c00c0000ffff00000303000007ffe00003fffe0000018000000e33800000306000;
   0x1c0000000018700003000c0000300e0000003000000ffff80001fff800000064000007c2c00001e1c000007870000001c180000c06c0000ffff000003070000060070000007000000018e00000c73800004706000;
   0xc2a80000018380003000c0000300e00003fffe000000c000001801800007fff800006c6c00003c0e00000e038000001c180000e0ec08000180000003038000060030000003000000018e00001c3380000e306000;
   0x1c7fc1c00118fc7003006c1c003ffe07003ffff1c0001c007001c0181c007fff870006c6c1c00780787001e01c0c007ffd8700071cc1c0001c007003f03c1c0060738700007001c00018e07001c71c1c007f56070;
   0xc6ac3e00398ecf00200683e003ffe1f00007803c0000c00f80180183c0060600f8006ecc3c00faabcf003800e3c007ff98f000738c780001800f003f01e3e006031cf801fffc3c00ab8e1f003831c3e003f7e0f0;
   0x1c61cf8007f8e3c0000060f800300e3c0000fc0f00001c03e001c018f00060703c00067ccf000dfffde00300377c007ffd9e000370c70007fff3c000000ff8006039de001fffc7800ff8e3c003071cf8001f7e3c0;
   0xc60c600037ee18000e060e000300e100000fc06000ffff9800180186000607018000678c60001ffe180002032e00060c1980003e0c60007ffe3800000026000603898001abac6000ff8e10003030e60000706380;
   0x1c61c400071fe00001f0604000300e000001fe00000ffff80001fff80000617000000678c40001c06100007030400061c1800001e0c000001c000001fffc000061d800001870c4000018e00001470e40000706100;
   0xc60c000031bf000007e600000300e000001b60000003e000001fff8000061b000000e30c00000c06000007c30000060c1800001e0c0000018000000fffc0000639800001830c0000018e00000c30600000306000;
   0x1c61c8000718fd00001fe00000300e200003370000007f020001c01c000063b020000678c40001c06200001f30800060c1900003f0c400001c020000e0180000630c20001870c0000018e20000c70480000706200;
   0xc7fd8000318eb000003e180003ffe600007338c00006f0600008018c000673860000e78ec0000c066000007f1800060c1b0000770cc00001806000060388000630e60001830c8000018e60000e30180000306600;
   0x1c7fdc000318e3000000e1c0003ffe700006338c0000fd870000001dc000771870000efcec0000fc67000001f1c00070e1b8000f38ce000fffff00007071c00077fe70001870dc000018e700007701c0000706700;
   0xc2ace0003d8e380000060c000300e30000e31ce0000cdc38000001ce0006e1830000eccee0000fc6300000030c00060e198000e1cce000ffffb800038e0e00066fe30001830ce000018e300003800c0000306300;
   0x1c01ce0003d8e180010060e000300e38001c31e60001dce38000001c6000701c38000dce660006106380000030e0007061dc001c1ec700001c0380001dc06000760638001870c6000018e380003c00e0000706380;
   0xc0007000018e1c00300606000300e18003830e700038c718000000c7000700e18000d8667000600638001803060007060cc00080ec700001801c0000f807000620018001f30c6000018e180001e0060008346380;
   0x1c0007001c10e1c00300607000300e1c0070307f00071c79c000000e700070071c006d877700060061c001803070007070ce000004c300001c01c0000fc0700070001c001f70c7000018e1c0000f007001c7761c0;
   0xc0003800c00e0e00380603800300e0e00003023800e0c3ce000000e380030070e002c0333800600e0e001803038003038ee000000c380001800e0003ff0380030000e00023083800018e0e00003c03800c37e0e0;
   0x1f5001c00c01c07001ffe03801ffffc700003001c00c1c1cf00000071c003d03cf003c00318007ffe0e001fff038003f1ce7007fffc1c0001c007001fcff1c0071000700007001c01ffffce00001fc3c00ff1f0e0;
   0xff001800fffc07001ffe01800ffffc60000300180000c086000000398003f81e6003800398003ffc06000fff018003e0e62003fffc1800018006003e03f18003f800600003001800ffffc6000007e1800fe02060;
   0x7f0000007ff800000550010000000040000300100001c004000000310001f80c400100011000155004000554010001f0c400000000000001c000001800700001f800000007000000000004000001e10000000040;
   0x0;
   0x0;
   0x0;
   0x0;
   0x0;
   0x0;
   0x0;
   0x0;
   0x0;
   0x7001000180e04000000010000700040000040100001c004000007000000007040000000100010c00400001c010000000040000000000000c0040000700100000000400001801000000004000070010000318040;
   0x6007800180e0e00038fe3800021fce00000e0380000e01e0000070000000060e0000000380038c30e00000c07800aaaa8e0003fe0380000c01e000060038007fff0e0000180780000000e0000600380003180e0;
   0x701f000180e3c00018fff000073fde001c3c0f00000e07c0007fffe00000073c001fffcf00038c73e00000e1f000ffffbc0007ff0780000c07c0000700f0007fff3c00001c1f0007fff7c0000701f00003183c0;
   0x603c000180e7800018c0e000023af8000c781e00000e0700007fffe0007f0638001fffde00038c3780000063c000fffff80003ae1e00000c0f00000601e0006aea7800000e3c0007fff780000603e0000318780;
   0x157518000180e7000018c080000719d0000ef008000006060000600060007f0730001840d800038c730003fff18000e003a00007071c00000c0600000701c0006060600001ce1800061c760000070180007fffb00].
Definition hanzi_rows_91 : list N :=
  [0x1fff80000ffff8000018c000000218c0000ec0000007fff0000060006000630200001860c000038c300003fff00000e003800003060000000c0000000600000060600000038700000618300000060000003fff800;
   0x1fffc0001ffff8000018c00000fffdc0000706000007fff0000075556000637fc0001870c000038c700003fff80000e0038000070700001ffc000007fffe00006070000007070000061c700001fffc00007318000;
   0x6000000baae8000018ea0000ffecc0000306000006003000007fffe000637fc0001860c0000ffffc000380380000e7f38000030300000ffc000003fffe0000603000000e0380000618300001fffc00002318000;
   0x7001c00180e070001cfe1c00c70dc700030641c0070070700075556000636707001870c1c01ffffc7003801c1c00e7f38700070381c0000c00700007001c00703807001e01c1c0061c707001871c1c007318070;
   0x6007c00180e0f0000cae3e00e206cf000f86e3c0060030f0006000600063620f801830c3c00ffffcf0038aae3c00e6339f00030383e0000c00f00006003c00601c0f801fffe3c0061831f001860c3c003fff8f0;
   0x700f000180e3c0001c067000c70ddc000dc66f00070073c0007555600063671e001870cf00038c73c0039ff4f000e633bc003f01c780000c03c0000700f0007f1e3c003fffef00061c73c001871cf0007fff9c0;
   0x2aeaa6000180e180000c062000e30cd8000cc6660006003180007fffe000636308001870c600038c3180038eb06000e63398003e00ee00000c0380000600e0003f0f9800380be60007fff18001860ce0000319980;
   0x3fffe0000180e10000cc070000e719c0001ce6600007007100007fffe0006367000018f0c000038c7000039c304000e633800000006400055d50000007004000150790001000040007fff00001871c40000319800;
   0x3fffe00001ffe00000ccfe0000e318c0001866600007fff00000c0e000006363000018f8c000038c3000038c300000e63380000fff800007fff00001fff80000000000000000000006bab00001fffc00000319800;
   0x38000001ffe00000ce7f4000e339c0003876700007fff00000f0e7fc006363100019d8c000038c7300039c308000e63380000fff880007fff00001fff800007ffe20000fffc800061c700001fffc0000ffffd00;
   0x1818000180e60000ce60e000e330d800303e3600060036000079e7fc0063633000199cd80003ac3700038c318000e6b3b0000c0198000600360001aab980007ffe60000fffd8000618360001aeac0000fffff00;
   0x11c1c000180e70001c660e00063b1d800701e3e0007007700001fe70000637338001b0cdc0003fc7300019d71c000e7f3f0000c019c000700770001c019c000700670000c01dc00061c770001871dc000c318300;
   0x30e0c000180e3000186606000e3b8d800300e260006003380000f630000636398001b0ece0003fc3380018ff0c000e2b3b8000c018c0006003300018018c000600630000c00cc000618338001860cc000c318380;
   0x7060e000180e3800187607000619fdc000c0f070007007380000f63800063719c001f07c600000071c0019ff0e000e03398000c018e000700738001c018e000700638000c01ce00061c718001871ce000c31c1c0;
   0xe070e000180e380038360300061cecc001c07830006003180001e61c00063618c001a02c700000031c00180306000e0339c000c01860006003380018018e000600618000c00c600061831c001860c6000e30c1c0;
   0xf4387000180e1c003f770380060c1ce001c07c380070071c0007c60f0007f71ce001800c700000071c001c0107000e0039c000c018700070071c001c018700070061c000c01c700061c71c001871c7000fb0e0c0;
   0x1fff838001ffe0e003fff0380060e0ce000c07e38007fff0e001f06078007f30c6001fffc3800ffff0e00180003800e0038e000fff838006aab0e0018018380060060e000c00c38007fff0e001fffc38007b060e0;
   0x1dffc38001ffe0e0077ff51c007071c7000ffef9c007fff0e007e0603e00637ee7001fffc1c00ffff07001d4003800f40387000fff81c007fff0e001fff838007ffe0f000fffc1c007fff06001fffc38000307070;
   0x380381800180e06003003f18003e38c3000ffe39c006aab06003807e0c00633e62001800c1800aaaa06000fe0018007c0386000eab818007fff06001fff818007ffe06000fffc1800600306001800c18000303870;
   0x100001000180e04001001f00003e31c00007fc10000700704000007e0000001c40001800c00000000000007c0010007c0380000c0180000700704001c0181000700604000c01c0000600700001801c10000301800;
   0x0;
   0x0;
   0x0;
   0x0;
   0x0;
   0x0;
   0x0;
   0x0;
   0x0;
   0x60100000c004000007000000000000000700100000c004000000010000060040000000100000e004000070010000018040000700000000c004000e00010002000040001c701000000004000000010000030000;
   0x3e0380000c00e000006000007fff0e0000600380000c00e000aaa8780000e00e000aaa8380000c01e0000600380000180e0000300380000c00e001fe0038007e000e0000c603800aaaa0e0000000380000780e0;
   0x1fc0f00000c03c001557550007fff3e001c71c700001c03c001fff9f00001c07c001fffdf00001c07c0000700f000001c3c0000780780001c03e0007ff0f0007ff03c0001c70f000ffff3c003fffef8007f1f1e0;
   0x3e01e00000c078001fffff8006aab78000c618e000038078001fffbc0000180f8001fff9e00001c0f00000601e0002aac7800007c0e0000180780000ff8e00007ff780000c60e000ffff78003ffffe0007f07b80;
   0x180180007fff70001fffff800700770000e739c000ffffe0001c0198000018060001c01d800001c060007fffcc0007ffe200000de1c000ffffb00000c1cc000005f600001c70c00001c0200039ccec0007f31b00;
   0x2a800003fff000000038000060030000066308000ffff8000180180000ffff8000180180000ffff80003fffc00007ffe000001ce08000ffff800000c18000000e0000000c6000007186000038cce00006331800;
   0x7fc00007fff00000fffff00070070000077700000ffff80001c0180000ffff80001c01c0000ffff80003870c000060070000038700000c003800001c1c000000c0000011c76000071c6000039cce00006331800;
   0x3f8000030c300000ffffe0007fff0000036e0000000600000180180000abaa80001fff80000000000001860c000060038000070380000c003800000c18000000c0000038c660000318e000038cce00006331800;
   0x107001c0070c707000001c00007fff0700027201c00007007001fff81c0001c007001fffc1c00180407001c70c1c0063ffc7001e1de0c00c003870001c1c1c0001c007001dff61c0031cc070039cce1c006331830;
   0x387007c0030c30f800000e000003830f003fffc3c0018381f001fff8fc0001800f00000183e00180e0f000860c3c0063ffdf003c38f1c0080028f0000c183e003fff0f000efe63c00398c0f0038cce3c0063318f0;
   0x1c77ff00070c71e003fffffc0003873c003fffc70001c1c3c001c018f00001c03c00001dcf0001c0e3c0007ffcf0006356bc0018707780155551c001fffc78007fff3e0007d76700019dc1c0039ccef00063319e0;
   0xef7f600030c318003fffffc00038338000060060000e0c180018018c00001803800001986000180c18000fffc60006306180000200f000ffff98001fff820003aaa380001c662000198c180038cce60006331980;
   0x7f7f000175d7400001e03800003870000007000000074e00001c018000001c010001c1dc40001c0c10000fffc000073060000055546001ffff800015d5c00003800100001c76000001c0100039cce00006331800;
   0x3f600000ffffc00003c61c000ffff000000600000003ff00001801800007ffe00001e19800000c0c00000e06c0000630600000fffc0000018000000181800001c00000000c660000ffff800038cee00006331800;
   0x1f700001ffffd00007861e000ffff100000700400003ff20001fff800007fff200007ddc00000c1c0000060ec400073fe00000fffc000001c020000181c40000e00200001c760001ffffa0003fc6e40006331900;
   0x1b30c00003e030000e860f000030330003fffec00001c060001fff980000180600003f9980000c186000070ccc00073fe30000700080000180600001818c0000700600000c666000abaaa0003f86ec0006339b80;
   0x3739c000036030007dc63fc00070730007fffee0001ce070001fff9c00001c07000007ddc0000e1c7000071ccc0007556700003801c00001c070000181cc0000780700001c76e00001c070003f07ec000633fd80;
   0x7318e0000360380038e671c000303380000600e0001870300018018c000018030000018ce0000e18300003b8ee0003e06380003800e0000180300003818600001c0300000c666000018030003803ee0007b3fdc0;
   0xe71c600007701c00007f6000047071c00007007000383838001c018e00001c03800101cce0000618380001f0670001e06180001c70600001c038002331c700000f0380011c76700001c018003801e70007b19dc0;
   0xe30e70000e381c00007fe0000c6031c000060030003818180018018e000018018003018e70000618380000e06700040061c0000ef0700001801800632183000003e380030c663000018018003800e70000b180e0;
   0x3c70770001c1c1c0001f7fc001ce470e00007003000741e1c001c018700001c01c00301ce700007181c0001f077001c0061c00007c0700001c01c006761c3000001f1c0071ff6380001c01c003d55e7000031c0e0;
   0x38303b800380e0e0007863f000cefb0e000060038007fff0e001fff8380001800e00301863800abaa8e0007bc33800c0060e0000380380001800e002eef83800007b0e0030ffe380001800e003fffe3800030e060;
   0x307431c00780787000f060f000fc7f0700007001c00ffff0e001fff83801ffffce00355c71c01ffffce001f1f31c00f55e070000f001c0001d40e003ecfc1c01fff38e003fdff9c0001c006003fffe1c000307070;
   0x3e01800e003c6000407c1000f80f8600006001800e00306001aab81800ffff86003ff839800ffffc6003e07b9c00fffe060001e00180001fc06003c81c0800ffc186003f80f9c00018006003800e18000303820;
   0x3e01000c001c4000007c000070018000007000000400004001c0181000000004001ff031000000004003001900007ffc000000c00000000fc0400100040000540104001f000000001c000001800e10000301800;
   0x0;
   0x0;
   0x0;
   0x0;
   0x0;
   0x0;
   0x0;
   0x0;
   0x0;
   0x710100001c0040000000100006180400006001000600000000c030000000380400000000000000004000070010000000040000000000001c0040000000100030000000007001000003004000603040000000000].
Definition hanzi_rows_92 : list N :=
  [0x630380000c00e002aaaa380036180e0000600380060aa86000e030380000380e000aaaa180000000e000030038000aaa0e0002aa8380008c60e002aaaa38003f800e0000600380002300e000603060007ffffe0;
   0x730f00001c03c003fffff000761c3c0000701f00060ffde0007070780007fc3c001fffe78007ffffc000070078007fff7c000fffc78001cc61c003fffef0003fff1e003ff00f8000f307c0007070e0007ffffe0;
   0x639e000fffff8003fffee000660c780000301e00066ffdc00030e1e0000ffc78001fffef0007ffff80000300e0003ffff80007ffce00038e738003aaafe00000ff38003fe01e0001c307800038e1c0000003800;
   0x1fff8c000ffffb00001dc0c000e60c30001fff9800067063800030c1c0000f5c20001870ee0006003e0003ffffc0001c00600007071c00070e77000380e6c000000730001570180001830600001ce1c0000001c00;
   0x1fff80000aaea8000008c00000c60e00001fff80000660610003fffc8000060e00001830e4000600380003fffe80000e00000003860800020e3a000380e6000001830000006000000003800001fffff8001fffe00;
   0x1fffc000001c0000001dc0000047060000180180000670700003fffc0000070700001870e0000600380000070000000700000001de00000ffff800030066000001830000007000000ffff80001fffffc001ffff80;
   0x60c000000c000003fffe000006070000180180000662b0000006000000ffff80001830e000067f380000030000000380000000f800000ffff80000ffe00000018300001fff80000ffff80001aaaab8001800fe0;
   0x70e1c007fff07003fffe1c00fff70700180181c00677f0300007001c00ffffc7001870e1c0067f38700007001c0007f00700007c01c00ffff87000fff01c00018303001fffc1c00ffff8700180e01c001c00ef0;
   0x60e3c007fff0f003aaae3c00fff78f001aab87c00667f8700006003c000007df001bffe3c0066338f80003003c003ef80f0003fe03e0000300f00000303c0001838f00180183c0003180f00180e018001800e20;
   0x704f00061c33c0039dce70000f07dc001fff8f00067618e0000700f0000006bc001fffe78006633bc001fffc78007c3f3c001fc7c780000301c0000070f000ffff9e001c01cf80043183c00180e01c001fffe00;
   0x3fffe600060c31800388ce60000f06f8001aab8400066618c001fff8e0003fe618001830e6000663398001fffc6000e00fb8003e21f60003ff81800000306000ffff980018018e000e3181800040e000001fffe00;
   0x7ffff400061c3000039cce00000f06c0001801800006771c8001fffc40003fe600001870e000066339000000004000c00390001830700007ff810000fff04000018000001c01c4000731810000e1effc000018000;
   0x2baea000060c30000388ce00000f0600001801800006632e000006000000306600001870e00006633800000000000000000000003000000381c00000fff80000018000001fff8000033180000071eff8001018000;
   0x18e040007dc310003fcee40001f061000180188000673770000070040003066000018f8e40006633a0000555000007fff00000fffc4000381c10000c0000000118010001fffc00003b1c2000039e600003839fe0;
   0x18e0c00079e330003f86ec0000f0630001fff98000663e480000600c0003066300018d8ee00066b3e0000fff880007ffe60000fffcc000183e30000c000c000398c30001aab880001b0c600001fe600003c3bfe0;
   0x1860c00003f130003807ec0001f8630001fff9c000671c1c0015754c00030677000199cee00067f3f0000fffdc00001c0700000300e0001c7738000c000c000318e38001c01dc0001f0c700000fe700000f79d40;
   0x1860e00006f038003803ee000198638001aab8c00066180c003fffee0003a6638001b8ce600062a3b0000c018e0000180300000300e0000ee738000effee000318638000000ce0000f0e300000ee3800003f9c00;
   0x187060000ff818003800e600039c61c0018018e000641c0c007fffe70003e6718001f0fe70006003b8000c01ce00001c038003ffff700007c39c000ffff600071871c000001c60000706380001ce1c00003d9c00;
   0x6183070001cdc1c003800e700039c61c00180186000600e0e0000600700008631c001a07e3000600398000c0186000018038003ffff70000381dc000e0007000e1831c000000c700043871800038e0e0000798e00;
   0x71838300079cf1c003800e300070c60c0018018700060060600007003001c0631c001802e380060039c000c01c700001c01c003ffff380007c1ee00060007000c1838e000000c7001c3c71c000f8e0f0001f18780;
   0x618383800f0c78e003fffe380060e60e001fff8380060070600006003800c0638e001fffe38007fff8e000c018380001800e000030038001ef04e00060003800c181ce000000e3800c3e38e003e0e03c007c183e0;
   0x7f81f1c01e1c3c7003fffe1c00e07607001fff838007e03c700007001c00ffe187001fffe1c007fff8f000fffc1c01ffff8e00003001c007c7c0700075001c00c1808700000061c00ff79cf003c0f41c00f0181f0;
   0x3f80f980080c086003800e1800c03e06001aab818007e01c200006001800ffe1c6001aaae1800600386000fff81800ffff8600003001800f01e060003f00180001f00600000071800ff30e600100fe0800601f060;
   0x1f003100001c000003800e0000c01600001801810003c00c0000070000007fc180001800e0000600384000c01c000000000400003000000c006000001f00000001f00000000030000540044000007e0000001f000;
   0x0;
   0x0;
   0x0;
   0x0;
   0x0;
   0x0;
   0x0;
   0x0;
   0x0;
   0x700100000180400060301000000604001001010000000040001ce01000000004000030010001c1804000030010000060040000380100001c0040000070100000000400000c010000060040000700100000e0040;
   0x8300380000180e0006038380000060e0018638380000000e0000ce0380000001e000038038000c180e0000380380000600e0000380380000c00e00000703800ffff8e00000e0380000701e0000630380020e00e0;
   0x1c70df000001c3c0007070f0007f071c0018638f800ffff3c0001ce1f000ffff7c0000380f0001c183c0000700f00000703c0000380700071c33c001fff07800ffffbe00000e1f0001ff87c0000770f000e0e03c0;
   0x1c30de000000c780003060e000ff03380018638e000ffff780000ce1e000fffff00000381e0000c18780000601e000003078000fffce00070c378001ffb0e000e001f8000ffe1e0003ff8f00000631e0006ffe380;
   0x1c71c80007ffe3000038e0c000ff07100018638c000380c600019ce6800000076000055d4c0001c1860003fffec000ffffa0000fffdc00071c7200018c384000e001b00007ff180001d5c600000739c0007ffe300;
   0xe33800007ffe0000018200000e32b8000186380000380c000018cee0000000300000fffc00000c1800003fffe0000ffff80000c380800038c6000018c180000e00180000703800000c3f00001fff8000038e0000;
   0x67380000755700003fffe0000e37fc000186380000380c00001dcec00007fff00001fffc0000ffff8000010000000001800000c380000019ce000018c1c0000effd80000707c00000f77c0001fffc00001ce0000;
   0x63300000600380003fffe0000e33fc0001863800003ffc00000ecfc00007ffb00000cccc0000ffff8000038600000001c00003ffff000018cc000018c1c0000eff98000038ee000003e180000061c00000ee0000;
   0x77701c006001c700038601c00e373070019e7e1c003ffc070007cf81c00070707001cccc1c001c180700070701c00155c07007ffff1c001dcc07007ffde1c00e001870001dcf1c0003c007000070c1c01ffff070;
   0x3007c0063ffcf00038603c00e3338f001befe3c00380c0f0002cf83e0003030f000cccc3c000c180f000e0383c003ffe0f000c3803c0000c01f003ffde3c00e0018f8000f827c000ff80f000060e3c00ffff0f0;
   0x7fffff00063fe9c00038607000e3319c001b6fe7000380c3e0001ce0780007073c001cccc70001c183c001c01c70007fff3c000c3807800ffffbc0018c1f7000e7f9bc0000700f0007e7f3c0000704f00003c01e0;
   0x3fffe600063061800038602000e33188001e6ba6000380c380000ce020003ff338000cccc60000c1818003b06e6000300f18000fffc6000ffff980018c1ba000e7f9980000f806000f98ff8002aeaa600000e0080;
   0x55d7500006306000017d750000e33180001e7bb00003d5c100003ce000007ff710001cccc00001c181000130670000701fc0000fffc000003e0000018c1b0000e619800007df00000c183c0007fffe40007ff0000;
   0x18e0000063fe00003ffff0000e33980001e7bb80003ffc000007cf00000030300000cccc00000c180000038e000003ffdc00000380000003f0000018c180000e61980001f8f800007fff00002afaa00007ffc000;
   0x1c60000063fe10003ffff0000e319c0001c7b980003ffc00001fcfc4000070720001cccc4001ffffc000018c000007ffc800000380400007f000001ff980000e61980007e03f00007fff200001fc00000007f100;
   0x1861800063063000038604000e319d800186386000380c60003cceec000030360000ccccc000ffffe00001cc0c000300c20001fffec0000ed830001ff986000e619b0003ffff00002baa600001ec080000037b00;
   0x1c61c0006306300003870c000e31f9c00186186000380c700039c67e000070770001ccccc0015555700001dc0c000701c70001fffee0001ddc700018c186000e759f0000fff9c00001867000037e1c0000031f80;
   0x1860e0006306380003870e000e30e1c00186186000b80c300000c62e0007ffb30000cccce0000000300000f80e0003aac300000380e00018ce380018c186000e7f9b8000c018e0000186300007660e0003ff8180;
   0x1c70600073fe1c00038706000e31c1c001861c7001ffcc380001c7070007fff38001cccc70000c1838000070060007ffc380000380700039c7180000e187000e7f998000c0186000018738000677060003ff81c0;
   0x61830700063fe1c00038307000e33e0e001861c3000ffffb80000c303000000338000cccc70001c1c180000f8070003aac18003ffff300070c39c00006183000e0199c000c0187000ffff18000e638700030000c0;
   0x71c38700070061c00038383000ff770e001861c380039ff9c0071c38380000071c001cccc3000380e1c0001dc07000701c1c003ffff3801e1c3dc00006183800e0119c000c0187000ffff1c001c71c700030000e0;
   0x6181c380030020e000381c3800ff6386001860e380038008e0030c1c3800aaab0e000cccc3800300e0e00078f03800300c0e00003803800c0c1ce00007183800e0018e000c018380001800e003860e38003800060;
   0x75c1e1c00704007000381e1c00ff23c700186071c0038000e003fc1e1c01ffff0e007ffff9c0070070e001f07c1c00701c0f00003801c0001c00700003181c00f40187000fff81c0001800f00307071c001800070;
   0x3f80f98003f8006000380e1800e301c700186070c00380006003f80f1800ffff06003ffff9800e00386003e01f18003e0c060000380180000c00600003981c007c0186000fff81800018006000060218001f80020;
   0x1f00300001f80040003804000001004000184020000380004001f006100000000400000000000400104003000600003e1c040000380000001c000000019800007c0180000c0180000018004000070010001f80000;
   0x0;
   0x0;
   0x0;
   0x0;
   0x0;
   0x0].
Definition hanzi_rows_93 : list N :=
  [0x0;
   0x0;
   0x0;
   0x30000006004000000180100001c0040030000100000c0040000010100000e00400000c0000001c0c000000c0100001c0040000380100000c004000c000100001800400007001000300004000018010000000040;
   0x30038006006060000380380000e00e0030000380000c00e0000030380000e00c00000c0380000e0c00000cc0380000c00e0000300380000e00e001fc00380001c01e000060038007f800e00001c03800aaaa0e0;
   0x7007800600e0e0000300780001e07c00333fef80000c03c003ffb070007fe03e00140c078007ff0c70003cc0f00001c01c0000700780000603c0007ff0f00003c07c0000700f0003fff7c00001c0f000ffff7c0;
   0x3fffde000660c1c003fffee00003f07800333aee00000c078003ffb0e0007fe078001ffc0e000fff0ce00070c1e00000c038002aeaae000aaeaf80000ffde00003e0f0000aea9e00003fe78000ffe0e000ffff780;
   0x3fffcc000665d78003fffec0000738600033306c00000c0700003836c00055e070001ffffc000603cdc00061c0c0007fffb0003ffffc000ffffa0000005cc000077060001fffdc000018660000fff0c0000000600;
   0x2040000066ffd0000703000000e3800003333600007fff000003836000000e00000041be8000703edc001f8c000007fff80003fffe8000ffff80000600c00000e7000001fff80000018000000603800000000000;
   0x70e0000066ffc0000307000001c1c00003333600007fff000017d36000000e000000e18000003874c8001fffc000001c00000030e000000e3800001fc1c00001c380000007000000018000000701c00003ffe000;
   0x30c0000066300000038e00000380e00003333600007aeb00001ff3600002aea00000738000001ce0e00002ffe000030c300000706000001c1c000007f8c0000381c0000006000000018000000382e00003ffe000;
   0x175d40c006630030001dc01c00f0078700333361c0070c307001ff361c007fff070003f000c000fc0fc00001de1c0031c707000e0701c00380e070001fdc1c00700f0700007001c01ffff870003c771c00380e070;
   0x3fffc3e006639870000f803c00efffcf80333363c0070c30f001bb363c003aab0f0030f803c000780df00001803c0038c60f000ffb83e00ffff8f000198c3c01efff8f002aeaa3c00ffff8f0001ce23e00380e1f0;
   0x7fffc780066399e0001f8078004ffdfc0033336700070c31e001bb36780070033e0031ff0780001fcc7003c1c0f0001dce1c001fffef001fffbdc00019dc7000dffbbc003fffef00001803e0000fc07800380e3c0;
   0xc6000661b9c000ffe060000000180033336200070c318001bb36200030c338003fcfe6000003ec0003ff8060000ccc1800380fc6000800098003198c6000000038003fffe600001803800007802000380e180;
   0xc0000661f08007f8ff00000000100033336000070c310001bb36000070c310001f01c40000014c0001ffff000008c4000010000400000001000399dc00000000100000700400001801000003c000003ffe000;
   0xe0000661e00003803e0000000000003333600007aeb00001bb36000030c300000e000000010180000103fe0000ffffc0000631800007fff00001f98c00000000000000600000001800000001e000003ffe000;
   0xc4000661c00000707040007fffa0003333600007fff20001bb36400070c300003fffe400038180000383804000ffffd0000731880007fff20000f1cc40003ffe00000070000007ffe20001fff84000380e200;
   0xec000661c180003030c0007fffe0003333660002aea60001bb30c00030c320003fffec0001e3bfe001c300c00001e03000063198000003820000318cc0003ffe60001fffd80003ffe60001fffec000380e600;
   0xec000661e180007070e0000030700033336600010c070001bb30c00070c3700015dd4c0000f79fe000f700c00001e0380007319c00000187000071cce000380e70001fffdc000755670001d57fc000380e700;
   0xee000663e18000303060000438300033336600038c030001bb38600030c33800018e0e00003f9c00007f00e00003e0380006318e0003ff838000718c6000380e30000aea8c000300638001806260003ffe380;
   0x6700066771c000707070000e1c380033336700030c038001bb18700070e31800018e0700001d8e00013f00700007701c0007318e0001ffc3800061ce7000380e380000700e000700638001807070003ffe380;
   0x6300060630c000303030000c0c180030038300070c018001fb18300002601c000186070000398700030f00700006381c00263186000180018000e18e3000380e380000600e000300618001806030000000180;
   0x7300060638e000703838001c0e1c00300d838007dc01c001fb1c30000f701c003187030001f187c0030fc030001e1c0c006731c700018001c001ddc63800380e1c0000700700070061c0018070300000001c0;
   0x338006021c6000301c38003fef0e003018c3800fffe8e0003a0e38003e3c0e00318383800fe181e0031df838003c0e0e002630e380018000e001df8638003aae0e0000600380030060e0018060380000000e0;
   0x31c006001e7000701f1c007fff8f003038e1c00ffffce00038071c00781f07003583c1c00f818070037c7f1c00f80787007730f1c001c000700787c71c003ffe0e007ffff38007ffe07001fff01c01ffffc70;
   0x388007c00e200030079800702f86003f7078c00c00fc600038030800e007c6003f81e1800001f00003f80e1c00e003c6003e30798000f800600301c388003ffe06003fffe18003ffe06001ffe00800ffff860;
   0x100007c004000070010000200004001f201000040000400038010000400184001f0060000001f00001f00000004001c4001400300000f800000000410000380e0400000001000700600001807000000000040;
   0x0;
   0x0;
   0x0;
   0x0;
   0x0;
   0x0;
   0x0;
   0x0;
   0x0;
   0x100000000400001800000018004000770010000000040000300100001c004000600010000704040000000100018000400007001000006000001801810000000040000000100001c004000060008000000040;
   0x38002aaa0e00003803800018c0e000f30038003ffe0e0000300380000c00e000f0383800030e0e000fff838003f000e0000300780004700e001e018380000000e000aaa8380001c00e00006063800aaaa8e0;
   0x3fffef0007fff7c00007007800018c3c001c700f0003ffe7c0000700f00055d53c0007df8f00007061e001fffcf0001ff03c0000781f0000e381e001fe18f8003fff1c001fffcf00001c01e000060e7800ffff9c0;
   0x3ffffe0006bab78000fffce000018e780008301e000300e70003ffffe000ffffb80001f80e000030638000eab9e00000fef80000fc3c0000c1c380003e18e0003ffe78000eaa9e00000c038000061cf000fffff80;
   0x700c00061c760000fffdc00055d670007ffffc000300e60003ffff8000ffffb00003fc0c000039710001c01dc000001e700003ce180001c0e700000618c000300730001c000c000ffffb0003ff184000e031b00;
   0x3000000618300000c00c8000fffe00003fffe0000300e00003000e000000c000000f9f80000ff9b00000c0180000000e00000797800003fff2000006ff0000300600000eaa80000ffff80003ff180000e071800;
   0x1fffe000075d700000c00c0000ffff00000070000003ffe00003000e000001c000001e1fe0001ffdb80001c01c0000000e00001e3bc00007fff8000006ff0000300700001fffc0000e1e18000033000000e071800;
   0x1abae00007fff00000c00c0000018380000030000003ffe00003000e0000ffff80000818c000061d980000c0180000000e00003c30e000020030000006ba00003aae00000fff80000e1e180000338000003fff000;
   0x1870e1c007fff07000fffc1c00018387001fffc1c00000007000fff81c00ffff8700001c01c0061d9c7001fffc1c00fffe0700307071c000f3c0700006181c003fff07001c0001c00e1f18700031d51c003fff070;
   0x1830e7c0061831f000fffc3c0001818f001fffc3c002aaa1f000fff83e00e0018f803ffff3c0061f9ef000fff83c00fffe1e00206023c001c1c0f003fe183c002eae0f000c0003c0001b80f800309fbc0000180f0;
   0x1fffe700061c73c000c00c7801ffffbc001870cf0007fff3c0000000f000e0019e007ffff700071f9fc001fffcf0000c0e3c000fffcf000380f1e007fe18700006071c001fffcf00001981e000301ff000019c1c0;
   0x1fffe6000618318000c00c6000ffff98001830c60007fff1800000006000ffff88000066020003339e8000060060000c0e18000fff8e000702398000c61860000e0318000fffc6000639c0800030182000018c180;
   0x1870e00007fff00000fffc4001ffff90001d75c000071c700000000040001ffe00000067000003319a0000070040000c0e0000070004000e071d0000c6f800000c170000070000000f31e00007ff980000018e000;
   0x1830e00007fff00000fffc0000000000001fffc0000618300003fffe00000f0000000063800003b1980000061800000c0e0000038000000003880000c6fe00001c7300000300000003b0e00007ff9800007ffe000;
   0x1fffe400001c000000575c4000555400001fffc000071c720007fffe800007c010001fffc00001f1980001ff1800000c0e000001c0000003ffc10000c63f800019e310007ffff00001f0f80000301820007fff100;
   0x1fffec000018060000830cc0007ffe60001830cc0007fff6000018c1800000c030001fffee0001e1998001fe188000ffffb00000c0180001ffe30000c61fe0003bc3b0003fffec0000e0fd8000301860000182300;
   0x310c0007fff70001c70cc0007ffe70001870dc0007fff7000018c1c000ffffb8001863f60001e1998001ff1dc001fffff8000fff9c0001c1f30000c71960007381f00057555c0000e0df8000301870000180300;
   0x3b8e000ffff38000fe0ce000600630001fffce0006aab3800018e0e000ffff98001863a60000e19980000618e000000038000fff8c0000e1bb8000c6186000e009d80003038e0000e0c18000301870000180380;
   0x3f060007fff180007c0c7000700638001fffc60000007380001860e00001c01c001863870001e199c000073c600004181c000c018e00007399c000c7187001c01ddc000707870001c0c1c00030987000ffffdc0;
   0x1e0700001801c0001c0c7000600638001830c7000c003180021860600000c00c001863830001f198c000063c70000e380c000c018e00003f01c000c318300080788c00030e07000380c0c00030f83800ffff9c0;
   0x1e0700001c01c000790c300070061c001870c7001c0071c0071870700001c00e001d63830003b918e000077e70003c1c0e000c018700001e01c000c318380001f00c00071c0300079cc0e00030f8380055d55c0;
   0xff0380001800e000f1ec380060060e001830c3800c0030e0031838380000c006001e638380031c18600007e63800380e0e000c018380007f80e000c398380003c00e00030803800f1fc0e0003038180001800e0;
   0x17f7c1c01ffffc7003e1fc1c007ffe0e001870c1c00f55707003f81c1c0001fc0700066381c00f1e187007ffc71c00700707000fff838007f7f07000c1df1c000780070007f001c01e0fe07000301c1c000180070;
   0x3f81f1c00ffffc6003803e18007ffe06001f30c1800fffe06003f80f180000f80200006001801e07983003ff039800e00383000fff81800fc0fc6000c0df0c000600060003e001800c01e0200030080c000180060;
   0x3c007000000000000100040000700604000f70c00007ffc04001f006000000500000006001000c0318000150011000400100000c01810007001c0000c085000000000000014001000000400000300008000180040;
   0x0;
   0x0].
Definition hanzi_rows_94 : list N :=
  [0x0;
   0x0;
   0x0;
   0x0;
   0x0;
   0x0;
   0x0;
   0x7001000000004000070010000700040010000000000700400000001000018004000070010000000040000700100001c00400001c010000000040000070100004100400001801000606004000000010007000040;
   0x1830c38003ffe1e0000300380023600e003e03f380020600e000fffc380001800e003860838002aaa0e0000300780000c00e00000c078003ffe0e000003038000e380e00001c0380060f80e003fffe38007fe00e0;
   0x1870cf0003ffe7c0000700f80037fc1e001ff7f780070701c001fffcf80001843c001871cf0007fff7c001fffdf00001e03c0001fe1f0003fff3c0000038f0001e1c3c0007fc0f000607f9e003fffef8001fffbc0;
   0x1830de000300e70003fffee000633fb80003fbaf00037ff78000f001e0002b8c78001c639e0006aab70001ffffc00003f0f80003fe3c000300078003fff9e0003c0c78000ffe1e000620fb80000181e000303f780;
   0x1d75cc000300e60003fffec000671fd0000313860003fff300007c61c0007f8c30000c738c000700760001c70d80000738600003d7180003ffe30003fffc8000780e700007570c000671c1000001c0c0007062700;
   0x1fffc0000300e0000003000000e30c00000301800001860200001fe000002b8c00000e6300000600300001830c00001e1e00000183800003ffe00000000c000070c70000030f80000620c000000180000038e6000;
   0x1fffc00003ffe0000007000000c71c00000301c00001c70000000f800000018c00000473000007fff00001fffc00007c0f000001c1c0000355400000000e0000e0c3c00003dde0000671c00000fffc000018c6000;
   0x70000003ffe00000aba80000070c00000330c00000e60000003e000000018c00000060000007fff00001fffc0000f00380001fffe0000300000000aaae000041e1800001f860000620c00000fff8000018ce000;
   0x7801c00000007001fffc1c00575d4700033061c00ffffc7001fffc1c01ffff87001fffc1c00700707001c70c1c00ffffc7001ffff1c003fff07001ffff040001f0070000f001c0067ffc700060c01c000dcc070;
   0x1fc03c0000001f001fffc3e00ffffcf003f37e3c00ffffcf801fffc3c00ffff8f001fff83c0060031f001830c3c001ffe0f801861a3c003ffe0f001ebba3c0003b80f0003fc03c0062ff8f00060e03c001fff0f0;
   0x7cf0f0007fff3c001c71c7800ffffdc003f37f700001c01e001870cf00055d53c001c01cf0007fff3c001fffcf00015d43c001871cf00000003c001c3187c00071c3c001f9f87000671c1c00060e0f0003fff3c0;
   0xf1f860007ffe18001830c6000060c080003331200000e018001830c6000018018001801860007fff18001fffc600000c01800186186000ffff98000c61860000e1e18003e73f6000623e08003fffe60001eaa180;
   0x7e39f0000700700001c71c0000e71c00000337000003ffe00001fffc000061dc00001fffc400055d5000000000400001c000001871c4000ffffc0001cc1840003c0f10003070f0000673e00007ffff00000f00000;
   0x3870f0000600600001abac0000668c00000333200001ffe00001fffc0000618c00001fff8000001c000003ffff0000ffff80001afb80000c00180003ffff0000780380000fff80000626e00002aaaa00000380000;
   0xe0200007fff20001fffc400076fc00000333300000f0f10001fffc000071ce10001d55c000001c020007ffff8000ffff80001fffc8000dfffd0007ffff4001f555e0001fff84000677f000000000000001c0000;
   0x2aa880007ffe60000afa8c00036ff18000333240000383f0001830dc0003986300018018800001c06000000618000aaeaa0001fff98000bffeb0000c198c000fffed00000700c00062cf98000fff9c00000c0300;
   0x1fffdc0007007700001fc1c0003e1fd8000333ee00001c1f8001870cc00039c730001c01dc000ffff700000071c00001c0700000f01c0001d5c38000c39ce0003fff30000fff8c000675d98001fffdc000fffff00;
   0xfffce0006006380001be0e0001e0fd8000331e6000ffff98001fffce0001d8338001fff8e000ffff38000fff0c0001cce380000f80c0001c1818000c70c6000380638000fff8e000620cd8000eab8e000ffffb80;
   0x700060007fff380003f7060000e1c1c003ff1e7000ffff9c001fffc60001e021c001fffc600001c038000fff8e00039c7380000dc0e0000e381c000c60c700038071800007007000671cdc001c01c600001c0180;
   0x300070007ffe18000733870018e0c0c003ff0c3000abaa8c001830c70000f001c0018018700001c018000c000600030c31c0000dc0600007700c003fffc300038061800007007000600c4c000c018700000c01c0;
   0x3800700070071c001e73c70019f1c0e000003e380001c00e001870c700007c00c001c01c700001c01c000c000700071c39c0070ce0700003e00c003fffc300038071c003fffe7000601c4e001c01c700001c01c0;
   0x1800380060060e003c30e38019f8c0e00000fe3800018006001830c380001e00e0018018380001c00e000e0003800e0c18e0030c70380003e00e000e000380038060e003fffe3800600c06000c018380000c00e0;
   0x1c001c0070070f00787071c01f9fc07007fff71c0001c007001870c1c0000ff07001d41c1c01ffffc7000e0003800c1c1c7003fc3c1c001f7f0700060001c003fff0e00007001c00741c07001fffc1c0001c0070;
   0xe0018007e060600203021800f8cf87003ff83880001f802001f30c1800003f87000f8181800ffffc60007f00180000f806003fc1f1800fe0f860007e0018003ffe0600007001c007c0c03000fff8180000f8060;
   0x40010007e070400007000000f00f800015401800000f800001f70c0000000700000f81c10000000040007f001000007800001500600007001840003e001000380704000070000007c1c00001c01c100000f8000;
   0xa000000000000000000000000000000000000000000000000000000000000000000000000000000000;
   0x0;
   0x0;
   0x0;
   0x0;
   0x0;
   0x0;
   0x0;
   0x0;
   0x30000000000040010000000000c00400003001000000004000030000000000000000006000000600400001c01000000004000000010000000000000600000000c0000003060000000c00400001801000180c000;
   0x3001800ffff0e00383ff380001c00e000030038007fff0e003833f98002aa1ce003ffce380000700e00000e038001ffe0e000fff83800ffff8e0000602180000c00e0003060380000c00e00003807800181c0e0;
   0x7007800ffff3c00387ff780001c01e0000700f8007fff1c001833fb8007ff39e003ffdc78001ff07c0003fe0f0001ffe7c000fffcf000ffff9e0015757780000c01e0017574780000c03c00039c1f0001c181e0;
   0x3fffff000aaab78003b303e000ffffb8003fffde00060c038001c33070007ff738003aa98e0003ff8780007ff1e000180678000c019e000e001b8003fff670007fffb8003fffee000ffff7800030e3c0000e38780;
   0x7ffffe000030330003b7034000fffff0003fffcc00061c630000c33060006006300038018c0001d5c600007578c0001c0660000c01dc000e0c1b0003fff6e0007ffff0003ffffc000ffff20000707180007fff700;
   0x210c000030300003b3030000e003a00006020000060c600000e3300000600000003800000001c3e0000038380000180600000c0180000e0c180000038e40002aeaa00003060000000e000000fff800007fff200;
   0x63000007ffb00003b7ff0000e003800007030000060c700000733000006001c0003955700000e77800001c1e00001ffe00000fffc0000fffd800001984000010c70000030600000557500001fffc00007fff000;
   0x63800007ffb00003b3ff0000ffff800003030000060e3800003b3f000067f8c0003bff3000007e300000fffe00001ffe00000fff80000effd800001980000038c600000000000007fff0000380b8000060c0000;
   0x1571c0c00575307003b1570c001ffe0700030601c007071070001f3f0c0067f9c7003bff71c0003c007001fffe1c0000000700057541c00e0c18700019c00c001cc607003fffe1c007fff0700180701c0061c0070;
   0x3ff1c1c0003030f003b0633e00180e0f80038603e0030380f0000b039c006618cf00383033c0007f01f000c6183c003fff0f00003003c00e0c18f001ffef9c000cce0f003fffe3c0000700f00000303c006aea0f0;
   0x1d79c780003031c003b0637c00180e3e0015d74f8003f1e1e007ffc338006719de003830770003f7c3c001c71870003fff3c0000700f000effdbc001ffefb8000ccc1e003800e7801ffffbc001fff8f0007fff3c0;
   0x18d8e7000abab18003b2eb2000180e18003fffe60001e0f18003ffc3b0006618c800383032000f81fd8000c6186000380318001fffe6000eff998000182ef00000c418003820e6000ffff98001fff860002aeb180;
   0x1dddf2000ffff00003b7ff00001ffe10007ffff400001c700005774180006759c000397570000f1c780001c718000038c310001fffe4000e0c180000180c2000ffffd0003830e4001557510001575c400001c7100;
   0xd9ef8000aaab80003b26f00001ffe000000000000000c000000333f800067f8c00039ff30000018000000c618000038c300001830e0000e0c180000180c0000ffff8000003800000383800000030e000000c3000;
   0xd37d8000030390003b66f0000000e200000000800001c400000333f80006759c00039ff70000ffff80001c718400038c320001870e0000fffd900015d4c000001f010000fffc00007d582000007060000ffff100;
   0xe32ce0000303b0003b26f6000000e60000fff9800000c610000333aa0006618d800383036000ffffb0003fffec00038c3600018f8e4000fffdb0003ffece00003f030000fffc8000fffc60002abaa8000ffffb00;
   0x771c6000fffdb8003b66f60007ffe70000fff9c0007fc630000733070006719d800383076000ffffb0003ffffe00038c3700019dcec000f8c1b0003fffc600007d830000e181c001fffc70007ffffc000e1f0300;
   0x3e0c6000fff9b8003b26f60003ffe30000c018e0007fc638000633830006618d8003830360001180380000f80e00038c330001b9cee000f8c1b8000180c60000edc38000e1c0e000386e38003fffec000e0f0380;
   0x3c1c700057559c003966db000700e38000c018e00001c6180006318300067f9dc0038307700039ce180001dc0700039e338001b0ee6000ffc19c000180c70001cce1c000e1c0600038e6380000780e00061f81c0;
   0x1c0c300003018c003826db000300e18000c018600000c61c000c318380067f8cc003bffb300031861c00018e0300023e218001f07e6000eec19c000180c300038c71c000e0e0700038c7180000fc0600060dc1c0;
   0x7e1c38000301cc003876db800700e1c000c018700001c61c001f31818006551ce003bfff380071c71c00078f038000f701c001a07e7000e0c18c000181e3800f0c3cc0006070300039c39c0001de070007dcf1c0;
   0xf78c18000300ce003836d9800300e0e000c018380000c60e001bb1818006000c600380033800e1838e000f03838001e380e001800e3800e0018e000183f1800e0c1ce000603838003883ce00038f038007cc78e0;
   0x1e3dc1c01fffee70038061dc007ffe0f000fff81c01ffffc70079f9d1c006001c7001d0071c00c1c1c7001e01e1c00781f0e001800e3800ffff87007fff39c0040c0470007f3c1c003801c7001f07c380015c3c70].
Definition hanzi_rows_95 : list N :=
  [0x380ec0800fffe67001e060cc003ffe06000fff81800ffffc6003079f8c007c00c3001f8030c0001f886003800f9800f00f86001f80e1800ffff87003ffe1880000c0060003e0e08003f0006003e01f180000c0860;
   0x1007c0000000040001e0600000700e04000c0180000000004000018f00007c01c0001f807000000f00400100030000600184001f00e1000e00180001ff00000000c0000001e0600001f00000038007100001c0040;
   0x0;
   0x0;
   0x0;
   0x0;
   0x0;
   0x0;
   0x0;
   0x0;
   0x0;
   0xcc010001003020000000000000000400003001000000c04000070010000006040000000100001c00400030180000180c00000400010000006020018430100000c004000000010000000040000000100000c0040;
   0xcc038003b8307003ff3f3800ff3f8e00003003800000e0e0000300380000060e000fffc380060c30e00030181800180c0e000e03838007806070018e30380000c00e000000038007fff8e0007ffc380000c00e0;
   0xcc0f00039831e003ff7f7800ff7fbc0000700f00000067c003ff01f000ff861c001fffdf00071c73e00030187800180c3e0007dfcf0007f061e001c738f00001c03c003fffff0007fffbc000fffc780001c03c0;
   0xcc1e000318338003b323e000e323b8003ffffe000000738003ff01e000ffae38000c00de00030c67800030186000baaef80001fc1e0000f8638000e31de000abaaf8003ffffe0006aabf80007aa8e000fffff80;
   0x1fffe8000318310003b3734000e373b0003fffe8000ffff0000157018000f57e10001c01d800039ce300003018e000ffffb00007ff08000018610000718d8000ffffb00000780800060c1f00003c004000ffffb00;
   0x1fffe0000318300003b3230000e32380003aaae0000ffff8000003000000637e00000fffc00001cdc0000030184000ffff80000f8fe000001860000039ce0000ffff8000001c0000060c1800001e000000c001800;
   0x1ccce000071dfe0003b3730000e37380003000600006005c0001fffc0000630600001fffc00000fdc00003ffff8000180c00000e19e000001bfc000071ce0000c0038000000f0000060c18000387070000c001800;
   0x18cce000060dfe0003b32b0000ff3f8000300060000e00ce0001fffc0000630600000c00c000000c000003feff8000180c000000180000001bfc0000e38c0000c0038000100f800006ffd8000383060000c00f800;
   0x1ccce1c0060c303003b37f1c00ff7f87001fffc1c00600cf7001d55c1c00630603001c01c1c007fff0700078180c001ffc07007ffff1c00018607001c7181c00000007003c1fe1c007ffd87003a3171c000006070;
   0x18cce3e00e2e78f003b3233c00e3238f800fff83e00e7fe6f801800c3e0063ffef800fffc7c007fff0f00078381c001ffc0f003ffff3c00ff860f0018e383c007fff0f001e38f3e0060c18f803e33e3e007f3e0f0;
   0x1fffef001c6779e003b3737000e3739e0000000780067ff1c001fffcf80077fffe001fffcf00075573c000787c3800180c3c00155757001ff8f1c0038c70f0007fff3c000f7cf780060c19e003f37778007f7f1c0;
   0x1fffe6000866f88003b3232000e3238800000002000603388001fffc6000320e080000000600060031800078fc7000180c1800000706000318f08000002060000180180003ffc200060c198003bbe620006363180;
   0x1ccce0000071fc0003f7730000e3738000000000000607100001d55c4000370e00001fffc000067f3000007ddc20001ffc10000fff80000319f00001fffc400001c4000007e78000067f9800039f4700006363800;
   0x18cce0000031bc0003ff230000e32380003fffe00006fff80001800c00003e3ec0001fffc000067f300000fd9e00001ffc00000fff8000031b780001fffc0000018e000006638000067f9800038f8600006361800;
   0x1ccce00000313e0003ff7f0000ff7f90003fffe40006fffd0001fffc00001e7ec000157540000677300000f69e0000180c10000c03c400031b780001870c800001ce100006f7f40006619800039fe700006373c00;
   0x18ccec000030368003833f6000ff3fb00000600c000603030001fffc80001e6ec80000300c000663330001b61a2000180c30000c03ec0003186d8001830d80007f8630000efe6c0006619b0003bb7640006336f00;
   0x7ffffe0003b837800003736000e371b00004700e0006673380015755c0001ceedc0015755c000663370001b71b7001fffff0000fff7c0003186dc001870dc0007fc670000cdc2e0006619f0003f33fe0007b3e700;
   0x3ffffe00031833c00003236000e321980006638e0006633180000300e0000cceec003fffee000663338003b39bb000ffffb8000eab2e0003186ec001fffcc000018638000cce0600066b9b8003c31ee0007b38380;
   0x7ffff700071830c00003737000e3719c000e738700066731c001575560001ece6c003ffff600067f3180073199f001555558000c030700031c66c001fffce00001cf18001cc78700067f99800383e7700013181c0;
   0x38e0300061830e0020323b000e3218c000c61c700067ff0c003ffff70001e0e6e0000f80700067f31c0033199f8000e381c000fff0700030c60e001830c6000018f1c0038e3e300062a99c00383e63000030c0c0;
   0x7870380061c3060070371b800e3f1cc001c71c300077ff0e007ffff70003f0e460001dc0700060331c000309898001c1c1c000fff0300030c606001870c700001db1c0070e1f380060019c00381473001c30e0c0;
   0xe03838007ee30600303219800e1a0c6003860e380060000e00003003800738e0600038e0380060230e00030181800380e0e000c030380030e606001830c380001fb8e0030e0338007fff8e003fffe3800c3060e0;
   0x1c01e1c00ffe307003ff71dc00e1f0e700307471c0070000700007001c00f1cf47001f07c1c0060030700030181c00700787000c0301c00306607001fffc1c01fff1c700007501c007fff87003ffff1c00c307870;
   0x3800f8c00c0e303003ff3ccc00f9fc6200007e218003f800600003000c00e0ef83003e03f18007e030600030180c00e003e6000fc300c00306603001fffc1800ffc0e700003e008006aab86003aaaa1800ff03c70;
   0x100030000400302001543cc00078bc4000003c010001f000000007000800c04780003800700007c030000030180000c000c400078300000304600001800c10005400c000001e00000600180003800000007e01800;
   0x0;
   0x0;
   0x0;
   0x0;
   0x0;
   0x0;
   0x0;
   0x0;
   0x0;
   0x700000001c00400000001000600104000030000000018000000000100000700000000001000001c04000030010000000040000380100001180400003001000300004000070010001c0704000070010000000040;
   0x300380000c00e0007ffc3800e0c18e00003003800001800000aaaa380000600e000fffc3800000c0e000030038002aaa8e0000300380003b80e000030038007f800e000038078000c060e000070038007fff0e0;
   0x1575478007fffbc0007ffcf800e0c1bc001fffe78001c1800001fffef00000701e000fffcf000000c7c003fffef0007fffbe0000700f000071c3c0000700f0001fffbc0000f81f0001c0e1e001c730f0007fff7c0;
   0x1fff8e0007ffff80006001e000e8c9b8001fffee0000e1bfc001fffee000ffffb8000c00de000fffe78003fffee0006aabb8003fffee000061c78003ffffe00000fff80000fc3c0001e0c38000c339e00060c3780;
   0x1fffdc00001c0200006001c000ecddb00000300c000073bfc0000180c001fffff0000c00dc000ffff600015554c0006001b0007fffec000060c20003fffe80007041300003ce180001e7fd0000e719c00071c3600;
   0x30080002aea000007ff80000ecd980000aba8000003f98000001800000aeba80000fffc0000e663000000000000062318000030e00000fffe000000000000070e30000070780000367fc0000631c00006aeb000;
   0x1575400003fff000007ffc0000ecd980001fffc000001f9c000001c000000e1c00000fffc0000677380000fff800006f398000070700000ffff000007060000030c700001e03c0000777fc0000770e00007fff000;
   0x3fffe000000c00000060000000e6d9800000300000003d8e0003ffff00000c0e00000c00c00006339c0000eab800000c1c00000e0380000030f000003060000038ce00003c00e00006303000002f8000006aeb000;
   0x1fffe1c00ffffc700060001c00e6d18700157551c00079870003ffff1c001ccf07000c00c1c00631887000c0181c003c0e07001fffc1c00070f8700030701c0019cc070037ff71c00e183070007dc01c0071c3070;
   0x182003c00ffff8f003fffe3c00e0c18f003ffff3c003e183c00018603c0038c70f000eaac3c00639c1f000c0183e0038070f001fffc3e00030f8f80038303e003c8c0f0007ff23c00c1c30f000f8e03e0060c31f0;
   0x1c678f00055555e007fffff000fffdbc003ffff78007c1f1f000387070007fffde000fffcf80061ce3c000fff8700071c7bc001801c78007fffde00078f878007f041c0000700f000c0ff1c001e0fc78007fff3c0;
   0xc6e060002aaa08002abaa6000fffd9800000006000201f0600070382001fffff80000000600060c718000fff8600020c118000aaa820007ffe88000fdf820003ffe980000300e000063f08003833e60007fff100;
   0x7cc00003fff0000083044000f5d580000fffc00000700e0001e1dc0000f0c7c00000c1c400074e3800000000000001c000000fff80000070e00001cfdc000007ff00000070040000e7300001071c40000000000;
   0x6bc00003aaa00001c30c0000e1e180000fffc00000300e0003c18e000030c3000000c0c00003e7100000fffc00007fff80000e0180000030e00001868e000000c000001fffe00001c3300000830800000000000;
   0x6704000304710000f31c8000e3f190000c00c4000e706ff003c1c780003fff100010c1c80001c3010000fffc40007fff90000e0184000070e100010706400001c010001fffe8000387300001c7184001ffffc00;
   0x620c00030c2300003f398000e6f1b0000fffcc00073fbff002e99b20003fff30003ccad800000f0300003800c00003e030000fff8c0002bae300000300c00000c03000003018000303398000c318c000ffffc00;
   0x3fffee00031c7380001f31c000e6f9b8000fffcc0003ffbfd001cdd8e00030c730001fdfdc00001e0300001f00c00007f038000fff8e0007ffe38007fffee001fffff0000c719c00000319c000e71cc0000c1c700;
   0x3fffe600030c2380000fc0c000ecd998000c00ce0001fe1f80018d8c600030c3380003cacc0001b98380000600e00006f818000e01860007ffe38003fffee000ffffb8000e318c00000319c000678ce0000c1c380;
   0x380700031c71c0003ff0e000fcdddc000c00c70001f63fc0039dcc70003fff1c0001c1ce000391b18007ffff60001fdc1c000f5587000070e1c007fffe700001c01c0006730e00001319c0007f8e70000c1c180].
Definition hanzi_rows_96 : list N :=
  [0x1f80300030c21c00073386000e8cfcc000fffc70001b67ec003198e30003fff1c0000c0c6000701b9c003fffe70001cce0c000fff83000030e1c0000300700000c01c0006330600007b18e0000d8470000c0c1c0;
   0x79c0380013e50c001f31e7000e0c7ce000fffc30003f76e600719c73801c0c71c0070c1c70006c198c0000700700079c70e000f5583800070e0c0000700300001c01c000777070001f31ce0001dc030000c0e1c0;
   0xe0f038000f780e003c30e3800e0c0ee000c00c38007338e700209823800c0c00e0030d8c3800ec19ce00006003800f0c3ce000e0181800fffe0e0000300380000c00e000232038003c30e600038f038000c0e0e0;
   0x1c07c1c007c3e0700303023c00e0c0e7000c00c1c01e71ce380001c01c00c0c007003fdfc1c01cc19c700007001c0061c1c7000e0181c01fffe0700007001c00ffff87003ffff1c00783f67001f07c1c000c07870;
   0x3801e0800f00f8600003e01800e0c063000fc0c1800c3ccf900001f81c00ffc006003fcfe18008ff8c600007e0180000c002000fc180800000e0600003001800ffff86003fffe1800603e73003e01f18000c03c60;
   0x10006000040038400001e01000e00040000780c100003c07800000f000007fc0000015004000007f00000003e0100001c0000007c180000000e040000700100000000000000000000001e20003000700000c01800;
   0x0;
   0x0;
   0x0;
   0x0;
   0x0;
   0x0;
   0x0;
   0x0;
   0x0;
   0x100000c004000070010000e1c04000000010001c6004000000010000000040003018100001c0040000700100000000c0000300100001c0040000180100000600400001c00000001804000000010004006040;
   0xfff8380000c00e000038038000e1c0e001fffc380018630e000fff878007fff0e0003018180000c00e000060038007ffe3c0000700380000c00e0038180380008700e0000380180000380e000fffc3800f0060e0;
   0xfff8f00001c03c0000fc0f0000e1c3c001fffcf8001c671e000fffdf0007fff3c000315d380001c07c0000600f0007fff70003fffef00001f01e0038180f0001c383c0000700780007fc3c000fffcf000ff073e0;
   0xc019e000fffff80001ce1e000fffff8001830de000186338000e019c00060037800033fff000fffff8003ffffe000000620003fffee00007f838001fffde000181c78003fffef0000ffc78000e00de0000f7ff80;
   0xc018c000ffffb00007870c000ffffb0001870dc000fffff0000e01d800060033000033ffe000ffffe0003fffec0003fff070015554c0001f3c30000fffc80003fdf70003ffffe000075e70000e00cc000037ff00;
   0xfff80000c00180003fffc0000aebe80001fffc0000ffffc0000eab800007fff000003018200003f00000060ce00003ffe1f000000000003c0f00000e18000007fff0000380060000070700000e00c0000032b800;
   0xfff80000c00180003fffe00000e1c00001d75c00001c6700000fffc00007fff00003fc18000007f80000061ce000030071c000fff80001f557c000071800000607f0000383070000038780000fffc00000303000;
   0xc0180000dfff80000000000000e1c00001830c0000186303000eab80000000300003ffff80000ed800002eaee0000300600000eab80000cffdc000039800000007000003830600003fff80000aba80000030b800;
   0xfff81c001ffe07000fffc1c01ffffc7001fffc1c001fe707000e01c1c0000030700377ff8c003dde07003fffe1c003fff60000c0181c001ffc47007fffe1c00ffffc7001fffc04007fffe700003801c00571d870;
   0xfff83c0000000f000fff83c00ffffcf001fffc3e001fe30e000e0183c00ffff0f80333819c00f8cf1f00060ce3c003ffe70000eab83e0020000f003fffe3c00ffff8f000fffc1e0030c3cf001fffe3c00ff0d8f0;
   0x557070003ffe3c000c01c70000c1c1c0000000f00000071c000fffcf000ffff1c0033381bc01e1c7fc00061cef000000738000fff87800647f9c000070078000e1c1c001c30c7c0070c33c001fffe7001ff1d9c0;
   0x3060003ffe18000c01860001c0e180000000e0002aab18000fff8600008e31800338ff7000bfff980006ace600000061c00000002000667f9800003c020001c0e18000c30cf00030c31800183866000332ed80;
   0x3fff800003d5600000c01c0000180e00000fffc00007fff00000000040001c730000338ff10003ffe000007fce0000ffff0e003fffe000066638000055f00000798700001c30c60007fff00001c3860000337fc00;
   0x3fff80000380600000fff800003fff00000fff800002aea0000000000000383b00003386000003806000002a8e0000fffe06003fffe0000666380000fff80000f1c380000fffc00003fff00001abae0000337fc00;
   0x1860c40003d5600000fffc00007fff90000c01c800000c000001fffc00007fff10003183800003806000005556400000180600355564000667f80001ffff4000e0f1d0001fffc000070c310001fffe4000331c000;
   0x1820ec0003ffe2000030608001ec0df0000fff98000aaea98001fffc800063fbb00031a1860003ffe60001fff6c000aabaaa0030006c000667f98000c03fc0000e3e30000c30cc00030c3300018386c000338c180;
   0x1871ee0003d56700003061c000cc0df0000fffdc000ffffd8001cccdc0000383b00031bfc70003ffe70001fff6e000ffffff003fffec0006663b8001c076e0000f1f38001c30ce00070c330001c386c00033fc180;
   0x19d88e0003806380003060c0000ffc38000c018c000abea980018ccce0000383b800319ffb000380638000e0c66000aafeaa000fff86000666b98000fff0e00023c218000ebace0003fff38001abaee00033ff980;
   0x1b9fc70003d5618003fffee0000ffc1c000d55ce00007f01c001cccc60007ffd9c0031c1fb0003d561800071c7700001ff0000007007000667f9c001fff0700071fc1c001fffc70007fff1c001fffe7000319fdc0;
   0x1904830003ffe18003fffe6000000c1c000fff860000ef80c0018ccc70007ffd8c0038c1830003ffe1c0003b87300003dbc00000600300066638c000c0307000383f0c000ebac700000001c001fffe7000318dcc0;
   0x1bffc380015541c00030707000600c0c000d55c70001cde0e001cccc70000381ce0038e18380015541c0001f0738000799f00000700300064638e001c07030001f060e001c30c380000000c0070386300031dc0e0;
   0x1bff8380000000e00030383800600c0e000c018380038c78e0018ccc38000380ce0038618180000000e0003f0338003e18780000600380060638e000c030380007c00e00003003800aaaa8e0030380380030cc0e0;
   0x1c0001c01ffffc7000303c1c00755c07000c01c3c01f0c3c7007ffff9c01ffffe700187181c01ffffc7001fff39c01fc181f00007001c00607387001fff01c0001fc0700003001c00ffffc70030300180030dc070;
   0xf8001800ffffc6000301e18003ffc06000f8181800e0c0c2003ffff9800ffffe2001f39f0c00ffffc6003e0f98c00e0180f00007e008007c7b83000fff01800003f0600003001c00ffffc7003ff00180030ec030;
   0xf0000001555544000300400001ff800000781c100000c04000000000000555540001f11f00000000000030019000000180000003e000003c7380001c070100000070000003001000000000001fe001000305c000;
   0x0;
   0x0;
   0x0;
   0x0;
   0x0;
   0x0;
   0x0;
   0x0;
   0x0;
   0x308000000000040000000100001c0040001c1810000000040006030100000060400000101000180404000004010000000040000000100001c004001c01c1000000004000000000001c0c04000180000000703040;
   0x30f838003ffe0e000fffc380000c00e0000c1838003ffe0e000603038007f860e003fc383800180e0e00018e03800ffff8e002aaaa380020c20e001f81838007fff0e00000e018000c0c0e000187f380007070e0;
   0x31ff78003ffe1c001fffcf00000e03c0011c19f0003ffe7c0006030f8007f863c003fc38f0001c1c1e0003860f000fffffc003fffef00071c73c0007fdc70007fff3c003ffff78000e1c3c000187f7800070e1e0;
   0x303ee000300638000c00de0003ffe780038c1be000300678003fffee0006186380038c38e0000e18380007071e000608078002ababe00060c3780001f98e000618378003ff3ef0000618380001863e000030e380;
   0x30304000355630001d55cc0007fff30001fff98000355660003fffec0006186100038c384000575d50000f038c00071cc600000300c00071c720000187c400061c3200007018e0007fffb0000df634001ff7ff00;
   0x303000003ffe00000fffc00003006000007ff800003ffe00000603000006186000038c380000ffffc0003c01c00003f8c000000380000060c300000187b0000618300000301800007fff80000da630000ffffe00;
   0x336300000355600001575c00007557000001c1800003006000007570000061ffc00038dff8001ffffc0003ffff00003fce00003fffe00007fff00000187f00007fff000007018000000c000001db63000001ffe00;
   0x336300000300600000060c00003ffe000000c1800003006000007ff0000061bfc0003adff80000000000017ff60000008e00003fffe00007fff0000018fb00007fff00003fe1800002aea000019b7f000001c3000;
   0x337ff1c003ffe07003fffc1c007557070071c181c003ffe0700075701c007f8607003fc381c00607f8700061c01c0001ff07003ddd61c00000007007ffdf1c007fff07003ffff0c007fff070019b7f1c007fc3070;
   0x1b7ff3c003ffe0f003fffc3e0030060f8030ff83c003ffe1f00060303e007f860f003ac383c00667f8f00060c03c00fff31f00398c63c0000000f003ffdb3c0000030f00030ff1c002aea0f8031b633c00ff830f0;
   0x1b638700030061e0001f0c78007fff1c003fffcf80000003c0007ff0f00061871c0038c38700066759c00070e0f000ffe3bc00398c6f000ffff9e0055d5ff0007ffb1c0007018780000c01e0031b637000753f1c0;
   0x1b23820003006080023bee20003ffe18003fa3ce0000000180007ff06000618f080038c38200066618800060606000aa01d80039fc66000ffff880001819a0007ffb1800030183000aaea8800319e32000383f080;
   0x1f37c00003ffe00007f1ff000000000000007044000ffff8000060300000619f000038dff00006675800007f7c00003ffe800039fc6000000c000000181d0000755b00003ff180000ffffc000119e300001c33000;
   0xb2fc00002aaa00003e01e000000000000003000000ffff800006030000061bf800038cff0000667f800003e1e00003ffe0000398c6000000e00000018180000601b00003fe180000aaaa80003987f00001833800;
   0x79fc00001dc01000155544000ffff00001fff8000001c400007ffff00007ff780003fdd70000667f90000040c4000300e0000398c640007fff10000181c00007ffb1000071ff200000c010001987f00001c31800].
Definition hanzi_rows_97 : list N :=
  [0x78b6e00038c030000fffcc000ffff20000eab9800000ce30003ffff40007fa798003fcc360006661b8000fffcc000300e3000398c6c0007fff30001ff9860007ffb3000030ff600000e03000198636000ffb1980;
   0x78b66000ffffb0001d55cc00001c070001c039c0007fc670000110cc0007586dc0038dc76000666198001fffcc0003ffe700039fc6c000673338001ff9c6000601b3000071ff7000ffffb0001d0636001fff1980;
   0xf8336000ffff98000c00ce00001c038000c038c0003fc638000338ce0006186fc0038ec36000667f98000cccce0003aae380039fc6e00062333800181986000601bb8003ff187000ffff98000e063600018319c0;
   0xdc33700001e01c001fffc70007fff38001fff8e00055c718000718c600061867c00387c77000667f9c001cccc7000300e1800398c6700067331c001819c70007ff99c007ff1c700001f01c000706370001c31dc0;
   0xcc33b00003e00c000fffc30003ffe1c000fff8e00000cf1c000e1cc700061866e00386ff300066618c000cccc70003ffe1c00398c6700062331c001819830007ff98c000301c380003b00c000387f30001830ce0;
   0x1ce31380007700c001c01c300001c01c001c038700001df1c000c0cc700061860e00387ff380060618e001cccc30003ffe1c00398c6700067330c001819c38006019cc000700c3800073c0c0001c7f38001c30ce0;
   0x1863018000e3806000c00c380001c00e000c038380000fb8e000404c38007f86060038303380060618e000cccc3800300e0e003fffe380062330e001819818006018ce000300e18000e1e0e0000e0318001838e60;
   0x387301c007e1f07001fffc1c00ffffc7001fff83801fff1c7003fffc1c007f8607003d3071c00606187007ffff9c00300e07003fffe1800673307001ff9c1c007ff8c700070071c007c0f8700007c31c001c3d770;
   0x303b00c00f80fc2000fffc0800ffff86000fff81800ffe0e6003fffc1c00618607003e3821c007c7986003ffff9c003e0e06003800618007a3306001ff980c007ff8e600030038800f803e200003c00c001f9f730;
   0x301300000e00180001c01c0000000000001c0381000ff004000000000000618600001e10000007c3980000000000003e0e00003800610007f3304001819c0000601840000700100004001c000000c000000f1f200;
   0x0;
   0x0;
   0x0;
   0x0;
   0x0;
   0x0;
   0x0;
   0x0;
   0x0;
   0x70301000000004000000010000010000003070100000c0040000000100001c0040000000100000000400047001000000c000001c00080001c00400030600000000004000030010001c0400000c00010000000040;
   0x70303800ffff8e000fffc7800aabe0e0003030380000c00e003fffe380001c00e002aaaa3800aaaa8e000c3183800000e060002cff9c0000c00e000306038003fff0e000030018000c0e0e001ff803800aaaa8e0;
   0x3070f000ffff9e000fffdf000ffdf9c0017574700055d53c003fffef00003803c003fffef000ffffdc000e738f0007f8e1e0007cffb8007fff3c003ffff78007fff3c007fffe38000e0e1e0007ffef000ffffbc0;
   0x3860e000eaabb8000e3b9c000ee81b8003fffee0007fff78002aaafe000fffff8002baeae000ffbab80006331e0007f9f3c000ccc1f0003ffe78003fffee000300378003fffe70000e0c38000c13ee000aebab80;
   0x3fffec000e001b0000777180006601f0003fffec0007fff300000c0ec000ffffb00019cccc0001931f000037718000633b98001dcc1e00071c7700003061c0007007200055dd46000071c30000e30cc0000630200;
   0x3fffe0000eaab800003a6000006619a00003030000000c0000000e0e000001838000198cc00001bb080003fffe00006371800000cc9800030c600000306080003aab00000c8c860002baa80000631800000630000;
   0x30000003ffe000001de000006731800003370000000c000001ffee0000018380001dcdc000019bfc0003fffe000063e1c0001fcdd80007fff00000104000007fff00001dcdc00007fffc000073180000ffff000;
   0x38000003006000000f80000062318000023a00000ffffc0001ffee00003ffb80000d8d8000019bf800000f8000006340e0001ffc980002aea00003fffe00003aab0000188ce00007fffc0002baaa0000ffff000;
   0x1fffc1c003006070001f801c00637d8300007c01c00ffffc7001806e1c007ffb870007cd81c0019b1c30003fe01c00637ff10001fdd8c0055d507003fffe0c007007070039cc70c00031803003fffe1c00e633070;
   0x1fffc3e003ffe0f000ffe03c00637f8f0001ee03e000c380f801806e3c0031838f00078c83e0019b08f0007b783e00633fa780018c99c00ffff8f00300061e0030031f00308c31c0003180f802aaea3e00e6330f0;
   0x1c078003ffe1c007f7fff0007de79e000787078001c1c1e001ffee7001ffffbe007ffff78001df1de001e73cf00077061f00018ddb801fffffc003030678007fff3c0001cc01c00e319de00000e07800e6331c0;
   0xc02000300618003831e600079c198000f0382000380e18001ffee6000ffff98003ffff2000ffff98003c30e600036060c003f8c9f000000018003030670003fff18000aaaa3000631988003ffff2000eebb180;
   0x7ffff0000355610001fffc4000140090007fffe00007fff80001806e000071819000000000000ffffc000107860000367fe8003ffdda0003fff1000157542000073000001fffe3000631980007ffff0000ffff000;
   0x3ffff00003ffe00000fff800002aaa00003bfef80007fff00001806e0000318380000000000000c008000001800000367fe00013fc980003aae00003fffe0000063000000c0000000631b8000000600000aaaa000;
   0x60400015d410001c71c80007fff0000215430000e00500001ffe640007ff990000fffc40001c0dd000155d440003e060000319dd8000300700003fffe0000e73190001c0002000731b100000070400001c0100;
   0x60c00000c030000c30980003aeb30000000040002aaa20001ffe6c0003ff9b0000fff8c0001e0cb8003fffec0001e2608003b8c9a0003086200000fc04000e633b0000fff86000331b30000fff0c00000c0300;
   0x1fff0c001ffffb0001c71dc00070c330000fff8e0007fff700000c06e0000181b8000c01cc0001e1dd8003fffec0001c77d8001f0cdf00031c7700001fc0e000673338001fffc7000331b18000fff0c0007fff700;
   0x1fff86000ffffb8000fff8c00030c338000fff860003bbb38000ecc660007ff998000c01860001b18980003070e0000c66cc000f00cb0003086300003b606000363718000000c30001b1b1800060f060007fff380;
   0xc1c7001ffff9c001fffce0007fff1c000e0187000733338001cce770007ffddc000fffc70001b3fdc000383070001c66cc000f01c300031c7380007370700037371c001fffc30001b1f1c00071f870007fff180;
   0xc0e30000e181c000630060003fff1c000e018300033331c0018c63300060098c000fff830009bb3cc0001cf870001ee6ee0027036380030c618000e33830003e360c001fffe380003180c0003b98300000c01c0;
   0xc0f30001e1c0c000e700700070c30c000e018300073331c0038c733800701dce000c01c3801d9d1ee0001ff030003f46660067876180016e41c001e31e38001f360e0018000380003180e0001f1c300001c01c0;
   0xc03b800380e0e000c300380030c30e000e018380033330e0030c3bb8006008ce000c018180098c0c60003f8038007386260027c6318000f780e003830fb80006300e00180001800abbaa60001f0e380000c00e0;
   0x3fffd9c00700787001fffe38007fff07000fff81c01ffffe70070c199c007ffce7000fffc1c00f8e007000fffc1c00f3c787007ef639c007c3e0e00303071c01ffffe7001c0001c01ffffe6001ffc71c01ffffc70;
   0x3fff80800e003c7003bffe18003fff02000fff80800ffffe60000f81dc007ff862000fff80800f87003001e0fe1800e0c783003c621cc00f00f8600203000800ffffe6000fe000800ffffe2003e0fb8800ffffc60;
   0x4001c000300001000700300000e018000000000000007818000701c40000c01c0000703000000c01e1000c0c10000180004000400704000030000000000000007c000000000000001c07100000000040;
   0x0;
   0x0;
   0x0;
   0x0;
   0x0;
   0x0;
   0x0;
   0x0;
   0x0;
   0x100000000400007001000040002000000010000000040000000100000c0040000000100000e00000000c0080001c0040000300100000c00400001c30800300004000000010000c0c00000770010001806000;
   0x3fffe380007180e00007003800060fce003fffc38003ffe0e001fefe380000c00e003fffe380000c00e001fcf8180000c01e0000360380000c00e003f8c61c003fe00e003fffe38000c0c0e000f30038001806060;
   0x3fffe70000e1c3c0015754f0000f0fde003fffcf8007fff7c001fffef0007fffbc003fffef80001c03e001fdff78003fff7c001fbf9f00055d51e003fcc678001fffbc003fffff0000e6cde001c700f0001c0e1e0;
   0xe0001c0e38003fffde0000f8cf8000000de00030067800180c0e0007fffb80038006e000fffff80018c0370003ffff0001fb3de0007fffb800388ee7000307f78002baebe0000e6cf8003fffee0000e0c3c0;
   0xfff9c0007c7730001755480003dccd0001ffedc00075576000181c0c00055d5300038006c000fffff0001cc076000300760001830d80007fff900039c6c600030c7300001cc0c000066cd0003fffec000061c380;
   0xfff88000f273c00007060000070eec0000ffec00003ffe0000180c0000000c000003bff60000c001800018cff0000300300001830c00000060000038bff800018c600000baea0000fe6cc0000030000000008000;
   0xc0180000e739e000070600001f07ec0000000c0000755700001fdfe00007fffc0003fff60000c63180001ccff00003fff00001fb7c00007fff000039fff80001dc600001fffe0001ff6cc0001fffc0000ffffc00;
   0xc01800000e1c4000038e00000c03ec0003fffc0000300600001fcfe0000ffff8000383860000ce39800018cc300003aab00001fb7c00003fff00003f818000008a60000188ce0000637fc0001fffc0000ffffc00;
   0xfff81c001ffe07003fffe1c007fe6c7003fffc1c007fff070000c061c00f5d5c700391c61c001c1c07001ccff1c00300707001830c1c00007007003fd9b1c000678070019cce1c00677fc3001870c1c000000070;
   0xfff83c003fff0f803fffe3c003fe2cf0008ccc3c003ffe0f0000e063e00e0e18f803b3f63c0039ce0f8038eff3c003fff1f001830c3c00aaba8f003899b3c00071c0f00188ce3c00638007801fffc3c0007180f0;
   0x7800701f1e003070e70000606dc001d8ccf00000003c00006067800e679de003bb3ef00071e7bc00787c778003fff3c001fffcf001ffffdc0039d9b780003df1c0019cce700067ffde001fffc70001e1e1e0].
Definition hanzi_rows_98 : list N :=
  [0x2aaa86000000008003070e6000060ec8000f8cc6000aa2a98003fefe20000f1c080038f86600023e31800002c32000300310001fffc6000aebe88003899b20000cff18001fffe600067ffc8001830c6000380f180;
   0x3fffc40007fbfc000007004000575cc000077cc4000ff7f80003ffff000007ff0000387c60000077010003feff00003fff00001575400001f0e000039d9b0000187700001fffe0000765540001fffc0000f007d00;
   0x3800c00007fbfc0003fffc0000fffcc0003e7ec0000ea6a8000380c0000008fe000038e7e00000e3800003feff00003fff00000030000003fff00003899b00003a3c0000003000000360000001fffc00006001c00;
   0x3b0ec8000613110003fffc0000575cc0003e1cc4000e361800018dc740001c7810003bf3640003c1e100018c0700001cc0100000300800071ff80003fd9b00007fff90000070040003c3f80001870c40003fff080;
   0x398cc80006333b000000c0c000060cd8000600ec000e663300039ccec000381e30003bf86c000f807b00018cab20003cc030001ffff8001e0c3f8003fdff2000e2ff30003ffffc0003c3f88000b208c0003fff180;
   0x39d8dc00066373000000c1c00036ccd8003fffec000ee677000198dcc0007fff38003ede6c000fffff0001dcff7000fffff8001ffffc000d5d5d80038dff700000c138003ffffc0001c3198007ffffe0003333180;
   0x3bfecc0006c3618000ffe0e00036eed8003fff6e000ec6638001c0e860006aff180038e7ee0009ffeb8000d8eb3000ffffb8000e038c0003fff180038d983000aaea980000f80e000183198003ffffe00033331c0;
   0x3bfece00070381c000ffe06000766fdc00060c67000fc7c18001f0fc700048c01c00386167000180618000f0c3300055f55c0007070e0003fff1c0038c1c3000ffffdc0001fe070001df1cc0057555700033331c0;
   0x3820c60007c3e0c000e06070006662cc00060c67000fe6e1c001bede30000cce0c00387c6700018061c00070c3380001f01c00038e0600007f80c0038e0c3800abea8c0003b7070003ef08c0003038300033330c0;
   0x3870c70006f378c000e0707000c630ce00061873800e7e7dc0019fc7b0003cc60e00383c6300018061c00070c3180003f80e0001fc070001edc0e003860e180007700e000f77830007678c60003070300033330e0;
   0x3820c380063b1ce000e0383800c638c600063833800e1e18e00182c1180038c70e0038006380018060e000f8c398000f3c0e0000f80380038ce0e003860618000e380e003e31e38006718e600030e038003333060;
   0x3870c1c0061b047000603c1c004610c700061039c00f07407001c0e01c0070c3c7003fffe1c001ffe07003def59c007e1f07001fffc3c0070c7c700387071c007c1f07007c70f9c00e3807700030401c01ffffe70;
   0x3e20c1800783e020007e0e180007c0c30007c019800f87c06001f878080060f182003fffe1c001ffe060038e79cc00f807e6003f8ff180020c187001e3838c00f807e200303031c00c1c0220003f001c00ffffe20;
   0x1e50c0000781c000007e06100007c0c00007c010000781c04000f078000000f0000038006000018060400206788800c001c0003c01f100000c000001e1010000c001c00000700000080c0000001e0000000000000;
   0x0;
   0x0;
   0x0;
   0x0;
   0x0;
   0x0;
   0x0;
   0x0;
   0x0;
   0x3801000061800000030000000e1804000186000000000060001c0c0000004000000018000000000000001c1c10000380000010000100000c0040000000100006180400007001000180c040000000100001c0040;
   0x3003800061806000030038000e180e00018603800ffff8f0000c0c180018c60e000038038007fff8e0000c1c3800738cfe001f800380000c00e0007ff838000e1c0e00186183800180c0e001fffc380001800e0;
   0x700780007199e001ff007801fffffe003ffff7800ffffde0000c0c780018c61e001575478007fff9e003fdfc7800319cfe001fffef00055d51c0007ff8f0003c0e1c001c719f0001c1c3c001fffcf000ffffbc0;
   0x3fffe70000319bc001ff00e000fffff8003fffee000180638001fe0ce00018c638003fffee0006001b8003fffee00039b8c60000ffde000fffff80006019e000780f380018619e0000c1878001800de000fffff80;
   0x3fffee000ff19b00000300c0005f5d500001860c0001fff10001ff7fc000fffff0003ffffc0006631b00017f76c0001d90c6001c305c000ffffb000067f9c000fc1fd0001c71980000e3830001d55cc00055d5200;
   0x18e04000ff9980003fffe00000e1800000186000001ffe00000c37f8000ffffc0000387000006e3d80000e73700007ffec6001c3080000c0c18000063f80000ce38c0001fff80000ffffc0001fffc000000c0000;
   0x7cf8000001d980003fffe000004100000010400000180700000e3dd000018c600000703800007c0f00000c77700007ffec6000c71c0000c1c1800006718000007f000001fff80000ffffc0001d55c00003ffe000;
   0xf8fc000001d98000381860000ffff80003ffff0000180600000ebcc000018c600000e19c00006003800004223000000c0fe000e63800000180000006218000003e000000060000000e0600001800c00003ffe000;
   0x1dcec1c000fd98300181861c00ffffc7003ffff0c001fff07001ff8c0c0018c607001c1cf1c00400103000ff401c0000c0fe00066381c007fff07003ffff1c0007f80700007001c00060707001fffc1c003006070;
   0x398ee1c001cf98f001bfa63c00c0018f80018c03c0018060e001ff0c1c0000000f0038ce73c003fff0f8007ffe3c00fffeee00020303c007fff0f003ffff3c003f3e0f003fffe3e0006030f801fffc3c003ffe0f8;
   0x31ce7780038599e0003ff67800c001dc00018c07800fd071c001b37fb800ffffde0011c7178007fff1f00001fe7001ffffc600001c0f0001c1c1c00300077801fc1ffe007fffef00067331e000470070003ffe1e0;
   0x318e2700070199800181866000c00188001fffe6000ffffc8001b37fb000ffffc80003838600000c008000018060000c70c6003fdf860000c181800300036000e003c800006006000633188001c31860003006080;
   0x7006000201810001d58600003fff00001fffe00001dffc0001b30c3000c0c1c00007ffc000001c000001ffc000003d38c6003fc7c40000c3800003ffff40003fff000015750400071b9c0000e73800003ffe000;
   0x3000000000000001ff8600003ffe0000188c60000080000001b30c0000c0c0c0000e3fe0000aaea80000fffe0000719ec6003800c0000ffff80000fff800003ffe00001fff800003f9fc0000633000003aae000;
   0x1575500007fff900007f06400001c0100019cc64000ffffc0001ff0c0000c0c1c000047c44000ffffd000001ff0001f18fff003801c0001ffff90000e018000000c000001fffc80003fdfd0000777040003006100;
   0x3fffe40003fffb00000006c00000c0300019ce6c0007fbfd8001ff0c20003fff1000186e0c000aaaa9000001806000b99bfe003800d800001c038000fff8c00000c01800186198000188cf8003fffec0003ffe300;
   0x3ffffe0007319b80000606e0007fff30001bde6e00061b01c000037ff0003fff38001ce78e000155518001fdc060001d98c7003fdfdc00001c038000fff9c000ffffd8001c71dc0001c0618007ffffc0003556380;
   0xfc06000331998000ccb660003fff38001bfe6e0003318dc000037fb00030c318000ec3c60003ffe18003ffff60000fb0c2003f9fce00001c018000e018e000ffff98001fff8c0002e06180000ce0e0003006380;
   0x1fe0700073199c001ddf770005dd51c001f7767000371fcc000030c300030c71c0007c3f700035571c00017ff70000ff0c7003801ce000ffff1c000f558600038c71c001fffce000761b1c0001ce07001ffff9c0;
   0x3370300033198c00198b330001cc00c001e63e70001e0f0e002030c380030c30c0003837b00030060c000018030001ff8c3003800c7000ffff0c000fff8700018c60c00066006000673b8c0010ce07000ffff9c0;
   0xf73c380073198e00341d3380039c00c001871638001c1f06007030c180030c70e0007031300030070e00301c038003dbcc3003801c700001c00e000f55870001cce0e000e70070006331ce0071c7070000c380c0;
   0x3c31e3800331986003c09b380030c00e001820638003e3b86003030c18003ac30e000e3b8380030060600381801800718ec3003800c380001c00e000e01838000ccc06001e6003800ffbfe60030c3838003c3c0e0;
   0x7870f1c00ffffe700741df9c01ffffc700180061c007fd3c7003570c1c003ec707007c7f81c003fff07003ffc01c006186d3003fffc1c0001c007000e0183800ffffe7003fffe1c00dfffe70035c3c1c00781f070;
   0x203021800ffffe20007f898800ffffc6001f0061800e1e0f3003ff0c0c0008c20300380f81c003ffe02001ff801c0001f0fb803fffc180001c002000fc181800ffffe3003bffe1800c0e022003f80f1800e007860;
   0x700100000000000015018000000000001f0060000c04062001fc0c000000c000000001800003007000000000000001f071003801c100001c0000007c18100000000000300000000400000001f00700004001840;
   0x0;
   0x0;
   0x0;
   0x0;
   0x0;
   0x0;
   0x0;
   0x0;
   0x0;
   0x60380000c0e00000386000000646040001cc00800006004000030000000000040000c00000000c0000000430100000c0040000000000000e0040000180000001070200000000800030002000030000000602020;
   0x60380000c0e060003860380006c60e00008c0380000e00e000030038007fff8e0000e3f180000c0060000618380000c00e003fffe380000e00e00003803800018307003ffff9c000b8007000030038000606070;
   0x3ff3ff8000c0e1e003fffe780006c61e007ffff7c0055d53c003fffe78007fffbe001fe3f380055d51e003fffcf00055d53c003fffe78007fe01c003ffff780015c30e007ffffb8001d801e0000700780006061e0;
   0x3ffaba800aeaebc003fffee000067ff8003fffee000ffffb8003fffee0006001b8001ff333000ffffb8003fffce000ffffb800008c0e0002ae078003ffffe0007fc39c000306af000398038003fffee000060e180;
   0x1d5c38000ffbff80003861c000077fd00015dd5c000ffffe00015555c0006001b0001c79b6000ffffb00018d8ec000ffffb00001cc0c00000e0300003830c00075ed980003031600031dff0003fffec000077fd00;
   0xe2fffc00aeae8000038600000ff260000008c00000e00180000f84c80007fff80000efdb00000631800018d9e000007f800001fffc0000ffff800001830000030ed80000383b8000aaefe0003800e8000fe7fc00;
   0x77fffc001f1f00001fffc0001ff3600001fffc0000f555c0001ddfc00007fff800007cfb0000063180000dcff00001edc00001fffc0000ffff800001870000039fdc0003ff1f0000ffec00003f40e0001ff11000].
Definition hanzi_rows_99 : list N :=
  [0x3e07e0003f3f00000fffc0000637fe0001fffc00003ffe00000cf8c0000000180000380b0000ffff8000078e3800038cf0000188cc0000c86180001fffe00001f2dc0003ff0e0000bafc00003fffe0000633b000;
   0x7c1ff0007fbf83001d55c1c00637ff70019ccc1c003fff07001dfdc1c000001870007e0f0400ffff8100078771c00f0c7c70019ccc1c007ffd87001fffe1c000f0de3003031c0c0018fc470001ff01c006331830;
   0xefbbb800edaf87800c00c3c00638c0f001fffc3e0000c00f800fdec3c00ffff8f003e78f0e00e63187800703c3e0060c1cf00188cc3e0020fd8f00183063c003f8def00333183c0018fe6f00000303c0063e18f0;
   0x3c7f39c00cceefe001fffc7800678e1c001fffc78007fff1c001d07c7800ffffbc003d5db3c00e6319f000f038780001f01c001fffc780075619c001c3067801f9fdfe00333fff80018dedc0000030f00073e1de0;
   0x100c380000c4e58000fffc600066ff8800188cc60003fff08000fffc6000018198000ff9b3000e6319c001fffc200003b808000aaa860007fc1980018ba66000eafda800333ffa000ffc6c8000fff0600033c0e80;
   0x3fffff0000c7e00001c01c000076ff80001dddc000070c300001fffc400055d58000155330000ffff88007ffef00000f1c00000000000003c0180001dff600007fddc000333cc0000ffc780001fff0000037f1400;
   0x3fffff000003000000fffc0000363980001fffc000030c30000003000000ffff800001b330000ffff80003000300003ccf00001fffc00003ffd800018306000030cd8000333ec000018c7800001830000036bb800;
   0x41c03000ffffc0001fffc40003c1de0001555440007fff1000157544000d5d78000019b30000070d8000000014000f0c7d0001fffc400015fd90001c306400070cdc0003336c000018c7000001c3000001e1f000;
   0xe1c03000ffffd80000300c0003c0c68000aaa8c0003fff30003fffec000c59798001ffb36000460d90001fffcc00058c6b00000000c0003199b00019fe6c0003fcd88003336c200018c7180001830e0001e1e080;
   0xf1fff0000c1c180000300e0001cfc3c001fffce00070c338003fffec000ddf7d8001fff76000f75dd8001fffcc0001cce38007fffee0001999f0001dfe6e00075cddc003330c7000ffc7980001c3060001c1c1c0;
   0x3bdfb0000e0e18003fffe600018ff8c000eab8600030c3180038ccee000d9e6d800018ff30003efdd8000030060000edc18003fffe600019b1b80019826600030cd8c003330c3000ffcf98003fffe60000c1e0c0;
   0x1fdc300007071c003ffff70001c0fec001c01c70007fff1c00398ce7000d187dc0015d7f30001ffddc0006718700007f81c00007007000ffffdc001d86670007fcdcc0031b0c300018cddc003ffff70001c3e0c0;
   0xece380003bf0c0000f8030003c0c0c000fff830003fff0c003bfee7000cf96cc001ff833800060ccc000e318300007f80c00063383000fffecc0019aa630003fcd8e000780c380018d8ce000304030003e370e0;
   0x7dc7380001fc0e0001dc038007e0c06001fffc30000e1c0e003ffee3800ddf6ce001ff031801870cce001c71c30001edf0e000e71c38000180cc001dfe6380070c1c6000fc0c180018d8e600078f038003773860;
   0xf0c398000ff00600038f03800670c06000c01838001e1e0e003a02e3800d9e6e600018031800868cee001830e380038c78e001c30e38000180ee0018026380030c186001ce0c1800bac076000e07838007381c60;
   0x3e1c1fc007f7f07001f07c1c00e38c07001fffc1c00780fc7003800e1c00c18677007ffe31c01d7fc6700387071c0070c18700387071c000180e7001c0061c0070c1c7003870d1c01ffc027001c01e1c00e1c1e70;
   0x180f8ce00f80fe3003e01f0801c1cf83000fff81c00e003c6003f00e1800f98673003ffe30800fe7e7300103e2080020f80600303e3080001f063000f80608003cc183007038f8c00aac003003800f0c00c0e0630;
   0xf00c007003c000300070000818780001c01c08004000c0001f00e00007986200000003000054042000003e0000000780000003c0000001f040000f00600001cc1c00030187800000c000003000700004040020;
   0x0;
   0x0;
   0x0;
   0x0;
   0x0;
   0x0;
   0x0;
   0x0;
   0x0;
   0x1000000004000060c00000c0c00000183000000618000007030000001c004000000010000000040000010080001c0040000700100001c0040001818080000000400030601000000000000180008000301000;
   0x3feff38003fff0e000360c1c000e0c06000183018000618060003030380061830e001fefe3800ffff8e003f8381c0000c00e000c30c380001c00e00018181c007fff0e000306038003ffe0e00018319c0003830e0;
   0x3ffff78001fff3c000760c3800060e1e003ffff7800ffffde0003870780061c73c001fffef000ffffbc003ffff38007fff3e001c70cf0007fff7c0001c1878007fff1c007ffff780035563e003fffbbc0003871e0;
   0x3030e0000e3878000630e7000061e1c003fffff000ffffb8003fffee0006183380018080e0000180380039bff70007fff78000c30de0007fff780000dfff00060c338003fffee000300678003ffdb70000186380;
   0x7030c00007f030000c3067000ff3f380001bb04000575d70003fffec00061c730001dddcc00001ce300019d55600071c370001fffcc0001c1c20003fdffe00071c3300003060c0003ffe700017d5e6001ff97500;
   0x1fcfe0000ffff80002eb862000ff739000003800000061800000030000006bab0000198b800007f8e0000198aa000060c300000fffc00000c1800003fc1800007fff000003be000003006000007c0e0000ffffe00;
   0x1fcfe00007fff80003fff30000ffe1c0000fffe00007fff80001fffc00007fff00001f1d000007fce00001ddff00007fff0000003800001ffff800035d5d00007fff000003f8000003ffe00000ee0f000001ffe00;
   0x3030000061e000003ffb300006340e0000fffe0000ffff80001fffc00002aaa00001f8f80000018e00000d98600007fff0000003000000ffff8000307ff000060c300000718000003ffe00001c70f800000e1800;
   0x175751c0031fc0700063ffcc0073bff3000c3800c00f5758300003001c00018c07001dfde1c0155df47000dd870c0001c007003fffe1c00555507001b7ff1c007fff07003ffff1c0000000700383dddc007fe1870;
   0x3feff3e00198e0f00063ff9c0033bfa7003ffff3e00e0718f803ffff3c00030e0f801868e3e00ffffcf800f9ae3c00ffff9f003fffe7c002aaa0f001b39b3c007fff0f003fffe3c00ffff0f00100d8bc00ff818f0;
   0x3ff5578001187dc00063fc380037c00e003ffff7800e6399e003ffff7000fffe1e001c700780155575e000ddff7800ffffbc003000670007ffe3c001b39b780004701c0001ce07000ffff1e007ffd87800dd5f9e0;
   0xaaa8200001e198003ff8c300036801c000c3802000071e1800000e06000ffff080000f80200000060800198002000e0c19800300066000300618000b19b20000e381800038706000e63338003ffd82000cc1f880;
   0x1fffc000055f500003ff860000366668000fffe000003ff000001ff000005757000001de00000fffe000019dff0000e1c180000fff6000075560000031df00000fff00000707c0000e63310001801c00004d19800;
   0xebac00007fff80000638600003e66c0000fffe000008ee000001e000000030780000f8780000fffe000039bff0000ffff80000fff000003ffe0000039ff000003ff00003e01e0000ffff00001801e00000d99800;
   0x1c30c400061219000063bf00001e76c8000038000001c780000113f80000ffffd0003e73f40000007100031dc00000ffff9000000004000700620000395d000039f410003f06f4000ffff000019f9f00000dd9900;
   0xc30cc0006771b000063bfe0001c3cd8000838660003a1e1800383f8e000fffef0003838ec000aaab300031870200000c0300000000c000300660000383c20003078300023062c0002000300019b9ba000fc99b80;
   0x1fffcc0006e3db0003ff87f0001c3dd8001dff660007fff18001c700e00003063800019f0e000ffff300031c30700001c038003fffec0007ffe7000078fc60007fff300017575c0007ffff00019999f000fdd9d80;
   0xfffce0007c0f98003ff8030000c3d980009ba6600062ff18000ff7f60000306180001e386000eaaa180031bfe300001e838003fffee0002baa3000079de7000ffffb8003fffee0003fffb8001999830000cd8980;
   0xc70006ffd9c000638030001c119c001dbb6700040c01c0003f7f7000fffe1c00047007000cdd91c003ffffb0003bdb1c0000710700001c0380007ddf3001c1d71c003ffff70001c1c180019d9830000dd8dc0;
   0x1000c300066198c00063f038003e780c0009bb630000cce0c0001b303000fffe0c000e3e03000c9998c001f833b800331b9c00073387000ffff98000ec9b3800198c1c000306070000e381c0019f9838000dd8cc0;
   0x3000c300066198c00063ff1800377f0e001f3b738001cc70e0007b1c380003060e0007c703800d9998c0001c3018007a198e000e71c7001ffff9c001ce1bd80039ce1c0003070300007f01c001959818000fdcce0;
   0x3000c380066b98e002eb8f9800738fe6000b39b380038c306000e30e38000306060001e001800eb998e00018301800f819ce001c30c380001800e0018619980071870e0003030380003e00e001819818000fe8660;
   0x3fffc1c0067f987007ff81dc00e1c1e7001f39b1c0070c387007c3071c01fffe0700007c01c00e019c70001c301c01dff8c7001c70f1c0001c00f00387189c00e1c387000303c1c007fff07001801d1c01fe7d770;
   0x1fff80c00781982002ab800c00e0e0220008383980060f98300383e38800fffe0200000fc08007e08c2000183e0c008ff8c600383e71c0001800600703980c00c1f186000301e1800fe1fc6001f80f8c00fc3f320;
   0x78018000003800000c04000001c381000000f00000003e00000000600000001c00007c00000001c1e080005500000003c0000001c0040020118080000f004000300410007001c0001f00708005027300;
   0x0;
   0x0;
   0x0;
   0x0;
   0x0;
   0x0;
   0x0;
   0x0;
   0x0;
   0x301800001180040003018000011c0040007030100000e004000000008001c0c0000018cc100003844000030400000000e0000000001000000004000030000000e180400001801000070002000703010003c00040;
   0x3838180033bf8e0003018180030c70e0007070380000c00e001fffe38000c0c0600018cc3800038cee00030f83800ff0e06003ffff38003fff0e000038038000e180e00001e03800030007000303038007ff80e0;
   0x183078003f7fbc0003999b80039c63c0003060f0007fffbc001fffe78005d5d5e00018cc7800e38fde00333ff7800ff0e1e003fffff8003fff3c000018078005f5d1c001fcfcf000031fff003fffef0001fffbc0].
Definition hanzi_rows_100 : list N :=
  [0x1bfff0000f30780003999f0001ccc3800038e1e0007ffff80018006e000ffbfb80001bffe0006ba7b8003331fe000e37ffc0000cc0e00030c378003fffef0007ffff8001fc1de000ff1ffc003ffffe00038cbf80;
   0x15bffe000c731b00001999e0000dc430003fffec0001c1c30001fffec0005d5f780001fff40007ff790001b7184000e77fd8001fffec00030c730003ffffe0007fffb0001800cc0007f98f80017574800018c6300;
   0x3f88c0000ee3b80003f9bb8000ffff80003fffe00000e1800001fffe00001e1e00003f8cc00003ba380001b6180000e30e00001fffe00003fff0000118c480000e1800001800c00006198e00003030000018ce000;
   0x7fcce00007c1f00007fdff8000ffffc0001cccc0000ffffc0000000600003f3f00007fccc00003b87c0000f6180000e70e000019cc600003fff0000398ee00000e1800001fdfc000071d8e0003ffff00001ccc000;
   0x18c8600001ffe00003acaa000007f000000ccc80000ffffc00007fe600003f7f800018ccc00001b86e000030ba8000ff7fc00018cc6000030c300001f07c0000ffffc0001fdfc000033d8e0003ffff0000ffffc00;
   0x19dff0c003fff070019c000c001ffc07000ccd81c000000070007fe61c006fadc10018fff1c015fd677003ffff9c00ff7fc3001fffe1c0030c707000f0780c00ffffc7001800c1c003fffe700070301c00ffffc70;
   0x19fbf1e0072ab8f0018fff9c0078cf0f800ecd83c002aaa0f0003c063c00edcce78018fff3c00fffe0f003ffffbc00eb60cf001fffe3c003fff1f000fffc1c0000c00f001800c3c001e5fef000f8787c0003f80f0;
   0x1de017801e003dc0019fffb800f1c7de0006cd870007fff3c003fff67000cccc5f001de007001fffe1c003831c7800e775de000000078003fff1c003fffe78007fff1c001fffcf0001e061c001dcfcf0000edc3c0;
   0x9efe3000fffed80019e00300038c288003ffff600030c318003fff660000c0c1c0009ffe2000038608003833c2000e37fc8000fffc6000061818003e01f70003fff18001fffc60001e06080018ecc60001cce180;
   0x1ddff00003fff00001d9ff8000380600007ffff000075d7000000c060000155508000dbfe000001c700003d77c0000e775c0001fffc0000061800003fffb600071c300000007000003f06400078f8f000078c7000;
   0xd8820000380600000d9ff8000ffae00000000000003fff000000f8600003fff00000d98600007fe780003ff7e0000e360c0000c00c00007fff80000fff8000030c30000000300000739e4000302070001e0c3c00;
   0xf1d72000380720000f1ff8001ffff10000fff8400070c310000078740003fff00000d98600007ff7c0003ffff0000ff7fc8001fffc40007fff90000e01840007fff10003fff84001f5fe40000fffe0000ffffc00;
   0xf0fe6000380630000f01860003a6bb0000fff8c00030c330003fbfec000300330000f1fe600060fec800383db2000ff7fd8000eaacc000061830000e018c0003fff30003fffcc000ffe648000fffcc0003fff100;
   0x71d760003fff30000701870003b71f8000d558c0007fff30003ffffe0003fff3800071fe600060defc003835bf000e30e18001c00cc000061830000fff8c00071c330003001ee0007f865c000c01dc00030c7300;
   0x608270003ffe3800061ff30003b32f8000c018e0002aea38000c1c360003fff18000718660006ac66c003ff19b000e30e1c000fffce000061838000fff8e00030c3380039a07e00061864c000c00ce00030c3380;
   0x71ff70001c1c1800071ff300039bf5c000fff8700000c01800061e7700030031c00071fe70007fc60c003ff19f000e3fffc00157547000ffffdc000071070007fff1c003377f700061864c000fffc60003fff180;
   0xf0fe30000e1c1c000f0183800ff9e0c000fff870007fff9c003ffe330003fff0c00071fe300060c60e0038318b800e3ffec00003007000ffffdc000733870003fff0c003e6cc700061864e000fffc70003fff1c0;
   0xf9c7380006181c001f8181800ff9c0e000c01830007fff9c007fdff38003fff0e000d986380060c60600383181800e18e0e003ffff3000061c1c001e71c300006180c003e6cc300061be46000c01c700030c71c0;
   0x1d882180006380e0019dff9800380e06000c018380000c00e00060efb80030030e001dd86380060c60600383181800e18e06002abaa38001e1e0e003c30e38001e1e0e0018cce380061bfc6000c00c380030c30e0;
   0x39dc71c00ffffc70038fff9c00380707000fff81c0055d54700060e19c003003070038f861c007fc707003d3181c00f5ce0700003001c007c0f0700787071c00780f0700180c61c007f87f7000fffc1c003fff070;
   0x30ef20c00ffffc600307aa8c003803c2000fff81800ffffc700078f9cc003f03020070fe61c007fc3c3003e3180c00f8ce0300003001800f003c700303e21800e003c3001f80218007f80f3000fffc18003fff060;
   0x306e70800000004000020000003801c0000c0180001555540000787888001f030000307e6000060c3c0001e318000078ce020000300000060018000003c000004001c0000f8001000618002000c01c00003007040;
   0x0;
   0x0;
   0x0;
   0x0;
   0x0;
   0x0;
   0x0;
   0x0;
   0x0;
   0x2400080000c0000001838080000c00400030000800001804000018000000000040000700100000400400000001000073000000000c0800000004000000000000018040000030000070040200180c608000600000;
   0x7e001c0000c00600018181c0000c00e00030aa1c00001c0e000038038007fff0e0000380380000e00e001fffc380002300e003fe0c1c001ffc0e002aa871800001c0e00380303800300e07003e0c63c00062a860;
   0x667f780055d55e0001c1c78007fc03c00070fe780007fc3e003ffff78007fff3c00157d4f00001c03c001fffcf0007fff1e003fe7e38001ffc3e003ffde780007fe3c001c7ff7800700e0e001fcc67800067fdf0;
   0xe63ff000fffffc00018ff70002ac038002eaee700007ae38003ffffe000633378001fffee000ffffb80000300e0006abb38003307e7000180c78003aa9cf00003ae38000e3ffe00030fffc0003cc6e000063abc0;
   0xc77340005555d80001dff600055d530003ffc660000307300000000c000633330001fffec000fffff0003ffffc000673370003106760001c0c700038118e00057d730000f575400070fff80000fffc0000638180;
   0x3ff2300000c30c0003fcc30000ffff00002aac60000ffff80001fffe00007fff0000193260000008200003ffff00007fff20003182300001ffc00003830000007fff8000070300000300e000000fff8000aa18000;
   0x3ff7300000c71c0007fdff0000f5d7000018cc60000ffffc0001fffe00007fff000019b6600001d8700003030300007fff000031c3380001ffc000039753000071c3c00003fff0001ff0e000000cc60001ffffe00;
   0x63bf0000fffec00018eff000068c3000018cc600000ce3e00018aa600000000000018be60000198300003fb7b0000623300003acff8000000000003bffb000060c3000001bfe0000ff7fc00000cc60000ffffe00;
   0x67ff1c00ffffc70018fc30c007fff07001ccfe0c007c7367001dfe61c00ffffc70019f561c00ffcb07003ff7f1c007fff07001cfffcc00ff7f8700397530c007fff0700100001c00707fc30055cfe0c006331c30;
   0x63e33c000660cf0018ec33c0020ff0f800c8fe3c00f3bb0f00198663c00ffff8f801bff63c00ffd98f80003003e007fff0f000829bbc00ff3f8f00383031c0060c30f00380003e00300007003fcfe3c006330878;
   0x3fff370007fffde0018fff78007fc31e005d5067800431b1c001dfe6700000001e00197d6700018ffde000ff7c780000001e0006ddb7800e3719c003bff3780071c31e001c3fe7800737fce007fcc6780073bfde0;
   0x3ff2320007ffec80008bff20007fc308003ff062000ffff18001800620003fff180018fc6200018efc8000ab282000ffff980006cff2000e33198003bbb360007fff08000e3862000337fcc000ccc6200033bf880;
   0x677700006661c0001df1c0000555700007ff070000ffff00001fffe00003fff000019b7600005df7c000007c00000ffffd00006dff0000ff7f80003bf532000555500000738600007760c0001ccfe000037f1c00;
   0x633f0000eeeac0000d8ba8000ffff0000030fe0000000300001fffe0000300300001b3360000ffe6000001ee00000000000003fc9b0000ff3f80003bfd30000ffffc00003b8600003660c0000ccfe000036b0800;
   0x677f0001ffffc0000d9ff800001c31000071ff00007ffb0000055544000300700001931600005dd7100007dfc40003ffe10003fddb000000c010003b7d30000ffffd00001ffe4000767fc0001ccc600003631c00;
   0x2eb2360006660d8000f8aea00061e330000308f20002aab30000fffce0003fff380018206c00018dbb0003e39ec0003ffe30000669b200000c038003bff360000000300000bfec000367fc8000ccc620003e3f980;
   0x3ff7360007774d8000700e700073ff30003ffcf70007ffb38000c01c60003fff180000300e00018dff8007c707e00030063000067ff7000ffffd8003bff360003fff300030186e00076101c001cffff0001c3fd80;
   0xeb2360007ffed800070fe30001fcb98003fe8f30007ffb98000fffc600061b818003ffff6000ffcfd8002fff8600030063800060ff3000ffffd80038fc360003ffe18003818e600030318c000cfffb0001c30980;
   0x677f70000e70dc00070fe30001f719c00071cf300000019c000fffc7000731e1c003ffff70007fccdc0007ffc70003ffe1c007ffdb300003f01c0039fe3700038071c001c1cc700070318c001cd5530001cf1dc0;
   0x633f38001e78ee00070c6380037bf8c000308fb8007ff98c000c00c30003f0f8c0000780300018ce0c000380030002aaa1c003fe9b380006f80c003bb7330003ffe0c000c0cc300030198e000ce6638001cff8e0;
   0x675718003e7cee000f8c7180077c5cc00071dd98007559ce000fffc38000e1fce0001fc0380018c60e0001c4038000c180c00061d918001cde0e003f33f38003fff0c000e7dc380070f986001c6c718003e3ff60;
   0x3ff031800f66e66001dcc31800e670ce00030fdd8006019ce000aaa838001d8c0e0003ce03800ffc3060000fe018000e380e0006099980038cf0e003a30b180038060e00077f8180030ff86000c6c318003630e60;
   0x7ff031c01e667770038ef39c01c63cc700071fcdc007ff8c7003ffff1c0079fc07001f87c1c01ffc3c700007801c01ffffc700061d99c01f0c7c700383031c003fff070003dff9c007f1fe7001c7439c00f730070;
   0x3000c0086623300387f9cc0087cee2000300c0c007ff8e7003ffff0800e07e03003e01f9c0000c0c20000e000800ffff8600060f88c00e0c1c2001f00308003ffe020001e0f08003e00e3000c3018c00e3b0030;
   0x70000000660320030278c80003c040000700c080060184000155550000c00400003c007000000c0000000c00000000000000060e0800000c040001f003000038070000004000000000002001c2018800c1b0000;
   0x0;
   0x0;
   0x0;
   0x0;
   0x0;
   0x0;
   0x0;
   0x0].
Definition hanzi_rows_101 : list N :=
  [0x0;
   0x300100001c0020004384000000000200000301000007002000300c0000000e000000000100000e00000003801000000004000371c00000e18040000000100000e00400007001000000c00000183800001c0c040;
   0x300380000e00f000638c18007fffc7001aab0380000e006000380c08003e0e02000fffc780000c00e000030038007f3f8e003332c38000e180e001fffe380000c00e00003003800000c06000183818000c0c0e0;
   0x3fffe780003f81e000739838007fffdf001fff07800ffffff000380c38007e7fef000fffdf001ffffde0015754f0007f7fbc001b76c7800ffffde001fffef800ffff9c000fffcf000ffcc4e001f83838001c0c1e0;
   0x3fffee0000f3e38003ffff70006318dc0018c30e0002aabbc000787fb000267fec000c00dc000ffffb8003fffee000622178000b3cce000ffffb80000300e000fffff8000eab9e000ae8cdc001fdff7000fffff80;
   0xc0007c1f90003ffffe0006318d8001ddfe40003fff980006c7ff000760e1c000fffc80000001d00015dd6c000677720000f7cec0000e5810003ffffc000000030000fffd80000c3cd8001cdffe000ffffd00;
   0x1fdfc0000ffffe00000fe000007fffc0000d9fe00003fff80000ce0c2000262e80000eaac00003ff98000018c600006e2600003fff600000ece00003ffff00003ffe00000fff800000c2cc0000ce3800003e0e000;
   0x1dddc0000cffdc00007bfc00007fffc0000f9c70000000000001c70c0000767fc0000d55c000035ddc0001fffe0000747c00007fff6000001c700003030300003d5600000fffc0000ff8cc0000c63800007e3f000;
   0x18d8c0000000000003e39e000000000000070cf80003fff8000783ff8000260000000fffc00003ba980001fffe00007e3e00000e18700007fff00003fb7f0000380600000fff80000ff8cc0003feba00006f3f800;
   0x1fdfc1c007dff83003ffff8c00ffffe7000787d9c003fffc700345ff8c00f77fe10005d741c003ffdc70019cc61c006ff7c700061870c0055d787000ff7c1c003ffe07000d55c1c00c1ddc1003ffff0400ffedc70;
   0x1fdfc3e007dff8f000ebae1c00ffffef000de383c0030018f003efe18e00e37fe38001860780031898f001baee3e0063218f8006387be002babcf80003003c0000000f000fff87c00c9ffe380306931c00cdccef0;
   0x15d747800653d9e000d7de7800c030fc007c71e70003fffde003fff5bc0001e06e001fffef0003ffddc001fffe780061dc1e003fff7f8003fffde000ff7c7000ffffbc0000000f000ddffff00367d33c005c8c5c0;
   0x1fffe2000653c88000fffe7000cbb3e800302afa0002aaa880030c7fb0006a7fec001fffe400001818800018362000038e08003ffe6a00001830800003002000ffff98001fffc6000cd860c003269330000808180;
   0x15d7400007dff80000c38e2000cdb7e000006e100007e37e00037df59000ff1500000187000007ffdc0001dc360000ffff000000c0600003fff0000155550000d55580001d75c0000cdf6c400367d30000ffffc00;
   0xbae8000028aa80000ebae0000ccfee0001feff00003ebbe00036f618000e33e00003ffff00002ba980001fbf60000ffff00000aea600002bab00003ffff0000ffff80001fffc0000cdb6c000326ff0000ffffc00;
   0x1fffc4000555500000fffe0000cc78e0001feff000067fe60003cf7f8000671fc0003ffff0000ffffc00007d774000038790001ffe600007fff1000557554000207000001fffc4000cdb6c000377ff400060c0000;
   0x1860c0007fff900001860e000cceee800006e0e0002fb3e8003ce7fa0006606080003038e000fffed80021a36c0002bafb0000aea640007fff300000380e00078f830001830cc000cdb6c80032638e00020c3180;
   0x3ffffe000775df8001ffff6000cdb77c001fefe60007f97fc0030c0c7000767fec000f31c60001811d80035ff760007ffff80000c06e000000738001fffe60003ddf30001fffcc000cd9e7c003367c600000c7180;
   0x3fffe6000631998001ffff6000cc326c000fefe60003e9a6c0038e0c30003e7fec001f33e600039b8d8003f8fb6000038638003fff660003fff98001fffe60000fe3380000000e000cd9e6c00336fc60007fc3180;
   0x187e07000775ddc0001c707000cfb36c00006e070007edfec003ef7ff0003c0f0c007bb77f000719edc0015013700057d71c007fff670003fff9c0019cc670001f3c18003ffff6000cd9c4c00337fe70007fc71c0;
   0x1ec7830007fff8c003ffffb000cdb66e001feff30003ef3ee0037ffff800181f060021f61b000ffffcc000ec9b30007ffe1c0001e0630001c0e0c00188c630003bcf9c003ffff7000160c0e00031bf300000c78c0;
   0x7c3f3800775dcc003ffffb800ccfe66001feff3801e6e6660033dcc18003c37860001fe038007ff8ee001dddb380057d70c0003f0638000f3c0e0019cc6380077f30c000386070003e0606000f83bb80000cf8e0;
   0x3833180063198e0001c301800c0f86600006e03800a2e2260030c8c18003e66c20003ff83800018066001998b980003860e0007386180003f80600188c61800e63c0e00038703800730306001d839980000dd8e0;
   0x1f7f01c007319c7000783c1c00c1ce77003ffffdc01e3b6370030c0c1c00f726e3001f31f1c0055d577003998d9c00ffff07001e1e61c001fff070019cc61c01c70fc7000383c1c00e3c3c70039c391c00fff9c70;
   0x3c3f808007b1987000e00f8800fb87bb003ffff8c00e39bb3003ef0c0c00e3c62300183e61800ffff33003198f8800fffe0600380f60c00ff1fe2001e8c6080083e383000381f9800c1e0e20030f380800ffe0e30;
   0x3003000007b19c0001c007000079019000155550000011102001e7040000c1860000001e010015555320010105c00000070400300760000f001c0001fcc6000001c00000038071000804060001033800005500400;
   0x0;
   0x0;
   0x0;
   0x0;
   0x0;
   0x0;
   0x0;
   0x0;
   0x0;
   0x180c0000180300000300e0000000000000000c0000380300000030000000c030000001c0000038030000000000000001c00000001c0000000000000000000000180000000000000000002000386010000000020;
   0x180c0000380300000700e0001ffff80003ff8c0000380300000070000000e030000001c00000380300007ffff0000000c00000000c0007ffffe00000000000001800001fffe1c00ffbfe6000386038007f3f870;
   0x1c0c0000380300000700e0001ffff8000fff8c00003803000000e0000000e03000007fe00000380300007ffff0000001c0007fff1c0007fffff00000000000001800001fffe7c00ffffee003ffff700077359e0;
   0x1c0c0000700300000e00e0001800180003aa8c00003803000000c000000060300000fff0000038030000600000007fffff003fff0c0007ffffe00000000000001800000038070000c307c003ffffe0006b3b9c0;
   0x3ffc0c0005750300000c00e0001800180001c00c000038030001fffffc000071300000757c000038030000600000007fffff0057d51c00000180000000000000001800003ffffe0000c3ff80003860c0007f3f980;
   0x3ffccc000fffb30003fffee0001ffff80000e02c8000383b0001fffff800fff3320000381e0000383300007fffe0007fffff0003808c80000180000000000000001800003abab80000c3ae0000a8a800006331800;
   0x380ecdc00fffb36003fffef8001ffff80000706d800e38db600180001c00fff33600001c078000383370007fffe0000040c0000381dd80000180000000000000701c300037fff8000ffb560001fdfc00007f3f800;
   0x18ae6c800e01bb2000e066e80018001800003c6c800e38db200180201800e03bb600003e030000383b20006000000000c0e0000380cd800001820000000000007018380037fff8000ffbfe00018d8c00006b3b800;
   0x18e76dc00e019b700060e3ec0018001800155f7dc00e38db700180601c00c01db60001ff800007ffdb70006000000000c0e0000380dd800381c7000000000000301c38000fffe1c00d197410018dcc1c007735830;
   0x18e32cc00e019b300060e3ec001aaab8003fffbc800e38cb300000600000e01db20003e3e0000fffdb30007ffff00000c0e00003806d80038187000000000000381c38000fffe3c00c98607801adac3c007f3f8f0;
   0xe33cc00e018f300070c1ec001ffff8003fff1cc00e38cf300060718000e02cf3001f80fc000fffcf30007ffff00030c6600003807dc001c3c70000000000001c1c1c00001c67800ddffff001fdfc700000c61e0;
   0xe00cc00e0183300070c0ec000aaaa80033180ec00e38c3b000e061c000e07033003e063f8000380330000020000038c6600003800cc000c3c38000000000001c1c0c003fcc62000c9ffec000063060000186080;
   0xe00cc00fff83300071c0e40000180000339c0c400e38c310007071c000e0f03100380607800038033000006000001cc6700003801cc000e3c18000000000000c1c0e003ffff8000dd80040000e3800007fff000;
   0xe00e000fff8380003180e00008182000318c0e000e38c3800030f0e000e0e030000206080000380380006060c0000ce6300003800c000063c1c000000000000e3e0e0038cc68000c9bfc0003fff80000ffff800;
   0xe00e000e01838000398060001c1c700031ce06000e38c3800038f0700061c0300007071c000038038000e070e0000ce7300003800c000077c1c00000000000003e00003dcfe0000ddbfc0003fffc40000183c00;
   0x1e00e000a018380001b80e0000c3c300038c70e000e38c380001cf0380063803800030f0c0000380380006070600000e3380003800c000006e0800000000000007e00003fcba6000c9b0c80000c1ec0000183e80;
   0x1f01e000001c780001f01e0000e3c380038e39e000e38c3800009f8300067007800038f0e0000380780007070700001f01c0003801c00000e70000031046000007700003ddff7000cdb5dc001ffffc0007ffff80;
   0x3b03e000001cf80000e03e000067e1c001861de000e38c78000019800006200f80001cf870000380f800038f8380003f01c0003803e00000c700000718ee00000e3000038dbb3000cdbfcc001fffae00001832c0;
   0x33877000001ddc0000f07700007771c001870ff000e38cfc000039c00006001dc0000df870000381dc00011f8300007301e0003807600001c780000e38c700001c380003fddf3000cd974c0000c1c700001830c0;
   0x31863000000f8c0001f0e300000e70000183833000e38ccc000070e000060038c000039c20000381dc000039c000006380e000380e60000383c0000e30c70000381c0003fdff38001c3ece001fff830003fff0e0;
   0x71c63000000d8c0007fc4380003c3c0001c1c73000e38dcc0001f07000070070c000070f000003818c000071e00001e1c07000380c70000701e0001c71c30000781f00038c1818003436e6001fffc300055d7060;
   0xe0e03800000e0e000f1e038000f81e000180e23800fffc8e0003c03c00070020e0003e078000abaa8e0001e0f80003c0e02000380038001e00f8003870c38001e00f80038fff98006666660000c1838000183060;
   0x3c0781c00000707007e0fc1c007f00fc001d4701c00fffc07001f801f800750007001fc03f001ffff07001fc03f0007807800003fc01c01fc007f003871c1c00fc003e00387ff9c00e72677003fffc1c00ffff070;
   0x3803c0c00000703803803e0e00f8003f000f8380c00e00003803e0007c003f8003003e000fc00fffe03003f000fc00f003c00003f801c00f0000f0070e0c1c00f8000f003e6180c00c3c7a3003fff80c00ffff030;
   0x300180c00000301001000c040040000700078180c00e0000300180001c001f800100100001c00000003003c0001c004000c00001f800c00c0000700100040800400006001e618080001c780000001c00000003000;
   0x0;
   0x0;
   0x0;
   0x0].
Definition hanzi_rows_102 : list N :=
  [0x0;
   0x0;
   0x0;
   0x0;
   0x0;
   0x600c000000038000001800000000380000180c0000018000000000c00001c0180000000c0000000300000600600001803000000e000003000300000e00c00000e0380000700c000038030000006000000300300;
   0xe00c000aaaa38000023c0000fffe380000180c00030180c002aaa0c000018018002aaa0c0002aa83000006006000018030000007000007e00300000e00c00000c0380000300c000038030000006000000380300;
   0xe00c000fffe380000f0f0000fffe3800001c0c00030180c003fff0c000038018007fff0c0007ff8300000f0060000180300007ffc00007ff0300000e00c00001c0380000700c000038030000607180000380300;
   0xc00c000fffe380001c078000eaae3800000c0c00030180c003fff0c000030018003fff0c0003ab8300000f806000018030000fffe000003f8300000e00c0000180380000300c000038030000707180000780300;
   0x1c00c0000380380007d51e000e00e38003ffe4c0003ffffc0000070c000fffe18000c01cc0007019300001dc060007ffe3000070078000007830003fff8c0000180380005750c0001380300003871c00007c0300;
   0x3fffcc0000381ba000fffff000e00fb8003ffeec8003ffffc000003cc800ffff98000c00cce00301b3200039c668007fffb0000383be000003b32003fffcc000ffffb8000fffcc8003bbb300001870e0000ee3b00;
   0x3fffcdc000381bf001f5fff000efefbe0038076d800155554000007ed800ffff9f000c00ccc00701bb600070e67c000181b60001c70fc000039b70000e0ed800ffffbf001fff6d80073bbb70001df870001c71b70;
   0xc06c800fffeba00080000000efefba0038036d8000000c0000aab6d80001c09a000cfeecc003019b6000e07268000180b20000ee1b8000039b20000e06c8000001bb000c306d8006399b2000079820003839b20;
   0xc06dc00fffefb0007fffe000ec6fff0039ffbdc000001c0001fff6d80010c0db000cff6dc007559f6001c07b6c007ffcf700007c780000039f30018e76dc000000fb001c706d8006399b30001f1e0000703df30;
   0xc02cc00e38efb0003fffe000ec6efb0039ffbc800ffffff000fff2d80030e0db000cc26d8003ff8f2007aabf6c003ffcf300003ee0000fff8f30018e32cc000aa8fb000c302d800e398f3000780f0000e01ef30;
   0xc03cc00e18efb0007000e000ec6e7b0039871cc00ffffff001c073dc0038705b000cc73d8007ff8f30037ffd6c007ffc7300000fc0001fff8f30018e73cc001ff87b001c703dc00c39cf3001f047f000d87ff30;
   0xc00cc00e38e3b0003000e000ec6e3b0039860cc0000a0e0000c030cc0018381b000cc20d8003018330007fe06c0001803b00000ff80000c38330018e30ec000eb83b000c300cc00c38c33000c060f80018323b0;
   0xc00cc00e78e190007555e000ec6e390019860c40000e060001c070cc001f5c19000cc70c800701831000606060000180330000067fc001c18310018e70cc001c3839003fff8cc00438c31000807078001870310;
   0x1ffe0e000e78e380003fffe000ec6e380039860e00000e660000c030c0000ffc18000cc20c00030183000060606000abaa380006060f8000c18380018e30e0000c3838003fff8c000238838000206080001830380;
   0x1fff0e000efce180007fffe000ec6e180019fe0e00030e670001c070c00007fc18000cc70c00070183000070606000fffe38000706180001c18380018e70e0001c3818003fff8c0007380380007071c0001870180;
   0xc00e000ecce1800000600000ec6e180019fe0e00038e630000fff0e000038018000cea0e00030183800060606000ebaa380003061c0000c1838001fff0e0000c38380000f80e00033803800038f0c0001830380;
   0xc01e000fcee38000e071c000ed6e380019561e0001cf738001fff1e000198038000cff1e0007ff8780007f60f000c1807800038f0e0001c1878001fff1e0001c18780000f81e0003b80780001cf0e0001870780;
   0xc03e000f87e7800060f0c000efee78001f861e0000cf39c0000033e00019c078000caa1e0003ff8f80003e61e000c180780001cf8e0000c1878001aea1e0000c18f80001d83e0001800f80001cf870001830f80;
   0xc077000f03efc00030f06000e06efc001f063f0000df19e0000077700038e0fc000c07770000001dc0009463f000c180fc0000ff870001c1cfc0018e03f0001c19dc0001dc370001e01dc00009dc70001831dc0;
   0xc077000e00ecc00019f87000e06fcc0010067300003b80f000003670003071cc000c007700000018c00380633000e181cc000079c20000c0dcc0000e0730008c1dcc00038c770000f039c000039c00001839cc0;
   0xc067000e00fce000179c2000e00fce00700663000071c07000007630007039ce000c00e700000038e001806738007d818c0001f1f00001c0dcc0070e063001dc1d8e00070e6300007c10c000070f000018398c0;
   0xc003800e00e060000f0f0000e00e8e003006238000f0e0200000303800fffc86000c00c380000010e0018062180079808e0003e0780000c0e8e0030e0638008c0e0e000e070380003e00e0001e07800018180e0;
   0x7fff81c00e00e07001fe07f000f40e0700355601c007e07c0003fff01c00fffc07000d4001c01ffff07001ffe01c00118007001f803f0001c0e070075c001c01dc0707001e03c1c0000fe07001fc03f000181c070;
   0x3fff81c00fc0e03003f801fe00fc0e03803ffe00e00f803e0003fff00c00c02c03800fe000e00fffe03000ffe00e00018003803e000fc000c0603803fc000e00f80383803801e0c00003e03003f000fc00180e030;
   0x8007c0e00003c0001c007c0e01001ffc00400600060000000004004000030007c000c000000010005500040001800300180001c001c0403001fc000400780103001000c0400000603001c00018001804010;
   0x0;
   0x0;
   0x0;
   0x0;
   0x0;
   0x0;
   0x0;
   0x0;
   0x0;
   0x300e00000c0180000000c0000000000000000c0000180380000180c0001c30300000000c000703030001c00000000000300004040e0002000180000000600000003000003806000000030000007000000070300;
   0x10300e00000e018003fff8c00007fff80000000c0000180380000180c0000c3030003fff0c000703030001c0fffc000aa830000e0e0e0003e8018000f800600000003000003806000000030000006000000030300;
   0x38300e00000e018003fff8c0000ffff8003fff0c00001803800001c0c0001c3030003fff0c000307030001c0fffc007ffc30000e1c0e0007ffc18001fff460007ffc3000001806001fffe30000007000000070300;
   0x1bff0e00000e018003aab8c000038000003fff0c000018038001ffe0c0000c3030003aab0c000386030001c6aba8003ffc300006180e00002f8180000ff860007ff830003fffc6000fffe30001ffe000000030300;
   0x1fff0e000fffe180038638c00021f0000000000c000018038001ffe0c0001c30300038034c0001ce030001c60180001c00300007180e000001c1800006106000701c30003fffc600000c030001fff00001fff8300;
   0xe30ee000ffff98003863ec80060f800000000cc8007ffdba000e076c0000c31b0003803cc800aeab32001c62bc0000e03300003986e800030d9a00186066800701b3000000c2600000e33200000600000fffbb00;
   0x7306fc000071df003863edc0078d9ff001ffecd8007ffdbf00070fedc00ffffb7003fffed800fffdb6001c67fc0000f01b7001fff6f800031d9f001c6377800701f3700000c37c000063b600000700001fffdb70;
   0x3306e8000030da003863ec8003cd9ff001ffeed8006bacba00071dec800fffeb2003bfb6d800fffdb6001c66ae0000781b2001fff2e800030c9a000c63368007019b20000aeb68000061b20000060000000ddb20;
   0x7ffffec005578db003d77fcc000fd9c0001c0e6d800718cff0003f9bcc001c30f30038036d8000301b7001c67070000fc1f30015553fc00030cdb000c6737c00701db70000ffd6c000071f70007fffe00001cdf30;
   0x3fffbec007ff8db003fffbcc000398e000180e6c800618cfb0001f03cc000c30f30038033c8000300b2001c630b8003ef0f30000003e800030cdb000e661ec007018b30000ff9ec000030f30007fffe00000cef30;
   0xf01ec007ffc7b003fffbcc000318e0001c0e3cc00718cfb0001f01cc001c3073003bfb3cc000300f3001c639dc00fc7c730000001ec00fffe5b0006661ec00701cf30000e71ec000038f300075556000ffc7f30;
   0x780ec00603c1b0038638ec0007187000180e0cc00618c3b0003fc0ec000c303b003bfb0cc007ff833001c61b8c00e01f3b0000000ec00fffe1b00066e06c007018330000e306c007ff83b00060006000ffc0330;
   0x3ffc0e400703e190038e38c4000e1878001ffe0c400718c19001f1f0c4001c3031003b1b0c4007ff833001c61f0000c0063100000006c00030419000462064007ffc330000e3066007ffc310006000600001c0310;
   0x3ffe0e0007ff7180038e38e0001c1fbc001ffe0c0006bac38003e07ee0000c3038003b1b0c000030030001c60e0000000038000aaa06000030018003fffc60007ff838001fff86000603c380006000600000c0380;
   0x1fc60007ff6180039f38e0007c1f9f001c0e0c0007ffc18003001ce001ffff38003b1b0c000030030001c00700007ffc38000ffe06000030018007fffc6000000038001fff86000603e380006000600001c0380;
   0xfee000603018003bb38e000f0000f80180e0e0002ba818000fff0e000ffff38003b1b0e000030038001c003c0007ffc38000ffe0e0003b3818000060060000000380000e006000603f380007fffe00000c0380;
   0xcde000703038003b339e000cffff3001c0e1e000118038000fff1e001ffff78003b1b1e001fffc78001fc01fc000380780000001e0003338380000600e0001010780004e60f000603f780007fffe000ffc0780;
   0x1ffc1e0007ff078003b1bbe0000ffff0001ffe3e000398078000c031e000000078003bfb3e000fffcf8000f80078000380f80000001e0007318780000601e0001830f8000ee60f000603a7800000000000ffc0780;
   0x1ffe3f0007ff07c003e1fb7000000000001ffe770007180fc000c033f0000c70fc003bfb77001fffcdc000500018000380dc0000003f000731c7c0000603f0003831dc000ce71f0006038fc0004000600001c0fc0;
   0xc00730006030ec003e0ff3000180008000000e70006180cc000c03730001c31cc00381b670000301cc000e38860000381cc00000073000e30ccc0000603300038399c0018e3bb0006039cc000e38e600000c1dc0;
   0x1c00638007031cc003807e300038e31c000000c30007181ce000c036300038398c00381be300003018c000e38c700003818c00000073800e30ece00006073800701b8c0018e1b380060398c000c30c700001c18c0;
   0xc002380060308e003fffa380070c30c00000003800ffe88e000eab03800701c0e0038030380003000e001c30c300003800e003fffa1800c3060600006021800601c0e0038e1d18007ff88e001c30c380000c08e0;
   0xc0001c00703007003fff81c0071c30e007fffc1c00ffff07000fff01c00701e07003d0301c00030007003871c3801ffff07003fff81c00c3060700007401c00601e070070e0e1c007ff807001871c380001c0070;
   0xff000e007c3003003aab80e00e1c307007fff80c00c03f03800eab00e00e00703801f0300e00030003803860c1c00ffff03802aaa80c0003e00380007e00e00e00e070000fc00e00603803803860c1c0000c0030;
   0x7f0004003c300300380380c00c1c70700000000400c00001000c0300c00400603001f0300400030001003061c0c000000030000000000001e00100007c0040040040300007c00400603803001061c0c0001c0030].
Definition hanzi_rows_103 : list N :=
  [0x0;
   0x0;
   0x0;
   0x0;
   0x0;
   0x0;
   0x0;
   0x0;
   0x0;
   0xc00600000003000003006000000038000000000000000300000300e0004000180000700c000001c000000700e000400018000c010600000c070000000060000000040000600600007701800001c0e0000000300;
   0xe006000fffe300000380e0007ffc38000000000003ff8300000300e000f81f980000600c0000038000000600e000f83f18000e0f8600000e030001fff0e0000fff1e000060060000330180000180e000aaaa300;
   0x1f006000ffff3000039c0e0007ffc38001fffff8007ff8300005580e0007fdf980000e00c000ffffff0000e00e0007fff180007ff0600000c070001fff0e0000fff7c0000f00600067301800101c0e000fffe300;
   0x3b80600000e03000070c0e000600c38000aaeaa800301830000ffc0e0000fda98000fff0c000ffffff003fff8e0000f9a180003f80600000e0300018070e0000380200000f806000e33818003ff80e000abaa300;
   0x71c0600000e030000e0e0e000701c380000061c000701930000ffe4e0001c5c18001fff0c000000000003fff8e0000c18180007fc060001fffff0018072e00001f0000001dc06000771c18003fff8e0000180300;
   0xe2e6600000e3b0000fffae8007fffb80007fe0c000301b3200060fee0000c0c9a000c03ec0000ffff0003aabee0000c0c9a001f3f268001fffff0018076e800003c0200039c668003b1d9a00083fee8000183320;
   0x3c7766c003fffb7001fff7f8007ffdbf0007fe1c0007ffb3600071fef8001c0cdf001c036dc000ffff0003001ffc000c0cdf001c3ff7c0018e0700018076f800ffff1f00070e778001f1fde001c306f8007ffdb60;
   0x38e3a6c003fffb20008033e800600dba0000060c0003ffbb60003b9ee8000cc6da000c036c8000c0030003001be8000c0eda001039b680018e030001fff2f800fffe3c001e07368000f1fda000e302f8007ff9b60;
   0x10c136c003071f300039c3f800701dfb0000061c0000001b60001f03fc001cc7db001fff7cc000ffff0001fff3ec000c06db00155d76c00186370001fff3fc00673010003c03f7c0007df5f0007f03f800701db60;
   0x8036c003070f3000f0e1e8007ffcfb003fffffc000000b20003f83ec00fcdf7b000fff3cc000ffff0000ffe3ec00ffbf7b003ffff6c00186bf0000baf3e800631860003fffdec00c3fa7b0031e03f8006318b60;
   0x1fff1ec003070f3001c071ec007ffc7b003fffffc00fffcf3001fbe1ec00fcdffb001c031cc000000000000001ec00ffbf7b007fffdec00187ffc0003071ec00639c700017fedec00c7585b0031fc1fc00731cf70;
   0xfff06c00baba3b00383b8ec0000003b00000018000fffc33007eef8ec000cd81b000c030ec001ffffe0000000ec000c311b0000ee06c0018783f0003030ec00618e3800000006c00c7181b003f9f8ec006318330;
   0x70006401ffff31003019c6c00fffe39000ffffc000e00c310038e3ce4001cd819001fff0c4003ffffe000000064000c30190000e70640019f0770007170640071c79c00000006c00ff1819001f070ec00731c330;
   0x38006000aaaa380002bc8e000fffe38000ffffc000e00c30001fff0e0000cd918000fff0e0000fe000003fff860000c3218000aeb060001bf03000063b0e0003ae30e000000060002818180008000e0006318300;
   0x1c006000000038000ffc0600057d4180005555c000fffc30001fff060001cd998001fff0600001f800007fff860000c1b18001fff860019f3870000ef30e0003e7006001fff86000018018003fffc6000731c300;
   0xc0060002aa838000eae060000380180000000c000fffc380000e0060000ccb1800186306000001800000398060000c1b18001fffc6001ba1c30000fc39e000001800001fff86000018018003fff860006398380;
   0xfff0f0007ffc7800071f0e000038038001ffffc000e00c78001fff0e0001ccf1c003ce30e00000180000039c0e0000c1f1c0018e7cf001f01f7e001d83be0001818e00000380e000ffff380015dd4e000739c780;
   0xfff1e0003aac7800031b8e000fffe78001ffffe000e00cf8000ffe1e0000ccf3c000ec31e000001a8000039c1e0000c1e3c0018e30e000f0063c003801b60001c18700002181e000fffe7800019c1e0006398f80;
   0xc073f000700cfc0003f99f001fffffc00184000000fffcdc0000e03f000ffce7c0007c33f000001fc000039c3f000ffde7c0018e71b000700004007805f70000e3c3800071c3f0000180fc00019c3f000719ddc0;
   0xc0333000300dcc0001f03b0000380cc00186633000fffdcc0000e033000ffce6c0003837300018028800238c33000ffcc6c0018e33b00038e21800303ee3000077e1c00060e330000180cc00018c730000fc1cc0;
   0xc0773800700dcc0001f0330000381ce001cc673000e00f8e003ffff3800001fce0007036300038e31c00738e73800001ece001ce77380038e31c00007ce380000e718000e0e738000181ce00718e738001fe18c0;
   0xc0321800300c8e0003bc2380003808e001c8e63800e00d8e003fffe3800007bc6000f3b2380030c30c00638721800007e46001ee32180070c30c0001e04180003c380000fe72180001808600318e2180038f00e0;
   0xfff01c007ffc07001f1fc1c00038007001c0c61800e00c070000e001c01fff1c7003e7f01c0071c30e007703c1c01fff787000ee701c00e1c70e0007c001c001f81fc001fffc1c00018007003587c1c00707c070;
   0xfff00e003ffc03803e03e0c00038003800f8061800fc0c038000e000e00ffc0c380380f80c00e18306003f01e0e00ffc3838000e000c00e1830700070000e00fe007f00383f80e00018003803f83e0e00e01e030;
   0xc0700400700c03003001c0800038003000780010007c0c010000e00040000004100100100c00418707001f00404005401810000e000400c1870300060000400f0000700180000400018001001f00c04004006010;
   0x0;
   0x0;
   0x0;
   0x0;
   0x0;
   0x0;
   0x0;
   0x0;
   0x0;
   0x1801c00001c0180000000600001801800000c0600001c018000e060c00017006000000e0000000c0380000600e0000031c00000700e0000000180001c01800001c018000007000000000180000010700000c0380;
   0x1c03800000c018001fff0e000038018000fde0600000c018000e060c0003b006000000e0000000e0380000600e0000030e00000e00e0003ffe180000c018000018018000003000007ffe18003ff18600000e0380;
   0xe07000000c018001fff0e000038018000fc7c600000c018000e060c000770ff0000c0618000006038003fe00e0000070e0003fff8e0007ffe180001c018000038018001fffff0007ffe18003ff3870001ff0380;
   0x3fffffc003ffe180018030e000fffe18000cc1c6000ffff18003fff8c000630ff0000e06180003fe038003fe00e000006070003fff8e000300e18003ffdffc00fffe18000fffff000600e18003803060003ff0380;
   0x3fffffc007ffe18001c032e000fffe18000cc1c6000ffff18003fff8c000670d7800070f0c0003ff0380015600e0007ffff00015550e000700e18003ffdffc00fffe1800000380000600e18003807170001d78380;
   0x30079a001fff6e000c0079a000cc0f68000c3098000e06ec000030c1800038f0e000383bb8000060ee0007ffff80000006e0003aaf98002be8be8003819980007fffe000600f98003806b60000e19ba0;
   0xc03ff0007557de001fff7f800c007df000cc5f7c001c38df000f566dc00fffe7c00019f860001819bf001fff6fc0000703c001fff6fc007fff9b0007f07e0003819db0007fffe0007fffdb003810f7800071dbe0;
   0xc33ff0003ffeda0018033e800fffe9a000ceff6800399cda000ffe6c800fff7ee00003bc00001c1dba001fffee80000603e000eae2e800300e9a000ef0fe0001838db000000c00007ffeda003870de8003ffeba0;
   0xc73830007556df001d573fc003ff8db000c6fdec00719edb000f567cc000707870001f1f00000c0ffb001d57ffc003fffff001c073ec00700edb001dd9db0001c30db003fffffc00555edb0038e0dfc003ffcff0;
   0xc33830003006db001fff1ec000000db003c60dec01fffffb000e063cc0007030b8003c0f80000e0efb001803bec003ffffb800c063ec003aaedb0038dd9b8000c30db003fffffc00000e7b0039c0dec003388fb0;
   0xc73ff0007ffe7b0015551ec007ffc5b007c71dec00ffff7b000ffe3cc000783bd007f803fc0004e7fb001fff9ec00007039001fff1ec007ffe7b0039cf19c015d557b00018070000fffe7b003898dfc00339c7b0;
   0xc33ab0003ffe1b0000660ec003ff81b000030c6c0001801b000ffe0ec000f81f0003e000fc002af83b001fff8ec00006038000ffe0ec002aaa1b0030c618e00ffff1b00018030000fffe1b003b1ec6c0033883b0;
   0xc738300000001b00006706400701c19003fffc640001801b000e060c4001dc1e00001c0198007f3e39001d578ec003ffff80000000e400070e190001c018401ffff19001ffff8000d55619003b1ec7400319c1b0;
   0xc33ff000000018001fff06000301818003fefc6000abaa18000e060e0001ce0e00000c0380006a0e380018038e0003ffff8001fff0e000060e180000c618000000018001ffffc000c00e18003a1ec60003388380;
   0xc73ff000ffff18001fff860007ffc18001861c6000ffff18007fffce00038f0780039d99b000600e18001fff86000007038001fff06000470e1800060704000000018000183cf000cff618003e1ec7000319c180;
   0xc3383000ffff180000618e0003ff8180018e0c60002baa18003fffce00070783e0019cd9b800600e18001fff8600000603800078006000f6fe18000e060c0007ffc1800018707800cfe618003e9ac3000fffe180;
   0xc0383000018038000061ce000701c38001cc1c700001803c0003231e001f03c1f001dccd98007efe380015750e0007ffff80001e00e0007ffe380007070c0007ffc3c0001f703800cc7638003d9bc7000ffff380;
   0xfc3e3000018078000060de000301878000cd8cf00001803c0003631e000e00e02000fced8c007efe780000601e0007ffff80000e01e0000eae380003870e000700c3c0001f200000cc2638003d9bcf00003c0780;
   0x7c1e30007ffefc001fff3f0007ffcfc000fdfff0007ffc7c0006333f0001004000007e47cc00600efc007fffdf000000038007fffdf000070e7c0001cf87000700c7c00044000000cc767c0039f8df00007e0fc0;
   0x600860003ffecc000aea330003ff9cc000787fb0003ffcee000e3b7300038e218000360ec000600ecc003ffffb00018e218003fffb3000060ecc00008f83800700cec000638c6000cfe6ec0038f0db8000660cc0;
   0xe38c70000180ce0000607380000018e000781fb8000180ce001c1f7300038c31c000771ee000600fce0055757380038e31c0000e033001c70fcc00003de0000700dce000e30c7000cff7ce003800d98001e71cc0].
Definition hanzi_rows_104 : list N :=
  [0x1c30c300001800600006021800000086000fc0d980001800600000b2380070c30e000e39870006aae8e0000600380070c30c0000e00380086ee860000f8f8000700c86000c30c3000e02306003800c18003c3c8e0;
   0x1c70c3800ffff87007fffc1c00ffff07001df1c1c01ffff87003fff01c00e1c706003c1e87c007ffe0700006001c0071c70e0000e001c01d7fe07001ff07f0007ffc07001c70c3800601307001800c1c00781f070;
   0x3860c1800ffff83803fffc0e00fffe03803878c0e00ffff83803fff00c00e1830700380f03e006aae0380006000e00e183070000fc00e00fe3e03003f800fc007ffc03803860c1c007e0383001f80c0e00e007830;
   0x1061c1c0000000100000000400000001003011c040055550100000000c00c1870300300700c00600e0100006000400c1870700007c004007c0603001c0001c00700c01001000c18007c0101001f00c04004003030;
   0x0;
   0x0;
   0x0;
   0x0;
   0x0;
   0x0;
   0x0;
   0x0;
   0x0;
   0x700e0001c00000000381c00001c0300000600c00001c0180000000600001c0180000000c000001c18000000180000006000000000e00000000000001c00000383038000000060000180300000000c0000180180;
   0xe00e0003fffa80008380e0000180300000600c000018018001ff006000038018000fff0c000fe1818000fff9c000300600001fff8e000fffdfe00001c2a800383038003fff86000018038001fff0c0002182380;
   0xe00e00005fffc001f38e70000380300015750c000018018001ff1c6000030018000fff0c000ff1c18000fffcc0003bfffc001fff8e0007ffdfe00001c7f800383038003fff8600001c7fc001fff0c0006186380;
   0x3fff8e0000018000007f9c3000fffe30000ffe0c0007ffe18001831860007ffe18000c030c000c21818000e018e0001ffffc0018638e00060c186001ffe6b800fffe380038618600000c7fc0018030c0006186380;
   0x3fff8e000ffffff0000fbffc00ffff30001d570c0007fff18001833860007ffe18000c070c000c71c18000f55c70000f06000018638e00061c186001fff61800fffe3800386196000ffc70e0018030c0006186380;
   0x3001ee000ffffff00303bffc000003b0000c06cc80060029a001ab326800600e9a000eab6c000c2bada000fff87800078600001fffee00060e186001807618003831ba003fffb6600ffe386001fffcc8006187b80;
   0x3309efc0000180000303f05c003ffdb7001fff6d8006007df001ff777800600edf000fff6d800c7ff5f00003007c00ffffff001fffefc00707186001803e18003831bf003fffb6c0070f5d7001fff6d8007fffbe0;
   0x371dbe8003ffffc003ff9ff8003ff9b2000ffe6d8007ffeda001830368006aaeda000eab6c800eaba7a00003006e00ffffff001863ee8007e79860018ffe18003ff0ba003861b6c0030f7fe0018036d8007ffeba0;
   0xe0e3ec003ffffc001ff1ff800381df3001c077dc007fff5b00183037c007ffedb000c077dc00ff1c7b003ffff6400557f55001863fec003e1ffe0019ff7f8003ff0ff003d7596c0039fffe0018037dc000000ff0;
   0x1ce73ec003b18cc000029838003818f3000c063c80000027b001833f68002aae7b000c033cc00ea183b003ffff6000000f80001aebbec00000dfe0018867f8003830fb003fff9ec00198600001aab3cc000000fb0;
   0x38779ec003999dc000c39ff8003ffc73001fff3cc0000077b001ff3dec00000e7b000fff1cc00c71c3b0003ff060001ffff8001fff9ec007ffd860019c66180038305b003fff9ec001d8600001fff3cc01ffff7b0;
   0x10f18ec0039998c000e39ff8003ff83b000c060cc00fffa1b000ab306c00aaae1b000fff0ec00c2181b000f33860001fffff800aaa0ec007ff986001886618003ff03b00000006c000f07fe0000200cc00ffff3b0;
   0x3f80e4003ddddc000ff983800000031001c070c400ffff190011b306400fffe190000000c600c75d19001e31e60001c007f0000000e400701d86001dfe618003ff019001fff06c000f07fe0000700c80001c0190;
   0x79c0e0003ffffc0000f9ff800fffe38000ffe0e000c183180039b306000efbe180000000e000c27f18003830f60001c0063003fffce0006019860018fe61800030018000fff060000e06000000e00e0000180380;
   0x1f0f06000001800001039ff800ffff18001fff0e000cd9f18001f3306000cd9e18001fff86000ff7f1c001036260001ffff0007fffc6000701dd6001c067f800030018001c1b060001f8600003fff8e000fffe180;
   0x3c078e0003ffffc00303983800e006180000300e000d9b318000e3306000cd9e18001fff8e000fe6308000206180001eaae00000e30e0006019fe000c067f800fffe18000dfb060003bc600003fff8e000fffe180;
   0x7fffde0003ffffc00357983800eff7380000701e000d9f31c000e330e000cd9e1c0019999e000c7631c0007071c0001c00700010c71e0007ffdfe000fc055800fffe38001fc30f000f1f7ff0004041e000e666380;
   0x2ffe9e000001800003ff9f3800efe6780008ecbe000e1a33c000db30e000fffe3c001999be000c3633c00030f0c0001fffe0003cc31e0007ff806000fc00180007c078000c030f000e07ffe000e0e3e000e666780;
   0xc063f000ffffff001ff0f3800ec37fc001dcdf7000f1f37c0019fb1f000ffff7c001999f7000c3633c00039f8e0001ffff0001fc73f000100008000540000000fe0fc001fc31f000d0100000060c77000e6667c0;
   0xc0673000ffffff00000002000ec26cc00188da3000dfbbec00387b3b000cd9bee001999f3000c3636e0001fb870001800080007837300038e398000638c60001f60cc000fff3b00038e21800060ce3000e666ec0;
   0xc0673800100000000f38c7000eff7cc003e0dc3000cf9dee00101bb3800cd9b4e001999e3800c3ff66000079e200038e31c0007076380070c31c000e30c70003b79ce001c7f3380038e31c00071c63000e667ce0;
   0xc062380038e318000e30c3000efe68e00360cc3800c1818600000fd3800cd9b0600199983800c1ff660001e0f800030c30c000e632380070c30e001c30c3000733c06000c038180070c30c00031803800e666860;
   0xffe01c0070c31c001c70c3800e0070700760cc1c00c181c7007ffce1c00cd9b87007fffe1c00d1c307001fc07f00071c30e001e7f01c00e1c30e001871c3801e31f07001c0181c00e1c70e007fffe1c00e666070;
   0xffe00e00e0c30e003870c1c00f806030027fcc0e00f9f0c3803ff860e00fd9983803fffe0e00f8e203803f000fc00e1c30700783f80e00e18307003860c1c00c30603800f81c0e00e18307003fffe0e00f666038;
   0xc0600400c1c707001070c1c007807030003fc0040078f0c1001fc0404007019010000000040078c001001c0001c0040c70300300700400418703003061c1c00030001000f0180400c18707000000004007446010;
   0x0;
   0x0;
   0x0;
   0x0;
   0x0;
   0x0;
   0x0;
   0x0;
   0x0;
   0x70600003400380000000600001801800004606000003800000707060000180180000060000000c01800000006000038060000e00000000000180000000600001807000007006000000030000000000000040180;
   0x60600007fe838000fff860000180180000e6060003818e0001b020600003c0180000060000000c018000fff06000018060000e03ff8007fe018003fdfc60000180e000003006000fffe30001ffbff80000f8180;
   0x3fffffc0007fe38000fff8600001c0180000c7060001c1c70001f170600007e018003fffffc0001c018001d570600001cffe000e07558007ff198003fdfc6000019fff001fff86001fffe30001fffff800ff7e180;
   0x3fffffc0031983800038806000fffe180000c3060000e3c3800333f060000e701800000600000ffff18000c030600001cffe000e030180038831800309886000018fff001fff860000cc03000183821800ee06180;
   0x70600003198380001fc06000fffe18003fff0600007ff3c00373f760007d7c18000fffff000ffff18001fff06000ffc060003fffff8001fc7580031d9c60003ff554001c71860005dd43000183871800cc26180;
   0x606000019b3ba003ffff680026649a003fffb680007e788000331b6800ffffda000fffff0001c1898000c0326800ffeffe003ffaab8000f0ed800339ba68003fe7fe0018b1e6000fffdb0001839fd800cc369a0;
   0x7fe000019b1be003ffff7c007e7fdf0015d7f7c001f03fc007ff1b7c00c5575f000000000000c39db001c0777c0070fffe000e33fd8001e0cde00371f36c0031860e001ff9f7c00fffdb6001839fd800cc66db0;
   0x1ffe8000ffffbe0018f8368003c3cda0000c3de8007800fe003ffede8002aa87a0007fffe0000e30db000fff3680030f060000e33fd800ffe07a003c183680031860e001b19b6800cccdb2001ab98d800c6e6da0;
   0x1801c001fffeff001cdc1ec001c38db001ffffec003700fc00071cdec003ffc7b0007555e0005775db00055536c0030f575000e77ff800fff07b003f1f16c0031b7fe001dbdb6c00cccdf7001ff98d800c6f65b0;
   0x19bfcfc000fe0fa000ecf9ec003ffc7b001fff4ec00e66eec000718eec00300c7b0006000e000ffff7b003fffb6c00398fff000ee7ff800c6607b0033dbdec0031f0000018e196800eeecf3000ab98d800c3fe7b0;
   0x3dbfdfc001df07b0000c3dec007fff7b0000c34ec0077666c00071f76c00300c7b0007fffe000f5577b003fff9ec001d9575000ec165800c677fb0031d9dec0031e7fe001df19ec00fffc730000398d800fb5f7b0;
   0xfb0ca80039b83b0000f086c00f80f1b0000c306c0033336e000f8f26e003ffc1b0000e060000e6631b00399986c001f8030000e036d800ffe79b00302806c0033c7fe001bb986c0000003b000039fd80079831b0;
   0x7b0dc000f19e39001575464005d5d19001fff0640017b977000d8e0640015541900157575400ee7719003999864000f07f0000e0766c00fff7598000700640037c1e0001d1d86c007ff831001039fd8000100190;
   0x11b0c8000e18f38001fffc60001ff818001fff060001f81f2000d8606000000018003fffffc00ec3b18003fff860000e07f8000fc26fe00c66618000aba86000becae0001fff860007ff838003038218007ffe180;
   0x31b0dc000fffe18001891c6000181c180000c3070007df7fc001dc706000ff7f1c00155555400f81f18001fff860001f861c0007c678400c6761c001fff86001b4efff001fff86000555018007030718007ffe180;
   0x33bacf8007ffc18001998c60001808180000c302000f0fb1f0038e38e000ff7f08000aaaaa000f7fb18000800060003fc61c00040608000ffe608000eab86001b070ef00002006000000038003ff7ff800618e180;
   0x3fbfdfc00718c38001f1dc70001ffc3c003fff07000401807007071ff000e7671c000ffffe000e7f73c001fff8700079f7ee000e071c000fff61c001c0387001f078e00004700e001fffe78003ff7ff800618e1c0].
Definition hanzi_rows_105 : list N :=
  [0x1f0008400618c78001e07cf0001ff87c003fff0f000aabaaa002030db000ee6e3c000e0006000e4337c000eaf8e000e073c700070f0e000c6663c000c038f000e03cfc000ced9e000fffe78000000000006bae380;
   0x400000007ffcfc001dffdf0001180fc0000030f000ffffff000c01bf000fc7c7c000f5556000e4377c000f0e1f00040100200031f87000c6767c001fff9f000e01878001dcdbf0001390fc000718460007ffe7c0;
   0xe38c60007ffccc00190cdb0001998cc000ccb9b80000ff00001ccdb3000f8786e000ffffe000e6b3cc00079c3b00018000800019b83800e666ee000eabbb00018000800388db30003bb8cc000e18e6000618eec0;
   0x1e30c7000718dce00190df3800319cce001dd99980003dbc00019ddd3800fe7ee600040002000e7f7ce0003f83380038e31c000179e3000767f46001c03f180038e31c003c0df3000739dce001c38c7000618ece0;
   0x1c30c3800618c8e0019acd1800718e06001999998000f98f0003998c1800e76fc6000e38c6000e033060000f83180030e30c0000f0f8000003b86000c03a180030c30c003e0cc1800e38c8e001c30c3000618ec60;
   0x3871c38007ffc070019fdc1c00e18707003199c1c007e187f003198e1c00e16307001c30c7000e007070007ff01c0071c30e001fc07f001fff1c7001fff81c0071c30e0037fce1c01c38f07003871c38007ffe070;
   0x3860c1c007ffc03801e0cc0e0041f203803398e0e00f8180f00739860e00f87803803830c3800f80303803f0fe0c00e1c307003f800fc00ffe0c3800fff80e00e1c3060007fc00c00c3e603803061c1e007ffe038;
   0x3061c0c00700c01001e01c040001e0010031184040040180100611860400787801003071c1800780701001c01c0c00c1c707001c0001c00550081001c038040061c7060000000040001e001001020c0c00600e010;
   0x0;
   0x0;
   0x0;
   0x0;
   0x0;
   0x0;
   0x0;
   0x0;
   0x0;
   0x7060000010180000fc00000010000000040000000000c00000000000003ffff400030c0600070001800006006000181c180000607000000001800000000000180c1800183006000000018000070060000700600;
   0x1f0f000003c1c0000fffff8003ffe80000ff800000001f80000780000003fff3800030c060007ffa18000070060001c1818000060700007ffe18003fffff800180c18001830060001ff818000038060000600e00;
   0x7c07c0000781c000017fff8001ffffc0007ffff8007fe7fc000ffc0000030ff1c003fffe60005fff180001f8060000c3818003fffffc00755618003fffffc00181818000c70c60001ff818001fffc600067646c0;
   0x1f803e0000f00e00003030e0000c0afc000203ff8007fe6fe0003fff80003eab78003fffe600030c61800039c060007fff18002aeafa8006006180000e00e0009affda000e60c6000181818001fffc600063666c0;
   0x3dc077c001e00700003871c0000e1c700007070c0007766ee000307fe00030ff1c00030c0600031cc18001f0f060007fff18000060700007ffe18001cf9cf000db55de007ffdc6000181818001841c60007777660;
   0x8f0e38003c00380001861800006186000030e1c0006666ee0003060e0003ea778000a8ab6800398cda003eabf60000180da0000e0180006aaeda000ddefbc00db7f7a003ffdb68001ff898001a66f68003b33660;
   0x7fc000078003c001fffff000575d7400038c180006666ee000706060003fff7c001fdff7c007fffdb003bfff68007ffedf0000c1ff8007556db0007c47c8007b7f7b0055d5b7c001ff8df001b6df7c001739770;
   0x1f8000070001e000ebaeb8007ffffe00018c180006666ee000306060003083080018d8b68007fffda0002aa1ec000180da000ae9ff8007ffeda000778f700039803b0000e0368000000da0019ecf68000f80f00;
   0x7fc0000e700ef001c30c38007fffff001fffff0006666ee00070606000ffffff0018d9dec0066737b0014551ec00fffffb000ffc180005d745b001f9ffbc001c7f1c0038f016c00ff7fdb001d75dec001d83f00;
   0x3fbf80006300c2000ebaeb800600306000fffff0006666ee00030606000eaaaab001ada9ec0066237b001ef79ec00fffffb000eebffc000c307b003bc7ec8001c0018001dbdfec00ea6b7b001ffedec0039c7380;
   0x7ff07fe000381c0001fffff800600307000000600007fe6ee00070606000d755d7001fdfdec007fff7b0017d58ec001ff47b000e63ffc00ffff7b007771670003c7f3c000d9dfec00c7677b001d7ddec0070f71e0;
   0x3e000fc00038180000200000002aabaa000000600007fe6ee00060606000dff7fb0000e606c007fff1b00129486e0076ff1b000e68e7000aeba1b00233e23c007e7f7c0007c186c00c2631b0019f8c6c00e378af0;
   0x17fffe40001c380000601ff0001ffffc003fffffc000066ee00060606000c7c1f30001c70640070ff19001ff787400661819000c7fdbc000c30190003ec3fc00e663ee0007f186400ff7f19001b6dc64004710e30;
   0x3fffe00000c380000601ff0000aaba8003fffffc00006eee000606060003b67f8003fff8600030ff18001ef786000ffff98000e7318800ffff980001e63e000e77fc7000f3986000ffff18001e66c60004320e00;
   0x7fffe00000e700003ffd8300000018000000070000c06ce600060606000333cce003fff86001fff71800155507001577d18001df3ffc00ffff9c00000700001c3ff43801f9d86000018018001867c6000c7666c0;
   0x30180000007e00003ffdff0000fffc00002aab0000c06ce6000e0606000aaaeaa0000c3c6000ffff18001fff83000c6fe18002db3ff800189808000e0708000010000001fc186000018018001820c60006736660;
   0x70180000007c00000601ff0000fffc00007fff0000ffece6000e0607000ffffff001ffff700075e31c001dddc7000e6db9c003db818000718e1c00070f0c0001ffffc0036e187000ffff1c000070070007733660;
   0x30180000003c00000619830000e03e00003aaf8000fffce6000c06070000381e0001fffef00032ff3c0019998f00066babc003c1fff800e99fbc00030f0e0001ffffc0036798f000ffff3c003fffcf0003738630;
   0x70180000007e00000639ff0000707700001c1dc0007fdce6000c06070005f18fc0000c39f000777f7c001ddddf0007dfffc003c0fffc01ddb97c00039f870000f01e000071d9f00007e07c007fffdf0000f91f30;
   0x3a98000001ef80000630eb000039e700000e38c0000038e6001c0603000fb18bf801fff9b000363b6c001fff9b8003c066c000c04020000fb06e0001b9838000783c000030d9b0000fb0ec0000f81b0000d83f00;
   0x3f98000007c7c0000660e300001fc3800007f0e0000070e7001c0603800c3bcc7001fffbb8007c73ee001dddf98001cffee000e38c700007f0c6000079e100001ff000003c3b38001dbcce0001dc3b8001dc7b80;
   0x1f1800001f81f80006018300003fc1c0000fe0700001e0e30038060180003fe700000c391800307346001999918009e7f46000c30c70003fbe460000f0f800000fe000003c7d1800798e4600038e1180038e61c0;
   0x180001ff007f000743ff800ffdfcf001ffff7c001fc0e300780601c001fc7c0003fff81c0070ff07001999c1c01df6007001c70c3800f98f87001fc07f0005ffff4007ffc61c01f187c7001f07c1c00f0781f0;
   0x180000f8001f0007e33f8007e03c7003f81f9800fe00e380300600c007e01fe003fff80e003ccf83801f9980e00f3fc03803860c180061f303803f800fc00ff83ff003ff860e00c18383803e03f0e00e03e0f8;
   0x1800004000070003c701800500040001c0078800f000e100300400c0070001e000003804003c4101001d99c0400f17c01001060c1c0001f001003c0001c007c001f001fc02040001800100300070400c01c030;
   0x0;
   0x0;
   0x0;
   0x0;
   0x0;
   0x0;
   0x0;
   0x0;
   0x0;
   0x3000000300700000018000000706000000e0000004181000000000000010064000e70190000380640000e0390004000c4000018000007010c000000030000070000000006000000c0000000060600000181800;
   0x700000030062000003c000000306200000e180001c1838000aaaaa000030066000e23198000380660000e039800ff80c60000180e0003038c6000000318000700e0000006000001e00080003e07800003c1c00;
   0xe00000030076000061e000000706600000e1c0000e1870001fffff000fffc66000e731980057d466001575398007ff8c60000180e0003870c6007ffff18000700e0000006000000f007c0007e05e0000f00f00;
   0x3fffff8000300660000e0f000000306600000e0c000fffffe000fffff000fffc66000e23198007ff866003fff3980002f8c60000180e0003870c6007fffb18000700e0002aaeaa8000383f8001e70ef8001f00f80;
   0x3fffffc000300760001c07800000706600000e0e000fffffe0000e004000e00c66003fffd98007ffc66003dd7398000038c60000180e0001c60c6005d55718000700e0003fffffc0001ffc0001c3dc3c007f81fe0;
   0x3800018000302ee0003a81e0000032ee001ffffe000e000060000e00c000e00c66003fffd98000380660038c3398000038c60000180e000fffcc6000c00318000700e0003fffffc0000fe0000001f80800f1e38f0;
   0x380e11c000307ff0007ffff0007077ff001fffff000effff70000e00c000fffc66000e731980057d4660038c3398000038c60000180e000fffcc6001c00318000700e0000c467100001ff0000007fe000060ff060;
   0x380e398000303ff000e2bfe000f837ff00000e07000efffe60000e00e000fffcee000e233b800fffeee003fffbb800003aee001ffffe0000380c6000c003180007ffe0000ee63f8000fcfe0000ffafe000003e000;
   0xe18000fffc73001c06180003c706300000e038000e00700000e00e0003e0dfe000ff37f8007ffffe003fffff800fffffe001ffffe0000380fe001cff3f80007ffe00007c61e0003f01ff003fc73fc0001ff800;
   0xe1c000fffc630000061c0000f306300000e038000e00600000e006000660dfe000fe32b8006210ae0038c3ab800fffbfe0000000e0000380fe000cff3f8000700000007863e00038003e00387f83c000fe3e00;
   0xffffc000fffc738000061c00007f06380000e01c000ffff00015f556000fffc06000003018007678060038c30180060f8060000000e00057d4d4001cc330000070000000fe77700016007600007ff0001ff01ff0;
   0xffffe000030060000ffffe00001f06000000e008000fffe0003ffffe000fffc06000aab0180036e006003fff0180060f8060000000e0007ffcc0000cc330000070000000c66238000e00600000383e000f8003f8;
   0xe07000030470000ffffe00000776000000e00000000000003fffff000060c06001fff0180007cc06003fff0180071f8060000000e0007ffcc0001cc330000070000001c0f310000700e000001ddf8005fffff0].
Definition hanzi_rows_106 : list N :=
  [0xe038000303e0000aaeaf0000037e0003fffffc003ffffc0000f800000fffcfe000aea3f800063cfe0002303f80071b9fe0001fffe0000380ea000cc33a80007fffc000ecf3b0000381c00000ef830001ffff80;
   0xe030000307fc000006078000073ff003fffffc003ffffc0000fe00000fffcfe0000603f8000770fe00033c7f80031b9fe0001fffe0000380ff001cc33fc0007fffc0007cf1f00003c1c0000077e00001c18380;
   0xe000000300ff8000060380000307f002aaeaa8000380380000ef00000e63cc6002aeab98000320c600031e318003bb9860001fffe0000380ee000cc33fc0007018000079f8e00001e380001ff8fe0001818380;
   0x3fffffc000300770000060100000706700000e000000380180000e780000fffcc6007ffff9800fffec6000307718001b19860001c006001ffffce001cff318000701c0000fdf9f00000f700001ffe3f0001c18380;
   0x3fffffc00030060003fffffc0000306000000e00000fffff80000e1e0000fffec6002afab9800fffec6003fffb18001b19860001c006001fffece000cff318000701c0001cf9fb800007e00000e0f830001ffff80;
   0xe00000030070003fffffc0040706000000e00000fffffc0000e0f0000e636c60001f839c000180c7007ffff18001f19860001c007001ffffc6001c03318000701c0000871d1800007c00000701f00001ffff80;
   0xe0000003006000000600000c0306000000e0000003b8000000e03c000fff6c600036c388000dc0c6000300318000e19860001c0030000380c6000c03318000700c00000f0e000000ff000003c7780000000380;
   0xe0000003007000000600001c0706000000e00000039f000000e01f000fff6c7000f6f39c001ce0c700030071c001f1d870001c0038000380c6001c0031c000700e00001e07800003f7c00001fc18000c000380;
   0xe0000003006000000600000c0306000000e000000383e00000e00fc00e636c3001e67b8c003870c300030030c003b8d830001c0038000380c6000c0031c000700700003c03e0000fc3f800003e00000e000380;
   0xe00001ffff7000000600000fff06000000e000000381ff0000f401c00e637c3007c63f8c00707cc300030070c0071ed830001c001c000380c7001d4031c00070078001f801fc00ff007f00001ff0000fffff00;
   0xe00000fffe6000000600000ffe06000000e0000003f81e0000fe00000fe33c3803060f8e00e01ec380030030c00e0ff838001c000c000380c3000fc030e0007003c003e0007c00f8001f000003ff8007ffff00;
   0xe00000000070000006000007fc06000000e0000001f00000007c000007631c1000060384004004c100030070c004065810001c000c000380c30007c030c0007001c00180001c006000070000001f0001fffc00;
   0x0;
   0x0;
   0x0;
   0x0;
   0x0;
   0x0;
   0x0;
   0x0;
   0x0;
   0xc00001803000000610000030030001c01c00000000000000c01c00000003000004e0e0000000300000c01c0000038000000c01c0000300700000c6300000070700000181c0001000700000400c0000100700;
   0xfff0c00001803000000638000030030001863ff8002aaaa80000ce0c000fffe300001ce0e800fffe300000c00c0000038000000c0180000300600003c638000006030000018188003e00320000e00c0000380300;
   0x1fff0d80055d4360005575c000030036001c607fc007ffffc0000ce1d800fffe360007ce0fc00ffff360000c01d8007ffffe0000cc1d80003007600070e1c00000707600001c1d8001fc0760000c00d8000300760;
   0xc030d8003ffc360007fffc000fffc360018603000060000c0000c60d80000e036000f0e0e800aeea36001fff0d8007ffffe0000ce1980003006600260e0c00000303600001c1980003f8360000c00d8000700360;
   0x1c030d8007ffc370007fffe000fffc37001c657540070001c001ffe1d80000e037000c0e0fc00066036001fff1d800007c000000c61d800030076003ffd0e000fff87600001c1d80001fe770015d50d8000700760;
   0xfff2f8000180ba000006070000180ba001867ffc0060000c001ffe2f80000e0ba00000e2ec000660be0000c02f80001fe000000c6bb8000302ee002fffef000fff8be003ffebb80000c2ba003fffaf8000000be0;
   0x1fff7fc0055d5ff0000060300007c1ff001c67ffc007ffffc0015d77fc003ffdff003fffffc005774ff0000c07fc0007c7c0003ffeffc01ffffff00001fefc00fffdff007ffeffc0041c1ff007fffffc00ffffff0;
   0xc037fc00ffffff001fffff8001ee0ff001860fc0007ffffc0000c37f8003ffdff003fffffc00fffeff0000c07f8003f01fe003ffeff800fffffe0000380de00d98dff002eaeffc0078c1ff000030ffc00fffffe0;
   0x1c030cc007ffe33001fffffc007c7c33001c61fe0007861dc0000c39cc00307033000c660ec00fffe33007fff9cc001c007c0000c71dc000300730010700cc00ddcc73000c0f1cc007ff0730000300cc000030730;
   0xfff0cc0062003300000600000f03e33001863b70001c678c0000c18cc00306033000e660ee00e66633003fff8cc00fffffe0000c318c000300630030e00c000ccce33000e0f98c0007fe330000300cc000030330;
   0x1fff0cc0073783380018618000400c33001c0133c0004621c007fff9cc003070330007660e600e666330017551cc00ffffff0000c39cc00030073003fc00c000cce771800e1f9ce0001fe718015700cc000030730;
   0xc030ce0033e0318001be1b000fffe31801f8030c000f6f0c003fff8c600baba33800be60e000e666318006000ce00e018220000c198e00030061801f820c000ce623000061d9840000c230001ff80c6000030338;
   0x1d570c000034c3000019819801ffff30000f06300003e67fc007fff9c001ffff30001de67e000e666300006001c000e018770000c11c000030070001e0618000c6737000071ddc00001c1f0001ff88c0000030700;
   0xfff6c000031df0003ff9ff8003001b00000061c000f820ec0000006c000aaabf0000e663e000e666b0003ffffc0000018300000c0f80002babe00000061c000e633f0000718f8000f8c3f0001838fc0000031b00;
   0x1fff7f0000339fc003ffdffc0033fdfc000ffffc00040631c0015547f0000001fc0007671fe00fe77fc003fffff0003ffff8001fffff0007ffbfc000ffffc000e739ff000338ff001ffc1fe001c18ff0000031fc0;
   0xc031fe0003003f80018e18c0033f8ff800ffffe00000638c001ffe3fe002aa83f8013e70fe00fe3eff802eaa9fc003ffffc001fff3fe006ab8ff800ffffe000e3183f8003b01fe000ffe3f8018181fe000030ff8;
   0x7fffcfc00fffe3700018618c00335c3f000557570007fffcc001fff1fc007ffc3f001ce70e400e01e3f0006061fc0000180e0000c01fc0060187f00000607000639c770001f01dc0001ff77001c180dc0000307f0;
   0x3fffcc000fffe3000018018000330830000006038002aeaec0018060c0006aac30000e630e000e0063000060e0c0000018040000c01800060186000000603800618e300000e01800000c230000c180c0000030300;
   0x7fffcc00005c030007fffff400331c300015575540000607e001c071c000700c300007e38e000e0063000061c1c000ffffff0000c01c0006018700015575540061c4700001e01c00001c070001c1c0c0000030700;
   0x30c0c0000ec030003fffffc0033a830003fffffc00aaeaae0018060c000600c300023e38e000e006300006180c000ffffff0000c018000601860003fffffc0060c0300001f01800080c030000c0c0c0000030300;
   0x78e0c0001ce0300001801dc0033fc30003fffffc00fffff6001c071c000700c300070fdce000e006300006381c000555d550000c01c000601870003fffffc0070e0700007fc1c001c1c070000c0e0c0000030700;
   0xe070c0003878300001801800030083000000600000aaeaa70018060c000600c3000307dce000fffe300006000c0000018000000c0180007ff86000000600000707030000f1e18000c0c030000c060c000fff0300;
   0x1c03cc000703c3000018018000301c3000000600000006007001fff1c0007ffc30003564ee000fffe300007401c000001800007fff9c0007ff870000006000007f3870001e0f9c000ffc070000f470c000fff0700;
   0x3801ec000e00f30000180180003e003000000600000006003801ffe0c0007ffc30003fe0fe000e006300007e00c000001800003fff980006ab860000006000003e1830003803d8000ff8030000fc38c000aaa0300;
   0x10004c000c00630000180180003e003000000600000006001001c071c000700c30001fc06e000e006300007e01c0000018000000001c000601870000006000001f00700030019c0007f00700007c10c0000000700;
   0x0;
   0x0;
   0x0;
   0x0;
   0x0;
   0x0;
   0x0;
   0x0;
   0x0;
   0x10800000042000070108000000420000000100001c042000018100000000420000401000001c0600000000000000704000000060800000000000006000000580d80000000000001c0300000700e0000600300;
   0x31c007ffcc700006031c007ffec70000006380000e0c7000318318000000c70000e03080008c060002aaa618000070c6000000e1c00000c380000c6000000ec0d8000ffe7f8000180300000e00e8000600300;
   0x3ffffb8007ffcef0000703b8007ffeef003ffff780000e0ee0007183b8003ffeef0000e03bc001dc060003fff738000070ef001ffe77800001e780001c6000001cc1dc000d567f8000180360000c00f8007fdfb60;
   0x3fff9f0006aac6c0000601f00060c06c003fffbe00000607c000e181f0003ffe6c0000c01b80038c062003fff3f00000707c001ffe3f000000ff000038600000ffeffc000c0660000ffff36001fff8f8007fdfb60;
   0x1c01f000700c7c0000701f00070c07c0015f51e0000e707c001c181f00018007c003fff1f00071c0670000e01e00000703c001d561e0000007e0000f0700000fffffe000ffe7f800ffff36001fff8fc00661c370;
   0xe00e000638c380008630e00030c0380000e00e0001c38380008180e000181838003fff0e00060c0670000e00e0000070380018060e0000003c0000e06000000c708e000aea7f8000000be001803ae800660c320;
   0x700f800718c3c0038770f80070c03c0000e01f0001c383e003fffdf000181c3c0015570f00061c06e0000e01f0001fff3e001c061f0000003f0000407000007fffff801fff018003ffdff001803bfc01ffecff0;
   0x700fc00638c3e0018630fc0030e03e0000e03f800381c3f003fffdfc00180c3e0000030f80000c06c0000e01f8000fff3f0018061b8000003f8000006000007fffff001fff018003ffcfe001aabbfc00ffeeff0;
   0x1781dc00718c77801c731dc0070e0778000e03bc00701c77003fffddc00181c778000031de00ffff7c0000e01bc001d7577001c0639e0000071e003fffffc000c61cd001c637fc00301c33001fff8ec006606330].
Definition hanzi_rows_107 : list N :=
  [0x3fc18000638c62000c631800030e0620000e0398007fee6000001818800180c6200000318c00ffff680000e0398000c30630018063880000070f003fffffc007fe7fc001aeb7fc00300c33000aab8ee006e83330;
   0xf7e18000718c60000c73980003060600000e030000ffff600000dc180001c0c600000031c40001c0600015f5388001c7070001c063000000070700000f000005d65dc001fff700003ffc330000038e6007fffb30;
   0xe6f1c000618c70000ef39c0003ffe70002aea38000e63e700000d83c0001c0c700000031c00001c060003fffb80000c30700018063800000070000000f000000c608c000e60600003ffc31802aab8e000063fb18;
   0x3c77dc000718c700007f1de0003ffe70003fff3c0004670780000dc3c000fffc700000031e00001c060007fffbc0001c3078001fc63c00000078000001f00000ffeffc001ff575000000030003fffae0000618300;
   0x3863fe000618c780006f1be000306078003fff3e0000630f80000cc3e000fffc780000031e00003e0700000e03e0000c3078000fc63e0000007c000001b80000aaeaac003fffbf000fffeb0003befbe000ffdaf00;
   0x3070df000718c7c0001f03f00030707c0000e0770000630fc0000dc3f000e0007c0000031f00003e07c0000e0370001c307c0007c6770000007e0000039800000018700030159d000fffffc003367ff800ffdbfc0;
   0x601b800618c6e0001b83b80038606e0000e0338000630ee0000cc3b800e0006e0000039b80003607e0000e03b8000c386e00000633800000670000039c00002abab000000e18000e006ff8033678fe00061b3f0;
   0x7019c0071cc6700019819c003870670000e071c000630670000ce39c0060006700000399e0007706f0000e031e001c186780000671c0000067c000071c00003ffff8001ffffc000eff73f0033678fc00061f370;
   0x6018c0060cc6300039c38c003830630000e0308000638e30000ce38c006fff6300000398c000e70678000e038c000c186300000630c0000061e0000e0e0000001818001ffffe000eff630003fff8e000ffee310;
   0x701840056c46100071c180003870610000e0300004638600010c7180006fff61000001984000e38630000e0384005c1c600030063040000060f0001e07000000181c00000e07000ec3730003fffce000ffee300;
   0x60180000ee06000060e180003830600000e030000c618600030c718000600060000001980001c38600000e0380008c0c60007006300000006020001c038000ffffff00000e02000ec3630003366ce000060e300;
   0x70180001e7070000e07180001830700000e030001c61c600030c398000700070000001dc0003c1c600000e038001dc0e70007006300000007000007c03c000ffffff003fffffc00eff730003366ce000061e300;
   0x18000383860001c07980001838600000e038000c60e600030c398000700060000000dc000380e600000e0180008c0e7000300638000000700000f001e000001800003fffffc00eff630003366ce000063f300;
   0x7fffdc400701f71003c03dd401ffff71003fffdf800fe0771003fc1ffc00710071000000ffc00f00f600000e01f801fc07ff003ffe1c4000007d8003e0007c0000180000000e00000e00730003366ee001fff3b00;
   0x3fffcf800e00f3e003801cf800ffff3e003fffdf800fe03be003fc0ef8003f003e000000ef800e003e00000e00f800fc03be003ffe1f8000003f0003c0003c0000180000000e00000f80630003f666e000ffe1f00;
   0x780040031e001000c780000001e000000070007c019e000500478001f001e000000678004001600000e00700070011e001ffc0f8000001f00010000180000180000000e00000780730001c064e0005501b00;
   0x0;
   0x0;
   0x0;
   0x0;
   0x0;
   0x0;
   0x0;
   0x0;
   0x0;
   0x60000000c00220001000000000704000006010000001020000060108000180420000701080017004000007010000000000000070100000070400000001000000304200019c10800700000000000000000070420;
   0x70308000c006300030098c000030c60000603180000186300006031c000180c700006031c003b00c6000070318003ffec6000060318000030c2000aaa318000030c700018c38c00ff80c6002aaab18000030c70;
   0x7019c000c7ff6001f01ddc000ff8ef0000f03bc00ffd8770000603b8000180ef0000603bc007700ef0000e03bc003ffecf0000e03b80000306f000fff3f8000038ee00019c1dc001ffccf003fffbb8000030ef0;
   0xf81f0000c3fbe001b038f8000ff87c0000f83f000ffd83e0000601f00001806c003fff9b000e3007c0000e01f0003006ec0000e01b00000307c000fff1f00000187c00018c0f80019fcee003fff9f0007ff86c0;
   0x1dc0f0000c301c003b070f0000f5c3c0001dc1f0000c199c003fff9f00001807c003fffdf00047007c003fffdf00030067c003fffdf00000383c000c071e000fffc7c001fffcf00019cc7c0038e39e0007ffc7c0;
   0x38e060000c181c003306070000e0e3800039c0e0000c199c003fff8e0007ffe380030018e000ffff38003fff8e000300638003fff8e000fff838000c030e000fffc38001fffc7000198c380038e38e000601c380;
   0x7070f8003d9c1e0013020780007073e00070f1f8005d599e0004600f8007ffe3c003101cf000ffff3e0000040f0003ffe3c003001cf800fffc3e000c071f000e00e3e00199c0780019cc3c0038e39f000700c3c0;
   0x1e03cfc002d8c3f003ff00fc003fffbf001e079fc00ffd9bf001c630fc006bae3e0033818f80006003f00030c0fc003ffe7e0030018fc00638c3f000c031bc00e0063f00198c0fc00198c7e0038e39bc00600e3e0;
   0x7ffffdc006d8e33003ff14cc007fff77807c03ddc00ffd9b3001c671dc00718677803381dde0007187700070e1dc00300677003001ddc00738e77000fff19c0060077700199c0cc0019cc77003fff99c0077ff770;
   0x37ff784006d8630002ba3ec40030c163003fffd8c00ecd9b1000c661800061866200038018800261863000e061880030066300200098c00338e63000fff38c00e3ffe2001fffcc000398c63003fff98c0063fbe20;
   0x5751c0006d8630000303ec00071c0700007fed8000ecd9b000066618000718660003fffd8000671860001c071c000300660003fffdc000138770000c073800067fd60001fffcc00031cc600038e3b8000771d600;
   0x601c000ec96380003830e00030c0700000003c000ecd9b80006661c000618670003fff9c000661870003a039c0003ffe70003fff9c0003bb070000c0338000630c7000018cce000318c700038e3b80006318600;
   0x701e000cdde3c0007831e001ffff780000003c000ecd9b80004761e000718670003fffdc00076ff78003707de0003ffe70003fffde00033b078000c073c000671c7000019cde00031cc700038e3bc000771c700;
   0x2aeabe000cccfbc0007830f000ffff780000003e000ecd9bc003ffffe0006bae780003801e00036ff7800030e9e00000c6f80000e01e00033b878000c033e000630c7800018ccf000308ef80038e3be0006318780;
   0x3fffff000ccc7fe0007831f80071c07c001fffbf000ecddbe003fffff0007ffe7c0003871f00036ff7c00030c1f00061c6fc0000e01f00073987c000c0737000671c7c003fffdf80031cefc003df7bf00077fc7c0;
   0x2aeabb800cce6b60007830f80030c06e001fffbb800ecc9b60000f03b8002baa6e00038e1b8003e186e00039c1b800f1c6ee0000e01b80063986e000fff33800630c6e003fffed80030ceee003fffbb80073f86e0;
   0x47119c01cc66378007c31de007ffe6780001839c00ecdd378000f019c0011806700039c19c001e18678001d819c007d86678000e019c00639c67000fff31c0067fc670035dd5de0077c667803fffb9c007e1c670;
   0x66398c018c6633000ec30cc003ffe6300021c38c00eccc330000f838c0039806300039818c001e18630000f818c001f86e30000e018c00638c63000c0330c0063fc6300318c0cc0066c6e30038e3b8c003e18630;
   0xe71984000c4631000ddf0c40075d46100071c18000eccc310001dc180007180610003b8184000e1c610000f0180000706610000e018000e38e61000c0730000715c6000318e1c00066c6610000e038000141c600;
   0x1c61980000c0630000cdf0c00020c06000060e18000fcce3000039c18000718060000390180008e0c600000f0180000e06600000e018000e38660000c0338000600c600031860c0006ce6600000e0380004018600;
   0x1871dc0000c0630001cef0c00001c070000e07180007cc73000070e180007580700003801c0019f0c600001fc180001f06600000e018000038460000c0738000701460003f870c000ec67600000e018000c01c700;
   0x3860ec0000c06380038638c00000c070000ffb180000c8338000e0718000fff860000380180009b8e6000079e180003de6600000e018000038060000c0318000700060001d838c000eff3600000e018000c018600;
   0x30706fc000d061d0038710fc0001c07f001fffdfc000c03bf003c03dc400ffff710003d01c401f9c775001f0f9fc01f9fe7f0000e01fc0003d07f007fffff800750071000181ce001dff3ff0000e01f800fffc710;
   0x3e0f8000f879e0030380780000f83e00380f8f8000c01de003801ef800c03f3e0003f80f800f0e23e003e03cf800e03e3e00007c0f80003e03e003fffef8003f003e000180efc00d821be0000e00f8007ff83e0;
   0x3e0780007878e0010100380000f81e001800078000c008e0010004780040001e0001f00780070401e001801c780040061e00007c0780001e01e000000070001f001e00018047c0040011e0000e00700015401e0;
   0x0;
   0x0;
   0x0;
   0x0;
   0x0;
   0x0;
   0x0;
   0x0;
   0x0;
   0x701080001c040000060108000000420000e0100000000420000c00000000004000071c100000040400000701000001c040000060100006040000000701080001c04200003010000000042000000108000706420;
   0x7039c0001c0c600006031c003ffee30000e0318003ffcc70000e7f8c003ffec600030c3180000e0c2000060308000180c200007031800e0e0e200006031c0004e0c7000030318002aaac7001ffe31c000206c70;
   0xf83bc000180ef001fffbb8003ffe770000601bc007ffcef000067fdc007ffecf00071c3bc007f7cef003ff01bc0001806f0000701bc00e0ff670000603bc000e70ef0000703b8007ffeef001fff3b8004706ef0;
   0x1dc1f000ffff7c001fff9f0000e003e001fff9f000300c6c0000660f8003186ee002bae9f0007e1e6c003fe01f000ffff7c0000f81f000e61f7e000fff1b0001c386c0000e01f0007ffe6c001c061f000e2066c0;
   0x39e0f000ffff3c0000601f00007003c001fff8f000700c7c003fe60700071867c003fff8f000600e3c0000700f000ffff3c0001dc0f000e6193c001fff1f000381c7c003fffdf00061867c001c071f0007ffe7c0].
Definition hanzi_rows_108 : list N :=
  [0xf0f0f000aaaa38001fff8e00003801c0000700e0003ffc38003fe603000318638003fff8e000600e38000aea8e00000003800038e0f000e6181c000c030e0007ffe38003fffce000618638001c060e0003efe380;
   0x1f57cf8001c383e001fff8f80055d53e0001f00f8007ffc3c001876078007ffe3c00071c0f800600e3c003fff8f80000003e0007070f800e6183e001c030f000fffe3c003fffcf80075d63c001fff0f80007063c0;
   0x7fffefc000c183f0000600fc00ffffb70007b80fc00300c3e001b37e7c003bae3e00030c0fc007efe3f003aab8fc007ffc3f001e038dc00e6183f000c030f800640e3e0000000fc007ffe3e001ffe1fc0002063e0;
   0x37fe7dc000c1c77803fffddc00ffffb3001f1f1dc00700c7780131fe6e0071867700071c1dc007ffe770038719dc007ffc77007fffdce00e6ff77001fff1de001e7077801fff1dc007ffe770000001dc004706770;
   0x60180000e1c61003fffd8000018030001c0fd8c003ffc620003186e400318663003fff98c00600e63001fe198c00600c63003bfef8400e6ff63000fff188003c3862000fff1880061866200000018000c286620;
   0x701c0001e3c70000000180000180700010019c0007ffc600003006c0007ffe70007fffdc000600e600007ff9c000700c700021545c000e61c70001c0318000701c6000000018000618660001fff18000d7fe600;
   0x3fffdc0003f7e70000aaa1c000018070003fffdc000000070000f606e0003ffe700000001c000600e7000106f9c000600c700000001c000e63c70000c031c000e04e700000001c000618670001fff1c000fe3e700;
   0x3fffde000f3e778001fff1c00001f078007fffde000000070001f706f0000180780000001c000755e780030719e000700c780018311e000e67c78001fff1c000c0e770001fff1c0007ffe700018031c0007f4f700;
   0x601e000630378000c031e00000f078000c001e000fffe78001b37ef000018078000fff1e0007ffe78003fe19e0007ffc780018219e000e6fe78000fff1e000007278000fff1e0007ffe780018033e0000180780;
   0x701f00001c07c001c071f0007fff7c000c551f000fffe7c001b37ef800ffff7c001fff1f0007ffe7c001fc19f0007ffc7c001c731f000e7de7c001fff1f0007ff87c0000001f00001807c001fff3f00001c07c0;
   0x601b80001806e000fff1b8003fff6e000c7f1b800e0066e001b360dc00ffff6e000c031b80006306e0000019b80001806e000c631b800e69e6e0018631b8003ffc6e0000001b80001806e001fff3b80001806e0;
   0x1fff19e01ffffe7801fff19c00777777800c7719c00e006670033370dc0007e067801c0719c000770670003f999c00119c6700066319e00e61b67003ce319c00181e67001fff99c007ffe6700180319c007fff670;
   0xfff18c00ffffe3000c0318c00222363000c6318c00fffe6300333e0cc000fe063000fff18c000630630003b998c00398c6300066318c00e61be3000ec318c001c3fe3000fff98800fffe6300180338c007ffe630;
   0x1c0318001ffff61001fff18400737770000c6318000fffe6100331f0c0001db061001fff18000073060000319d8400718c6100076718400e619e10007c3184000e7361001c03980007ffe61001fff1800055d5610;
   0xc0318000018060000fff18000222330000c6b18000e0066000331b0c000399860000c0318000063860000318d8000618e6000030218000e019600003831800007e060000c0398000018060001fff180000180600;
   0x1c031c00001c070001c0718000737770000c7f18000e006600033170c000799e70001c0718001c71c60007318d80006187600003001c000e018700007031c00003c070001c03980000180700018031800001c0700;
   0xc031c000018070000c0318000222330000c2b18000e006600003030e000e18f70000c0318000860e60002318d8000e183e00001801c000e01830000e3b980000ff060000c0398000018060001803180000180600;
   0x1fff1c00001c07f001d071c401fffff0000c031fc00fffe71000303f7c00e187ff001fff1fc01d70f7f00731effc00c1d17f003fffdfc00e0183f007c7f9c4007e7f71001fff9f801fffff10018031c401fffff10;
   0xfff0f80001803e000f830f800fffffe000f800f800fffe3e0003e3e780001813e000fff0f800fe03fe003f0f6f80001f03e003fffcf800f8183e00380f8f800f80fbe000fff8f800ffffbe001f030f800ffffbe0;
   0x1c030780001c01e0007070780155555f00078007800e0061e0001e1e180001801e001c07078007c019e001e074780000f01e0000000780078181e00000187800c0019e001c038780000001e001f030780000001e0;
   0x0;
   0x0;
   0x0;
   0x0;
   0x0;
   0x0;
   0x0;
   0x0;
   0x0;
   0x301080001c040000070108000000000010000000001c04200000010800060e0c000006000000000400000070000001c0420001803800000004000070e1000000c04200000010800000040000007000000000420;
   0x7031c000180c600006039c003ffcc2001fe0318000180c3003fffb9c0036061c000ff618c003ffcc6002aa318c006186e7000980380007ffec600030e31800c0c0c7001fffb9c007ffec6003fc318c00fffec70;
   0x3ffffb8007ffeef001fffbbc003ffcc7001fffdb80001c0ef003fffbb800360718000ff71dc007ffcef003fffddc0061c677000d80380007ffeee00070e3bc00e0c0ee001fffbbc007ffeee003fc71dc00fffeef0;
   0x3fff9f0007ffe6c001fff9f000380cee00083f9f000ffff6c0038e19f000660338000c030f8001c006c003bbfcf80061867c001987ffc0061867c00030e1f0006ffe7c0018019f000618e7c0038c30f800ecc66c0;
   0x7060e0001c187c0000700f00039fc7c0018710f000ffff7c0038e19f000663fff000c030f0000f707c003b070f00061c63c001987ffc0061867c003fffdf0007ffe38001c018f000618e7c0039c70f000ecc67c0;
   0x30e0f0000c30380000600f00039fc3800186386000afea380038e18e000c63fff000c038700003e0380039830700061861c003980380007ffe38003fffce00038c03c001fff8f0007ffe380038eba7000ecc6380;
   0x7fffcf8000c303c003fffcf800398c3c001c630f0000ff03c003df58f0004601b0007ffdc780057d53e00199fc78007ffe3e001180380007ffe3e00070e0f8001cc03e001fff8f8007ffe7c0039ffe7800ecc63c0;
   0x3fffcfc00ffff7f003fffcfc00398c3e000e660f8001db83e003fff8f800ffe1b0003ffdcfc00ffff3f00199fcfc007ffe37002baaba80061863f00030e0fc000ec03f0018018fc00618e7e003affefc00eeee3e0;
   0x15555dc00ffff770000001dc00fffff70006061dc0079dc77803fff9de01ffffff001555edc00f7d5770019870cc00000073003fffffc0075d67700070e1dc01ffff77001c019dc00618e77003fc70dc00fffe770;
   0xaaa98400000063001fff98000ffffb3003ffe08400f18f620000019c400aebffe000031fc4006360630018cbac400000030003ffe00c007ffe6200020a18000ffff61001fff980006bae62003ac30c400aaea620;
   0x1fff9c0003ffe60001fff9c000c003f0003fff1c001e1c7f0001ffd9c0000e19b7000031bc0007378600018dfec000ffff70000386c7c00555470001fff9c00001c070001fff9c0007ffe600039c70c0000070600;
   0xc039c0003ffe70001c039c000c003f00000639c000aaa970001ffd9c0000e19b2001ff98c000331c70001fe30c000ffff700003864cc00000070001fff9c00000e0700000631c0002aaaf00038c30c0000070700;
   0x1d579e000300e78001c039e000fffff8000061de0003ffc7000180d9e0000e19b7001ff99e00003ef78001e771e00001c0780003866dc007ffc70001d759e0005578780000631e0000000700039dfde000fff8700;
   0xfff9e0003ffef8001eab9e0003ffc780000609e0003aac7800180d9e0000e1f9a00018d8f00001e2780000230f00000c078000386aac003aac780018619e0007ffc78002aeb9e000fffff80038dfcf0007ff8780;
   0x1c039f0003ffefc001fff9f000300c7c007fffdf000300c7c001ffd9f0001f1f1f00018d9f00001807c0000701f000ffff7c0007c7ffc00700c7c0018619f0007fff7c003fffdf001fffffc003fd8df000701c7c0;
   0xc039b800300eee0000781b8003ffc6e003fffdb8003ffc6e001ffd9b8001b180e0001898d80001806e0000300d800fffe6e000786bac003ffc6e0018619b800603fee002aeadb800018cee003fd8cd800382e6e0;
   0x1fff99e003ffe670038dc19e003ffc7700006019e003ffc6700180d99c001b1807003ffd9de00ffff67803ffffde00e667778007c631c007ffc67001fff99e00703967800060f9e00431c670038d8dde0038f7670;
   0x6018c003ffee3003ccf18c00300c6300186098c00300c6300180d98c001b1ffe003ffd8cc00ffff63003fffecc00e666630006c6bac00300c63001fff98c007ff86300006078c00f30ce20038d8ccc001dc2630;
   0x6018400077060001fc7f8000355c7100186198400355c61001ffddc000339fff0003c19c40007f0610000780c400e66770000ec7ffc00755c60001861980007ff861001fff980007f1c600038d8dc4000f80610;
   0x3fffd8000063060000387f80003ffc70001861980003ffc60001ffcd80003198020003c18c0000fb8600000f80c000e66660000ce630c003ffc6000186198000603860001fff980001e0c600038dacc0000780600;
   0x7fffd8000c730600007065c000355c700018619c00015547000180cdc00071d8070006e18c0003d9c600001dc0c000e66770001c6631c00755c60001861980007038600000601c0001c1c600038dfcc00003c0700;
   0x6018000c63860000e661c000300c300018618c00000007000180cec00060dffe000e618c000798e6000038e0c000e6663000187630c00300c60001aeb980006038600000601c0003d8c6000387fcc00000f0600;
   0x601fc00d71f7f001e7e1c000300c3f001fff8f400fffff1001ffc6fc00e0ffff001c798fc01f187f5001f07cf400e6673100383731c00700c7f001fff9fc007ff87f007ffffc00079fc7f003860cfc00007c710;
   0x600f800fe0fbe00383f0f8003e0c3e001fff8f800ffffbe001ffc7f800c0780200383d87800c1833e003e03f7800fe663e00303fb0c003e0c3e001aab8f8007ff83e003fffef800f0fe3e003e7087800001f3e0;
   0x60078007c0384003007078001e0c060018000780000001e00180c67800c0200700300d8180001801e0018006380076671e00101381c001e0c1e0018018780070381e00155547800c00c14001e300180000061e0;
   0x0;
   0x0;
   0x0;
   0x0;
   0x0;
   0x0;
   0x0;
   0x0;
   0x0;
   0x600000000000000007000000000000000000000000000000000000000000000000001c000000030000000000000030c000000c3000000c00000000c0c220000018000001c042000000040000180600].
Definition hanzi_rows_109 : list N :=
  [0x600000000000000003000000000000000aa0000000000000000000000000000000001800000003000007f7f6200030c398000c30e2001ffeb8800060c33003fe188c0000c0e3003fffccc000180600;
   0x1fff7fc000071ff003fff7fc000039ff0015557fc001ff3ff007fff7fc007ffffe001fffff800ffffff00000700000636377003fffdbc00ffff670005ffddc007e0c37003fefcdc0000e077003fffcdc0001cfff0;
   0x1fff7fc000071ff003fff7fc000039ff001fff7fc001ff3ff003fff7fc007ffffe001fffff800ffffff00000e000007f7f3e003fffdf800ffff7c0000600f8007e7fbe00330fcf800ffff3e002aaacf800ffcaea0;
   0x1c005f4001ff1ff0000e00e0007ffc38001fff0e0001c3030007fff0c00000180000000700000ffffff003fffffc0063633c00030c0f0000c303c003fffef000737fdc00330ce7000ffff3c000767c7000ffe7fe0;
   0x18000e0001ff0380000e00e000fffc380000600e0001830300003800c00000180000000600000008e00003fffffc007f7f1c0002080f0000c3038003fffef000338c0e00318e6300046721c000266c30003067fe0;
   0x1c000e0001c38380000e00e0007ffc380000600e0001c30300003800c0000018000000070000071c70e0000038000077771e001fff8f800ffff3e0000700f800318c1f00318777800ee373e000366c78003070600;
   0x18000e0000c18380000e00e000e00e380000600e0001830300003800c0000018000000060000038fb1c000001c00007f7f3f001ab98fc00ffff3f001fff8fc00ffae9b803adff7c003c3e37000326c6c0038baea0;
   0x1c000e0000c1c380000e00e0006007380000600e0001c30300003800c000001800000007000001e7ff8000081e0000039c370019f99de00c00777001fff9dc00ff7f99001cffe6e001c1c33007f7fc6e001fdfff0;
   0x18000e0000e0c380000e02e8006003380000600e0001830300003800c00000180000000600000063ba0000180e00007ffc31001fbf98400dffb61001a6798c00c36cb800005b664003ffe30003fffc60000f80300;
   0x1fff7fc00060eff0000e07fc006013ff0000607fc001c31ff0003807fc0000180000000700000005c400001e0700007ffe30001fff9c000155070001b6d9c000db6db000079b6e001ffff70003318c60001f07f80;
   0x1ffe3fc00060eff003fffbfc006038ff0000607fc001839ff0003807f8003ffffc000fffff0000ece600000e0380002baf380000e61c0000000700019e99c000db6cb800069b6e000f80fb0002d4bce0003b87f80;
   0x1fff0e000070738007fff8e0006070380000600e0001c30300003800c0003ffffc000fffff0001df77c00007fde0007fffb80000c71e000ffff78001fff9e000db6dbc003fdfef0003ffd780035dbcf00071f61c0;
   0x18060e0000700380000e00e00060e0380000600e0001838300003800c0002abaa8000aaeaa0007bffdf00003ffe0002baf3c003fff1e00000e078001fff9e000db7fbc003fdbef0003ffc7c0037cbef000e0f72e0;
   0x70e0000f80380000e00e00060e0380000600e0001c38300003800c00000180000004700000f31f8700001ffe0007ffe3c003fff9f000707c7c0015751f000db7fbe0017db6f800380c7e00165bed8004393c70;
   0x60e0000f80380000e00e00061c0380000600e0001838300003800c0000018000000e60000020180000000f00000030e360000c3db80078cf6e003fff9b800cb0e3700067b6dc003aac6e000e4bedc000f98020;
   0x70e0000dc0380000e00e000738038000060ce0001c18300003800c0000018000001c7000000018000001c780000fffe37801ffff9e001fe76700157559c00df1f3380065f6ce003ffc77800e5f6ce000c1c000;
   0x66e0001ce1b80000e07e0006181b8000060fe0001819b00003808c00000180000038600000ffffff000381c0000000e33001fff58c001fb86300006018c00cb3f33003fdfec400018073000e7f6e400ffffff0;
   0x3007ff0001cf1f80000e07f0007001f8000060ff001dc1ff0000380fc00000180000070700000ffffff000700f00007fff310001c3184001b9f61007ffff8400cf7db1007fdfec00019dc70000e5d6c000ffffff0;
   0x30063fe003871ff8000e00fe007000fe0000600fe00981cfe000380ff800001800000e0600000001800000e00780003fff30001fff180003be360003ffff80000c6db800061b2e000398c30000a0c6e000003e000;
   0x300707c00783c1f8000e001c0070001f80006001c01dc1c3f0003801fc0000180000040700000001800001fffde0003c1c30001fff1c000737870000ecd9c0003c0df800061b7600071ce70001b0c7600000e7000;
   0x300600000701e030000e00000030000300006000000980e0300038000c00aabaaa00000600000001800001fffff0000ef8300000c31c000e31e30001ccccc000760cf800061b36000618730001b8e3600003c3c00;
   0x3fff00000f00f000000e0000003fe000003fffc0000fc07000003fc00000ffffff003fffffc00001800003817ff0001ff03f007fff1fc01e307ff0039dccfc00e70c5d00061b37400e1c3b0003187360001f81fc0;
   0x1ffe00000e007800000e0000003fe000003fffc0000f807000001fc00000ffffff003fffffc0000180000380000001ffff9e003fff0f80083f1be0031986f800c3cc1e00061f3bc0041f13e0070c33fc00fe007f0;
   0x550000004003000000e0000000fc000000000000007003000001fc000000000000000000000000180000100000000f01f0e0000030780001f01e00719865800418c0f00061c11c0001f01e0020c213c00f0001f0;
   0x0;
   0x0;
   0x0;
   0x0;
   0x0;
   0x0;
   0x0;
   0x0;
   0x0;
   0x1cc0000001800000004000000000000000000000000380000001c3800000060000000000000001c0000000000000001c000000200000000000000000600000000c00000006000000000000000000000000070000;
   0xe8e00000018000000060000003ffc00000000000000380000000c3800000060000000000000000c000001ffe0000001800000033800000fffe000000600000000c000000060000000000000006aa800000030000;
   0x1dce3fc0003c1ff0000707fc007ffdff003fffbfc000381ff0001c3ffc00007155001fff7fc0001c155001ffeffc0001c1ff0003187fc00ffffff0000f03fc0001c1ff000060554003ffdff000fffbfc000071ff0;
   0x39863fc0003c0ff0000f03fc003aadff003fffbfc000381ff0000c3ffc000031ff001fff7fc0000c1ff001aaeffc002180ff0003187fc003aaaff0000f83fc000381ff0000607fc003ffcff0007ffbfc000031ff0;
   0x31c70700007e0180001d806000700c380000e006000fffc380001c3860000031ff0000000e00055d5ff00180e0c0007ff01800071c574001c1c180001d8060000700180000607fc001800180003c006000fff0380;
   0x3183060000e701800039c06000308c380000e006000fffc380000c386000fff8380000000e0003ffe3800180e0c0001ffe1800060c0600018181800039c06000ffff18003fff0e0001818180001e006000fff8380;
   0x1c3870001c781800070e06000718c38000070060000380380011c386001fff8380000000e0007ffe3800180e0c00001fe18000e0e060001c1c1800070e06001ffff18003fff0e000181818000070060000038380;
   0x18386000383c18000e0706000318c38000070060000380380038c3860003818380000000e00030c03800180e0c000018018000c0e06000181c18000e0706000baba180000600e000181818000038060000038380;
   0x3fc3c700070de18001c03c6000718c38000170060007ffc38001dd786000383c380000000e00071c038001ffe0c00001c018001c07060001c1c18003c0786000381c180000600e00018181800155f060000018380;
   0x3ffbffc01e18f18003801e6000318c380001f8060007ffc38000edf86000383c380000000e00030c038001ffeffc00018018003803ae800180c18003803c60001818180000600e000181818003fff860000018380;
   0x7ffffc00c387ff0037ffffc00718dff0003fc1fc007ffdff0007dfbfc00183fff007fffffc0071c1ff00180effc007fffff007555ffc01fffcff00370cffc001839ff0000607fc001c1cff003fff1fc00fffdff0;
   0x1837e8000300ff0007fe3fc00318cff00076c1fc000380ff0001c3bfc001c37ff003fffbfc0030c0ff00180e0c0007ffeff002ffebfc00fffeff00030c3fc001838ff0000603fc001c18ff0033381fc00fff9ff0;
   0x1832700015541800070706000718c38000e7e060000380380001c3860001c777d00039c0e001ffff3800180e0c00001c018000fff06001fffe1800070c060001c3018003fff8e000fffc1800331806000f554380;
   0x183060007ffc1800060606000318c38000c6706000abaa380000c3860000e623800038c0e000fffe3800180e0c000018018000c30060001b001800030c060000c7018003fff8e000fffc1800339c06000e000380;
   0x183070003ffc180007070600071cc38001c7786001fffe380001c3860000ee03800039c0e001ffff38001ffe0c00001c018000c38060001f801800070c060000e70180000f00e000e0001800318e06000e000380;
   0x183060003800180003060600033cc38003863c6000ebaa380000c38600006e03800038c0e00003e038001ffe8c000018018000c380600019c01800030c060000ee0180000f00e000e000180039ce06000e000380;
   0x183070001c00180003170600003c03800107186000c380380001c38600007c03800038c0e00007e038001d56fc001ffff98000c18060001ce01800070c0600007c0180001f00e0006000180018c7860007ffe380;
   0x3833e0000e00980003e62600003e13800006026000c381b80000c3e600003813800038c6e00006e1b8001806fe000ffff98000e187600018709800030e2600003c0980001b86e0006ffe980018e3fe0006fffb80;
   0x23033fc000710f80001f77e000c3e1f80000703e000c381f80001c3fe00003c1f800038efe0000671fc0018071fe0001c0f8000e1c7f0001c79f800070e7e00003c1f80003b87f0006ffff8001871be0006001f80;
   0x630307e0003f87e0038063f800c371fe0000601f800c380fe0020e3bf80007e0ff8023863fe000e38ff80180303e000180fe000e0c1fe00181efe00030e3f80007e0fe00031c3fe006000fe0018380f8006000fe0;
   0x770300c0003f01f00380707e00c3781f00007007c00fb801f0071ff87e000ff01f80738707e001c3c1f0018038040001c01f800e0e03c001c0f1f80070707e000ff01f80071e07c0070001f801c3c03e0070001f8;
   0x37030000003c00300380600c00c33c0300006000c007b80030030ff80c003e3c0300638380400381e00001801800000180030006070000018038300030700c003e7c03000e0f00400700003000c1e00c007000030;
   0x3e0300000078000001ffe00000ff1f0000007000000138000003fc7c0000fc1f00007781c0000f00f00001d01c000001c000000747800001fc10000070380001fc1f00003c07c0000710000000f4f000007100000;
   0x3e03000000e0000001ffe000007e078000006000000038000003f8180000f00f80003f80f0000e00780001f80e00000180000007e1c00000fc00000030380000f00f80003801e00003f0000000fc3800003e00000;
   0x1c0300000060000000ffc000000003000000700000003800000000000000c00100003f0060000c00100001f004000001c0000003c08000007c00000070180000400100003000400001f00000007c1000001e00000;
   0x0;
   0x0;
   0x0;
   0x0;
   0x0;
   0x0].
Definition hanzi_rows_110 : list N :=
  [0x0;
   0x0;
   0x0;
   0x1c0000001800000000000000018000000018000000040000000000000000000000000300000000000000060000000000000000e000000000000000104000000180000000007000001c000000070000000000000;
   0x198000000180000000000000001800000003c0000000f000001fdf800007ffe00000003000002aa8000000600000000000000006000000fffc0000018c0000001800000000030000018000000060000000000000;
   0x79c7fc000181ff003fffffc0003c1ff001c707fc00547c7f001fdfdfe007fffff0000031fc003ffdff0000607fc01ffffff0000707fc00fffdff00018c3fc000180ff000555780000381ff0000707fc00ffffff0;
   0xe183fc000180ff003fffffc0007e1ff000ce03fc00fe0e7f0018d99fe00600eff003f831fc003ffcff0000607fc00ffffff0000703fc00ebe9ff00018c3fc000180ff001ffffc0000300ff0000607fc00fffeff0;
   0x1c1c0600055d4180000e00c0000f7018000dc07fc00fe471c001dd9c3000700e18003fc307000380d5d003fffd74007000380000700600061c01800018c06000fffe18001fffff001ffff18000070060000380180;
   0x18060007ffe180000e00c0001c7818000e8806000e6620c0018d983000600e1800308303000380c18003fff86000300038001fff86000e0c01800018c06000fffe18000e0607800fffe18003fe006000638c180;
   0x3fffc60007ffe180000e00c0007c3c1800061c06000e6671c001dd9c3000700e180031ffe7000380c18003d7586000700038001fff8600060e01800018cc6000e1861800064671c01ffff18007ff006000739c180;
   0x3fffc60000180180000e00c000f01e1800061806000e6620c0018d9830007ffe180030bfe3000380c180038618600033fc380018038600060e01800318cc60006186180000e63880000c018002ae0060003398180;
   0x15dd460000180180000e00c001e38f1800071c06000e6671c001dd9c30007ffe180031fb070003ffc180038618600073fc380018038600060701800398cc60007186180001c61c00010e018000070060003398180;
   0xcc060000180180000e00c00081c318000f1b86000e6620c0018d983000030e180030bb830003ffc1800386186000330c38001803860006038ba001dfcc60003186180003860e0003860180000600600033b8180;
   0x11dc3fc000180ff0000e05d40000f0ff001f9dbfc00e6677f005ddddfc00030eff0031f99fc003d5cff003fffbfc00730dff001803bfc007e3dff000ffcffc0035d6ff0007060f0001c70ff0000707fc003bb0ff0;
   0x18cc3fc00abaaff002aea7fc000878ff001999bfc00e6627f003fffefc00030eff0030bb9fc00380cff003fffbfc00330dff001803bfc003e0eff00038cffc007ffeff000e07e30001c38ff0000603fc001bb0ff0;
   0x1dcc06000ffff18003fff7fc001c3c180019dd86000e6671c007fffe3000030e180031d987000380c1800386186000730c380018038600000041800018cc60007ffe18000007c00000f5c18001575060000380180;
   0xccc06000fffe18003fff0c0000e08180038d986000e6620c0018d983000fffe1800309983000380c1800386186000330c38001fff860002aa81800018cc6000303e180000000000007fe18001fff06000fffe180;
   0xfcc0600001c0180000e00c0000700180030fdc6000e6671c001dd9c3000fffe180031d987000380c1800386186000730c38001fff860007ffc1800018cc6000383618001fffff80007fc18001fff06001fffe180;
   0x6ce0600000e0180006e00c00023c018003078c6000e6620c0018d983000030e18003099830003ffc18003fff8600033ac38001803860007ffc1800018cc6000187618001fffff80003801800180306000abaa180;
   0x7c606000087018000ce00c00071f01800707ce6000e67f1c001dd9c3000070e180031d9870003ffc18003fffc600073fc3800180386000701d1800018cc60001c67180000060000019c018001803060000380180;
   0x3c6260001c7198000ce00c000707d1800103836000e67f8c0018d883000060e9800309983000380d98003861fe00032ac38001803a6000600df800018cf60000ee6d80000060000018e198001803460000380980;
   0x1c77e0003839f8001ce0cc0003c1df800041c3f000fe777c001cd9df000060ff80031d9df000380dfc003861ff800700df8001803fe000701dff00018cff0000fc7f8000fffff0003871f80018037e0000381f80;
   0xe39f8003038fe0038e0fc0001e01fe000c1e1fe007e307e0018d8df8008e0efe003098df800380c3f8000600fc003003f8001803bf800600c3f80218ccfe0007833e000ffffe0003038fe0018037f8000380fe0;
   0x71f387c007c1c1f8000e07fc000f001f001c1f03e0006381f801cd8c7e01cf0e1f803fd8c7e00380c0700006001c0070007f80180387e00701c070071fcc1c0007c31f0001e600000701c1f80180307c0003801f8;
   0x30f9c0c00fffe030000e00fc0003e003000c1b80000061c030018d8c0c00cdee03003f9860c00380c000000600000030000f001fff80c006aac000021fec00001fe38300038600000fffe03001aab00c000380030;
   0x3fdfe0000fffe00007fffc040001fc00000d5de0000061e00001cfee0000fdfe000031df70001ffffc000006000000750001001fff800007ffc00007ffff0000fc7dc0003fffffc00fffe00001fff000000380000;
   0x3f8cf0000c00e00003fff80000007e00000ff8e0000060700001e7e60000f83f0000308f30000ffffc0000060000003f8000001aab800007ffc00003f83f0000f03dc0003fffffc00c00e00001fff000000380000;
   0x150060000c0000000000000000001c000007f040000060200000e464000070060000000430000000000000060000001f000000180380000701c00001f0010000400c8000155555400400000001803000000380000;
   0x0;
   0x0;
   0x0;
   0x0;
   0x0;
   0x0;
   0x0;
   0x0;
   0x0;
   0x600000000700000003000000038000000004000000770000000600000000000000001c000000000000000e00000000e0000000000000001c00000070e000000180000000600000001c0000;
   0xfff00000aaaa00000060000000030000000300000003800000000e0000006300000006000000aaaa0000000e000003ffc000000e20000000e000003fdfe000000c00000070e00000218000000060000000180000;
   0x1fff7fc00ffffff0018637fc00fff0ff0000707fc00038155003fe73fe000770ff0000707fc01ffffff00000e554003ffdff0000e67fc00157155003fdfffe0000e1ff00070e3fc006187550000705540001c1550;
   0x8033fc00ffffff0018637fc00ffb0ff003fffbfc000381ff003fe33fe004632ff0000303fc00fffeff0000063fc00300cff0000e67fc003ff1ff003a9abfe0000e0ff00070e3fc00618eff001fffffc003ffcff0;
   0x1c0306000e0671c001c67060001c701c003fff860007ffdff00000387000e7771c003fffd7400301818003fff7fc00300c180000e7060003ff9ff00381807001ffffdd00070e06000718dff001fffffc003ffdff0;
   0x80306000e0e318000c66060000c3018002aba860007ffc38000001c6000663618003fff86000301818003fff06000300c18001fff06000383c1800381803000ffff9800070e06000318c18001830060003180180;
   0x1c0306000e0671c000c66060001c771c0002380600003803800001cc700077761c00380186000301818003d57860003ffc18001fff060001c7e180039d8c7000007018003fffc6000319c18001c380600031c0180;
   0xaab060003ffe18000666060000c321800061c0600003803800000c06000363e18003801860003ff818003801860003ffc180000e3060000e6f18003998c3000003818003fff8600039981800181806000ffff180;
   0x1fff060007ffe1c000664060001c771c000e1e06000038038007ffe070003f7c1c003801860003ff818003801c6000300c180000e3860000ee718003999c700055581800070e06000199818001c1c06001ffff180;
   0xaaa06000003018000060060000c3218000e0e06000abaa38003ff6060001e3c18003bf9860003018180038ffe6000300c180000e18600007c218003b19830007ffc1800070e06000018018000f8f060003180180;
   0x3fc0003b87f001fffbfc001c735d001fffffc00ffffff005f573fc0007707f003bf9bfc003018ff0038ff7fc00300cff0000e1ffc0003c1ff003b199fc007ffeff00070e3fc01ffffff000787ffc0031c0ff0;
   0x3fffbfc0003987f001fffbfc000c337f003bffbfc00fffeff000e03bfc0006307f003b19bfc003018ff0038c33fc003ffcff0000e03fc000fe0ff003b1b0fc00701eff00070e3fc00ffffff0002033fc003ffcff0;
   0x3fff86000039c1c00180006000fff37f0030058600003817d000e07c70001f701c003b19860003ff8180018c3060003ffc18007fffc60001ef05d00381807000701f1800070e06001ffff18000707574003ffc180;
   0x2aea860007ffe1800180006000ffb31800018c06000038038000e02e60003e3818003b19860003ff8180018ff0600000cc18003fff86000fc3c18003c1c030007ffb9800070e06000063018000302060000180180;
   0x60060007ffc1c001800060001c719c00018c06000038038000e07470007f7c1c003b19860003ff8180018ff0600061cc180001f006001f01f98003f1e070007ff998007fffc6000067018003fffc600001c0180;
   0x6006000038018001fff060000c301800018c06000aba838000e0206000e63f18003b19860003018180018c306000f18c180003f806000ffff18003b9b03000701818003fffc6000063018003fffc60007ffe180;
   0x1fff8600003801c001fff060001c301c00018c06000fffc38000e0707001e7779c003b59860003018180018c3060007f8c180003fc060003ffd180039dbc7000701818007fffc6000063018003333060007fff180;
   0x1fffa6000038018001aaa660000c301800018e06000aba838000e0226000c63118003bf9e6000b019980018ff660001f0c980006ec460003019980038f8eb0007ff99800000026000063998003333660000181f80;
   0x15757e001fffffc0018007e0001c381c00118e7e0000381f8000e073f0000738fc003959ff001ffd9f80018ff7f000070df8000eee7e000301df80038587f0007ff9fc00031c7e0004639f80033337e00001c1fc0;
   0x603f800ffff7e0018003f8000c38f80021863f8000381ff000e023f8000638fe003819bfe00fffefc0018033fe000e0cfe000ce73f8003018ff0038182fc007ab87f80070e3f8018618ff8033b33fc00ffff3f8;
   0x6007e0003801f00180007e001c1cff80718707e0003801f800e0707e01c71c1f00380183c0031ff1f801c0307c001d0c1f803ce387c00301c1f80381801e0070180f000e0e07e01c61c1f0031b187c00ffff070;
   0x6000c00038003001fff80c000c0e0f80318300c00038003000e0200e00c60e0300380180000300007001c000000038ee030078e1c0c0030180300381800600701800001c0700c01860e010039b1804000180000;
   0x7fffc0000038000001fff80001ffef01003f83c0001ffff00000e0700000ff0f0000380180000300001001d4000000f9ff000070e0e00003ffc00003f1f80000701800001c03c0001d607800039d9c000001c0000;
   0x3fffc000003800000180000000ffe380003f81e0000ffff000007c200000fe0380001f0180000300000000fe000000e03e000000e0400003ff800001f0f800007e1800003801c0000fe03c0001efee00000180000;
   0x3800000100000000000100001500400000000000007c7000007c0180001f01800003000000007e0000004006000000e000000301c00000500000003e1800001000c00007c0180001e5e4000001c0000;
   0x0;
   0x0].
Definition hanzi_rows_111 : list N :=
  [0x0;
   0x0;
   0x0;
   0x0;
   0x0;
   0x0;
   0x0;
   0x30000000180000001c0000003180000000000000001c000000e00000003000000000000000001c000000000000000980000000e00000040000000000000000170000000000000000e00000;
   0x2aaa80000fffe0000007000000218c000000c000000318300003fbfe0000018000001ff8000003fe000001fff80000018000000fff000001d800000006000000f83f80000fff800003a0000003fff800003e00000;
   0x3fffffc00fffeff0000607fc00718dff0015d4ffe0031877f003fffffe000180ff0007ffffc001ffdff001fffffc000381ff001fff7fc007980ff0000f07fc007fffff001fffffc007700ff003fffffc006dfeff0;
   0x3aaaffc00e006ff002aeabfc00319cff003ffcdfe0031877f00308c1fe00abaaff00080fbfc0003a8ff001863bfc003ffcff000c037fc006180ff0001f83fc000ff87f000c303fc00e200ff0000307fc00eefeff0;
   0x3801c6000e00618003fff86000319818003ffdc300031861c0031ccc3000ffff1800187306000038018001863860007ffc18001c070e00075d41800079c060000c581c001c300600057541c00003006000cc005d0;
   0x3988c6000e00618003aab8600019b81800006383000ffee0c00188cc3000aaea18001c6306000fffe1800186386000300c18000c030e000fffe18000f2e060000c1c0c000c3006000fffe18000038060000c00180;
   0x339dc6000fffe18003801860001990180003f103001ffec1c0019ccc30001c7018000c6706000fffe18001fff86000700c18001fff0e001ffff18001e77860000c0c1c007fffc6000fffe1c000fff06001ffff180;
   0x70e06000fffe18003801860007ffc180003b00300031800c00188cc3000183818000ee6060000fc018001fff86000300c18000fff0e0000180180078e3e60000c0e0c003fffc6000060618000fff06000ffff180;
   0xe0706000070618000000060007ffc180003980300031801c001dccc3000381c180007ee060001ff018001d77860007ffc180000000e0004184180031c1c60000c061c001c180600026061c000e18060015d55180;
   0x1c0386000030618001fff060007aac18003ffbe3000318f8c000c8ce30007fee18000fff060003bb818001863860003ffc180000000e000e38e18000000060007fbf0c000c183fc00e60618000e18060000c60180;
   0x1861ffc000706ff001fff3fc00710cff003fffffc00318fff000dffffc007fffff001fff3fc0073bcff001863bfc00700cff001fff7fc00739cff000fff3fc007fbf7f001fffbfc0066fe7f000e1c3fc000c70ff0;
   0x860bfc00fffeff0000e03fc00718cff00038bafc00318eff0018bfefc00e0beff000eaa3fc00e38eff001aebbfc00300cff001fff3fc003398ff000fff3fc000c317f000fffae80066fe7f007fffffc000c66ff0;
   0x6006001fffe180000e006000718c1800038383001fffe1c0019cf0300040001800078006000c38718001fff860007ffc180018030e0003f9818000700060000c301c00155d0600076c61c007fffc60000c76180;
   0x3fffc60000306180000e606000718c1800038383001ffee0c00388f03000198c180001c0060000ffe18000aea860003ffc180018030e0001fb818000380060000c3b0c00000e0600036c618002aaa860000ce6180;
   0x3fffc60000706180000e706000718c180017d783000318e1c0031cf0300019dc180000e0060000ffc180000e0060007ffc18001fff0e0000fc0180001c0060000c1b1c001556060003ec61c000000060000df6180;
   0xf806000030618001fe606000718c18003fff83000318e0c00308f83000198c18000060060000c60180000e006000618c18001fff0e0000fe0180000c0060000c1b0c001fff060001ec618000fff060000866180;
   0x1fc060007fff18001fe706000718c18007fff8300031ce1c0031cd8300019dc18003fffc60005c7018003fff86000f38c180018030e0000df018000fff060000c1f1c001fff7e0001cc61c001fff060001c76180;
   0x3ec260007ffe980000e766000718c180003838300031ce0c00308d83000198c98003fff86000fe7098003fffa60003b0c980018037e0001db898000fff26000ffce0c001807fe0000cc698000eab760001866f80;
   0x76e7e000603ff80000e77e00071cdf80003839f00031ce7c0031cddf00019cdf80000607e000fe71f8003ffffe0001f0df8001fff7f000399df8000c037e000ffce7c001807dfe008efefc001c077f0001876fe0;
   0xe673f800603bfe0000ef3f80072ccfe0003839f80030ee7e003e8cff800998cfe0000603f800e030fe0000e03f8000e0c7e001fff1fe00398efe000c033f800000efe001806e3e018f7efe000c031fe0198663f8;
   0x1c63c7e00603b1f8000ef87e000fe01f800383c7e00305f1f801dcc77e0199ce1f80006007e0060381f8000e007e001d0c1f00180301c00f1871f800c0307e00003f1f801806404019f871f801c0701c019f76070;
   0x3861e0c00603b830000f980c003e780300038fe0c00003b8300008c30e0099860300006000c006018030000e000c0038ec0300180300001e18303000c0300c0000fb03001aae0000099c303000c0300001b3fe000;
   0x3060600007ff980007ff9c0000f83e00007ffc70001fff1c00001cd20001d9c70000007400000601c00007fffe0001f1fc0000180300000c18000000fff00001fff3c0001ffe00000f8f300001fff00001b1ff800;
   0x60000007ff9c0003fe0e0000e00f80003ff830000ffc0c000008f80000f983c000007c000007e0f00007fffe0000e03e00001f030000001f800000fff00000ff81e0001aae00000f06380000fff00000e00f800;
   0x6000000603980003f4040000c00300001540200000000000001c700000700180000078000003e060000000000000000400001f030000001f000000c030000054004000180600000600100001c0700000e000000;
   0x0;
   0x0;
   0x0;
   0x0;
   0x0;
   0x0;
   0x0;
   0x0;
   0x0;
   0x700000000000000000000000000000000307000000670000000600000001c0000000700000000000000007000000030000000e0e000000000000000c00000001c00000001c00000000000000007000000270000;
   0x6000000fff7ff002aa8aa800ffe7ff0003030000006600000006000000018000000060000003ffe0000006000000038000000e0e000003ffe000000e00000001800000000c00000000000000003000000770000;
   0xe07fc00fff7ff003ffdffc00fff7ff0003073fc000671ff001c673fc000380ff0000607fc003fffff0000603fc00ffffff000e0e7fc007fffff0000e03fc007fc0ff0001fe3fc00ffffff001fe71fc000671ff0;
   0x3fffbfc00060060002ba8ba8000600600003033fc000660ff001c633fc00fffeff002aeabfc003000ff003fffffc00fffeff000e0e3fc00300eff003fffbfc007f80ff0003fe3fc00ffffff003fe31fc000e38ff0;
   0x3fff860000600700001801800006007000030707000567418000c7306000ffff18003fffc6000300018003fffc7000018018003fff86000700e18003fff8600001c0180003d70600001c018003d7f070000438180;
   0x60007fe7fe000ba8ba8007fe3fe00030306000fe7e1800066386000e00218003aab860003ffc18003000c6000018018003fff860003ffe18000060060002baa180001838600000e0180038ff03000fff8180;
   0x60007ff7fe001ffdff8007fe7fe003fffe7000fe7f18000771c6000e00718003001c60003ffc18003001c70007ffc18000e0e060007ffe180001f006000fffe180001c1c60000070180018c707000fffc180;
   0x1fff06000060060000ba8ba800060060003fffe60000660180001f006000fffa1800300186000300018002003860007ffc18000e0e06000300e180007f806000eaae18000fffe6000c0fc180018c303000061e180;
   0x1fff0600006047000018018000574575000707070000670180007f8060001ffc18000fff06000300018001fd70700000e018000ffe06000700e18001f1f06000e1c618001fffc6000f0df180019c707000061f180;
   0x1c0306000fff7ff00018018000ffe7ff0007831fc00066018000f1e06000180818000ffe06000fffe18001fbf06000aaea18000ffe060003aae18003c0f860007e8618000c60060007987980019aba3000061f180;
   0x1c073fc00fff7ff003ffdffc00ffffff0007879fc00fe7fff001e0fffc00181cff0000003fc00ffffff0019ffbfc01ffffff000e0e3fc007ffeff001001bfc001ffe7f001c701fc001dc57f001dbfffc007fffff0;
   0x1c033fc00000000003ffdffc00003e00000f8f8e800fe7eff003863bfc001808ff0000003fc00abaaff0018b9bfc00aebaff000e0e3fc002aaaff003fffffc0000be7f002eea9fc001fee7f000dabbfc007ff8ff0;
   0x1c07060003ffffc0000140100001f700000fdf87000067018001060860001ffc18000000060004184180019d9c70001db818000ffe06000070e18007fffc6000c1c618007fffc60001f7c18001d8707000061c180;
   0x1fff060003ffffc0000180300003cbe0000ffb86000066018000860060001ff818003fff86000e18e18001898c6000399c18000ffe06000060e18000c00060007f8618003fffc60003b1e18000f83030000618180;
   0x1fff0600038181c001c1c070001f9df8001fd7c7000067018001c7306000001c18003fffc6000799c180019dbe70007ffe18000e0e06000470e18001cff060007f0618001c7006000379f18000f1f67000061c180;
   0xe00600038181c001f1bff000fe383e001b63c6000066018001c63060000008180000e0060001fb81800189f66000fff718000e0e06000f6fe18000cff06000000618000c600600037b318000f3b630002eb8180;
   0x4e6060003d5d5c0007dfff000f0701f001b6777001fe7f18000e73860007ffc180004e0060000fd018001fde07000d5d318007fffc60007ffe18001cd7060000fe718001fff8600077f118000737670007ffc180;
   0xeee060003ffffc0000f8ab0000ffffa0033337e000fe7f98000671a60003ff898000ee6060000fe198001e8c26000018098003fffe60000eae18000cc3260000ee698000fffa60006670180007337b0002eb8980;
   0x1ce77e0003ffffc00003c070000ffff80073377fe000670f80007f1fe000701df8000ce77e0001df1f80005cc7f00055d5f80055557e000070fd8001cc37e0000c67f8001d753e000673cf80007777f000061df80;
   0x18e3ff80000001c0030180300007000000633b3be000660fe0000f8bf8003008fe001ce3bf80039bcfe00008e3f8007ffefe00031c3f800060ff8000ceb3f8000c63fe0008603f800e71efe000fe33fe000618fe0;
   0x18e38fe00c0001c00301c070000780000023171040006701f8001dc07e00701c1f8038e1c7c00f19f1f8071c707e007ffe1f800f1e07e01c70e7f801cff07e01cc631f00007007e01c707bf001dc731c00061c1f8;
   0x38e1c0c00e0001c00301be30000380000003030000006600300078e00c003008030038e0e0c00e1870300308300c00018003001e0f00c00c68e0f800c0300c008c738300006000c00830303001cc318000fff8030;
   0x30f4c0000fffffc003fffff80001c00000030700000067000001f07c00007ffc000030e0e0000c180000031c3c0000018000003c0780000d7fe01001c0300000cc39c00000740000003d0000038f700001fffc000].
Definition hanzi_rows_112 : list N :=
  [0x7c000007ffff8001ff83f80000e00000030300000066000003e03e00003ff8000000fc0000001f000003f81e0000018000003801c0000fe7e00000f8000000fc3dc000003e0000001f800003073c00000018000;
   0x7c000001ffff00000000100000700000030700000067000001000c0000701c000000780000001f000001f00c0000018000001000c00007c0600000f8000000781c8000001e0000000f000001023c0000001c000;
   0x0;
   0x0;
   0x0;
   0x0;
   0x0;
   0x0;
   0x0;
   0x0;
   0x0;
   0x180000000600000001800000070c00000000c000010460000030000000000c000000000000000600000001800000000e000000000000000000000001c00000006000000000000000000000003000000;
   0x2aa8aa8006186000000600000001800000020c00000ff0c000038e7000007ffa00000fde000007f7f000000600000001800000000e000007ffc00000ffe0000001800000006000000fffe00003fff800007ff8000;
   0x3ffdffc006186ff0000707fc0003e0ff80070c7fc00ff0c7f001c633fc001fff55000fc7dfe007f7f7f8000707fc000180ff000ffe1fc007ffdff001fff7fc000180ff0015753fc00ffffff003fffffc001fffff0;
   0x2ba8ba8006186ff001fff7fc0007f0ff803fffffc00e30c7f000e73bfc0070c2ff000cc1dfe0060637f800fffbfc00ffffff0007fe1fc00600dff0008067fc00fffeff003fffbfc00c30eff003001bfc00018aff0;
   0x1801c00061861c001fff7fc001e7c1c003fffd7400e30c1c000731d740030ceff000cc1c700060631c001fff86000ffff5d00060707000600c18001c0757400ffff18001fff86000c30f5d0037fd860000180180;
   0x1801800061861800180306000381e1800020c06000e32e8c000738c6000388c18000cc0c300060630c000c0386000018018000603020007ffc18000ffe06000e0021800003006000c30e180037fd860007ffe180;
   0x1ffdff8007ffe1c001d5706001f55f9c00076c06000e37fdc000e71c60001ddc18000cc5c700060631c001c03860000180180007ff070007ffc18001fff06000e00718001fff06000d75e18003001860007ffe180;
   0x1ff8ba8007ffe18001fff06000dfff9800026806000eb2e8c000c6386000ffff18000cefc300060630c000fff860007ffe180007ff02000600c1800080606000fffa18001fff06000fffe18003001860006186180;
   0x1801c00000001c001d57060001ffd1c00157506000ff0c1c001ce706000ffff18005c6fc70007f7f1c001fff860007ffe1800070007000600c18001fff060001ffc1800003806000fffe180037fd860006186180;
   0x18018000aaaa1800180306000200018001fff06000ff0c0c0039c606000003018007c60c30007f7f0c000c0386000698618003fffc20007ffcff000ffe0600000001800001806000000e180037fd860006186ba0;
   0x3fffff401ffff7f001fff3fc0064ff7f001fff3fc00e30c7f0031e63fc000030ff000071dfc0000037f001d57bfc007d96ff007fffdfc007ffcff0000007fc003ffcff007fffdfc007ffeff003001bfc007ffeff0;
   0x3fffffc00ffff7f001fff3fc0066ff7f0018633fc00e30c7f0000603fc00ffffff000030dfc0000037f000fffbfc006db6ff0000381fc000398180000003fc003ffcff003fffdfc007ffeff0000003fc007ffefe0;
   0x101c5c0001c01c0015550600066c31c001c6306000e35d1c003fff86000ffff5d003fffc7000ffff1c001fff0600065b61800181f07000039c18003fff86000300c1800070e06000607e18001fff060000180180;
   0x3838000000c0180000000600066c31800186306000e37f8c003fff86000003818003fefc3000ffbf0c0008600600065a618003e3fc2000abac18003fff86000300c18000e0606000603e18001aab060000180180;
   0x1cf00000fffe1c003fff8600066ff1c001c6306000ff7f9c00390186000155818001861c700063571c001ce5460007ffe18000f71c7000fffe180000e0060003ffc18001fff860007ff618001c0706000ffff180;
   0xec62000fffe18003fff8600066ff18003fffc6000ff618c003b09860003ff8180018c0c300063030c000cef860007ffe180003fc020002bae180000e6060003ffc18003fffc60007ff618001fff06000fffe180;
   0x77067000c6661c0000604600066c31c007fffc6000e3719c0039fd86000357c18001cc1c700077031c0007efc600007e0180006ef070000387f80015e706000300c18007e07e6000607618001fff06000e587d80;
   0xe3863000c666180000607600066eb180000f066000e3618c0038f1be000183c98000d88c3000362b0c0003ee660000ff0f80006e3e20000383fc001fe366000300c98002606e60006036d800180326000ed82f80;
   0x1c1e63000c666fc001fff7f00066ff7c0001f07f000e371fc0039f1ff0001c7df8000f9fff0003e7f7c0003667e0001db8fe000ef1df0007ffc3f801fe77f0003ffdf80007fe3e0007ff7fc001d577e000fd877f0;
   0x1c0fe3800c666fe001fff1fe0066c3fe0003b83fe00e3e1fe003bb98fe000eeefe00078fff8001c2b7e0007673f800399c3f800cfc1f8007ffc078000e71fe003ffcfe0007fe3f8007ff37f801fff1f800fffa0f8;
   0x3987e1c00c6661f00006003c0064c31f80071c03e00e1ff9f803f1f81c0007c71f800781e7e001c031f800e6387e00719e07001dcf07e000380010000ef83c0000001f80060607e0060730f001c0707c00f5ff010;
   0x7180f8800c666030000600000060c303800f0e00000e1ff83003805800000f8303000fc0c04003e0303803c61c0c00e187800038c3c0e000380000000fd8000000000300060600c0060338000180300c00e002000;
   0x11c07f800c66600007fffc000060d300001e07c0000e1c180003fff800007ff3c0003df1c000077c300003861e0000c183800070e1f0001ffff80007ff9c0000ffff000007fe000007ff180001fff00000e007000;
   0x1ffef800f66600003fffc00007cf300003803e0000f8e080003fff80000f87de0003878c0000e1e30000107c400000180000020fc20000ffff80003ff0e0000ffff000007fe000007ff1c0001fff00000f802000;
   0xffc1800766600000000000007c73000030004000078400000380180000e01cc0003011c0000c0c30000007c0000001800000007c00001555500003fc04000000000000060600000607080001c07000007807000;
   0x0;
   0x0;
   0x0;
   0x0;
   0x0;
   0x0;
   0x0;
   0x0;
   0x0;
   0x18000000000000000070000000c0c000000c100000000000000070000000180000000e000000183800001c0000000200000000703000000180000000e00000001c000000038010000000000000600000001c0000;
   0x18fe00007f7f00000060000000e0c000000c1800007f7e00000060000000180000038e380000183800001ffe800007f800000070300000018000000060000000180000000300f800aaaa00000060000000180000;
   0x18fffe007f7fff003fffbfc000e0c7f8000c39fe007f7fff003fffffc0055d4ff0038e3bfc00ffffff0007ff954007fffff0003073fc0055d4ff0000703fc000180ff003ffffe000ffffff0015753fc000380ff0;
   0x3f8c7fe005b6bff003fffbfc0006ffff8000e31fe006262ff003fffffc007ffeff0038e3bfc00fffeff001822bfc0020feff00038e3fc00fffeff001fffbfc00fffeff003fffe8000aeeaff003fffbfc00fffeff0;
   0x1fcc670005b7b1c00070c0600006ff9c007fe553000676718003fffd74007ffe5d0038e397400183818001c733fc0070c41c003fffe7000fffe18001fff86000ffff1800078701c00666418003fff87000ffff180;
   0x18cc630005b6b1800030c06000fe0c0c003feff30006e6c18001b0b0600060c618003fff860001ab818000e6306000318e18003fffe600000c01800186186000030618000fff83c00666e1800003006000c006180;
   0x1dec670005b7b1c007fffc6001ff0c1c00007ff3000747018001dfb060006fc618003fff860001ff81800066706000318c1c000030070003ffc18001c6186000175718001fffc7000766c18001fff07000cc07180;
   0xdec630004b6b18003fffc6000637f8c000030c30007e78180018e3060006ee618000082060000ba018003fffc6000198c18000038060003ffc18001aeb860003ffe18000e2088000366c18001fff06000cc76180;
   0xdffe70005f6f1c00000006000637f9c001ff0c30006f7f18001df306000667e180000c7060007ffc18003fffc60001c1c1c001fffc7000300c18001fff860007ff7180006319c000367c18000018070003838180;
   0x72fe30004b6f18000aaa06000638c0c003fe0c3000636218001bbb0600063d6180001c3060007ffc1800301cc60007ffc18001fffc60003ffc18001861860002306180006318e000166818002aba86000339c180;
   0x7031fc001c1c7f001fff3fc0077cc7f00374fdfc0061c07f001d0f1fc006786ff003fff1fc00638cff00301cffc007ffe7f0000181fc003ffcff001c71bfc00ffffff00263186000ffff7f007fffdfc0071ce7f0;
   0x7030fc003e3e7f0018033fc00668c3f00330fcfc0003e07f001fff1fc006ee6ff003fff9fc00638cff001fffbfc0001867f0000181fc00300cff001861bfc00fffeff00263183000ffff7f002fae9fc0063c67f0;
   0xf836700077671c001d570600076ffdc00334cc30000f7018001fff060006c76180001c3c60007ffc18001fff9740001871c007fffe70003ffc18001fff86000730718003e31e38000000180007070700007e0180;
   0x1dcf63000e3a398001fff0600036ffcc00036ec30003e3818000060060006abe180000c3e60007ffc1800000c06000018218003fffe60003aac18001fff860002bae18003e30f9800000018000ffb860001e70180;
   0x38ff6700041611c001c030600036071c00036cc3001f99f18001575060007ffe18003ffff600003801800000c06001ffff1c00000e07000300c18000670060007fff18000000300007ffc18003cffc70007c3c180;
   0x3ff363000006018001803060003c030c003f6ec3000e1c718003fff860002aaa18003fff66000fffe18000ffe06000ffff18000006060003ffc1800067806000030318001fffff0003ffc18003060e6000f01e180;
   0x3ff367001ffff9c001fff060003c7f1c003f6e43000c47118003fffc60000180180001c306000fffe18000ffe0600055d51c001fff07000355c18000e7806000030718001fffff000700c1800357547000ffff980;
   0x38e363000baba98000aea260001c7f0c00036e63000063c18003999a60002332d80000c326000038098000e0e260006182d8001fffb6000300cf8001a78260007ffb9800000600000300c98001fffa6000bffb980;
   0x38e37f0001c18fc0000607e0001c637c0003767f00033c878003b1dff0007736fc003fff3f0000380f800071f7e0006186fc0000c1ff001fffffc001f7c7e0007ffbf8000557540007ffcf8001fffbf0003018f80].
Definition hanzi_rows_113 : list N :=
  [0x38e37f8000e3cfe003fffff8003c637e00037e7f80038e0fe003bed9fe0066367f803fff3fe007ffefe0003bb9f80061867e0000c1df800ffff3e003fee3f800601bfe0007fffe0003ffcfe0003f83f8003018fe0;
   0x38ff67e0007fc1f807fffc7c003e639f8003f677e001c7c1f003ffdc1c00e837070001c307c007ffc1f8001f187e0061861f0000c0f7e001c700f00176707e0070199f8000e600000700c1f80077c07e0030181f8;
   0x38fff0e000fe00300006000c007661838003f630e000f8803003e0d80000d833000000c3000000380030003e1c0c006186030000c078c003c380300206380c006019830001c600000300c03001e6700c003018030;
   0x3fe7f00007ffc0000006000000e7f5c0007fbf3000003f000003801c0001dff380007fff00000ffff00001ffce00007ffe00003ffff0000701e00007561c00007ff9c0003fffffc007ffc00001c63c00003ff8000;
   0x3fe030000f83f8000006000000c3bce0003f1fb800000fe00003f01800000ff100003fff00000ffff00003e3f600007ffe00003fff80000e00f00003fe0e00007ff8c0003fffffc003ffc00000061800003ff8000;
   0x38e00000060070000006000000c19c4000141390000001c00001f01c000007c00000000300000555500003c0760000600000000000000004003000015404000070188000155555400700c00000060000003018000;
   0x0;
   0x0;
   0x0;
   0x0;
   0x0;
   0x0;
   0x0;
   0x0;
   0x0;
   0x30c0000001c00000064640000000000000000100006040000000000000001c00000030700000000000000070000000018000000c0000000c6600000f0000000000000000198000001c3000000471000000300000;
   0x30c000000180000006c6c00007ffe00000fbfff00060c000002a9fe0000018000000383000001ff800000030000000038000001c0aa8000c6600001ffe800007ffe00003999800000c3000001c638000023fe000;
   0x3fffffc00ffffff803fdfdfc007fffff000fffc700031c37f803fdfffc00ffffff00019fffe001ff8ff001ff03fc00ff787f803ffdff8000d777f8001ffffc007ffeff001999bfc005d74ff000e771fe00777eff0;
   0x3fffffc00ffffff003fffffc000180ff000c30c300039837f8006021fc00ffffff00019fffe001818ff000ab03fc007f1e7f803ffd838000fffff800c62bfc00600eff000d9b3fc007ffeff0006661fe001e60ff0;
   0x30c0700000001c00066667001ffff5d000fbfdf001fff71c000607070000000ff000198670001c185d00157547000717f1c000c198380007ff8c000c67060007ffe18000d9b070007fff18001777470004e76180;
   0xaaa860007f7e0c003fffe2000ffff18000fb0df000fff60c000602060007ffe18002b98630001ff818003fffc600037ff0c000c31ff800fe660c000e66060007ffe18003fffc60000c3018003fffc3000ec3e180;
   0x1fff8700077761c007fffe7001c18318000c3fc300157561c003fdfc70007ffe1c007fdfe70001ff81c003d75c70003f631c005775ff801fe670c00076e06000700e18003fffc70001c3018003fffc70007c3c180;
   0x18b98600063620c000d8d82000fdbb18000ebddf00003800c003f9fc600062a618003fdfe3000aa2a18001a30c60001c638c003ffe0380066030c003fffc60007ffe18000e0606000ffff180001fc030003ab8180;
   0x19f9870007f7e1c000dbd870003dfc18000fbddf000e3c01c0006070700067f61c0019d867000ff7f1c001fffc70003c77dc0055d5ff80067ff0c003fffc60007ffe1800060e07000ffff1800077f070007ffc180;
   0x1abb860007f7e0c006dbcc2000018018000c3fc300076f78c0006021fc006436180018d863000c2631800083ec60007f3c0c000181ff80067ff8c0003f80600001801800070c06000018018001e6783000faae180;
   0x1fff9fc005f757f007cdeffc007dfcff000c30c70003e77ff007fffffc0067f6ff0019ffffc00c7637f001ff0dfc00e7dc7f003ffd87c0067c1ff00077c3fc01ffffff003fffdfc007ffeff007c71ffc01e007ff0;
   0xe61fc007fff7f0038407fc000180ff003fffffc001f067f003fffee8006006ff0009ebafc00c2637f001fe0dfc00418e7f003ffd82c0067c1bf000e6e3fc00ffffff003fffdfc007ffeff001862dfc00bfff7f0;
   0x1c7070005f751c001fff87001ffff18003fffffc001dc61c000438070007ffe5d001de307000ff7f1c001555c700011c7dc0001c1d7e007ddfcc001e670600000001800006007000718618000c07070003ffc180;
   0x3fff060002eba0c000fff82000ffff1800380000c003ce60c000e78060007ffe18000daea3000ffff18003ffec600018cd8c000181fe4003cdf8c003863860003ffc1800006006000618618002e8b03000300c180;
   0x3fffc70007ffe1c001d558700055d518003fffffc007e761c0007f58700015541c000d3fe700001c01c000070c70001ddc1c0001c0000003cd98c003fffe60003ffc18001fff870007ffe18003fff87000301c180;
   0xc3c60000e300c000c618200000c018002ffffe8006f060c000f4d860003ffc18000f0183000abaa18001878c60000cd80c001fffff0003cd98c000fffc6000300c18001fff860007ffe18000c3b830003aac180;
   0x1ffff7000ffff9c001c7187000fffe1800055755000db861c001f8d97000300c1c00070187001ffff1c001cdfc7000ffff1c001fffff0003cd98c001c6346000300c1800006007000718618000cd9c70003ffc180;
   0x1fff66000ffff8c000c6182000ffff9800000600000d8e60c0019ccbe0003ffcf800061f83000abeaf80007f2f6000ffff0c0000060000018d9ec000c637e0003ffc98003fffe6000618698000cd9e30002aa8980;
   0x1c33f00063f07c001c71bf000e667fc0007fffe0001c7e7c0018fccfc003ffcfc00071f9f00007f0ff0007dcff00007f07c000557540003cdffc001fff7fc003ffdf8007fffff0007ffef8000cdf7f0001c38f80;
   0x1fff3f800733c7e000c31bf800e666ff8007fffe0000c367e003e3ce3c00300c3f800f199f8000fb83f800defff8000ef87e000ffffe0003cebbf800fff0fe000188fe0000f03f8007ffefe003fce1f8000c30fe0;
   0x1fff07e003f1fdf8000b807c00e6660f0000e6000000f871f80361e404003ffc07000f99c7e003ddc07001df367e001ddc1f8005d7540007e6187001c6301c003d9c1f8001f807e001c301f807fc607e000c701f8;
   0xc300c001e1b838003bc00c00e666000001c600000071f8380360f800002aa800001d98c0e00f18f000039b860c00f8cf8380038600000666000000c6300000718e0300039e00c003c3803000c0300e000e60030;
   0x7fff000007df800001f1fc0000e66600003fffffc01fff9c00007ffe0001ffff80003ddce0001e1c78000718f70001f1c7c0007fffffc00e76000001fff00000e18700001f0f00000781e00000c03c0000ffff000;
   0x3fff00000f0fc00003c03e0000f66600003fffffc00ffe0800003f8c0000ffff800038ef700008181000021f33800080c080003fffffc01c3fc00000fff00000c1f380003c03e0000e00f80000c00e0000ffff000;
   0x300000c01c00001001c0000766600001555554007f00800000000000155550000104f3000001c0000000f01000001c00000155555400813c00001c030000041f100003000c0000400300000c00400000000000;
   0x0;
   0x0;
   0x0;
   0x0;
   0x0;
   0x0;
   0x0;
   0x0;
   0x0;
   0x30000070000000001c30003000c00000e0700000000000000001c0000006000000060000000010000000038000000000000060200000000000010001c0000c400c00180000000400060000383000000c00000;
   0x2b00000603fe000000c3000382aea0000e070000000aaa8000001800000070e0000060380000030c00000018000aaa0000000e070000000000003f801800018f80c003f83ffc007e00600003b3fa0001fa0000;
   0x3ffff00007ff7fe003ffce70001f3fff003fffffc01ffffff803ffc18000fff3bf001fff07800fffb1c003ffe1c000fff7ff0001c078000ffffff001fffffc00187f1c000ffbffc007ff0700003b1ff8001fffd00;
   0x3ff8300003ae206003ffc6200003c0c0002aeafa800ffffff803fffffc00fff1f8001fff9e000fffb98003ffe3c000aae7fe0003801c000ffffff000dfbffc00385b18000cb82600033f7ff0003b19b8000ebff80;
   0x6fff80038c7fe000073ffc0061dfff0000e07000000c1d8000033ffc0001c1f0001c71dc00000e1980000387e00000c007000f038f0000001c0000d9800000ff5bff000dd8760003377ff003ff9998000e1c780;
   0x6fff800baebfe000033bac00780aaa0007fffe00000c0980000308100000c7b8000c30e000000e2aa000038e600000c606003e2187c000001c0000d9bef800ff5bff000c9bffc003331f8003ff9998000e0c380;
   0x67d9800fff806000033dbc001e1ffe0007ffff00000cfff000031c300000cf1f000e78c00000067ff000019c700000c717001c71e1c000001c0000d9bffc00c65b67000ddb77c0033719c00039d998000c1c380;
   0xae5ff8000602ae000ff35ac000f9ffe000630c60003fcfff000ff0c30003fc4370000f8380003fe7ff000ffb8b8001fc33e0000e0700000000c0000d9b2c800665b66000c9b26c0033330e00038d998000c0c380;
   0xfe55d8000707fe000ff37ec0041dd56000630c70003fccdb000ff0c70003fc0300001de3f0003fe19c000ffb1dc001fc3770001fd3800007ffc0000d9bffc00665b76000ddb76c0033775700038d998000c1c380;
   0xee7f1800fff61e000eb33ec00e01ffe0007fffe0003acc9b000eb0e60003adfff000f8f8fc003ae198000eb838c0018e3660003fffc00003ffe000099bef80066db36000c9baec003337fb802ba9998000c0c380;
   0xc6555800fff61f000c335dc007c071c0005555500030ccdb000c37ffe0030dfff003f03e1c0038619c000e183040018e3e7000717fc0000700e0000d997740075db77000ddbffc00337151003ffd998000c1c180;
   0xc67ff8000607fb000c3bffc001f1b18003fffffc0030eebb000c33ffe0032c098001800e0000386198000e180000018e1c6000200000000300e000099bffc00ffdbff00089800000333000003fff998000c0c380;
   0xde1558000707fb000cf95540007ffff003fffffc0033efff000cf55540033c0dc003fffffc0039e5dd000e79ff8001b61c7003fffffc000706e0001d9866001ffdbff001dd9ff8003337ff0007c3198001c1c180;
   0xde3fd800000000000cf80000000c0ff00300000c0033eaaa000cf80000032c0ce003fffffc003b6fff000ed9ff8001b61c6003fffffc00030e6000089bff80018cb18000899ff8002337ff000fc319800180c180;
   0xd730d800fffffe000dd9ff800ffffff0037ffffc00376060000df95500036cfff000000300003b6fff000eddc00001b63c70000001c000071c700019dbffc0018df180018d80000073355d000cc3198001c0c180].
Definition hanzi_rows_114 : list N :=
  [0xf23fd800fffffe000d99ff800ffffff0033fffec00366060000db9ff80036cfff800000380003b6188000ed8e00001a63e6000000180000338600018986600018cb3a0018d80000063300c001ce319800188c180;
   0xf7001c000000e0000d99818000000c000000070000366fff000d99ff80036cccf8001fff80003f719c000fdc600001e67770001fffc0000770700018dfffc00ffcd7f001bdfffc0067315c001877d980018cc1c0;
   0xf37fe80003ffe0000d99ab80002aae00000fff0000366fff000d99818003ccccc0000eab80003e618c000f98700001e66360001fffc000037070001acaae800ffadba001acaba8006f33fc00383ed980038ce0c0;
   0xc37d7c0007ffe0000c19ff80007ffe00001fff8000346060000d198180034cccc0001c3dc0003e718c000f9c370001c663f0001c1cc001c70070001edfb700019fd9c001eccdb0006f335400101cd980031c61c0;
   0x2c3692c00030e60002c19818000306600000c3b8000b06060002c1981800b0eccc0000c79c000b8318c002e0c3e00098601e003183ce000c300300036c9f780018ad8c003eecdb800e99b0000003d9980031870e0;
   0x6c37d7c01c77c70006c1d81800471f700011df18001b07f60006c1981801b06ccc0031de1c001b8718e006e1c1e0019870170031cf0e000c7003000366ce7e0019e59c00366d99800d99b00000079ddc0073f70e0;
   0x6ff7fac00c33030002cedff800c338300030c81c001b7fffa002d99ff800b7eecc0030c80e000bfb186002ecc180019f62ae00318c06000c37e380037edbe40019fe8c0037ef98800df9b800001e1fcc0063ff860;
   0x7ffe67c00d77ffc007dfdff801c71d380031df5e001f7f9ff007dfdff801f7f6cc003fc7ff000f7f987007dfc78001fff7ff003fdfff000ff7ffc007fed3f00019ffc60075f798c01dfdd80001fc37cc00e71f870;
   0x383fe2600ff7ffc003c3d81800ff1ffc003fcffe000f0f003003c7dab800f0e0c0003fc7ff000f0f983003c3e70000f8f2aa003f9fff000fe0bfc006c6e070001b46c7002c261e001918df8003e0308e00c601038;
   0x1001070007e005c001004000007e007c001f805e000701000001c0581800f000c000150017000501183001c0620000701000001500010007c001c002404010001940830004041e0009008f8003000004004000030;
   0x0;
   0x0;
   0x0;
   0x0;
   0x0;
   0x0;
   0x0;
   0x0;
   0x0;
   0x7000000018000000000000000180000000000000001c00000000000000000000000c60000000180000000000000000000000300000000000000001c018000001800001c1c40000060060000760000000600600;
   0x6000000018000000000000000180000000000000003800003fffffc000ffff80003e600000001800000aaaaa000000000000387ffc007ffc3000018018000001860000c1cfe000060060000760000000600600;
   0x700000001800000fffff000001800001fffff8007fffff003fffffc001ffffc000f8600000001c00000fffff0007ffffc0003b7ffc007ffc760001d819000001870001c1c7fc00060060001e60000000600600;
   0x600000001800000fffff000001800001fffff8007ffffe000027000000f000000060600000000e00000eaeab0003ffff80003b2ba800630c360001981b000001830000c1c0fc00ffffff000860000000600600;
   0xfffff0007ffffc000c0603000001800001c0701800600c070000f7c000007c1c0003fffffc007ffffc000c060700070181c0003b018000631c760001dc1b800001830001c1c1c000ffffff003fffffc000600600;
   0xfffff0007ffffe000c06030003ffffe00180601800643c860003e6f000000ffe0003fffffc003ffff8000c0603000301818003ffaba800630ebe00018c1b8007ffff8003fff0c000060060003fffffc00ffffff0;
   0xe070300070180e000c06030007ffffc001c07018005e71f5001f867e000007f0000000600000755d5c000c060700070181c003ffbffc007fffff003ffdff8007ffffc007fff1c00007556000006000000ffffff0;
   0xe060300070180e000c06030003abaae001806018003b21b8003e060fc002bfaa800000600000301818000fffff00030181800039b188007ffebb003ffdff8002ababc000c1c0c00007ffe00000e603000aeaaea0;
   0xe070300070180e000fffff00070180e001c070180073019c00380603c003ffffc000fffff00070181c000fffff0007ffffc00039f19c00631c730015de19c0000180e001c1dffe000755600000e7070000600600;
   0xe06030007abaae000fffff00030180e0018060180063ff8e000aaaaa0003abaac000fffff000301818000c06030003ffff800038fba800630c3380018618c0000180e000c1dffe000600600000e6030000600600;
   0xfffff0007ffffe000c060300070180e001c070180001ff04000fffff00030181c000c06070007ffffc000c0607000755d5c000383ffc007ffc710001c718c00001807001c1c1c00007ffe00000ffffc000600600;
   0xfffff0007abaae000c060300030180e001fffff800000000000eaeab00030180c000c06030003ffff8000c0603000301818003ff3188007ffeba00018218c00001802000c1c0c00007ffe00000ffffc000600600;
   0xe070300070180e000c060300070180e001fffff8001ffff8000c06070003ffffc000d575700070181c000fffff00070181c003ff319c000183fe0001c018000001800001c1c1c0000600600000c7070000600600;
   0xe060300070180e000c06030003ffffe001aaeab8001ffff8000c06030003ffffc000fffff000301818000fffff000301818000383ba8000183fe000ba9ff8003ffff8000ffc0c0000600600000c60300007ffe00;
   0xe070300070180e000fffff0007ffffe001c0701800181818000fffff00030181c000fffff00070181c000c06070007ffffc000383ffc00fffc70001ffdff8003ffff8001ffcffc00ffffff0000c70700007ffe00;
   0xeaeab0007ffffe000fffff00030180e001806018001abab8000eaeab00030180c000c06030003abab8000c06030003ffffc000382ba800fffc30000ba818000001800000c1cff800ffffff0000c7ff0000600600;
   0xfffff0007ffffe000fffff00070180e001c07018001ffff8000c060700030181c000c06070007ffffc000c06030007ffffc00038019800f5d4700001c018000001800001c1cc1c000184180001c7ff0000600600;
   0xfffff0007ffffe000c060300030180e00180601800181818000c06030003ffffc000fffff0003ffffc000fc60300030180c002ba81b800e0c03000018018000001800000c1cc1800038e18000186030000600600;
   0x30070300070180e0000060000070180e001c0701800181818000fffff0003ffffc000fffff00070181c0007c60380070180c007ffc1f00060c7f00001c018000001800001c1cc1c00070718001187070000600600;
   0x3006000000018000000060000030180e001806018001ffff8000fffff00030180c000eaeab00030180c0030060380030180e002aa80e00060e3fe00018398000001800000c1cc18000e0318002386030000600600;
   0x3007000000018000000060000070180e001c07018001ffff8000c060300030181c000c060700070180e0070060180070180e0000001e00060707f0001c3fc000001800001c1cc1c001c0398007387070000600600;
   0x300600000001800000006000003ffffe001fffff800181818000c060380030180c000c060300030180e003006018003018060000007f000603803000180ffc00001800000ffcff800000198003307ff00007ffe00;
   0x3ffe00000001800000006000007ffffe001fffff800181818000c060380030181c000d4607000701807003ffe01c00751807007ffff3c00753e00007fff1fc00ffffff001ffcffc003ffff8003707ff00007ffe00;
   0x1ffe000000018000000060000030000e001800018001f9818000fc601c003f180c000fc6030003f1803803ffe00e003f9803803fff81e007e0f00003ffe00c00ffffff000ebcc18003ffff8003e06030000600600;
   0x550000000018000000060000070000e001c00018001f18180007c0018001f181c0007c6070003f180300000000c001f180300155000c001e060000000000000000000001c1c01c00000000001c07070000600600;
   0x0;
   0x0;
   0x0;
   0x0;
   0x0;
   0x0;
   0x0;
   0x0;
   0x0;
   0x70000000380000000070000003000000000180000000300001c0000000038000000000000000380000000000000000c000001000000000000300000000000030704000000000000000000000000700000000000;
   0x300000003800000000600000038000000021c00002aa7e0003fe0000002388000007fffe0000b80000007fffe00000e000003fe0000003ffc300007fffe0003870e000000000000000000000000300000aaaa80;
   0x30ffc000381ff00155f554000781ff0000f0f00007ff1fe001fff7fc00639dff0007fffe0001f83ff0007ffff00000e7ff001ffeffc007ffc300007ffff0001c3c70001fffff8005557ff000000380001ffffc0;
   0x1ff8ff8007ff9fe003fffffc0007c1fe0001e0780007ff03e00067e7f8006399fe000606060003b83fe000606060000063fe00003eff8003ea830000606060000e1c38001fffff800fff7ff000000180001abab80;
   0x1ffccdc007ffdb7003fffffc000ee1b70007ff5e00061800e0006676dc007399b7000606060007383370006060700000773700000ecdc001e03ff00060607000070f1c00000000001fff777003ffffc00018181c0;
   0xc1ecc8000381b2000020e00001ce1b2000ffffe00061818e0006666c80033b9b20007fffe0006383320006aeae000fff32200000ecc8000703ff0006aeae000078f0e000000000000c0623003ffffc0001818180;
   0xe1fcdc000381b70000f47c0007879b7001e05fe00061c38e0006676dc003bb1b70007fffe0002383370007ffff001fff73700000ecdc0003c3330007ffff0000e1c1c000055500001c06770018000e0001ffffc0;
   0x63fcc8000381b200003ffe000f23db20008038000060c30e0006666c8001bb1b2000606060000383320006aeae000bab32200000ecc80001e3330006aeae0001c38380000fff80000c0623003800070001ffff80;
   0x773cdc01ffffb70001dffe001e71fb7000001c000070c7ce0006676dc0057d5b700060606000ffff3700060607000307f37003ffecdc00557b33000606070003870f00019fff98001c06770018000700018181c0;
   0x3e0ff800ffffb2000383c00008387b2003fffffc0070e7fe000e666c800fffdb20006aeae000ffff3200060606000387b22003ffeee800ffffff0006060600070e0e0001886198000c062300187fff8001818180;
   0x1c0ffc01ffffff000701f800001c1ff003fffffc007f7eff000c677fc00fffdff0007fffe0000383ff0007ffff000387fff00183effc00ffffff0007ffff0001555540019c6198001c07ff00187ffdc001d5d5c0].
Definition hanzi_rows_115 : list N :=
  [0x3f0cc8001801fe000ffffe00000f9fe0000e0700003e3e0e000c667f8000381fe000000000000383fe0007fffe000386ffe00183eee800ccc3330007fffe0003ffffc001886198000c07ff0018618cc001ffff80;
   0xf7ccdc001c01b7001fffff0001c79b70001c07c000001800000c676dc000381b700000000000078337000071e000018ef37001c7ecdc00cce333000000000003ffffc0019fff98001c07770018618c0001ffffc0;
   0x3e1ecc800ffffb2000800030000e01b20007aabe0000aaaa8000c626c8000381b2003fffffc000383320000e0700001cc322001c6ecc800ec63330000000000030180c0018fff98000c062300186bac000000c000;
   0x7c0fcdc01ffffb70007ffff0000701b7001fffff8001ffff8000c776dc0057d5b7003fffffc0007c3370003c07c0001dc737000c6ecdc00e673ff003fffffc0030180c0019c6198001c067700187ffc000001c000;
   0x3fffcc800baabb20007fffe0002381b2003faeafe001abab8000c636c800ffffb200000e0c00006c332000fe07e0000f8322000eeecc800e63bff003fffffc0030180c001886198000c062300186bac0003fffff0;
   0x1ffecdc001c39b70006060700061f1b70017060dc00181818001df36dc00ffffb7001e0c0c0000ec337007fe067c000787370006c6cdc00e71d770000e0300003ffffc0019c6198001c0677001c618c0003fffff0;
   0x180eff8001839ba000606060007079b20003060c0001818180019b36c8000381b2000f9c0c0000ce3320038e063c000783220007c6cc800e30e330000e0300003ffffc0018fff98000c06230018618c000300e000;
   0x1c0effc001c71ff0007ffff0003819ff0007fffc0001ffff8001b337fc000381ff0003f80c0001c73ff0000e0700000787ff000786ffc006184300000e03000030180c0019fff98001c0677001c75dc0003007000;
   0x180eaa80018e0aa0007fffe0001e01fe0003aeac0001ffff8001b33ff8000381fe0000f00c0001873fe0000e0700000fc3fe000386ff80061c0300000e03800030180c001800018000c07ff001c7ffc0003803800;
   0x1c0e01c001cc007000606070000f00070007060c000181818003f3981c000380070001f00c0003838070000e0700001de0070007c701c0070e0300000e01c00030180c001800018001c07ff001c7ffc0003803c00;
   0x180e008001800020006060600003c0020003060c000181818003ff9808000380020003c78c000701c020000e0380003cf002000ee3008007060300000e01e0003abaac001aaaab8000c0003000c000c0003801e00;
   0x1ffe000001c00000007ffff00001fc000007fffc0001ffff80077fdc0000038000001f87fe000f01e000000e01e000f87c00003c7b000007578300000e00f0003ffffc001fffff8001d6007000f50040001c007e0;
   0x1ffe000001f80000007fffe000003e000003fffc0001ffff8003618c0000038000003e00fe000e00f000000e00f000e01e0000383f800003e3c300000e0078003ffffc001fffff8000fe000000ff0000001fe03f0;
   0x1c0e000000f800000060007000000c000007000c0001800180004008000003800000100006000c004000000e007000c00400001019000001e18300000e00180030000c0018000000007c0000007f0000000fc0070;
   0x0;
   0x0;
   0x0;
   0x0;
   0x0;
   0x0;
   0x0;
   0x0;
   0x0;
   0xc0000000700000001c0000000000600000600000038000000000000000000000000000000001800000000000000041c00000060000000300000000600000000300000007000000003800000300000000700000;
   0xc0000000e00000001800000fff90600000600000030000001fffff800000000003fffbfc00038000001fbf800000618300000e00000003000000006000000003c0000003000000003c000007fa000000300000;
   0x1c0000000e000000038000007fffe6001fffff8000707ff001fffffc007ffffe003fffffc005755ff001fffbfc00271c380015d57fc00fffdff0000607fc0001ff000003387fc0000ff000007ffff0000703ff0;
   0x3ffffc000fffff0003ffffc0003000fe001fffff800ffffff001806000007ffffe00000030000fffdff0018303f800639b98003fffff800fffdfe003fffff80003c3e000061c7f80003e3c0000306ff0000303fe0;
   0x3ffffc001fffff0003ffffc0003c401e00000600000fffdc0001c061c000755d54001ffe700005d75930019b736c003dd9dc003fffecc0057d5b7003fffe5c007f55fc000e0e64c001ffff00003861c0007ffb370;
   0x2aaaac800aaaab20000000cc000fe606003fffff8000180e0000ffe0c000301800000cc630000183193001b36368001fd8fe003003ec8000781b200003064800fbffbf801fff64800fffffe000186180007ffb320;
   0xcc000000330000001dc0007c606003fffffc001dc0700003fe1c000381800001ffe7f8001c7193001e3c36c003f597e003007ecc001fc1b700157565c00e15547001fff64c00f0181f0001c6380000703370;
   0xd8000000370000000d8000e07fe0038000180038e0200000063e000181800000ffe3f800ffff93001e3e368006719b8002006ec8003ce1b2001fff6480000000000080264800001802002aeeba8000303320;
   0x1fffcd8000000360000001f0001c07fc003ffffdc00707076000007f70001c1800001cc601c01ffff93001ff736c007f9b1c003f966cc00f07db700157565c007ffffe00073864c007ffffe003fffffc000703370;
   0xfffef800ffffbe0000000f000aaa80c0003060c0007fb826003fffe7000081830000ffe018000001930018f336800fffbfe003fbe6c800600db2000038648007ffffe000e1c648007ffffe002abfaa800abab320;
   0x1fffef000ffffb40000001d000fff80c0007575c000fffc76003fff03c00001870001ffe01c007ffdff0018e03fc00cffe7e0039f77fc01ffffff007fffffc000718e0001c0f7fc000718e0000077e0000ffffff0;
   0xc0e0c0000180300000000c000eaabfe0003fffc000c0bbe600000001c002ab830002aaaffc007ffdff0000f03f8001c30000039b37f800fffffe003fffff8000e1870003837ff8000e18700000e670000fffffe0;
   0x1c0e0c0000180300000001e0006707fe0007060c0005913f60007fffc0003ff830003fffffc00639d930007bc36c00ffffff0039b3ecc007001b700555d65c001c183c00303be4c003c1d3c0007c63c0000303370;
   0xc0e0c0000180300000000f8006220670003fffc0001bb0260003fffc0003ff830000000620007ffd93000f0e36800ffffff0039b1ec8006001b2000e0c64800381f0e0002b864800701f0e000f860f0000303320;
   0x1c0e0f00001803c0000001fc004770730007fffc0001bb0760007000c000001830001fff730007ffd93007cc7f6c001870000039b7ecc0077f9b7001f5c65c00155f54001ffc64c00355754007fffffe000303370;
   0xc0e0fc0001803e0000000cc00023062000000000001bb0260003000c000001838001ffe6fc00638d93003873b68001867fe0039beec80062b9b2003ffe648001ffff8000eae648001ffff8003fffffc002bab320;
   0x1c0e0dc000180378000000c400ff77ff003fffffc001bb0760007fffc000001878001cc77fc007ffd9300033c36c001c6776003d9c6cc007719b7003ffe65c001d5d5800061f64c001d5d580007060e0007ffb370;
   0xc0e0e40001803b0000000e000fe37ff003aaeaa8001bb2260003000c000001878001ffe330007ffd9300038e368000ee666001f986c8006219b2000e166480018181800073be48001818180006060e0007ffb320;
   0x1c0e0e0000180180000000e000077070001806180001bb3f60007000c0000018fc001fff730000381ff001de03fc0007c7fe00059c7fc0077f9ff000e3f7fc001ffff80003f1ffc001ffff80007fffe0000303ff0;
   0xfce06000018018000000060000270f0001ffe1c0001bbbfe0003fffc0000019dc0018c23fa007ffdff000e783f80083c7fe00018c7f80063f9fe000e73ff8001ffff80001e07f8001ffff80007fffe0000303fe0;
   0x7ce0700001801c0000000700007f9f80007fe3c0019b987f8007fffc000001bcc001fff37c007ffd5700071e00c01c3c66600618e00c00701807000ee1c1c001818180001f000c001818180007060e0000300070;
   0xe0300001800c0000000380002db98000006fe0009b9c0f80000000000001f8e000aaa300000380030003c000800c3e66600218700800601802000e40e08001818180003f8008001818180006060e0000300020;
   0xe0380001d40e00000003c00579f1e007fffe78019b8e01003fffffc01ffff07007ffffd001fffe010001f800000cff7fe00718380400700001000e00400001ffff8001f1f004001ffff80007fffe001fffe000;
   0xe01c0001f80700000001c00ff0e0f003fff83c00fb8700003fffffc00fff803003fffff000fffe0000003f00000fe3eae003f81c00003e0000000fc0000001ffff8003c07c00001ffff80007fffe000fffe000;
   0xe0180001f80600000000800fc0c0300155401c00700600000000000000000030000001f000000000000007000007c1c00001f00800003e00000007c000000180018003001c00001800180007000e0000000000;
   0x0;
   0x0;
   0x0;
   0x0;
   0x0;
   0x0;
   0x0;
   0x0;
   0x0;
   0x1c0000000700000001c0000000700000000c000000070000000040000000700000001c0000000300000001c0000000700000000e0000000700000001c0000000300000001c0000000700000001c000000070000;
   0x18000000060000000180000000e00000000c0000000700000000e000000060000000180000000700000001c0000000600000001c0000000e0000000180000000700000001c00000007000000038000000060000;
   0x380000055f5500000180000000c00000155d5400000600000001c0000000e0000000180000000700000001c0000000600000001c0000000e0000000180000000700000001800000006000000038000000060000;
   0x3ffffc000fffff8003ffffc000fffff0003ffffc000fffff8003ffffc000fffff0003ffffc000fffff0003ffffc000fffff0003ffffc000fffff0003ffffc000fffff0003ffffc000fffff0003ffffc000fffff00;
   0x7ffffc000fffff8007ffffc001fffff0003ffffc000fffff8007ffffc001fffff0007ffffc001fffff0007ffffc001fffff0003ffffc001fffff0003ffffc000fffff0007ffffc000fffff0003ffffc001fffff00;
   0xcc0000c03b0000030c8000000320000000cc0000c03a0000000c8000000320000000c800aaaab30000000cc000000320000000c8000000320000000c8000000330000000cc000000320000030c800aaaab20;
   0x7038cc0001c03b0000030cc000060330005554cc0000e03b0001838cc000000330001550dc0001c0330000000cc0004e0330000380cc000000330000000cc000000370000100cc000030330000030cc000000330].
Definition hanzi_rows_116 : list N :=
  [0x6038d8007fff3b001fff8dc0000e0370007ffccc0001e03f0001838cc00ffff330003ff0d80000e036000fffcdc001ee0370000380dc000fff370000000dc000000360000300dc000038370000038cc000000370;
   0x7038d8007fff3f001fffcd80001c0360007ffcdc0003f03e0001818d800ffff360003ff0d80001f036001fffcd8007c60360000380d8000fff36003fffed8007ffe360000300d800055836003fff8d8007fffb60;
   0x3fffef8006aeb3e001801cd8007fffbe000600cd8000f383e0001818d8000083360003830f80007b83e000c30cf80030603e000c388f80003803e003fffef8007ffe3e0000300f8000ff83e003fffcf800ffffbe0;
   0x3ffffd00071c33e001c00ed8007fffb40006c0cd8001e1e3e0001c18d8000183340003830d0000f1c34001c30cd000fffff4001c39cd00001f03400000c0d000555e34001c30cd0000ffc34000000cd0007d55340;
   0x6038c00030c3380018ffec00000c0300006c3cc000780f380001818c000018330000b838c0003c0e30000c30cc000ffffb0000e38cc00000783000000e0c000000e30001830cc000060e30000000ec0001e00300;
   0x7038c00001c318001cfffc00000c030000667cc001fffff80001c18c0007ffb30003f01ec001f807f0001c30cc000fffff0000638cc000ffffb000000e0c000000e30001c30cc0000707300003fffc0000f00300;
   0x6038e0003fff38000cc1be00000c03800066eee0004ffff80003c38e0007ffb38003e00ee000e80bb8000c30ce000006030000738ec000ffff38000ffe0e000000e38001830ce0000307380007ffae00003c0380;
   0x7038fc003fff1e001cc1cf80000c03c00067ccfc000d5e3e0003c7cf80075d33c0007ffef0000c1cbf001fffcfc0001f03c00037cef000e6313c000ffe0f800555f7f001c30cf0000383fe0003ff8f00001c03f0;
   0x7ff8fe00181b9f800cc18fe003fff3f000638efe000c0e3f8003eecfe0060c33f800fffcfc000c183f800fffcfe0001f03f00016c6fc00e3183f000c0e0fe00ffffbf801830cfe0003813f0000f00fe0000c03f8;
   0x7ff8ec001c3b9b001cffcfe003fff3f000638eec000c0e1b0007fcc6e0060c33f0007ffcfc000c1c3b001d55cec0001f03f80006c0fc00631c3f000c060fe00fffffb001c30cfc0007c03f00007c0fe0001c03b0;
   0x6038e0000e3398000cff8600000c0390006786e0000eae1900067cc600060c3b80007018e4000c1c38000000c600001b8390000ee0e400638e39000c060e000000e38001830ce00006e03900001e0600000c0380;
   0x7038600007719c000f81c600000c0180006ec6600007ce1c000e78e600070e198000383860000c1c18000000c600001f8180000c706000618718000c0706000000e18001c30c60000ef0180010070600001c0180;
   0x6038600003e18c002f818600000c018002ece66000228e1c000c30660006061980001c7060000c0c18003000c7000819c180001c70600061c398000e0386000000e18001830c60000c78180030038600000c0180;
   0x7038700003c1cc007001c700000c01c006dc777000600e1c001c38770007071dc0000fe070000c0c1c003000c7001c1dc1c0003838700070e19c000e0387000000e1c001c30c70001c3c1c003001c700001c01c0;
   0x6ab838000fe0ce0030018300000c00c002d83b3000600e0e00381c3b8003038ce00007c030000c0e0e003800c3800c18f0e000701c380030600c000e01c3000000e0e001a30c3000381e0c003000c380000c00e0;
   0x7ff83c007f7ce7003fff83800ffffee003c013b8007ffe0f00781e1b8003f9cef0007ffc38000c070e003fffc1c00ff87ce001f00f3c0070780e000750f38007ffe0e001fffc3800f00f8e003fffc3c0001c00f0;
   0x7ff81c00f83f67003fff81c00ffffe700380039c003ffc0700300c01c003f8ee7003fc3f1c000c0387001fff81c00ff83e7003c0079c003e3c070007e079c007ffe07001bffc1c00e003cf003fffc1c0000fc070;
   0x70380800600642001fff01800000006001000118001ff002000000008001f0442001c00718000c0182000554008005500c2001000108001f18060003e031000000002001c0001000400186001fff00800007c020;
   0x0;
   0x0;
   0x0;
   0x0;
   0x0;
   0x0;
   0x0;
   0x0;
   0x0;
   0x1c0000000700000001c0000000700000001c0000000380000000c0000000700000001c0000000700000001c0000000700000000e0000000700000001c0000000700000001c0000000700000001c000000038000;
   0x180000000600000001c0000000600000001c0000000300000001c000000060000000180000000600000001c0000000600000000c0000000600000001c000000070000000180000000600000001c000000070000;
   0x3800000fffff0003ffffc00000e000007ffffe00055755000001c0000000e0000000380000000e0000000180000000e00000001c0000000e000000038000000060000000180000000e000000018000000070000;
   0x3ffffc000fffff0003ffffe000fffff0003ffffe000fffff8003ffffe000fffff0003ffffc000fffff0003ffffc000fffff0003ffffe000fffff0003ffffc000fffff0003ffffc000fffff0003ffffc000fffff00;
   0x3ffffc000fffff00015555e000fffff00055555e000fffff8003ffffe001fffff0007ffffc001fffff0007ffffc001fffff0003ffffe001fffff0007ffffc001fffff0007ffffc000fffff0007ffffc001fffff00;
   0xc80000c0330000000ec000804338000380ec0000c03b0000000ec000000320000000c8000000320000060c80000e03200000086c00000832002aaaac8000030320000300c8000000320000000c8000000320;
   0x5554cc0001c033001ffffec001c0c37003ffffec0001e03b0003ffeec000000370000000cc000000330000070cc0000e033000001c6c00001c370000000cc000030330000380cc000000330001c60cc000000330;
   0xfffccc007fff36003fffeec000c1c36003ffffe80003f03b0007ffef8007fff36002aaaadc00ffffb60000030dc0000c037001fc086c00000c360000000d8001ff83700007c0cc003ffe360001860dc00aaaab30;
   0xfffcdc007fff3600155d4f8000c183600157d5f80007383f0007d54f8007fff36003fffed800ffffb6003fff8d800fffff6001fc1c78007ffe360007ff8d8001ffc360001ef0d8003fff360001c60d800ffffb70;
   0xe00cd80000c03600038e0f8002ebabe0000380f8000e1c3e0001c00f80060c33e003fffef80000c03e003fff8f800ffffbe0018dff78007ffe3e0007ff8f8001c0e3e0003878d80038063e0001860f800ffffb60;
   0xfffcd80001c0340007070f8007fffb4001fffef8007c0f3e0001f00f00061c3340000700f00001c03c003fffcd0000070340018dff780055d7340006018d0000e1f34001f03cd8003807340019c66d0003800340;
   0xfffce000aaeab0000e038e0007fffb00018380e000f807b80000fc0e00060c3300000600c00000c030000038cc0000038300018d8c600000c3300006018c000073bf0003e70fc000380630001d866c0003800300;
   0xe00cc000fffff0001fffee00000c0300018380e000f555f80007ffce0007fff300000700c0007fffb0000038ec0001c1c300018dcc600001c3b00007ff8c00003f1b000383c7c0003fff30001ffe6c00039ff300;
   0xe00ce000aeaab8001fffee00000c038001fffce0001ffeb8003f87fe0007fff380000618c0007fffb0001ff87e0000e0e380018d8c600000c1380007ff8e00001e03800000e0e0003ffe380007be6e00039fe380;
   0xfffcf8000c003e001831efc007fff3f001fffe78001ffe3e003c00ff80061c33c001ff1cf00060c3bc001ff87f80007473c0018dcc7c00ffffbc0007558fc0007f83c0003c7cf8003d573e0003c66f00039873c0;
   0xfffcfe000c003f8000300fe003fff3f80003867e0000c03f8000000fe0060c33f001fe18fc0060c3bf0000380fe0003ffbf0018d8c7e00ffffbf0006018fe003f3e3f8000e18fe0038063f8001866fc0039823f0;
   0x1838c7e00ffff9b0000300640000c03b003fffe6c0000c01b800fffc6c0061c33f000071cfc0063e3bf0000380fe0001ff3f0018dcc6c00ffffbf0006018ec01fc0fff001c7806e0038073b0001c66fc0039873f0;
   0x1c30c6000ffff98001fffe600000c018003fffe60003fff18000fffc60007fff390000618e4006763b9002ab80e00008e0390018cce600003e0390007ff8e000e0f3f8000e3e060003aae380001866e4003982390;
   0xf70c70000c0618001fffe7000ffffd800307c070003fff1c000030070007fff18000071c60006e7398003ff8060001c70180018dc6700003e0180007ff8600007e018000f0fc60003fff180001c66600039ff180;
   0x3e0c70000c0e1800003007000ffffd800386c0700000c01c0000300700060c398000061860006c3f98000ab8060003838180018cc6300007701800060186000030018000783860002aaa180001866600039fe180;
   0x1c0c70000c1c1c0000300700055d55c001fce0300000c01c0000300700061c19c000071c70007c1f9c00003807000701e1c001fcc730000e781c00060187000001e1c0001e00700000001c0071c66700038071c0;
   0x39cc38000c380e0000300380000c00e000bc78380000c00e0000300380060c18c0000618300060038e000038038007fff0e001fcc338001e3c0c0006018380000fe0c0000f80380000000e0031be6300038020c0;
   0x1f1fe1c000c100e007ffff9c0000c00e001f83f1800ffffc6003ffff1c0061c1ce007ffffb80060038e00003803800ffff8f001fcfb9c007c1f0e007ffffb80007f00e00003f03801ffffee003ffffb80038000e0;
   0x3e03e1c000fc007003ffff9c0000c007003e00f9c00ffffc7003ffff1c007cc0c7003ffff9c007c038700003801c00c003870018c799c00f007c7003ffff9c000f800700000fe1c00ffffe7003f83f9c003f80070;
   0x30006080007c0020055555080000c00600380030800000002000000008007dc0c4000000008007c0382000038008004000020000001080040018600155550800040004000001c0800000002000000198001f00060;
   0x0;
   0x0;
   0x0;
   0x0;
   0x0;
   0x0;
   0x0;
   0x0;
   0x0;
   0xc0000000700000001c0000000700000001c0000000700000001c0000000700000000c0000000700000001c0000000700000001c0000000700000001c0000000700000001c0000000300000000c000000070000;
   0x1c000000060000000180000000600000001c0000000700000001c0000000600000001c000000060000000180000000600000001800000007000000018000000070000000180000000700000001c000000060000;
   0x155d54001fffff8007ffffe0005575500000180000055755000155d54000006000007ffffe000557550007ffffe00055f55000157d540000060000000380000000600000157d54000557550000018000000060000].
Definition hanzi_rows_117 : list N :=
  [0x3ffffe000fffff8003ffffe000fffff8003ffffc000fffff8003ffffe000fffff0003ffffe000fffff8003ffffe000fffff0003ffffc000fffff0003ffffc000fffff8003ffffc000fffff8003ffffc000fffff00;
   0x3ffffe001fffff800555556000fffff8007ffffc001fffff8003ffffe001fffff000155556001fffff800555556000fffff0003ffffc001fffff0007ffffc001fffff8007ffffc000fffff8007ffffc001fffff00;
   0x380ec0008061b00078006c0000003b0000000cc0000033b00008a0ec0000c03200000066c0000383b00038306c000200338000000c8000000320000200c80000003b0000000cc0000003b0000000c8000000320;
   0x300ec001c061b000fffe6c007fffbb001fffccc0000033b0000ce0ec0000c033001ffce6c0005583b0017d756c000703b7003fffecc0000c4330000700cc0060703b003fffecc003fff3b0000000cc000000330;
   0x3fffeec000c0e1e00003fe6c007fffbb000fffcdc00aa03be0000ce0ec0070ee33001ffdc6c000ffc3b003ffff6c000207b7003fffedc0038ce370000300d800607fbe003fffecc003fff3b003fffedc00ffffb70;
   0x3fffefc001c5d5e00003007c007555be001c30cd800ff7fbe0015cf4fc0030e73600180187c000ffe3f003ffff7c003f6e3600001c0d80018c636003fffed800660ffe003fffed8001f1c3f003fffed800ffffb60;
   0x3020f800367fde003fffe780060c1be000c30cf800eb7fbe003fcfef80018e3b60018308780006063e0003830780032643e00000c0f80018c63e003fffed800660c3e0000380d80003fc3e0000000f80002303e0;
   0x3070f800777fde003ffff780060c1be001fffcd000c30df8003fcfff8001ff1b60018307780003073e000387078007760340007ffcd0001cc7340000700d800660c3e0003bc0d80003f03e0000000d0000730340;
   0x3830e0006303180001fe060006ffdb8000fffcc000c30cf80000ce0e0000fb830001830260003fffb8003ffff60006260f00007ffcc0003ccf300000300c00066aeb8000fbf0c0007fffb8000fff8c0006231b00;
   0x7878e000e183180007b7860006ffdb8001c30cc000c30cd80000ce0e0003e1c30001fff760007ffff8003ffff6000e773f000060e0c0007effb00000700c00066fff8001e37cc0007fffb8000fffcc0006733300;
   0xfcf8e001c5eb1c003e31e700060c1b8000ebace000c30c38001fcfee00078cfb8001bff2600030c33800380036000c237b80006060e000e6f1b8001fffce00066aeb8003831fe00060c1b8000c018e0002233380;
   0x1cfdef8008eff1f003c3c77c0067f9be001fffcf000c3ffdf001fcfef800e0c7fc00187877c0071c31f00381877801c7323f007fffff001c7d1fe001fffcf000661e3e0030307f80060c19e000c01cf00037373c0;
   0x38706fe001c3b1b80000e06e0067f9bf8000000fc00c3ffdf8000ce0fe0000e2bf8018f827e0030c31f80281827e0032183f803fffffc0000c0bf8000100fe00663e3f8000300fe007fff9f800c018fe0032363f0;
   0x103006e0038731d003ffff640064199b8015555fc00c30c1b0000ce06c0070e71f8019fc7640075d75b000fffc6c0037121b0000000fc0055d53b0000380fc00667f1b001fffcec007fff9b800fffcfe003736370;
   0x2abaa6000303398003ffff6000641998003ffffe400c30e180000ce0600030e3180019b626000ffffd8000fffc60003a0618000fffc64007fff98000e732600066ef98000fffc600060c198000fff860001a36390;
   0x7ffff700000319c0007038700065599c003ffff6000c31e1c003fcff700019f398001b3777001ffffdc000c1c070001c0718001fffc60007fff98001ce766000664d9c001c01c600075d59c000703860001f36380;
   0x2abaa700003318c000383c300067f99c00030606000c33e0c003fcff70000ff1d8001e33e300003e01c000e0c030000c0398000c00c600000c0180018c366000660cdc000c00c60007fff8c000303060000230180;
   0x30070000f31cc0001dfc300060019c00030707000d7770c0000ce0700007381c001831f300007781c000e0e030000f019c001c00c700000c01c003f0777000600cfc001c01c700075d58c0003870700007301c0;
   0x30038001c30ce0001fe038006aab8e00030383000ffe38e0000ce038000e1c0e001830238000e3e0e0006070380007818c000c00c380000c00e0032033b000600c4e000c00c380060c18e00018603800ffffec0;
   0x3001c003830e7000fff01c007fff86000301e3800ff41c70000ce038007c1f0e001fb071c007c1f87000703c1c0001f1ce001fffc3801ffffe70077ff3b800600c06001fffc380060c187007ffff9c01ffffee0;
   0x3001c00703e73003f0ff0c006aab87000300f9c00c300e70000ce01c00f803e7001fa020c00f803c70003e0f1c0000f8e7000fffc1c00ffffe70003fe01c007c0c07000fffc1c007cc187003ffff9c0000000e0;
   0x3000800201e22001c01f0800600182000300718000000420000ce00800e001c600050070800c001c20001e070800001846001c00c0800000002000154018007c0c02001c01c08007cc182000000008000000040;
   0x0;
   0x0;
   0x0;
   0x0;
   0x0;
   0x0;
   0x0;
   0x0;
   0x0;
   0x1c0000000700000000c0000000700000000c0000000700000000c0000000300000001c0000000300000001c0000000700000001c0000000700000001c0000000700000001c0000000300000001c000000030000;
   0x1c0000000600000001c0000000700000001c0000000600000000c000000070000000180000000700000001c0000000600000001c0000000600000001c000000060000000180000000300000001c000000070000;
   0x155d54001fffff8007ffffe001fffff8007ffffe001557550003ffffe001fffff8003ffffc000557550003ffffe000fffff800157d54001fffff800555d54000fffff800155d54001fffff8000038000005575500;
   0x3ffffe000fffff8003ffffe000fffff8003ffffe000fffff8003ffffe000fffff8003ffffc000fffff8003ffffe000fffff8003ffffe000fffff8003ffffe000fffff8003ffffe000fffff8003ffffc000fffff80;
   0x3ffffe00000c0380055555e0015555780015575e001fffff800155556001fffff80015555c000fffff800155556000555558003ffffe001fffff8007ffffe000555558007ffffe001557558003ffffc000fffff80;
   0x36006e0000e03b8003030ec0000c83b8003030ec0000383b00000386e0060c3bb0000000ce0000061b80080006c0010c21b0000300e80000001b0000300ec00600c198000008ec0002381b0003020c80000001b0;
   0x37006c007fffbf003ffffec007fdfbf0003870ec007fffbb000fc186c003ceffb000fffcdc007f975b001ffff6c0018c71b0015754ec007fffdb0000370ec00600c1b000ff98ec000e1c1b0003870dc00ffffdb0;
   0x633f78003003be003fffff8003ec3be001fffeec007f87be000fcfe6c000eee3b000eaacd8007fbfdb000ebae6c000cce1a001fffefc007fbf9b001fbfee80066ffdb000ff98ec001fef1a0001860d800ffff9b0;
   0x3ffbf78007fffbe0003130f80070c1be001fffffc006613be000ccff7c001ffc3f000e01cf80066175f00073387c00ffffde001fffef8006071de001ff1ef80066ffdf000c01cfc003fff9e001fffed80000701f0;
   0x3ffb078003fffbe0003330f8002acfbe0000380f8006633be000ccc678007dbfbe000fffcf00066061e0003a707800ffffde0006318f80060309e0018306f800660c1e000c00cf80030631e000fffef800203c1e0;
   0x73f070007003bc00007c0f8007edfb8001fffcf8006733be000ccdf7800f3bbfe000fffcc000673fde0001fe0780007f81e0007330f000757fd8001c306f80066ffde007ffeef80000701e001c30ed000703f1e0;
   0x63f160003fffb80000fe0e00020c1b8000fffee000633bb8003ced66000071c38000e00cc000633fd80000fc060000ede18003fffee0007fbf98001fb7ee00066ffd8003ffeee000fffff8000c30ec0003863d80;
   0x1ff5b60007003b80003cf0600070c1b800155d4600077ffb8007c7f760001e1f18000e01cc000630618001fffd60007ccf98003ffffe0005515d8001fb7e600066ccd8000030fe000fffff8001fffec0001ef1d80;
   0x1ff1f60003aabb8000f83ef0003fffb800000c0e0003de3b800002c66000ffffb8000fffce00063bfd8003fb3f6000e0c3d80000ee0e0000000980018306e00066ccdc002ab8fe000061e1c000fffee0000ffb180;
   0x1771e78007fff9e003fffffc007fffbe003ffff7c001cc09e001fefffc01ffffff000fffcf80071ffdf00103077c0040709f0007cf87000ffbfde001c306780066ccdf003ffcd7c001c471f001c30ef8000fdf1f0;
   0x631e7e0000e01f801bff37e0000c03f803ffff7e003fff1f801fefffe0098035f8000000fc007cc61f800fffc7e0000381f803f23e7e00ffbf9f80183067e0066ffdf80018cc7e00f8e3fb800ebaefe000d8f9f8;
   0x731c6c0003f81b000000064007fffdb000007064007fff1b0018cd774001fff1b001fffe6c003cc61d800fffc6400ffffd9003c30f7c006195db001fffe6c0066ffdd80018ec6c006678dd001fffeec001ddfd90;
   0x1ff1e60003f3f18000fffc60003fff980000030600030c3180018cda60001fff18001fffe6000006018000c30c6000ffffd800003006000630098001fffe6000661e0c000180c6000071e0c0000300e0003be8980;
   0x1ff367001fc07f8000fffc70003c071c001fff8700075d71c000dcd770001c071c001ccc6600039cd9c000fffc70000c0e1c001fffe70007315dc00007c07000667f0c003ffec700031c70c0000300600033781c0;
   0x63363000e7e3f8000e00c30000e0e18001fffc30003fff1c000f8f330001fff0c0018cc66000318dcc000fffc30000e0e0c001fffe30003e3f8c0000fc03000626d8c002beac700038f80c003ffff6000731e0c0;
   0x7373300033ff1c000e00c3000073c1c000061e300075d71c00070d330001fff0c001ccc67000750ccc00073003000077f0c000030030001e7fcc0001ce0300060edce0003c0c70001f1f8e003ffff7000e30f8c0;
   0x2eb23b800300f0c000e00c380003f80e0000607b80030c30e00078c3380018030e0018cc63000ec0cee000e300380007f80e000030038001e008e00038783800604ce60007e0c380007c30600003003800c383ee0;
   0x3ff01dc0035570e000fffc1c001fff0e003ffff9c007fff06001fcd19c001c0707007fffff800cd5c77001ffff1c007ffc07003ffff9c007f81c6001f03c1800600c67001e7cc1c0001fc0700003003800c1c0c70;
   0x2ab008c003ffe06000fffc1c00ff3fe7003fff81c003fff070038ff18c001f8307003ffff98008ffc23003ffff0c00f83fc7003ffff9c00e3e087003e00f9c007c0c23003c1ec1c00003fc380003001c0001f8070;
   0x3000800055406000e00c08007001c600155540800700302003077188000f07020055555580007f003003000008006007c200000000800c0c1c2003000708007c0c02003006c0800000783000030008000078020;
   0x0;
   0x0;
   0x0;
   0x0;
   0x0;
   0x0;
   0x0;
   0x0].
Definition hanzi_rows_118 : list N :=
  [0x0;
   0x1c0000000380000001c0000000700000001c0000000700000001c0000000300000001c0000000700000001c0000000380000001c0000000700000001c0000000300000001c0000000700000001c000000030000;
   0x180000000300000001800000006000000018000000060000000180000000700000001800000006000000018000000070000000180000000600000001c0000000700000001800000006000000018000000060000;
   0x155d54001fffff8003ffffe001fffff8007ffffe00055f550007ffffe00055755000157d54000fffff8003ffffe001fffff8007ffffe000fffff8007ffffe000557550003ffffe000fffff8003ffffe0005575500;
   0x3ffffe000fffff8003ffffe000fffff8003ffffe000fffff8003ffffe000fffff8003ffffe000fffff8003ffffe000fffff8003ffffe000fffff8003ffffe000fffff8003ffffe000fffff8003ffffe000fffff80;
   0x3ffffe0015555580015555600155555800555556001fffff800155d56000fffff8007ffffe000fffff80015555e00155555800000006000061c1800555556001fffff80015755600055555800155556001fffff80;
   0x386e00c1831900038186c0000001b000fffe660000001b0000380660000601b0000000ec0003001b8003830ec0000001b000060a6600060c1b80000186e0000061b00003806e002aaa9b00000006e0000003b0;
   0x3ffffec00631f1b001f8186c007f7fdb000fffe6c000c3f9b001ffff6c00fcefdb0007ff8ec007f9fdb001fffeec007fbf9b0007f3f6c00ffffdb001fdff6c0041871b001fffe6c007fbfdb001fffe6c00fffffb0;
   0x2abfff800631f9b001f9ffec002a7f9b00001806c000c3f9a000baba6c00fccfdb0006018ec007fcfdb001fffee80061a09e000ff336c00ffffdb001fdff7c00ffff1e001fffe6c0060301a000c3066c00ffffbb0;
   0x301c78007719df001ddfffc007760de001ffff6c00fff19e00018307c0037fb1f0006018f80071ecdf0003870f8006db59e00061b37c00061c1f0018d9c78007f779e00030707c0067339e001d7567c0007303e0;
   0x3feff7800ff88de000ce187800236a9e001ffff6800ffb19e003ffff780037fb1e0007ff8f8003bfcde0003830f80069a49e00061db78002aaa9e0018c8c78007337de002baea78006e321e000fffe78007fffbe0;
   0x3feff7000fffffe003ffff7800737fde00195d7680063319e003ffff680031031e0007ff8f8001f36de003fffff8006db59a001fffb78003fff9e001ddcc6000373cfe003ffff78007c3e1e001c30678007775be0;
   0x306c36000087ff8003ffff6000a32298001bdbf6000233f98000000060003193180000000e0000e06d8002abaae0006da698001aadb6000300398001fcf660001e1998002aaaa60006fb798000c30660006231b80;
   0x376ff60001c64d80035d9b6001e1b6d800001806000373f980007ffe600031b318003fcffe0007fc7d8000030060006db798001801f60003fff98000035760001c1f18000fffc600063e1d8001fffe60007fffb80;
   0x326c36000aae4dc0032d9b700001be9c0007dbe7000ffc1980006aae700031bfd8003aceae000e0fed8000fffee0001e1e1c001ff9b70003fff9c000030060003ffe18000fffc600003f81c00008e060007fffb80;
   0x376ff7c00ffffdf0036d9b7c007fffdf00055d47c01ffc19f0007ffe7c00fdefdf0030cc37800fffcde000d75e7c00773b9f001ffb37c0030039f001ffff78007fff9f000c00c7c001f1e1f0001f7c7c0000001e0;
   0x326ff7e00086edf8032dff6e007fb6df800aaaa6e00aebf9f8007ffe6e00b8e31f8030cc27e002eccdf800c30e7e00e3b1df80180336e003aab9f801fffe7e00e003df800fffc7e00fecfdf8006ffe7e003fff1f8;
   0x376d76c001c64dd0036dff74006336d9000ffff76001c3fdd000600e760030c319803fcff6c0006dcdf000fffe6c0040b85d001ffb374003fff9900187c76c00c000d9000c00c6400f0f1fd000e1f464007fff1b0;
   0x326ff6000086ecc0032c7c30006236d8000c18630000c33d80007ffe300030c318000020060007fe8d8000ebae6000ffffd8001ffb3300000e0180019ee660003fff98000eaac6000823e18001fef860000000180;
   0x336c37001ffffdc0037cdc300036ffdc000c1873000fff3dc0007ffc300031cb1c00183077000577fdc000c30e7000ffffdc0001c373000ffffdc001fb7f70007fff9c000fffc700007c71c001ffff7001ffffdc0;
   0x337ffb000ff800c0033dde30003effec000fffe3000ffb3cc000639b300031ef0c00183063000063ecc000fffe30000e0e0c001bb7f3000ffffcc00183b6300008c60c0000300300010f80c003030f3000ffffcc0;
   0x377fff0001c700c001759f38001c766c000d5d738001c33ec000c71b380031f7cc001830730007fc0ce000fffe3000077f0c001f3df380001f00c00187c730001cc70c003ffff30003c7fcc000333830001cce0c0;
   0xd86e3800087fe6000d81b98001e666e000c18618000c3f6e001b21b98003139ee001830638000600ce0003c70380003f80e003c363180003b80e0019ee6380038c38e003ffff38000f838e000f31c380038c70e0;
   0x39cc71c001c1fe70019c19dc00776377000ffff1c001c3f77001b559dc01fe1c66001ffff18000600c7001f07e1c001ffc07003c3631c001f1f07001b87f180070c1c700003001c0007fc07001c30f1c0070c3c60;
   0x30e83cc000800030030e188c00e383b3000fffe0e000c03230031ff8ce00fe0807001fffe1c00fff0c3003c00f9c00fc3fe3002ff630c00fc0fe3001f0061c00e0f8c700003000c00007fe300383e38c00e0f8e70;
   0x2060188001c000300207180800c18102000c0070c001c03030001ff00c00000002001800008005550c3003000108007007c20007e030c00f001c2000f0070800007803000030008000007c200101e1080040f8420;
   0x0;
   0x0;
   0x0;
   0x0;
   0x0;
   0x0;
   0x0;
   0x0;
   0x0;
   0x600c000001800000c001c00001c070000000000000380300000600c00000c030000007000007000700000060000000601800007018000003800000010180000000000000070000008300000010c000000038000;
   0x600e000001c00001fe00c000018030002aaaaa8000398380018618e00001c038000007000007f8030000007000000060180000301800000180000001818000aaaaaa000007000001c37fe00031caa0000030000;
   0x1fff060001ffff00007fc1c000038038007fffffc00039818001861860000380380007ffff0007ffc380007fffe0003060180000301c0001ffff800001c1c000ffffff000007000000f77fe0003ddff001fffff80;
   0x1fff060000ffff000002cffc00abaa18002baaba800039818001861860000380180007fffe00000f8380007fffe0007e6ff80000380c0001ffff80000180c000ffffff0000038000003e7000001f9ea000fffff80;
   0x1c033fc001c003000000dffc00ffffff0001801c0007ffcff001861bfc00fffeff00060007000001dff000755560001feff8003ff9ff8001d555800001cff800001c00000fffff000e1c384001070c1001fffff80;
   0x18033f8000c003000000c0e000eaaefe0001801c0007ffcfe001861bf800fffefe000600060000019fe0006000600003e018003ff8ff800180018000018ff800001c00000fffff00071839e003870e380000001b0;
   0x1fff35c001ffff0003ffc3e000c00fd70001c01c00057dcd7001fffb5c000010d70007ffff000001dd70007fffe000006018003d5dd580018001800001cd5800001c00000fffff0003f81f8001ee07f0007fbfdb0;
   0x1aab308000ffff0003ffe7f000c00ec6000ae8ae800038ec2001fffb08000c70c60006aaae0000019860007fffe000c0601800380cc18001ffff8000018c18000aaea8000e00030000faaf00007c03e00061b09a0;
   0x1c0331c001c003000030fff0007ffdc7001ff9ffc000386c7000000318001c38c7000600070007ffd8700075556000c06f1800380fc18001ffff800001cc18001ffff8000e00070001ffff00003c01c0007fbfde0;
   0x1fff308000c0030000306cd8003ff8c6001ff9ff8000386c2000000308003838c60007fffe0007ff98600060006000eaeff8003806c1800180018000018c18001ffff8000e00030003caab8000ffffe00061b09e0;
   0x1fff31c001ffff00003071dc000001c7001819c1c01fffec7001fffb1c00701cc70007ffff000607d870007fffe000ffe5fc001817c180018001800001cc1800180038000e0007000f8001f001fffff0007fbfde0;
   0x303f8000aaaa00003030cc000000fe00181981800fffefe001fffbf800e80efe000001800006079fe0007fffe0003f9c0c001838c18001ffff8000018ff800180038000e0003000eaaaaf803caeabe0061b0980;
   0x3fffffc000700700003071c4000001ff001819c1c015554ff001d553fc00dc3fff000001c000070ddff00055554000000c00001871ff8001ffff800001cff800180038000fffff000cffff300300601c007fbfd80;
   0x3fffb08000700600002070c000fffcc6001819818000000c2001800308001c32c6003fffffc0030d986000000000001ffff80018e0ff8000001c0000018c1800180038000fffff0000eaab00000060000000e21c0;
   0x175d71c007ff7fe0007fffc001fffdc7001ff9ffc005554c700180031c000c70c7003fffffc0039dd87001fffff0001ffff80018e1c18000001c000001cc18001ffff8000fffff0000e00700000060000055d71f0;
   0x72e308007fe7fe0007fffc0000c60c6001ff9ff8007ffcc2001aaab08000e60c60000e038000199986000fffff0001800380019c0c1800fe81c0000018c18001ffff8000e00030000e0030001fffff8007fff9f8;
   0x1e6731c006076060007000c0000c61c7001d59d5c007ffcc7001fffb1c0007e0c70003c63c0001d9d87000006000001c00380019c1c1800fffff000001cc18001d5578000e00070000ffff0001fffff80001c1d90;
   0x3c63b08006066060006000c0000c60c600181981800600cc2001fffb080003c0c6000f860e0000f8d8600000600000180038001880c180003ffff000018c1800180038000e00030000ffff000000f000003ffff80;
   0x7d75ffc007ff7fe0007fffc0000c71ff001819c1c00701cff000003bfc0003c0ff003f5757c000f1dff0007fffe0001ffff8001c01c18000001ff00701cff800180038000e00070000555d000007f800003ffffc0;
   0x2ffebf8007fe7fe0007fffc0008c30fe00181981800600cfe000003bf80003c0fe003fffffc000f0dfe0007fffe0001aaab8001800c18003001c0007018ff800180038000e00030000381c00000fbc00000181ac0;
   0xfff01c006076060007000c0018c3807001819c1c00701c0700700381c000ff0070013fffcc001f8c07000006000001c0038001c01ff8007001c000701c01800180038000f55570000181c00003e1f00003fff8c0;
   0x60008006066060006000c0018c3c06001ff9ff800600c02003003808003e7806000006000003fce0600000600000180038000c00ff8003001c0003018018001ffff8000fffff000018380000f80f800001818e0;
   0x60014007ff7fe0007fffc001dc1f05001ff9ffc007ffc07003fff814007c3e050000060000079f705003fffffc001ffff8000ff0018003d55c0003d5c010001ffff8000fffff000ffffff001f003f000ffff870;
   0x60000007fe7fe0007fffc000fc0f80001ab9ab8007ffc00003fff00000f00f0000000600000e0ff00003fffffc001ffff8000fe0018003fff80003ff800000180038000e0003000ffffff003c000fc00ffff830;
   0x60000006076060007000c0007c0300001819c1c00701c000005540000040060000000600000403200001555554001c00380001c0000001fff00001ff000000180038000e0007000555555001000018000001820;
   0x0;
   0x0;
   0x0;
   0x0].
Definition hanzi_rows_119 : list N :=
  [0x0;
   0x0;
   0x0;
   0x0;
   0x0;
   0x6000000181800000703000000470000000700000001800000180180000c00000000000000001818000000600000000000000000000000600700001800000006007000000e00000700018000307060003000300;
   0xf0000001818c0000603000001c30000000600000001800000380180001fe8000000aaaa800038180000006000000aaaa800000000000060030000182aa80006003000000e000007ffa18000383060007fe8380;
   0x1f8000001c18c000070300007d87000007fffe0003ffffc0001c0380001ffffc0001ffffc000701c0000006000001ffff8000000000000601b8000183ffc0006017800000e000005fff1c00019fe60001ffe180;
   0x3bc000000c18c000060300007ffe800003fffe0003ffffc0000c070000001bf80000eaba8000e00e0000fffff0000abaa8000fffff00006039c00018300c000607f800000e0000030c60800019fe2000318a180;
   0x1f1f0000ffe18c0000f7ffc0017ffff0007575e000155d540000e0700000018000000c0180001c0070000fffff000001800000fffff001fff74e003fff1cc01fff7fc001fffff00031c67f0001987fc00319cff0;
   0x3e078000ffe18c0003e3ff800000efe0003060e000001800003fffffc000018000000cab800038003c000c0603000001800000c30c3000ffe7ff003ffb1cc00ffe30c001ffffe000398c7e002b987f8001998fe0;
   0x1fffff00000718c0007f0300007d0e000007070e000001800003fffffc00ffffff001ffffc001f7ffff000c0603000001800000c30c7000c67dff00319c1c000c6730e001c0e070007fff77007fdffdc001db8d70;
   0x7eaaafe0000718c001e60300007ffe800003060e000ffffff002aaaaa800ffffff001feebc000e7ffe7000c0603000ffffff000c30c3000e6618800319bff800c66186000c0e060007fff62003fdff8800ffffc20;
   0x380001c0007398c003c703000017ffff003fffffc00ffffff0000204000000ff00001c0c7c000460700000c0603000ffffff000c30c700066739c00199fffc006671c7000e0e070006633670019d879c00ffffc60;
   0x3fffc0000f398c003860300003838fe003fffffc000383800000e07000001db80001806fe000060700000fffff000001800000c30c300006630c000198060000660c380060e060006223620018d8788000fe0c20;
   0x3fffc0001c1d8c001077f00001f700000001f800000701c00007e03c0000799c0001c07c6000070380000fffff000001800000c30c70007ff617001ffc370007ff7ff00055f570007fff670019fff9c001df0c70;
   0x3000c00038098c000067ffc0047f000000039c00000e00f0001f000e0000f18e0000c07870000703c000000600000001800000c30c30007fee33003ff833000ffe7fe000ffffe0007fff7e0009eb9f80039b8fe0;
   0x3000c0003001800000707fc00c1fc00000071f00001ffffc001c0007c007c187c000d5fe380007f1f000000600000001fc0000c30c700075f43b001d7c3380075f7000007ffff000707f7f001de71f800719cff0;
   0x3fffc00000000000006000000effff80003e0780003afff800100003801f8181e000fd8f9c0003f07c00000600000001f80000c30c300061a7f8001879ff80061e600000700e7000307f62000daeb8801e18fc20;
   0x3fffc0001ffffc000555550007f07fe007fc01fc003000000007fffe000f555570007c031c0000401c00000600000000500000c30c700071f7fc001c7dff80071f700000700c7001ff7767000f3ff9c00ffffc70;
   0x3ffff8000fffff00038000c003fffffc000aaaa80007fffe0001ffff80002aaaa0003ffff8000ffffe0001ffff8000c30c300033b30e000ce83000033f7fe000381c3000ff7f62000f01988003ffcc20;
   0xfffff0003dd75c000fffff0001ffff80017ffffc001ffffc000639c60001ffff80007ffff0003ffffc000fffff0001ffff8000c30c7000333397000cdc300003377fe0001c38700075636700070199c00718cc70;
   0xffffe00038c318000c30c30001ffff80006baee0001aebb8000638c60001ce3380006baee00038c318000e30c600018e318000c30c30003e31bb000fcc300003f36aa0000e383000327f6200061f98800318cc20;
   0xe31c700038c71c000c30c300018e718000739c600018e31c000639c60001ce738000639c700038c71c000e30c700018e718000c30c70001e31f000078dff4001e770000007f03000777f7f00071f9fc007ffcff0;
   0xe30c600038c318000c30c300018e318000638c600018e318000638c60001ce338000638c600038c318000e30c600018e318000c30c30000e38e000038dffc000e360000003e03800363b7e000f199f8003ffcfe0;
   0xe31c700038c71c000c30c300018e718000739c600018e31c000639c60001ce738000639c700038c71c000e30c700018e718000c30c70001f19f000078e35c001e370000007f018007c3357000f99d5c00718c070;
   0xe30c600038c318000c30c300018e318000638c600018e318000638c60001ce338000638c600038c318000e30c600018e318003fffffe003f9bbc000fc6300003f3ffe0001ffc1c00307b02001d98c0800318c020;
   0x3fffffc01ffffff003fffffc00ffffff007fffffc01ffffff007fffffc00ffffff007fffffc01ffffff007fffffc01ffffff007fffffe0073dd1f003cf730000f3dfff001fc3fdc00707f050039d8e14007ffc070;
   0x3fffffc00ffffff003fffffc00ffffff003fffffc00ffffff003fffffc00ffffff003fffffc00ffffff003fffffc00ffffff00000000000e0ee0700387b30000e1fe00003f80fce003cef800038ef700003ffc000;
   0x155555400000000000000000005555550000000000000000000000000000000000000000000000000000000000000000000000000000000c0640100301330000c0d500001c001c4003c418000104f30000700c000;
   0x0;
   0x0;
   0x0;
   0x0;
   0x0;
   0x0;
   0x0;
   0x0;
   0x0;
   0x1c00000400000000800000000600000000007000001800000001c000000070000000000000000000000000000000007000000000c00000000000003300000000700000001c000001c0300000001c00;
   0x2aaa80000001820000fe8000000c60aa0000600000000003000001800000001800000006000000000aa0000000000000000000000f800007f18f8001ffcff8000e300000000700000001c060001c0380000000c00;
   0x3fffffc00071ce0001fffff0000c71ff0000603fc00fff87000001c3fc007fffff003fffffc00fffdff007fffffc001ffffc00003de00007f187e001ffcff8001c70000007fffc000001c1f0000c070000ffffff0;
   0x3fffbf8000e186000003fff0000c70fe0000603f800fff83000000c3fc00fffffe003fffffc00fffcfe003fffbf8001ffff80000faf800060180600180cc1800fffffc0003fffc000fffe7c000aeaea800ffffff0;
   0x6071c003c1c7000001c070001c71c7003ffff1c00e01870003ffe31c00555d55003fffffc000381c7007fff71c0018001c0007c71f000619fc6001c1cc1800fffffc0007011c0007fff70001fffff8000060600;
   0x60308003a1838000018070001838c2003ffff0800e01830003ffe30c00000c000000000e0000380c200038031800180018003f0e07e0060df86001ffcc180000600c0003078c00060c700000aaeaa8000062600;
   0x6171c00771c1c007fffff0003839c700006031c00e01bff00355731c001ffff80000000e0000381c700038071c0018001c003dfffdc007efe7e001ffcff80038601c00071e1c00071c380000006000003867700;
   0x633f800e3d80e003fffff000381cfe0000603f800e01bff0038033fc001ffff8000aaaae0000380fe0003803f8001800180001c0000007e7b3e00180cff80018e7fc0003080c00031e3800002aeaa0001c63380;
   0x3fe37fc0041fc0600001c07000701dff001c61bfc00fff870003003bfc001d5578000ffffe0000381ff0003807fc001ffffc001fffff80060fb06001c1cc18001cc7fc007fffffc0031e1400007ffff0001c731c0;
   0x3fe330800007e0000001c07000e00ec2001861b0800fff838003809b0c001c0038000aaaaa0000380c2000380318001ffff8001fffff80060d986001ffcc18000fc60c003fffffc0003e0600002aeaa00006f19c0;
   0x386371c00001fc0000ffff7001f557c7001c61b1c00e0187800383d31c001ffff80000000000157d5c700038071c0018001c000fffff00071d9c6001ffcff80047c70c0007010c00007707c0000060000005f98f0;
   0x3863308001ffffe000fffe7000fffac2001861b0800e018f800387030c001ffff80007fffe000fffec200038031800180018000ffffe0007f98be00180eff800c3c60e0003078e0000e3c1e002aaeaa800039c078;
   0x186371c001fffff000d55770003ffdc7001c61b1c00e019fc0039e031c001c00380007fffe001ffffc700038071c0018001c000f58e70007e1c7e001c0701800c7f7ee00071f070007c1f0f003fffffc00071f030;
   0x38633f800180062000c006700030e0fe001861bf800e019bc0038c03fc001c00380006000e0000380fe0003803f800180018000ff87a000601e06001f8781800fe7be60003ec07800f807c3002aaaaa8003e07800;
   0x1fff7fc001d5570000ffff70003061ff001c61bfc00fffb7e003b003fc001ffff80007000e0000381ff0003807fc001ffffc000fffff000700406000f83000007c18470003e003c0060018100000000000fc01f00;
   0x1fff308001fffe0000fffe30003060c2001aebb0800fffb36003b8030c001ffff80007fffe0000380c2000380318001ffff8000eaaaa0003ffff80002aaaa0002000020002aaab0001ffff8000ffffe0006000200;
   0x1d5571c001d5570000c00770003071c7001fffb1c00fff8770019f031c001c00380007fffe0000381c700038071c001ffffc000fffff0003ffffc0007ffff0001ffff80007ffff0001ffff8000fffff0001ffffc0;
   0x180030800180060000c00630003070c2001fffb0800e0183380187c30c001c00380006000e0000380c200038031800180018000aaaaa00038c3180006baee0001ffff80006baee00018c318000e30c60001ffff80;
   0x18007fc001ffff0000ffff30003071ff001c603fc00e0187300181f3fc001ffff80007fffe0000381ff0003807fc0018001c000fffff00038c31c000631c700018e718000639c700018c718000e30c700018c71c0;
   0x18003f8001fffe0000fffe38003838fe0000603f800e018310018073fc001ffff80007fffe0000380fe0003803f800180018000fffff00038c318000630c600018e318000638c600018c318000e30c600018c3180;
   0x1c007fc001c0070000c0073800381dff00706015c00e0187000180115c001c00380007000e0000381ff00038055c001d555c000e30c700038c31c000631c700018e718000639c700018c718000e30c700018c71c0;
   0x1c0000800180060000c0061800381c0200306000800fff83000180000c001c00380006000e000038002000380018001ffff8000e30c300038c318000630c600018e318000638c600018c318000e30c600018c3180;
   0x1fe001c001ffff0000ffff1c001d0f0700356001c00fff870001c0001c00ffffff0007fffe00003d0070001fc01c001ffffc007fffffc01ffffff007fffffc00ffffff007fffffc01ffffff007fffffc00ffffff0;
   0xfe0000001fffe0000fffe0c001f8780003fe000000e01830000fc000000ffffff0007fffe00003f0000001fc00000180018003fffffc00ffffff003fffffc00ffffff003fffffc00ffffff003fffffc00ffffff0;
   0x7c0000001c0070000c0070c000f0300001fc000000e018700007c0000000000000007000e00001f0000001fc0000018001c000000000000000000000000000055555500000000000000000000000000005555550].
Definition hanzi_rows_120 : list N :=
  [0x0;
   0x0;
   0x0;
   0x0;
   0x0;
   0x0;
   0x0;
   0x0;
   0x0;
   0xe000000000000000e0000000180000000e0000000070000000700000030000000039c000000000600000000000000180000000e1800001c000000000000001c000000040000000000000000060000000380000;
   0x38e1c000000000000060000002180000000e000000066000000060000003e000000038c000002aa060001fff0000000180000000e1800000c000000000000003ffea0000f80000002aaaa8000060000000380000;
   0x1c618000fffeff0005703fc00618cff0000e03fc001e70ff0000e03fc007ff1ff00039c1fc007feff0001fff3fc007ffffe00055f5c00000e0ff003fff3fc0017fffc0007f07fc003ffffc0000603fc000381ff0;
   0xc738000fffefe001ff83f800618cff0000e03fc003860ff0000c03fc000ffeff00038c1f800306ff80018033fc007ffffe000ffffe00000e0ff003fff3fc00000e280000fe3f8003ababc0000603fc000381fe0;
   0xfffff000000ec7001ffe31c00719cc7001fff31c007070c7007fffb1c00007dc700039c19c00706c1c00180331c00555d5400055f570000c70c700000731c0000060000007ff1c0030181c00006031c001bb1c70;
   0xfffff000000ec2000e07b08003198c3001fff30c000060c3003fffb0c0000c0c300038c18800306e0e00180330c00000c0000000e038001c30c300080330c003ffffc000030b080030181c003fffb1c003bb1860;
   0x3800007ffec700070ff1c003998c70000e031c00ffffc7007fffb1c0001c1c700339d99c003e667700180331c000ffff00007fffdc001838c7001c1f31c007ffffc00107071c003ffffc003fffb1c0033b1c70;
   0x1c00007feefe0003bc3f80019b8ff0000e03fc00fffeff0000303fc000180ff003b8d9f8003e67e3001fff3fc000eaab00007fffc0003818ff000c3b3fc00000300001fb03f8003ffffc003aebbfc0073b9fe0;
   0x3fffffc00070eff0001f83fc001990ff0000e03fc005775ff0004383fc000381ff001fdd9fc01c063c0001fff3fc000c003000000e00000701cff000e773fc00ffffff001ffc7fc003ffffc003061bfc006399ff0;
   0x3fffffc00060ec20000f8308000180c30000e030c000330c3000e1830c003ffec3000ffd98800c061c00000c330c000ffff0002aaeaa800fffec300066330c00ffffff0001ffb080000001c003061b1c00e399860;
   0x1e078000070ec70001ff31c00ffffc7003fffb1c006770c700071c31c007fffc70007fd99c00ffe1f00000c331c000d5570003fffffc00ffffc70007e731c005555d500007ff1c003fffdc0031e1b1c00e39dc70;
   0x3803c0003feec20000cfb0800fffec3003fffb0c006330c300070e30c007aaac300038d988007f807f0000c330c000c003000000000000c00ec30003c330c000000e0000030b08003fff9c0000e031c00c38d860;
   0xfffff0007feed7003ff3b1c0007c0d700006031c007730c70003f731c003801d700039d99c001fffff0015d731c000ffff0000555540004000c70003c731c001ffff000007071c003001dc0001f031c00f38fc70;
   0x3fffff800060efe003ff03f80007e0ff0000e03fc003330ff0001ffbfc001c00ff00038d9f8001ffff8003fff3fc000c00300007fffc0000000ff0003833fc001ffff0003e303f80030018c0000e03fc007381fe0;
   0x7f801dc00070eff00383c3fc000ff0ff0000e03fc003f38ff0001ff3fc001e01ff00039d9fc001d5578003fff3fc000d55700007555c0007ffcff0007c73fc001800f8007ff07fc003fffdc0001f03fc003381ff0;
   0x23fffc800060ec200181e308000db0c3001fff30c001b38c30000e030c000e00c300038d988001c003800018330c000ffff00007000c0003ffcc3000ee330c001aaafc0003ffb08003fff8c0000f031c003b81860;
   0x3fffc000070ec7001c17b1c001db0c7001fff31c001f18c700067031c000781c700039d99c001ffff80001c331c000c00300007fffc000701cc7000e7731c001fffef00007ff1c003001cc0001f031c001b81c70;
   0x3800c0007feec2000e7bb080039b8c3000aea30c000f18c300063830c0003c0c300038d988001eaab800018330c000c00300007aaac000300cc3001c3330c001800e7800030b080030018c0000f831c001c01860;
   0x3d55c0007ffeff0007f13fc00799cff0000e03fc00071cff000e1c3fc0001e1ff00739d9fc001c00380001833fc00ffffff0007000c000701cff001c3f3fc001d55e30000707fc003fffcc0001dc3fc000e01d70;
   0x3fffc000000efe0003c03f800718eff0000e03fc00838eff000c0e3fc00007cff00238d9f8001ffff80023833fc00ffffff0007fffc000300cff00081f3fc001fffe00020303f8003fff8e0020ce3fc000701fe0;
   0x3d55c000000e570001e015c01e187070000e03fc01c7e657001c0715c00003f570073fd95c001ffff800730315c000181800007fffc000701c5700000f15c001d55e00070707fc003001c60071cf15c0007c1ff0;
   0x3800c000aaae020000f800800c183030000e000c00c37703003fff80c0000e6030033ff808001c003800237b00c000fc3e00007000c000300c0300000300c001800e0003030008003001860020c781c0001f0060;
   0x3fffc001fffe0700007f01c00818305007fffc1c00ff3387003fff81c01ffc707003f9fe1c001ffff8003f7f81c007f00fc0007fffc0007ffc07007fff01c001fffe0003ff001c003fffc7007fc3c1c0000ff070;
   0x3fffc000fffe0000000fc0000018000003fffc0000fe01c000300380000ff8200003f03e00001ffff8003e0fc0000f8003f0007fffc0003ffc00003fff000001fffe0003fe0000003fff83803f81e0000003f000;
   0x3801c000000000000001800000180000000000000000018000100000000540200000000400001c0038001c01800004000060007000c000701c00000000000001800e0001fc0000003001c1001f00400000006000;
   0x0;
   0x0;
   0x0;
   0x0;
   0x0;
   0x0;
   0x0;
   0x0;
   0x0;
   0x60000000040000000600000003800000000018000027000000c0000000018000000000000000180000000700000030040000040600000038000000070000000070000001c03800000000000019c0000001c0000;
   0x600000000e00000006000000038000000ffc18000077000000ff800000018000003fff8000001c00000006000000383c00000e0e00000c38e00000038000000030000001c0380007ffc0000018c0000009c0000;
   0x3fffbfc007ffcff0015753fc0001c0ff001ffff80000671ff001fff9fc00fffeff003fffbfc0001c07f0000701fc001ffcff00070c3fc00e38eff0007383fc000ff8ff0000e0700007ffcff00019c3fc000ce0ff0;
   0x3fffbf8007e3efe001fffbfc007ffcfe000c1ab80000e38ff00006b9f800fffefe000003bf80003e07e001fff9f80007e0fe00030c3f800639cff00061c3f8000ff8ff000fffff800600cfe00018c3fc001ce0ff0;
   0x6031c00600ec7001fffb1c007ffcc7000c38180000439c700006019c000180e7000183b1c00077067001fffd9c001ff0c7001fffb1c00739cc7000e0e31c000f5cc7001fffff800701cc700119cb1c003870c70;
   0x6030800600ec200006030c00638cc2000e37ffc00fff8c3000060188002baae2000183b08000e3862000aea988007cfec2001fffb08003bb8c3001fff318000e0ec300000300000600cc200398df0c003a38c30;
   0x1fff31c00600ec700006031c00638cc7000777ffc00fffdc7003fffd9c007ffee7001fffb1c001c1c67000c7319c0070dfc7001d7531c001390c7003fff31c000707c7000557d40007ffcc700199db1c007ffcc70;
   0xfff3f8007efefe002aeabfc007ffcfe0003e09b000061eff003fffdf8000180fe001ffbbf800780e7e000e631f80000e2fe0018603f8000380ff0032033f8003fffff0007fffe0007ffcfe001d8fbfc00e3fcff0;
   0x1c603fc007efeff003fffffc007ffcff0001c1db000061fff001d775fc0055d5ff0015d7bfc01ffff7f0006771fc015575ff0018603fc007ffcff00071c3f8007fffff000555d5000701cff000d9f3fc004310ff0;
   0x2aeab0800600ec2002aaab0c00638cc20003e39b800061fc3000c6218800ffffe2000183b0800effbe200066618800ffffc2001aea3a8007ffcc3000e1c3180030c0c3000000c0000600cc2000f8f30c000330c30;
   0x7ffff1c00600ec700031c31c00618cc7001f7f19c007fffc7000c6719c00ffffe7000183b1c00c5516700037619c01ffffc7001fff31c00600cc7001c0f31c0071c0c7003fffffc00701cc700059d31c000338c70;
   0x86030800600ec2000f0e30c007ffcc2003c3c18c007ff8c3002eea988000000e2002babb08000000620002621880003b8c2000aebb0800600cc3003837b180030c0c3003fffffc007ffcc200018c30c000318c30;
   0x1c6035c00755ed7001e0731c007ffcd700100418000061dc7007fffd9c003ffce7003fffb5c0060c467003fffd9c00039cd7000061b1c007ffcc700703bf1c01ffffc7000000700007ffcc700079c31c007ffcc70;
   0xfff3f8007ffefe003863ffc0008c0fe0003fffe0000618ff003fffdf8003ffcfe002aabbf80060867e003fffdf800038cfe000061bf8007ffcff000018bf800ffffff0007fff8000018cfe000f8e3fc007ffcff0;
   0x1fff3fc007ffcff001061ffc000ce0ff0007fffe000061dff000c671fc00300cff000183bfc0071cc7f0000f81fc007ffeff003fffbfc00755cff001ffc3fc0071c0ff0007fffc000419cff001d9f3fc00030cff0;
   0x60308000660c200006030c000c70c20003000e0002eb8c3000c62188003aace2000183b0800318c620001f8188007fffc2003fffb0800600cc3000ffe3180030c0c30006003e000e38cc200398fb0c00030ec30;
   0x6731c000670c700157531c000c3cc70007fffe0007ffdc7001d7759c003ffce70015d5b1c00398c670001fc19c00639fc700307031c00600cc7000e1f31c007ffec70007ffff0007b1cc700718df1c000304c70;
   0x1fe3308000670c2001fffb0c00aeaac20003fffe0002eb8c3003fffd8800300ce2003ffdb0800198c6200036e18800638cc2003078308007ffcc300071bb18003ffec30007fff78003f0cc200018cf0c00fffec30;
   0x1fe33fc000670ff001fffbfc01fffeff0007000e000061dff003fffdfc00300cff003ffdbfc001d9c7f0007771fc00639cff00307c35c007ffcff0003b9ffc0075d4ff00060033c000e1cff00018e3fc00fffeff0;
   0x63bf8000630fe0000603fc00aeaafe0003fffe0000618ff0000601f8003ffcfe000181bf8000c087e000e639f800638cfe00386e3f800600cff0001f0bf80020c0ff0007fff0c000e0cfe0021863fc000300ff0;
   0x6795c01c6385700006015c000c00570007fffe000061d5700006015c003ffc57000181d5c000c0057003c71f5c00739c57003f673fc00600c570001f015c0001c0570007fff00001c1cff00718715c000300570].
Definition hanzi_rows_121 : list N :=
  [0x6f80800861c0200006000c000c00020003000e000fff80300006000800300c02000180c0800060002003860e08007b8c02001e63c0800600c030003f80180000c0030006003000039ec0200218380c000300030;
   0x7ffdc1c01d61f07007fffe1c000c00070007fffe001fffc07001fff81c00300c07007ffee1c00ffff0700107041c003b9c07001e61f1c00740c07001f9f01c0001c0070007fff0000f1fc07007f81c1c000300070;
   0x3ff8e0000fe0780003fffe00000c00000003fffe000001800001fff800003e0c00003ffe60000ffff0000006000000038000000060600007e0c00003e0fc000000f8000007fff0000e03e00003f80e00000300000;
   0x1540400007c0300005555400000c00000007000e000001c00000000000003e0c000000006000000000000007000000038000000060000003c0c00003801c000000f80000060030000400400001f00600000300000;
   0x0;
   0x0;
   0x0;
   0x0;
   0x0;
   0x0;
   0x0;
   0x0;
   0x0;
   0x33000000061190000181c00000600000000000000030c000000000000000700000001800000007000000018000000310000001c300000006000000001c00000001c0000030000000030000004000000;
   0xaaa8000003300000006319800ababaa00186380000ffff0000030c00000fffe000000600000001a0000000600000001800000031e00000183000000063ff8000ab800000000e000023fe00000030000007800000;
   0x1fffbfc000738ff0000719b800ffffff001c671fc00ffff7f003fffffc00ffff7f0000e03fc007dfcff0000701fc0055d47f00031fdfc001c30ff003ff3ff8001ffc00000fffff0007ffeff0018303fc00fffeff0;
   0x1801bfc000618ff003ff19b000018180000e661fc0006607f003fffff800c0067f003fffbf8007d9eff000fff9f800fffe7e000302dfc001830ff003ff1ce000001800000fffff0001e60fe001bffbfc000ffeff0;
   0x1801b9c00fffcc7003ffbff8000181c000076e19c0006606700030c19c00c00767003fffb18006186e7001fff99c00ffff6700030719c01ffffe7001d78fc0007ffffe000c30c30000e62c7001fffb1c004014c70;
   0x1aabb8c00fffcc3000c3bff8003ffffc002aea98c007ffe6300030c19800eaae63003061b08006186e30000601880000c06200030218c00ffffe3000e3efa8007ffffe000c30c3000ee6ec2000eba30c00e180c30;
   0x1fffb9c00071ec7000e7f558003ffffc003fffd9c007ffe6700155559c007ffc67003061b1c007dbee700007019c003ffc6700334719c001c30e700067fffc00655556000fffff000fc3ec700073031c00718ec70;
   0x801bfc00060fff0006ebd780030c30c003aaadfc0066667f003fffdf800300c7f001fff3f8007dbeff003fffdf8003ffc7e0033421fc001830ff0003e33c0006ffff6000fffff0003838fe0003303fc00338cff0;
   0x1fffbfc00ffffff0007c3d78003ffffc003801dfc0066667f003fffdfc00701c7f001fff3fc006186ff003fffdfc00300c7f00335fffc001c30ff0003c1ff000677d5600000600000381cff007fffffc003b1cff0;
   0x3ffb8c00ffffc3000383938003ffffc003ffed8c00666663000198198003ffc63000060308006186e300030e188003ffc6200337ff8c000000e30003e1a38000f3ce0000fffff000700ec2003ffff0c001918c30;
   0xc1b9c00071dc70007f313800000000001fff59c007ffe6700019819c007ffc67001fff31c007ffee700070719c003ffc67001f6719c007ffee7001ffc71c003c7e7c000fffff001ffffc7007ffff1c001198c70;
   0x1ffdb8c00060cc3001e7bd1800ffffff000e0618c002aaa63001fffd9800300c63000ffe308007ffee3000e0318800300c62001b6718c007ffee3003e3e3c80038e71e00000600000fffbc200003830c000180c30;
   0x1ffdfdc00fffcc7007c1bd1800ffffff000e0719c00000067001fffddc00701c6700006031c0055d4e7001fffddc003ffc67001f6f1dc006186e70010041c00003c3c4003fffffc004181c700001c31c0055d4c70;
   0x18cdbfc00fffcff0023fffc000eaaaa3000e061fc007ffe7f001988df8003ffc7f002aeabf8000180ff003fffdf8003aac7e00070b9fc006186ff0007fffe0000faae0003fffffc000180fe000fff3fc00fffeff0;
   0x1ffdffc00071cff0007fffc000effff7000fff1fc007ffe7f00199ddfc007ffc7f003fffbfc000180ff0038015fc00300c7f00071f9fc006186ff0007fffe000fffffc0001c0300000180ff001fffffc00ffffff0;
   0x1ffdb8c00060cc30003000c0000c0030000aea18c0000006300198cd9800018063002aeab08007ffee3000aaa988003ffc6200079a98c006186e30007000e000fe007f0000e070000fffec2000c0ff0c0007e0c30;
   0x15d5f9c01fffcc70007fffc0000d557000006019c00ffff67001b9dd9c0057d56700006031c007fffe7001fffd9c00355c67000797d9c007ffee70007fffe000cffff7000fffff000ffffc7001c0e71c0007f0c70;
   0x3ffef8c00fffcc30003fffc0000ffff0000aea98c00ffff63001bbcd9800ffff63000fff30800381ce3001aaad8800300c62000d82d8c007ffee30007fffe0000fffe0000fffff00003c0c2000ffe30c000ff0c30;
   0x3ffeffc00001cff0007000c0000c0030001fff9fc0001807f001ed7dfc01ffff7f001fff3fc001c38ff001ddddfc01ffff7f000d877fc006186ff0007000e0000e00700000060000007e0ff001ffe3fc001db8ff0;
   0x3286ffc00366cff0003fffc0000eaab0000aea9fc0019987f001ec6df80008307f000c033f8000e70ff001888df800ffff7e000cc27fc006186ff0007fffe0000fffe0000006000000ee0fe000c0e3fc00399cff0;
   0x37d675c00666c570007fffc0000ffff000006015c00719c57001867d5c001c3857001c0715c0007e057001dddd5c001c7057001cc755c006186570007fffe0000ffff0001fffff8001c70ff001c0e15c00718f570;
   0x3ffe60c00eeee030003000c0000c003000006000c00618e03001840c1800381c03000c030080007e003001888c08003c38020018e200c006bae030007000e0000e0060000aaeaa800383802000c0e00c01e187830;
   0x3c1671c00ccc6070007fffc0000ffff0007fffc1c00e18787001801c1c00f00f07001fff01c007ffc07007ffff1c00781e0700386701c007ffe070007fffe0000ffff000000600000701e07001ffe01c00c183070;
   0x3a0630001ccc7000003fffc0000ffff0003fffc0000c1f380001f00c0000e00780000fff00000fc3f80003ffff0000e00700003072000006aae000007fffe0000fffe000000600000e00f80000ffe000000180000;
   0x3e0620000c443000007000c0000c00300000000000001f100001f01c0000c00100001c070000070078000000000000400300000027000006006000007000e0000e007000000600000400300001c0e000000180000;
   0x0;
   0x0;
   0x0;
   0x0;
   0x0;
   0x0;
   0x0;
   0x0;
   0x0;
   0x700040001c00000007000000700000000380000000000001c000000000000000006000000000000000000000006006000001c00000118000000070000000c000000007000000300000000000000000300000;
   0x2aaa0300063fc0c00000007000000780000000180000ffff80000c0ffc000aaaa8001fffff8003fe7fc000ff9ff000060aea0000ae00000318c00000060000000c2a00000030000007fea00003fffc0000237e000;
   0x3ffe0300063fc1c001ff80700003c3c00000001c0001ffffc0001e1ffc001ffffc001fffff80075675c001ff9ff000ffffff0003fe3fc00399cff003fffdfc000cff7f0000303fc001fff7f007fffdfc007f7f7f0;
   0x3ffe0300063000c001ff8030000701e0000aaaac0000702000001e0e00001ffff80003fffc0003fe7fc000c1983000fff0600003873fc001998fe003fffdf8000c6a3e003fffff80060c07f0001981f8001e607e0;
   0xeff8006301fe001ffbff8001e00f0000ffffe00003cf000003f0700000f00000003fffc00075675c001ff9ff000060ffe0015d7b9c000d90e700070619c000e7063003ffff1c0071ce63003fff99c004e73670;
   0xeff8006301fe00181bff8003ffff8000ffffe00000fc000007383b0000380800003fffc0003fe7fc000c1983000060000003ffff8c007fffe200030e18800fe3022000198b0800398c63003fff98800ee3f620;
   0xe1d800630077001c1839c007ffffc000007070007fffff0006381f00001e7c00003555c00075675c001ff9ff0007ff7fe001775f9c007fffe700575d59c01ffffe3003b9df1c00199c6300399999c007c1e670;
   0xaae19c0063f83300181839c00f00038000006030003abeaa000e5c0e00000ff000003fffc0003fe7fc000ff9ff0006ae606000771ffc000fe0fe003fffdf800eeffbe001f0fbf800ffff7f0039999f8003abc7e0;
   0x1ffe1dc0063f873801c1838e00600060000007038003c37c0001cee1c000007c000003555c000555d74001c198300031c7fe001c3dbfc001df0ff007fffdfc0067637e000f073fc00ffff7f003fff9fc007ffe7e0;
   0xffe18c006018300018183880000007000000601c000e31f00038c7ffc0000f0000003fffc0002abab8000ff9ff0001f87fe0038cfb8c00399ce200000018800676322000fffb0800c00363003fff98800f2af620;
   0x1c0e1c000601c70001c18380003ffff00000070100007367f0031c7ffc00ffffff001fffff8007ffffc00155d750000f031c0011c5b9c01f18fe7001fff99c00677f63007ffff1c00d81f6300000019c01e007e70;
   0xc0fffc00600bff00181bffc003ffff8002aaeaa800003e0f000380fe800ffffff001fffff80000303e00001c380003fcf98003fffb8c004182e200186198800677f22003e03f0800980e63001fff98800fffde20;
   0x1c0fffc00601fff001c1fffc00155d5c003fffffc007ffffd000100de000703c00000180180001fffff001ffffc001f9ffff003fffb9c00319ce7001d7599c0065e363000fff75c00fffc63001fff99c003ffc670;
   0xc0e1800063fc300018181800000180e003fffffc003ffffc001ffcfe000383e00003fffffc0000303a001ffffe00080203f000001bfc00ba0cfe001fff9f8006d633e000fff3f800fffe7f0018039f800300c7e0;
   0x1d5e1c00063fc30001c181800000180400000f0000070460c001ffc7f0003c3f00003fffffc001ffff800001c0f0001ffff8001ffdbfc00fffeff001c619fc007c637f000e033fc0019677f001fff9fc00300c7f0;
   0xffe1c00063003800181838000aabaaa00000f8000031e70c000e001b0001c3b80000ba9ff800003038000abaaf8000eaab8000001b8c00baeee2001861988003c7f22000e03308001be363001aab988003aac620;
   0x1ffe3c000630078001c187c000ffffff00001f800007783cc0006001f8000e39e0001ff9ff8007ffff8001ffffdc001c0038001ffdb9c003367e7001fff99c003c7f63000fff31c001977e300180399c003ffc670].
Definition hanzi_rows_122 : list N :=
  [0xe3e0006300f8001818ec000ffffff000039800003eaaec000600198000638f0001ff9ff8007ffff80000180c8000ffff8001ffdb8c00336fe200006018800386322000fff3080019bfe3001fff988002aa8620;
   0xe760006301dc001c19ce000007e00000071c000075fffc0007001dc0000387c001d59d58000ffffe00001c0c0001c0038000001ffc00337dff0015751fc0019637f0004713fc00ffbd7f0015751fc001c187f0;
   0xee600063038c00181b8e00000e7000000f0e00003181ac00030018e0000381f001ff9ff8001ffffe000ffffc0000eaab8001ffcbfc00ff38fe001fff9f80039fb3e000e633f800ff987f0000601f8000c387e0;
   0xfc700063038e001fff8700001c7c00001e07800071818c0003801c400003807001c19c18000701f000155d5c0001ffff8001d5dd5c00ff1857001fffd5c007dffff001c7395c00181c57007fffd5c000e30570;
   0xe83800638106001ffb038000781e00003c03e00031ff8c00018018000003802001ff9ff80003ef800000180c0000c003800180cc0c00300c02000060008006e6382001861c0800180e03002aea808000630020;
   0x3ffe01c0061f807801c1803c007f00fc001f801f80071ff8c0001c01c000003800001c19c180001ff40003ffffc0001ffff8001ffcc1c00300f07007fffe1c00e76003003870f1c0018070300006001c00ffff870;
   0x3ffe00e0061f80300181801e00fc003f003e0003c003e018c0000c00f000003f80007fffffe00ffefff003ffffc0000ffff8001ffce0000300780003fffe0001c3e00000307c6000018038000006000000ffff800;
   0x40060f00000000000c0070000700100001c003c000c0000c00f000001f80000000054007d007f0000000c0001c003800180c400003001000000000000083600000007c00000180100000060000000000000;
   0x0;
   0x0;
   0x0;
   0x0;
   0x0;
   0x0;
   0x0;
   0x0;
   0x0;
   0x60000000c0000000c00000001c0000000e00000000000000000000000030000000000000000180000000000000000c000000000000000000000000000000018180c0010000700000000c0000600700010001c0;
   0x60000001c2aa0000c0000000180000000e0aa8000000aa000fff2a8000302aa0007feaa8000182aa0000000000000e2aa002aaaaa8000aa2aa0000000000018380c001f8003000fffc0c000060030003e800c0;
   0xfffff0000183ff0000c1ffc0001c3ff0000e0ffc003ffdff001fff7fc000703ff0007feffc0001c3ff003fffffc0000e7ff003ffeffc001ff3ff003fffffc001c700c001fff07000fffc0c000c66030007ffc0c0;
   0xfffff0000383ff0000c0ffc000183ff0000e0ffc003ffdff000faa2e8000e03ff00060effc0000c3ff003ffeffc000063ff003ffeffc001ff3ff003fffffc002eaa060000ff03000aaa80e000c660300003f80c0;
   0x6000000700180000c00600055d4180004e00600018001800078007000fff81800060e060007fc0180015d406000fff0180001c0060001c3018001555d54007ffefe0000e07f8000003fe000c667f8000181fe0;
   0x2aeaa000fffe18003ffe060007ffc18000eee060001838180001e003000fff81800060e06000ffe0180000c006000fff0180000c006000183018000000e00006baefe002aeabf8000003fe000c667f8000181fe0;
   0x7fffe000fffe1c003fff070007ffc1c001cee0700018381c0000f00700000381c00060e07000f5e01c0001c00700055781c0001c0070001c301c000000e0000799e1f007fff9dc007ff877000c670dc0001c0370;
   0x2aeaa000baba1c0000c00600061800c0018ee0700018380c0000380300000380c00060e03000e0601c0000c00600000180c0000c00300018300c0000006000069b61b003fff8cc007ff833000e660cc00fffc330;
   0x60000038381c0000c00700071c00c0018e60300018180c00155e0300000380c00063e0300060701c0001c007000001c1c0001c0030001c300c000000700006db61b8003f81ce00601873000e670ce01fffc330;
   0x1fffff80038380c0000c00300061800c0038e60300018180e003fff3f80000380e00063e0380060300c0000c003000000eac0000c00300018300e000000380006da6190007fc0c000601832001e6f0c0000ce0320;
   0x1fffff8001831fe0000c07f00071c1fe0030e77f8001c19fe003fff7f8000039fe00067e7f8007039fe0001c0ff0007ff3fc0015d57f8001c31fe0000003800065a618001eef1c000601975001f7f0c0001c70300;
   0x6000001831fe002aea7f80061c1fe0030e37f8001c18fe003b38338000039fe00066e7f80030d9fe0000c0ff8003ff3ae003fff7f8001831fe000ffffc0007ffeff8038e7ffc00601bff003b79ffc003871ff0;
   0x6000001c718f007fff63801ffff8e0010e363c00fff9cf003b9873c0000198f0006ee63c0039dd8f0001c0c38001c030e007fff63c001c318f000ffffc0007fffff803071ffc00755bff0073f9ffc007039ff0;
   0x2aaaaa8001c618f803fff63800ffff8f0008e263e00fff88f80399833c0000398f8006ce63e003b898f0000c0c38000e030f0000c063c0018318f800c001e0000000180000300c0007ff8300021f0cc000e83e300;
   0x3fffffc000c618f0001e063c01ffff8f001ce063600e001cf0039cc73c0000198f0007c663c001f018f0001c0c3c0007030f0001c063c001c318f000c001f0003ffc18007fff8c0007ff8300000608c000dc6e300;
   0x2aaafa8000ee18d0001e063e0003c18f800ce063400e0008f0038ce33e0000198d000786634000e018d0000c0c3e0003830f8000c06340018398f000c001b8003ffc38003fff8e0001020700000600e0001864380;
   0x3800007c18c0001e063c0007e18d000ee0630006001ce0018c77340000198c000606634000e018c0001c0c3c0001c30d0001c0630001c398e000c0019c00301c38007fff9e000307078001fff1e0001c60780;
   0xffffc00007818c0003f06340006e18d000e00630006ffe8e0018e3b300000198c0006066300006018c0000c0c340000e30c0000c06300018398e000c0018e00300c68000e0c3e0003860f8001fff3e0001860f80;
   0xffffe00003818c0007306300006718c000700630006fffce00187173000001d8c0026076300007018c0001c0c300040730c0001c063001dc198e000c00184003ffc6c00070e770001861dc000060770001c61dc0;
   0xe001f80007c1ac000638630000e718c0003806b0006000ae0018303f000001dac0066076b0000381ac0000c0c3000c033fc0000c06b0009819ae000c00180003ffcce0003be6300018e39c0000606300018718c0;
   0xe001bc000fe1fc000e1c7f0001c3dfc0001e07f0007001fe001c387f000001dfc0066077f00001c1fc0001c0ff000c03bfc0001c07f001dc1dfe000c0018000301cc60003f8638001cc30c000060638001c718e0;
   0xe0018c003ef8ac001e0e7f000381ffc0000f82b0007000ae001c1c03000000eac002603ab00000f0ac003fffff000c0180c0000c02b000980cae000ffff8000300c87000fe0018000cc10e00006001c001838060;
   0xffff8400fc3f0c003c0703000f00f0c00003f0300071000e001d4f03000000e0c007e01c3000007c0c007fff03000fff80c0001c003000fc0e0e000ffff80003ffc03801f7c01e01fffe07007fffc1e001c1c078;
   0xffff8000f00f0c00380383000e0078c00000f830003f000e000f878000000070c003e00e3000003e0c00000003000fff8080000c003000f8070e000c00180003ffc0300381f80c00fffe03003fffc0c00180e030;
   0xe001800040060000300100000400100000001000001f000000078300000000400000000c0000000c00000000000007fc0000001c000000700600000c0018000301c0000100780000000000000000000001c04000;
   0x0;
   0x0;
   0x0;
   0x0;
   0x0;
   0x0;
   0x0;
   0x0;
   0x0;
   0x700000001800000039800000038000000018300003000000000700000000000000001800000030000000000000000000000000e00000001c000000060000000000000001c70000000000000001c000000004000;
   0x60aa8000382aa000398000000382aa000818300003e00aa0000e02a8003ff2aa000018aa8000300aa000aaa2a8007ffaaa0000e02a80001c0aa0000602a800aaaaaa0000c32a800fffcaa00000caa800000caa0;
   0x60ffc000383ff0003987fc000383ff001e18338007fc1ff0000e07fc003ff7ff00001cffc000301ff000fff7fc007ffbff0000e07fc0001c1ff0000707fc00ffffff0001c77fc00fffdff00001cffc00ffcdff0;
   0xe0ffc000303ff0003987fc000383ff000f9bf380003f9ff0000c07fc003033ff00000cffc000301ff000fff7fc006abbff0000e07fc00ffffff003fff7fc00fffbff0000c37fc00baa8ba00000cffc00ffccff0;
   0x4006000070018003fff870000380180007fbf3800077c18003fff86000303018007ffe06000575418000c0306000701818003fff86000fffe18003fff060001860180001c70600018181800155c06000e60c1c0;
   0x3fff86000fffc18003fff830000380180000f833800031818003fff86000303018003ffe060007ffc18000c8306000621818003fff86000aaea18000030060001860180000c306000181818003ffe06000e60c0c0;
   0x3fff87000fffc1c003b9803001ff801c00001833800071c1c0030018700030301c007fff060007ffc1c000d8b0700073181c0000e00700000601c0000300700018601c0011c70700018181c003ffe06000e67c0c0;
   0x3000aba81c003b9803000ff801c0000183380002180c0030018300030300c0000338600003000c000d8f0300063180c0000e00300002700c0000380300018600c0038c30300018180c00380606000e67e0c0;
   0x4040300003001c003b980300003800c00301f73800071c0c00300d830003ff01c000031c700003000c000ddb0300073180c0018e70300007700c007fffc300018600c001dd703000181c0c00384707000e71f8e0;
   0xe060380003000c003fff8380003800c003ffbff80006180e00200c838003ff2ac0000318300003000e000cbb0300063180e0018e30380006380e003fff8380018600e000eff0380018180e0018e303000e60f8e0;
   0xe0e7f8000301fe003fffbf8000383fe001ff1ffc00fffdfe00000c7f8003033fc003ff07f8000301fe000cf33f8007319fe0018e77f8000738fe00555d7f8001861fe0007ff7f801fffdfe0018e37f800e70cfe0;
   0xe0c7f8000301fe000399bf8000383fe00000000c00fff8fe000e0c3f8003033ae003ff07f800aba9fe000cf33f8006319fe0018e37f800aeb8fe00000c7f800fffdfe0003c33f800fffdfe0018e3ff800e60cff0;
   0x60c73c0003018f000399b3c0003838f00155555400061dcf001f0c73c0030330e00157063c01fffdcf000c7333c007319cf0018e773c00fffccf00000c73c01fffd8f0001c773c01fffdcf00106163c00670cc70].
Definition hanzi_rows_123 : list N :=
  [0x60c63e007ff98f800399b3c007ffb8f803fffffc0006188f8003cc23e0030330f00003063c00fffd8f800c6333c0063998f8018e363e00fff8cf800ffe63e0018618f8000c333e001e018f8000e063c00e30cc78;
   0x61c73c007ffd8f003fffb3c007ffb8d803fffffc00061dcf0001fc73c0030330f00003063c0001c1cf000ce333c007399cf0018e7736000700cf001ffe73e0018618f0001c773c001f01cd0000e063c00634cc78;
   0x60c63c0003018d003fffb3e00601b8d000000e00000e188f00003c234003ff30f8000306340001c18f000cf33340027898f001fff634000600cf000eaa63c0018618d0000c333c001b818d0000e06340063ecc70;
   0x71c7380003018c0037dd73c00601b8c000000700000e1dce00001c730003ff30d003ff06300019c1ce000df3330000781ce001fff730000700ce0007007380018718c0001c77380019c1cc0001f063000637cc60;
   0x3186380003018c00339833800601b8c000ffffc0000c188e00000c2300030330c003ff06300038e18e000dbb3300007c18e001aea630000600ce0003806380018618c0000c33380018e18c0001b06300063bec60;
   0x3187380003018c00339c33800601b8c000fffff0000c1dce00100c7300030330c001570630003871ce000d9bb3000c6c1ce0018e073001fffece0001cc7380018718c0011c77380018f1cc0003b863000618cc60;
   0x3186b8000301ac00338e3b800601bac000c003f8018d98ae00300c2b0003033fc0000306b0003071ae000f9dbb000c6e1ae0000e06b000fffeee0000fc6b8001831ac0030e33b8001879ac0003386b0006180ee0;
   0x3987f8000301fc003f863f800601bfc000c0039c019d9dfe00300c7f0003033fc0000307f0007031fe007f0dbf001c671fe0070e07f0000700fe0000f87f8001831fc0071ff7f800183dfc00071c7f00061c0fe0;
   0x1802b8000300ac001f872b800601aac000c00388009b18ae00300c2b00030300c0000302b000ffb8ae00280dbf000c638ae0030e02b0000600ae0000e02b8001838ac0031ff2b800180eac000e0e2b00060e0ae0;
   0x3fffc3801fffe0c000383838007ff80c000ffff8000fb7c0e003ffc03001ffff0c00003003000fffc0e007801c3000fe1e0e0075c00300007000e0003c003800181c0c003fcf838001fc40c003c07030007470060;
   0x3fff83800fffe0c000381e38007ff80c000ffff8000f23e0e001ffc03000ffff0800003003000c0f80e003800e3000fe0f0e003fc00300006000e00038003800180e0c003f83038001f800c003803830003e38060;
   0x380c0000601800000c0038000760400000ff00000000000000003000001c0000000100040000000200001fc00000007000000030000000180c0000000100000078000003001000001c10000;
   0x0;
   0x0;
   0x0;
   0x0;
   0x0;
   0x0;
   0x0;
   0x0;
   0x0;
   0x100000000000000000070000000060000000e0000000300000000000000003000000080000000030000000061c000000000000070c000000000000000c0000000380000000c000000000000000000380000000000;
   0x182aaa8003ffeaa000030000000060000000e0000000302aa0002aa2a8000300aa001fa02a8000380aa0001f0c0000fffaaa00030c2a800aaaaaa0000c02a8000380000000c02a8000000aa000aa8180007800aa0;
   0x187fffc007fffff000038ffc001ff1ff000060ffc000303ff001fff7fc004315ff001fff7fc0003c1ff0007c0c0001ffffff00070c7fc00ffffff0000c07fc000383ff0000c07fc00fffdff001ffd5d4007ff1ff0;
   0x1b3bbfc00300fff000ff8ffc001ff1ff000060ffc000303ff000eaa7fc00630dff0000be7fc0007c1ff003fffffc00001aba002baeffc00ffffff0000c07fc000383ff0000c07fc00fffdff001abbffc000ffdff0;
   0x1b3306000701c18001ffc060001d781c001fff070007ff81800070006000731c18000007060000ee018003fffffc00001c1c003fffc6000060618003fff06000038018003fff06000030018001c3bffc00007c180;
   0x1b3306000300c18000e0e060000c1818001fff060007ff81800038006000630c180000c6060000c601800060c60000001818002bae86000060618003fff06000abaa18003fff06000631818000c318600000c0180;
   0x1b33070007ffc1c00061e070000e1c1c0018070700003001c0003c007000731c1c0000c7070001c701c000f1c70001fffc1c00070c0700006061c0035d707000fffe1c0038c30700073181c000e71c700001c01c0;
   0x1b33030003ffc1c00073f06000fffe0c001b030300003000c0001e003000630c0c0000c30300038380c0003ec38000fff80c00030c030002ea60c0030c303000fffe0c0018c30300033180c0007e0cf00001800c0;
   0x1b3303000701c1c00037387001ffff0c001b070300003000c0007f003000731c0c0000c303000f01c0c0011fc3c000575c0c00070c030007fe60c0030c30300007c00c0018c30300033180c0003c0fc00003800c0;
   0x1b3303800300c0c0003e12b000000f0c001b8b03000aba80e000fbc038006bac0e0000c303800e00e0e00303f1e0000319fe000c03038006ea60e0030c32b8000fc00c0018c30380033300e0003e0f80003ffe0e0;
   0x1b7fff800701dfe0001c07f000001ffe00199f7f800fffdfe007e1f7f8007ffdfe003fffff800fffffe003fffef000031dfe000e077f8006666fe003fff7f8000fe1fe001fff7f8003331fe000ff1fe0007ffffe0;
   0x1b7fff8003ffdfe0003e07f8007fccfe0019bb7f800fffdfe003807bf8002ba9fe003fffff8003ff8fe001ff8e3c0003198e000e063f8006626fe003fff2b8000fe1fe001fff3f8001b30fe003e3f8fc007aaafe0;
   0x1b7ff1c007ffd8f000f78638007fddcf0019f773c0003018f002001f3c000301cf0000c173c007ffdcf00000001800ff1d8f00070673c006666cf0030c373c001ff18e001fff73c000301cf00181d03c003801cf0;
   0x1b3331e00018d8f803e1e63c0060cc8f0018e363c0003018f80000023e00e30d8f8000c063e0003808f803fffffc00ff998f00070e23e006626cf8030c323e003bb18f000c0f23e00fffecf803fffffc001c008f8;
   0x1b3331e00419d8f007c0fe3c0060ddcf0019e773c0003018f001fff73e00e30dcf0000c073c000381cf803fffffc00639d8f00031c73c006666cf8030c373c0033b98f000c1f73c01ffffcd003fffffc001e01cf0;
   0x1b3331c00e38d8d003fff63e0060cc8f801be363e002ba98d001fff23c00e30d8f000ecc63c0003808f000000e0000e39d8f800398234006626cf003fff2340073998f800e1b23400abaacd000000700000e008f0;
   0x1b33318007b1d8c001ffe6340070ddcd001f77734007ffd8c0000c073800e30dce000cce738000381ce00000070000619d8d0001f8730007e66ce003fff73000f39d8d000733730000301cc000000780000781ce0;
   0x1b33318001f0d8c00180e630007ccc8c001a3b630007ffd8c0000c023800e30d8e001cc66380003808e000aaab8000618d8c0000f0230003e26ce0030c323000ebaf8c000373230000300cc000ffff800003c08e0;
   0x1931b18000e1d8c001c0e630003ccdcc00181f7300003018c0000c073800e30dce0018c7738000381ce000ffffe00061cd8c0000f0730000606ce0010c373000dff78c0003e3730000301cc000ffffe00001e1ce0;
   0x1831bb8000e0dac00180e6b00000ccfc00181f7f0000301ac0000c02b800e30dae0038c36b8000380ae000c003f80060cffc0000f82b0000606ee0000c03f0001ff3ac0001e3ab0000300ec000e001f000007cae0;
   0x1831bf8001d1dfc001c0e7f001c0cffc00180f7f0000301fc0000c07f800e30dfe0030c3ff8000381fe000c003fe0060cffc0003fc7f0000606fe0000c07f0000381fc0003e1ff0000301fc000e001fc00007ffe0;
   0x1831ab80039ecac00180e2b000c0c6ac001aab2b0000300ac0000c02b800fffcae0030c1ab8000380ae000c0039c0060e60c00078e2b0000006ae0000c0030000380ac0007f9ab0000300ac000e0019c0000e6ae0;
   0x1831c1801f1fe0c001ffe03000ffc70c001fff03001fffe0c007fffc3800fffc0e0030c103800fffe0e000ffff800070770c001f07c3000fffe0e0000c00300003800c001f3dc300003000c000ffff8c01ffc70e0;
   0x1e30c1800e03e0c001ffe03000ff830c001aab03000fffe0c003fff83800e0000e0000f803800fffe0e000ffff80007e3b80003c03c3000fffe0e0000c00200003800c003c0ec300003000c000ffff8000ff820e0;
   0x1e3040000400400001c0e000007f02000018070000000000000000000000e0000000007800000000000000c00380003c3100001000c00000000000000c000000038000001004c0000030000000e00180005402000;
   0x0;
   0x0;
   0x0;
   0x0;
   0x0;
   0x0;
   0x0;
   0x0;
   0x0;
   0x1d000000001c0000000e000000018000000000000000380000000180000018700000000000000018000000180000000300000000000000001800000001c00000038000000000000001c7000000000000000000000;
   0x3ffe2a8000180aa0000e02a8000380aa001f9faa8000180aa0000182a8001830aa003fffaa8000380aa000db82a8000308aa000f802a800218aaa0000182a8000380aa002aaaaa8001830aa003fffaa800fffcaa0;
   0x7ff7fc000181ff003fff7fc000701ff001fdfffc0003c1ff0007fc7fc001871ff003fffffc000301ff001dff7fc00631dff001fff7fc00718fff0000187fc000381ff003fffffc001c71ff007fffffc00fffdff0;
   0xc37fc00ababff003fff7fc00fffdff001898bfc0007e1ff0007fc7fc00ffffff0000e07fc00ffffff00198fffc006319ff0000fe7fc00218fff001ff87fc000381ff002aeaffc001831ff002bbabfc00eaadff0;
   0x1c306000fffe180000e006000fffc180019d9c70000e701800070e06001fffe180000e006000fffe1800398dc60007330180000e006000718e18001fff060007ffc18000060060001c701800019806000e00c180;
   0x2aeb06000eaae18001fff06000c00c18001898830001c301800038706000baba18002aea0600000c01800318c060003330180000e0060003ffe1800083f060007ffc180000600600018301800019806000e00c180;
   0x3fff07000e0061c001fff07000c44c1c0019d9c30003c381c0001c70700018701c003fff070001ce01c00118c070001b701c000060070007ffe1c001c300700013801c001ffe07000fffe1c0015dd07000fffc1c0;
   0x2bab03000e0060c0000e003000cecc0c001f9f83000701c0c003fff8300018300c003aeb0300038600c00018c0300003000c003fff030002aa80c000e7003000738c0c001ffe03000fffe0c003fff83000ffec0c0;
   0x1830300000000c007fff830001ce00c001fdfc3001ffff0c003fffc300001c00c0038e30300070700c007fffc30007ffc0c003fff0300000000c0007e003000339c0c001c06030001c700c003fff83000e00c0c0].
Definition hanzi_rows_124 : list N :=
  [0x2383038007ffc0e003fff8380038700e0018988b800dfff0e0038c38300003800e0038e3038007ff80e003fffc38007ff80c000338038002aaa0e0031e00380033980e0018c60380018300e00399183800e00c0e0;
   0x37737f8007ffdfe0000007f8007039fe0019d9df8009553fe0038c77f8000701fe003fff7f800fffdfe00030c3f800701dfe0007187f8007ffffe0031fc7f8001bb8fe001cc67f8001c71fe003991bf800efecfe0;
   0x3e7fbf8000380fe000aaa3f800e01cfe0018989b8000000fe003aeb3f800aaaafe003fff7f800c0bcfe003b0c3f8006019fe000e1c3f8003ffefe003fbf3f8001bb0fe0018c67f8001830fe003999bf800efecfe0;
   0x3e1ff3c000381cf001ffe73c00c00dcf0019d9d9c006181cf003fff73c00ffffcf0038e363c005911cf001b0c33c00755dcf001c0e73c007001cf001f0773c001180cf001cc663c001c71cf003999b3c00ec6ccf0;
   0x180023e0003988f80180633e0000008f80189899c00618ccf803aeb23c00fffe8f8038e363e0019988f801b4c33e007ff98f00380fa3e0030008f80080023e00fffecf8018c663e0018308f803999b3e00ec6ccf8;
   0x1fff73c00039dcf001c0673c007ff9cf001fdfd9e00718dcf0038c773c000039cf003fff63c001999cf001f7c33e007ffdcf00361bf3c007ffdcf003ffff3c00fffecf001cc663c01ffffcf003f9db3600ec6ccf8;
   0x1ffe23c007f988f001ffe33c007ff88f001f9f99e003388cf0038c32340000388f003fff6340019988f000f3fb3c0060198d00061923c003ffc8f003fffa3c000380cf0018c663c00fffe8f003f8fb3400ec6ccf0;
   0x1c07738007f9dce001ffe738000301ce0019d9d9c003319ce003fff730000039ce0000e0630001999ce000f0ff3800701dcc000618738007ffdce0017dd7380007c0ce001cc663801ffffce003807b3000ec6cce0;
   0x180223800039c8e0018063380003008e0018d8d98001b18ce003fff2300000388e0000636300019988e00070cb38007ff98c00061823800000c8e0003982380006c0ce0018e66380000008e003801b3000efecce0;
   0x1fff73800039dce001ffe738000301ce0018d8d98001b19ce003dd7730000039ce000077630001999ce00070c338007ffdcc00061c73800400dce00039c738000ee0ce001c66638001c71ce003801b3000efecce0;
   0x1ffe2b80003bcae001ffe3b8000300ae0018d8d98000808ee0038c32b0000038ae00003e6b0001998ae00278c3b8006019ac00060c2b800c00cae00039c2b8000c60ee0003606b8003830ae003801bb000e06cee0;
   0x1c077f80003bffe001c067f8000301fe0018d8df8000c01fe0038c3ff0000039fe00003c7f001999dfe0067cc3f800701dfc00060c7f801c00dfe00739c7f8001c70fe0007f07f8007839fe003801bf000e00cfe0;
   0x18022b80003e6ae0018062b8000300ae0018d8eb8000e00ae0038c1ab0000038ae0000fc2b000998eae002fcc2b8006018ac00060e2b800c00cae00238e2b8003838ae000e382b800701cae003fffab000e00cae0;
   0x1fff03801ffe70e001c0603801fffe0e001d7f61800ffff0e003dc1c3000fff80e0007ff03001d9870e007cff83800741c0c00060703800fffc0e00770703800701e0e003c1f03800e01e0e003fff83000f40c0e0;
   0x1ffe03800ff838e000f8603800fffe0e001e7e61800fffe0e003ec0e3000fff80e003f87c3000f9878e003c7f838007c180c000603838007ff80e003f03c3800e00f0e00380783800c00f0e00380183000fc0c0e0;
   0x1c0700000fd0100000f0600000000000001e4420000000000001e00c0000000000003c0180000700300003827000003c1c0000060100000000000001f018000040070000300100000400600003801800007c0c000;
   0x0;
   0x0;
   0x0;
   0x0;
   0x0;
   0x0;
   0x0;
   0x0;
   0x0;
   0x70000000181c0000000000000070000000070000000000000000e00000011c0000000700000003800000006000000066000000070000000660000000c00000018600000006000000000000000000000000000000;
   0x1f802a8001818aa001ffe2a8000702aa0000e02a8007ff8aa0000e02a800188caa0000702a8000380aa0000e02a8000660aa0000602a8000760aa0000e0aa8001862aa0000e02a8007ffaaa000fff2a800fffcaa0;
   0x3b003fc001c39ff001fff7fc007ff7ff0000c03fc007ffdff003fff7fc0019cdff0003bc7fc00ffffff0000c07fc000661ff0015f57fc000671ff000060ffc001867ff0000c07fc007ffbff001fff7fc00fffdff0;
   0x33003fc000c30ff0018c27fc007ff2ea001fffbfc006019ff003fff7fc00188cff00071c7fc00ffffff003fff7fc000660ff003fffbfc000e31ff001fffffc00baeaba003fffffc00601bff000c002e800eaacba0;
   0x7fff8700006701c0018c706000703070001fff86000701c180000e006000ffff18000fff06000038018003fff060007ffc1c003fffc60000c3018001fff06000fffc18003fff86000755818001c0007000c30c180;
   0x3fff83000ffff08001ffe06000603060001803860007ff818001ffe06000ffff18001fff060002ba818000c08060007ffc1800300186000fff8180018c306000bae818000000060007ff818000ffe06000c30c180;
   0x575583000ffff1c001fff070007ff7ff001803870007ffc1c001fff0700019cc1c00187f070007ffc1c000c0c07000664c1c003005c7000fff81c0018c70700018601c00061c0700070181c001ffe07000dfec1c0;
   0x3018300006600c0018c2030007ff2ea001aab8300060180c0000e003000188c0c0000700300003800c000e0c03000664c0c00200283000061c0c001fff0300018600c00060c0300060181c000c0003000cfec0c0;
   0x37f8300006600c0018c703000703070001fff830007ffc0c007fff830001fcc0c003fff83001ffff0c00061c03000664c0c001fd703000061c0c001fff0300018601c00070c030007ff81c000c0003000c30c0c0;
   0x337f838000660ae001aea03800603060000aab838007ff80e003fff838001f8c0e003fff83800fffe0e00061803800664c0e001fbf03800061e0e0018c32b000fffcac00070e038007ff80e003fffbf800c30c0e0;
   0x3b01bf800e667fe001fff7f8007ff7ff000003bf8005575fe0000003f800000cfe00071c3f8005555fe00575d7f8007ffcfe0019f73f8007ffffe0018c77f801fffdfc000f9e7f8000001fe007fffff800dffdfe0;
   0x1b01bf800e666ee000aaa3f8007ff3ff002aabbf8000038fe001ffe3f8002aacfe000e0e3f8002aa8fe003fffbf8007ffcfe0018b3bf8007ffbfe001fff7f8000001ae001db73f800aaa9fe002aeaa3800dfecfe0;
   0x1b7db1c006666cf00000073c00000005003fffb3c00fff9cf001ffe33c007ffccf003cc7b3c007ffccf007ffff3c00664cc70019f1b3c000619cf001fff63c0000018e0039f373c00fffd8f0010c173c00c00dcf0;
   0x1b7db1e006666cf003fffa3e00aaaaaa003befb3e00fffccf80186633e002ba8cf8038e3f3e006aaccf80000023e00664cc78018b9b3e0006198f80026063c007ff18f0010c3b3e00baa98f8038c723c00c00ccf8;
   0x1f65b1c00766ecf007ffff3c00ffffff003367b3e00c30fcf001cc633c000180cf003078f3c00711ccf80155473c00664cc78019dff3e000619cf00037063c007ff18f0000c173c0018018f001ccf73c00dfedcf0;
   0xf65b1c00366ccd8000c623c00aaabaa003367b3c00c306cd003fffb3c00abaacf00071e33c00638ccf001ffe23400664cc700189ff3c002eb98f00033863e0060318f8000c033c00baab8d000ecc23e00cfeccf0;
   0xf65b1800366ccd0031c6738000001c0003367b3800c39fcc007ffff3800ffffce0003cf33800739cce001ffe73001775dc6001dde338007ff9ce00031c6340070318d007ffff3801ffff8c0007ec73400dc6dce0;
   0x665b18003e6ccc003986238002aaae0003fffb3800e788cc000c6233800abeace0018e233800638cce00180623000ffffc6001e8c338002eb98e002baae30006ab18c003fffb3800ffff8c0003f023000c86ece0;
   0x77df18001e7ccc001f86738003ffff8003ffff3800fcfdcc001cc73380007f0ce001c7c33800719cce001c0673001ffffc60005cc338000619ce007fffe30007ff18c0000c07380018718c0007fc73000dc67ce0;
   0x27acfb8000660ec0007062b8003aaafc003367bb800e868ec002eeb3b8000fb0ee000e1e3b800618cee0018062b0000c60ee00008e3b8000619ae003fffff0006ab1fc0000c03b8001871ac000ece3f000cfe6ee0;
   0x67c4ff8000660fc0007067f80038007f003367ff8007ffdfc003fff3f8001dbcfe0007c63f80045d4fe001c067f0003c70fe0071c73f8000619fe0003007f0007031fc0000c07f80018e1fc001cc7ff000dfe7fe0;
   0x67c0eb8000660ac000ee62b800380067003366eb8007ff8ac000c002b800399eae0001e02b8001ee0ae001aae2b0003838ae0020832b800fff8ae0003000300060300c0000c02b80018c0ac0038c383000c063ae0;
   0x7cf061801ffff8c001cff038003fffe1003366e380060000c000c0003800f18f0e00007c038007c7c0e001ffe03000701c060071c3c3800fff80e000300030007ff00c0000c00380018400c0030c003000c0038e0;
   0x3c7861800ffff8c00381e038003fffe0003f66638007c000c000f800380061830e00003f03800e01f0e001ffe03000e00f06003f81e380000180e000300020007ff0000000c0038001f800c0000f800000fc018e0;
   0x38304000000000000300200000380060001c06400003c00000007800000001810000000700000c00700001c0600000400600001f00c0000001800000300000007030000000c0000001f0000000078000007c01000;
   0x0;
   0x0;
   0x0;
   0x0;
   0x0;
   0x0;
   0x0;
   0x0;
   0x0;
   0x550180000030000003110000000180000006000000038000000c06000001540c000060600000303000000000000000000000000600000018180000000000000018000000006000000380000000c00000001c0000;
   0x7f2ba800003000000331aa8000318aa0000e02a8000380aa000c062a8001fc0e00006062a8003870aa001fffff8003ff8aa0000e02a8003818aa003fff2a8000380aa002a862a8000380aa0038c3000000380aa0;
   0x773ffc00fffffe000331bfc00fffdff0015d57fc0057d5ff000c077fc001dc7fc00070e7fc001c61ff001fffff8003ff9ff0015d57fc001c38ff003fff7fc000301ff003fffffc000381ff0038c37fc00fffdff0;
   0x63018000fffffe00033baa800fffdff003fffffc007ffdff003fbf3fc0018e7fc00038c7fc000ce1ff000000e00001e39ff001fffffc000c30aa0038032e800ffffff003bbfae800ffffff0038c37fc00ffffff0;
   0x61bff80055555e00037fe7000c7c618007fff860007ffc18003fff0600058766c003fff86000fffe180000007000007f81800175d060000c701c00380306000fffe1800330607000fffe18003dd707000fffc180].
Definition hanzi_rows_125 : list N :=
  [0x3e1fff8000c030e00033183000e6df1800061806000038018000c3186000f83eec003fff86000fffe180007fff80000fe01800060c06000ffff0c003aab06000c00e1800330602000afea18003fff030001830180;
   0x140d55000fffffe003ff18300076739c001e0e0700003801c000df3c70005016cc0001cc0700003801c0007fffe0003ffc1c00071c07001ffff0c003fff07000c00e1c00333f830000fe01c003fff070001c701c0;
   0x1ffdff800ffbfee003fff830003c638c00386703000fffe0c000cdfe30003ff7ff00018c0300001800c0007003f800381c0c000318030000c080c000aab03000fffe0c00333f830001ff00c00000c030000c600c0;
   0xffd998001e078e00333f830003c3e0c007073c3000fffe0c000cde430003ff7ff001fff830007ffc0c0007003bc00fffe0c003fff830001c1c0c000673030003ff00c003186030007bbc0c007fffc3000fffe0c0;
   0xe31998003f1f8e0033318b80018380e0022388380008600e003fcc0380038e62c001fff838007ffc0e0007fff8800fffe0e003fff838000c0cae0006230380000000c0031aeab800f39e0e003fff83800fffe0e0;
   0x7e1ff8007dffee00333f9f800381cfe00071c7f8001c70fe003fce3f8001dc66c0019cc3f80001c0fe0007fff80006262fe003061ff8004e4cfe003fff7f8007ff9fe0031ffff801e38ffe007fffff800c186fe0;
   0x3e1ff800ecf37e00333f9b800fffefe000e0e3f8003838fe000c073f8000f86ce003baebf80000c0fe000000000003f7ffe0030e1bf800e6eeee003fff3f8003ff9fe003eeebb800aaaafe00038e3f800c386fe0;
   0x7ffe01c000c471e00333199c01fff7cf001fff73c007ffecf000c63f3c007fe646007ffff3c00fffecf003ffdffc003c3ccf0000c073c006766c700067373c007019cf001e7633c003ffccf00018633c00c386cf0;
   0x3e1e00c0008020e00333199c008002cf801bff23e00fffecf800c61b3e00f8ff87003baeb3e00fffecf803ffdffc007e7ecf801fffb3e007f7fc700062333e0030198f00000633c003ab8cf8033b633c007ffccf8;
   0x155555c00fffffe00337ff9e000000cf8010f173c004004cf00006033c004013830019cc33c000060cf0015755d400e7efcf801ffff3e003f7fc780067373c007ff9cf00006033c00301ccf0019b633c007ffccf0;
   0x3fffffc00fffffe0033fff9e007ffecf0020f823c002aa8cf003ffff3c00ffffff001baeb3c000060cf0000600e0000382cf00003833c003b33c7803fff33c003ff98d00006033e003ff8cf0019b633c00638ccd0;
   0x155575400000e0600319ed9c007ffece0079de738007ffcce003ffff3800ffffff001fffb38007ff0ce00157057000ffffce000018738001818c7007fff738007019cc003ffff34003ffcce001d9733c00739ccc0;
   0x380000007060031bed98000180ce001d8f238006eecce0001f8338000000e000038e338007ff8ce001ff8ff000ffffce000ff8338001818c600319bb380030198c003ffff30003018ce000f9a33800638ccc0;
   0xffffc0007fffc60031b7d9800319cce000f8ff380066ccce0003fc338003ffff00007ce33800071cce001ffdff80007e0ce001ff8738006c6cc6003f19f38007ff9cc0000f033000355cce0003d733800739ccc0;
   0xffffe0003aabe60031a3d9800318cee00030cab80066ccee00076e3b8003ffff800078f3b800061cee00183c83c000ff0ee000c1c3b800ee6ec6000f19bb8003ff9ac0001f8330003ff8ee0002c33f800638cec0;
   0xe001fc0070077f0031c3df800718efe000f0c7f80066ccfe000e673f80038007e000dcfbf800070ffe00183fc7e001db8fe000c1c7f800c667fe000719ff8000001fc0003bc3f0001554fe0006e3bf8007f9cfc0;
   0xe001bc003003330038ffcb800e186ae000e8c2b80066ccae003c63ab80038006f001d8deb8000607ae00183682400399cae000c0e2b800ffffae000f98eb8000000ac00079e2b0000000ae000e61ab8003b8cac0;
   0xffff88007fff03001effc1801c1870e007dfc03801ffff0e007861e38003fffe30079cde3801ffff0e001ff1ff001f18f0e000e0703801ffff86001df8c3800fffe0c001f0f03000ffff0e001c79c380003800c0;
   0xffff80003fff03801e600180001f20e00383e03800ffff0e002060c38003fffe000318cc3800fff80e001ff0fe000e1830e000fc3c380081c1060038fce3800fffe0c003c03e3000ffff0e00783e8380003800c0;
   0xe00180007007010000400000001f00000200400001555500000060000003800600001cc00000000000001831470000181000007c18000000400000101c40000000000003001c000000000000300c000000380000;
   0x0;
   0x0;
   0x0;
   0x0;
   0x0;
   0x0;
   0x0;
   0x0;
   0x0;
   0x60000300100000380c000000040000000000000000000007180000001800000071c000001c70000000000000000000000030300000033000000c00000001c3000000000000001180000000c0000000004000;
   0xe0000300380000380c0000000e0000000000007ffc00000218000000380aa0003082a8000c60aa003fffaa8002aa8000003030a8000330aa001ffa000000c30aa003fff80000318caa0008ff2a800ffdeaa0;
   0x1ffe1c0000300700000381c0000000e0000fffff0007ffdff807fffffe01fffeff003fffffc00ffffff003fffffc007ffdff0003071fc000739ff0005ff7fc005d74ff003fffffc00399dff001dff7fc00fffdff0;
   0x1ffe18000030060000038380000001c0000ffffe0000181ff803fffffe00fffeff003fffbfc00fffeff0000007fc000181ff0003bfffc000619ff000ce67fc007ffeff0003307fc0019b8ff0007b87fc0000d1ff0;
   0x1c065d4000301750000385540000018000055555000ffff1c001f180700000061c00071c060001c7018001fff0600001801c0001bfe7000fffc18000ce6070007ffe1c003fff070001d9018003399860007fc0180;
   0x1806ffc000303ff000039ffc00000ffe00000000000fffe0c003b008200030c60800038e060000c6018001aea06000fffe18002b8003000fffc18000eec060000c300c003fff060007ffe18003b1b860007fcf180;
   0x1c06ffc000301ff000038ffc00001ffe00000000000c1870c007fffc7000fdfe1c001fff07000fffe1c001dd707000fffe1c007f9fc3000071e1c0006ec070001c300c003333070007fff1c001f1f0700060df1c0;
   0x180660000030180000038e0000000e0000000000000fdfe0c003ffb03000fdfe0c003fff03000fffe0c001ffe03000c1860c003f9fc3000060f0c003fff83000ffff0c003333030000fe00c000eae0300060c80c0;
   0x1c0670000fffdc000003870000000700001555554003dfc0c0003030300038e60c0019f383000c0060c001cc703000fdfe0c0019d8c3000ffff8c007fff83000ffff0c003fff030001df00c001fff030007fd00c0;
   0x180638000fffce000003830000000300003fffffc0001800e003ff8030007df60e001bbf83800dff60e001ffe038003df80e0019d8cb800ffff0c0003f8030000180ae003fff0300039bc0e003aab038007ff80e0;
   0x1c061c000fffc7000003838000000380003fffffc007dfcfe0037583f800f5defe000f3cff8001550fe001fff7f8000181fe0019dfdf800071dfe0007fc7f8007ffefe0000007f801f18ffe007803ff80000dcfe0;
   0x1ffe1e0000300780000383c0000001c0000006000000180fe003bb9ff800b6defe000e1b3f8000000fe0000003f8007dfcfe0019ffdb800060cfe000eee7f8007ffeee001ffe3f800c182fe002fffbf80000ccfe0;
   0x1ffe3f0000300fc0000387e0000003e0000006000005518cf003ffbb3c0030c6c700075f31c00fffccf003ffff3c007dfdcf001dc019c00fffccf001ce7738007186c7001fff73c00319ccf000fff73c00ffcecf0;
   0x18067f8000301fe000038ff0000003f000010608000ff18cf00331b33c000006c7800ffe31e00abe8cf802aaab3c000180cf000f3ff9c00fffccf0038e3e3c006186c700180623c00ba0ccf800c0633e00aa86cf8;
   0x1406edc000303b7000039dfc00000ffc0003861c000f7ffcf003ff833c00fffec7801d5731c0060f0cf001fff73c007ffdcf000f1ff9e00071ccf003ffff3c007ffec7801fff73c00fffccf000c0773c000380cf0;
   0x6cce0003033380003b99e00001cde0003060c000e3ffcf80331a33e00aaeec7007803f1c0079fecf001ffe334007ffccf800f0e19e00060ccd001ffe63e007ffec7801aae23e00baeecf000c0633c000380cf0;
   0x60c4000301310000399cc00001dcf0007060e000ff18cf003d1e33c0000e7c6003ffff18001fc4ce001cc773000618dcf000f0719c01fffccc001ce7734007186c700180773c003367ce000fff73801fffece0;
   0x60c000030030001038180000018c2000e0606000ff3cce000c02338002ae2c6000fff318001f70ce001ffe33000618cce00063e19800fffccc0018e2630006186c6001ffe23800336fce000ffe33800fffece0;
   0x10060c0000300300070381c0000001c0001c0607000e37cce007fff338007ff3c60004c4318001bbece001fff730007ffdce00077ff9800001ccc001fff730007ffec60015d573800337dce00060e738000fe0ce0;
   0x30060c000030030003038180000000c0001c0603800fffeee002eab3b800607bee000ecc3b8003bceee0018c23b0007ffcfe000f07f9800366cec001ffe6b0007ffec60000c02b800ff38ee00060c3b8000ff0ee0;
   0x70060c0000300300030381c0000001c0001c0601c00ff5ffe000c71bf800607ffe001cc73f80077f0fe001fff7f000618dfe000f871f800666cfc001ce77f0001c70fe007fffff800ff38fe00071c7f8003fb8fe0;
   0x30060c000030030003038180000000c000380600c00e31bae000ce1ab800606bae0018c3ab800e338ae000aaa2b000618cae001d860b800eeeeac0018e22b0003c38ae003fffab800301cae0003182b8007b9cae0;
   0x3ffe0c001fffe30003ff01c0000001c000000750000ff190e000cc1c38007fe1860030c3c1801e31f0e007fffc30007ffc0e0039c701800ccc60c001fff03000781e060000c003800300e0e003fffc3801f38f0e0;
   0x1ffc0c000fffe30001ff0180000000c0000007f0000ff180e000f80c38007fe1860020f88180083e20e003fffc30007ffc0e0030f3c1801ccc70c001ffe03000e00f860000c00380030070e003fffc3800c3860e0;
   0xc0000000300000001c0000001c0000003f0000e31800000700800006061000000780000001e00000555540000600c00003063c0000c44300001c07000004003000000c000000300300000000000000380000;
   0x0;
   0x0;
   0x0;
   0x0;
   0x0;
   0x0;
   0x0;
   0x0;
   0x0;
   0xe0040000000100000600300003801000000c030003000080000000400000401000011c060000180100000000200001800c000000040000100100001c00400070001000000004000000018000000020000000300].
Definition hanzi_rows_126 : list N :=
  [0xe00e0000000380000600700003803800001c070003e001c000aaa0e00000e038000398070000180380000000700001801c0007fc0e0000380180001800e0007e0038001f800e000000038000000070002aa0380;
   0xe01c0007ffc300000600600003807000001c0e0003ff038000ffe1c00063c07000071c0e00001c070003fff0e0000180380007fc1c0000300380001c01c0007fc070001ffc1c000fffc70000fff0e000ffe0700;
   0xe01c0007ffc700000600e00003806000000e0e00003fc38000ffe18000678060000e180c00001c060003fff1c0002ba83000060c180000300300001801c0000ff8600001fe1c000fffc70000fff0c000ffe0e00;
   0x3fff1d400700c750000601540057d575007ffe15400037c55000c065d400770175000c1c1d40001c1750000701c0007ffc3000071c5d4005754750001c0180000079750001875d4000380600006001540070e1550;
   0x3fff7fc00600dff0000607fc00ffffff003ffe7fc00030dff000c06ffc003203ff00000c7fc00ffffff0000307fc002ba9ff00060cffc00fffdff0001807fc00003bff000186ffc000383ff0006067fc0030e7ff0;
   0x3df77fc00700dff007fffffc00fffdff007fff7fc00030dff000c067fc0030e1ff007fffffc01fffdff0000307fc000181ff00070c7fc01fffdff0001c6ffc000039ff0001877fc000381ff0006067fc0030e7ff0;
   0x38e330000600cc0003fffb80000381c0000033b8000030ce0000c066000038e180003fffb800000e1c0000038600000181c000060e6000000c0c000018660000003980000186700000381800006063000038e3000;
   0x38e330000700ce0000060380000380c0000033f8000070ce0000ffe7000018e1c000001c3800000e0c0000018700007ffcc0003f077000000c0e00001c6700005579c0000187300000381c0000606380001ce3800;
   0x38e318000600c60000060180000380e0000031d8000030c60000ffe380003ce0e000000c180000060e0000018380003ffce0003e07b800000c06000018638000fff8e0000186380000380e0000606180000ce1c00;
   0x3fff1c0007ffc700000601c000038070003ff0dc000fffc70000c061c0007cfc7000055c1c00000707000155c180007ffc700000039c00055c070003fc618001fff8700015d71c000fffe700007071c0000ce1c00;
   0x3fff0e0007ffc780000600e000abaa78003ff00e000fffc38000c061e0006eec78001ffc0e000007078001ffc1c0000180300000001e0007fe038003f861c0000c3878003ffe1e000fffe780007060e00018e0e00;
   0x38e31f0007ffcfc0000601f001fffefc0015701f000575c7c000c063f00066ecfc001ffc1f0007ff0fc001ffc1e000018078001fff3f0007fe07c0001c63e0001c38fc003fff3f00057d4fc003fff1f00038e1f80;
   0x38e33f8000e60fe001fff3f800fffefe0000303f800060cfe000c067f800e6edfe000c1e3f8007ff9fe00181e3e0000180fc001fff7f80060e0fe0001867f0000c39fe0003867f8000381be003fff3f80070e3fc0;
   0x38e37fc000e73ff001fff7fc0001c3f70000307fc00060dff000c06fdc00c7eff7000c3e7fc00757fbf00181e7f001fffffe001c06fdc007061f70001c6ef8001c1bff000387fdc0007c3bf0038007fc0060e77f0;
   0x3aeb6ee000e73b3001aab6ee0000c3b38000306ee00060dbb800ffecce00c3efb3800e366ee00603d3300181fef800ffffb7000e0eece007061b3800186cde000c1b33000386ece0007c3338038006ec00e0ee6f0;
   0x3fff4e4000e7131001c030e40018e131003ff00e400060c39000ffe4c401c1e6310006770e400607f3100181fcde00c1813780071c4c4007071310001c6cdc001c19310003074c40007c0310018000e400e0e4630;
   0x3aeb0e0000e30300018030e00018e030003ff00e0000e0c38000c060c00180e7300003670e00060373000181b8cc00c180330007180c0003070300001860c4000c18300003060c0000ee030001bff8e000e0e0600;
   0x18e30e0000e3030001c030e0003870300015700e0000c0c38000c060c00000e0300003c70e00060773000181dcc000c180300003b80c0007070300001c60c0001c1c300013070c0001ce030001bff8e00070e0600;
   0xe00e0008e38300018030e0003030300000300e0018ccc38000c060c00020f0300001c38e0006030300018188c000c180300001f00c0003038300001860c0000c1c300023060c0001c70300018000e0007ee0600;
   0xe00e001ce1c30001c030e0007038300000300e0019d8c38000c060c00070f8300003e38e00060703000181c0c000c180300001f00c0003038300001c60c0001c1c300077470c000387830001c000e0007ee0600;
   0xe00e0008e1c30001aab0e000ffb8300000300e0009b8c38000c060c00060fc300007f1ce0007ff030001ff80c000f980300003f80c000301c300001860c0000c0c3000367f0c000383c30000c000e00000e0600;
   0xe00e001ce0f30001fff0e000fffc300000300e000fb7e38007fffcc00075ff30001e7dce0007ff030001ffc0c000798030001f9f0c0003d1e30007fffcc0001c0e30003e7f0c000f01e30000f500e00000e0600;
   0xe00e000fe07b0001fff0e000c0fc300000300e000f33e38003fffcc0003fc630003c1eee0006030300018180c000018030003e0f8c0003f0f30003fffcc0000c0630003c0f8c000e00f30000ff00e00000e0600;
   0xe00e0007c0130001c030e000c000300000300e0006106380000000c0001fc03000300c4e00060703000181c0c0000180300010018c0001f06300055554c0001c0430001c030c000c006300007f00e00000e0600;
   0x0;
   0x0;
   0x0;
   0x0;
   0x0;
   0x0;
   0x0;
   0x0;
   0x0;
   0x2000001808000404060000000180001c018000001c000000e002000000010000e0c0600000000c00006006000000010000060060000030600000000000006700c001c0403000007018000000030000018000;
   0x3fff87000aa181c000e0e060003ffc38000180180000018000000e0070007ffc38000e0c060003ffc1c000060060007ff8380000600e000003060003fffffc0006301c001c0e07000003038002aaa870001818180;
   0x3fff87000ffff1800060c0e0007ffc300001c018000ffffff0000e0060007ffc70000e0c0e0007ffc1c0000700e0007ffc70003fe01c0007ffff0003fffffc00067038000c1c0e000007038003fffce0001818180;
   0x2bba8e000eefe3800071c0c000300070003ffdff800ffffff001fff0e000630c60000e0c0c000300c38003fff8c000600070003fe0180007feff8000030c0000063038000e180e000003070003aaa8c0001ffff80;
   0x39815400cc185500031815400700075003ffdffc00155550001fff15400631d75003fff95400700c55003fff954007551750015605d400386e1c000030c000046725500061815400fff855003800154001ffff80;
   0x3987fc00cc18ff0003887fc003ff9ff0003e03c0001ffff80000e07fc006bafff003fffffc00300dff0000307fc007ffbff000060ffc0018e62e000fffff000e637ff002baa7fc00fff9ff0038007fc002018080;
   0x3fffbfc00ccfeff001fff7fc007ffdff0007f0fe0001800180000e07fc007ffdff000e0c7fc00755dff0015757fc007551ff0000607fc001dc7f7001fffff0006676ff003fff7fc00631dff003bffffc0070180c0;
   0x3fffb8000ccfee0001fff300003000c0000fb9db00019ff98002aeab80006badc0000e0c300003ffce0001fff300006001c0000aea600000f83c2000c30c3000763ee0003fff30000631cc0003bffb000030180c0;
   0x399998000c618600018e3380003000e0001ddd9b80019d598003fff98000631cc0000ffc3800057d460001fff380007ffcc0001fff700000781cc001c30c3000367c700000c038000730cc0003800380007ffffc0;
   0x39999c000c6ba700018e318000fffe6000398e19c00198198002aaa98000630ce0000ffc18000038070000038180007ffce0001aab380000701dc000ebaeb0003e3c300000c018000030ee0003800180003ffffc0;
   0x39998c000c7ff70001fff1c000fffe700031c618c0019ff9800071c1c0007ffc70000e0c1c000038030007fffdc000000070001c471c0000ffff8001fffff0001674380000c01c0001314700039ff1c0000000000;
   0x39998e000ebba38001fff0e000abaa3800008008000180018000e2e0e0007ffc78000e0c0e000fffe38003fffce000fffe780018e31e0001ffff800000000000063038001fff0e0003b30380038ff0e0001ffff80;
   0x3fff9f00079987c0018e31f00043047c0007fffe0001ffff8003c77df0000300fc000ffc1f000fffe7c00555d5f001fffefc001ce73f0007dffbc000000000001e707c001fff1f0003338fc0039d71f0001ffff80;
   0x3fffbf8000018fe0018e33f800e30efe0007fffe0001ffff8002039bf8000300fe000ffc3f800c186fe000c1c3f800c00ffe0018e37f800f0000f8007fffe0003e38fe0000c03f8003338fe0038c33f8000000000;
   0x6077c000181ff001fff7fc00733dff00000000000155550000ffc7fc00fffff7000e0c7fc00c187df001d5c7fc01d55ff7001ce7efc00d555570007fffe000767ddf0000c07fc00731bff0039c77fc000000000;
   0x6066e000181bb801fff6ee003b31bb800000000001ffff8000ffc6ee00ffffb3000e0c6ee00c3879b803ffc6ee00ffffb38018e3cce003ffffc00000000000e63e9b8000c06ec006319b30038c36ec00ffffff0;
   0x1fff26401ffff390000e02e4001fb139003fffffc0015555000061f2e40007c131007fffce400c7c699003ffe2e4003ff931001c674c4003ffffc003fffffc01c63719007fff8e400631d310039c70e400ffffff0;
   0x1fff86000fffe380000e00e0000fc038003fffffc00aaaaaa00071b8e0000fe030003fff8e000cee618000c360e0003860300018630c000001800003fffffc00063318003fff8e000e30c300038ff0e0000018000;
   0x1fff0600003c038007fffce0001ff03800000600000ffffff0003b98e0001f70300055550e000dc7618000c770e0001ce030001c770c0000719e000000600000063818007fff8e000c30e300039ff0e0000718e00;
   0x600600007e038003fffce0003b3838000186180000018000001f08e0003b30300006180e000d83e18000c638e0000ec0300000300c0000f18f00001c6380008618180000c00e000c306300038030e0000e18e00;
   0x60060000ef0380000e00e000731f380007861c0000718f00001f00e000733c30000f1c0e000d03618000ce1ce00007c0300003b80c0001e18780007c61c001c61c180000c00e0000304300038070e0001c18780;
   0x60060001c78380000e00e000e30e38000f060e0003e18380003f80e000e31e30001c0e0e000c00618000cc1ee0000fc03000079c0c00038181e000f060f000860e180000c00e0000300300038000e00038183c0;
   0x7fffc60007c3e380000e00e000c30038001e06078007c181f001f9f0e000c30f30003c070e000c00618000c00ce0007ffc30001e0f0c00070180f003c0607c01fe07180000c00e000035030001d000e00070181f0;
   0x3fffc6000f00fb80000e00e00003e038003807e1c00601f8f003e0fce000030030003003ce000fc0618000f800e000f83e30003803cc000201f86003807e1c00fe03980000c00e00003e030001f800e000601f060;
   0x6000c007380000e00e00001e038000007e0800401f00003001ce0000300300010018e0007c06180007800e000e01e300010018c000001f00000007c08007c01980000c00e00001e030001f000e000001f000;
   0x0;
   0x0;
   0x0;
   0x0;
   0x0;
   0x0].
Definition hanzi_rows_127 : list N :=
  [0x0;
   0x0;
   0x0;
   0xc0400001f0000000000400001c0000000000000000c000000000000000001800000007000000000000004000000001c00c000060020000000080000e00200018100c0000600200000001800001c020000000080;
   0xc0f80003ffff8002aaaf80001ffe800000e1e00001ffa000007c000000003c00000006000001ffff8000ffe8000001800c00006007000fffe1c0000e00700038381c000060070003ff81800000c03000fffe1c0;
   0xc07fc0007fffc003ffeffc001ffffc0000e1ff00007fffc000fffc0000007f00003fffffc001ffff8001fffff000ffff1c003fffc6000ffff18001575060001c7018001fff060007ffc38000ffc07000fffe180;
   0xc01fc00001800003ffe0fc00001bf80000e03fc00001bfc0000ffff80003e3c0003fffffc00181818000006ff000ffff38003fff8e000c66238003fff8e0000c7038003fff8e000301830000eae0e000aaaa380;
   0xc01c000555d550001c01c40000180000006019c00001800000007ff0001fddf0003fffffc001818180000060000054545500006015400c66755003fff95400fffe55001fff15400701c75000606154000000100;
   0xc01c000ffffff0000c00c0000018000000601800000180000000600000fe187e000660e60001abab80002aeaa0007efeff000aeabfc00c663ff0000307fc00ffffff00060c7fc003ff9ff0006ae3fc003ff9ff0;
   0x38cc1c000ffffff0001c01c000ffffff00007018000ffffff00000600000f7ffff00073fc60001ffff80007fffe00066c6ff001fffbfc00c667ff000fff7fc00ffffff00071c7fc007ffdff0007ff3fc007ff9ff0;
   0x38cc1c0000018000000c0ae800ffffff000070ba800ffffff0000060000007ffe200060f060001abab80006aeae00066c6e000000038000fffee0000fff380000180e0000318380003018c0000600380003019800;
   0x18cdffc003ffffc0001c0ffc0000ff00000071ffc0001ff00000006000001dc13800073fc6000181818000706060007efe70001fff18000ffff60000c07180000180e0003fff98000755ce0001755180007019c00;
   0x18cfffc003ffff80000c0ffc0001db80000031ffc0003dbc0002aaeaa8000cefb80006f1e6000181818000606060002eba70000fff1c000000060000fff180002ba860003fff980003ff860003fff9c0003ab8e00;
   0x1cc61c0003818000015d51e0000799c00000383c0000799f0003fffffc001c7c38000740660001ffff80007fffe0005d7430001c070c000555570000fff1c0007ffc700030619c0005554700055754c0007ff8700;
   0xce63e000babaaa003fff3e0000e18f00002383e0001e1878003fffffc000fefb80007fffe0001ffff80007fffe000fffe38000eab0e000ff7f38000c030e0007ffc380030618e0000000380000380e0002aa8300;
   0x6e77e000ffffff007fff7f0007c187c000718fe000fc183f00001f800001d81f80007fffe000001800000006000005d747c001fff1f000ff7f7c000fff1f0000180fc0030619f000fffe7c001c3e1f0000000f80;
   0x6e27f000babaaa0000c06f000f8181f800718de000f0aaaf80003fc00000ffff800000600000001800000006000002ebafe000e0e3f800c060fe000eab3f8000181fe001fff3f800fffefe001e37bf800fffffc0;
   0x1e0df0003818000001c0ff000c1554700071ddb00041ffff000076e00001ffff8001557550007ffffe001fffff8007fffdf00070c77c00c767ff000c077fc000181ff001fff7fc000381ff0007f1f7c00ffffff0;
   0x1e05f8003ffffc0000c0cd80001ff80000e0d9b80000eba00000e670000000c00001fffff8007ffffe001fffff8000c309b802baea6c00ce66bb800fff6ee00fffebb8018632ee000399bb8007f826e00e38fb78;
   0x1f01dc003ffffc0001c05dc0001ffc0000c0c19c003fc3800001c6780003ffffc001fffff80071180e001c4603801ffff19007fffc6400cc6cb9000d572e400ffff39001c672e400039d390006df26400e38f338;
   0x3b01cc0000ff000000c00cc00018180000c0e18e003fe1800003863c0003ffffc001c31c380061980e00186603800ffff18002aaa86000e86c38000c030e0000000380018630e0007f9838000cc786000fffe310;
   0x7381ce0001dbc00001c01ce000181c0001c0e18e003fe1c00007861e00030e70c001c70e380073180e001cc603800477018001fff06000f87038007fffce000774c38001c670e0007f9c38000df106000fffe300;
   0x7381c4000799e00000c00c4004180c0001e06184003800c0000e060f80031c38c001cfe6380063ffee0018fffb800f63c18001fff06000fe7e38003fffce000666e380018630e000039c38001db806000e38e300;
   0xe1c1c4001f18f80001c01c000c180c0003fff180001800e0007c0607c0031ffcc001cfff380077ffee001dfffb8007e3f18001c0706000cf6fb800071c0e000666638001f670e00003be380019de06000e38e300;
   0xe0e1c000fc183e0000c00c000c180e0003bff9800018007000380601c0033ffcc001c82f380066002e001b800b8001e321800180306000c363b8000f1e0e000e66638000e630e00003f63800398f86000e38e300;
   0x3c071c000f0181f0001c01c000ff807c00301f180001d607c0010060000037004c001c000380074000e001d00038007bf818001fff06000c06038001c078e000ce67380004650e001ffe7380031c3c6000fffe300;
   0x38039c0000018020000c00c000ff803f003000180000fc01e000006000003e000c001f80038007e000e001f8003800e3f818001fff06000f87838003803ce000cc63b80000600e000ff83b80000f886000fffe300;
   0x30011c0000018000001c01c0005500070000001800007c006000006000001e000c000f80038003e000e000f8003800c01818001c07060007878380010018e000c461380000600e00054013800007806000e00e300;
   0x0;
   0x0;
   0x0;
   0x0;
   0x0;
   0x0;
   0x0;
   0x0;
   0x0;
   0xc0100000301000000e02000003810000001c400000001000000c0400000001000000e0400000381000000c02000000180000000040000038100000000400000060c00001c330000038100000600400000301000;
   0xc03e000a309e00000607c0000381e000001c780000003e00000c078000aaabe00002e07800003bbe00000c07c000001800000000780000381e0000aaaf800000f1f00001837c0000383e0000600f80000301e00;
   0xe03fc00e30dff0005707fc000381ff00001c7fc007ffbff8000c07fc00fff9ff0007e07fc000399ff0000c07fc007ffffe003fff7fc000381ff000ffeffc0071c1ff0001c37fc000381ff00061c7fc000301ff0;
   0xe00fc00e30c3f001ff80fc0003803f00000c0f8007ff87f001ec00fc00fff83f000ee00fc0003983f0000c00fc007ffffe003fff0fc0003803f000ffe0fc0033803e0001830f80003803f00063c0fc0003003f0;
   0x3fff8e000e30c70001ffe0c000fffe31003ffc0c000603871003ffc1c000001871001ce00c000039871001ffe0c000555d540000c01c40057d471000e0e0c4003700300001c30c0001380710006701c4000300310;
   0x3fff8e000e30c30000e0f8c000fffe30003ffe0c0006038600003fe0c0000018300008e00c0007ff830001ffe0c000000e000018c20c000fffe30000e0e0c0003a00300001830c0003bb8300006e00c0000300300;
   0x30718e000e30c7000071f8c0000380300018c60c0006038700000df1c0000018700000e00c0007ffc70001dd60c0003ffffc001cc71c000fffe70000e0e0c0003860300011c30c00073b8700006401c000fffc300;
   0x30f1ae800fffc300003b80c0000382ba0018c60c0006038600000c60c0002ababa003fff0c000038cba0018c60c0003ffff80018c6ae8000382ba000e0eae8001860300039830c000639aba000600ae800fffeba0;
   0x30f1ffc00ffffff0001f07fc000383ff001cc7ffc00603fff0000c7ffc007ffbff003fffffc00038fff001cc6ffc00000700001cc6ffc000383ff000ffeffc001c65ff001dd77fc00639bff000601ffc00c31fff0;
   0xf83fc0000c3ff0000f87fc000383ff0000c3ffc00603fff0000c3ffc007ffbff0001f0ffc00038fff0018c6ffc00aaabaa000cceffc000383ff000ffeffc002c6dff000fbf7fc00e39bff000606ffc00c30fff0;
   0xd80e00000e0780001ff0e0007ffc380004c50c0006038700000c71e0007018780001f01e000038678001cc60e000ffffff000ecc1e000fffc78000e0e1e0007c6c380007ff0e000c39c7800061e1e000c31c780;
   0x18dc1e0007fe0f80001cf9e0007ffc78000ccc1e0006038f80000c33e0006018f80003f81e0000380780018c61e000abaaea0006cc1e000fffc78000e0e3e0006e6e780003831e000c38cf80006383e000c30c780;
   0x1dcc1f000fff1fc003fe13f0000000fc000ccc3f0007ff9f8003fff7f0007019fc0007f83f000fffefc001cc61f00007c0f00004c43f00057d4fc000e0e3f00067667c0001c33f000438dfc0006707f000c31cfc0;
   0xf8e3f800eabbbc003ff03f0000000fc001cce7f0007ffbe8003fff6f0006019bc0006f86f000ffffbc003fffbf0000ffe78003fffff00007c1fc000e0e6f000e366fc0001833f0002389bc0006206f000c30dbc0;
   0x78f7f800701f7c0038786d0005555fc001cc6ef00000077c0030f0ff000701bfc0006fcef00057d7fc007fffff8003c7ffc007fffff0000fe3fc000e0eef000e367fc0001c37f0007383fc000600ff000ffffbc0;
   0x38faf800704f3600181e2d8007ffdb60018c64d80000036e0030f04d8007ffb36000eee4d8000381360000e02d800f8180e0000c0cd8000fe336000ffecd800c3e6b60001832d800338136002e00cd800fffd360;
   0x30fcfc0030e677001c1f0dc007ffd370038c74dc001062770030f81dc007ff977001ce60dc0007c0770001e02dc01e018078000c05dc001ff177000ffe4dc01c1e7b70001c30dc003b8177007fd05dc00c31d370;
   0x30e8ee0039c033000e7b8cc00700c330038c30cc0018e0630030d80cc000018330018e70cc0006c0330001e00cc009ffffb0000c00ce003bb833000e0e0cc00c0e2330001830cc00180033003fff0cc00c30c338;
   0x70e0e4001f80738007f10ce00701c330030c38ce003870738030dc1ce000018738038e70ce000ee0730003f00ce001ffff80000c01ce00739c73800e0e0ce001070338011c30ce001e007300067f1ce000300318;
   0xe0e0e0000f00310003c00c400700c310030c38c4003070610038ce0c4000018310038e38c4000c60310003380c40000ff000000c00c400e38e31000e0e0c4003070310031a30c4000f00310006030c4000300310;
   0x1cce0e0000780700001e00c000701c300010c10c000707070003ec71c0000018700030e18c0001c707000073c0c00007dbc00000c01c001c38770000e0e0c000707c300071ff0c00007c0700006001c0000300300;
   0x3cfe0e00003e0300000f80c000700c300000c00c000e03860001ec38c0000018300000e00c000383830000e1e0c0000f19e00000c00c000838230000e0e0c000307e300031bf8c00003e0300006000c0000300300;
   0x787e0e00001fc7000007f0c0007ffc300000d00c000e01c700000c1dc001fff8700000e00c000f01f70001c0f0c0001c187c0000c01c000038070007fffcc000356f30003fcf8c00000fe700006001c0000300300;
   0x300e0e000003f3000000fcc0007ffc300000f80c000c00e600000c0cc000fff8300000e00c000e00f300038038c00038183e0000c00c000038030003fff8c0003fe630003f838c000003e300006000c0000300300;
   0x20e0000006700000038c000701c300000780c000400c700000c01c0000000700000e00c0004003700030018c0001018040000c01c0000380700000000c0001fc0300000000c0000006700006001c0000300300;
   0x0;
   0x0].
Definition hanzi_rows_128 : list N :=
  [0x0;
   0x0;
   0x0;
   0x0;
   0x0;
   0x0;
   0x0;
   0x1000200000380c0000000300000070c00008000c0000000c0000000200000660800000e0000000701000000600000003800000040c400000300c00001c02000000010000000040000700100000070300003000400;
   0x1f807c0000180f8001fff7e0000031f0001e0006000fffcf8001fff780000761f00000e0780000381e0000060380000380e0000e0c78000c308f80000e07c0007ff9e0001ffef8000ffe1e00000607c000383cf80;
   0x1fffffc00ffffff001fff7fc001ff9ff001ff07e000fffdff001fff7fc000671ff0000607fc000181ff0000f07fc000381ff000e1c7fc00e31cff0001f07fc007ff9ff001ffe7fc001ffdff0000e07fc001dfc7f0;
   0xff8f800fffe3f0018e30fc001ff83e0003feff000eaac3f0018e30fc000e303f003fff8fc00fffc3f0001f80fc007ffc3f0006180fc0063183f0003b80fc0060183f001c060fc00202c3f000fff0f8000fe01f0;
   0x38600c00055d438001df70e0000c1c300001fce3000e30c380018e30c000043830003fff8c400fffc7100039c0e0007ffc310007381c00073383000071c0c000601871001c061c40061dc71001fff0c0001fe0180;
   0x38618c00000c038001fff0e0000e0e3000018063800e30c380018e30c000fff8300000600c000e30c3000070e0e000038030000bba0c000333030001e0e0c000601830001c060c000719830000c030c0007cf8180;
   0x1c630c0003ffc380018e30e0007fff300001c071c00ffec38001fff0c000fffc300000700c000e31c70001f370e000038030001fff1c000333030007c078c000601870001c061c000319870001c070c000f0fe180;
   0xce30c0003ffc380018e30e0003ffe30000181ffc00efec38001fff0c000061c30000ffe2e800fffeba003c63ae800038030001aae0c0000300300030038c000601aba001c06ae8003bbaba000c030c00040ec180;
   0xcc77fc00300dff001fff7fc007001ff0015d5ffc00e30dff0018e37fc00061fff000fff7fc00ffffff0030e1ffc01ffffff001807ffc007ffdff000ffe7fc007ffbff001ffeffc001b33ff001fff7fc015574ff0;
   0xe027fc003ffdff001fff7fc003001ff003fff99800e30dff0018e37fc00061fff000c062e800e30fff000040ffc00ffffff001806ffc007ffdff000ffe7fc007ffbff001ffeffc003fffff000fff7fc00fffeff0;
   0x1c0e0003ffc3800071c0e0007ffc38003fffd9800fffc3c001fff0e0007fff78000c070e000e31c78001fff0e0000c20380018071c000601c380000c00e0000000780015541e0007ffc78001c070e001fffe1c0;
   0x1fbe1e000300c38000e0e0e0003ffc780003e199800ffec3c001fff1e0007ffa78000ffe0e000fffc78000fff1e0001c70380018063e000600c780000c01e0000000780000003e0003aa878000c031e00003383c0;
   0x1f87bf0003ffc7c001c171f0007000fc0007e1ff800e00c7c0000e03f0000618fc000fff1f000fffcfc0007003f000783c7c001fff7f0007ffcfc0000c03f000fffcfc0000007f0001e00fc001fff3f000031c7c0;
   0x1803bf0003aacfc003833ff0003000fc0007e1ff800e00cfe0000e07f0000619fc000c063f00009c1fc0003007f000e39efc001ffeef0007ffcfc003fff3f000fffdfc002aaa6f0000701bc000fff3f0002bbcfe0;
   0x1803ff000300dfe001559ff8007ffffc0007f1d9800efedfe003fffed8000619be000d577d0000ce3fc0003b06f800c38fb60003b8df000755db6003fff7d8000303fc003fffff0000383fc001fff7f0007ffede0;
   0x1803ad8003ffcbe000ffc2f8003ffeb6000db999800efeebe003fffad8002ebbb6000ffe6d8000c7b360001f02f8000382b60003b80d800600cb60000c02d800030336003aabcd8000381360018632d8007fff1a0;
   0x1fbf8dc00355c3f000fff0fc0001c037000dd9d9800ec6e3f0001f00dc007ff937000d570dc000c3d770000ec0fc0057d4370003981dc00601c37000cce0dc000301770038035dc00fffe77003ce70dc00631f1b0;
   0x1fbf8cc00300c3b00060f8ec0021a23300199dff800ec663b8003f80ce002eb833000c060ce000c0833800ccd8ec00fffe330003980cc007ffc33800cc60cc007ff8338038030cc00fffe33800ec30cc0063081b8;
   0x18038cc01ffff3b80071d8e6007336338039cdff800ec66398007fc0ce00061833800fff0c401ffff73801dcd8e400fffe3380039c1ce007ffc33001cc70ce007ffc738038031ce000380738007c70ce00631c198;
   0x18038c400ffff390003b80e40067363100398e00000efe639000eee0c400061831000ffe0c400ffff3100180c8e40003803100238c0c400600c310018c30c4000300310038030c4000380310003830c4006308180;
   0x18038c0001c70380001f00e000f833300031c700000efe738001ce70c000061830000c070c0000c007000360cce00003803000738e1c000601c300038c38c0000300700038031c0000380700007470c000731c180;
   0x18038c0003c38380003f80e000d833b0000181ff800e063380038e38c000fff830000c060c0000c003000360cce00003803000238e0c000600c300030c18c000030030003fff0c000038030000e7b0c0007b08180;
   0x1fff8c000701e38001fbf0e001dd71b00001c1ffc00e003b80070e1cc001fff830007fffcc0000c007000775c6e001ffff30007f079c000741c300010c10c001ffff70003fff1c000038070007c7f0c0003b1c180;
   0x1fff8c000e00fb8003e0fce0000ff13000018000c007c01b80020e08c000001830007fffcc0000c00300003fc0e000ffff30003f03cc0007c0c300000f80c000fffe30003aab0c00003f03000380f8c0000300180;
   0x18038c000400338003001ce00007e0300001c0000007c01380000e00c0000018300000000c0000c00700001fc0e001555530001f01dc0007c1c300000780c0000000700038031c00001f0700000010c0000300180;
   0x0;
   0x0;
   0x0;
   0x0;
   0x0;
   0x0;
   0x0;
   0x0;
   0x0;
   0x700000001c0000000700000001c0000000700000001c0000000700000000c000000701000001c0000018101000001c040000198000000180400000e0300000380c00000061000001c0800003300000001c0400;
   0x600000001c000000070000000380000000700000001c0000000700000000e000000603e0000180e00018303e0000180f8003999b80000180f80000e03e0000181f00000c63e0000180f0000f30380000180f80;
   0x3fffffc0000380000000700000557d540000070000000380000000700000001c00003fffdfc00fffeff000c70dfc00fffeff00199b7fc00fffeff003fffffc007ffdff003fff1fc000381ff001c307fc0003807f0;
   0x3fffff800fffffe003fffff800fffffe003fffff8007ffffe003fffff800003800003fffcfc00fffe3f000e60c7c00fffe3f00199b0fc00fffe3f003fff8fc007ffc3e003fff87c00fffe3f003fff8fc00fffe1f0;
   0x3d5555c00ffffff003fffffc00ffffff003fffff8007ffffe003fffffc000038000015150e000c00638007ffdc6000181838000d9f0c4000180380015f50e000600c300031f186000ffff30003fff8c400ffff180;
   0x3870e1800e00006003aaaab800e0838600380001800608006003800018007ffffe001fbf8e000dffe38003ffd86000183038003fff8c0007ffc38001ce60e0006aac300039bec60000000300000f80c000c006180;
   0x39f071c00e3c7c700380001c00e7c3f7003870e1c0061c787003871c1c007ffffe0019b18e0005ffc380055d7060015d7538007fffcc0007ffc38000eee0e0007ffc30001d9ce60003ffc300030fc0c000c007180;
   0x7803e0000f81e0003830c18001f00fe0039e0798006383c60039e0f18006000060019b18e00031b0380000e006001ffff38000e0e0c000618c380006ec0e000600c30000f18e60003ff830003aee0c000fffe180;
   0x1f071f8003e007c0039f0f1c007c001c0007c1bc0000f01e00007c07c000600006001fbfffc003db9ff0038f03fc01ffffff80060c7fc007ffdff0007ec7fc00600dff000f0fbfc00301dff003fc77fc003ffcff0;
   0x8060380038003c0003e079800300000000f018f8001e0c78000f001f000600006000baebfc000f8eff0019b9ffc000000ff80030c7fc007ffdff003fffffc007ffdff00060f3fc003019ff000807ffc0001c0ff0;
   0x1557550007ffffc000f801e0001ffff0000c01c7000780c3e001c018700060000600175d0f00007f638000d9de70007ffe3c003fff8e000618c38007fffcf00057d438001e07070003ffc38001ff78e00060f0180;
   0x1fffff8007ffffc001e000f8001ffff00003ffe0000300c0c00080180000610186003fff8f0002afe380007c187000618e3c003fff8e0006bac780000000f0003bb078003fff870003ff8780003fe0e000f1bc380;
   0x155755000038010001c00078001c00000007fff0000000c00000001800000381c000175d1f0007fff7c0007f18f000618e7c0000601f0007ffc7c0015551f00073987c007ffdcf0000000fc0070071f0003d9f7c0;
   0x206020000380380007fffe0001c0000000380380001ffffe0000ffff0000381c0000baebf800300cfc000f398f8007ffefe0000603f0003980fc001fffbf800eb9cfc002000df800fffffc003aae3f0001fc2fc0;
   0x607070000380380007fffe0001ffff00003801e0001ffffe0001ffff0000701c0001fffff8007ffdfe001f9d9f80075dffe001fff7d8007581fe001fffff801cf8ffc00000037800ffffb6003ffe7d8001f70de0;
   0x60606000abaab80002aeaa0001ffff80001c0ef000180e000000c1800000700c000030c2f8003ffcbe001bc1b7800618ebe001fff6d800fffebe001803af8000785b6001fffb7800c006b60000006d8001b389e0;
   0x60707000fffff8000006000000000380001e1c7c001c07000001c1c00000700e0007fffcfc00755c3f0036e196c007ffe3b0000600dc01d7fe3f001bfb8fc0031fc37001fff87c00cff637001fff0dc00371f1f0;
   0x7fffe000fffff8000006000000000380000f3810001807000000c1c00000e0060003fffcee003ffc3b80367986e002ba83b803fffccc0081803b001b1b8ee001c3c3300006006c00cfe633801ffe0cc0037871b0;
   0x7ffff00003fc00000006000003ffffc00007f000001c07000011c1e00001c00700011dc0e400701c3980071d86600018039807fffcce0073b63b801b1b8e6004f0033800e6706600cc76338018070ce0077e01b8;
   0x600000038e00000006000003ffffc00001e000001c03800030c0e00001c0038003d8f0e4003ffc3900030986400fffe390001f00c400673639001bfb8e400e3f831000c6386400cc2631001ffe0c400e678190;
   0x3007000000387c00000060000038000000000f800001c01c00071c07800038003c000f8fce0007ffc380003c386000fffe380003b80c000e237380019538e000787c30001c6186000cff630001fff0c001c71e180;
   0x3006000000380fe00000600000380000000003e00000c00e00030c03c00070001c00078c8e0000ce0380001c7c600001803800073c0c000d833380018038e0001e0830003861c6000cfe6300018020c000c30f180;
   0x3ffe0000003807f003fffffc001c0000000001ff0000f507c003fc01f000f0000f001efe0e0007c7c38007ffce6001ffffb8001f1f0c001dd7338001fff8e00007f030007060e6000c00630001fff0c0000707180].
Definition hanzi_rows_129 : list N :=
  [0x3ffe0000001f802003fffff8000ff8000000003f8000fe03e003f8007c00e000070038fe0e000f01f38003ff866001ffffb8003c07cc0009ff338001fff8e00000fe3000007c86000f80630001ffe0c00003e0180;
   0x5540000001f0000000000000007f0000000000700007e01c001500018004000020030060e000c00638001fc006000000038003001cc0000fe0380018038e000001e3000007c060007006300018070c00001e0180;
   0x0;
   0x0;
   0x0;
   0x0;
   0x0;
   0x0;
   0x0;
   0x0;
   0x0;
   0x700000001c0000000700000001c0000000700000001c0000000700000001c0000000700000001c0000000700000001c0000000700000001c0000000700000001c0000000700000001c0000000700000001c000;
   0x7000000018000000060000000180000000700000001c00000007000000018000000070000000180000000600000001800000006000000018000000060000000180000000700000001c00000007000000018000;
   0x155f55400ffffff003fffffc007fffff001fffffc007fffff001fffffc00ffffff001fffffc00ffffff001fffffc00ffffff001fffffc00557d55003fffffc00ffffff003fffffc00ffffff001557550000038000;
   0x3fffffc00fffffe003fffff800fffffe001fffff8007ffffe001fffff800fffffe003fffff800ffffff003fffff800fffffe003fffff800fffffe003fffff800fffffe003fffff800fffffe003fffff8007ffffe0;
   0x3fffffc00e0c10700381001c00e0410700180041c0060c30700180041c00e00107003d5555c00e04107003d5555c00e04107003d5555c00f55557003d5555c00e00007003d5555c00e00007003fffffc007fffff0;
   0x3870e0c00e3c3860038f0e1800e3c3860018f0e180063c3860018f0e1800e3c386003870e1800e3c383003820c1800e3c3c600382041800e1c306003830c1800e1c386003820e1800e0c386003800018006000060;
   0x39f079c001f81f00017f07dc00ffc1f7001fe07dc007f01f7001be079c00e7c1e70039f079c00efc1f70039f0f1c001f01f00039f1f1c0047c3c50039f0f1c00e7c1c70039f0f1c00e7c3c70038f0e1c0061c7870;
   0x7873e0007c007e003f001f8007e007c000f061f00078003e000f833e0003e08f8000f803e0003e00780003c03c0003c183c0003e03c0003e00f00007c03c0000e00f80003c03c0000f00f80003e0f800063c1c60;
   0xf070f0007ffffe001fffff8007ffffe001c06078003ffffc001e038f80078187e001f000f8007d555c001f001f800701c1f001f001f00078007e001f001f8007f007c001f001f0007c077e000f803f0000f00f00;
   0x40e020001ffffa000ffffe0000fffe0000ffffe0001ffff8001801838002018ec000838c30003ffffc000c003b0004ffffa000c000700028000e000ce00f00037f80e000c000780030038e000e000f8003e00780;
   0x1fffff0001c1818000e00070000e0070000fffff0001c06000007fffe0001ffff0000c38c10001ffffc0007fffc0000ffff8001555010001ff4000000e01d00001fffe0007ffff0000001c40008000100039981c0;
   0xfffff0001ffff8000e00060000e0060000e0606000baaeaa0007fffe0001ffff0000e38c78000383800007fffc0000c0338003fffffc000ffff80000e00c000000bf80007fffe000ffffc0000aaa0600013980c0;
   0xc0700001ffff8000fffff0000ffff0000e0607000ffffff0006018600000183c0007b8df0000701c00005575e0000c1f38003fffffc000e1ff80015f44e000001c0000070006000fffff0001fff06000071c000;
   0xe030000181818000ffffe0000fffe0000ffffe00018030000062ac60000018180001f8fc0000fe8f0000006070000efc380000180c0000c0c18001ffec700000180000060006000000c70001fffa6000061c000;
   0x1e0780001ffff800001c07000001800000fffff0001c038000067fe6000ffffff000038d00001ffff80000060300007d0380000180c0000c1c18001ffee38001ffffc0007fffe000000c3c001870ffc00ffffff0;
   0x3f1fc0001ffff8000e18330002abaaa000006000001ffff800066066000ffffff000078e0000381bf8003fffffc000000380000180c0000c0c180018607fc003ffffc0007fffe0003ffc1e0018303fc00ffffff0;
   0xf3d8f000001800000e1c370007ffffe001fffff0001ffff8000671f60000000000007f8fc000101800003fffffc007ffff8001ffc0c0001c0c180018703fc001f5554000700060003ffc0f001c3006400003e000;
   0xc0e03000ffffff000ffff30006abeae000fffff0000000e000063f86000000000000fb8ff8002abaa8000006020007ffff8001ffc0c000184c18001870d800007800000060006000000c0600183006000003e000;
   0x3fffffc00ffffff000ffff3000707c0e001c06030003ffffc00061e060003ffff8001e3867c003ffffc000e0607000600000001d540c00018cc1c001c70dc00001f0000007fffe000000c00001c38060000077000;
   0x3fffffc0000ff000000180380060fe0e000c06030003ffffe00067f860003aaab8001838708002abaa8000e060600062aaaa001c00ec00038ce0c001838ce000003e000007fffe0003ffc00001818c600000e3800;
   0x60000007dbc0001c1c1b80073c7ce001fffff00038006f0006e1f600038001800703878000001800000e060700077ffff001c01ff00031870c001c39ff000000ffc000700060007ffc00001c1dfe00003c3c00;
   0x6000003f18f8000c18198006301ee000fffff000380062000600260003800180030383e000001800000e060600072aaaa000c003fc0073ff0e001c1fff8000000fe00060006000000c00000c0e7f0000f80e00;
   0x600001fc187f801ffff9c0072006e000006000003fffe00007fffe0003ffff8003ff81fc00ffffff000fffff000758000000f5001c00f3ff87001d5f07c00ffffc70007fffe000000c00000c071f0007f007c0;
   0x600000e0180f000ffff8c007e000e000006000003fffe00007fffe0003ffff8003ff003c00ffffff000ffffe0003f0000000fe000000e30303800fcf00000ffff830007fffe000000c00000fc383000f8003f0;
   0x600000001800001c00000003c000e000006000003800600006000600038001800000000800000000000e00000001f00000007e0000004300010007c7000005ffc0300070006000000c000007c1800006000060;
   0x0;
   0x0;
   0x0;
   0x0;
   0x0;
   0x0;
   0x0;
   0x0;
   0x0;
   0x30060000380100000070000001c01000000700000001c00000007000000380100000380400000014000001804000001c0000000700000001c0000000700000001c0000000700000001c0000000700000001c000;
   0x30060000380180000060000000c0180000060000000180000000600000038038000038060003ffd8000001806000001c00000006000000018000000060000000180000000700000001800000006000000018000;
   0x3f806000038038001fffff8001ce018001fffff8007ffffe001fffff8000380700000180e0007ffdce0000180e000001c00003fffffc00ffffff003fffffc00ffffff001fffffc00ffffff003fffffc007fffff0;
   0x7f80e000fffe30000fffff800187038000fffff8003ffffe001fffff8000380700000180c00030198e0000180c000001800003fffffc00fffffe003fffff800eaaaab001fffff800fffffe003fffffc007ffffe0;
   0x75c0c000fffe700001c0380003838300001c0380000100c00000c010000038060003ffc0c0003831ce0000180c000001800003830c1c00e1c38700383041c00e7c7c700180041c00e0c1070039f1f1c007555570;
   0x38e7fc000381ff0000e0700007ffdff0000e0300000300c00001c0380000387ff003ffc7fc0018318e003fff7fc007ffffe003bf1f0c00ef81e60038f0e1800bf81fa001830e1800e3c3c6002fe67e80061c3860;
   0x1877fc000381ff003fffffc00fffdff001575754000381c00000c070001ff87ff003ffe7fc001c71ce003fff7fc007ffffe001fc07f0007f007c0007c07d4007c1c7c0019f47dc001f11f8001f061f0007fc3f70;
   0x1fff800007ffc00003fffffc00c80c00003fffffc00ffffff003fffffc00ff8000003806000000ee18e000018000002aaaaa001e080f00077ffae000e001e0004e187000078e1e000781c3e0017fffe0003e00fe0;
   0x1fff31c007ffdc7001555554001ce0c6003fffffc00ffffff003fffffc0003818600380771c0007c1ce00001c71c0000004000155c3f800017ff8001c01c7000071ce0001f1f8780070380e0007fffe00070001c0;
   0x1860318006bacc60002aaaa0003870c60000000000000000000000000000038186003803b180003818e00030c318000e0060000ffe3f800061860001fe3f80000718e0000879e10003ffffc000006000002aa8300;
   0x1c6031800638cc60007ffff0007038c60007fffe0001ffff80007fffc0000381860039fd318000ff1ce00039c318000700e000070fb1800071ce00007fc7f000ffffff0001f0f80003ffffc000557550003ff8700;
   0x3aea39800638cc600060606000e0dee60006aaae0001ffff80003fffe00003818e0039fc318003ef98e00038c318000700e00003b9f9800ffffff000eccdb000ffffff000ffffe0000380c0003fffff800301bff0;
   0x7fff19800638cc600060607001c0cf66000600060001800180007555e0000381cc00398c31800fc3dce00018c318000700c00001f019800ffffff000cccdb00003dfc0003f7fefc000181c0001d5555000311fff0;
   0x3fff198007ffcee0007fffe00000e06e0007fffe0001800180003000e0007ff98c00398c3b800601d8000018c3b8000300c0000ffe0980000fb80000ccc9b0000f98f000380001c00ffffff000c18380003318300;
   0x1c60198007ffc6c000757570007ff06c0007fffe0001ffff80007000e0007ff9cc00198c1b0000018000001cc1b0000381c0007f5fcd80003dde0000ccd9b000fe1c7f000e03ff000ffffff000e1df30003318700;
   0x18601b80007c06c000606060003ff86c000600060001aaab80003aaae0006018cc00198c1b0002abaaa000ece1b0000381c00027fc998000f98f8000ccd9b000601f0e000e33ff00000000000000c8f000331fff0;
   0x1ffe1b0000fc06c0007ffff000383c6c0007fffe0001800180007fffe0006018cc0019fc1b0007ffffe000cc61b0000181c000006731800fc1c3f000ccd9b000000700000e33870001ffff000001c3c000331fff0;
   0x1ffe0b0000fe06c0007fffe0001c6e2c0007fffe0001ffff80002baea0006018cc0019fc1b0007ffffe000ce61b000018180001fff31800f00c0f000ecf5b800ffffff000e33ff0000ffff0002aaeba8003398300;
   0x1d747d0001ff1f4000006000000ee5f4000006000001ffff8000038c0000601fc400195c790000700e0001c677900001c180001ffff18007838dc001f4f59800ffffff000e33ff0001c0030003fffffc003798700].
Definition hanzi_rows_130 : list N :=
  [0x8607f8003bbbfe000fffff00007c1fc0000060000000c380001038e0000601bfc00180cff0000300c0001867ff00000c380000061f18003230cc001b6cd98000380e0000e33830000eaab0002aaeaa8000381f80;
   0x601fc00739c7f001fffff00007c07f003fffffc01c0c1800030387000060187f0018001fc000301c0003c731fc0000e180000ffebd8007e70ce001b6cdd80001c7f0000e33ff0001ffff00000778000007c3dc0;
   0x6003c00e38e07000006000000fe00f003fffffc00c0c1c0003038380006ab80f00180003c00038180003ffb83c00aaeaaa000ffe3d800ee20c6003bfefd80000fff8000e33ab0000c00300003fbe000083e30e0;
   0x7400000c38700003fffffc007e7c0000000600000ffc0fc003ff03f0007ff800001c4000000ffffff003ff980000ffffff00006001800c7ffc70037f7fcc001fffc0000e13870001ffff0001fc1fc000c7710f0;
   0x7c00000038200003fffffc00f83f0000000600000ffc07f003ff00fc007ff800000f8000000ffffff003031c0000ffffff003fffc180003ff8000320684e00fe0fff000f83e30000ffff0003e003f800fe3e030;
   0x7c0000003800000155555400e007000000060000055001f001fe001c00601800000f800000055555500700180000000000003fffc18000000000030040040070007f000701c70001c0030001000078007c0e000;
   0x0;
   0x0;
   0x0;
   0x0;
   0x0;
   0x0;
   0x0;
   0x0;
   0x0;
   0x700e00000c0180000300e00000c0380000700e00000c0380000300e00001c0300000300e00000c0380000300e00000c0380000701c00000c0380000300e00000c0380000700c00001c070000060040000000180;
   0x380e00000e0180000380600000e0180000300600000e0180000380e00000c0380000380600000e0180000380e00000e0180000300e00000e0380000380600000e0180000300e00000c030000862060007ff8180;
   0x3806000fffffc0000180700055655c0015795700055e55c0000380600055c558003ffbff00055655c003ffbff00055e55c00157156000ffe7fc0015795700055655c0000300600000c0380018630e0007ffc380;
   0x3ffbff000fffffe003ffbff000ffeffc003ffbff000ffeffc003ffbff000ffeff8003fffff000ffeffc003fffff000ffeffc003ffbff000fffffc003ffbff000fffffc003ffbfe00000e0380018630c0006018300;
   0x3fffff0000738e7003fffff000fffffe003ffd7f800fff7fe003fffff000fffffc0015df7f800fffffe003fffff800fff7fe003fffff00057757e003fffff800fffffe003ffbff00000e0180018631c000701c300;
   0x1ce3b8000e1cc78001ce3b8000738ee00038e318000638e600018e3b8000e71ce00038e31c000e38e600018e398000638e600031c338000638e600018e3b8000638ee0001d81b000aaeab80018637fc007ff9ff0;
   0x38731c0004164300038731c000e1cc700030771c00061dc700038731c001c39c700070771e000e1dc700038731e000e1dc700070e71c000e1dc780038731c000e1cc700039c33801fffffc001fff7fc007ffdff0;
   0x387b1c00008f00000383b0e000c0cc3800100208000a098300038730e001839e7000aaaaa8000c0983800302308000c098300060c60c0000084200030330e000e0cc380030e31800fffffe001fff000006018000;
   0x70770e0003c78000010710c000418710007fffe0001ff0000007c210800081063000ffffe0003f00010000ffff0003ffffc000555550000ffffc00010210c0015555400070f71c001c386e00000031c007ffdc70;
   0x6008000781c0000006000000018700003fffe0000ffffc000fff800002aaaf0000eafaa0003fffe800007fff0003ffff8000fffff0000ffff8000fffff0003ffffc00020620e000c3866000000318007ff8c60;
   0x6000000e00f000055755000155d700007000e000005ffc0001ffff0007ffff0000e07000000dfff8000070700003d5d5c001fffff000060000000fffff0003ffffc000000000001c1c67007ffff18005574c60;
   0x1fffff8001ffa78000fffff0003ffff80003060e000000c0000000eff0007ffff8000e07000000c18b8000030600003818180000c060000060060000006000000018000007fffe0000c0e63803fffb18000038c60;
   0x1fffff8003ffffc000fffff0007ffffc0007070e0001fcc000000060000071861c003fffffc001c18180000387000038181c0000c060000060060000006000000018000007fffe0001c086100006031800fff8c60;
   0xaaaaa800700ffc000c060300000180e0003060e0003ffff80000060000061870e003fffffc000c1818000ff8700003818180000c060000060060000006000000018000007fffe0000c006000006039800fffcee0;
   0x38018000700004000c060700000180f0007070e000017ffe003fffffc0071c307000e07000001c1818000ffcf000038181c0000c0600007ffff000000600000555d55000000000001c0060003fff99800c30e6c0;
   0x180380000aaaa8000c06030000018040003060e000000c0a003fffffc0060c383800e0700000181818000601f80003ffff8003fffffc007ffff0002aaeaa800ffffff000000000000c0060003fff9b000c3066c0;
   0x1c0300001ffff8000fffff0003ffff80007070e000f40c00003fffffc0070e1c0000e0700000181818000703f80003ffffc003fffffc00600000003fffffc00ffffff000000000001c006000331b9b000c39e6c0;
   0x1c0300001ffff8000fffff0003ffff800031b0e000fffe0000001f800003060e0000ffffe000181818000387380003800180000c070000600000003fffffc00001800000000000000c006000331b9b000e7886c0;
   0xc070000180038000c060700000180000071b8c0005fffff000039c0000707070000ffffe00038181c0001df1c00000001c0000c07000073ffff00000600000001800000000000001c006000331bfd000fcfdf40;
   0xe060000180038000c0603000001800000019c0000000fff000070e0000303878000e01c000038180c0000fc0c000c000180000c03800063fffe00000600000001800000000000000c006000331bff000e86bfc0;
   0x6070000180038000c0607000001800003019f0000e00c010000f0f000030383c000e01e000070180e0000fc0e000c0001c0000c01c00071555500000600000001800000000000001c006000331b9fc007ffc7f0;
   0x60600001aaab8000c060300000180000301878000e00c000003e078000381c0e000000f800070180e0003fe07000e000180000c01e00030000000000600000001800003fffffc000c006000331b83c007ff80f0;
   0x3fffffc001ffff8000fffff000ffffff003ff83f000755c00001f801f000384e040000007f000e01807001f8fc7c007ffff80000c00f0003d800000000600000001c40003fffffc001d406000331b800006000000;
   0x3fffffc001ffff8000fffff000ffffff001ff80f8007ffc00003e000fc001f87000000000f800e01803803e03f1e007ffff00000c0038003f000000000600000001f80003fffffc000fc060003f1b800007c00000;
   0x180038000c0007000000000000540010003ff000001c00018000f86000000000300040180100300070c001555400000c0018001f000000000600000001f800000000000007c060001d1b800003c00000;
   0x0;
   0x0;
   0x0;
   0x0;
   0x0;
   0x0;
   0x0;
   0x0;
   0x0;
   0x300e00000c0380000300e00001c0300000300e00000c0180000700c00000e0380000300600000c0380000300e00001c0300000300e00001c0300000300e00001c0300000300e00000c0380000700c00000c0380;
   0x380e00000e0180000380600000c0380000380600000e0180000300e0000060180000380600000e0180000380600000c0380000380600000c0380000380600000e0380000380600000e0180000300e00000e0180;
   0x3ffbff000ffeffc00155957000ffeff80015595700055655c003ff3fe00055755c003ffbff00055e55c0015595700055e55800155957000ffdff8003ffbff00055e5580015595700055655c003ffbfe000ffeffc0;
   0x3fffff000fffffc003ffbff000ffeffc003fffff000fffffc003ffbfe000fff7fc003fffff000ffeffc003ffbff000ffeffc003ffbff000ffeffc003ffbff000ffeffc003ffbff000ffeffc003ffbff000ffeffc0;
   0x3fffff80007386e003fffff8000e70dc003fffff800fffffe003fffff000fffffe0001cc1b800fff7fe003fffff800fffffc003fffff8000e70dc003fffff800fffffc003fffff800fff7fe0015dd77000fffffe0;
   0x18e398000638e70001ce3b8000c31ce00018e198000638e600031c338000e1ce600038e39c000638e600018e398000e30ce00018e398000c31ce00038e398000638ce00018e3b8000638ee00038c338000638e70;
   0x387b1e000e1cc380038731c001c19c700038739c000e1cc700070e71c000c7dc700030771e000e1cc700038731c001c39c700038771c001c398700038771c000e1dc700038731c000e1dc700070e71c000e1dc78;
   0x3623080000180000038330e0000186200030730e000e68c60002242080001e343000aaaaa80004086300030238e000810e380030270c0000000200010620c000c088380030230c000409c3800204208000408820;
   0x61ff0003ffffc001550100000018700000061000000600e0000f1c0000358700001fffff0000000700000001c400000070000000700003ffffc0007f6000001ffff0000006000001c00e00007ffff0003ffffe0;
   0x61ff0003ffffc003ff9ffc003ffff80007fffe00000601c0003e0c00003fff00001fffff0007fc070001ffffc0007ff030003ffff80003ffffc0007fffe0001ffff0000006000000c00600007ffff0003ffffe0;
   0x3fffc3000001800001ffdffc003ffff80007fffe0007fffb8000301c00001ffffe000000030007fcfff001ffffe0007fffff003ffffc000301c0000005ffe0001c0030003fffffc001c0070000600000003806000;
   0x1fff83000001800000c181800000181c000006000007fffb0003fffffc000007fe000000030006acfff001c0007000606fff0000031c000301800000006060001c0030003fffffc00ffffb800067fff8003807000;
   0x1d75ff001ffffff000e1c1c00000180e00000600000707000003fffffc004006000003ffc300060cd75001c000700070675d0000030e0003ffff8000006070001c003000003fc0000ffffbc00067fff8001803800;
   0x1861ff000ffffff0007181800000180c002aaeaa80060703f000018e0000ff8e000003ffc300060ce30000c0aab80030e618000fff070003ffff8000006060001ffff0000076e00000c003c000600000001fc1e00;
   0x1861d700007000000039c1c000ffffff003fffffc0070703f00061c60000ffffd0000380c300060ce30001c1ffdc0038c71c000fff07800001c1c001fffff0001ffff00000e6700001c043e000600000001fc0fc0].
Definition hanzi_rows_131 : list N :=
  [0x186183000030000000f1818000ffffff000aaaaa800703838000f1860000003fff000380c300060ce30000c1ffcc0038c70c00000303800001818001fffff0001c00300000e6300000c0e3f00061ffe00002003f0;
   0x1871d7000ffffff001c1c1c00000c1800000060000070383800079c70000381c7f000380c300060ce30001c181c0001dc30e000003010007ffffc001d57d50001c00300003c63c0001c1c3b00061ffe0001fffff0;
   0x1871ff000fffffe00181a1800000c18000000600000301c380001d8300001e38000003aac300060ce38000c180c0000f839e000aab000007ffffc001c07c00001c00300007861e0000c18380006180e0001ffff80;
   0x1871ff00007006000181ffc00000c1c0000fffff000301e380000fc380000fb8000003ffc300060ce18000c181c0000f01fc001fff00000701f00001c07e00001ffff0000f060f0001c38380006180e0001d55580;
   0x1831838000300e000381bfe00080c1c0000fffff0003b8fb800303c1c00003f0000003ffc300060ce18000c1ffc0000f01e0000aab00000301b80000c06780001ffff0003fffff8000c30380006180e0001800180;
   0x1c39c38000701c0001d5c1fc01c0c0e0000006000001f877c00701f1e001c1fe000000000300060c61c000c1ffc0001f87e000000300000701dc0000f663c000000000007dfffbc001c103800061ffe0001800180;
   0x181d81800030380001f9803c00c0c070000006000000a00fe00301fef000c1ffe00000000300060c60e000e0aac0003def78000003000003818f0000fc60f800000000003006008000c003800061ffe0001800180;
   0x1d5fc1c0007070000079c00000ffc07c003fffffc00ffffc7003ffde7c00d7c7ff003fffff0007fc7ef0007501c000f8f43c000003000003f1c7c0005c607c00ffffff000006000001d40380007400e0001ffff80;
   0xf8ff8c0003f00000001800000ffc01f003fffffc00ffff83803ff823e00ff003e003fffff0007fc3e70007f000000e0380f000003000001f181e00000600800ffffff000006000000fe0380007e0000001ffff80;
   0x786f0c0003f00000001c000007f0007000000000005ff40100000000c007c00000015555500060c1420003f00000040180600000300000001c06000006000000000000000060000007c0380003e0000001800180;
   0x0;
   0x0;
   0x0;
   0x0;
   0x0;
   0x0;
   0x0;
   0x0;
   0x0;
   0x700c00000c0380000700c00001c0380000300e00000c0180000700e00001c0300000700e00001c0300000700c00000c0380000700e00000c0380000700c00000c0380000700c00000c0380000700e00001c0300;
   0x300e00000e0180000300e00000c0180000380600000e0180000380600000c0380000300e00000c0380000300e00000e0180000300600000e0380000300e00000e0180000300e00000e0180000300600000c0380;
   0x3ffbfe000ffeffc00157156000ffeffc003ffbff000fffffc00157957000ffeff8003ffbff00055e55c003ffbfe000fffffc00157957000ffeffc00157957000ffeffc00003006000ffeffc003ffbff000ffeff80;
   0x3ffbff000fffffc003ffbff000ffeffc003fffff000fffffc003ffbff000ffeffc003ffbff000ffeffc003ffbff000fffffc003ffbff000fffffc003ffbff000fffffc003ffbfe000fffffc003ffbff000ffeffc0;
   0x39c33800577d7e003fffff0000770ee0015dd5f800577d7e003fffff8000e70cc00039c338005775de00039c738000738ce003fffff800577d7e003fffff80057757e003fffff000577dfe0015dd5f8000e70dc0;
   0x30c338000e38e700039c338000e38c700038e318000e38e700018e3b8000c38ce00030ef18000e38c600030e61c000e39c700018e3b800063ce700038e338000e38ee00039c338000e38c700038e39c000c39ce0;
   0x30675c000c7dc700070e71c000c1dc300030731e000c1cc380038731c001c11c7000715f1e001c11c700030461c000c1d8380038731c000e1cc780030671c000e1dc700030c71c000c1dc780038771e001c19c70;
   0x7860e00000606200060660e002abeaa0000021080000380200030630e0000303a00007ff0800001802002aaab800000700c00030730e0000180000030e20c003fffff00070e61c002aaaaa00008810800083c820;
   0x3c63c000007070001555550007ffffe0007fffc0001ffff0001fff1c00000303800007ff80001c1838003fffb98003c701c00010018000ffffff00000f000007ffffc00020460c007ffffc0003cc38000007f000;
   0xf678000aab0b8001fffff8007ffffe0003fffc0001aaab0001fff0c0007ff8380000381e0000e1830002aeab98003f77fc000ffc18000ffffff00003f8000030000c0007feffc0000000c000f8c1800001e7800;
   0x6660000fff198001fffff8006000060007000c000180030001dd75d4007ffc380007ffff0000718700000603980007f7fc001ffdffc00001800000079e000070000c0007feffc0000001c000e1c1c00007c3e00;
   0x7fffe000fff99c000006000006ffff60003000c0001aaab00018c3ffc00601dff0007ffff8000318e0000aea39800c0f00c000eadff8000018000003e0f800033ffcc0006060c0001fffcc003e9c0e0003f00f80;
   0x7fffe000383d9e000386380004ffff40007555c0001ffff00018c7ffc00602fff00060601000175d54001fff39800c0701c001c0dffc003ffffc000ffffe00077ffcc0007060c0001fffdc003fffef001fc003f0;
   0x70006000183d9e000386180000000000003fffc0001800300018c30c000607638000606000003ffffe001aeb39800e07f8c000c0c180003ffffc003effef80030000c0006060c00000700c0002ffef800effffe0;
   0x755560001c7f9f8001c61c000000000000555540001800300018c71c00060e738007fffffc003ffffc001c6339800fffffc001c0c1800030181c003c5557c0071550c00073e0c00005751c001c186fc000ffff00;
   0x7fffe0000c679b0001c61c000ffffff000000000001ffff0001fffec00061c038003fffffc00380000001863398007ff83c000c0c9800030180c0000000080031ff8c0006760c0000fff8c000e380de000018000;
   0x755560000ce5990007c67c000ffffff000fffff0003ffff0001ffffc00061803800060600000380000001c6319800001c04001c0dfc000303c1c0003fffc00071d58c0007f60c00015755c0007380cc000018000;
   0x700060000ec198000fe67e00000c380000fffff0007018300018033fc00640038000606000003ffff800186318000001800000c0cff8003e7e0c0003fffc00031818c0006e6ec00000700c0003b00c0000abaa80;
   0x7fffe00007c198001e76e700000c180000d55570007c30300000071fc007fc1f80007fffe0003ffff8001c6318000ffffff001c0c1fc001dff1c0003001c00071818c0007c7ff00015755c0003f00c0001ffff80;
   0x7fffe00003819800183ec380000c180000c00030000f70300000030c80073e1f80007fffe0003800000018631c000ffffff000c0c1880003db800003000c00031818c0006033fc003fffec0030e00c0000abaa80;
   0x700060000fc19800181601800c0c1c0000c000700007e0300070071c000707cff00000600000380000001f631c000001c00001ffc180001f19f00003001c00071ff8c00670387c003ffffc0070fc0c0000018000;
   0x700060001ef19800000600000c0c0e0000c000300003be380030030c000301c0f000006000003aaaaa001e630e000001800000ffc180007e187c0003000c00030ab8c0066038000000000c0031de0c0000018000;
   0x700060007c7e18003fffffc00ffc07c000fffff0003f3ffc003d571c000380401000006000003ffffe00046307000001c00001ffc18001f8181f0003fffc00070018c007f01e00007ffffc0037c7ec000ffffff0;
   0x7e006000f01e18003fffffc00ffc03f000fffff000fc03f8003ffe0f8003f8000000007f00003aaaaa00006003800001800000c0c1f000e018060003fffc0003f000c003e00f00007ffffc003f83ec000fffffe0;
   0x3e006000400618000000000007f8007000c0007000700018001ffc0f0001f8000000003f000038000000006001000001c000014041f0000018000003001c0001f000c00140060000000000001e004c0000000000;
   0x0;
   0x0;
   0x0;
   0x0;
   0x0;
   0x0;
   0x0;
   0x0;
   0x0;
   0x700c00001c0180000700c00001c0380000300600000c0380000300e00000c0380000300600001c0300000300e00000c0380000700c00000c0380000700c00001c0700000700c00000c0380000700e00001c0300;
   0x300e00000c0180000300e00000c0180000380600000e0180000380600000e0180000380600000c0380000380600000e0180000300e00000e0180000300e00000c0380000300e00000e0180000300e00000c0380;
   0x3ff3ff000ffeffc003ffbfe000ffeffc003fffff001ffeffc003fffff00055655c003fffff000ffeffc003ffbff000fffffc003ffbfe000fffffc003ffbff000ffeff8003ffbfe000ffeffc003ffbff000ffeffc0;
   0x3ffbff000ffeffe003ffbff000fffffc003fffff800fffffc003fffff000ffeffc003fffff800aefaee003fffff000fffffe003ffbff000fffffc003ffbff000fffffc003ffbff000fffffc003ffbff000ffeffc0;
   0x19c338000e70ce00039c37000577d7e0001ce39c01577d7e0015df5f800fffffe00038e31c000e71cf0015df5f8000738670017dd77000577d7e00039c738000e71ce00019c33000577dfe00039c338005770ee0;
   0x38e71c000c30c700030e738000e38e700038730e000638e700018739c000638e600030730e000c398200038e39c000e1ce380038e638000e18e600030e61c000c398700030e338000e38c700038e718000e39c70;
   0x70f61c001c1dc700070c71c001c1cc38007fffec000e1ec780018719c000e1cc7000157558007ffffc00030735c0015555300070e61c000c39c70003fffdc005555d5000707f1c000cd1d300070471c001c1d830;
   0x2aaeaa8002abaaa000c0e2c8000418400007fffe000030862000180188000c88c30003ffff0003ffffc002aaa8e8001ffff8000200268000c3cc30003fffc000ffffff000fffff80000c0380000063880038006a0;
   0x3fffffc007ffffe000c0e0c0007ffffe0006000e000070060001fffff80001c04c00075555000001800003fff8e0001d5d5c001fffcf000007f000003000c000ffffff000fffff8003ffeb80000061c0007ffcff0;
   0x3aaaaac006aaaae000c0e0c000fffffe0007fffe000030060001fffff80000c03c000300000003ffff80000018e000181818001fffdc00001e3800003000c000001800000001800003ffefa0007fffc0000ffe6a0;
   0x380019c00600006003fffffc00e000060007fffe000ffffff000180180007ffe780007fffe0003ffffc000181ffc001ffffc001c001f8000781f00003fffc0003ffffc0007fffe00035d5fe0007fffe0000194700].
Definition hanzi_rows_132 : list N :=
  [0x3aa818c006ffff6003fffffc00e0c3860006000e000ffffff000180180007ffe600003aaaa000001800000181ffc001ffff8001c000b8003e00f80003fffc0003abab80007fffe00030c1be000006070000180380;
   0x1ffffd4000ffff0000c0e0c00067c3c60007fffe0000780700001fff800070064000070000000ffffff001ff98e00018181c001c7fe3801ffffff0000000000038181c000000c000030c1bf00000603000558e1c0;
   0xebbfe0000c0030000c0e0c0003e00f80006aaae0000f80f00001aab800060060f003fffffc00aaaaaa001ff98e000181818001c7fe3800e3ffcf000ffffe0003ffff8003fffffc0030c0bb003fffffc007f8efe0;
   0xc1b870000d5570000c0e0c0007c007e0006000e0001fc1f80001801800070061f003fffffc001ffff8001999ce0001ffffc001c6063800000801000fffff0003ffffc003fffffc01ffff3b003fffffc007f8eff0;
   0xc1b838000ffff0000eaefc00020000c0007fffe0001bc3f80001fff80006aae38000e060e0001ffff8001999fe0001ffff8001c60638001c0c10000e00060003818180000c070000ffff3b00000000000018ec20;
   0xc19cdc00055570000ffeffc001ffff80005d5740003f677c0001fff80007ffe500007061e0001c0038001999ffc00000000001c7fe38001c1c30000e07070003d5d5c0001c07000155d53800000000000018ee40;
   0xe98dec00000030000eae0fe001ffff80000c06000033666e000180180007ffec000038e380001ffff80019998fc00ffffff001c7fe38000e1870000e06060003ffff8000ffff800003e0380007fffe000018e660;
   0x798f80001ffff0000c0e0dc00001800003fffffc00777067003fffffc007006e00001fff00001ffff8001d998e400ffffff001c6063800063860000e0707000001c10001ffffc0000360380007fffe000fffe7c0;
   0x298700001ffff0000c0e0c000001800003fffffc00e33867003fffffc006006700000f7f00001c0038001f998e0000380c0001c60638000730e0000e0f06000000e380000c18e0000770380006000e000fffe3c0;
   0x301878000180070000c0e0c0000018000015d575401c71c630000f0f00007006380007e67e0001ffff80005818e0000380c0001c7fe38000310c000047fc70000007f00001c3878000e38380006000e0000000780;
   0x30181e000180030000eae0c0000018000000c0380000308610003e0780006aae18003f860fc001ffff80001818e0000380e0001c7fe38000380000003f9e00000003e00000c703c001e3c380006000e0000000fc0;
   0x3d580f0001ffff0000ffe0c000ffffff0000c01f000070060000fc01f0007ffe1e001e06038001c00380015558f00003807c001c0003800ffffff001fc0ff001fffffc0001c701c007c1f380007fffe001ffffdf0;
   0x3ff807c001ffff0000ffe0f800ffffff0000c00f800030060003e000fc007ffe0e000007e00000f8038003fff8f80003803e000f8003800ffffff003e003f800fff83f0000f800000f007b80007fffe000ffff078;
   0x1ff001800180070000c0e078000000000000c001800070060001c0001800700604000007c00000f8038007fff8780003800600078003800000000001800078007500070000f000000c003380006000e0005540030;
   0x0;
   0x0;
   0x0;
   0x0;
   0x0;
   0x0;
   0x0;
   0x0;
   0x0;
   0x300600000c0100000700c00000c0180000700c00001c0300000300600001c0300000700c00000c0380000300e00000c0380000700c00000c0380000700c00001c0300000300600001c0380000700600001c0380;
   0x380600000e0380000300e00000e0180000380e00000c0380000380600000c0380000300e00000e0180000380600000e0180000380e00000e0180000300e00000c0380000380600000c0180000380600000c0180;
   0x7fffff000fffffc003ffbff000fffffc003ffbff000ffeff8003fffff000ffeffc003ffbff000fffffc003ffbff00055655c003ffbff000ffeffc003ffbff000ffeff8003fffff000ffeffc003ffbff000ffeffc0;
   0x3fffff800fffffc003ffbff000fffffe002bbfff800ffeffc003fffff800ffeffc003ffbff000fffffc003fffff000ffeffc003ffbff000fffffc003ffbff000ffeffc003fffff800ffeffe003fffff800ffeffe0;
   0x1cf19c000738ee00019c3b8000738e700039c31c000e70ce0001ce3b8000e71ce00039c33800577d7e0001cc1b800fffffe00039c73800577d7e00039c738000e71dc00038e31c000771c700018e31c000e71c70;
   0x3e778e00061ec700038e31c000e1cc7000306208000c398700038631c000c30c700030c31c00061ce700038e39c000638e600030e61c000e1ce700030e61c000c398e00030730e000e398380038f30e000c39838;
   0x6260800575d5700070770c00041c430007fffe0000411f700010e30e0007ffc200030771c000e1ce70003bf31e000e1cc70001c418c000f9dc300010621c001f10c7001fffffc000410bb00155775c00555d560;
   0x1fffff000fffffe000aaeaa8000e18200007fffe0000ffe7000000e0200007ffe00002abaa000700c02000fb8008000c08c38000e038000038980000ffffe0000381c2001fffff8007ffe38003fffff0007ffffc0;
   0x157575000fffffe001fffff8000f1c70000706060000ffe30000ffffe0000700600007fffe0003ffff8001d7d55000555060003fffffc00ffffff000fffff00001c380001d75d78007ffe38003fffff0000018000;
   0xaeaea000018c0e000000000000718e00007fffe0000c0038000eaaae00003aae0000600060001ffff8003fffff0007ff060003fffffc00ffffff000e06000001ffff8001830c38003839ff00000c030003ffff80;
   0xfffff00055dd4e0003fffc000ffffff0007fffe000ffff98000c000600003fff0000755560000f0c00003fffff0007ff575001555554000387c0003fffffc001ffffc001d75d78001ef1ff000ffffb0003ffff80;
   0x60600003f8fee0003fffc000ffffff00000600000ffff9c000c00060000380000007fffe00003cc00000030030006037ff00080000000038780003fffff800181818001fffff80007c038000ffffb0000018000;
   0x3fffffc0055dd4e0003800c00001dfc0003fffffc00000c1c000ffffe000ffffff00060006000ffffff001c37fb0006037ff001c73ff000555755000e06000001d5d5c001fffff8001ff03800031c63000ffffff0;
   0x3fffffc00018c0e0003fffc0000f98f0003fffffc002aae1e000ffffe000ffffff0006aaae000ffffff000c37fb0007ff070000c63ab000ffffff000fffff0001ffff8000001c0000fefe3800038ce3000ffffff0;
   0x557540003fdfee0003fffc000fe1c7f000000000007fff1f00000007000101f000007fffe000001f00000e70030007ff0f0001c7383000ffffff000fffff0001d5d5c0007fff0000f39df80001ddc30001555500;
   0x7fffe0003f8fee00000000000601f0e0003fffe0002aeb1b001ffffe0003e1bf8000000000003fffe0000667fb0006031f8000c63ff0000001c0000a06020001818180007fff80000381f8001ffffb0001ffff80;
   0x7060e00001dc0e001fffff8000007000007fffe00000c39b001fffff0001fbc7e000fffff0003ffffc000777fb0006033fc001c73ff0000000e0000e36460001ffffc0007555f0007ffc7f001fffff0001d55780;
   0x7fffe0002b8eae001eaaab800ffffff0003060e000aaea980018631f00003f780000fffff0003800ff8003e61b0006ab76c000c63830003ffff0000e76e60001ffff80003802f8007ffc3f00007e030001c18380;
   0x7fffe0007fdffe001cfff3800ffffff0007060e000ffffd8001c631f0000771fc000006000003d55c70001e71b0007ff66e001c73830003ffffc000e66660000018000001c0f10000380390001f7030001c1c380;
   0x7060e000018c0e001cfff38000380e00003060e000abea98001ffffb0000e7e3c000aaeaa0003fffc00020e61b800603067000c63ff0003800fe000ee6660000018000000f3e0000038038000383e30001c1c380;
   0x3fffffc0001dc0e001ce07380001c7f000071f0e00003f018001ffffb8001c67c4000fffff0003d55c00071f7f9800603063801c73ff0003800ef000ec677000ffffff00007f80000fffe38000701ff0001c7c380;
   0x2faaae800018c0e001cfff380000fff80000fbc00000f78180018631b8007861f8000006000003800c00023bff9800603063000c03830003800e2000ec633000ffffff00000f80000abaa380006003b00003ef000;
   0x7000e000fffffe001cfff38001fffc00007e1fc0007e3f18001c6319c00f0707f001557554003fffc000779e19c007ff060001d43830003fffe0000e463b800001800000007fc000038038003fffff0001fc7f00;
   0x7f00e000fffffe000f8033800fe0fff001e003f800f80fd8001f6318c00403e0e003fffffc003fffc0003f0f00e007ff060000fc3e30003fffe0000e0601c00001800000000ff80003803e003fffff0007c00ff0;
   0x3e00e000000000000f800380070007f001c0007000e00198001f0018c00001e00001555554003800c0001c0600c00603060000781e30003800e0000e06010000018000000000780003801e0000000000070001e0;
   0x0;
   0x0;
   0x0;
   0x0;
   0x0;
   0x0;
   0x0;
   0x0;
   0x0;
   0x300600001c0180000700c00001c0300000300c00001c0300000300e00001c0300000700e00000c0380000300c00001c0380000300e00000c0380000700e00001c0380000700c00000c0380000300600001c0300;
   0x380600000c0180000300e00000c0380000380e00000c0380000380e00000c0380000300600000e0180000380e00000e0180000380600000e0180000300600000c0180000300e00000e0180000380600000c0380;
   0x3fffff000ffeffc003ffbff000ffeff8003fffff000ffeffc003fffff000ffeffc003ffbff000ffeffc003fffff000ffeffc003ffdff000fffffc003ffbff000ffeffc003ffbff000fffffc007fffff000ffeffc0;
   0x3fffff800ffeffe003fffff000ffeffc003fffff000ffeffc003fffff800ffeffc003ffbff800fffffc003fffff000fffffe003ffdff800fffffe003ffbff800ffeffe003ffbff000fffffe003fffff800aefaec0;
   0x1cf39c000c78e70015dd7f8000e71ce0001cf338000e70ce00018e31c000e70ce00039c71c00577dfe0001ce3b8000778cf0001ce19c00073ce700039e71c000e71c700019c33800063ce70001cf19c000e79cf0;
   0x38630e001c38c380038e31c000c3986000387b1c000c39c700038671c000c38c700038e68e000e38c7000187b1c000e31c700038f38e000e1cc380030f62e000c39c380070e31c000e1cc380038738e000eaaae0;
   0x1fffffc00181cc300110470c001d379f00030771c001dd1e30003fffe8000dddc700031c6cc00079cc3001fffffc0004188300011e71c007fffff000374068000dd183000ffd70c00041cc3001557558001ffff80].
Definition hanzi_rows_133 : list N :=
  [0x1fffff8007ffffe001e0060800030218003fffff00000c0600003fffe00000ce0e0000180c0002bc3e0000fffff0002abe70000ffe038007ffffe000fb00700000c18c0000fffe0003ffffc001fffff8001800380;
   0x575d50007fffff003ff66d800031fff003fffff00000cfff000300060007ffe1c003ffc1c0007fe3ff001c30c70007fff7c0007578700015c010001c70ff0007fe18c00055dff0003ffffc001fffffc001ffff80;
   0xfffff00030c38c0000f26d800031fff000030c3000ffefff0003fffe0007fff38003ffeffc0038787e000c30c300030c30c00038fee0000ce730001ff0ff8007fe18c000ffc0600031c38c000030c00001800380;
   0x1c30c300039c1dc0000337d800fff718000070c3000ffe0600003555600001c3f0001557ffc001c5c70001fffff00071c30c0001fc5c0001c7f30001fff01c0055718c00001c07000307f1c000fffff0001ffff80;
   0xfffff0001faaf800003379800ffe3f8001fffff0006062ea0003000600000c00000003f060000ee860000fffff00030ff0c0003fe000000cfe3000006e00e0003318c003fffe600030fe0c000fffff0001aaab80;
   0x1fffff0001ffff0003ff7ff800e305d0001fffff0006777fe000ffffe000ffff9500155b0600007c3ff0001c60000071ff0c007fdff00001dc7f0000070ffc0007398c001ffff700033e7dc000c30c30001d55780;
   0xaaaaa0003e007e003ff7ff800e30aea001830c3000333e66000f0e06000ffffbf001ff8ae0000fe3ff0003860000030c34c003860efc000ffff0003e60ff8000e198c001a88260003381cc000c30c30001ffff80;
   0xfffff000f7557f003ff0f1800631ffe001c70c30003716660007ff0600000003f001ffcfe000077e78003fffff0007fd77c001fff8fc001ffff0001ffc0c0001c118c000ffff70003ffffc000fffff0000007000;
   0xe000600047ffe2000631f1800638cc6001fffff0000306660003fbfe0003ffe380000ceee000ff8cf8003fffff0003eff3e000fff8e000000c000030ff0c000080180001808a70002aaaa8000fffff000ffffff0;
   0xfffff00006006000063379800619cc6001fffff0000707fe003fc07e0003ffe380001c4e7000ffc1fc00070c0700055550e0005750e0003ffffc0038e7ffc001ffffc001ffc7700000701c00000600001ffffff0;
   0xeaaae0000600600006366d800618ffe0008303b8000702fa00180000000300638003ffee300060f3ee00071c0f00000e302000fff8e0003ffffc001cc0ffc003ffff8000aa033000386ab8003fffffc000788e00;
   0xfffff00007ffe00006326f80061dffe001f37f98000f83f80007fffe000300638003fff6300078ff770003d83f00000e3000000700e00030e70c000fc00c0003dd75c0001fe730007ffffc003fffffc001f1e780;
   0xffffe0000218200006306580060c0c00003f7f98000d87780006baee0003ffe380001e0630001dc8638001f87300080e380003fffce00030c38c0003c00c00038c3180000fe3300003e01800003fc0000fc863e0;
   0x6000000718700006306180060dfff001070398001dce6c000631c60003ffe78000360638000f80730030f0e3001c0e1c0003fffde00031ffcc0001f04c00038c31c0011c63380040701c0000f7f0000f1c38f0;
   0x3fffffc000e18380006380180060eaea0030303980038e466000630c60000000fe000770618000780610030fe43800c0e1e00000603f80033ff8c0063fefc00038c31800308639800c06a180003e67e0000381c20;
   0x3fffffc001c181c00061fff8007f70c0003037f9c00f07067803fffffc01fd5fcf001e3c61c0001f0700033dfc1c00ffe0fc007f57f3c0033018c00771f7e000ffffff0031c719c00fffffc007f861fc0007fff00;
   0x600000381f8e00061bff8003e38c0003ffff8e00e03861003fffffc00ffff03003c0f7ce00007e60003f83e0c00ffc03f003fffc0c003e000c003e020e000ffffff003f83dce00ffe3fc003c0603c000e2fe00;
   0x600000101f04000618000001e10c0001fc018400401060000000000005ff4010030067c400001c70001f00c0c005500070017fd004001e000c001c0006000000000001f01c8c007fc004000006004000c00000;
   0x0;
   0x0;
   0x0;
   0x0;
   0x0;
   0x0;
   0x0;
   0x0;
   0x0;
   0xe00c00001c0380000000e0000c00300000000c000038030000106000000006000000060000001c0180000700c00000c0180000300e00000c0300000300e00000c0380000300600001c0300000700c00000c0180;
   0x600c0000180380000000e0000ce0300000000c0000380300007060e000000e000000060000000e0180000300e00000e0180000380600000e0380000380600000e0180000380600000e0380000300e00000e0180;
   0x60ccc0001833b003fffcec000ce333001fffccc000383330003861c000003c00001c0607001ffeffc003ffbfe000fffffc003fffff000fffffc003fffff001fffffc003fffff000ffeffc003ffbff000fffffc0;
   0x60ccc000383bb003fffeec000c63b3003ffeccc000383b30001c638000007c00000e0607000fffffe003ffbff000fffffe003fffff800fffffc003fffff800fffffe003fffff800fffffe003ffbff000fffffe0;
   0x706dc000101bf0038c76fc001c71b7001c00cdc000381b70001c63000001ef000007060e0000778670015dd778000738c70001cf39c000338ee0001ce39c00577dfe00018f31c000e39c700039c338000e3ce70;
   0x1ffe6d800fffdbe0038c36f8001871b6000e00ed8000381b6003fffffc000383800007060e0000e1ce380038e638000e9cc3800387b0e00161cc700038730e000e1cc7000386308000c988300030e71c000ddcc38;
   0x1fff6d800fffdfe0038c77f8003871f60007006d800638df6003fffffc000f01e00003861c000047e430006347dc0005806200011e16c007fddc3000186d3c000d1dc3003fffff8000181c000010621c00079c430;
   0x18062d8000000fe0038c33f8003038f60003802d800638cf6002abfaa8003e00f80003861800000e7800006300c8001f8060003fff86000ffff84000180c30000380cc003fffff8007ffffe000399ff800fffffe0;
   0x18070c0001010380038c70e000701c300001c00c000638c3000007fc0001f8183f0001c61800007c3e0003ffeffc003fcfff003fe3c6000ffff9e001fffffc007ffccc000318318007ffffe0001d9ff800ffffff0;
   0x1806ffc003839ff0038c37fc00e01fff0000c0ffc00638fff0001e6f0000e6186f000006000003ffff8003ffeff80018eaea0039888600000c078003fffffc007ffccc002bbabb8000181800008f1c10000018000;
   0x1807ffc003831ff0038c77fc01d55fff0001c0ffc00638fff0007c67c000061870003fffffc01ffffff8006301c0001c706000199dffc007fff300035dcc3000618ccc003fffff800ffffff001c70e78003ffffc0;
   0x18060e0003830380038c30e000bffcba002aeaae800638eba001f061f0000718e0003fffffc00c00007000630ff8007ffffe001998bfc0060c30000398ceb0006baccc0003807c000ffffff000ffffe00038180c0;
   0x18071e000183078003fff1e0003ff838007fff0e000638c38001c0607c000319c0003fffffc001ffff8003fffff8007fffff0019ffc60007fff0300199cff0007ffffc0067c36e0000018000003fffc0003ffffc0;
   0x1ffe3e00018307c003fff1f00030c078003fff1e000638c780010060180000188000003f8000011e688003fff0c000606662001ff7c60007fff0f000ffcc3000618ffc002af3e78000abaa8000f000f0003ffffc0;
   0x1fff7f0001870fc003d573f00030c0fc0001c03f000638cfc00000700000ffffff00007fc00001ffff8000001ffc00666667001e71c600071c73e001ffcd7000618c0c003f7cf3c001ffff8007fffffe00381c1c0;
   0x18066f0001861fe0038037f80030e1fe0000c07f000638cfe00000600000ffffff000076e00001ffef8000aa8ffc006667fe0000003e0007fff1800182cff0007ffc0c00000800800181818003bfffcc003ffffc0;
   0x1807ed8001c71be0000076f80030e1b60001c0ef800638db6003fffffc00007f000000e670000155554001ffc1c0006667ff001fffbfc0071c760001c7cd70007ffcfc0007fffe0001ffff80003801c000381c1c0;
   0x18064d8000c61be0000036f8003061b60000c0cd800638cb6003fffffc0000fb800001c6380003ffff800180c3e0006660f8001aeb87e006cc360000cecc30000ee0ee0006aaae0001ffff80003800c00038180c0;
   0x18074dc000c603b0010070ec003071370001c04dc00638c3700001f8000003dbc00007861c00035d75c001c0c7f0006763f8001c61864005d5570000ecfffc000e70c6000600060001818180003fffc0001ffffc0;
   0x18060cc000c603b0060030ec003870338000c00ce00638c33800039c00000f98e0000f060e00030c318001ffcef0006f676c001fff86000fffff800078fffc00aebac60007fffe0001abab80003fffc0001ffff80;
   0x18070c4000e60390070070e4003830310001c00c400638c31000079e00001e1878001e06070003ffffc001ffddd8001f066e001fff860005d575c00078c67001fffec60007fffe0001ffff80000e07000018e71c0;
   0x1ffe0c0000600380030030e0003838300000c00c0007ffc300001e0f8000f8183e003c0603c003ffff800180c8dc003b8067001861860000c0e0c00078ee3000aeaac6000600060000381800000606000018e3180;
   0x1fff0c001ffff38003fff0e0001d1c300001c00c0007ffc30001fc07f400f0180f00380601c0030c31c001ffc1cc00f1e063801fff860000c1c0e001ff7c38000e00c70007fffe0001fc1fc003fffffc01ffffff0;
   0x1aae0c000fffe38003ffe0e0001f8e300000fc0c000600030003f800fc00001802000006008003ec318001ffc0c401e0f861001fff87c000f980600387e81c000e00c38007fffe000fc003f003fffffc00ffffff0;
   0x18070c0000000380005540e0000f043000007c0c000600030001c0001c00001800000006000001e001c001c0c1c000c03860001c01878000f800400303600c000e00c100060006000700006001555554000000000;
   0x0;
   0x0;
   0x0;
   0x0;
   0x0;
   0x0;
   0x0;
   0x0;
   0x0;
   0x70060000000300000e00e00001c038000004710000380300000000e0000001c00000000700001c03000010600000551c0000000700000003800000000000000000380000000c0000018000000e01c0000000700;
   0x70060002aa8300000e00e00003803800398e638000300300000002e0000000800003ff8f8000380300003060e000ff187f00000380000001800003fffffc00000038003ffe0c0001818180000e0180003ff0300;
   0x3bc66c007fff33003fff6ec000381bb00198777000070333003fffeec00ffffc00003ffdc0000307370003861c000ffddff000fffff000001c1e003fffffc00ffffbb007fffccc001818180000e19cc003ff7730].
Definition hanzi_rows_134 : list N :=
  [0x71c66c006bafb3003fff6ec00ffffbb001983ee000ffffb3003fffeec007fefb8000b18088007ffb360001c638000e0d9e0000ffffe000fffc7e000030c0000ffffbb000006ecc001ffff80000e198c003033320;
   0xfff67c00639db70000e07fc00ffffbf0019d575400fffdb70000e06fc007001d8000f1cc3c007ffb360015d775400e0df70000ee6770007ffe70000030c000006e1bf0000076dc001ffff80000e1ddc003033760;
   0x1fff27800638db6000aea3f800e00eba0008dfffc00aaa9b60000e02f800386ff8001f0cc78006019b6003fffffc00e0db60000e36e2000618700000fffff00006e0be0000066d800001800002ae0d98003033360;
   0x187f378007ffdf6001fff3f800e00efe000cdfffc003871f6003fff3f8003dfffc001b0c660007019b4003fffffc00e05f70000fffff00071c380000fffff00006e0fe007fff7d80070180e007fe0dd8003031f60;
   0x70378007ffcf60000e01f800e00efe000cc1fc0001830f6003fff3f8001f8e0e003b0e640006018bc00003fc0000fe7b7f000efffa00031e080000c30c3000aeeafe003ffe3d80060180e003fe07b8003031be0;
   0x3fff86000639c300015f50e0003ff838000e677e0001c30300038e30e0000f071f0033073e0007ff8300001f6f0000fe5d7f000e3fc700007f1f0000c30c3000fffe380015f70c0007ffffe0000e05c0003ff1700;
   0x3fffbfc00638fff003fffbfe003ff9ff00066e678001c3bff0038e37fc003f83ba003387060007ffbff0007c63e000061803000ef6e20001e387e000c30c3000ffffff0000e6ffc007ffffe0000e1ffc003ff3ff0;
   0x71c7fc007fffff007fffffe000001ff00066471e003e7bff003fff7fc0079f1f00003d3c7000701bff003f061fc0007ff83000ec67f0007c1e1f000fffff000e6cfff0000e7ffc000010000000e1ffc003037ff0;
   0xe0e2e8007ffeba0000000e0000000ba00022262c007efeba003fff0e000e0f0f80001f1e38006018380018e27380002ff83000ffffe000f00f83000fffff000e6ce380000e6ae8000c18380000e0be8003030380;
   0x3cc78f000038038001ffe0f00055543c00077607000e74c380038e31f00040107f0000f6e1c007ff8780000e070000073c03000fffff000441b3000010608000e64e3c003fe71e0000e18700000e01c0003030780;
   0x38e3df000038078001ffe1f000fffe3c00066603000c30e780038e31f0000e182f00038618c007ff8f8000fffff000ff3e7f000000000000e18700003861c000e64e3c003fe61e0000618e0003ffe3e0003030f80;
   0x3078df000fffefc001c063f000fffe7c000e7fff0000384fc003fff3f0000e1870000386380007ff9fc001fffff000ff7e7f003fffffc0007187000018638000e64e7c0038673f0000718c0003ffe7f0003031fc0;
   0x71e37800fffffe001aae3f8000380fe000cdffb800ababfe003fff6f8000718e00001c638000631bbc0000e070000e07a60003fffffc000318e00001c638000e66efe0038636f800ffffff003806fb0003ff3bc0;
   0x3cf7780007c1b6001ffe7f8001399fe001cc6d9c01ffffb6000063ef800575dd50015d775400f71b3e0000e070000c0df7000000018000ffffff003fffffc00e66ffe0018676d800ffffff003807df8003ff77e0;
   0x8e226c000fe1b60018062f8003399be0018c6d8e00fffeb60000674ec00ffffff003fffffc003e19360000e070000e0dba000000018000ffffff003fffffc00fe2eba0018634d80000fe00003806998003033360;
   0x1c7c06c001ff137001c060ec00739c3f0019c6df4000380370000760ec00ffffff003fffffc001e1837003fffffc00e0ddf00007fffc00000ff0000003fc0000fc3ebb0018730dc0001df800038069dc003030770;
   0xe1e06e003bb833801ffe0ee00638c3b8039aece00003803380003e0ee0001fb8000003ee00000c1833803fffffc00e019f00007fffc00001db8000007ee0000e01e3b8018338ce000399e000380618e003030330;
   0x7c606400739c31001ffe0e400e38e390031bfee00003803100003c0e40007d9e00001f6780001d183300007040000601cf0000700000000799f00001e678000e00e390018318c4001f18f00038061c4003030730;
   0x1e006000e38e300018060e400c38738003386060000380300000fe0e0001f18f80003c63e0003bd8300003f0f80006018b0000300000003e18f80007c63e000fffe380018398c0003e183e003aae180003030300;
   0x7c06001c38730001c060e00043873800730607000038030001fefce001fc187f807f061fc01f1fc30001fc07f000741c3500030400001fc183f807f060fc00fffe38001c1dcc001f8181f003ffe1c001ffff700;
   0x3f06000838230001f860e00003e03800230603c00038030003f83ee000f0180f003c0603c00e07c30003e000fc007e183f0003f800000e0180f003c0603c00e00e38001f9cec000601802003ffe18000fffe300;
   0x706000038030000f060e00001e03800000601800038030003c01ee00040180000100600c00001c3000100001c003e1c1f0001f80000000180000100600c00e00e38000f0ccc0000018000038061c0000000700;
   0x0;
   0x0;
   0x0;
   0x0;
   0x0;
   0x0;
   0x0;
   0x0;
   0x0;
   0x7000001c00000000010000001c18000000006000000018000070060000c6018000006000000c00180000e00c00001c018000c0c0e0001c7018000606060001c381800000606000000018000006060000000380;
   0x6000001fe00000000380000018180003fff860007fbe18000060060000c601800000e000000d80180000e00c000038018000e0c2e0000c6018000e06060000c1818003f8606000fffe18000ff6060003ff8380;
   0x3fffffc001ffffe000001c0000ffffff003ffff6c007fbfdb0015f576c01ffff9b003fffff8000dc7db001575cdc0007019b00061c6ec001c719b00070e76c001dfd9b003f8676c00ffffdb000ff676c003ff9bb0;
   0x3fffffc00003ffc000080e0000ababaa00006026c0061b0db003fffb6c00ffff9b003fffff8000cc6db001ffecd800fffe9b0006186ec00fffe9b00030c36c003dfd9b00318636c00c1889b000c0736c001c61bb0;
   0x1c03c0000007140001c07000003c1f0003ffff6c0061b0db0015f5f6c000c61df000180c1800ffc6db001d56cd800fffedb003fff6fc00fffedf00031c36c007d8d9f00318636c006198db000c0336c0007e1bf0;
   0xe0f00000203800000f038000030030003fffb680061b0da0000e1b68000c60de000180c1800ffeeda0018066d8000306da003fff2f8000c60da003ffff68006cce9e0031aeb68003f98da000c03b68000380ba0;
   0x7fe00000781c00000781c0007ff3fe003061f78007fb05e001fffdf800fffede003ff7fd8000c7c5f001ffe6d0005756df003fff3f8001c70de007fffd7c00fcdfde0031ffd78003f9cde003fff97801fffefe0;
   0x1f8000003c0e000003fff0002aa306003f7f978007fbe7e000fff9f800cc6e7e003ff7fd8000c247a001aae2f0007ff67e0000e03f800fffede0003021e800ccfbde003bae9f80001bc5e003ffbdf800fffefe0;
   0x1fff000000fff800001fff00038c356003f7fd60000c3e18001cc1c6000cc6e580007c1e1801fff058001c060c0007ff6180000e00e000ffff18000707160001c7018003f861600001fc58001577d600067e0380;
   0x3ff9ffc00003ff800018782000baebfe0000603fc000c06ff003aebbfe00fffeff000fe3f1800fff0ff801ffeffc006306ff000aea7fc000030ff0003033fe000c70ff003b863fc00ffeeff000063ffc006271ff0;
   0x3f83dfc00071e58000383e0000fff806001f7f3fc007fc7ff003fffffc00ffffff001df7d98005550ff801ffeffc01ffffff001fff7fc000039ff0013933fe001dfdff0031863fc00ff07ff000073ffc00373dff0;
   0x61e00000e0f80000700f00000307fe000060060007f82ba0008c186000cc6eba0039bedd800000fba0018060e000fffeba001fff0e0007ff8ba0039bbae800ff8eba00318606000000218001ff38600003deba0;
   0xfd7c0001c03e0000fd07c0007ff7fe001555470006cc71c001cc1cf000dd7e3c001198cd8007fcf9c001ffe1e00067061c0000e01f0007ffc1c0019d987000ff07bc0031bfcf0007ffc1c001ffb8f00003c43c0;
   0x3ffe0003ffef8001fffff8007ff606003fff8f0006cbe3c000fff8f000fffe7c000180c18007fcc3c001ffe3e0006ba63c0000e03f000631e3c001fdfcf00000037c0031bfcf0007ff83c00039b8f00003803c0;
   0x19ffc0007ffffe003dffff0000707fe0055755f0006cff7c001fffdf00055547c00071c7180060cc7c0006e07f0007ff67c0000e07f000631ffc000fdfdf0007ffc7c003fb1df000701c7c00039f9f00003807c0;
   0x383e0000601afc00380e030001b18180000303f8006cb0fe0018e2b78002aa8de000318e180060ccfe000ee0ef0000306fe003fffef8007ff8fe000eccdf8007ffcde003fb0ff8007ff8fe00038bbf800abaafe0;
   0x7f57c00060184000008e000001f18f8003ffff78007fd0de001ceff7c007ffdde00039dc180060cddf001d75cf8000706de007fffaf8007ff9de00060637c00700dde0031f1f78007ffdde003fffb7800fffffe0;
   0xfffff8000798e00001ce3800003d9e0003fffa68007fb8db000ffce6c006aac9b003ffffd80060cc9b003fffcd8007ff6db0000000ec0063189a00060636c00600c9b0030b0c680060189a003fff86800afebbe0;
   0x1c5fff0000f18f00003ce1c000ffffff00319986c004c181b0007e8c6c00601c1b003ffffd8007fcc1b003fff8dc007ff71b001dd30ec0063181b001b1b16c007ffc1b0031f1c6c00701c1b00038386c000fe03f0;
   0x88e100001c187800070e0e000ffffff00319986e006c181b8007f8c66007ffc1b80007e018007fcc1b8000f00ce0060331b80199b0ee007ff81b803b9b86e007ffc1b8030fac6e007ff81b80078386e001ff03b8;
   0x1ee3c00078183c000e0e0f00001ff80003199864006c1819001efec64007ffc190001ff81c00001e190001f80cc0060331900199b8e4007ff819003199c6400700c190030ffc64007ffc190006c3864003bf8390;
   0x78e1e000f0181e001c0e038000799e000319986000ec1818003ce7e6000600c18000799e0c00003f1800039c0c0006033980039998e000631818003fffc6000600c180030ffc6000601818000ee386000f39c380;
   0x1f0f47800601f8600380f63c007f187c00319986000ffdc180070e1660007ffc18007f1c7cc01fff398001f1f0c0007ff198003339ce000631818007fffe60007ffc180030e1c6000701c18001c7386001e38f380;
   0x1c07c3800001f8000100fe0800f8181f003d9986000cfcf180020f8660007ffc18003c183ee00ffc198003c07cc0007ff198003338ce0007b1818002070460007ffc18003e60860007e181800383f860008386380;
   0x7c0000000700000007c0000401803001d9986000c0071800007866000601c1800101c044000001180030018c000603118003110ce00071181800001006000700c18001e60060003c1c1800101b860000380380;
   0x0;
   0x0;
   0x0;
   0x0;
   0x0;
   0x0;
   0x0;
   0x0].
Definition hanzi_rows_135 : list N :=
  [0x0;
   0x1c00100000000800000060000001c0300010010000000000000006006000003800000461000000000e0000060180000700600000701c0000000600000001800000000000001830000000040000006000000018000;
   0xc0038000000380000fffff00000e038003f83f80001fcffe000063ff000003000000e63bf8003f80e00000603800006006000003018000000070000aa8180003ffffc000018300003ffcc0000006000000018000;
   0x1c1c1c0000001c000055755000ffeffc001ffdffc001fcffe003ff7ff800fffffe0006733f8003f9fff003ff1750007ffffe0007feffc007fe7ff001ffdffc003ffffc001c18338003ffcce003fffffc007ffffe0;
   0xc0c1c0000000c00007fffe0000e70ce0001b903c0018c036003ff001800fffffe00063331800318aea003ffbff0007ffffe0007feffc007fefff001ae9ffc0030180c001f9bf38003830ce003fffff8007ffffe0;
   0x1c1c0e0000000e0001557554000c79c70000c31d800f8e7f6000c3bffe0006030e003fffb18003180e0001d5bd70000700600006301c00070ef5d0018601800030181c0007fbf38001c70ce001557554000018000;
   0xc0c0e000000070003fffffc001ffffa000ce399800f0709e000e7f9b00006030e003fffb1800318ffe000e3f8300007ffe00006369800060e60c001861ff8003ffffc000038338000ee0ce000006000001ffff80;
   0x1c1cc70000004380007fffc0001d5558000e71998007feffe00066db3000ffdffe0000183180031c55400077f8300007556000063fff00070e71e001871ff8003ffffc003018338000fc0ce001557554001ffff80;
   0xc0ce3800000e180007fffc0001ffff8000638bb8003feffe0003c7ffc00ffcbae0000183f80030caaa0003e7ff80007ffe0000638ffc0060e3fe0018701800030180c00301ab38000380ce003fffffc000018000;
   0x1c1c71c00000f1c00175f5d4001d55580007fcc100038c3e60003c7ffc001f0f8e003fffff800f0dfff0001c3ff80007ffe00026fc1dc0075e1f0001c315d400355d5c003fffffc001ff0ce003fffffc00555d550;
   0xc0c7fc000007ff003fffffc001ffff8000bf8830001f8e7e0003c1bb8003f9bce003ffffb800f0f803000fe083800060060006ecc180007fe7f0001c3bffc003ffffc001ff2ffe00fe7ece00380380c00ffffff0;
   0x1c1c3fc000003ff000707860001d5558000dc1ff0000f0556000ff1b180077d3ee00077731800405bff007f7dc1c00ffffff007c8f1f8007fff7c001f9f5d4001557d400004781c00781fc00038e1e1c00555f550;
   0xc0c1c0000001c2000ffffe0001aaab80018e1ff800ffeffe003e3fff800e6e37e000e3bb18002aa3f800383ce1c00afaaea003c03cf000021e0f000f8f9800003c3c00000e1e00000083800038f878c000307800;
   0x1c1c1e0000000e0000f00000001ffff8001c7019c00f1f754003819d5000467b3e003f9ff18007fe37000007878c000e1c70001070f500007c7c3000071f000001fff00000fd7800001e1e000003ffe00007d5f00;
   0xc0c0e000000070001ff9ff000aaabaa003ff818c00018380000070e0000031e0e0039fef18006aa3fc00003ffe0003c8f3800003a3800001fff800007878000027ff800003ffe00000fff800018ffe00000fff80;
   0x1c1cf7000000d3c0001fdd7000ffffff003ffd5dc0001f1e000007ffc00007d70e0000fe7f80071c3fe00019ffc000f9e3de00019ffe000067ff000001ffe0000f1f780001cffe000067ff0000383e0000067ff00;
   0xe0cffc00000ffe000661ff000070ce000318bffc00027ff800008ffe0000cffce0006383f800318660000383e0000e2ffef800387bc0000e0f8000018ffc0001e07c0000383e00000e0f80000700f80000e0f800;
   0x1ffc5fc000007ff0007fdff0001ec77c000183ffc000f1f700003c7e40001c7dc6000e1e31800398f7c0007d4fc000471fe3000701f00001d07f0000781f00003ffffc0007f4fc0001f53f0000fffff0001fd5f00;
   0xffe00c0000000e000df9ab000f8fbde000db8998001e03e0000ffaf80003f8f86000fffb18001b0ffe000fffff8001c03e0000fffbe0003ffffe000ffa3e0007ffffe000fffff0003ffffe001cbfff8007ffffe0;
   0x1c7e00000000000001c71ff000f71fc7001d99998003ffffc001fffff8007ffff6001d7f31c001f1cfe001c5fff0003ffffc001fffff000717ffc001fffff800701d7c001c5fff000717ffc00180e05000703ffe0;
   0xc0680000000800003ff9830000fa38000199999800603ffe00180ebf000606be6000e66308000e02c000088e1000070bffe00180e2e00022380000180e2f000231840003886000002038400000ce380002238c00;
   0x1c00ff000000fd00075dfffc001ffff000319d998006738c00001ce300000e7307000e6731c001f07dc0003ee3c0002738440009ee380000f38e00001ee780000798f00003c63c00007b9e00007ce3c0000f38f00;
   0xc00ffc00000ffe000db0fb0001338b000318db98000e38f00007ce3e0001c6383000c6330c003b86ce000f8e1e0000f38f000038e1e0003e387800078e1e0001e18380007861e0001e3878000f0e0e0003e38780;
   0x1c0007c0000007f00199dfb8001fb9f000318dff8007c383c001f0e0f8007871e3001c61f4c0071ecc7001e0e078003c387c001f0e0f00078383e001f0e0f8007c181f001e06078007c383e001c0f47c0078381f0;
   0xc00000000000020031ef3fc003c3e3c0001f1bf800703f8e00380fc3c00607e7b801878fec00e0f4f300180fc3800703f8f001c0fe3800603f8e00380fe3800601f06003807e3c00703f8e003807e3800e03f8f0;
   0x1c00000000000000011e41c400101e1c0001e000000001f04000007c0800003c110000781e400c06070000007c0000201f04000007c1800001f00000007c0000001f00000007c0800201f04000007c0000401f020;
   0x0;
   0x0;
   0x0;
   0x0;
   0x0;
   0x0;
   0x0;
   0x0;
   0x0;
   0x1c00040000380300000000c0000380600001c30c000038030000018040000000300000600c00000003000000018000010030000038180000000300000301800000e06000080018000180070000000180000000300;
   0x1f800c000038030000aaa8c0000380600001830c0000380700000180c0000000700000600c000000070000000380000380700000381c00000007000003818000006060001f80380001800700000001c000aaa8700;
   0xffc0e000038030001fff8e0000380700001c30c0000380300000180e0007ff8700000600c000fffc70001ffe1c0000700700000381c0001ffe300000181c000007070001fff1c0001800700015551c000fffc300;
   0xff06000038038001aab8e0000380380001830e000038038000018060007ff8380000600e000fffc38001ffe0c0000600380000380e0001ffe380000180e0000070300000fe0c000180038003fff0e000fffc380;
   0xc707000038018001b03870001380180001c307000fffe1800001807000555018001fff86000f75418001c000e000fffc18000038060001c701800001c0e000fff0380000c40e00018001c003fff0e0000300180;
   0xc00300003801c001b03830003bb81c00018303000fffe1c003fff0300000001c001fff83000e3801c00180006000fff89c000038060000c301c003ffc06000fff8180000c00600018009c0000c00700003001c0;
   0xc0638007fff8c001b0ff300073998c0011c37300003818c003fff6380000018c0000607300063018c001c00c7000001d8c0007ffe70000c318c001ffe67000555b1c0000c0c7001fffd8c0000c06700003018c0;
   0xc0718007fffce00199bf380063998e0039833380003818e0000186180000018e00006033800e3998e001800e38000019ce0007ffe38000e31ce00180663800001f8e0000c0e3800fffdce0000c0e380003018e0;
   0xc031c00618ec700199bb1c006399c7001dd739c00639dc700001c31c000001c7001fff31c006399c7001c0071c00001dc700063871c000631c700180771c00000dc70000c071c015d55d70000c071c000301c70;
   0xc03fe00618eff8019bbbfe00e398ff800fbf1fe00638cff80031c3fe000000ff800fff1fe006398ff8018007fe000018ff8006383fc00fe30ff801803bfe00000eff8000c03fe001800ff8000c03fe000300ff8;
   0xc01fc00618e7f0019f39fc00c39c7f0007ff1fc00639c7f00039c1fc01fffe7f001fff1fc0061987f001d543fc00001c7f0006181fc007f707f00180b1fc003ffcff0015d53fc0018007f0000c01fc01fffe7f0;
   0x3fff8c000638e300018e38c000c38c300003830e000638c3000038c0c000fffe300000600c000619830001ffe1c0000018300006180c00060783000181c0c0001ff870003fff1c0001838300000c01c000fffe300;
   0x7fff8600067ce180018e38e000438e380001c306000639c3800019c0600001c03800006006000619c38001ffe0e000001c3800061f0e00070783800183c0e0001e0038007fff0e0001870380000c00e001fffe380;
   0x2aea8300066ce1c0018e38700023881c00018307000638c1800018c0700001c01c002aea87000618c1c00180e0600000181c00061f0600030f99c001870070000f001c0000c00600018601c0000c00700003001c0;
   0xc0738006eefce0019e3f38007381ce0001c33f800639dcc0001cc7380001c1cc003ffff380061cdce00000ef7800001dfe00063c7300030d9fe0018f0f38000783de0000c0f70001863fe0000c0738000301ce0;
   0xc07f8006ceffe0019b3ff8003381ff0001833fc007ffdfe000ece7f80018e1fe003aeabf80060c7fe00000effc000019ff00067c7f80039d8fe0018e0ffc000383fe0000c0ffc0018e3ff0000c0ffc000301fe0;
   0xc01fc007c7e7f0019b39fc003b81ff0001c307c007ffc7f000cce1fc0018607f0030601fc0070c07f00000e5fc00001c1f0007fc1fc001d9c1f0019c01fc0001c1ff0000c07fc0018c07f0000c07fc0003007f0;
   0xc000c00783e03001b3b80c0018000300018300c006ba803000ce600c0038700300306000c0060e00300000e00c00000c030006cc00c000f9c0300180000c0000e0030000c000c0018c0030000c000c000300030;
   0xc000000783e00001b1b800001c00000011c320000638000001c67000003030000030600000070600000700e00000000dc000068e000000f1dc0001c00000004070000000c0000001800000000c0000000300000;
   0xc060000600f80001a1fe00000f03c00031a338000038380001867600007039800038606000070618000300e80000000ff0000e06e00000f0df000180080000c03a000000c0800001803800000c0600000303800;
   0xc07f000600ffc00180fff00007c3fc0071ff3f801c383fc003c777f0007f5dfc001f607f0007071fc00700eff000000e7e002c077f0001f8efe001c00ff000c01bfc0000c0ff0001803fc0000c07f0000303fc0;
   0xc01fe00600eff00180bbfc0003e03f0031bf87e00c380ff003ff39fe00fffeff001e601fc0030387f00300effc0000061f006c03bfc003bc61f000c00ffe00c01bff0000c0ffc001800ff003fffffe000300ff0;
   0x3fff01c00740e07001d0381c0000fc07003fcf81c01d70007003ff381c00c7fc1f00046001c003d1c07003ffe07c00000707007c03c1c00f9f707000f4007c00fff81f0000c007c001d400f007fff87c0003500f0;
   0x3fff000007e0e00001f0380000003f00003f8380000ff0000003031c0000c00000000060000003f8f00003ffc00000000380003801c0000e07b80000fe000000fff8000000c0000001f80000000000000003f0000;
   0x7c0e0000070380000000600000000000007f000000700100000400000000060000001f060000055000000000300001800800004033000007e0000005540000000c0000000f80000000000000001f0000;
   0x0;
   0x0;
   0x0;
   0x0].
Definition hanzi_rows_136 : list N :=
  [0x0;
   0x0;
   0x0;
   0x0;
   0x0;
   0x700c000000030000000180000380600000001800000e01000011c18000118030000c0e1800005c0200000000c0000000700010000c00000c0600000600c00000c030000c00180000c00700000c00c0000c38300;
   0x380c000000070002aaa18000038060000aaa1800000e03800039c18000318830000c0e380000ec060000fff1c0007ffe7000187f8c00001c0700000e01c00001c030001f801c0000ce0700000e01c0000c38300;
   0x180c0007ffc70003fff1c000038070000ffe1c00000603800071c1c000319c30000c0e1c0003dc070001fff0c0007ffe7000187f8c0000380700000e00c00001c030001fff1c0000c60700000f00c0000c18380;
   0x1ffc0e0007ffc38003fff0e000038038000eae0c000ffff18000e1c0c000318838000c0e0c00030c038000e000e00060c0380018600e0000380380000c00e0000380380001ff0e0000c60380001f00e0000c38380;
   0x1ffe07000701c180038c30e000fffc38000c0e0e000ffff1c001c1c0e000319c1c000c0e0e00041c0380007000700070c018001860060000700180015d50700007001c0001c7060001c70180003b8070000c181c0;
   0xe0e03000700c1c0038c307000fffc18000c0e0600000300c00000c0600031888c003fff860007ec01800039c0700030c01c00186007000fffc18003fff27000fffe1c0001830600018301c0003b8070000c180c0;
   0x71f63000701d9c0038c347000f7dd9c000c0e470000030cc003fffe7000319dcc007fff870007ffd9c0001fc6300070c19c00186033000ffff8c003fff63001ffff8c0001c76700038318c00071c630000c19cc0;
   0x73bf3800700d8e0038c3e3800e38d8e000c0ee380002bae6003fffe3000ffffce000c0ee380003fd8e0000e07380030c1ce00187f33800e00d8e00003873800babbce0001836380030398e000e0e738000c18ce0;
   0x3f1b1c00701dc70038c371c00e38dc7000ffe71c0003ffe700001c71801ffffc7000c0e71c0001c5c60003c071c0070e1d700187f39c00e00dc600001871c003818c700018771c00701dc7001c0771c000c18e70;
   0x1e03fe00700cff8038c33fe00e38cff800ffe3fc0003fe7f80000c3fc00fffeff800c0e3fe000180ff0003803fe0030e0ff8018031fe00e00cff0000183fe003838ff8001833fe00e01eff803803bfe000e187f8;
   0x1f01fc00701c7f0038c33fc00fffc7f000d5e1fc00039c7f00055c1fc00319c7f000c0e3fc00fdc07f007fff9fc0030e07f0018031fc00e00c7f0015581fc0018387f003fff1fc01d55e7f00301d9fc000e1c7f0;
   0x3f80c000700c30003fff1c000fffc30000c0e1c000038c38001ffc0c000318830000c0e1c000ffe030003fff8c0003ffc300018030e000000030001ff80e000183030003fff0c000bffe3000040c0c0000e18380;
   0xf3e060007ffc38003fff0e000e38c38000c0e0e000038e1c001ffc0e000319c18000c0e0e0001ffc380038e00e0003ffc3800180386000000038001ff80e0001c7018003fff0e0003ff838000f1c0e0001e1c180;
   0x3e0f870007ffc18003aeb06000e38c1c000c0e060007ffe0c000c3c0600031881c000ffe0600041bc180018e00700030601c0018ff83000000018001c18070000c601c0001830600030c01c000f8c070000e3c1c0;
   0x7c37f38000001cc0038c3f3800e38dce000c0e770007ffece000c3e77000319dce000ffe77800e181dc001ce07f8003061fe00187fbf8000001fc001c1c738000c61ce000187f700030c1ce0003fc778001e7cce0;
   0x20f87fc000001fe0038c3ffc00ebadff000ffeff8000380fe000e3e7f8003189fe000c0effc006381fe000ce07fc003860ff0018e03f8000001fe000c187fc000ee1fe000383ff80030e1ff0000fc7fc001e7cff0;
   0x3e05fc0010107f0038c37fc00fffdff000ffe1fc0013987f0007761fc003f9c7f000c0e7fc007b007f000ee01fc0038707f00186007c0000001f001c1c1fc0007c07f0003071fc0030e07f00007c1fc001f6c7f0;
   0x38000c001c30030038c300c00ebac03000c0e00c003b98030003e6008003f8803000c0e00c003f00020000e000c0038700300186000c00000002000c0c00c0003c00300030300c0030600300000c00c003bee030;
   0x300000003838000038c300000e38c00000c0e00000739cc00003c700000001c00000c0e000001f00000000e00000038710000186000000000000001c0c000000380000013070000030700000081c00000334e000;
   0xe000003839800038c380000038000000c0e60000638ef00001c360000000b80000c0ee00000781c00000e0600003831e000186038000000180000c0e6000007c1e00023036000038318000380ce00003386e00;
   0x7f7f000701dfc003dd7ff0000381fc000c0e7f000e3877e0003c37f000001ffc000c0eff000c7c1fc0000e07f0001831fc0018603f0005555fc000c077f0001ff1fc0077477f0003839fc00181cff00071c7fc0;
   0x1f87fe00601cff803fffffe000381ff000c0e1fc00e3830f000fe38fc00fff8ff000ffe3fc008ef83f0000e03fe0018303f00186007e00fffe3f000c033fe003c783f00367b3fc003838ff80180c3fc00e1c33f0;
   0x7c007c00e00e0f003fff07c0003801f007fffc1c01c38387001e79c1c00fffc0f000ffe07c00dc7f070000e003c01ffff0700187f01c00fffe07000f6383c01f83f07003e7f03c001d1e07001ffc01c00e1e3870;
   0xe0000000e0070000380300000038000003fff8000003f000003c3cc0000aaa800000c0e00000f80e0000007c00000ffff0000183e00000000000000fc1c0000e00f80003c0f800001f8e00000ff800000c0e3800;
   0xc0000000400600001003000000380000015554000001f000001018c0000000000000c0e0000070040000007c00000000000001814000000000000007c080000c00300001c01000000f0600000000000004041000;
   0x0;
   0x0;
   0x0;
   0x0;
   0x0;
   0x0;
   0x0;
   0x0;
   0x0;
   0x380400001c03000001c040000180300000600400000101000000004000007010000060040000380100004c00c0000018180000700c0000000300000000c0000000200000e00c0000660100000e00c00001c0700;
   0x181c00000e03000001c0c0000180300000600e000003830002aaa8e0000030380000600c000038070000ec01c0000018380000701c0000aa870000aaa8c000fffc700000e01c0000660380008e20c00000c0700;
   0x55c0c0003ff03000001c0e00003c0300000f00e000ff9c18003fff860004070380000700c000038030001cc00c000fe18180000300c0007ffc70001fff8c000fffc700010e51c000066038001ce30e00035e0700;
   0x1ffc0e0003ff03800000e0e00003c0380000f806000ff8c18003fff860007fe018002aba8e0000380380018c00e000fe18180000380e0003ffc38001fff8e000eae8380018e30e000066018001ce70e0007fe0380;
   0x1ffe060003d7c18003ffe0700007e01c0001d807000000e1c000070070007ffe1c003fffc7000fffe1c0019c006000e6ff1c00031c070001c0018000e0e0700060c018001ce7060007ffe1c001ce6070007ff0180;
   0xc0e07000187e1c003ffe030000e609c00039c0300000070c0002380300020fe0c003fffc7000fffe1c003fff8700066ff0c00071c070000e001c00060c0300060c01c0018e3070007ffe0c000eee0300038301c0;
   0xe1f630001eefcc003007638001c718c00070e7380000734c00071c6380070c0ce00039c2300003818e007fffe300066184e000e0e630000f018c0007b87300060e18c001ce7630006660cc0006ec7300038398c0;
   0x71bf380007c2ce003003f18003839ce001e07398000030e6000e0c7180038c0c600070e7380003818e0000c0738006618e6000c066380007818e0001f07180060e38e0018e3738006661c60006ec718001c19ce0;
   0x3f9f5c0007c0e7003155f5c00781cd7003c03f9c01fff867001d4e31c001fc0e7000e0731c000381c70011cc31c00361877001c0771c000fc1c70001f031c006071c7001ce775c006660c70000e031c001c1dd70;
   0x1f03fe001ef07f8031ffbfe00effeff803fffdfe00ffd83f801fff9fe00c7807f803fffbfe000380ff80398c3fe0036183f803fffbfe003ef0ff8003fc1fe006038ff801aeb3fe007ffeff803fff3fe000e0eff8;
   0x1f01fc01fc7c7f0031fe1fc005ff77f0017fedfc017d5c3f003fff1fc00c7f07f007ffdffc00fffc7f0019cc1fc003eff3f003fff9fc00fc7c7f001f1f1fc007e3c7f001fff1fc007ffe7f003fff1fc007ffc7f0;
   0x7f80c000e30e380039860e0000002300000000e000380e180030a00c000ee7e38002000cc000fffc3000198c0c00036ff380070038c000e01f30007c27cc0003e0e70000aea0e0000666380000e00e0007ffc380;
   0x1f1f0e0000306180039860600000003800000007000381f1c0010e0060007c1c1c0000000e00000003800199d0600076181c0010000e000c00638003061860000004380000e00e0000666180000e0060007554380;
   0x3c0f870007ffc0c0039fe0700000001c00000003000380b8c0000e00300030000c003fff8700000001c000dbf87000e6180c0000000700000001c000060030000000180038e30700006661c0000e00700060001c0;
   0x3555ff8007ffcfe0039fe7f8003ffdce001fffbf800381d7e0000e073800fffffe003ffff38007ff9de000dbff3800c6187e001fff738007ffdce001fff738007fffcc0038e37f800ffffce0000e0738006001de0;
   0x1ffe3fc002ba8fe0039867fc003ff9ff001fffbfc0038087e001fff7fc00ffffff00000c3f8007ffbff000f8e7f800c6ffff000ffe7fc007ffdff001fff3f8007ffbfe0038e33fc00ffffff003fffbfc006aa9ff0;
   0x1ffe07c00031c1f0039861fc00381c7f00003807c00381c1f001fff1fc0057757f00000e1fc0075587f0007861fc01c7ffff001c071fc0003807f0000601fc00601c7f0038e31fc00d7757f007fff9fc007ff87f0;
   0x1c0600c00030c0300398600c0038180300021c00c00380803000aea00c00063003000aae00c0060180300078600c00c6ba83000c0600c0003800300006000c006018030038e300c00c630030000e000c007ff8030;
   0x1c0600000030cc00019fe00000381c0000071c20000381c000000e000000067000001ffe0000070180000070600000c61c40001c0700000038000007fffc0000601c000038e340000c630000000e0000006000000;
   0x1c0670000fffef00019fe6000038198000060e380003808e00000e0600000630e0000eaa78000601b8000238760000fe0c60000c06e0000038180003fffe0000601b800038e378000c638800000e0600006001e00;
   0x1c067f000fffe7e0018067f000381dfc000e073f800381c7c0000e07f000c638fc000c007f000701bfc0067c77f0007e0c7e001c07ff0000381fc007fffff000601ffc0038e37f000f619fc0000e07f0006001fc0;
   0x1ffe0fc0003000f0018000fe003ab8ff000fe307e0038080f0000e00fe00c61c3f000c000fe006018ff8026e38fc00060e1f800c063fc0003807f8000603fe006ab8ff003fff0fc00761cff8000e03fc007ffc3f0;
   0x1ffe01c00030007001d4001c003ffc0f001fffc1c00381c07007fffc1c00d61f07000e0001c007ff81f003ef1c1c00060707001fff03c01ffff0700006007c007ffc0f003fff01c00061e0f0000e001c007ffc070;
   0x1eae00000030000000fc0000003ff80000382f800001f0800003fffc0000fe0f80000ff8000007ff800003c3880000060380000ffe00000ffff00000060000007ff80000380000000060f000000e0000006aa8000;
   0x1c06000000300000007c000000381c00001000000001f1c00000000000007c03000007f000000701800001c1000000060300001c070000000000000006000000601c00003800000000606000000e0000006000000].
Definition hanzi_rows_137 : list N :=
  [0x0;
   0x0;
   0x0;
   0x0;
   0x0;
   0x0;
   0x0;
   0x0;
   0x0;
   0x600c0000300600003180c0000380300000600c0000180100000700c0000380300006060c0000600100000301c000000030000008040003000100000001c0000300100000000c00001c0700000700c00000e0700;
   0x30618c0000300600003181c0000380300000600c0000180380000300c0000380700006060c000060e300000381c0007e00300003380c0007fe030000ffe1c000c308300000001c0000180700000600c0000060700;
   0x38618c000ff00700003180c0000380300015750c0000180380038700c000fffe3000070e0c000e67e38000ff80c0007ffe3000061c0e0001ffc38001ffe1c000e31c38003fffcc0000380700000e00c0000570300;
   0x18630e000ff00380003180e000fffe38000fff0e0003ffc18001bff0e000fffe3800038c0e000666e38000ffc0e00002fe38000e0c06000032818000c060e000631838003fffce0000300380000c00e0001ff0380;
   0x1c670600057001800171d07000fffe1c001fff060007ffc1c001fff07000038018001fffc7000666e1c000f5e0700061001c001c0e0700003001c001c060600073381c00006007000fffe1c003fff870001ff8180;
   0xe6603000030018003f1f8700001800c0000600300001800c000eba030002ba81c001fff8300036ce0c00060f27000618e0c0018c603000fffe0c000c060700033300c00006007000fffe1c003fff830000c181c0;
   0x76e730007ffd1c003f1f9300007c1cc001575730000180ce000770630007ffd8c001ffff300036cfcc00071be3000718d8c0038e773801ffff8e001ffe6300033318c003fff9300001c18c000004630000e1d8c0;
   0x60338007ffd8e000318738001fe0c6003fffb3800abaac6000330638002ba9ce0018603180006cfce0003b1738003b8d860010e3318000fc1c6000ffe738000301c6003fffb380008e1ce00030c738002faf8e0;
   0x3fffb9c00755dc700031831c007c7ce7001fffb9c00ffffe7007ffff1c000380c7001c7039c00575ec70001f035c001b1dc70001f039c001fe0c700000071c007ffcc7003861b9c001c71d700070e71c007fffd70;
   0x3fff9fe00600cff8003183fe00703e7f8018801fe00aaaa7f803fffbfe00fffeff801aea9fe00fffeff8003f83fe001898ff8003b01fe003b70ff8000003fe007ffcff803861bfe003838ff800e063fe007ffeff8;
   0x3d559fc007ffc7f003f1f9fc0040067f001cce1fc001c707f007fffdfc01ffff7f001fff9fc00fffe7f001fbe1fc0001c07f0003381fc00733c7f001fff1fc00601c7f003fff9fc007d1c7f001c071fc00739c7f0;
   0x38018e0007ffc70003f1f8e000ffff38000cd80e000783c380000700c000000030000aeb8e0000f0e30007e0fcc00000c03000071c0e001e31e30001fff0c000600c38003fff8e0007ffe38003a038c000638c300;
   0x3bfd86000601c3800031806001ffff180000d106001f1df1c00003c060007ffc18000071870001f8e180038e386001ffff38000e1e06000c306180018070e0007ffc180038618e000e7fe38003707ce000739c380;
   0x3bf983000600c180003180700030000c0000c703000c0e70c001ffe070007ffc1c000061830003f8e1c0000e007000fffe1c001c0f030000ffc1c001803070007ffc1c00386187000c6321c00070e87000638c1c0;
   0x3b5dbf8007ffdcc0003183380033fcce0000ce3f8003ff0ce001ffff3800600dce003fffff80077cfce001ffff3801ffffce007ffff38001ffdce001fff73800755dce003fffb38000671fe00031c738007ffdce0;
   0x3b09bf8007ffdfe0003183fc0033fcfe0000e03f8003ff8ff00180fff800618dfe003fffff80066effe003fffffc001831fe003fffbfc000c61ff001fff7fc00600dff003fffbf8000631ff0003983fc007ffdfe0;
   0x3b1d87c0003007f007f1fffc00335c7f003fffc7c00183c7f001c0c9fc00618c7f00307807c00c67e7f001fff9fc001c387f001ffe1fc005c607f0018071fc00601c7f0000711fc0006307f0001f81fc00555c7f0;
   0x3b0980c00030003003f1fc0c00330c03003fff80c001c3f03001ffc00c00618c0300387c00c00462e030000e000c000c1803000c0600c00fe600300180300c007ffc0300007380c000630030001f800c00000c030;
   0x3bfda0001fffe0000031800000330c00000170300000e7700001ffc00000618c0000387e30000062e00000eee000000e7c00001c0600000fe7000001fff000007ffc00000077000004639000000f000000001c000;
   0x3bf9b8000ffff800003182000033ac800003b03c00007e0e000180c60000618d800038673c000060f80000ce66000007e1c0000c0660000e03180001fff60000600d8000003e20000c639e00000f030000c00f800;
   0x381dbf8015755fc0003183f00033fdfc00073c1fc0003c0fc001c0c7f00005c1fc001f779f800060ffc001ce77f00007c1fc001c067f000e031fc0018077f000601dfc00001c7f001c61dfc0001fc7f000c01ffc0;
   0x380987e000300ff0003180fe00300cff000e1e03c000fe03f00180c3fc001ee0ff001f63c7e00aaae7f0038e39fc001fe03f800c061fe0060387f8018033fc00600c7f8000fe3fc00c61c3f00079e0fc00c00cff8;
   0x380181c0003000700031801c00300c07001c0f01c007e7c07001ffc01c007c7c07000571e1c00fffe070030e1c1c007cfc07001ffe01c00601c0700180701c00741c070017f7c3c00fe0f07001f0f81c00fffc070;
   0x3f0180000030000000318000003e0000003803c0000f83f00001ffc00000e01f8000006040000aaaa000000f800000703f00000ffe000007e0e00001f03000007c0c00003f83f0000fe0780003e03c0000fff8000;
   0x1f0180000030000000318000001e000000300180000400700001c0c00000c007000000700000000000000007800000600700001c06000007e0600001f07000007c1c00003c0070000500100001001800001550000;
   0x0;
   0x0;
   0x0;
   0x0;
   0x0;
   0x0;
   0x0;
   0x0;
   0x0;
   0x40003c0010000006040001838300010440c0000000100000000400001c0300000700c00001c030000060040001c381000000604000000030000000040007000300000e0180000660300000000c0000000100;
   0x3fffcc0007c0038003fc60e0001838300018ce0c0002a2a38000fff0c0000380300000e01c000038030000c630e0001818380000060c000fffc30003f9fcc0007fa0700000601c000076030000ffe1c0003ffe300;
   0x3fffce000ec0038003fc606000183838001ce60c000ff7f18001fff0e0000380380000e00c000038030000c670e0001d58180000070e000fffc30003fdfce0001ffe700015751c000067030001fff0c0007ffe300;
   0x2aea8e000cc00180038c606000ffff38000c630e0006a6a18000c000e000fffe38002aea8e000fffe38000e6e060001bfc1800000306000eaac38003898c6000202e38001fff0e0000e3038000c020e000300e380;
   0x6007001fffe1c0038c607001ffff1c000e730700060701c001c0007000ffff1c003fff87000fffe1c000774070001ddc1c003fff87000e30c1c0039d8c7000718c18001d570600004381c001c0706000700e1c0;
   0x6003000fffe0c0038c60300018380c0006318300033330c000ffe03000c0060c003aab87000eaae0c000aea83000798e0c003fff83000e30c0c003898c3000338c1c00180307000fff80c000c02070003ffe1c0;
   0x70730015d57cc0038ffd30001839cc000773e30003f3f4e001ffe73000c007cc003001a3000c00f8c001fffb3800fddf4e00300dd3000ffed8c0039d8f300033198c001fff63000fffd8c001fff730007ffe8c0;
   0x3fffb18000c06c60038fff98001ff9ce000e63638003e3ce6000c0033800ffffce003001f3800c00fce000aba31800d8dbc600300ef9800efedce003f9ff98001b198e001fff73800061dce000aea73800300fce0;
   0x3fffb9c000ffe77003fc71dc001ff8c7001ce731c007c7c67000c0039c003ffcc700000071c003ff8c700003839c009cfbe70033fef9c00e30cc7003fdfd9c01ffffc700180731c00061ec700006031c00700ec70;
   0x39199fe00cffe7f803fc71fc000380ff8038ce3fe00fe6e3f803fff9fe003818ff801fff3fe003ff8ff8000381fe0018707f8033fe1fe00e30cff803898cfe00fffeff8018033fe00061fff801fffbfe003aaeff8;
   0x39199fc00cc067f0038cf0fc007ffc7f0031cc1fc00e7473f007fff9fc00381c7f001fff1fc0000007f003fffdfc001c707f0030331fc00fffc7f0039d8cfc01c0077f001fff1fc007fff7f001fff9fc007ffe7f0;
   0x39198e0006c06380038cf8e0007ffc300010840c000038398002aea8e0003818300000c00c000000030003fffce00018f8380030338e000ffec30003898c6000c00230001fff0c0007ffa300018638e0002aaa300;
   0x39f9870006df6180038df86000638c38001fff0e00001011c0010c1070003ffc380000c00e00000001800060e07001ffdc1c00303107000e00c380039d8c7001c007380000e00e00006181800186386000070e380;
   0x39b9830006df60c0038ff83000638c1c001fff07000ffff8c0038c7030003ff81c0000c607000fffe1c000c0e03000ff0f0c003bff83000e00c1c003898c30003ffc1c0000e00700006181c001aeb87000060e1c0;
   0x3919b38007db6fe003ff7df800638dce0018e373800fffffe001ccf33800001dce0000c673800ffffce001fff3380050077e0037ffbf800efedce003fdfdd8007ffdce003fffff8000619ce001ffff3800470ece0;
   0x3919bfc0039b6fe003fd6df8007ffdfe0018e33f800e360fe000ecc3fc000019fe001fc67fc000380fe003bffffc003ff8ff003b333fc00efeefe003fdfdf8003019ff003fffbf8002eb8fe001863bfc00f6fefe0;
   0x39599fc003db61f003dc6e7c007ffc7f0018e31fc0063711f0007ec1fc007ffc7f001fc61fc0003807f00330fdfc007ffc1f003b3307c00ec667f0038d8c7c0038387f0038e39fc007ff87f0018639fc007ffe7f0;
   0x39f980c0019b6030038c660c00038003001fff00c007633830003f000c007ff8030000c600c003bb80300030e80c00301803003b3300c00ec66030038d8c0c001c30030038e380c002eb80300186380c000eae030;
   0x3919800001df7800038c65000057d400001fff00000363fc00007fc00000701c000000c700000739c0000034e00000701c00003b3300000ec66000038d8d00001e70000038e3a0000061800001fff80000070e000;
   0x3919a00009eb3e00038c638000fffe800018e3600003e1cf0000ece380006019800000cf60000638d800003ce200003018e0003bff38000efe6800038d8fc0000fe1800038e3b8000061980001fffb8000060ee00;
   0x3919bf0019e33fc0038c61f001fffffc0018e37f0001c7c7f001cc7ff000701dfc0000df7f000e38ffc00194e3f000701cfc001bff3f000efe7fc0038d87f80007c1fc0038e39f8000619fc007063ff001c70ffc0].
Definition hanzi_rows_138 : list N :=
  [0x3919bfc01bb031f003fc603c000380ff0018e33fc003e7e0f8038c38fc006018ff0000fb9fe00c387ff00180e1fc0030181f80180007c00e063ff0038f863c000fe03f803ee387e00fff8ff0030600fc00868e3f8;
   0x3fff81c01f3c187003fc601c00038007001fff01c0077a7830030c001c007ffc07007ff1c1c01c38707001d5e01c007ffc07001c0001c00e00387003d7f71c007e7e07001ee381c01fff80700306001c01d7fe070;
   0x3fff80000f1e1800038c600000038000001fff00000e3e1c00000f8000007ff800003fe1c000003e200001ffc000003ff800001f80000007c0180001e7e38001f81f000000e000000001800003fe000000fe3e000;
   0x380180000e0c1000038c60000003800000180300000c0c0c000007800000701c00003f008000001e000000ffc00000701c00000f80000007c0180001e2410000c007000000e000000001800001fc0000007c06000;
   0x0;
   0x0;
   0x0;
   0x0;
   0x0;
   0x0;
   0x0;
   0x0;
   0x0;
   0xc0000030200000000400001c0300000e004000018030001c000c0000e00100000060c00003001000000106000007010000400040000000300000700c000000030000000040001c00180000000c0000c60300;
   0x3fff8c000003860001fff8c0000380300018e30c000038030001ffe8c0000e0238000ff60c000038030000003060003f7838000ff80e0007ffc300000600c0003ffc30001ffe0c0000c3f18000ffe1c0000c66300;
   0x3fff8e0001ff870001fff8e000030038001ce70e000fffe300007ff8c000060718000ff70c000018038003fff070003f3e18000fff0e0007ffc38001fff8e0003ffc30001fff0c0001c3f18001fff0c0000e66300;
   0x2bba8e0001ab8380018038e0007ffe18000cee0e000fffe380018228e0007fc618000c030e0007ff818003fff830003306180000ef06000618c38000eeb8e000300c380018060e0000c3318000c060e000fe66380;
   0x19b907000181818001fff870007ffe1c0006ec07000fffe1c001c73070007fce1c000c03870007ffc1c0001818300033061c0000e007000618c1c001c7187000300c18001c07070007f331c001c0706000ff661c0;
   0x19bb030001ff818001fff83000600e0c003fff8300018300c000e630700060cc0c000c018300060180c0001818380033060c0000e003000618c1c000eeb830003aac1c001aae070006fb30c000ffe0700003660c0;
   0x1dbf730001ffddc0000c3f3000600fcc003ffff30001c71cc0006676300070c04e003ffdd3000701d8e003ffdd98003316cc003fffb38007ffd8c001fff930003ffd8c001fff730007db34e001fff630001f67cc0;
   0xdbe718000c00ce0000c3b38006aaec60001f8318000c60c6003ffff380060c0e6003ffdfb8007ff9c6003ff9d980033bee6003fffb18007ffdce000060338003aadce000aaa73800edbfe6000c066380039e6c60;
   0xdbe39c005d55c7003fffb9c007ffee70007fc39c00fffee7003fffb1c007fc067000011f9c007ffcc700399dddc0031fe67001ff739c00618cd700157579c00300cc700000039c00ddbf77001d5771c007166e70;
   0x1ba3fe00ffff7f003fff9fe002aae7f800eee1fe00fffe7f80000c3fe007fcfbf800031ffe006018ff803989efe00f1867f800ee61fe00618cff803fffffe00300cff003fffbfe00cdb33f800ffe3fe0020627f8;
   0x7fffdfc0155d57f0001839fc00000e7f003ce79fc00c1867f00000c1fc0055cfbf0000319fc00755c7f003ffdffc01e1c63f000ee61fc00618c7f007fffdfc003ffc7f003fff9fc01ddf33f0015551fc0000007f0;
   0x3fffce00000f0300023bb8e000aaae380038e38e000c18638003fffcc00000cc18003ff98e0007ff830003ba9a6000008638002eee8e0007ffc380000000e0003ffc30000c060e0008cf3180000000c0003ffc380;
   0x6000f0fc18007f7fc6000fffe1c0010f007000c18618003fffc60007fcc1c003ff9870007ffc1800399d87000fffe1c003fffc70007ffc18001fff86000000038001d56060009cf31c003fff8e0003ffc180;
   0xaaa0700079cf1c003e0387000efbe0c000030030007ffc0c00000c070007fcc0c00019d8300043001c00398983000ffbe0c003fff8300000001c000fff87000000018000ffe07000ccbf0c003fff87000300c0c0;
   0x1fff738001fc6fc00155573800cd9eee001575338007ffcfe00055e7f80075cc7e00018d9f800e755ce003ffd9180061867e000ee6338000181fe001c01b38007ffecc001d5673800dc3f4e0000e073800318cfe0;
   0x1aab3fc001fe0fe001fff3fc00cd9efe003fffbfc00618cff000ffe3fc0060ccfe000189bf80077fffe003ff99f8006306fe000ee63fc0023b7ff000c61bf8007ffefe000c063fc00ec337e0000e67fc00318cfe0;
   0x1c071fc00137c1f001d571fc00cd9e1f003fff9fc00619c1f000d5e1fc0060cc1f003ffd87c003f7e7f00018d9fc0073061f001ff71fc0073361f001c619fc0066663f001ffe1fc0060337f0000e75fc00318c1f0;
   0x180300c00331e0300180300c00fffe0300060c00c00618c03000e0e00c0060cc03003ffd80c001f600300019980c00366603003fff80c00673603000c6180c00666603000ffe00c00703303001fe600c00318c030;
   0x1fff0000037c7c0001fff00000ffffc000070e00000619d0000071f400007fccc00003c1b00001f70000001f9800003e7f00003fff80000e63600001c7180000666600001c0600000383300001fe70000031cd800;
   0x1aab6000026e0f0001fff20000cd9bf00003be20000618de00003bbf80007fccf00003c1b80003b39e00000f1980001e3f600000e038000c836e0000c71a00006666e0003f8638000183f600000e76000033cde00;
   0x1c077f00067707e001c037f000cd9b7e0001fc3f0007d9dfc0001f3ff000555e7f0006c1bf800731dfc0001e19f0001e077e0000e03f001d837fc0015f13f0006667fc003fffff0001e3f7c0000efff00043e0fe0;
   0x18033fe00e63e0f0018031fc00cd9b0f8003e01fc00398c3f8003e1cfe00003f0f800e6187c00f30e3f8003e187e003f060f0000e00fc00d8333f8007fc3fc0066663f000cff8fc000f033f0000fdbfe0083601f0;
   0x1fff01c00c70f07001fff01c00cd9b87001f7c01c00018007001ffce1c01fff383001c7981c01e30707001ff981c00f7c607001fff01c005ff307001f1f01c01ffff87001c0001c0007c307007ff9c3c01ff7c070;
   0x1aab0000003e200001fff00000fd9980003e3f80000018000003e3f70000ffe18000383d8000083e200003e3d80000e1e600001fff000001ff000003807e0000ffff80000c000000001e000003fe0e0000ff1f800;
   0x1c070000001e000001c0300000701900001007000000180000038062000055010000300d8000001e00000300d80000c0460000000000000054000001001c0000000000001c000000000c000001500400005407000;
   0x0;
   0x0;
   0x0;
   0x0;
   0x0;
   0x0;
   0x0;
   0x0;
   0x0;
   0x6004000000c180019c60c0000000100000700c000000010000000040000000300000000c00001c01000060204000101830000070040000380100000700400000c0100000c004000038020000000040001b80300;
   0x600e000aa8c18001ce71c0007f7f380000600c0007f7f30001fff8c0007ff870003fff8c0000380300006060c0003818300000600c0000380300000600c00000e0380000e0ce000038060003fff8c0003b80300;
   0x700e000ffcc18000e730c0007f7f180015754c0007f7f38001fff8e000755c30003fff8c00003803800070e0e000183830003fffce000fffe380000600e00055d518001fe0ce000fffe70003fff8e00077d4300;
   0x3fff86000ae8c180007338e000626218003fffce0005b6b180018618e0006018380001900e000fffe1800038c060001c3038003fffce000fffe18003fffc6000ffff18001ff0c6000fffe3800000186000fffe380;
   0x3fffc70000c7fdc000e77070006f6f1c003fffc60005b7b1c001c61870007ffc1c00019007000fffe1c003fffc70000c7018003fffc700000061c003fffc7000ffff1c001c39c700055d418001ffd87000fffe1c0;
   0x9b8030000c7f8c001ce6070007c680c003000c30005b6b0c001fff8300060181c003fff83000c0060c003fffc300000001c001b0b030002aa60c0000000300000000c000e7d83000018018001ff98300003801c0;
   0x1f9fb3800ff8c660019c6730007070ce003007f30005b7bce001ffff3000755dcc003fffb3000fc07cc0001cc33000ffff4c001dfb730007ff6cc000fff730003ffe6e0007ed938007ffd9c000001b30007ffd8c0;
   0xf0f31800ff8c66001fff738007c7ce6003ffe338004b6be6001861b38007ff9ce003193b1800fffec600008c39800fffeee0018e3318006236c6000fff318003ffe66000380398003ffd8e003fffb18007ffd8e0;
   0x70e39c00e18c77001fff31c006f6f67003fff39c005f6f67001fffb9c000000c7003193b1c001ff8e7001fff99c00042067001df339c006736e7000c0739c00300e770007f019c00701dc7007fffb9c00638dc70;
   0xfff1fe00e9aebf8018e33fe0062627f8001831fe004b6f7f801fff9fe00fffeff803fff9fe0000187f801fff9fe000e707f801bbb1fe006ab67f800c031fe00faaf3f803e781fe003ffcff8011999fe007ffcff8;
   0x1fffdfc00edbfbf001fff1fc0061407f0001831fc001c1c3f0000381fc00fffe7f003fff9fc0000187f0019cc0fc003c3c3f001d1f1fc007ff67f000fff1fc00ffff3f003d9fefc007ffc7f001f999fc007ffc7f0;
   0x3e07ce000e9aa98001fff0e0000380380001838e0003e3e3800030e0e000c446380000000e0007ff838003aae8e000f81e38001fff0e000623638000fff0e000300e18000183ee000300c30000f198e000638c300;
   0x17ffc7000ed801c001ce30600007f01c001ffbc600077671c0003ff06000c44618001fff060007ff818003fffc7000e00f1c001fff0700067361800000006000300e1c001fff870007ffc38000ed9870007ffc380;
   0x7fe03000edaa8c001aeb070003e780c001ffbc3000e3a38c0000ff03000fffe1c000ffe070000e181c003aae8300000030c000060030007ff60c003fff830003ffe0c000183830003aac18003cfd830007ffc1c0;
   0x6073f800edbfb6001fff73801fb1f7e00183bff80041614e000e7533800ffffce000000338000e18fe0019cc1f8007ffece001575338007ff6fe003ffff38003ffe760015d3b3800701dcc003e39b3800738dce0;
   0x6063fc00edb1bf0000e03fc00e1c77f00183b7f80000607e000c3c3fc000000ff0000003fc000e18fe001aaebf8007ffeff003fffbfc000206fe003801bfc0063e07e000ffbbfc003ffdfe000601bfc001808ff0;
   0x7ff07c00edb19f003fff9fc000cf07f001d7b07c01ffffff001fff1fc007ffc7f007fff9fc000e183f001fffc7c0066667f003fffdfc0007061f003bfddfc0073781f0001839fc00755c7f007fffdfc01ffff7f0].
Definition hanzi_rows_139 : list N :=
  [0x2ea00c00edb183003fff80c000e3c03001ffb00c00baba83003fff80c007ab803003fff80c00ffff0300038e00c0066660300399980c007ff603003bfd80c003b3c0300018380c00300c03003ffec0c00fffe030;
   0x462000004db1800015f50000077c800001ffb300001c18000070c7800003830000004e400000ffffc00003cf30000666600003b1dc00007ff740003b0dc00001f1f40003fff80001fffe00000600c00015d54000;
   0x666380000c31b00003f83800039e08000183b380000e3c000006ce200001c7080000eee200000020e000068f3c0006666e0003beda00000203f0003b0db80000e1ff0002babb8000ffffc000061cf80001838000;
   0xc673f000363ffe0007fc7f0003c7cfc00183b3f00007fc7c000ec77f0000fe1fc001ce77f0001c707e000fcf9f8006667fc003ffdff00007037f003bfdff0001c197e000183bf8001c71fc000638ff0001871fc0;
   0x1c638fc00663f8f000eef0fc000f087f00183b07c000fe03f001cc33fc0007c07f0038e39fe0038381f801c8dc3c0066663f003e0d9fc0002030f003bfd87c0039980f800187cfc003c383f000670efe0018e1ff8;
   0x3861c1c00e30187003ce7c1c0007f007001ffb01c007ffc070038c381c003ffc070030e1c1c00f01f070079cce1c01ffff87003801c1c00ffff83003801c1c01f1fc03007ffce1c00701e0700062071c0018401f0;
   0x107880000c1c0800038e1c000000fe00001ffb00000f83f800030f980000fc3f000030f880000e0078000308c60001ffff80003f0180000fff980003e0180000e07800003ff860000e00f800007c0300001f00000;
   0x780000080c0000010e000000001e0000183b0000060070000007800000f0070000007800000c001000001cc00000000000001f01c0000000100001e01c000000080000154020000400300000780000001f00000;
   0x0;
   0x0;
   0x0;
   0x0;
   0x0;
   0x0;
   0x0;
   0x0;
   0x0;
   0x618030000000000000c0030000000600000000000003000c000000070000000600006c6440000c1c100000000c0000000100001c004000000030000606040001810200;
   0xfffff800000000001fffff800000000000618038000ffff00000c0030001fe060001ff9ff80003000c000000030000000600006c6ce0000c1838001fff8c0001ff8380001800e000fffe3000060e0c0001838600;
   0x1fffff8007ffffe001fffff8007ffffe007fff818001c1830003fc0018001fefff001ff9ff80003000e00155403000000070003fdfc60000cff18001fff8c0001ff818001ffc6e000fffe3000070c0e0001c70700;
   0xc30c38007ffffe001aaaab8007ffffe003fffff8000ffff0003fc07f800186060001819818000303fe003ffdff8003ffff0003fffe60000cff1800199986000181818001ffcc6000000038000bae86000fffe380;
   0x1c30c38006000060018e0718006000060006187fc001ffff00000c07f8001867fe001999998005757fe003ffdff8003ffff0000666670000cc31c0019998700018181c0019cdc70007ffc18001fffc7000fffe180;
   0xc30c380060c30600186061800620206002aaa0cc000ebab0003ffe0c800f87ffe001999998003ff036000180198002abab8003fffe30000ec30c001fff830001ff80c001ffd83000638c1c001aeb830000180180;
   0x1c30c380067c3c6001870c1800660606003fff0cc001ffff0003fff0cc00557554001999998007ff0730001c01dc0000181c007ffff3801feff4e001ffff30001ff8ce001ffd930007ffd8c001e67f38007ffc0c0;
   0xfffff8000f01e0001830c18006606260031a30ce002aa0000038c20ce003ff7fe0018999980033003380018018e0000181c000d8d99800feffe6000000398000000e6000180398007ffdce001a6db18007ffdce0;
   0x1fffff8003c007c001bfffd800673f760031f30c4007ff7ff003fff0c4003576660019d9bd8007300710001c01c40000180e000dbd9dc0067c377003fffd9c00ff7f67003ffe1dc00738cc7001b6df9c000180c70;
   0x1c0000f8003e001bfffd800637666003bab0c0006626660000fa0c00018c6660007e07e0003300300001801800000180e006dbccfe0067c33f803fffdfe00ea6b7f802aaa0fe007ffcff8019699fe00abaaff8;
   0xe000060000e0018070180063e7e6003fffffc007ff7ff0035c7ffc000f87fe001e71c70007307ff0001c3ffc00001800007cceefc0067ff3f0000001fc00c7677f001ff9efc007ffc7f001969dfc00fffe7f0;
   0x2aaf00001ffff80018060180063c3c60000ccffc006ea6ee003fc2ffc000f800600383d8be003387ff000183ffc00ffffff0038406600067aa18000fff0e000c26338001ff9ee000000030001fff8e000bbaa300;
   0x7fff80001ffff800180e0180061c3860001cc0c0007ff7ff0010070c001fdf8e700100d19c00fff8700001c01c000ffffff001fff870006d1c1c001fff07000ff7f1c001c1987000fffe18001fffc70003198180;
   0x7aabc0000018000019fff9800638386003ffe2c8007fe7fe001fea2c800f030630007fffc000fffa3200018018000001800000fff830002cba8c000c0303000ffff0c00181983000aaaa1c0000000300039981c0;
   0x7001f0000018000019fffd80063c786003fff6cc000000700007ff6cc001ffff10007fffe000ffff770001c19dc00001800001d55bd8003dfff6001c033f80001804e001ff99f8007ffdce000fff33800ffffce0;
   0x380678000018000018006180067c786000187ec8001ffff8001ba36cc001ffff80000060700007833200018198800381818000c61bf800380e7f000fff3fc0001807f0000199f8007ffcff000fff3fc00ffffff0;
   0x1c1e1000ffffff0018006180066cfc6001fffecc001ffffc001bb76cc0000181c000006020000f87770001c19dc0038181c001c7187c00380c1f001fff07c00ffff7f003ff987c00618c7f000c031fc0000007f0;
   0xe380000ffffff001800618006eece6001ffeec800001808000fa36cc00aabaaa003fffffe000f833200018198800381818000c6180c0018fe030010f800c00ffff03003ff980c007ffc03000c0300c007ffc030;
   0x7f80000ffffff001855618006c74760001866cc00ffffff003fff6cc00ffffff003fffffe001dc7770001c19dc0038181c001c71a000018fe40003ddf3000007e000003819900007ffc00000fff000007ffc000;
   0x3e000000018000018ffe1800603836001ffe6c800ffffff003ffb6cc000018000008060200018c33200018198800381818000c71b80003cc670000f87f80000fb0e0003ab9bc000618d80000fff38000600c000;
   0x1f000000018000019ffe1800603c3e001ffe7fc0038181c0003837fc0018181c000c060300038e7ff0001c1fdc0038181c0000f01fc007cc77e000707ff8001dbcfe003ff9df8007ffdfc000c033f000700dfc0;
   0x7e0000001800001800018006010060001867f800381818000383ffc00181818000c06030007873fe003fffff8003ffff80003b803e006ee30f800e8607e00798e3f000003e3c002aa83f800c030fc00600cff8;
   0x1ff00000180000180001800750006007ffe61c003ffffc000381e14001ffffc000fffff000f07f07007fff97c003ffffc001f1f01c00e76387003efe01c01f187c700755e71c00ffff07000fff01c007ffc1f0;
   0x3f800001800001f80018007e0006007ffe000003ffff80003e1c00001ffff8000fffff000e03800000000800003aaaa8003c07e0001c3f9c000383f00000c18380003ffc30000ffff00000fff000007ffc000;
   0x7800001800001f80018003e0006000006000003800000001e180000180000000c000000040100000000000000100000001001c0000c1398000100700000018000003ff010000555500000c0300000700c000;
   0x0;
   0x0;
   0x0;
   0x0;
   0x0;
   0x0;
   0x0;
   0x0;
   0x0;
   0x180180000600600001801800000000000000000000000000000000000000000000000000000000000000000000000000000000000000000000000000000000000000000000000000000000000000000000000000;
   0x1c0380000700e0000380380007ffffe000fffff0003ffffe001fffff8007ffffe001fffff8007ffffe001fffff8007ffffc001fffff8003ffffe000fffff0007ffffe001fffff8003ffffc001fffff8007ffffe0;
   0x1c0700000701c00001c0300007ffffe000fffff0007ffffe001fffff8007ffffe001fffff8007ffffe001fffff8007ffffc001fffff8007ffffe001fffff0007ffffe001fffff8003ffffc001fffff8007ffffe0;
   0xe0700000381800000c07000060c386000e38c300030c30e001830c380070c30e001830e180070c30e001c30c380070c30c001830c180030c30e000c30c300060c30e001c30c380030c30c001830c380060c3860;
   0x1fffff8007ffffe0015f57500075d7d6000e38c300070c30e001c30c380070c30e001c70e180070c30e001c30c380070c30c001870c180070c30e001c30c300070c30e001c30c380030c30c001c30c380070c3860;
   0x1fffff8007ffffe001fffff8007ffffe000fffff0003ffffe001fffff8007ffffe001fffff8007ffffe001fffff8007ffffc001830c18003ffffe000fffff00060c30e001c30c380030c30c001830c380060c3860;
   0x600000555d54001fffff800555554000fffff0007ffffe001fffff8007ffffe001fffff8007ffffe001fffff8007ffffc001fffff8007ffffe001fffff00070c30e001fffff8003ffffc001fffff80075d7d60;
   0x6000000018000000060000000038c0000e07000000000000008c0c00000038000000600000000c0000000600000001800001fffff800001800000000c00007ffffe001fffff8003ffffc001fffff8007ffffe0;
   0xfffff000155d54000006000003fffff00007060000fffffe0000ce0c0007ffffe0005575500077fffc003fffffc00ffffff000030c00007ffc00003fffffc007ffffe00155555000155d54000000040007ffffe0;
   0xfffff0003ffff8000006000003fefff000fffff800fffffe0001c62c0007ff83e000fffff0003bfff8003fffffc00ffffff000030c00007ff800003fffffc0000180000000000000001800000c000e0000000000;
   0x6000003ffffc0007ffff00030438c001dd757800700706001fff7d80071818e000fffff0001f5d5400000700000000c00003ff0ffc00001c000015d57d400001800001fffffc00001c00001c387c000ffffff0;
   0x6000000018000007fffe00038e3fc000ce63b800233366003fff6d80020c38e000006000000f8c00000aaeaa0000ffff8003ff0ffc003ffff8000386380003ffffc001fffff800ffffff000c3870000ffffff0;
   0x3fffffc00001c000007ffff0001863fc001c76738007333660001c3ed80070e7fe003fffffc00ffffff001fffff0001ffff8000030c00003ffffc0007575e0007ffffc001fffffc00ffffff001c38600005575550].
Definition hanzi_rows_140 : list N :=
  [0x3fffffc00ffffff00000600000186060000fffff800231b36000083ed8003f7efe003fffffc00ffffff000eaaeb0000c0038000030c0000380018000fffff00000180000000e00000001800000c380a8000038000;
   0x700000ffffff00000600000fff7ff001fffff800730f96001fffedc001f1e060000c1e0000007c00001c70c30001ffff8001ff0ffc003ffffc007f575fc0000180000000e1c000001c00001c381fc00001e000;
   0x700000006e0000000600000fff6ea00000000000231dc6001fffecc000aaaa80001c078000000f80000c38c30000eaab8001ff0ff8003ffff8003b060dc0000180000000e0c000001800000c381fc00019f000;
   0x3fffffc00007e00003fffffc00e006670007fffc0007337f60001c34cc001ffff80007d43c0003ffff8001dfffb0001d5578001570ffc0038001c0007fffc400ffffff000ffe1c0001ffff8001c381800007dfc00;
   0x3fffff800006700003fffffc00e007fe0003fffc0002303260000830c000181818000fffff0003aaaff800caeab0000ffff8000030c00003ffff80003fffc000ffffff000ffe0c0001ffff8000c38180001e19e00;
   0x1f80000007780003fffffc006ff7ff0007000c000737366001fff0c000181818001e17ff0003800df001c06030001c0038000030c00003ffffc0007060c00007078000000e1c0001c0038001c38180007c18fc0;
   0x39c0000c063c0000006000006ff0600003fffc000233326001fff0c0001ffff8000200000003fffc0000dfffb0000eaab8003ff0ffc000018000003060c0000e01c000000e0c000180038000c0218000f0183f8;
   0x71e0000c071f000000600000600fff0007fffc000731f370001c30c0001d5d58000718c70003fffc0001dfffb0001ffff8003ff0ffc00ffffff0017fffc0001e00f000000e1c0001c0038001c03d8000c0180f0;
   0x1e0f8000c0607800000600000600fff0003000c000200f830000830c000181818000e38c30003800c0000c06030000c0038000030c0000ffffff0030060c0003fe07800000e0c000180038000c03f80000018020;
   0x1fc07fc00fff03f000006000007000600007fffc000703dc3003fff0c0001ffff8001c31c38003fffc0001d0603000ffffff000030c00000018000030060c0007ffffe003fffffc001ffff8001d407c0000018000;
   0x3f000fc00ffe00f000006000003f00600003fffc0003e70fb803fff0c0001ffff8003870c1c003fffc0000f8603000ffffff000030c0000001800001ffe0000070bffe003fffffc001ffff8000fc01c0000018000;
   0x1c0001c007fc002000006000001e00600007000c0003c20190000030c00018001800101040c003800c000078403000000000000030c0000001800001ffc00000200014000000000001c00380007c0040000018000;
   0x0;
   0x0;
   0x0;
   0x0;
   0x0;
   0x0;
   0x0;
   0x0;
   0x0;
   0x1c030000001c000001c0300000001840000c0718000001840000e0610006040000001c0300000001840001c0100003001860001c0410000001040001c030000060060000000410000700400;
   0xaa8aa8003ffffc0000c0300000038000000c030000fff9860038c3318007ff986000260e380060e2aa0000e0700002aa9860001c0380003e01860001c0e18001ff3860000c0300000700e0000000e18000700e00;
   0x1ffdffc007ffffc001fffff801ffffff8015f575000fff9c60038c3338007ff9ce0007706300070c7fe001575750007ff9cc0000c0700007fc1c60001c0638001ff38e0015f5750000701c0003fff630000301c00;
   0x1ffdffc0030000c001fffff800aaaaba001fffff800aeb8ce0038c33b0006018cc0006386300030c6ba001fffff8003ff8cc000aeaaa80003fcce0001e06300018318c001fffff8000381c0003fff630007ffffe0;
   0x1801c00007ffffc0000060000055555c001557550000618cc003dd71b0006018cc000c1c3700039c670001557550003800fc001fffff800077cec000370770001871dc001557550007ffffe0038c7770007ffffe0;
   0x1801800002aaeac000ffffe0003ffff800000600000061bff003fff7fc007ffbff001ffeffc00ffe630000006000001c03ff000aabaa800030fff000730ffc001833ff000006000007ffffe0038c3ffc000018000;
   0x1819c1800070e0c00055754000555550000fffff0007fdbff003fff7fc007ffbff003ffeffc00ffffff000fffff0000e03ff00000380000071fff000639ffc001837ff000fffff000555d540038c7ffc000018000;
   0x1839838003fffcc003fffffc001ffff8000006000007fd8ba00000c06000601aba00320aae800aebfff000ffffe0000700300007fffe000020eba000e18ae800183aba000fffff0000018000038c3ae8003ffffc0;
   0x1871c70003fffcc003fffffc001ffff80015575540060d830007fffc60007ff8300007700c000060630000006000000fc0300007ffff000071c30001c7c1c000f81c70000006000000018000038c71c0003ffffc0;
   0x18e18e0001fff8c000f18c6000180018003fffffc0060d830003fff860007ff830000e380c000060638003fffffc003fe03000000180000060c300038ee0c000f81c30003fffffc003ffff80038c30c0000018000;
   0x19e1ce0001fff8c001db9d38001ffff800155d554007fd9ff007fffffc005571ff001c1c7fc005747fe003fffffc0078f9ff001555d5400fffdff0031c7ffc00000fff003fffffc003ffffc0038c77fc00555d550;
   0x18c18c0002aeaac0039f0b9c000aaaa80007bbff8006ad9ff0003863fc000031ff00382e7fc00ffe7fe00000e00000e03dfe003fffffc00fffdff000080ff8000003fe000000c00002abaa80038c37f800ffffff0;
   0x1801c00007fffec001fffff8003ff37e001f383f80060d97500018606000fff9750030775d400ffe01c00000601800401c30003fffffc00575d75000d541c0007ffc7000001fc0000001800003fff1c000ffffff0;
   0x1e01c0000236c4c000aaeaa8003fb67e003fffffc006ad8300033b606000fff8300000320c00006001c003ffe0780000003000000070000060c30001ffc0c0003ff83000007c00000001800003fff0c0000003800;
   0x1f81f0000335ccc000fffff00031ff66003fffffc007fdc300019b606000c71c30001ff80c00006055c001fff1f0007ff8300007fff8000061c30001ffc1c000383070000067fe000555d55003d571c00003ffc00;
   0x1be1f8000bb8eee000fffff00033ff6e000030fe0000e1aba8019b62ea00c30eba000ffcae800060ffe001c239c0007ffbff0007fff80000e0eba800e00ae8003833ff000e0eaa000ffffff003803ae80003fff00;
   0x19f1df000ffdffe00000600000378c7e000c77ff0000e5fff001d977fe00c71dff000e1effc01fffffe000c71c80000303ff0007061e0000e1fff800601ffc001c77ff000f1e7fc00ffffff000007ffc000380780;
   0x183d8f8000c030e001fffff80037bf66000e7629e003ecbff800f9b7fe00ef99ff00073fffc00fffe0f000e30e00000300380007060f8000c0fff800700ae8000ee2ba00039e7fc00000000000003ae80001c01e0;
   0x181dc3e007fdff6001557550003dff76000771ffc006edc180003d306000fdd8180007f30e001fffe1f800478900000300380007ffffc000c1c180003180c0000fc0300001fe700001841180010070c00000f00e0;
   0x180580c002e8ba6002aaeaa8003d8c7e0003e006000eeec180002c386000e8d8180003e006000060e0b0000f83e0000300180003fff9c018d8c180003b80e0000780380000763800038e3180070030e00000f8000;
   0x1801c0000ffdff7003fffffc0039fff60031e1fe000ce6c1c0006e1830007ff81c0001e007000060e1c0001dc0fc0003001c000707000019d9c1c0001f00700007c01c0001e61c00070c31c0070070700003fe000;
   0x180180000fffff300001f80001b0ffe20031f1fe000ce7c0e000e61838007ff80e0003f803000060ea800038e03e0003000c000303000009b0c0e0001e0070001ef01c0007860e00060c30e003003070000f8f800;
   0x1fc1fc0000c01c30001f9f0001b0cc630037fdc0001ce3e0f001c79c1c0060000f001f3f03c00060ffc001f07c0c00fffc0e003fffff000fb7c0f0003c003c007c7c0e007f0607c00e1c70e003fff03c01ff03fc0;
   0x1fc1fc0000c00e3803fe07fc00f0ec7b803f0ef80000f860780383e80e007c0007803e0f81c00060aa8003e01f8000fffc07003fffff000f67e0780070001c00f81f07003c07e1c00c18307001ffe01c00f8007f0;
   0x7c07c0000c0060003f0007c00f04c79001e047800007040100300c004003c000300100300c0006001c0030007000000000600155555000620c0100030000c00c00603001007e000040810200000000c004000070;
   0x0;
   0x0;
   0x0;
   0x0;
   0x0;
   0x0;
   0x0;
   0x0;
   0x0;
   0x38000000e700000000000000000000000381c000000000000000180000000180000060000000018200000018000000000000000040000000000000000c000000038000000000000101c0000180000000000000;
   0xe2baa00000e300000ffdff8007fe7fe0000181c0007ff7fe001ffc9880000003800000f00000feffc7003f7e180007ff7fe003fbf87000fffffe001fbf0c000fdf838000622afc000381c0000182afc002aa2aa0;
   0x7fffe0007fe7fe001ffdff8007ff7fe000ffc1c0007ff7fe001ffd998007dfc3800001f80000feffc6003f7e1c0007ff7ff003fff87000ffffff001fff0c000fdf818000763ffc000700f0000183ffc007ff7ff0;
   0x1e3800007fe3fe000c1182000600608000ffe0e00060e61c0018c19980069aff8000079e0000eaeaee003a6a3e0007006aa003aba8e000ebaeea0018300c000e18018000663ae8000e0c78000183ae8007aa6aa0;
   0x3fffffc0000e700001cf99f00073e67c000e0f7600077c67c0018c1998006797ff0001f0f8000e0c06e0038603600070470c0038300e000e18677001830ffc00e180180006730e0003c1e3c0001830c00070470c0;
   0x3fffffc003fe3fe000ce19c00067867000071fb60007e07a00018c19980067b23f800ffffe000e0c1ff8038606600073e63c0038303fc00e186620019b3ffc00e187ff000e332e000f8870f803ffb0c00073e63c0;
   0x7c00003fe7fe001fc1f00007e07400003b9f70007fc7fc001bcd998006db731007f554fc00e6c5ff803b66e300077c7700039f1bfc00e79e77001b330c000edb7ff000c333ec00f1c387003ffb7cc0077c7700;
   0x3fffc00000e300000ff9bf0007f87f00001f03780063e63e001ad9ff8006da3b000380003c00e6ccba803b6ccb8007e07800039b300000edbffe001b360c000edb018000c3b2e8000381e000399b6c8007a07a00;
   0x7ffffe0055e755001c7d8780077f67f0007fc77800706606001ed9ff80079e1f00003fffc400eccc38003f6dddc007f07f00039b339c00fdb7ff001f360c000fdf018001c3b6f8000ffff000399b6d8007f07f00].
Definition hanzi_rows_141 : list N :=
  [0x3001bc00ffe3ff000c0b8080060e60e007fbfb7c007fffff001ed80c00069e4f000038008000ecd838003e6898c0073e67c003b3238800f9a662001a3c0c000f9e0d800381b6f8001cbff000399bed80073c6f80;
   0x7fff840055e75500000700000701ee0003c07f7e007fffff001ef00c00071ccfc0003801c000ecd9ff003e783800071f71f003b3619800f9e677001830ffc00f9e0d800781fcf0001c001000399bcd00071f71f0;
   0x3001800000e300001fffff800003860000aaab6e006007070018c0fe00071cfcf8003fff8000e8d9ff00386800000702606003a3619800f1a6620018307fc00e1a0d8003fff0e00000000000399b0f0007026060;
   0x7fff8000555554001fffff8003ffff0001ffff74007557570018c1ff00079ef8700015554000e0c17d0038607f800701f0000383019800e18677001e3c61800e180dc001fff0e0007ff7fe00399b0c0007007000;
   0x3fff80007ff7fe0000c0600003ffff800183ab60003ffffc0018e1ab00079e200000000aa800e0c038003870ff80000180000383819800e1c7fe001f3e61800e180ec000cc38e0007ff7fe00399b8c0000301800;
   0x1ffdff8007ff7fe0000e03000000303c0019f3f70000001c0001cf1c38006dbfff001ffdff800f0f038003c78600003ffffc003e3c19800f1e7ff001bf771800f1c06c001cc3cf00070470c003ffbcf0000301c00;
   0x1ffdff80060c60c0001f0f80001ffffe001bb3360000030e0001ef8c1c0067bfff000eb9aa800f8f8ba803e7c600003ffffc003f3e0b800f9e6ea0018b3b3000f9e1ec000ce3ef80061e61c003ffbef8000301800;
   0x1c318700071c61c0007b9de0001ffff7001f3677000157570001fdcefc006591d8001c3987000eeddff803f6e700003ffffc003bb71f000fdf6770018313f000fdf36c001c637fc00738778003ddb7dc00ffffff0;
   0x18718e000638638000e1d87800003032001a38360003ffff0001bce7e000618098000c718e000e6cfff803b67300000600e00039b38f000edb8600018301e000ed9b2e000c633ee0063062000399b2cc00ffffff0;
   0x1ce1dc00073063000040e03000157570001e3c770001575700019c4780007581d8001ce1dc000e2c6180039621b8000700c00038b1fc000e79c700018301e000e59f36000c631e4007c07c00001830c4000301c00;
   0x1fc1f80006e06e0003fffffc001ffff0001fbf360000030000018c03800079f088000fc1e8000e0c2180038601f0000300c00038307f000e38c60001f3e0e000e18236000c630e0007f87f00001830c0000300c00;
   0x1df1fe0007fc6fc003fffffc001575700019f3f7000ffffff0018c01c001d8e1cc001df1fc000e0c01c0038600e0000381c00038301fc00e18070001f1e3f000e18737000c730e00077f77e0001830c0000300e00;
   0x187d8f80061f63f000006000000030300018b0b6000ffffff0018c00e000c0008e000c7f8f800e0c00e0038600c00001818000383003c00e18060000000ff800e187fb000c3b0e00060f60f0001830c0000300700;
   0x1c1d81800707607000006000007ffff000183007000003000001cf807c00ffffc7001c1d81c00f4f4070038601c001ffffff00383500000e58070007ffff3c00e1c7fb000e5f4e0007017030001836d80003007c0;
   0x1f81f00007e07e0000006000007ffff0001f3e06000003000001e7803c00ffff83800f81f0000fcf807001e7838000ffffff003f3e00000f9f060003fff81e0079e60b800f9fe78007e07e0000183ef80003001f0;
   0xf00f00003c07c000000600000000030000f1e07000003000000e1000c00155401000780f00007c7803001e3c10000555555001f1e0000079f0700015500040079e00000078de78003c03c0000181c70000300060;
   0x0;
   0x0;
   0x0;
   0x0;
   0x0;
   0x0;
   0x0;
   0x0;
   0x0;
   0x600000001c000000060000000180000000600000003000000006000000000400000000000000000000000700000001310000000000000001c000070070000000000000000000000001c0000700c00;
   0x2aaaaa800300600000c01800003006000008018000030060000000300000200600003fbf0c000ffeffe001ffdffc00fffffe003efb318001fcffe003ffe0c000070030001ff9ff800ffefff003ef8380000300c00;
   0x3fffffc003ffffc000e01c00003bfffc001c01800003ffffc001c0300000700600003fffccc00ffffff001ffdffc00fff1ff003ff9b30001fcffe003fffff800078070001ffdff800ffffff003ff830000ffffff0;
   0x3fffffc000ffffc0007ffff0001ffffc000eabaa0000ffffc000efffe000380600003122ccc00eb0c9200183987000c306660030c1b600018c0260038e1ff8000fc7ff00183183000c300000030c3ff800ffffff0;
   0x7000000786000003ffff0000f06000007ffff0000786000007ffff0001ffffc0037776cc00c30d93001c71ce000c307660030c0f6000f8e7f60038e1818003de7ff001df99f000c307fe0030c3ff8000000000;
   0x300000ffffff0000e18000003c6000003abaa000ffffff000383000000ffffc00362c6c800c30ffe001fc1fc000c3036c0030c3ffc00f0709e0038e181800787030001fc1f8000c307fe0030c30180030c7fc0;
   0x300000ffffff000079c0000ffffff0001c180000ffffff0001c300000070600003c746d800cf3fff0019fddfc00cf3fff0037dfffc003ffffe003bedff801f03c70001fe1ff000cf76060037db0180031c7fc0;
   0x1fffff800081f00003fffffc00aafaaa0000e180000081e000000e300000038600003f3e2d800cb200000183d83c00cb2fff0036f0fc0003feffe003bedab800c01ffe0018f98f800cb66060036db0180030c60c0;
   0x1fffff8003ff7f0003fffffc000c1f0000157dd54001fd7c0003fffffc0001c6000037f73d800db7fff0007fffe000db65f50036f1f700038c3e6003efd81800fffbff001c1f81800db67fe0036f3ff80031c7fc0;
   0x1abaeb80023fffe000003c00001fe7c0003fffffc00c3fff8003fffffc00ffffff0030a1aea00db6fff0007fffe000db63f8003ce3b38001d877e003ef9ff8007ffb06002aaeaa800dbc7fe003cf3ff80030c60c0;
   0x1c30e380070019f000001f800017fffc003fffffc00e0059f80000f00000ffffff0001dcffe00d3400000060606000d3477c003cf331c000f843e003ef9ff800618357003fffff800f3c000003cf00180031c7fc0;
   0x1830e38003fff82000aaafe000300bbf800007800007fff8300000380000aabeaa00018cffe00c34ffe0007fffe000c30e6e0030e2338003feffe0038e00c0006183fe00000000000c30aaa0030e3ff80030c6ac0;
   0x1c30e38001fff00001fffffc003d55cf000001e00001754000007fff0000001f00003ffe33000c30ffe0007fffe000c304670030c303000fdfffe0038e15d4006d9b570003fffc000c30fff0030c7ff8003e078c0;
   0x1830e38002aaaaa000eaaf3c003fff800007fff800007f8000007fff8000000780003fff33000e38c0600060606000e380630038c3ab0000020000038e3ffc006db3060003aabc000e38c030038c25b8000a03880;
   0x1c30e38007ffffe001c003c4001555000007ffff00001fffc000555ff0000e03f0000187b3000f3cc060007fffe000f3c7ff003ce7ff8007ff7fe003cf17740079f3ff0003555c000f3cd9b003ce75b8007ff7fe0;
   0x1830e38000383c0000c3ffe0000aaaa80007003fc00000ffc000000efc000f81f8003fffb3000fbeffe0002eaea000fbe7fe003ef3098007ff7fe003ef8e300069a3fe0003fffc000fbcdb3003ef25b8007ff7fe0;
   0x1c30e38001f55f0000c3fff0001ffff80007003bc001ffc0000015573c0007f9ff003fffb3000df7ffe00157575000df76670037fb6dc0070661c003ffddb80061c07000000000000dfecf30037ffffc007046040;
   0x1830e38003ffff8000c303b800180038000700388000bfffa0003fff0c0000ff8f00018633800cb28f8001fffff800cf36620032db2fc0060c618003bef99c0079e030001fffff800cf7dfb0032dffe80063e63e0;
   0x1c30e3800101858000c30390001800380007fff8000f00dfc0003fff0000001f830015d731800c31ddc00006070000c717ff0030c37f4007186700039e518c007df7ff801fffff800c32dff0030cf5bc0077c6700;
   0x1830e38002abaa8000c3ab80001ffff80007aab8000fffc0000038000000600180003ffff1800c3071f002aeaea800c306ea0030cfe60007f07a00038e1ff8006fbfff80182aa3800c30c630030c25ac007e07e00;
   0x1c30e38003ffffc000e3ff80001d55780007003800057fffd000180000006001800015d6f9800c3071f007fffffc00c306670030cff70007fc7f00038e1ff800679c70001c7ff3800c30c630030c75bc007fc7fc0;
   0x1830e3800001800000e003800018003800070038000c00eff0001800000060018000018639c00c30c980000e0e0000c306ea0030c30300063f63e0038e01800061803000186023800c30c630030c25ac0061f63f0;
   0x1d30e3800555d55000700300001ffff80007fff8000c01c010001d5000007fff80007ffe18c00c31cf80007f07e000c307ff0030c301c00707607003d7c18000618070001c7ff3800c34c630030c75be007076070;
   0x1fb0e3800ffffff0007f0000001ffff80007fff8000fffc000000ff000003fff80003ffe00e00fbe838003e000fc00fbe6aa003ef300e007e07e0001e781800079e030001faaa38007bcf63003efbda4007e07e00;
   0xf80038005555550003f000000180038000700380007ff00000007f000001ffc000000060040079c008001c0001c0079c607001c73004003c07c0001e381800078e070001f000380079c743001e73030003c07c00;
   0x0;
   0x0;
   0x0;
   0x0;
   0x0;
   0x0;
   0x0;
   0x0;
   0x0;
   0x7180e0000000300000c00c0000000300000c01c0001c60300006180e0000100300000001c0000000700000001c0001000700000e01c00018e0300000001c00000180000000600000300000000000000000000000;
   0x3180e000fffc300018c60c000fff8300018c20c0001860300006180e000038030000000180000000300000000c0003800300000e00c00018e03000000018000001800000c0603000302aaa001c0000000ffffff0;
   0x3fffffc01fffdff001cc67fc00fff8300038c71c0001c61ff0006187fc00038030001ffc1c0007ffc70001ffc1c0001f00700000e01c00018e030003ffd5d400001800001c0603000303fff000e0fffc00ffffff0;
   0x3fffffc00000dff000cce7fc00e31bff0018c6ffc00bae9ff003fffffc0007c3ff000ffdffc007ffbff001ffcffc000fe3ff0000e0ffc0018e3ff003ffdffc007ffffe000c0603000303fff00070fffc00001c000;
   0x7187fc007fedff0006dc7fc00e31bff001cceffc00fffdff007fffff80007c3ff001c0dffc00631fff001555ffc0001ffff0004e0ffc0018e3ff001c01ffc007ffffe001c06030003000600003c038000001c000].
Definition hanzi_rows_142 : list N :=
  [0xbba0e0007fec30003fff8c000fff830000ecc0c000fffc300006180e0000ee030000c0c180006318300000000c00001b830000eec0c000fff830000e00180002abaaa000fffff0003000600001e0380003ffffc0;
   0x1fff0e000000c30003fff8c000fff8300007dc1c0001c60300006180e0001c7030001c0c1c000631c700000001c000018070001cee1c000fffc300007001c000001800001fffff001ffc070000070180003ffffc0;
   0x3187fc00fffdff0003f07fc00e319fe0000c0ff8001861ff0002083fc003839fe000c0cba800631bfe000000ff8000183fe0018eeff80018e1fe000381ffc0000180000000000000ffdffe00080fff80030c30c0;
   0x7187fc01fffdff0007f87fc00e319ff001fffffc001c61ff003fff7fc00703dff001d5cff800631ffe000000ffc007f83ff0018e6ffc0018e1ff0001c1ffc003ffffc00000000001755fff001c0fff80030c31c0;
   0x3fff8e00066cc30000ece0c000fff8ba001fff0c000fffe30003fff0e000fffeba000ffcba8006318ba000000ae800fff8300038e60c00018e0ba000180180003ffffc003fffffc00301b32001c0ccc80030c30c0;
   0x7fff8e0007ccc30003cc70c000fff8300018071c001fffe300035570e0005ffc30001ffc1c000631c70003ffe1c00005f8700030e71c00018e0300001c01c000155d54003fffffc00301b37000e0ccdc0030c31c0;
   0xe00e00038cc300038c38c0000300300018030c0000000300030a30e00000003000000c18000631830003ffe0c0000180300030e30c00018e030003ffeba8000018000000070000030db3200070ccc8003ec30c0;
   0x1fff7fc0077cdff0000f17fc000303ff001bf7ffc000001ff0030e37fc000003ff00000dffc007fffff0000e1ffc000187ff0010e3ffc0018e3ff007fffffc0000180000000700000319b370003cccdc003cc31c0;
   0x1fff7fc01e7edff0000707fc00ffffff001bf3ffc007ff9ff0000607fc000003ff00000dffc007ffbff0000e0ffc008187ff0008e2ffc00ffffff002babffc00ffffff00000300000339b320001eccc800000e080;
   0x18e31e000d9cc780015751e001fffc78001b371e0007ff878001ffe1e0003ff878001ffc3c000755c780000701e001ff80f8001ce01e001fffc780001c03e000ffffff000fffff000331b3700006ccdc000007000;
   0x1fff1e000180cf8003fffbe000830cf8001b333e0007018f8001ffe1e0003ff8f8001ffc3e0006018f80000703e000fffcf8000ce03e000bae8f80001807e000007e00000fffff000331b3200300ccc800ffffff0;
   0x1fff3f001fffcfc003fffbf001db1dfc001b377f0007019fc001c603f0003019fc00180c7f000001dfc0006707f00005fdfc000ee07f0001861fc0001c0ff00000ff00000c30c3000371b3700380ccdc00ffffff0;
   0x18e36f800ffffbe00060c6f800b30dbe001b33ef0007ff9be001c607f800301bbe00180cdb000001bbc000e38ef000018bbe000600ef8001863be000181db00001db80000c30c3000301b3200380ccc8000301c00;
   0x1df76f8001847b600070e6d801ff1f36001bf75d8007ff9b6001c706fc00301b3600180ddf800401f76000c38dd800418377000780dd8001871360001c1df8000799c0000c30c3000301b37001c0ccdc000380e00;
   0x3fffcfc0018e6370003be0dc00bffd37001ab30dc00701837000c306ec0030183700180c99801801837001c188dc008182338003c00dc0018713300018099c000f18f0000c30c3000301b32000e0ccc80001e3f00;
   0x5d574ee0019c7338001fc0ce01e1fc338018371ce00701833800c380ec0030183380180c1de01c01c73801c1c1ce01c180730001f01ce001870338001c01de001e187c000c30c3000301b3700070ccdc0000fff00;
   0x18030ec001983330003e00cc00a00c330018030cc00701833000c1c0e4003ab831001ffc18c00c01833003ffe0cc00c180310000f80cc0018383100018018c0078183e000c30c3000301b3200038ccc80003fe000;
   0x18030e400198331001ffc0c401c01c310018071c4007ff831000e4e0e0003ff831001ffc1c400fff871003ffe1c401ff807000003f1c400181c310001d41c401f0180f000c30c3000301b370001eccdc007fdff00;
   0x1f830e0001e03b0003e3f8c000f00c30001e030c0007ff8300007c78e0003ff830001aac18000fff83000303e0c000ff803000000f8c000180e300001f818000e01802000fb0c30003e1e020000ffcc800fe03ff0;
   0x1f030e0001e01300018070c000f01c30001e071c0007018300007c30e00030183000180c1c0001540700030001c0007f00700000019c0001804300000f81c000001800000730c30001e1c0700006745c0070001e0;
   0x0;
   0x0;
   0x0;
   0x0;
   0x0;
   0x0;
   0x0;
   0x0;
   0x0;
   0xc00000000180000000000000001c600000010000000700000000c0000000000000000c000000018000000180000000701c00000070000000000000000000000000000000070070000180180000000c0000300300;
   0x1f80ffc000383ff000001ffc000386000000787fc000303ff0000c0ffc00ffffff0000c1ffc000183ff000181ffc000300c0000003800002a8000000001ffc0000000000006006000030018003fff8c0000300300;
   0x1fffffc000303ff001fffffc0007070000151e7fc000387ff0000c0ffc00ffffff0000c1ffc000183ff000181ffc000300e0000003c0000ffdfff007ffdffc00ffffff003fffd7400ffffff003fffffc005754300;
   0xfe618000300c6001ffe61800ffffff003f8f318000781860000c0218000c00380000c0e380001818600018063800038060003fffffc00ffdfff003ffeeb800ffffff003fffffc00fffeff0000607fc00fff9ff0;
   0xc471800fffdc600180e61800ffffff003f93318000fc1c6001ffe718001ffff80000c0e38000181c60001806380007c0f0003fffffc0070c70c007ffec38000e00700000003fc001047ff000ffe7fc005555ff0;
   0xc061800fffcc600180e618001833800031b3318000ce186001ffe218000ffff80010c4e38007ffd86000180638000ec1f80000e07000070c60c000300c38000e0070003fff86000104618000c060c0003860300;
   0xc071800c00dc600180e618001f71c00031b3318001c71c60018c6718001c00380038cce38007ffdc600019c638001ce7bc0003c03c00030c70c000700c38000e0070003fff87000fdfe18000ffe0c0001860300;
   0xc07f800c00cfe00180e7f80087f0e00031b33f8003831fe0018c63f8000eaab80038ccff8006badfe00018c7f80038771e000f801e00038c7fc000300ff8000eaaf00031999fc00b9feff000eae7fc0018c0ba0;
   0x7fff7f800c00dfe00180e7f801c1fcf00031b33f80071fdfe0018c67f8001ffff80018ccff800618dfe00019c7f800703a0f003f5557c0018c7fc000700ff8000ffff00031999fc0079e6ff000ffe7fc00fffdff0;
   0x3fff618008008c600180e61800ffffbe0031b331800e39f860018c6218000c00380018cee3800618d8600018c63800aabaaa003fffffc000cc60c000300c38000ffff0003fff860007ff618000ffe0c000fffcba0;
   0x55d571801ffffc600180e61800ffe79f0031b331800c70dc6001ffe71801fd5438000cc6e3800678dc6003f9c63800ffffff0017fffec001cc70c000700c38000e007000155507000d75618001d570c000c30c300;
   0xc061800fffec600180e618000000020031b331800020186001ffe21800ffffff000cc6e3800038186003f8c63800aeaaba0001801800038c60c000300c38000e0070003c6386000935e18003fff8c000c30c300;
   0xc07f801fffffe001ffe7f800ffffff0031b33f8001551fe0018c67f8001d5fff0006c7ff8000781fe00019c7f8000c00300001fff800070c75c000700ff8000e0070001f6f1fc001247ff003071ffc000303ff0;
   0xc07f8000300fe001ffe7f800ffffff0031b33f8007ff1fe0018c63f8000c00000000e2ff8000381fe00018c7f8000ffff00001fff800060c7fc000300ff8000eaaf00000681fc00aaaeff003ddbffc00fffbff0;
   0x15d4758000301d6000000758005d55750031b3358003ff1d60018c6758007ff7ff0001e0f780007c1d600019c778000ffff00001d558000e0c7fc000700d78000ffff0001f6f0f000fffe7c001e9f1e000fffc780;
   0x1ffe618000300c6000000618000eaab00031b3318003801860018c6218007ff7fe0001e0e380003c18600018c638000c003000018018000c0c60c000300c38000ffff000382fcf000aae67c003bfb3e00000c0780;
   0x1ffe718000301c6000410618000ffff00031bf318001c01c6007ffff18007067000001e0e380007c1c600019c638000d55700001fff8000c0c70c000700c38000e0070003071df80000c6fc0073f1bf00000c0fc0;
   0x1806e18000302c6000639e18000c00300031bfb18000c0386003fffe180038c38e0001e1e380002e38600018de38000ffff00001fff8000c0ce0c000303c38000e00700038fc1f8007fe6de0000386f8007fc1be0;
   0x1807ff8000303fe000e19ff8000ffff0003f9fff8000e67fe001806ff80019c19e000371ff80047e3fe00019dff8000d557000018018000e0dffc000703ff800fe0070001fdf17c007ff7df000ffe6d8007fe1b60;
   0x1806ffe000301ff800c18ffe000ffff0001f983fe0006e3ff8018063fe000f81f8000338ffe008263ff80018cffe000c003000018018000fccfff800300ffc00fffff0000787e6e00607b1b000e0f8dc006061370;
   0x180677c000301df001c1c67c000c003000019c31c0007c1df00180675c000f01f000071ce7c01c771df00019c67c00fffff5001fffff8007cc77f000700c7c00ffffff000787e7400607f1b80073dcce007070338;
   0x1806600000300c000380e60000fffffe00018e30000038180001806200000f83f8000e1ce0000c2398000018c60000ffffff001fffff80000c600000300c00000e03ff000e6606400606b190003f08cc003030330;
   0x1ffe700000311c000380760001ffffff000187300000701c0001d06700007df71e003c0fe0000ff1dc0007fff600000c15ff0001805780000c7000007f8c00000e0000007c7f070007fe1990007fc0c400713c310;
   0x1ffe6000003e0c0003007600000c0000000183b00000e0180001f0620000f8fa0f803807e0000fe0f80003fff600000c00000001800000000c6000003f8c00000e000000383f060007fe198007fbfcc0003e1e300;
   0x18067000001e1c0001003600000c0000000181300000401c0000f0670000c01803001001e00007c0dc0000000600000c00000001800000000c7000001f0c00000e000000000607000606198003c07cc0001e04300;
   0x0;
   0x0;
   0x0;
   0x0;
   0x0;
   0x0;
   0x0;
   0x0;
   0x0;
   0x300000006000000000180000000700000000000000060000000038000000701c0000300000000c001c0000180000000600000001c000000e0380001030000000c0000000000000000c0000001000000].
Definition hanzi_rows_143 : list N :=
  [0xff8000301fe000600ff800381808000006000001ff1fe000060ff800003800000030380000303fc0000c02080000180000000600000001800000062ba8003833ff0000c0ffc00001fff0000c0ffc00303bff0;
   0x1554ff8000301fe000600ff80038181c003fffffc001ff1fe000060ff800001800003ff1ff0007ffffc0015d47dc003ffffc0007ffff000155d54001577ffc001873ff001fffffc007fffff0015d5ffc003873ff0;
   0x3ffee3800030186000600e38001c1838003fffffc0018318e000060e1800001800003ff9ff0007ff80c001ffe3f8003ffff8000ffffe0001ffff8003ff03800018e0c6001aeb618007fe60c001ffe6180018e1860;
   0x3ffee3800030186000600e38000e18700015555f4001c718e000060e18007ffffe000e1d8300077500c001ffe07c00381800000fffff0001ffffc001d73ff8001cc1c60018c7718007007fc001dd7718001ce1860;
   0xc0e3800030186000600e38000e18600000000e00018318e000060e18007ffffe00063f830006303fc0018c0c0800381800000e0600000181800000c38380007ff8c6001aeb6180030e7fc0018c6618000e41860;
   0x1c0e3800030186003fffe38000718e00000000e0001c718e003fffe1800701c060003f5ff001fffffc005dd5c1c00ffffff005f57554005d5d5500067fffc007ff9c6001fff718001be60c001fff758007ffd860;
   0xc0ff8000301fe003fffff800021820000ffffe0001831fe003fffff800601c060001e1ff800fffc0c003fffeb800ffffff003fffffc00ffffff0007ebff8006ab8fe0000c07f8001f87fc001ffe7f8007ff9fe0;
   0x1c0ff800fffdfe003fffff8001ffff8000ffffe0001c71fe003fffff800707e060007fc0180177540c007fffffc00381800007fffffc00ffffff0003c3fc0006019fe0015d57f8001f07fc0018c77f8000381fe0;
   0xc0eb800fff9ae000600eb8001ffff8000000000001831ae003860eb80060f606003e3e01c006303fc0018c02a000381800000e06000001818000003e3fe0006018c6003fffe18003b8e0c0018c6618000381860;
   0x1c0e3800fffd86000600e38001c0038000000000001c718e003870e180073c786003ffffee007753fc001dd4030003ffffc000e06000001d5d54001ffd870006019c6007ffff1800f1fffd001fff718000381860;
   0xc0e380003018600060ee38001c00380007fffe00018318e003860e18006783e60007fffe8007ff80c001ffeab8003ffff8000ffffe0001ffffc003c3de3c006018c60000006180060e7ff000aaa618000381860;
   0x1c0e180003018600061ce18001ffff80007fffe0001c718e003870e18007719f60006060000057500c001fffffc00001800000fffff0001ffffc00355555c007ff9fe001fff7f8001f46050000007f800fffdfe0;
   0xc0e3800030186000618e38001ffff80006000e00018318e003830e1800601826003fffffc000307ff0000c0afc0030181800000600000001800003fffffc007ff8fe001ffe7f8003ffff8003fffff800fffdfe0;
   0x1c0ff8000301fe000638ff8001c00380007000e0001c71fe001870ff800701c06003fffffc007fffff001ffe1ce0031db9c00000600000155d540017555d4000181c6001c0771800017ffc007ffff180057d5d60;
   0xc0ff8000301fe000638ff8001c00380007fffe0001831fe003830ff800603c06000606000007ff838001ffe0cc00319998000006000003ffffc0003aaac0000380c60018e661800301808000018618000381860;
   0x1c0e1800030186000670e18001c00380007fffe0001c3186001838e1800707e060007fffe0005750180015d5ffc0031999c000006000003ffffc0003fffc0003761c6001ce7718007c3fc000001c7180007c1860;
   0xc0e1800030186000630e18001ffff80006000e000183186001838e180060e7060002aeaa0000301980000c1ffc00339998000006000000018000003000c000666bc60018e6e18000f3bf8001ffce180007c7860;
   0x1c0e1800030187000600e18001ffff80007fffe001dc3186001818e180073c786000fffff000fffd9c003fff0c0003319dc00000600000001c000003fffc000667ffe001ce7ff80007f87f001ffdff80007c7fe0;
   0xc0e1800030186000600e18001c00380007fffe00198398600181ce18006781e6000fffff000ffff8e003fff1e0003318cc00000600000ffffff0003fffc000e06cff8018667fe0003de020018007fe000ee3ff8;
   0x1c0e1c00030187000600e1c001c00380007555e001dc398700181ce1c007700f6000006000005757fe0015d53e0003718cc00000600000ffffff0003000c000f06dc700157571c000f9fc0001c0071c001c719f0;
   0x3ffee0c00abab83000600e0c001c00380006000e00098198300180ee0c00620026003fffffc000307ff0000c07700030188e00000600000001800003fffffc00b86ec0000fb8600003e18f8000c00600003879800;
   0x7fff74c01ffffd300075074c001c00380007000e001fc1dd3001d477cc00710006003fffffc0003071f0000c1e3c0030180600000600000001c00003fffffc009fe7c0001f1f70001fc187f800d4070000703d800;
   0x3ffe78e00fffff38007f078e001fc0380007e00e000f80ff3800fc7f8e007f0006000006000000302000000c0c1e0030180780000600000001800000300000001fe0c000380fe0000c0180e000fe060000e01f800;
   0x7c4000000f10003f07c4000fc0380003e00e000500df1000fc3384003f0006000006000000300000000c000c0030180300000600000001c00000300000000541c0003003700000018000007c070000400d800;
   0x0;
   0x0;
   0x0;
   0x0;
   0x0;
   0x0;
   0x0;
   0x0;
   0x0;
   0xe000000000000000018000000c0010000007000000060000000060000000e0000000e00000003800000006000000001c00000000000000380000000e00000000000000000000000000000000000000001000000;
   0xe03f8000ea0fe0000187f8000e01f8000006000000060fe0000060000000c1fe0000e03f8000381fe0000e07f800001800001ffe7f8000381fe0000e03f8001ff1fe000fffbf8000001fe002aaaff8003803fe0;
   0xe07f8000c61fe00001c7f80007dfe000155f554000061fe0005561c00001c1fe0000e03f8000381fe0000c07f800157d54001ffe7f8000381fe0000e07f8001ff1fe001fffff8007ffdfe003ffeff8001c03fe0;
   0x2aeaa18000c60c600000c6180001fe00003fffffc000060860007fe0c0000181860000e0318000381860000c0638003ffffc001aee6180003818e0000e0218001831860007aab18007ff986003ffee38000e030e0;
   0x7ffff18001c71c6003ffc6180007ffc0003fffffc000071c60007fe1c0000181860000e031800ffffc6005555638003ffffc0018c66180003818e003ffff18001871860003c0718000001c60001c0e380007830e0;
   0x3fffa18001c70c6003ffc618001f8ff80000e0f0000fffe860000060c000ffff860000e031800ffff86003fff6380038001c0018c661800fffd8e003fffa18001831860001e0318000001860000c0e380003e30e0;
   0xe0718001c71c600300e618001c0ffc0001c078000ffffc60000061c000ffff86001fffb18000381c6007fff6380038001c0018c661800fffd8e0015f5718001831860000f0718000001c60001c0e380000fb0e0;
   0xe03f8003838fe0038a67f8000006000003ea1e0000060fe003fffffc000001fe001fffbf8000381fe0000307f8003aaabc0018c67f8000381fe0000e03f8001839fe0000383f8000001fe0000c0ff8002033fe0;
   0x1fff7f8007019fe0018e77f800ffffff0007ffff0000271fe003fffffc000001fe0018e3bf800638dfe0000307f8003ffffc0018c67f8000381fe0000e07f800f81dfe00155f7f801fffffe0001c0ff8007003fe0;
   0x1fff2b800739cee0018e36b800ffffff000e0bfe0000e30ae000000000000aa9ae001863bb800638dae0000306b8002aaabc0018c6618000381ae0000e02b800f81fae003fff3b800ffffae0000c0eb8003803ae0;
   0x1fff71801e38fc6001ce3618005555d5000c00000000671c6000555540001ff986001863b1800638dc6001ff06380000001c0018c66180003818e001fff71800500f86003fff718000071c60015d5e38001c030e0;
   0x18e321800c386c60000e2618000001c00003fffc0000630860003fffe0000eb9860018e3b1800638d86001ff8638003fffdc001ffe6180003818e001fff21800000186003b3831800007186003fffe38000e030e0;
   0x18e7718004385c60000e0618001ffff00007fffc0000731c60007fffe0001c39860019f3b1800638dc6001ff0618003fffdc001ffe61800fffd86001c06718007ffd86003b98718000071c6007fffe180007830e0;
   0x18e3218000380c60000e0618001ffff80003000c0000730860003000e0000c39860019b3b1800638d86001838618003000cc0018066b800fffd86000c0e218007ffd86003998318000031860000c0e380003e30e0;
   0x18e77f800fffffe0001e07f8001c007c0007000c0000731fe0007fffe0001c39fe001bb3bf800638dfe0018387f8003000dc0018067f8000381fe000c0c7f8003019fe0039cc7f8007ff1fe0001c0ff80000f3fe0;
   0x18e33f800fffefe0001e07f80018007e0003fffc0001b38fe0003fffe0000c39fe001b3bbf8007ffdfe0018387f8003fffcc0000067f8000381fe000e1c3f8003839fe0038ce3f8007ff9fe0000c0ff800c023fe0;
   0x18e77180057d5c60001f0618001fffe70007fffc0003b99c60007000e0001c3986001f1fb1c007ffdc6001c18618003555cc0000066180007c186000718718001c71860018c7718006001c60001c0e1800e003060;
   0x18e3218000380c60003b0618001aaae20003000c0003198860003000e0000c1986001e0fb18006ba986001818618003000ce0000066180006c1860003b8218001c61860018e3b18006001860000c0e18007003060;
   0x18e7718000381c700033061c001c00600007555c00071ddc60007fffe0001c1986001e0fb1c006381c7001c1c618003555ce007006618000ee1860001f071c000fe186001871f1c007001c70001c0e18007803060;
   0x1ee3218000380c6000338618001fffe00003fffc00060dc860003fffe0018c1986001803b0c00038182001c0c618003fffc6003006618000ce1860000e02180007c186001838308006001820000c0e18001c03060;
   0x1ee771c000381c700071c61c001fffe00007555c00070ddc70007000e0019c1d87001803b0c01c381c7001c0e61c003555c700700661c001c71870001f071c0007c187001c1c71c007001c70001c0e1c000f03070;
   0xe020c000380c3000e0e60c001800600003000c000ffee830003000e0008c0f83001803b0c00c38183000c0e60c003000c700300660c003839830007bc20c000fe183001c1c30c003001830000c0e0c000783030;
   0xe070c000381d3001c0f74c001c00600007000c000ffefd30007000e001dc0fd3001d03b4c01d701d3000f6760c003000c3803ffe7cc00f01d83001f1f74c007c7dd3001d4f74c003d61d30001c074c0001f3430;
   0xe03ee000380fb803803fce001fc0600003f80c000c0a6f38003f00e000f807f3801f83bee00ff00f3800fc3fce003f00c3001ffe7ce00e00fe3803c07bce00f83ff3800f87bce003fe1f38000c078e0000fbe38;
   0xe03c4000100710010013c4000fc0600001f80c000c004f10003f00e000780371001f039c4007f00710007c17c4001f00c00005503c400c005e10030019c400e004f10007811c4001fc0f10001c07c4000019e10;
   0x0;
   0x0;
   0x0;
   0x0;
   0x0;
   0x0].
Definition hanzi_rows_144 : list N :=
  [0x0;
   0x0;
   0x0;
   0xc0000000000000000000000000e0000000600000003800000007000000700000000038e00000460000000000000000180000000000000038000000030000000010000000e0000000001400000e0000001870000;
   0xc07f800aaa9fe0000003f8000061fe0000607f8002381fe0000703f800ff80fe000838e00000e60fe000aa8ff800001800000aaaaa0000381fe0000303f8002038fe0000e03f8003ffd800000e07f8001860fe0;
   0xce7f800fffdfe003fff7f8000071fe0000f07f800638dfe0000307f8001ffcfe001f38ffc001c61fe001ffcff8003ffffc000fffff0000381fe0000303f8007039fe0000e07f8007ffdce0000e07f8001871fe0;
   0xce61800fffd86003fff218000071860001f861800739d860000382180018fcc6000ff8ff8003860c6001ffce38003ffffc000c06030000381860000303b8003838c60000e03180038398e0000e0618001860c60;
   0xc671800e30dc60001c071800fff1860003f8718007399c600031c7180019ccc60001f8e00007061c600180ce380030181c000c0603000fffdc6000030318003c39c60000e0718001c31ce0000e0718001871c60;
   0xc661800e30d860000c021800fff98600079c618003bb98600071c21800188cc6000038e00002060c600180ce38003ffffc000fffff000fffd860007ff318001c38c60000e0318001c718e0000e0618001860c60;
   0x3fff71800e30dc60000e071800fffd86000f0e718001bb1c6000e0e7180019ccc6003038f0001ffffc600180ce38003ffffc000fffff000e38dc60007ff318000f39c6001fff718000ee1ce0000e071800fffdc60;
   0x3fff7f800e30dfe0000e03f800019dfe003e07ff8001bb1ae000c063f800188cfe003038ff800fffefe00180cff80030180c000c0603000e38dfe0006303b80007b8fe001fff3f80007c18e003fffff800fffcfe0;
   0xc37f800fffdfe0001707f80001cffe007ce3ff8000381fe001c077f80019ccfe003ff8ffc000061fe00180cff80030181c000c0603000e38dfe0007303f80003f9fe0018e37f80007c1ce007fffff8001871fe0;
   0xc3eb800fffdae0003f82b800018fae003070eb8007ffdfe003fffab800388cee001ff0e0c000060ee001ffceb8003ffffc000fffff000ebadae0006303b80001b8ee0018e33b8003ff98e002aeaeb8001860ee0;
   0xc1f1800e30dc600077871800ffc586000038718007ffdc6003ffff180031ccc6000000000001571c6001ffce38003ffffc000fffff000fffdc6001f3731800ffffc60018e371801fc7fce0000e0718001871c60;
   0xc1e1800e30d86000e7c21800ff818600021e61800038186007003a1800308cc60003fffc0003fe0c600180ce380000000000000000000ebad86001e3331800fffec60018e331800f00d800000e0618001860c60;
   0xc171800e30dc6001c6e7180001c18600070f718000381c60010007180031ccc60007fffc0003ff1c600180ce38001ffff80007fffc000e38dc6001f3b31800ffffc60018e3718001555500001f0718001871c60;
   0xc061800e30d86003867218000181860003826180003818600000021800308cc60003000c0003070c600180ce38001ffff80003fffc000e38d86003e3b318000338c60018e3318000ffff80001e0618001860c60;
   0x1fff7f800f75dfe007867ff80001c1fe0001c07f8000381fe001fff7f80031ccfe0007555c00038f1fe00180cff8001c00380007000c000e38dfe003719bf8000739fe001fff7f8001d55780001f07f800fffffe0;
   0x1ffe7f800fffdfe003061bf8000181fe0008f07f800fffffe000ffe3f80030cefe0003fffc00018f0fe00180cff8001eaab80003aaac000fffdfe003319bf8000638fe001fff3f8000c00380003b07f800fffefe0;
   0xc071800fffdc600006071800ffc186001c7c71801ffffc6001c0771c0077c6c60007555c0001df1c6001ffce18001ffff80007fffc000fffdc600371df18000e39c60018e3718001ffff8000330718001871c60;
   0xc061800e30d8600006021800ff8186001c1e61800038186000c062180066c6c60003000c0000db8c6001ffce18001c00380003000c000ebad8600330cb18000c38c60018e3318000eaab8000338618001870c60;
   0xc071c000301c600006071c0001c186000f0671c000381c6001c0771c0066c6c70007555c0000f19c6000000e18001c00380007000c000e38dc700070c31c001c39c70000e071c001c003800071c71c001871c70;
   0xc0618000301860000602080001818600078061800038186000c0620c006ce6c20003fffc0000718c6000000e18001ffff80003fffc00003818300030e318001838c60000e0308000ffff8000e3c618001830c60;
   0xc071c000301c700006071c0001c1870003c071c000381c7001c0770c00ec67c70007555c0000f9dc7000000e1c001ffff80007fffc0000381c700030631c003b39c70000e071c001ffff8000c7e71c001839c70;
   0xc060c0003018300002020c000181830000f060c00038183000c0620c00efe3c30003000c0001fcec3000000e0c001c00380003000c00003818300030730c0073f8c30000e030c000c0038001cef60c001838c30;
   0x7ffff4c000301d3007ffff4c0001c1d300007f74c000381c3001fff74c01dff3c30007000c00079ffd3007ffffcc001c00380007000c0000381d30003f3b4c01e1f9d30000e074c001c00380039c7f4c00181dd30;
   0x3ffffce000300f3003fffbce000181e380001fbce000381f3800ffe3ce00d823fb8003f00c000f07ffb803fff78e000fc0380003f00c0000380f38003f3bce00c078f38000e03ee000fc038003083fce00180ef38;
   0x1c4000300730000001c40001c1e30000071c4000380f1001c071c4004001710003f00c000c032710000007c4000fc0380001f00c0000380710001f11c4000018710000e01c4000fc038003001bc4001804730;
   0x0;
   0x0;
   0x0;
   0x0;
   0x0;
   0x0;
   0x0;
   0x0;
   0x0;
   0x1c0000000700000003800000006000000018000000000000000000e0000000000000180000000700000000e00000001c00000000000000003000000060000000001800003000000001c000003000000;
   0x3fff3f80000c1fe0000e03f8002380fe0000603f8000180fe003fff3f8002aa0600002aa3f8000180fe0000307f80000e0fe0001983f8007ffffe000603830000060fe000aa0180000300fe00000c3f8007e00fe0;
   0x3fff7f80000e1fe0000e07f800639cfe003fffff80001c0fe003fff3f8007ff575001fff7f8007f80fe0000707f8000060fe0007dc7f8007ffffe000731c70000071fe001ff0180000301fe00000c7f8007fc1fe0;
   0x3aab318003fe1ae0000c0318006398c6003fffb1800aaeac6003aab318006aefff000fff318007f80c6000030618000060c6000e183b800601820000638e3000fff086001ff0180000300c600000e3b80003fc860;
   0x3803718003ff1c6007ffff18007398c600157571800fffec60038c33180070efff000700718005580c6001ff061800ffffc6000c1c7180070187000071d77001fff9c6001830180005755c6003ffe71800077dc60;
   0x380331800383986003fffb180033b8c600006031800fffec60038c33180038c61c000380318000180c6001ff061800ffffc6000018318002ff83000060ffb000001886001833ffc00fffcc6003fff31800030c860;
   0x3ffb718001879c60000707180033b8c6001fff718000c70c60038c3318001f871e0003c0718000180c6000070618000030c6003ffff18000ff878000737f7000031dd6001837ffc00fffdc600180771800071dc60;
   0x3bfb3f8001cfd860000383f8003bb0fe001fff3f8001c30fe0038c33b8000f03fe0001e03f8007ffcfe0000307f8000038fe003fffbb8000018f800063383000030e9e001ab2ba8000300fe003803bb800030cfe0;
   0x38037f8000fcffe000e187f8001bb0fe0018607f800783cfe003dd73f8001f01f00003f07f8007ffcfe0000707f8000398fe00019c7f800001fdc000771c7000033ff6001ff0180000301fe0019ffff800071dfe0;
   0x38033b8000785fe00061c3b8000380ee0018603b800fffeee003fff3b8003fc7f0000fbc3b800700cee0000306b8000398ee00018c3b800ffff8e0006ffe30007b38e6001ff0180000300ee0019ffff800060cae0;
   0x3bfb718000781c60007de71800fffec6001fff71801ffffc6003fff31801f9e77f003f1f71800701cc6007fffe1800039cc600119c71800fffc070007fff70007f39e6001830180000301c60019c7f1800fffdc60;
   0x3bfb318000fc1860003ff31800fffec6001fff318008002c600386331800e0380f003807f1800700cc6003fffe1800038cc600398c318000000030006c0330006ff88600183018000aba8c600198631800fffc860;
   0x3b1b718001df1c60001df71800fffec6000063718000000c60038e331800001801003001f1800701cc6000070618007ffec6001d9c718001ffff000077ff700063ffc6001831ff801fffdc60019c771800575dc60;
   0x3b1b31800f879860038e0318000e60c600006331800fffec60038e3318003ffffc000000318007ffcc6000030618007ffec6000d8c318000ffff000067fe3000633ee6001831ff800fffcc600198631800060c860;
   0x3b1b7f801f03ffe001c707f8000e60fe003fff7f800fffefe0039e33f8003ffffc001fff7f8007ffcfe0000707f8000380fe000d8c7f8001c0030000770730006339f6001ff18180001c1fe0019ff7f800061dfe0;
   0x3b1b3f800bffdfe000c383f8000e60fe003fffbf8000030fe003bb33f800307e0c001fff3f8007aacfe0001b07f8000380fe00078c3f8000eaab0000660230006338be001ff98180001c0fe0019fe3f8000e0cfe0;
   0x3b5b718007ff9c6000f1f718000e70c6003070718000030c6003b3331c0031f70c0000e071800701cc70007f0618003398c700078e718001ffff000077ff30006339ce0018398180019c1c6001d07718000e1dc60;
   0x3bfb31800303986000707b18000e70c60038f0318002ab8c6003b3b318003f9bec0000e031800000cc2000f30618003398c600038e318000c0030000660230002338860018398180018e0c6000f86318000c0c860;
   0x3bfb71c007039c60003c371c004e70c6001ff071c007ff8c7003e1f31c00361cec0000e071c00000cc7001e7061800739cc70001c671c001c0030003770738007339c7001819818003871c700078771c000c1dc70;
   0x381b318003039860003e0308018e30c6001fb8318003aa8c3003e0f30c00307c0c0000e031800000cc300383061800638cc30001e6318000ffff000267fe3800033882001819ab8007070c6003006318018d8c860;
   0x381371c007039c7000ff071c01ce38c700039c71c003000c300380f30c0031ff0c0000e071c00000cc300107061c00e38ec30071f771c001ffff000777ff1800c139c700181dff8007039c700700771c019d9dc70;
   0x380330c00303983001e3c30c008e18c300070e30c003000c3003aab30c003783ec0000e030c00000ec300003060c00c386c30021bbb0c000c003000266021800c0388300180cab800ffb8c300300630c009b8c830;
   0x3d0370c007ff9c3003c1f74c01fc1ed3001e0774c003800d3003fff34c003601ec007ffff4c000006d300007074c01c3d7d300319ff4c001c0030003f7071c00f571c3001d8e01800fffdd300355770c00fffdd30;
   0x1f033ee003ff8f3803807bce00fc0ff3003c03bee001fe0fb803aab3ee003e000c003fffbce000006fb8000307cc0003e0fb803f89fce000fc030003e3c20e007ff0f3801f8700801c0bcfb803ffe3ee00f67ef38;
   0x1f033c4007038f10010019c4007c06730010019c4001fc0710038031c4003e000c0000001c4000006710000703cc0001e079001f009c4000fc03000141c704007fe0f1000f0600001c00071001ffc3c400660c710;
   0x0;
   0x0].
Definition hanzi_rows_145 : list N :=
  [0x0;
   0x0;
   0x0;
   0x0;
   0x0;
   0x0;
   0x0;
   0x60000001c0000000e000000001c000000c0000000180000000300000001c000000060000000000000000c000000003800000018000000060000000070000000e070000c040000001c00000000c0000001c0000;
   0x61f8000180fe0000e03f8000018000000c03f8002180fe0000303f8000180fe0000e03f8007000fe0000e03f80030383c0000fc3f8000060fe0008067f80000e038000c0e3f8000180fe00000e3f8000380fe0;
   0x3f861f8000381fe0015f57f800ffffff0000c03f800618cfe0000703f8000381fe0001c03f800381dfe0000f03f8007f18fc0003f07f8001ff0fe001e077f80030e198000e1c7f8000381fe0000063f8000381fe0;
   0x3f8619800abaac6003fffb1800ffffff0000e031800618cc60000e031800fffec6000080318001cf8c60001f0318000f19e0000380318001ff0c6000fc66180078e39c00061821800abaaee002aae318000300ee0;
   0x31bfd9800ffffc6003ffff180055d755003ffff1800719cc6003ffff1800ffffc6003fff318000ff1c60003b831800011c80000300718001c38c60007ff718001fe70c00073871800ffffc6003fff31800ffffc60;
   0x31bfd9800eaaec60000e03180004c310003fffb18003198c6003fffb18003838c6003fff318000f80c600031c318000fbfe00000fe318000c18c600103e6180003e7ae00031821800eaaec6003fff31800fffec60;
   0x31bfd9800c00fc60000e0718001ec330003071f18001998c6001555318001871c6000183318001fe1c6000f1e318007ffffe0000ff718000e1cc60070077180000efff003fff71800c18fc6003003b18000801c60;
   0x31861f800c00efe003fffbf8003cc3380030f0bf80019b8fe0003003f8001c60fe0001833f80078f8fe001e0f3f80078e73e0010ea3f800fffefe0030067f800c0ec2e003fff3f800c18eee003081ff8001c70c60;
   0x31861f8007ffdfe003fffff80078c31c0030f1ff8001990fe001b0fbf8001ee1fe0001833f800703ffe007c07bf80043c3800038c07f801fffffe0035577f800c0e4000007187f800c1cffe0030c7ff8003871fe0;
   0x31861b8003ff8ee003003bb80070c30e0000f83b8000180ee00198fb18000fc0ee00018331800238cee0037ffbb8000f81e00038c03b800000fee003ffe6b800c0e2aa0003182b80000c0fe0036cdbb8003038fe0;
   0x31d7598000001c6003003f180020db040010dc31800fffec600199bb180007c1c6000183318000381c60027fdb18003f55f8001ddff1800001fc6001ffc71800ffe7fe0007187180000c1c600367db1800701dc60;
   0x31bfd98000000c60037ffb18000018000030dc31800fffec60018f3b18003ff0c6000183318000380c600000031801ffffff800fdfb18007fccc6000000618007fc6ae00031821800fffec6003679b1800e80ec60;
   0x31ffd98000001c6000ffe718007ffffc003dce3180007c0c60018f3b1801fc7fc6003ffb31800ffffc600000031800ffffff0007dc718007fdcc60000007180000470600071871801ffffc6003631b1800d83fc60;
   0x318219800fffec6000700318003ffffc000f8e3180007e0c60018e3bb800e01ec6003ffb31800fffec6000000318000e00620003cc3180060ccc6001ffe6180000e6ae003fffa18003870c6003671b18001830c60;
   0x31971fc00fffffe0003c07f800707e0c00078f3f8000fe0fe0018e3bf8001871fe0001833f8000381fe003fff3f8000ffff00003cc7f80060dcfe001ffe7f80060e7fe003fffff8001871fe003679bf8001c71fe0;
   0x319b1f8000c60fe0000e03f80030f70c00038fbf8000db0fe0019e3bb8001860fe0001833f8000b90fe003fff3f8000fffe00006ce3f80060ccfe0018067f80078e6ae0003183f8001838fe0036c9bf8000e60fe0;
   0x319b19c000c61c60015f57180077dfcc00030df1c001db0c60019b3b1c001871c6000183318001bb1c6000030318000f55700006c671c0070ccc7001806718003fe706000718718001c39c60037cdb18000ee1c60;
   0x31b1988000c60c6003fffb18003719ec00030cb080019b8c6001b3bb18001830c6000183b18003bb8c6000238318000e0060000ec6318007cccc6001ffe618000fe606000318218000cf8c6003787b180007c0c60;
   0x3fb199c000c71c7003ffff1c00703c4c00070c31c00399cc7001f1fb1c001871c7000183b1c007399c700071c318000ffff0001cc771c003cccc7001ffe71c0001e7fe00071c71c000fe1c7003605b1c0003c1c60;
   0x3dbe98c008c30c30000e03180030fe0c000e0c30c00718ec200180fb0c001830c2000183b0800638cc200060c318000fffe00038c3b0c0080cec30018066080080e6ae00030c218000780c60037ffb180003c0c60;
   0x5ffd8c01cc39c70000e071c0071e78c001ccc30c00e18fc7001803b0c001831c7000181b1c00638fc7000e0e31c000e00700078c1f0c01c0cec700180671c01c0e70600070e71c001fc1c70037ffb1c000fe1c70;
   0x1a0d8c018c38c30000e030c003383ec0038fc30c00c187c3001fffb0c001838c3000181b0c00e38ec3000fe630c000e00600020c0b0c00c0c6c300180660c00c0e60600030620c003de0c300380030c001ef8c30;
   0x1801cc01dc1fd30000e074c007300cc0078fe3dc004182d3001fffb4c00181dd3003ffdf4c004385d3001fffb4c000e00700000c070c00ffc7d3001ffe74c00d5e70600070774c00f0fdd300380030c007c3dd30;
   0x1801e600fc0ef38000fc3ce003e000c00301e3e6000180fb801aaabce00180efb803ffcfce0003e0f380383fbce0007e0600000f83ee00ff83fb801ffe7ce00ffe7c6000303fce00e03ef3803f803ee00f00ff38;
   0x1801e4007c027100007c1c4003c000c0000061e4000180710018001c4001804710000009c40001e0710010001c40007c0700000783c4001502710018063c4007fc3c60007019c400400471001f801c4004006710;
   0x0;
   0x0;
   0x0;
   0x0;
   0x0;
   0x0;
   0x0;
   0x0;
   0x0;
   0x39800000000000000060000000018000000e00000001c00000071c00000038000000198000000180000000e00000003800000000000000000000000c04000001b0000001c000000000c070001c00000000180000;
   0x3983f800fffcfe0000e03f8000038000000603f8000180fe0006183f8000380fe0001983f8000180fe0000e03f8000180fe000ffe3f8007ffcfe000e0e7f8003b00fe003ff83f80000e070001fe03f8000180fe0;
   0x3983f800fffcfe0000c03f800fffffc0000703f8000180fe00071c7f800fffcfe0001983f8000180fe0000707f80003c0fe001fff3f8007ffcfe000e1c7f8007301fe0007ff7f8003fe070001fffff8003198fe0;
   0x39831800e00cee003fffb9800fffffc003fffb1800fffec6002eba21800fffcc6000bbab18007ffec6001fff2180007e0ee000c0631800600cc6000618618006300c600080b318007ff1b800083fb18003198c60;
   0x179d31800e00cc6007fffb98001c060c003fffb1800ffffc6003fff718000380c6001fffb18007ffec6001fff718000e70c6001c0731800600cc600071871801ffffc6001c77718007579f8001870318003198c60;
   0x3f9fb1800e00cc6000821b980018060c002bbab18000008c6003fff218002ba8c6001fffb18000180c60018e3218001c30c6000c0631800600cc6000baa61800fffec6000c6631800383d98001863318003198c60;
   0x3f9fb1800fffcc6001c71b9800fffb0c00071c318000738c600071c718007ffcc6001999b18000180c60018e3718003c3cc6001fff31800755cc6001fff718000301c6000c66718001c7fdc001c6731800319cc60;
   0x3983f800fffcee000831bf800fff9cc00066c3f8000318fe0006183f8000380fe001999bf8007ffefe001fff3f800701eee000ffe3f8007ffcee001aab7f8000300fe000eee3f8000ecf9e000ce63f800199cee0;
   0x3983f800070cfe001c31bf8001c11fc000e6f3f8007f1cfe00071c7f80057d4fe001999bf8007ffefe001fff7f801fffffe0000c03f8007ffcfe001c077f800fffdfe0007cc7f80007c1de000cc63f800399cfe0;
   0x39831800060cfe003ff9bb8001879ec001c67bb800ff8cee003fffab800fffeee001999bb8000180ee0018e32b800dffffe0000c031800060cfe0018036b800fffcee000fff3b8000f819f000ece3b80079bcee0;
   0x3f9fb1800070cc6003fd9b98001ce18c007ffff1800618cc6007ffff1801fffec6001fffb18000180c60018e3718009553c60000c031800060cc6001c0771800e30dc6001fff718003ff1df000700318007dfec60;
   0x3f9fb1800fffcc6000819b98001e018c003fffb180066cec6000000218000000c6001fffb1800ffffc6001fff218000000c6003fffb1800460ec600180361800e30cc6000eaa31801f87d9b80060031800ede6c60;
   0x39831800fffcc6001c1db98001f618c000c67318007fcfc6000000718007ff8c6001999b1800ffffc6001fff718006180c6003fffb1800e7fcc6001fff71800fffdc600078071801ffffdd00070031801cfe7c60;
   0x39831800060cc60008dfb980000600c000c62318003defc6000ffe218007ff8c6001999b180003e0c600007021800618cc60030e3b18006ffec6001fff61800fffcc60001c0318003ffb98003fffb180087e3c60;
   0x3983f800070cfe001ddfbf8007fffec000fff3f8003dfffe001ffe7f8007018fe001999bf8006770fe0001b87f800718cfe0030e3bf8007fdefe0003987f800f75dfe0000e07f8007039dc003fffbf8000182fe0;
   0x3983f800060cfe000999bf8003fffee000eea3f8003bbcfe000c063f8006ab8fe001999bf800f638fe00019e3f8003388fe0030e3bf8001e8efe0003987f800e30cfe0000e03f8003039980006003f8000180fe0;
   0x7f9fb18007ffcc6001d99b980070f0ee000c67318001b2cc7001c06718007ff8c6007ffff1c007e3cc600018f718003318c60031f3b18001ec6c600039871800e30dc6007ffff18007ff9dc000707318007ffcc60;
   0x3f9fb18007ffec6000b19b980033dcee000c62318001e0cc6000ffe218006018c6003ffff18001e3fc6003fffa18001b18c600333bb18003ec6c600039861800fffcc6003fffb180030399800060e318007ffcc60;
   0x39831c00607ec7001f19b9c007f6fe6000fff31c000e0cc7001ffe718007018c700020031c001c37c7007ffff18001b18c700371fb1c003666c700039c71c00fffdc70000e0718007039dc00071c31c000180c70;
   0x398318006036c6000819b88003072e6000ffe318000e0cc3000c06218007ff8c200031c30c003830c2002baaa18000808c200360fb08007666c200238c61800e30cc60000e0318003ff99800061c308000180c20;
   0x39831c006076c7001c19f9c0071f8e700706731c001f0cc3001c0671c007ff8c700071c30c007b30c700018071c000c00c700340fb1c006677c700738c71c00e30dc70000e071c007ff95c00071831c000180c70;
   0x39830c006036c3000818f8c00379ee700206030c003b8cc3000c0620c006018c3000e0e30c00f3f0c300018020c000e00c3003003b0c00e63ec300238e60c00e30cc30000e030c0030381800060030c000180c30;
   0x3983cc007ff7d3001c18fcc007607e700706034c00f1ccd3001ffe76c007018d3001c0734c01e1f8d300018070c00ffffd3003003b6c00c61fd3007f07f4c00e30dd30000e070c0070381c00075034c01ffffc30].
Definition hanzi_rows_146 : list N :=
  [0x3983ce007ff3f3800f98fee003e00e3803fe03ec00e0ecfb800ffe3ee007e18fb803803bee008078fb8001803ce00fffef3803f03bce0007c3f3803f03bce00fb0cfb8000f83ce003e38180007e03ee00fffff38;
   0x3981c400607271000f18de4001e00e3001fc01c400406c79001c061c4003c18710010011e4000018790001803c400000071001f039c40003c371001f019c4007b0c710000783c4003c381c0003e01c4000000710;
   0x0;
   0x0;
   0x0;
   0x0;
   0x0;
   0x0;
   0x0;
   0x0;
   0x0;
   0x6c00000000c0000000070000000600000006000000000000000300000000000000000000000000e000000018000000060000000000000000600000001c000000070000000000000000700000001c0000;
   0x3fffbf8006c00fe0000e03f8000070fe0000603f800061a7e002aaabf8007f80fe001fff3f800fefcfe0000e03f8006186fe0000601f8007ffcfe0000603f8000380fe0000603f800fffefe0000e03f8000180fe0;
   0x3fffff800dc00fe001fff7f800fff1fe00006c3f8007fff7e003fffff8001ffefe001fff7f800fefdfe0000603f8006186fe0000f01f8007ffdfe0015753f8000301fe0000e07f800fffefe0015d53f8000380ff0;
   0x2aeab18004c00c6001fff21800fff886001f6e318007fdf66002bbab180006fec600186331800c6ccc6003fffb18006186e60001f819800600cc6003fffb1800abaac6003fffa1800e006c6003fffb1800fffec60;
   0x6031801ffffc600180771800fffdc6001f67b180066186600019831800070ec6001c6371800c6cdc6003ffff18006186e600079e19800700dc6003fffb1800ffffc6003ffff1800e006c6003fffb1801fffec70;
   0x6031800aeaac600180321800000e86001861b1800660866000bbab1800060ec600186331800c6ccc6000060318006186e6000f0f198007ffcc600003031800eaaec6003aaba1800e006c6003001b1800c006c60;
   0x70318001d54c6001fff718007fffc6001861b1801ffec66001fffb1800fffec6001fff71800fefdc6000060318007ffee6007d57d98007ffdc6001fffb1800c00fc6003003f1800fffec6003005b1801c406c70;
   0x3fffbf8000dfefe001fff3f8007ffefe001861bf800ffee7e001bbbbf800fffefe001fff3f800fefcfe002aeabf8007ffeee003fffff800600cfe001fffbf800c00efe003003bf800ebaefe002006bf800cce6ee0;
   0x3fffbf8001c00fe0018077f8007019fe001f6fbf80066067e001999bf800070efe001c637f8000001fe003fffbf8000000fe0007fe5f800700dfe0000183f8000001fe000ffe7f800e186fe001f973f8001c70ff0;
   0x3919b18000ffec60018032b8007ff8ae001f6fbb8006e8e66001999bb800030eee0018633b8002aa8c6003aabb18000000ee0008001b8007ffcee0000183b8007ffcee000ffe2b800e186ee001fbf3b8003838ee0;
   0x3919b18001fffc6001fff718007ff9c6001861b18007fff66001dddb1800070ec6001c63718007ffdc6003b1db1800ffffe600193fd98007ffdc6007ffff18007ffdc600000071800e186c60019b731800701cc70;
   0x3919b18001800c6001fff21800601886001861b18002eb966001fffb18007feec6001fff318002aa8c6003b19b1800ffffe60019bf998000398c6003ffff18000300c600000021800eff6c60019b331800e00ec60;
   0x39f9b18001dfec60000c0718007ff9c6001861b1800061866001fffb18007ffec6001fff718000001c6003999b180001c0e60019b1d9800039dc600070e318000301c600000071800eff6c60019b1b18004006c70;
   0x39f9b180019fec60010c0218007ff886001fffb18007fda6600003831800602ec600004031800fffec6003991b180000c0e60019b199800abacc6000fff318000338c6003fffa1800e786c60019b3b18002aa8c60;
   0x3919bf8001996fe0039dfff80000e1fe001fffbf8007fdb7e00155d3f8007ffefe0000e07f801fffffe003ffdbf800fffefe0019bfdfc00fffdfe001dffbf8000319fe003fffff800e586fe0019b7ff8007ffcff0;
   0x3919bf80019b6fe001ddfbf8002ae0fe0000f03f800061b7e003fffbf8007feefe0008db3f8000030fe003ae9bf800fffefe0019bf9f800abaefe007861ff8007f18fe0000e03f800ed86fe00199eff8007ffcfe0;
   0x3919b1c0019b6c7000fdc718007ff1c60000f031800061f66003ffff1c006076c6001ddf718000031c6003861b1800e666e60019b1d9c000387c6003070f18007f19c60000e071800ed86c6001d9c318000380c70;
   0x39f9b180019b6c20003cc218003ab8860000f031800ffee6600060e308006026c6001b99b18003ff0c6003ae9b1800e666e60019bb988000382c6000fff318000318c6000eee21800fffec6001f98318000380c30;
   0x39f9b1c0019b6c70007cc718001c7fc60001b831c00ffee6700070731c007ff6c700391df1c003ff9c7003ffdb1c00e666e70019bfd9c007ffdc7001fff31c00033dc7001ce771c00fffec700059c31c000380c30;
   0x3919b0c00b9b6c3000ece218000eee8600039831800060e6300039f30c007fe6c2003019b08003000c2003861b0800e666e20019b198c007ffcc60000b830800033cc60018e320800e006c200018c308000380c30;
   0x3919b0c01b134c3001cc771c000fc5c700071c31c00061e630001fc30c006076c7007c1df1c003001c7003861b1c00e666e7001931d8c000381c70001dc31c00037dc70038e3f1c00e006c300718e30c000380c30;
   0x3919b0c00b0d8c30038c3a0c000fc083000e0e30c00067e630003e030c006026c3006e18f0c003800c3003861b0c00e666e300183198c000380c300078e30c0003eec30030e1e0c00fffec300218630c000380c38;
   0x3fffb4c01f1dcc30070c1f0c007ffdc3001c07b4c0157f773001ffc34c007ff7d30007fcf4c001841d3003861b0c00e666e3001835dcc01ffffd3001f0f34c01ffc7d30070e1f4c00fffed3003187b4c01fffed38;
   0x3fffbee00e38ffb8020f83ce00f83ef3803803fee00ffc3fb803e1ffe6007fe3fb0007f83ee001fc0fb803e61bee00f666fb801f3d9ee00fffffb803803fee00ff87f38000f83ce00e006fb803f83fee00fffef98;
   0x38019c400e303790000783c400e00ef10010019c400ff01b90010079e4006073710001501c4000fc071001e019c400744679000f1dde401555571001001de400fc03710000781c400e00679001f019e4000000790;
   0x0;
   0x0;
   0x0;
   0x0;
   0x0;
   0x0;
   0x0;
   0x0;
   0x0;
   0xe00000181000000070000000030000004600000001c0000000e0000000c70000000e0000000000000000000000001c000000007000001b80000000000000000e07000006000000000000000463000000000000;
   0xc000001838fe0000601f800e030fe000c633f8000380fe0000e03f8000c30fe0018e33f8007fbf7e003fffff8000380fe00000e000003b80fe003fffbf8000060600000e03f8007fc07e000e633f8002aa8fe0;
   0x3fffff0001c70fe003fff9f8007175fe000e673f8005754fe0015f57f800fffffe001ce73f8007fbf7e007fffff8000380fe003fffffc0077d4fe003fffbf800fff7ff0015f53f8007fc77e0006773fc007ffcfe0;
   0x3fffff000fffec6003fff9980033ffc600066e31800fffec6003fffb1800fffeee000eee3180061b06600019831800fffec6003fffff800fffec600000031800fff7ff001fffb180060c666000636318003aacc60;
   0xdcc3000fffec600060e198003bffc600036431800d556c6003ffff18000c70c60006ec3180071b06600019831800fffec60007fffc000fffec6001fff318003c381800175d3180060c666003fffb1c00701cc60;
   0x18ce30000180c600060c198001830c6001ffff1800cce6c60003f8318000c30c6002aeab180061b066003fffb1800c00ec60003fffc0000380c6001fff318003f9c1800060c318006acc66003fffb1800300cc60;
   0x1ffe730007ffcc6003fffd98001fffc6001ffff18007c76c6000ffc718001554c6003fffb18007fb066003fffb1800fc0ec60007555c0007ffcc6001c073180047ebf800071c318007fdc6600001831c007ffcc60;
   0xbaf330007ffcfe003fffdf8000dfefe0003f83f800703cfe001cef3f8003ffcee003aabbf8007fbe7e003999bf800fffefe0003fffc0007ffcfe0018033f800f663f800031c3f80060c07e0000183f8003aacfe0;
   0x1fffff0000180fe003060df800c155fe00077e3f800e01efe0038e7ff800755cfe003801bf8000c3f7e003999bf8001ff0fe00000000000638cfe001fff3f8003c631c003fffff80060c07e003fffffc00701cfe0;
   0xbafaf000abaaee003060db800e000ee000e673b800fffeee003061bb800300cee003fffbb8000c026e003999bb8000030ee003fffffc007ffcee001fff3b8001c630c003fffbb80060cf66003ffffb800300cee0;
   0x1ffe7f000fffec6003fffd980071fec6007c63f1800fffec60001f0718007ffcc6001fff318007fc766003fffb18000030c6003d5555c007ffcc6000000318003ff30e003061f18007fcf6600060731c007ffcc60;
   0x1ffe23800bbaac6000ffe1980031aec6003060b180000e0c60003b8318003ffcc6000c06318007f8366002aaab18007ff0c60039fff8c00638cc6002aaab1800f7f3e7003061b18002acc66001e03b18003ffcc60;
   0x15d6730003198c6000c67198003986c6000c67318001c70c600071c71800700cc6000c06318006cc366000000318007ff0c60039801dc007ffcc6003fffb1800e071e70000e03180046cc66007ffff1c000000c60;
   0x3ffe2380039b8c6000c62198001d86c6002e83318003a38c6001e2f318003aacc6000c06318006cbf66001fff318000e30c60001fff80007ffcc6003209b18000aaaa0001fffb1800e6cc660033aaf18000000c60;
   0x673800fffffe000f671f8000ffefe003fffbf8007ffcff007c67ff8007ffcfe000ffe3f8006cdf7e001fff3f8000e30fe0001fffc000738cfe00371dbf8000ffff0001fffbf8007ccc7e0003067fc007ffcfe0;
   0xffff3800fffefe000e621f80005fefe002ebbbf800e3fcfe002862bf8000180fe000aea3f8006cb87e0000003f8000e30fe0002aaaa0001808fe003319bf8000c00300000183f80038cc7e0003863f8007ffcfe0;
   0xffff38000000c600006019c00c1c6c6000cd9f1c004380c7000c6e718000180c60000e031c007fd066003ffff1c000e30c60007fffe001fffec60031b1b1c000ffff000001831c0038cc67001fff31c00666cc60;
   0xc00318007ffcc6001fff18800e0cec2000cd9f08000380c200066c31800fffec6000aea318007f9866003ffff0800fffec60003000e000fffec60037fdb18000ffff0000ff83180036cc62001fff30c00666cc60;
   0xffff18007ffcc7001fff19c0060ccc7000cdf71c007ffcc70003fc71c00ffffc7001fff31c004c186700046031c00fffec70007fffe0015d54c70037fdb1c000c0030001ffc31c0067ec6700180031c00666cc70].
Definition hanzi_rows_147 : list N :=
  [0xc0031800600cc200180318c0072ecc3003fce30c007ffcc30003f83180007c0c2000aea30c006c1862000e6630c000000c20003aaae0001838c2003061b0c000eaab0000c0c30c00e1ec630018aab0c00666cc60;
   0xffff1c00700cc700180318c0033f4c3003fc630c000380c3000f7e71c0006e0c70000e030c006c1867001c6730c001c70c70007fffe0001870c7003061b0c000ffff0000c0c30c00407e63001dffb0c00666cc70;
   0xffff0c00600cc300180318c003bffc3000c0330c000380c3001e6fb0c000e70c30000e030c00ec1863001863b0c003878c30003fffe00018e0c3003061b0c000c0030000c0e30c00003f63000c0030c00666cc30;
   0xc0070c007ffcd3001fff18c001e1fd3000c03f4c01fffed3003861f0c007c7cd3007ffff4c00ffff73003861f4c00703cd30007000e0001840d3003061b4c000c0030000e0734c01fff3f3000c0034c01ffffd30;
   0xfe030e007ffcfb801aab1ee000f00f9800c00fee00fffefb801078bee00f81ffb803ffffee00cfcf7b80307cfee00e00ffb8003f00e0001f00fb803e61bee000fc030000fc3fee00ffe1fb800fc03e600fffffb8;
   0x7c070400700c710018031e400060079000c005c4000000710000783c4006006710000001c40040003900007c1c4004006710003f00e0001f0071001c419e40007c0300007c19e4007f01790007c01e4015555710;
   0x0;
   0x0;
   0x0;
   0x0;
   0x0;
   0x0;
   0x0;
   0x0;
   0x0;
   0x6000000006000001c00000001c00000000000000001c0000000e00000001c000006c00000000000000070700000000000000707000000000000000700000000c0000001c00000001c0000000000000001c0000;
   0x6200000007800000c0aa800018000000aaaaa800001c0000000600000001c00001ec0000007ffffc0007869f8007ffefe0006021f8001ff8fe0000603f80001c07e000181ff80001807e0007f3ff8000180fe0;
   0x1ff67c0000007f00015d4ffc0001cfff001fffffc001ffff80007fffe000001c000018c0000007ffffc001fdfdf8007ffefe0007071f8001ff8fe003fffbf80001807e003ffdff80055d57e0007f3ff800fffffe0;
   0xfe63f0007fe0f8003ffeffc0000cfff001fffff8001ffff80007fffe000000c00003ffffd8007ffffc001fdfd98000180e600063ff98001838c6003fffb1800ffff66002aa981800ffff6600063301800ffffc60;
   0x1ff6070007fe07e0015f40700000c038000000e00001c0018000700060003ffff8007ffffd80000380c00064659800ffffe6003ffff98001c38c600060e31800ffff66000c31ff800557766003e3bff8000000c60;
   0xc060300060000e0000e027000ffe19800006070000180018000600060003ffff80000c00d80000380c003ffff9800ffffe6003fc2198001ff8c600070c31800020866000661ff800386366003e1ebb8007ffec60;
   0x1c060300070000e001ffe33001ffe39c0001e0380001ffff80007fffe0003800180000c01d80000380c003ffff9800c183e6001747198001ff8c600575d718001b1c66007ffc018001ce366000559dd8007ffec60;
   0xc060300060000e001ffe6380030630e0003c01c0001aaab8000600060003800180000ffed80000380c000d8d9f800fdbffe00063fff800aaaafe007fffff8003b0c7e002ba9ff800fffb7e000ffbff8006fe6fe0;
   0x1fe67f00070000e00007071c003077ff0007d01e0001c0018000700060003800180018fffd8001ffffc006dbd9f800fdfffe00073fff800fffefe007fffff800ff967e000181ffc00fffb7e000d78d98006ff6fe0;
   0xfe67f00060000e002abaffc0030ffff000fffff0001ffff80007fffe0003800180018c66f8001ffffc002dbd998000180ee00060019800c2c6ee0000003b800ffb66e003ffd86c000cc36e000672bb8006ea6ee0;
   0x1c060300070000e007fffdfc0038fc1f001f7fff0001ffff8000755560003ffff80019c67f80018000c007dddd98007dfce6003fffd9800c7c6c6001fff3180019ff660015d5d7c007ffb660007e7ffc006ff6c60;
   0xc06030006aa2ae002eba4c00038f86000080200000180018000600060003ffff80018ffec00018000c0038c0f98000180e6003fffd9800c2c6c60018033180019ffe6000181fec007ffb660003e0d8c006aaec60;
   0x1c07030007fe7fe000d1c0c00019dc60000006000001d55580007fffe000380018001dfffc00018000c001fff598005555e60030d8d9800fffec6001803318005df966000180000006cc366001ffd9cc007ffec60;
   0xeaeab0007fe7fe001ffe0c000198060000006000001ffff80007fffe000380018000cb06c00018000c000fff19800ffffe6003898d9800fffec6001fff31800ff8c660007fffe000fffb66003c3b06c000000c60;
   0x1fffff00070000e0079ff7fc001d8fff0000060000015555000000600000380018000df07fc001ffffc001c031f80055d5fe0019dfdfc000180fe001d573f8005dec7e0007fffe000ffff7e0007fffe0007ffcfe0;
   0xfffff00060000e0030c37fc000f8fff000fffff0000fb800000006000003aaab80007bfef8001ffffc000c631f80000c0fe00199fdf800abaafe0018033f80019e67e000600060006cc37e0007fffe0007aacfe0;
   0xf8000070000e0015d50c0000f0060000fffff0001c1c00003fffffc003ffff80007bffd8001ffffc001c6319c00fffee6001d9819c00ffffc6001fff3180019ff660007fffe0007dd3660007000e000755cc60;
   0x1f8000060000e001ffe0c0000f006000000600000ffffff003fffffc003ffff80003866d80000380c000c6318800fffee6000f18d8800afeac6000aba31800ffbf620007fffe0007ffb660007fffe0007ffcc60;
   0x39c000070000e001ffe0c00007006000000600000ffffff00003fc00003800180003866d80000380c001c6319c00e666e700071dd9c0007e0c700087431c00ffb167000700060001ce3670007fffe000700cc70;
   0x30e000060000e0003f08c0000f8e6000000600000003e000000f6f00003800180063bfec80000380c000c6318c00e666e200070d98c000df0c2000ccfb08001998630007fffe0001ce3620007000e0007aacc20;
   0xf0700007ffffe000ffcfc0001ddff00000060000000f7800001e67c0003800180063ffecc0000380c0017f118c00e666e7000fbc98c003db8c7001dcfb0c00199c630007fffe0003cf3670007fffe0007ffcc70;
   0x3e03c0007ffffe001cceffe0038efff8000060000003c3e0000f861e0003ffff80023e00cc00aabaac000fb818c00e666e3001dbff8c00719ec3003c0ef0c00ff8e63000600060006cfb630007aaae0000000c30;
   0x1fc01f8007ffffe0038c787e00f0787f003fffffc007f80fc007f0607c003ffff80037700ee00fffffc001e1f9cc00e666e30039e7f8c01e18fd3007c0ef4c01ff876300070006001ecdff30007000e001ffffd30;
   0x3e0007c0060000e0010c300000e03800003fffffc00fe003f00380603c003aaab8003e3806000fffffc003807de600f666fb8030703e600c182fb8027fefee000183fb8007e0060008ccdfb0003f00e000fffffb8;
   0x3c0001c0070000e0000c0000004018000000000000070000700000600400380018001c1806000000000001001ce4007666790020200e4000180710007fc1c4000181790007e0060000cc1b10003f00e0000000710;
   0x0;
   0x0;
   0x0;
   0x0;
   0x0;
   0x0;
   0x0;
   0x0;
   0x0;
   0x1c0000000700001c01c00000006000000018000001c000000001c0003f40000003001c0000000c000000018000300100000006000000c000000000710000000200000001c0000001800000000000003000000;
   0xc0000180700000c01c00000006000000018000001c000000000c0003ffffe0003000c0002aa9f8001ff8180007e03e000000e000001f8000000f833e0003fe7e8000aa9f8000001800000aa9f80007fe0000;
   0x3fff0c000c190300001c00c000555070003ffe1c000001c00001ffffe00005fffc0003000c0007ffc7f001ffc7c0007ff3ff00001f800000ffff4001fc31f0007ff1fe000ffcff0007ffffe000ffdff0001ffffe0;
   0x3fff7f800e39bfe0000c0ff800fffbfe003ffeff8000ffff0001fffff0001c0c300003000c0007ff833000c00fe0000ff03f00003bc000000fffc000c3fe300030000e000ea8060007ffffe000ea803000003ffe0;
   0x38c77f800671bfe0001c0ff800fffffe003d75ff8000ffff0000739cfc001c1c70001755fe00001c030000e11c70000c3071000071f000000185c001c7fc30007ff7fe000c00070007ffffe000c0003000300c140;
   0x38c361800673b0e0000c0c380007030e003860c38000eaab00003398d8000e1860003ffffe00000c03000073b83c000c30300001e078000001800000c01830003fe7fe000c0006000000c00000c0003000380c0c0;
   0x38c76580066333e0039c6cf80007073e003861cf8000c047000177ddd0000738e0003ffdd700055d4300003f355e000c30700007c03e000001800001d0fdf00075555e000ff9ff0001ffffc000ff9ff0001c1c1c0;
   0x38c36d80062333e0038c6cf80007033e003860cb8000c0e30001fffff800ffffff00030187000fffeba0001e0ffc000c3030001fffff800001800000f8edf0003ffffe000ff8ae0001ffff8000ff9ff0001c18380;
   0x38c76d80070737e0039c6df80007076e003861db8000c3c70001fffff800ffffff000301c7000ffffff000380ff0000c37ff807dffffe00ffffff001fbfdf000555554000c0007000000700000c00030000c38700;
   0x38c36980030736e0038c6db80007036e003860db8000c30300003398c000c00063000319c38001871ff000300180000c37ff80300600c00ffffff000c3fc30002aaaa8000c0006000000700000c00030000e1a300;
   0x38c76980030736e0039c6db80007074e001861d38000c7070000739cc000ce007300031dc3800383030003ffc18001fff07000000600000001800000c0e030003ffffc000fffff000ffffff000d55570005547c00;
   0x38c36180038630e0038c6c380007030e003860c38000c0030003fffffc00ce02b300031cc5c00303830003fffff800fff030001fffff800001800000c0e0300030180c000ffffe000ffffff000fffff0003fe3fc0;
   0x3fff7fc0018e3ff0039c6ffe000707ff001871ffc00ffffff003fffffc007ffff000031ccfc00f1dc300039c3ffc000c3070001fffff800001800000fffff0003ffffc000000380000701e0000fffff0007fe07c0;
   0x3fff7fe0018c3ff8038c6ffe000703ff801860ffc00ffffff000380180007feeb800030cfc801e0ce30001980180000c303000000600000001800000fffff0003ffffc0000001c0000e02f00000c07000030000c0;
   0x3d57618001dc3160039c6c580007072e001871cb8000c00300003800c0000e061c00175c78000f1c7ff001dc0180001c33ff000006000001ffff8000c0e0300030180c001ffffe0003ff7fc0000c07000070000c0].
Definition hanzi_rows_148 : list N :=
  [0x38036d8000f833e0038c6cf80007033e001830cf8000c0630001ffdfe0000e660e003ffc7000036d9ff000980ba8000c33fe000006000001ffff8000c0e030003ffffc001fffff800ffe3fe0000c07000030000c0;
   0x76d8000783760039c6dd80007076e001831db8000c1e30001ffdff0000e7737007ffc7000077d9870001c1ff8001c33070007fffe000180018000c0c030003ffffc00180003c01fc007f003fffffc007fe7fc0;
   0x3698000783660038c6d980007036e001838fb8000c3c3800038cc38000e33730003003800066d983000181ab8001833060003fffe000180018003fffffc00000c0000186001c00cc0032003fffffc003fe7fc0;
   0x1007798000783660039c6d98000707c6001839f18000c701800038ce7c00fff3e00003001c000cddd870001c1818001c33070007000e000180018007fffffc007ffffe0018c6660000ff7f00000c07000070000c0;
   0x3003618000fc3060038c6c1800070306001818c18000c601800038c7c000fff1c00003000c000cccd83000181818019833060003000e000180018000020200003ffffe00198c660000fe7f00000c03800030000c0;
   0x700761c001de3060039c6c1800070706001c1dc18000c001c003ffe780005f51e00003000e001cdcf870001c1818019833070007000e0001800180001f070000300700001d8c670000c00300000c03800070000c0;
   0x300360c0038f306003ffec1800fffb0600180cc18000c000e003ffe3c0000e00700003000700080c5ff000181ff800bbb3fe0003000e0001800180003c03c000300380001c0ce38000c00300000c01e0003aaaac0;
   0x3fff60c00f07f47003ffed1c00ffff47001c4fd1c000fc00f0003801f0000e007c00030007c0001c1ff0001c1ff800f7f3ff0007fffe0001ffff8001f001f0003001f0001c4cc18000ffff00000c00f0007ffffc0;
   0x1ffe7ce00e01fe3803800f8e00fffbe3800fc7f8c000fc00780038007c000e001f00030001c0000f1830001f181800f0fb060003fffe0001ffff8003c0007c003f80ff000fc0c18000ffff00000c007c003ffffc0;
   0x5543c400c00de3003800784000001c30007c670c0007c003000380018000e00060003000080000f0070000f0018006010070007000e000180018001800018001f801f0007c0000000c00300000c00180070000c0;
   0x0;
   0x0;
   0x0;
   0x0;
   0x0;
   0x0;
   0x0;
   0x0;
   0x0;
   0x1c01c0000700700000001c000030070000000180000000700000401c0000700600000c01c00001c0700001c01c0000300700001c01c0000000700000c01c000061c30000000380000380700000701c0004000700;
   0xc00c0000300300000000c000030030000aa0180000000300000e00c0000300600000c00c00000c0600000c00c0000300600000c00c0007ff8700000c00c0000618300007f8180000300700000600c000ff80600;
   0x1e00c000c71830003fff0c000ff0030000ff01c001fffc300001c00c0000301740001c00c00000c0700001c00c0000300700001e00c0007ff8300000c00c000061c180007f95d0000700300000e00c0007ff0700;
   0x1f07f800633bfe003fff7f800ff03fe000ff0ff800fffbfe000180ff8000383fc000180ff80000e3fe0000c0ff8000780300003e0ff8006abbfe0000c0ff8000619fe000619ff0000703fe0000c0ff80000f3fe0;
   0x7387f8007733fe0003307f8005703fe000e31ff8007003fe007fffff8000383fc003fffff801ffe7fe0001c0ff80007c3fe000370ff800703bfe0000c0ff800061dfe000619ff0005757fe003fffff8000033fe0;
   0x618618003363060003306180003030e000e30c3800600306003fffe18007ffb0c003ffec1800ffe30e0000c0c38000ce3fe000638c3800623b0e0000c0e180006198600061983000ffff0e003fffc380000330e0;
   0x1e1e658003f63360003306580003033e000e31cf800700336007fffe58007ffb3c003007cd801fff73e003ffecf8001c6326000e38cf800733b3e003ffee5800461d96000619cf000ffff3e003fffcf80000333e0;
   0x3c0f6d800032336002bba6d8007ffb3e000e38cb80067f336000060ed800603b2c003006cd80003332e003ffecf800383336000c1ccf800633b3e003ffeed800e619b6000e199b00000c33e000000cf80000333e0;
   0x7fffed8007ffb76003fff6d8007ffb7e000e19db80077f376000070fd800603b6c00301fdd800033f6e0039c6df80071bb76003c0edf800733b7e0030c6fd800765db6007e1ddb00000c37e000000df800fff37e0;
   0x2ffd698007ffb66003fff69800603b6e000e18fb800663366000c30f9800603b6c000018d9800031f6e0038c6db801e39f66007aafdb800633b6e0030c6f98003ef9a6003c0fb300000c36e0007f8db800fff36e0;
   0xc069800601b66003b3369800603b6e003e1dd3800763306000e38f9800603b0c000018d9800571f4e0039c6db801c70f66003fffdb800733b6e0030c6f98001ffde6000005d300055c36e0007fcdb80060f36e0;
   0xc061800601b06003b3361800603b0e003c0ec38006633ae800e18e1800603bae001818c1800ff030e0038c6c3800860306000eb8c3800633b0e0030c6e18000e1986000aa9ab8007fc30e000618c380060b30e0;
   0xc07fc00755bff803b337fe00603bff800005ffc007633ff8007dcffc00603bff001e18ffe00ff07ff8039c6ffc000003ff800c1cffe00733bff0030c6ffe00061dff001ffdffc007fc3ff80061cffe0071b3ff0;
   0x3fff7fc007ffbff003b337fe007ffbff801ff8ffc006633ae8003feffc007ffbff000f98ffe000303ff803ffeffc007ffbff800c18ffe00633bff0030c6ffe000619ff001ab9ffc0060e3ff800618ffe0031b3ff0;
   0x3fff618007ffb16003b33658007ffb36001ffdc98007633160001fee18007ffb0c0003f8c580003072e003ffec58007ffb06000c1ccd800733b1e003ffee5800061d86001c1dc300060e30600061cc580031b31e0;
   0xc06d800601b36003b1b6f8006abb3e001ab8cb80066b3360001c0ed800603b3e0000f8cd80003033e003aeecf800300336000e18cf80027ab3e003ffeed80006199e000c398b80060e33e000618cf8003b333e0;
   0xccc6d800601b76003f1b6d800603b76001c1dd980077f3760000e0ed800603b6e000038dd80057076e0039c6dd8001803760007fcdd80007837e0030c6fd800061db6000e31db80070637600061cdd8001f337e0;
   0xcce698007ffb66003f0f69800003b66001818f980062b366000660f9800603b6e000018d9800ff03ee0038c6d98001c03660007d8d980007836e0030c6f98000619a6000671bb800606366000608d98001e3b6e0;
   0x1cc6798007ffb6600380f79800001bc6001c1df1800703366000e70f9800603b46001018d9800ff07c60039c6d98000ce36600101cd1801c7c3660000c0f9800461de6000771f180070736600061cd98001e3b660;
   0x38c661800601b0600380361800001b06001818c1800600306000c38e1800603b06002018c18000303060038c6c18000fc306003018c1800c6c3060000c0e1800c619a60003e18180070330600260cc18000e1b060;
   0x30c361c00601b0700380361c00001b06001c1dc1800700307001c1ce1800603b06007018c1c000307060039c6c180007830600301cc1801c6e3060000c0e1c01c7dd870003c1c180070330600660cc18001f1b060;
   0x30c3e0c00601b03003fff60c00001b06001ab8c1800600303003ffee08007ffb06003018c0c00030306003ffec1800070302003018c1800c673060000c0e0c00c6f983000fe181800303b0600660ec18003b9b060;
   0x10c160c00741b47003fff60c00001f47001ffdd1c00750303003ffff4c007ffb07003ff8d0c00030707003ffed1c000e0303003ff8d1c00fe3f470000c0f4c00fe7d83003f7dd1c003f1f47007607c1c0071df470;
   0xf878e007c1be38038037ce00000fe3801ff8f0c007f03e380300e78e006abbe3003ff8f8e000303e3003aaef8c000c03e3801ff8f8e00fe1fe30000c078e00fe0df3803c1ef8c003f0fe3803e07f8c00e0efe30;
   0x70384003c19e10038033c400000de1001c1c704003f01e1001000784006039e3001ff0784000303c300380678c000401e1000540784000009e30000c0784000004f100100470c001f0de1001c0378c00406dc30;
   0x0;
   0x0;
   0x0;
   0x0;
   0x0;
   0x0;
   0x0;
   0x0;
   0x0;
   0xe0700000381c00000e0700000381c0000000000000301980000301c00000030000000000000001c00000000000001c60300000601c0000cc0300000c01c0003070700000e01c0000000300000001c0004000700;
   0xe0300000380c00000e0700000380c00000a0200000381980000380c000000380001ffe000000018000003fffe0000860300000e00c0000cc0300000d80c0003060300000e00c0003ff830003ffe0c000782a300;
   0x15f5754000381c00015f5754000381c00000e0700000181980005581c00001ffc0001fff00000157d500007fffe000fffe180015d50e001fffe18001ffe0c00018e0300000600c0003ff818003ffe0c0007ffe380;
   0x3fffffc00ffffff003fffffc00ffffff0000e0300003f8bba000ffc0c00003ffe0001c06ffc001ffff80003aaae000fffefe003fff7f800fffffe001fcf7f80018c3fe001ffe7f8001c01fe003806ff8000fbbfe0;
   0x3fffffc00ffffff003fffffc00ffffff0000e0700003fcfff0007fcffc0001d5f0001c07ffc001ffff80007000e0001c61fe00155d7f8000cc1fe0018c37f801fffffe001fff7f8000f01fe003806ff8001c31fe0;
   0xe0300000380c00000e0700000380c0003fffffc0018cfba00070effc0000e070001c06e00001800380003000e000086086000e18618000cc1860018c361800ffff8600180661800070186003806e18000831860;
   0xe0700000381c00000e0700000381c0003fffffc001ced980003075d40000703c001fff600001c00380007fffe000ffffd600071865800fffd96001fdf65800030396001fff65800030196003ffee58001c19960;
   0x380c00000e1f00000380c0002aeaba8000c6d98000bab8c0002ababe001ffe608001aaab80003fffe000fffe9e003fffed800cccdb6001edf6d8000383b6001ffe6d800ffffb6003ffeed80008199e0;
   0xffff8000381c0000001c00000000000000e0700007fffff001fff1c0003fffff001c0771c001ffff80007555e000c007f6007fffed800cccdb60018c36d80055d3f60018076d800ffffb6000406fd8001c1db60;
   0xffff8000e00200000018000007fff80000e0300007ffffe001ffe0c0003fffff001c06338001aaab80003000e000dff6b600000069800fffda60018c3698007ffbe6001806698000301a6000f86f9800ffffa60;
   0x75f50000e0070000001c00000ffffc0000e0700006665df0018c6ffc0038181b001c07370001c00380007000e0001ff1d6001fff69800fffda6001fff698007ffbe6001fff698000301a60007fef9800ffffa60].
Definition hanzi_rows_149 : list N :=
  [0x60e00000600600000ffff00003eaa80000a02000066619b0018c6ff800381818001ffe3e0001800380003aaae000000086001ffe61800cccd86001fff61800603b86001ffe618000301860001fee18000861860;
   0x60600000700e00001ffff00001f0000000000000066619b0018c61c000381818001fff3e0001ffff80007fffe000ffffff0018c77fe00ddddff0015d57fc00603bff8000007fc0003f1ff0011c6ffe001c61ff8;
   0x1fe0600000300c00000c0c000000780000000000000666bbb0018c60c0003818180000661c0001ffff80003fffe000fffeff001ffe7fe00fffdff0000c07fe007ffbff802aaa7fe0003e1ff001f86ffe000865ff8;
   0x1ff0700000381c00001c1c0000001e0000000000000777fff001ffe1c0003ffff80010e71c000155f78000c070e00041e1c6001fff618005555860000c0618007ffb96003fff618000001860017fee58001c75860;
   0x18007000001c3800000c0c0000000f00000000000007febba001ffe0c0003ffff80038c63c000380c38000e070e000f0f89e0018c6678002aa99e003fff6d800603bb6002aea6d8007ff99e0001beed800083d9e0;
   0x1c007000001e7000001c0e00000007c0000000000007fed98000007ffc00380018001fc73e0003c1c3800078e0e0003ddfd6001fff6d8007ffdb6001fff6d800603bf60000c06d8007ffdb60031c6fd8001c3db60;
   0x1c003800000fe000000c0e00000001e000000000000006d98000006ffc00200018000f86360001e38380001fc0e0001fe2b6001ffe6d8006ab9a6000c0e698007ffbe60000c06980064c9a6003f86f98000839b60;
   0x1c0038000007e000011c07000060007000000000000006d980000061c0004000180003877700007f0380000fc0e0001f7df60000c079800601de6000e1c798007ffbe6001ffe7980064dde6001ffff9800ffb9b60;
   0xc001c000003e000030c038000e0003800000000000806d8c0020060c000c00018000386e380003e0380000f80e0003b8ea6003fff618007ff9a60007b861800603b86001ffe6180064c9a60001bae1800ffb9860;
   0xc001e00001ff800031c03c00060001800000000001c06f8c0070061c001c0001800070741c0007cc380001f30e00077e7c7003fff61c007ffd870003f061c00603b870000c061c0064dd870071c7e1c000079870;
   0xe000f00007e3e00030c01e00060003800000000000c0638e0030060c000e00018000ef601e000f8fb80007c3ee0006238830000c060c006019830003f060800603b830000c060c0064c983002183e0c0000ed830;
   0xf5007c007f81ff003fc00f8007ffff800000000000d5e187003ffe1c000fffff8003cff00c007e0ffc007f03fe001e71fc3007fffe0c007ffd83001ffe60c007ffbd3007fffe0c01ffff83003fc3f4c01ffcf830;
   0x7e001c00fe003f003fc003c003ffff000000000000ffc183003ffe0c0007ffff000381f00000f800fc003e003f000c3e6f3803ffffce007ff9f3803e0ffce006ab9e3803ffff8e00fffff3803f83f8e00ff87f38;
   0x3f000400700007001f0001800000000000000000007fc1830015501c0001555400030030000040001c0010000600001e0710000003c400601cf10030073c4006039e1000000384000000f1001501784005402710;
   0x0;
   0x0;
   0x0;
   0x0;
   0x0;
   0x0;
   0x0;
   0x0;
   0x0;
   0xe0700000381c00000e0700000381c00000c0700000381c00000e0700000381c00000e0700000300c00000e0700000381c00000e0700000381c00000e0700000381c0000006000000381c0000060700000381c00;
   0xe0300000380c00000e0300000380c00000c0300000380c00000e0300000380c00000e0300000300c00000e0300000380c00000e0300000380c00000e0300000380c00000c6300000380c0000060600000380c00;
   0x15f575400ffffff0000e070000ffffff0015d575400ffffff003fffffc0057d5d50015f5754005755d5003fffffc000381c0003fffffc0057d5d50000e07000057d5d50000c63000057d5d5003fffffc000381c00;
   0x3fffffc00fffffe003fffffc00ffffff003fffffc00ffffff003fffffc00ffffff003fffffc00ffffff003fffffc00ffffff003fffffc00ffffff003fffffc00ffffff0000c630000ffffff003fffffc00ffffff0;
   0x3fffffc00ffffff003fffffc000381c0003fffffc00ffffff003fffffc00ffffff003fffffc00ffffff003fffffc00ffffff0015f575400ffffff003fffffc00ffffff0000c630000ffffff003fffffc00ffffff0;
   0xe0300000380c00000e0300000380c00000c0300000380c00000e0300000380c00000e0300000300c00000e030000abaaea0000e0300000380c00000e0300000380c0003fc63fc000380c0000060600000380c00;
   0xe0700000381c00000e0700000555400000c7700000381c00000e6700000381c00000e3f00000304c00000e0700000381c00000e0700000381c00000e0700000381c0003fc63fc00039dc0000060700000381c00;
   0xa0200000001800000a72000003ffc00000c7300000000000000862000000200800000380000030ec0000000000000380c00007ffff0000000e00000e0300001f80800000c630000000c00000000000000380c00;
   0x3fffffc001555c00000070000007ffc000000e000003ffffc0000060000000701c000041e0000001c000007ffff0000399c00007ffff000000060000fffff0001fffd00000c630000000c000001fff80000101400;
   0x3fffffc007fffe0002aaeaa8000300e000000e000003ffffc000fffff00000601c0000e0700000038000007ffff000001800000600000007ffff0000fffff00000fffc0000c6300000aaea80000fff80002aaaaa0;
   0x1c000007ffff0003fffffc000700e00007ffff000001800000fffff00060701c00007c3c00000700000070000000001800000600000007ffff00000060000000197c0000c6300000ffffc0001c0180003ffffe0;
   0xe00000380870002baaba8000300700007ffff00000180000000600000f8601c00023ffe0007ffffe0007000000000180000060000000700038000006000000018000000c6300000ffffc0000c0180003ffffe0;
   0x67000001c18380001c0380007f007c00038000000001c00000006000007c7ffc000e1ffe0007ffffe000700000000018000007fffe00070001c00000600000001800000fffff0000e0e000001c1d80003807000;
   0xf7c00001c181e0000c0380007e001e0001c000000ffffff000006000000f6ffc000707800002aaaba000700000003ffff80007fffe00030008e00000600000001800000fffff0000e0e080000c3d80003803000;
   0x3e7f00000e180e0000e0700000ffffc0000f000000ffffff003fffffc0007f55c000701e00000000300007ffff0003ffffc000000060007001cf003fffffc00ffffff000006000000e067c0001c7980003807000;
   0x78678000003804000060e00000ffff800007800000aabeaa003fffffc0000e01c0003a0f80000000300007ffff00000180000000006000300386003fffffc00ffffff000006000000e06f80000cf180003803000;
   0x1f063f000003c00000071c00000f557000003c00000007c0000155f5540000701c0001ffff00000003000000007000001800001fffff00030070000155755400001800000006000000e07e00001de1c0003807000;
   0x3c060f800007c0000003b800000700e000000f00000003e0000000f8000000601c0000effe00000003000000007000001800001fffff000300e0000000600000001800000006000000e0f800000dc0c0003803000;
   0x380607c0000ee0000001f8000007c1c0000007c000000770000001fc000040701c0000780600000003000000007000001800001fffff000301c0000000600000001800003fffffc004e3f800031c81c0003807000;
   0x60080001c70000001f8000001e780000001e8000003700000039e0000c0601c00003e0000000003000300007000001800000c0000000381c0000000600000001800003fffffc00ce79c00030c00e0003fc3000;
   0x60000003c7c000007fe000000ff00000000ff000c073c00000f0f0000c07c1c00001fc000000003000300007000001800000e00000003800000000060000000180000000600001ce71e00071c0070001fc7000;
   0x6000000f03e00003f8f800000ff80000000ff800c031e00003e07c000c06ffc000003f00003ffff000380007000001800000e00000001800000000060000000180000000600000ce00780030c0070000003000;
   0x6000007e00fc001fe07fc007ffffd003fffe3c00fff07c001fc01f000ffe7fc000001ffc003ffff0001fffff000ffffff000700000001d70000000075000000180000000600000fe003f003fc003c000007000;
   0x600000f8003e003f800fc00ff80ff003fff80c00ffe03f003e000fc007fe07c0000001f800000000001ffffe000ffffff0007fc000000fe000000007f000000180000000600000fc000f003f8001e000003000;
   0x60000070000e001c0001c007c001f00015400800154007003c0001c00150004000000018000000000007fff00000000000003fc0000007f000000003f0000001800000006000007c000700150000c000007000;
   0x0;
   0x0;
   0x0;
   0x0;
   0x0;
   0x0;
   0x0;
   0x0;
   0x0;
   0xe0700000381c00000c0700000381c00000e0700000381c00000e0700000381c00000e0700000381c00000c0300000381c00000e0700000381c00000e0700000300c00000e0700000381c00000c0300000381c00;
   0xe0300000380c00000c0300000380c00000e0300000381800000e0300000381800000e0300000380c00000c0300000380c00000e0300000380c00000e0300000300c00000e0300000380c00000c0300000380c00;
   0x3fffffc00ffffff003fffffc0057d5d50015f57540057d5d5003fffffc0057d5d5003fffffc000381c00015d575400ffffff003fffffc00ffffff003fffffc00ffffff003fffffc00ffffff0015d575400ffffff0;
   0x3fffffc00ffffff003fffffc00ffffff003fffffc00ffffff003fffffc00ffffff003fffffc00abaaea003fffffc00ffffff003fffffc00ffffff003fffffc00ffffff003fffffc00ffffff003fffffc00ffffff0;
   0x15f57540057d5d50015d575400ffffff003fffffc00ffffff003fffffc00ffffff0015f575400ffffff003fffffc00ffffff0015f575400ffffff003fffffc005755d50015f57540057d5d5003fffffc0057d5d50;
   0xe0300000380c00000c0300000380c00000e0300000381800000e0300000381800000e630000ffffff0000c6300000380c00000e0300000380c00000e0300000318c00000e030000039cc00000c0300000380c00;
   0xe0700000f81c00007c0700000381c00000e0700000381c00000e7700000381c0000066700000381c00000c6300000381c0000040500000381c00000e070000033cc00000e0700000119c00000ce300000381c00].
Definition hanzi_rows_150 : list N :=
  [0xaaaaa8001fe000000ffe800000000000000aa300000280e000000600000002000000006000000380c000000600000000000000070e00000000000007f800000003e000000ffff0002abaa800008f200000080000;
   0x1fffff80007ffd00007fffe00015555000000e0000000007000000e000000071c0003fffffc00039dc0000006000003ffffc0000e0700003ffffc0007fffe00000f70000007fff0003ffff800001fc0000019ffe0;
   0x1fffff800003ffc000003fe0001ffff800000e000007ffff0003fffffc000070e0003fffffc00001800000fffff0003ffffc0001c0380003ffff800002ffe00003e3c000006aea0003aaab8000079e0000019ffe0;
   0xe00c000001c7c0000000e0001ffffc00000e000007ffff8003fffffc003070e000000600000003800000fffff00030181c0003c03c00000000000001c060000f85f0000070700003800180001f078000018f000;
   0xe00e0007a0c000000000e00000000000000e00000638e38002aaaea80078707000000600000003800000c060300030180c0007001e000000000000018060003e0e7c00003870000380018000fc03e0000183800;
   0xe00e0007fff400000000e00000000000000e0c00071871c000000e00001e7078000157550000071c0000c070300030181c001e000780000000000001c06001fc3c1f80055870000380018007f000fe000181c00;
   0xe00600003fffe003ffffe000000000000ffe0c00061c30e000000e00000ff03c0007ffff0003860c8000c070300030180c003fffffe00aaaaaa00001806000e03807000ff8700003ffff8003ce073c000180c00;
   0x3ffffe000001dfe003ffffe000ffffff000ffe0c00071c3870007ffe000003f07e0007ffff00038e1dc000c1f030003ffffc0031fffdc00ffffff001ffffe000003000000ffcf00003ffff80010e07040001bdc00;
   0x3ffffe000000c000000300e000ffffff00000e0c00070e1830007ffe000000f83f000380380003060cc000c3b830003ffffc00038180000ffffff001ffffe0000ffff8000701f80003aaab80000e07000001bfe00;
   0xfc00000ff5c000000700e00001038000000e0c00070e1c00007fff0000007e770001c0780007001cc000c71c300035555c000181c000000c180000030060001ffffc000703f80003800180000e070000019fff0;
   0xef00000ffff800000300e00003838000000e0c0003060e000070070000007e300000e0f00006000ce000ce0e300020000c000180c000000c180000030060000e0000000387180000000180000e0300000180ff0;
   0xe7c000005ffff000070060000701c000000e0c00070707000070038000407270000079e00006601c6000dc07300000001c000180e000000c1c0000070060000700000001df1c00000001c0000e0700004181c10;
   0xe1e0000000cff000030070000700e000000e0c00030383800030038000c0703000003f80000e600c7000f803b000c0000c000180e0000c0c0c00010e0060000380000000fc0e00000000c0000e0380008180c00;
   0xe07c000c01c00000070070000e007000000e0c000301c1c0003001c001c0707000001f80000c601c7000d801f000c0001c0001c070001c0c0e00030e00600001c0000001fc0f00000000c0000e03c001c181c00;
   0xe03f800c00c00000030038001fa03800000e0c000381e0c0003800e000c070300000ffe0000c600c3000c0003000e0000c0001c038000c0c0780031c7e600000e0000003fe0700000000e0000e01e000c180c00;
   0xf507c00f55c0000007003c003ffffc003fffffc001d4f040003d407800fff070001ff1ff00007ffc0000c00030007ffffc0001dc1f000ffc03e003787ff000007000007fcff3c000000070000e00f000ff81d40;
   0xfe00800fff80000003001c0038bff8003fffffc001f87000001fc03c00ffe030003f803fc0003ff80000f80030007ffff80000fc0f800ffc01f003f003f000003800003e03f9c000000030000e007800ff80f80;
   0x7e000007ff00000007000c00700018000000000000f80000001fc018007fc070001c0001c00015500000780030001fffc000007c018007f0007001e0007000003000003000704000000030000e0010007f00780;
   0x0;
   0x0;
   0x0;
   0x0;
   0x0;
   0x0;
   0x0;
   0x0;
   0x0;
   0xe0700000381c00000e0700000381c00000e0700000381c00000c0700000381c00000e0700000300c00000c0300000381c00000e0700000381c00000c0300000381c00000e0700000301c00000c0700000300c00;
   0xe0300000380c00000e0300000380c00000e0300000380c00000c0300000380c00000e0300000300c00000c0300000380c00000e0300000380c00000c0300000381c00000e0300000300c00000c0300000300c00;
   0x3fffffc00ffffff0000e070000ffffff003fffffc00ffffff003fffffc0057d5d50015f5754000300c00015d575400ffffff0015f575400ffffff003fffffc00ffffff003fffffc000301c00015d5754005755d50;
   0x3fffffc00ffffff003fffffc00ffffff003fffffc00ffffff003fffffc00ffffff003fffffc00ffffff003fffffc00ffffff003fffffc00ffffff003fffffc00ffffff003fffffc00ffffff003fffffc00ffffff0;
   0x3fffffc00ffffff003fffffc000381c0003fffffc00ffffff0015d575400ffffff003fffffc00ffffff003fffffc000381c0003fffffc00ffffff0015d57540057d5d50015f575400ffffff003fffffc00ffffff0;
   0xe0300000380c00000e0300000380c00000e0300000380c00000c6300000380c00000e0300000300c00000c4300000380c00000e0300000380c00000c0300000381c00000e0300000300c00000c0300000300c00;
   0xe0700000381c00000e0700000000000000e1f000003f9c0000046100000381e00000e0700000300c00000cf300000400600000e0700000381c0000040300000381c00000e770000031dc00000c070000031cc00;
   0xe0300003ffffe00002380000003c000007fffe0000000600000e330000031cc000008fa00000e0060000000000007ffffc001fffff800fffffc00000600000021c800000c0300000218800;
   0x3fffffc007ffffc000040500003ffffe0000f1e0000007f000007fffe0007fe57000000300000001c0000001fc00000fc0600007fffe0007ffffc001fffff800fffffc001fffff800001c00000040100007fffff0;
   0x3fffffc003ffffc000ffffe0003806000001c07000003e7800006aeae0003feff0000003000000038000000f8e000003f0600007fffe00000000c000061838002aaaac001fffff8000038000000e038000fffffe0;
   0x3000000070000c000fffff0001807000003803c0000fc1f00007060600075eff80003ffff0007ffffe0003f07c000007e600007000e00000001c000071c380000380c00000700000ffffff0000e038000ffffff0;
   0x3000000030000c000e06060001803800007fe9e0003e0cfc0006060600030ec180003ffff0007ffffe000f803f000000e600007060e00000000c0000618380000380c00000600000ffffff0000e0380000018000;
   0x30ffe00071ff8c000e06070001c01c0000fffff001fc1c3f8007fffe00070ec1c00018380000755556007f555fe000000600007070e0001fff9c000071c3800157d4c0007fffe000555d5500006038000001c000;
   0x30ffe00031ff8c000e06060001fc0f8001c02ff000e0380f0007fffe00030ee0e000183800006000060038fffbc00ffffff0007060e0001fff8c000061c38003fffec0007fffe0000018000000e0180003ffff80;
   0x30d5e00071d58c000e06070000fc07f001800010000555500007060600070e63f000f818c0007000060001fffc400ffffff0007070e0001c019c001871c38007fffec00000700000003c000000f07c0003ffffc0;
   0x30c0e00031818c000ffffe0000aaaae0002aaaa0001ffff80006060600030e6f7800d818e0006000060000c0180000038600007060e0000c018c001860c380030180c0000060000000f8000000f0fc0003abab80;
   0x30c0e00071818c000fffff0001ffff80007fffe0001ffff8000706060007ee7e3001d81c60000000000000c01c00000306000071f0e0001c018c001870e3800301c0c001fffffc0003fc000001f1fc000381c1c0;
   0x30c0e00031818c000e06060001ffff80007fffe0000e0000003fffffc003ee380001980c70000000000000c01800000706000071b0e0000fe18c001fe073800301c0e001fffff8000f98000001bbcc0003818180;
   0x30ffe00071ff8c000e06070001800180006000e000070000003fffffc0004e3800039c0e38000000000000fe1c00000e06000071b8400047e18e001fe07f800301c0e001807000001f1c000003bb8e000381c1c0;
   0x30ffe00031ff8c000e06060001800180006000e00003c3800006000600000e1c000318071c000000000002fe1800003c06000101bc0000c0018e0000001b800300e0e001806000001818000003190e0003818180;
   0x3055e00070018c000e06070001800180006000e00001ffc000070006001c0e0e00011c079000000000000e001c00007b060003019f0000e0018600000003800300706001c0700000001c0000071c07000381c1c0;
   0x3000e00030018c000e06060001800180006aaae000007e0000060006000c0e0780001c03c000ffffff000e00180003f3e60003018f8000e0038600000003800380786000e8600000001800000e0e038003f18180;
   0x3000400070000c000fffff0001ffff80007fffe00001f8000007f006000ffe07c0001d41f000ffffff0007fff8000fc3ff0003ff83f0007fff87003fffff8001d43c7000f8700000001c00007c0703c001f1c1c0;
   0x3f8000003f000c000ffffe0001ffff80007fffe00003e0000007e006000ffe01f0000fc078000000000007fff8000e003f0001ff80f8003fff03803fffff8001fc0f38002860000000180000380381e000018000;
   0x1f0000001f000c000e00070001800180006000e0000180000001e0060007fc00600007c018000000000001fff000000007000055001000000003000000000000fc06300000700000001c0000100100c00001c000;
   0x0;
   0x0;
   0x0;
   0x0;
   0x0;
   0x0;
   0x0;
   0x0;
   0x0;
   0xc0700000381c00000e0700000381c00000e0300000381c00000e0700000300c00000e0700000381c00000e0300000381c00000e0700000381c00000e0700000381c00000e0700000381c00000e0700000381c00;
   0xc0300000380c00000e0300000380c00000e0300000381c00000e0300000300c00000e0300000380c00000e0300000380c00000e0300000380c00000e0300000380c00000e0300000381c00000e0600000380c00;
   0x3fffffc00ffffff0000e070000ffffff003fffffc00ffffff003fffffc005755d5003fffffc0057d5d5003fffffc0057d5d50015f5754000381c0003fffffc00ffffff003fffffc00ffffff003fffffc00ffffff0].
Definition hanzi_rows_151 : list N :=
  [0x3fffffc00ffffff003fffffc00ffffff003fffffc00ffffff003fffffc00ffffff003fffffc00ffffff003fffffc00ffffff003fffffc00ffffff003fffffc00ffffff003fffffc00ffffff003fffffc00ffffff0;
   0x3fffffc000381c0003fffffc00ffffff0015f57540057d5d50015f575400ffffff0015f575400ffffff0015f575400ffffff003fffffc00ffffff0000e07000057d5d50015f57540057d5d5003fffffc00ffffff0;
   0xc0300000382c00000e0300000380c00000e0300000381c00000e0300000300c00000e0300000380c00000e3300000380c00000e0300000380c00000e0300000380c00000e0300000381c00000e0680000380c00;
   0xc67000000c3000000e0700000381c00000e0300000781d00000e070000031cc00000e670000039dc0000047100000399c00000e3700000381c0000040500000381c0000060700000381e00000e05c0000381c00;
   0x86200003ffffe0000e0b00000c00e0000fffff8000e00700002aaa800002188000000600000029880000aaeaa8000398c00000a3a0000028080001ffffe000380000000ffffe0000000e0000aaabc0000aaaa80;
   0x7060e0003ffffe000343d00001c0070001fffff8000e00700007fffc000001c0000155755400001c00001fffff800001800000003800007ffffe001fffff00018061c000fffff0007ffff0000ffffe0001ffff80;
   0x6060e00030c300000387800000c0070000aaeaa800ffffff0003aaac0001ffff8003fffffc00fff800001fffff800aabaaa003fffffc007ffffe00000006000180718000c00060007ffff8000eaaae0001ffff80;
   0x7060e00030c3000001df00000ffffb800070606000ffffff0007000c0001ffff8003fffffc00fffc0000180001800ffffff003fffffc00001c00000000070001c1e1c000c000700070003c000c00070001c00180;
   0x6060e0003aeba80000dc60000ffffb80003060e0000e00700003000c00018181800003fc000000180000180001800aabaaa000000e0000001e000002aaae0001c1c18000ffffe00070001c000c0aab8001800180;
   0x7060e0003ffffc0007e8770005d553c0003861c0000e00700007fffc000181c18000076c0000001c0000180001800001800000000e000001df000007ffff0001c381c000fffff00070555f000c1ffdc001ffff80;
   0x7fffe0002aebac000770660000c003e000186180000e00700003fffc0001818180000e6e0000001800003fffffc000018000000007000003df800006aaae0000c301800000e06000307ff7800e1aac8001ffff80;
   0x7fffe00000c30c000e38770001c043f0001c6380000e00700007000c000181c180001e6700001ffff8003fffffc0000180000055578000079bc0000600070000e101c00000c07000707ff3000e180c0001c00180;
   0x60000000c30c000e1c630000c0e3b000086100000ffff00003000c000ffffff0003c6380001ffff8002aaeaa8001ffff8000ffff80000f19e0000600060000e001800000c06000306030000e180c0001800180;
   0x1c06070007ffffe001c0f738001c1c38003fffffc000ffff00007000c000ffffff0007861c0001ffff8000006000001ffff8000ffffe0001e18700006000700007041c003fffff00070603000061ffc0001d55580;
   0xc06030007ffffe003807e38000c1838003fffffc000e00700003fffc000003c00000f060e00018001800000600000180038000e003f00038183c0007fffe0000f0618003ffffe00030603000061ffc0001ffff80;
   0x1c060700060c380003983f1c001c3838000006000000e00700007fffc000007e00001fffff80018001800000600000180038000e003fc0078181e0007ffff0001f87dc00003807000307ff00017c00c0001ffff80;
   0xc060300060c180003380e0c000c3038000006000000e00700003000c00000e7000039fffbe0018001800000600000180038000e003be003018040000000600039c3f800003806000307ff00033c00c0001800180;
   0x1c060700074c1c00011807c0001c1038000006000000e00700007000c00001c7c000300601c0018001800000600000180038000e0038c000018000000000700079f0fc003077070003055700030000c0001c00180;
   0xfffff0003ec0e00001807f0000c0038000006000000ffff00003000c0000781e000000600000180018000006000001aaab8000eaab80000008000000000600070783e0030e7e60003800300038000c0001aaab80;
   0x1fffff0001ec07c0001ffffc001d4038000006000000ffff0003fffffc007f00fc000006000001ffff8000007f00001ffff8000ffff8000ffffff001fffff000e03e0c003fc7ff0003d6000003ffffc0001ffff80;
   0xeaaaa00000c03e0000ffe38000fe038000006000000eaaf0003fffffc00fc003f000006000001ffff8000007f00001ffff8000ffff8000ffffff001ffffe000c00f00003f803f0001fc000001ffff80001aaab80;
   0x1c000000000c00400007fc000007c038000006000000e007000000000000f0000700000600000180018000003f0000180038000e003800000000000000000000400700001c00030000fc000000555500001c00180;
   0x0;
   0x0;
   0x0;
   0x0;
   0x0;
   0x0;
   0x0;
   0x0;
   0x0;
   0xe0700000181c00000e0700000381c00000e0700000381c00000e0700000381c00000e0700000381c00000e0700000381c00000c0300000381c0000060700000381c00000e0700000381c00000e0700000381c00;
   0xe0300000181c00000e0300000380c00000e0300000381c00000e0300000380c00000e0300000380c00000e0300000380c00000c0300000380c0000060600000380c00000e0300000380c00000e0300000380c00;
   0x3fffffc00ffffff003fffffc00ffffff003fffffc00ffffff0015f575400ffffff0015f575400ffffff003fffffc00ffffff003fffffc00ffffff003fffffc00ffffff003fffffc00ffffff003fffffc00ffffff0;
   0x3fffffc00ffffff003fffffc00ffffff003fffffc00ffffff003fffffc00ffffff003fffffc00ffffff003fffffc00ffffff003fffffc00ffffff003fffffc00ffffff003fffffc00ffffff003fffffc00ffffff0;
   0x15f5754000181c00015f5754000381c00015f575400ffffff003fffffc000381c0003fffffc000381c00015f575400ffffff003fffffc0057d5d50015757540057d5d50000e070000ffffff003fffffc00ffffff0;
   0xe0300000181c00000e030000038ec00000e0300000381c00000e2300000398c00000e0300000380c00000e0300000380c00000c0300000380c0000060600000380c00000e0300000380c00000e0300000380c00;
   0xe0700001ffff80000e0f0000000700000000000000381c00000e7f0000011d400000e0700000555540000e0700001d01c00000c630000010140000070d00000387c0000155550000381f00000e0700000fb9c00;
   0x3fffffc001ffff8000aa9f80000fff80001fffff8002aaaaa0000e7300000aaea00000e1800000ffffc000070380003ffe800000060000000c1800001e0c00002aa7e00003ffff0000280b0000000020001c38000;
   0x3fffffc001d5578001ffc7f8001fffc0001fffffc007ffffe00000e000000ffff00003f1c00000ffffc0000701c00007fff8003fffffc0000c1c00003c0e00007fe7fc0003ffff000000030000fff8f0007838000;
   0x38c0000180038001ff80f8000e00f0001800018007ffffe000aaeaa8000eaab0000381c00000780000000700c0000030b8003fffffc0000c180003fffffc007fe00c0001e0200007fe030000fff9e0002038000;
   0x38c00001ffff8001c1c0380007807c00180001c00601806001fffffc000c0730003fffffc0003e0000000700e000007018003fffffc0070c1cc003fffffc0070e70c000079f00007fefff000c03bc000fffffc0;
   0x38c00001ffff80018180380003c1de001bfffd800601806001fffff8000c0f30003fffffc0000f8000000700600000301800000600000f8c18c0000006000060e30c00003f8000060efff000c0390000fffffc0;
   0x1fffff8001c0038001c1c0380001f7c40003fffc00060180600180001c000ffc3000001cc000007ff00003fffe7000007018000006000003cdfcc0000007000070e70c00003f0000060ee30000c038180010301c0;
   0x1fffff800180038001819ff800007f00000380c000000180000180001800079030000218e00003f8ff8003fffe78007ffff8000aaeaa8000fdf8c0002aab000060e30c003fffffc0060ee38000c0383c0038300c0;
   0x1c38c38001ffff8001c1dff800003f00000381c00001ffffc00184001c0001003000071ce0000fc01ff00157547c007ffff8001fffff80007c1cc0007fff000070e70c003fffffc0060ee38000c039f0001c701c0;
   0x1838e38001ffff800181803800000fe0000380c00001ffff8001860618007ffff000039860000c0000f00007006c002aeab8000abfaa80000c18c0003aaf800060e30c001c0f8000060ee38000fe38e0000c600c0;
   0x1d7873800701838001c1c038003fffff000395d5000155d54000060700007ffff00001dc700001ffff80000700640000c01800003fc000000c1cc0001c1d800070e7cc001c0fc000060ee18000fc3900000e601c0;
   0x1ff83b800383838001818038003fffff0003bfff8000018000000e0380006000000000f8300001ffff80000700600001c018000076e000000c18c0000c39c00060e3fe000e0ee000060ee18000283b000007e00c0;
   0x1ff03f8001f7038001c1dc38003800e700037fff8000018000001c03800060000000007c380000018000000700600001cc180000e670000c0c1cc0000f70c00070e37f00070e7800060e61c000003b800003c00c0;
   0x18000b80007e038001f99ff8003800e0000300c00000018000003801c00067ffff00203e1c00000180000007006000038c180003c638000c0c18c00007e0e0007ee38e00038e3e00060e60c0030039c00081e00e0;
   0x1c000380001c038001f9dffc003800e0003701c00000018000007000e00067ffff00701f9e00000180000007006001c71d180007861f001c0dfcc00003c070007ee1c000000e0f80060e60c0070038e001c3f00e0;
   0x1aaaab8000f9e380002180f8003aaae0003700c0000aabaaa000e000f00060000000301bef00000180000007006000ce33f8003e060f800c0dffc0000ff8380000e0e000000e03e007fe60e00300387000c3be060;
   0x1fffff8007f1ff800001c000003fffe0003f01c0000ffffff001e0007800700000003ffdc7c00ffffff003fffe6000fe77fc003c0603c00ffc3ff0007e7f1e0000e07800000e01c007fe707003fff07800df1fc70;
   0x1aaaab800f803f8000018000003fffe0003e00c0000ffffff00380003c003f0000003ff801c00ffffff003fffe6000f86038001006008007f803f003f80f8c0000e03e00000fe000060e7e3803fff03800fe03e38;
   0x1c0003800f0001800001c000003800e0001c01c0000000000001000018001f0000000000000005555550015554600070000000000600000000003001c003000000e01c000007c000040e3c3000554010007800c30;
   0x0;
   0x0;
   0x0;
   0x0;
   0x0;
   0x0;
   0x0;
   0x0].
Definition hanzi_rows_152 : list N :=
  [0x0;
   0xc0300000380c00000e0700000381c00000e0700000381c00000e0700000381c00000c0300000381c00000e0700000381c00000e0700000381c00000e0700000381c00000e0700000301c00000e0700000381c00;
   0xc0300000380c00000e0700000380c00000e0300000380c00000e0300000380c00000c0300000380c00000e0700000380c00000e0300000381800000e0300000380c00000e0300000300c00000e0300000380c00;
   0x3fffffc00fff7ff003fffffc0057d5d5003fffffc00ffffff003fffffc00ffffff0015d575400ffffff003fffffc0057d5d5003fffffc00ffffff003fffffc00ffffff003fffffc00ffffff0015f575400ffffff0;
   0x3fffffc00ffe7ff003fffffc00ffffff003fffffc00ffffff003fffffc00ffffff003fffffc00ffffff003fffffc00ffffff003fffffc00ffffff003fffffc00ffffff003fffffc00ffffff003fffffc00ffffff0;
   0x3fffffc000380c00015f575400ffffff0015f5754000381c0003fffffc0057d5d5003fffffc000381c00015f575400ffffff0015f57540057d5d50015f57540057d5d50015f5754005755d5003fffffc000381c00;
   0xc0300000380c00000e0700000380c00000e030000039cc00000e0300000380c00000c2300000380c00000e0700000380c00000e0300000381800000e2300000382c00000e0300000300c00000e0300000380c00;
   0xce300000000000000e07c0000381c000006070000001c000000e0700000101400000c730000155554000040500000381c00000c67c00003c1c00000e7700000387c00000e0710000319c00000e6700000101400;
   0xf800007ffffe0000000c00000c0e0000fffff000aabaaa000080180007ffffe00008fa00003ffffc000fffff00000000c0000061c0000cc0e000000e00000000380000070038000018040000a6300007ffffc0;
   0x3fc00007ffffe001ffffe00001c070001fffff000ffffff0000001c0007fffff00003fc00003ffffc000fffff00055553e0005575c0001cc070003fffffc00ffffff0000e01f000001c0e000006000007ffffc0;
   0xf8e0000000000001ffffe000aaea70000c0003000ffffff001ff80c0000e0060000079e000030180c000c00030007fff78000ffffe00038c070003fffffc00ffffff0000e01e000fffc1c0007fffe00000300c0;
   0x7e07c0000ffff0001c0007000ffff38001c5553000018780001ffbffc000e00700001e4f800030180c000c00030007fff70000fffff00070c0380000c07000001c1c0007fffd8000fffe380007fffe00000700c0;
   0xf801f0000ffff0000c0003800ffff38000cfff30000381c000183bffc000eaae00007863e00030180c000c2aa300000c00000000603800aaeab80001e07800001c0e0003fffc0000600670000606060000aba8c0;
   0x3fffffc000d5570001c1ffdc00e1c33c001d55530000f00f0001c3b8e0000ffff0003f061fc0037ffec000c7fe300001c00700000603c00ffffbc0007803c00001c070007fffc1c0070c720000706060001fffcc0;
   0x11fff88000c0030000c1ffce00e0c33e000c00030001ffa78001839860000eaae0003c0603c0037ffec000c606300000c00f00000601000ffffbe000e000e00001c03800000303c0030c380000606060001aaacc0;
   0x157500000d5570001c1c0cc00e1c33f001c7fe30003ffffc001c39870000e00700017ffffc00301c0c000c606300001c03c003fffffc0001c03f803ce077c007fff3c0000030f00038c1c0000706060001c01cc0;
   0x6000000ffff0000c180c000e0c33b800c7fe300038cffc001839830000eaae00007fffe000303c0c000c606300000c018003fffffc0001e03b0018e0638007fff3e0000030400000e1200007fffe0001800cc0;
   0x6000000d5570000c1ffc000ffff3b001c606300010c380001c39c78000ffff00005575400030fc0c000c606300001c04000001fc000003e038000070e000055d53f0000031000001e0700007fffe0001c01cc0;
   0x7fffe0000c0030000c1ffc000ffff38000c606300000c380001838ef0000eaae00000861000031ce0c000c7fe300000c06000003ee0000036038000039c000001c0330000031000001e0380002aeaa0001fffcc0;
   0x7fffe0000d5570000c1c0c000e1c338001c606300000c180001c387c0000e00700001c63800033870c000c7fe300001c0700000f6f000007703800001f8000001c0300000033c00003f038000106000001fffcc0;
   0x6000000ffff0000c180c00020c338000c7fe3000c0c1c0001838f8000ee00600003861c0003703ec000c000300000c0380001e6380000e383800000f0000001c0300000031c00007381c0003860000000300c0;
   0x6000000ffff0000e1ffc00001c038001c7fe3001c0c1e0001ff9f8000ffffff0007061e0003601ec000c000300001c03c0007c61e0001e1c3800003fc000001c0300000030f0000f1c1e0007060000000700c0;
   0x600000000000000e1ffc00000c038000c0063000c0c0f0001ffb9c000bfffff000e060f00030000c000c000300000c01c001f060f8003c0e380000f9f800001c030000003070003c0e0e000fa60000000300c0;
   0x3fffffc00ffffff0007100c00001c038001c0063000ffc07c001ffb1f0000e005f001c0607c003ffffc000fffff000ffffce007c0607e00780f38001ff07f400ffffb0001fff03c00fc0787001fffffc007ffffc0;
   0x3fffffc00ffffff0007f00c00000c038000fc003000ffc01f00183807c000e0000000807c10003ffffc000fffff000ffff8600380601c00f003f8003f800fc00ffffb0001fff01800f003c2003bffff8007ffffc0;
   0x7f00000001c03800078003000550006001438018000e0000000007c000030000c000c0003000000004000006004004001b8001c0001c00000030000000008004001c0001800010000000000;
   0x0;
   0x0;
   0x0;
   0x0;
   0x0;
   0x0;
   0x0;
   0x0;
   0x0;
   0x60700000381c00000c0700000300c00000e0700000381c00000e0700000301c0000060700000381c00000e0700000381c00000e0700000381c00000c0300000381c00000e0700000381c00010018e0000381c00;
   0x60600000380c00000c0300000300c00000e0300000380c00000e0300000300c0000060600000380c00000e0300000380c00000e0300000380c00000c0300000380c00000e0300000380c00018018e0000380c00;
   0x3fffffc00ffffff003fffffc00ffffff003fffffc00ffffff003fffffc00ffffff003fffffc00ffffff003fffffc00ffffff003fffffc00ffffff003fffffc000381c0003fffffc00ffffff001815df400ffffff0;
   0x3fffffc00ffffff003fffffc00ffffff003fffffc00ffffff003fffffc00ffffff003fffffc00ffffff003fffffc00ffffff003fffffc00ffffff003fffffc00ffffff003fffffc00ffffff00189fffc00ffffff0;
   0x60700000381c00000c070000ffffff0000e0700000381c00000e070000ffffff0000607000057d5d50000e77000057d5d50000e0700000399c00000c030000ffffff0000e0700000381c00018dfffc000381c00;
   0x60600000380c00000c7300000318c00000e0300000380c00000e0b00000308c000006060000038cc00000e6300000380c00000e7300000398c00000c1b00000380c00000e0300000380c00018c18e000039cc00;
   0x40500001fff0c00004610000033cc00007f40000000701c001001c00000319c000007001000010d400007ffff00006006000004710000ffffff000041d00000381e00007fffe0000000600018c18e0000018000;
   0x1fffff8003fff3e003fffffc00003e000007fffe00030700c000fff800000018000000300380032aea80007ffff0000e00e0002aaeaa800ffffff002aaaea8003e00600007fffe0007ffc700018caaa800ffffff0;
   0x1fffff8001fff78003fffffc0000ff0000001ffe0007c701c001fffffc007ffffe0000300f0007bfff8000757d50000701c0003fffffc00001800003fffffc007fff70000755560007ffc380018dfffc00ffffff0;
   0x18020180003c0200001c03800003e380000003000000ff7fc000203ff8003ffffe0000301c0001ffff8000601c00002babe8003fffffc003ffffe002aaafa80003ff300006000600000001c0018cfffc00aaabaa0;
   0x18060180001f0000000f0700000781f00000038000003f7fc0007c7000001c1830003fffe80000f0c00000701f00007ffffc0000000c0003ffffe0000007000001c0380007fffe00000004f0018c38e0000101c00;
   0x180601800003e02000078e00003e00f8003fffffc00c0700c0003ee000000e1870003fffe0000078c000003f07e0003ffffc0000000c0003018000002aab800000c0380007fffe0000000e30018c38e0000380e00;
   0x600000ffff9f00003fc0001ffffff003fffffc00c0701c00107f000000718600000380fc00ffffff0003f01f0000301c0000ffffc000301800000fff9c00001c03c00070006000fffef00018c38e00001f4700;
   0x3fffffc00ffff3c00003fc0000e3ffcf000070e0000e07f8c00383ff80000318e00000f80fc00ffffff0000c00c0000300c0000ffffc0003ffffc0007aa0e00000c03e00060006000fffe700018c38e00010fff80;
   0x3fffffc006630100017ffff0000000010001e0780007ffffc001ff1ff8000318400001f80f400007c000000c01c0000301c0000555540003ffffc0003c00f000ffffff0007fffe0000c003c0018dfffc00387ff80;
   0x1f80000633800003fe03fc000000000003c03e0003fe8fc001fe00f000ffffff0003dc0e000000f80001ffdffc00abaaea0000820800000180c0000e00f800ffffbb0007fffe0000c003e0018dfffc001c1e000;
   0x3fc0000631c20001dc037c007fffff007fe07fc0000180400050000000ffffff00070e0e0000e07f0001ffdffc00ffffff0001871c0007ffffc0000600de00fffff9000006000000c003f0018c3860000f07c00;
   0x76e0000638c300000c0300007ffffe003ce063c00001800003fffffc00003e00000e0f0e0000f80fe0018e18c000ffffff0001861c0007ffffe003fffecc0000c038000006000000c003b0018c3860000783f80;
   0x1e670000618f300001c0300000107800010e070000ffffff003fffffc00007f00001c07ce00007fcff8018618c0000300c00001871c000603c00003fffec40001c038003fffffc000c00390018c38600003e07e0;
   0x3c63c00061c7b80000c0380000783c00000e070000ffffff0000306000000e780003801ee00020ffe70018618e0000300e00001860c000607e000000600c00000c038003fffffc000c00380018038600003f80c0;
   0x7861f00070e39c0001c0380000f01e00000e0700000018000000307000003c3c00010005f0007007e0001871c70000300700071870e0007ce7000000600c00001c038001557554000c0038001803870000ffe000;
   0x3e060780060600c0000c0380001e80700000e038000001800003030380000f81f00000003f8003000e0001831870000300780031860e0003fc3e00000600c00000c038000006000000c0038001803838001e0fc00;
   0x3c0603c0070780e0001c01c0003ffffc0000e01e0000018000035701f0007f007c007ffff1c003fffc0001c3dc3c0003003c003587078001f81fc0000600c0007fff38000006000000c0038001d0383c007c07fc0;
   0x1006008003e3c070000c00e0007bfff80000e00f800001800003ff00fc00f8001f003fffc0c003fffc0000f9ef9e0003001e003f8603e00fe003f00007e0c0007fff38000006000000fc038001f8381e00f000fe0;
   0x6000001e18060001c0060007000180000e007000001800001fc001c0040000700015400000000000000f8478c00030004001f0701c00f0000700007c0c0000000380000060000007c038001f0380c0060001e0;
   0x0;
   0x0;
   0x0;
   0x0].
Definition hanzi_rows_153 : list N :=
  [0x0;
   0x0;
   0x0;
   0x0;
   0x0;
   0xe0700000381c00000e0700000381c00000e0700000381c00000e0700000381c00000e0700000381c00000e0700000381c00000e0700000381c00000e0700000381c00000e0700000381c0000060700000381c00;
   0xe0300000380c00000e0300000380c00000e0300000380c00000e0300000380c00000e0300000380c00000e0300000380c00000e0300000380c00000e0300000380c00000e0300000380c0000060600000380c00;
   0x3fffffc00ffffff003fffffc00ffffff003fffffc00ffffff003fffffc00ffffff003fffffc00ffffff0000e07000057d5d5003fffffc00ffffff003fffffc00ffffff003fffffc00ffffff003fffffc00ffffff0;
   0x3fffffc00ffffff003fffffc00ffffff003fffffc00ffffff003fffffc00ffffff003fffffc00ffffff003fffffc00ffffff003fffffc00ffffff003fffffc00ffffff003fffffc00ffffff003fffffc00ffffff0;
   0xe0700000381c00000e0700000381c00015f77540057d5d50000e47000057d5d50015f57540057d5d5003fffffc00ffffff0000e07000057d5d50000e0700000381c0003fffffc0057d5d5001575754000381c00;
   0xe0300000fb8c00000e0300001380c00000ee300000380c00000e6300000380c00000e0300000380c00000e0300000380c00000e0300000380c00000e0300000380c00000e0300000380c0000060600000380c00;
   0x1c03000003e38000000f0700003ff40000004fd00000381c0003fffff8000381e00000381c0001801600000e0700000381c0001ffc7f800010140000ffffe0001555500000e070000010140000040500007ffffe0;
   0x1867fe0003838000000381c0000ffffe00003fc0000018086003fffff8000000e00000380c000180070000000080003ffffe001ffcff8000303ff000ffffe0001ffff800000000000fffffe001fffff8007ffffe0;
   0x1c61ff800fffffe0000701c0000c5ffe000079f00000181de00000600000ffff7000155c0e0001800700000001c0007ffffe001d5c618000307ff000f555e0001ffffc001fffffc00ffffff001fffff8006007060;
   0x186032800fffffe0000700e0000c0c100001e0780000180fc00000600000ffff30001ffc46000baaa38001ffe0e0007aaaaa00180c61800030380000e000e000180000001fffff800e00806001800018006007060;
   0x1c6070000003800003fffe60000e1c38000fc03f000e19878001fffff800380038001ffce7000ffff1c001fff470003070c0001c0c318000301e0000e000e0001ffff800180001c00e0186700180e018003ffffc0;
   0x1860300003ffff8003fffe7000063870007fffffe00619838001fffff80038001c00180e6b800fffb8e0000c0e38003873e0001ffc398003b3070000ffffe0001ffff800180e01800e0187600180e018003ffffc0;
   0x1c67ffc003ffffc000601078000736e0003cfff3c00719c7e0018000180039ff1e0018073fc001801ff0000c07fc00107700001ffc1d800333870000ffffe0001c000000180601c003ffff000040e000000001c00;
   0x1867ffc003038180006038780002072000200600c00318c6f0019fff980039ff1f00181b1fc001820ff0000c03fc0000323c001aac39800333a70000aeaae0001ffff8000606180003ffff8000e0eff8000030e00;
   0x1c607800030381c00070307c0055575500000600000398ee70019fff980039871f8018381c0001870710000c01c400007078001c0c71800731bfc0000c0060001ffffc0007071c00000181c00071eff8000030700;
   0x1860f80003ffff800030306e00ffffff001fffff8001b86e00000f80000039831b0018300e00018e0380000c00e0000030e000180ce1800631bff0001c1c600006000000038f0e00000180e00039e600000abab80;
   0x1c61fc0003ffffc00030706400ffffff001fffff80013c4f000001e00000398719001c70f700018c7dc0000c077000ffffff001ffcc1800631c7f0001cfe70000700000001df060000018000001fe700001ffff80;
   0x1863be000303818000386060000380c00000060000006c0f8000006000003983180018e0ffc0018c3fe0000c07f800ffffff001ffcc1800e30c700003be07000ffffff0000df87000aabaaa0000fe300000abab00;
   0x1c677700030381c0003870600003c0e00000c61800006e0fe003fffffc0039ff18001cc01fc0019c07e0000c01fc00ffffff001ffee1800c30e7000073c07001ffffff000039c2000ffffff0000ee380000030000;
   0x1862338003ffff80001860600001e3f00001c6180000ee0e7003fffffc0039ff18001c00000001880020000c000800001e0000180ef9800c30670000e00138000600e0000070e0000aabaaa0001ce1c000aabaaa0;
   0x1c0073c003ffffc0001c60600000ffc00003861e0001c70e200000600000380718001c01c00001807000000c04000003ef00001c077d800430470003c01f9c000701c00001f0f00000018000007ce0f000ffffff0;
   0x180031c003038180000c60600007fe000007060e00038386000000600000380218000c00ff8001807f8003ffffe0000f87800018070180003007000380fe0e000603800003e07c000001800000f0e07800aabaaa0;
   0x1c007080030381c007ffff60007fdff4000e0607801f01e70000006000003d4018000f407fc001801ff007fffffc007f01fc001c038180003d07e00107f00c00075300007f801fc00001800003e0f43c000030000;
   0x1f80300003f3818003ffff60007c03ff001c07e3800e00f7e000007e00003f8018000fc002c001f800f002aaa83c007800ff001fc3c180003f03c0000f80000007f000003e000fc00001800001807e08000030000;
   0xf80700001f381c0000000600030001e000007e1000c0063c000007e00001f80180007c0000001f00000000000000060001e000fc18180001f01c0000400000001e00000100001c00001800000007e00000030000;
   0x0;
   0x0;
   0x0;
   0x0;
   0x0;
   0x0;
   0x0;
   0x0;
   0x0;
   0xc0300000301c00000c0700000381c00000c0300000381c00000c0700000381c00000e0700000380c00000e0700000301c00000e0700000381c00000e0700000381c00000e0700000301c00000e0700000381c00;
   0xc0300000300c00000c0300000380c00000c0300000380c00000c0300000380c00000e0300000380c00000e0300000300c00000e0300000380c00000e0700000380c00000e0300000300c00000e0300000380c00;
   0x3fffffc00ffffff003fffffc00ffffff003fffffc00ffffff003fffffc00ffffff003fffffc00ffffff003fffffc00ffffff003fffffc0057d5d5003fffffc00ffffff003fffffc00ffffff003fffffc00ffffff0;
   0x3fffffc00ffffff003fffffc00ffffff003fffffc00ffffff003fffffc00ffffff003fffffc00ffffff003fffffc00ffffff003fffffc00ffffff003fffffc00ffffff003fffffc00ffffff003fffffc00ffffff0;
   0x3fffffc000301c00015d5754000381c00000c030000ffffff0000c0700000381c00000e0700000380c00000e070000031dc00015f575400ffffff0000e0700000381c0003fffffc000301c00015f57540057d5d50;
   0xce300000300c00000c03000003b0c00000c6300000380c00000c03000003a0c00000e030000039cc0000380300000318c00000e0300000380c00000e0700000380c00000e3300000300f00000e0300000380c00;
   0xc73000005555000074000000007007000006000000391c00007fffe0000cefc00007f4000000018000007ffff0000018000001e67000003e1f0000f00100001ffff80000e770000fffff00000e07000003c1c40;
   0x1f800000ffff80006007f8007fff8e000006000000030380007fffe0001ceffe000fffff8001ffff800003fff0007ffffe0003861800000e070001ffa3f8001ffff800000600000fffff80003fffc00000c01e0;
   0x79e00001ffff80007007f8007fff9c001fffff8000030380006000600078e1ff000617ff0001ffff8000006000007fffff000386180000061700007ffbfc001c0c00000fffff00055555c0007fffc00000c07c0;
   0xf0f80000c003800060061800001c38001fffff800fff8380006000600070e0e20007030c000180038002aaeaa8006000060001861c0000061b8000063980001c0e00000fffff00000000e0003000c0001ccc700;
   0x7c07c0001c0038003fff61800019c100007061c0007ff8380007fffe00020c0e00003870c000180038003fffffc006000070001c61c000fff1980000600c001ffffff0001c0300001ffff70007000c00038cc200;
   0x3faaaf8000ffff8003fff61800018e0000038618000701dff0007fffe000aaeaea0001ce180001ffff8002abfaa8006ffff60003c63e000fff19c0000600e000ffffff0000e0300001ffff30003000c00038ce020;
   0x3cfff7c001ffff8000700618007fff1f0001c63800031cdff00060006000ffffff0001fffe0001ffff8000076f00000ffff0000fe67700038799c001fff870001c070000006070000181c720007fffc00070c60f0;
   0xaaa0c000018000006046b8007fff1f0000c63800038ce380006aaae000ffffff0003fffe0001800380003e678000000000001e66e380038799e001fffbf8001eaba8002aeaaa8001878300003fffc000e0c71e0;
   0x30000000180000070e7f800018018003fffffc0019c6380007fffe00071c0e00001f554000180038001f861f000000000003c7ee3c00187d9f0015753f8001ffffc003fffffc005d757500000000000e0c71c0;
   0x7030e0007ffffe00060c6b800018018003fffffc0001c0380002aeaa0003980e0000078000001ffff8003e2aabe00ffffff001836418001cef9b800060308000001c0003fffffc00ffffff00000000000f8c3800;
   0x7070c0007ffffe00071c6180055d51800155fd540001c038000007000001ddfe000001e000007ffff800107fffc00ffffff000fffff0000cc599000060398000000e000000600000ffffff000fffff0001cc1000;
   0x3861c000601c0e00063861800ffff9800003fc000003e038003fffffc001d9ffe003fffffc00f8383800003ae800000c380000ffffe0000fc1980000601b8003ffff000000600000181e30000fffff0001cc0200;
   0x18e18000707e0e00073061800ffff98000076f000003e1f8003fffffc000f81ff003fffffc003e7038000ff06000000c180000fffff000078198003fffdf0003ffffc001fffff0001c7830000e00070000e00700;
   0x1cc3800061e78e000600618000180180000e6780000773f800001f800000780e3000006000000fe038000ff87000000c18000000600000078198003fffcf00038007e000fffff0001c6038000e00030000700380;
   0xc43000077c3ee0007007f80001807c0007c63c0000e787f000039c0001c7c0e00000060000003c03800060078000c0c1c0000006000000fc1980000001e00038006f001557550007ffff8000e000700007c01c0;
   0xe0000006200ee0006007f8000180fe000f860f0001c3c0f0000f0f000087e0e0000006000000fbe380006003c000c0c0e0000006000003ee1980000003f000380062000006000007ffff8000e000300001f00e0;
   0x3fffffc0074000e00070001801fd5fc7007e0607c007c1f01001fe07f000de7ce000000600001ff3ff80007001f000ffc07c003fffffc007c7c18007fffff8003fffe0000006000000c0000000fffff00000ff0f0;
   0x3fffffc007e000e0007e001800ffff8300380601c00f00780003f801fc00fc3cfc000007e0000f803f80007fc07c00ffc03f003fffffc00f03e18003fffe1e003fffe0000006000000fe000000fffff000003f860;
   0x3c000e0003e0000005ffc0100000600000c00100003c0001c00780c7c000007e00004000180003fc018007f000700000000000c00c18003ffc00c003800600000060000007c000000e00070000007020].
Definition hanzi_rows_154 : list N :=
  [0x0;
   0x0;
   0x0;
   0x0;
   0x0;
   0x0;
   0x0;
   0x0;
   0x0;
   0xe0700000381c00000e0700000381c00000e0300000381c00000c0700000381c0000060700000301c00000e0700000381c00000e0300000381c00000e0700000381c00000e0700000381c00000e0700000381c00;
   0xe0300000380c00000e0300000380c00000e0300000380c00000c0300000380c0000060300000300c00000e0300000380c00000e0300000380c00000e0300000380c00000e0300000380c00000e0300000381800;
   0x3fffffc00ffffff003fffffc00ffffff003fffffc00ffffff003fffffc00ffffff003fffffc00ffffff003fffffc00ffffff003fffffc00ffffff003fffffc00ffffff003fffffc00ffffff003fffffc00ffffff0;
   0x3fffffc00ffffff003fffffc00ffffff003fffffc00ffffff003fffffc00ffffff003fffffc00ffffff003fffffc00ffffff003fffffc00ffffff003fffffc00ffffff003fffffc00ffffff003fffffc00ffffff0;
   0x15f5754000381c00000e0700000381c00000e6300000381c00015d5754000381c0001575754000301c00000e0700000391c00000e0300000381c00000e0700000381c00000e07000057d5d50000e07000057d5d50;
   0xe0300000280800000e0300000380c00000ef300000380c00000c0380000aaaa800006030000031cc00000e0300000218800000e3300000380c00000e3300000380c00000e0300000380c00000e0300000381800;
   0x40540000ffff0001ffcff0000381c400001f800001555540000c05c0001ffffc000060740000018000000301c0007ffffc000007000006001c00001e700000030070001fffff800010140000130138000101440;
   0x3080c0000ffff0001ffcff000aaaa8e000039c00003ffffc0000000c0000c00000000c00c0007ffffe0000381c0002abaa8003fffff8006000c00007c380000030030001fffff8007ffffe0007303f0000d818e0;
   0x3181c0000c0030001d5cd7000fffffc0000f0f00007ffffc001ffffe0001c00000001c00c0007ffffe0015581c000155d50003fffffc0061bfff003fffffc00fffc38001807018007fffff000e301f0001dc1fc0;
   0x7180c0000ffff0001c0cc3000baaab00003e27800031800c001ffffe0000ffff80000c00e000600006001ffcff8003ffff80038000880061bfff003fffffc00fffc18001aaba9800600006000c300e0003980f80;
   0x61cffc000ffff0001d4cc3000380000001f871f00073ffcc001c03870001d5550003fffffc006ffff6001ffcff800155d5400380019c006181c0000070e000003039c001bfffd800600007003fffdf00071c07c0;
   0xe0cffc000c0030000f8cff000380003003e0e0fc00303fcc001ce38f8000c0000003ffeffc006ffff600180ee1800001800003aa8188006180c00000e07000063198e0003aaac0006aaaae003fffdb800abaa7e0;
   0x1c0e1c0000ffff000050cff00039ff0f00380c01c0070180c001c739de00ffffff0001c0c70000e0070001807e1800ffffff000ffbfc00061bffe0003c07c0007319ff000303cc0001ffff8003fffd9c00ffff670;
   0x38e71e0000ffff0000aacc300039ff1e0003fffe00032baac001c33b8800ffffff0000c0e30000e003000183be1800aaaaaa000ebbfe00061baee000f801f8006318ee00030f0c0000abaa800003838000fffee00;
   0x7867be000000000001ffcc300039871c0003fffe00077fffc001c3bb00001818180001c0e30000ffff0001872e18001ffff8000c1b8700061b9c6003ee077c007318700003ec0c0000018000000783c00001c0e00;
   0x20736e0003ffffc001abcc38003983000003800000032beac000dffff0001c1838000ae8638000ffff0001860ff8001ffff8000c198380061b8c60010e060c006318380000a00c0000018000000783e00003c0f00;
   0x370ff0007ffffc001c7cff0003987000001c10000070ff0c001dffff0000f1870001ffc71800000070001ce0ff8001c0038000c19ddc0061bfc60015f575400775bdc001ffffc0001ffff800007c3700003c0fc0;
   0x338cf80030000c000cecff80039ab300000c78000031db8c000c07c000003f8e0001ffc378000000300018c0e18001ffff8000e98fcc00619ee6003fffffc007ffbff001ffffc0001ffff800006c3b80007e0ce0;
   0x7185dc0075555c000eccc380039ff300002cf700007399cc001c1fe000001ff4000180c3f0001ffff0001c40e18001ffff8000798f00006181f0003fffffc007ff97f00180000000175d5000106e31e000660c78;
   0xe1c0dc003ffffc0007ccc180038ab3800070c660003718fc000c3bf000003dbe000180c3c0001ffff0001c00e1800180038000018700006087f00000e0300000300000018000000007180000306e38c000e70c30;
   0xc0c1cc0075555c00078cc180038071c000e407700076186c000c73bc0001f19fc00180cfc0001c0070001c00e18001ffff800301878000601fdc0000e0380004303000019ffffc001e1800007067380001c78c00;
   0x1fee0c00030000c000f8cc180038000c001cc06380030000c000e638e000fe183f001aadee000180030000c00ff8001aaab80030183c0006038ce0000e03c000c303fe0018ffffc000c1800003063980003838e00;
   0x1fff1c0007ffffc001ffcd1c003d000e0038d571c007ffffc000e038780070180e001ffdc78001ffff0000fe0ff8001c0038003ff81f0006031c70000e01f000c301ff001c0000000ffffff003fe1fd000781e700;
   0x383e0c0003ffffc0038fcf8e003f80070030ffe0c003ffffc000fe383000001f80001ffc83c001ffff0000fc0018001f8038003ff8078007e00c30000e007800ff000b000fc000000ffffff003fe0ef800e00f7e0;
   0x10001c00070000c00103c78c001f800600007fc000070000c0007c380000001f0000180c018001c00700007c0010000f8038001ff0018007c01c10000e0030007e00000007c0000000000000005004700040073c0;
   0x0;
   0x0;
   0x0;
   0x0;
   0x0;
   0x0;
   0x0;
   0x0;
   0x0;
   0xe0700000381c00000e0700000381c00000e0700000381c00000e0700000381c00000e0700000381c00000e0700000381c00000c0300000381c00000e0700000381c00000e0700000380c00000e0700000381c00;
   0xe0300000380c00000e0300000380c00000e0600000380c00000e0300000380c00000e0300000380c00000e0300000380c00000c0300000380c00000e0300000380c00000e0300000380c00000e0300000381c00;
   0x3fffffc00ffffff003fffffc00ffffff003fffffc00ffffff003fffffc00ffffff003fffffc00ffffff003fffffc00ffffff003fffffc00ffffff003fffffc00ffffff003fffffc00ffffff003fffffc00ffffff0;
   0x3fffffc00ffffff003fffffc00ffffff003fffffc00ffffff003fffffc00ffffff003fffffc00ffffff003fffffc00ffffff003fffffc00ffffff003fffffc00ffffff003fffffc00ffffff003fffffc00ffffff0;
   0xe6700000395c00000e07000057d5d50000e0700000381c00000e0700000381c00000e0700000381c00000e4700000381c00015d5754000381c00015f5754000381c00000e0700000380c00000e0700000381c00;
   0x8620000039cc00000e03c000038cc00001a0380000380c00000e6300000380c00000e0300000380c00000e6300000380c00000c730000039cc00000e0300000380c00000e0300000383c00000e0300000b81c00;
   0x1fffff800155d500000000c000011d40000180180000000700006071800015554c0001c01c00000c3000007fffe0007c015500000600000001800001c001c00007fff00000700380000d5c000031c0c0003ffc000;
   0x1fffff8001ffff8001ffffe0007ffffe001fffff8007ff060000706180003ffe3e0000c01800000c3000007fffe000ffe3ff001fffff8007ffffe001fe01800007ffe00000600f80001ffc000071c0c0000ffffe0;
   0x557540001ffff8001fffff0007ffffe001fffff8007ffff00007871c0003ffe780001e15d400ffc3ff000006000001ffdff001fffff8007ffffe0007fc1c00003c000003fffde00001d5f0000e1c0c000105ffe0;
   0x7fffe0001818180018003380000008000018018000706fe000018f0e000380e60000363ffc00ffc3ff0000060000019b8c0001800038000600e000000c1800060f006003fffc800000e070002eaeffc00380e080;
   0x706000001ffff8001c003bc000301c00001801800070e0700001ff87000380e40000773ffc0055c355003fffffc00199cf0001c00038000700c000000dffc00747846001870c00001ffffc003fffffc00381c1c0;
   0x3eaeaa8001ffff80018fff9c000380c00001fff800030c0600003f1c0000380e02000e380600000c300003fffffc00399830000000000000301c000000dffc006e18e6001860c0c001ffffe002aaeae8001818380;
   0x3fffffc00181c18001cfffcc0003c1e00001fff800030dfff000fc4f00003ffe0f001c1c0600000c3000001f0f0000319c30003fffffc000181c0003ffc1c0007799c6001870c3c001d5d7f00000c0c0001c18300;
   0x60600000180c180018018e0000fe3f00001801800039dfff001e063f8003ffe3e00786efe0007fc3fe0007e07c000319fb0003fffffc00ffffff003ffc3e00061fb86000fffc780018183a000ffc0c0000e08300;
   0x7ffff0001ffff8001c01840001e77380001fff800019dfff001c071fc00380e180031f7fe0007fc3fe001f039f800319ffc00000070000ffffff00175c7e000707d06000fffc6000181838001ffc4c0000418100;
   0x7fffe0001ffff8001dffff800383a1e0001fff80001f806000060718800380e00000380c600000c300001801c3800318cff0000003800000000000030cfe00060fe06000e06c0000181838000c1e7c000aabaaa0;
   0x1c000000c780001dffff80010180c000180180001f066c00070f1c000380e60000700c700000c3000013fff1000319c3f000ffffc0001ffff800070ddf00073df8600070ec40001ffff8000e1e7fc00ffffff0;
   0x3fffffc0000c1e0000c0180000aabaaa000180180000f0e6e00038f8e0003ffe60000200c300000c3000001aab8000318c30000ffffe0001ffff800030e9b8006719e600070cc40001ffff800063e0fc00aafeaa0;
   0x3fffffc0055d5f5001c618e000ffffff003fffffc00070c660001df870003ffe70000008c3001ffc3ff0001e07f00077cc30000fffff0001d557800070e9dc007f187600039ce6000077e000007770c40001ff800;
   0x1c038000ffffff000c618e000ffffff003fffffc000f8c660000b9c3800380e38000038c3000ffc3ff000070e780066ce30000e001b8001c003800030618e00641e260001f8e60000e67000003e30c00003dbc00;
   0xf1fc000ffffff001c618e0000018000000f0f00001fdc67000071e1000380e1c0001f8c380000c30000003fc10006cc630000e0019c001c00380007061cc00701e060001f0670005c77800001c38c0000f99f00].
Definition hanzi_rows_155 : list N :=
  [0x7fe000000c000000c7ffe0000018000003e07800039e0630000e0f8000380e0c0003e0c180000c30000001f80000eee630000e00188001c0038000306184006000060003f873800c863e00003e18c0003e187c0;
   0x3ffd000000c000000c7ffe000001800000f801f000f0f062001fc03f001ffffce000f00f5c0000c3000007fffd000cff730000ffff80001ffff80007071c0007ffffe001f9f71c00d570fc001f7dcc001fc181f8;
   0x1fc3ffc0000c000000fc000000001800003e000fc00e03878003f800fc00ffffc6000e0078e0000c300003fe07fc00c8e3be000ffff80001ffff8000303980007ffffe003e0ff9c00ffe03f003e3eef800e0180f0;
   0x1e007f80000c0000007c000000001800001c0001800401078003c0001c00555544000c0078c0000c300001d0007c0048011e000e00180001c00380007011c000700000001001908007fc00f001804478000018000;
   0x0;
   0x0;
   0x0;
   0x0;
   0x0;
   0x0;
   0x0;
   0x0;
   0x0;
   0xe0700000300c00000e0700000381c00000e0700000381c00000c0300000381c00000e0300000381c00000c0700000300c0000060700000381c00000e0700000381c00000e0300000381c00000e0700000381c00;
   0xe0300000300c00000e0300000380c00000e0300000381c00000c0300000380c00000e0300000381c00000c0300000300c0000060700000380c00000e0300000380c00000e0300000380c00000e0300000380c00;
   0x3fffffc00ffffff003fffffc00ffffff003fffffc00ffffff003fffffc00ffffff003fffffc00ffffff003fffffc00ffffff003fffffc00ffffff003fffffc00ffffff003fffffc00ffffff003fffffc00ffffff0;
   0x3fffffc00ffffff003fffffc00ffffff003fffffc00ffffff003fffffc00ffffff003fffffc00ffffff003fffffc00ffffff003fffffc00ffffff003fffffc00ffffff003fffffc00ffffff003fffffc00ffffff0;
   0x15f5754000300c00000e0700000399c00000e0700000381c00000c0300000381c00015f5754000381c00000c0700000300c00000607000057d5d50000e1700000381c00000e0300000381c00015f57540057d5d50;
   0xe2300000318c00000e630000039cc00000e0300000381c0000086300000380c00000e0300000381c00000c7300000300c0000060700000380c00000e3b00000380e00000e0b00000f80c00000e0300000380c00;
   0x70000000198000000600000555d540000e07000001c054000fffff00055555500155555000555554000006000007ffffe0000c01c000000030000001c0000013960000001c00001ffffc000000010000381c00;
   0xfffff0003fdbe0003fffffc007ffffe0000c0f80000380fe000ffffe000ffffff001fffff8007ffffe001fffff8007ffffc0000c00c0007ffc30003fffffc000030600001ffe000000bffc001fffc78007ff0000;
   0xfffff0003fd9fc003fffffc007ffffe0000c07fc007ffefe000e0600000ffffff001fffff8007fffff001fffff80075d75e0000c01c0007ffc30003fffffc005575700003fff0000001800001fffdf0007ff3fe0;
   0xc000300030180c000006000006000060000c00fc007ffee6000e0600000e00f07001800018006018060018000180060c30e003fc0ff8003839ff000070700007ffff80001c038000ffffff0008700c0006033fe0;
   0xc000700030180c000006000006ffff60038cc1c000183866003fffffc00e3c7c70019fff98006018070018000180075d75e003fc0ffc001cf1ff0001e0780007ffffc0001e01f000ffffff001c71c80007073060;
   0xfffff000301aac000fffff0002aaaa20038cc0c000187066002eaeaa800e3e1e70019fff9800201802001aaaa98007ffffe0000c0cc8000fe0300003c01c00000603c0000700f80000ff80000c71808006033060;
   0xfffff0003fdbfc001fffff000055550001cc7ffc000c7076000e060000000fff8000180180001ffff80013fffd0007ffffe0000c0ddc001fe030001fffff00000703e000079c3c0007d9e0000c7383c007ff3fe0;
   0x30003a9aac000c60e30000ffff0000ce6ffc00fffe66000fffff000063ff0000180180001abab80002aea80000007000000c0cc801fefe30007efff3e003fffff000ffbf8800fe18fc000673078007ff3fe0;
   0x1fffff00030180c001c30c30000e0070000ce71c000fffee6000fffff0000e0f800001fff80001c1818000006000001fffc0001ffeddc00f39ff000380001c003ffffb000ffc7f000f81f1f000777070007073560;
   0x1ffffb00030180c000cbba30000e0030000ee31e0000006c6000e06060001c03e00001fff8000181818000006180001fffe0001ffecc8000382fe000aaaaa000006038000ea807000000702000272000006033060;
   0x1d775b0003ffffc001dfff30000ffff00001e37f0000007c6000e26460003ffffc000000000001d5d580007fe1c0001d557c00180eddc007ffc3f000fffff000007038000c0007000ffffff003ffff00007573060;
   0x18631b0003ffffc000c06030000eaab00001e0ef0000006c6000e76e60007bfffc0007fffe0001ffff80007fe0c0000e00be00180ecc8003ffc33000aaeaa0003ffff8000ea8af000ffffff003fffe80007ff3ae0;
   0x1ffffb000003c00001d57530000e00700001b0df8000007d6000e666600060381c0007fffe000155d500005561c0000703c400180eddc000380300000c6180003ffff8000ff9ff0000701c00000701c0007ff3fe0;
   0x1ffffb800007e00000dfffb0000ffff00003380d8000006f6000ee6660000338e0000600060000e18000000063e00003cf8000180ecc800abaa300001c618000006038000ea8af0000383e00000700e000603bfe0;
   0x1d775980001e780001d57530000ffff000071c1de00000776000ec6770001f38f0000600060001c18000000067700001fe0000180efdc00fffe300007861e000007038000c000700001dff000007007000701c060;
   0x18631980003c3e0000c0603000000000000e0e0cc00000306000ec6330003c3838000600060003a1800000007e7000003e00001ffeec800abaa300007060f000aaeab8000c000700003fe0000007003800601c020;
   0x1c6319c007f01fc001f8603000ffffff001c0f1c000000306000e463b80078381f0007fffe0007fffff007fffc3c00001ff0001ffe1c000038034001e0607c00fffff8000fffff0001fffc000007003c00740f000;
   0x1f6318e00fe003f000f8603000ffffff0038038c000000386000e0603c00603f8e0007fffe000effffe003ffe01c000003fe00180e0c00003803e000407e1800aaaab8000fffff000fe0ffe000070018007e07800;
   0xf0018400f00007000704030000000000030011c000000106000e0601000001f00000600060006000140015400080000001e00180e1c00003801e000007c0000000038000c000700070007e000070000003e03000;
   0x0;
   0x0;
   0x0;
   0x0;
   0x0;
   0x0;
   0x0;
   0x0;
   0x0;
   0xe0700000381c00000e0700000381c00000e0700000381c00000e0700000381c00000e0700000381c0000060700000381c00000e0700000381c00000e0700000381c00000e0700000381c00000e0700000381c00;
   0xe0300000381800000e0300000380c00000e0300000380c00000e0300000380c00000e0300000380c0000060600000380c00000e0300000380c00000e0300000380c00000e0300000380c00000e0300000380c00;
   0x3fffffc00ffffff003fffffc00ffffff003fffffc00ffffff003fffffc00ffffff003fffffc00ffffff003fffffc00ffffff003fffffc00ffffff003fffffc00ffffff003fffffc00ffffff003fffffc00ffffff0;
   0x3fffffc00ffffff003fffffc00ffffff003fffffc00ffffff003fffffc00ffffff003fffffc00ffffff002aeaea800ffffff003fffffc00ffffff003fffffc00ffffff003fffffc00ffffff003fffffc00ffffff0;
   0xe0700000381c00000e0700000381c00000e0700000381c00000e0700000381c00000e0700000381c0000060700000381c00000e0700000381c00015f5754000381c00000e0700000381c00000e0700000381c00;
   0xa03800003b1a00000e0300000380800000e0300000380c00007fea00000380f00000e0380000aaaa8000180180000380c00000e1b0000039cc00000e0300000380c00000f0380000380e00000ec300000000000;
   0xffff8000023870001ffdff000fffffe001550180000381f00007ffff000000030001ffd5d0001ffff8001fffff8000381f0001c01800000018000000e0700003800600000301c0003fff6000000c070003fe7fc0;
   0xffffc000071c70000ff9ff800fffffe001ff8180007ff830000006000007ffff8001fffff8001c0038001fffff8007ff060000effff000fffffe00030e03000380060000fffce0003ffe70000ffe0f00030660c0;
   0xc738e0001e0e30001d55ff800306070001ff8180007ff830003fffffc007ffffc0018615d4001d55780015d55d0007ff0700007ffff000ffffff00030e0f800380fff000fffc7000380770001fff1c00030661c0;
   0xe31870003fff38000c01838003e6ff800181bffc006319fe003fffffc0060e61c001860180001ffff8000180180006030600003c180000e0000600030e1e000380ffe000c3003800380638000e07980003ae6ac0;
   0xe39fbc007fff9c001c01838001fed5e001c1bffc006319fe0000060000061c60e001c71ff8001c00380001fff80006037ff0001f180000e3c7c7001fffdc001fff574007ffff9c0038071c00070fc00003fe7fc0;
   0xe1ff980022181c000ffdff80003e63f001ff8180006319860007fffe00063ffff001870ba8001c0038000180180006037ff003fffffc002f81e2001fffc0000fff060003ffffc8003ffe1c0003fce0c000000000;
   0xe7f700001f1e1e001ffdff800c067f2001ff8180006319860007fffe000615757001c38180001ffff80001d5580007ff070003fffffc007e107c00030e01c00380575000c300c0003fff1e0001f867c001ffffc0;
   0x67e380003c2f1f00000003800c0e1e0001818180006319860006060600060aea8000ebfff8000000c00001fff80007ff0f000000f8000031981e00030e03c00386fff000c300e00000c01f0001f80f8001ffff80;
   0x7671e0007073df80055403800ffc0fc001c195d0007759fe0007fffe00071fff8000f9fffc005555e00001d5580006031f8000003f0000079c0400030e0f00038ffff000fffc700000c01f800fff060000000000;
   0x7c38e00028399b003ffcab8003f803e001819ff8007ff9fe00060606000618618000006180007ffff0000180180006033f8000ffffc000021c0000030e0e00038c060000aba87800ffffdb003f0fe0000ffffff0;
   0x3c3040001ffc18001ffdff8000381c6001ff9ff8007ff9fe0007575600071fff800000700000755578003fffffc0060377c000fffffc00ffffff003ffff400039c06000003007e00ffffd8003d55e8000ffffff0].
Definition hanzi_rows_156 : list N :=
  [0x7300000eae18000c38ab800038180001ff9818002019860007fffe00061fff8003fffffc0060383c003fffffc007ff66e000e003fc00ffffff003ffff8000398fff001fffc6c00abea98002fffb80000000600;
   0x70e770000e1f98000e7003800ffffff001c1dc180000198600000600000718618003fffffc0070fc3f0000f7060007ff276000f5579c00007e000015557c0003b8fff001fffc640007f018000fff9c0001ffff00;
   0xe1c33000073bd80007e003800ffffff00181d81800c01986000fffff00071aeb800000f8000033ee378001e386000603067000ffff800000660000038e1c000380060000030060000ef818000c038e0000ffff00;
   0x1dc87300003f1980003e1ff8000381c0001c1dff801c019fe000fffff00071fff8000039c00007787f3000381e6000603073000e003800001e7800007870f000381060003ffff60001cde18000c03870001c00000;
   0x18c03380003f0180003e1ff8000380e000180fff800c019fe000006000003186180000f0e000033fff0000300e6000603060000e003800003c3e0000e0387000381fe0003fffe600038cf18000c03838000c00000;
   0x39fff1c007fff18001ffc0380003807c001c0755800fff956003fffffc003186180007e07f00031fff0001ffffe0007ff070000ffff80017f81fc001c01c3c00381fff00003006001f0c7d8000fff83c000e00000;
   0x38ffe0c00fe0fd8003e3f0380003803e001f8781800fff806003fffffc003fe618003f801fe003f0000001ffffe0007ff060000ffff8000fe003f003800f18003f003f00003006000e0c198000fff81c000ff8000;
   0x7fc00007001d80030060380003800e000f03000007ff000000000000001e4010003c0007c001f000000000000000603070000e0038000f00007001000608001f00010000300600000c018000c038080007f8000;
   0x0;
   0x0;
   0x0;
   0x0;
   0x0;
   0x0;
   0x0;
   0x0;
   0x0;
   0xe0700000381c00000e0700000381c00000e0700000381c00000c0700000381c00000e0700000381c00000e0700000381c00000e0700000300c00000e0700000181c00000e0700000300c00000e0700000381c00;
   0xe0300000380c00000e0300000380c00000e0300000380c00000c0300000380c00000e0700000380c00000e0300000380c00000e0300000300c00000e0300000181800000e0300000300c00000e0700000380c00;
   0x3fffffc00ffffff003fffffc00ffffff003fffffc00ffffff003fffffc00ffffff003fffffc00ffffff003fffffc00ffffff003fffffc00ffffff003fffffc00ffffff003fffffc00ffffff0015f575400ffffff0;
   0x3fffffc00ffffff003fffffc00ffffff003fffffc00ffffff003fffffc00ffffff003fffffc00ffffff003fffffc00ffffff003fffffc00ffffff003fffffc00ffffff003fffffc00ffffff003fffffc00ffffff0;
   0xe7700000381c00015f5754000381c00000e0700000399c00015d5754000381c00000e0700000381c00000e07000057d5d50000e0700000310c00000e0700000181c00000e7700000300c0003fffffc001f81c00;
   0xe63000003a0d00000e0300002aaaaa0000e0300000398c00000c0300000398c00000e0780000298800000b8260001f80c00000e0300000318c00003fffe0000181800000e6300000b30c00002f8700003bc0c00;
   0x155f55000006158000040500007ffffe00007003000155d50000cc0710000e1c700000381c0001ffff8000e1c07000398000003fffff8000018000007fffe0001ffffc003fffffc001c77fe000ff87000071c0000;
   0x1fffff800007030001ff9ff800600006000afa8f8003ffff8001fe0030000618e0000abc188001ebab8000f99fe000fffffc003fffff8007ffffe0003000e0001ffffc003fffffc000ee7fe000e3800000fffffc0;
   0x15d5750007ff070001ff9ff80067fff6001fffde0003ffffc0007ffdf000071ce0001fff1dc001c18180003fdff000fffffc00380001c007ffffe0007555e00018181c0000000000063c704003fffff000fffffc0;
   0xe0300007ffbff0000000000067ffe6001aabd800038181800003fbc000ffffff000e03998001ffff800103806000abaaac003b00008000300c00003fffe00018180c0003fffc000f1c39c003fffff00001800c0;
   0x157575400755bff00000000000000000001c01c00003ffffc000e01d0000ffffff00078ddf8001ffff800301d0700003800c000701ff4000381c0000555540001ffffc0003fffc0003b81f80000300300071fffc0;
   0x3fffffc00601c00000000000003ffffc001fffc1c003ffff8001fe18000001fb800003fc1b000001800003abbe600063bfec002ba9ff0002babaa000000000001ffffc0003000c0000f00f0000c32ab00031bffc0;
   0x3fffffc0077ff86003ffdffc003ffffc001fffc7c00381c1c0007fdc1c0007ddf00000fc1f000ffffff001ff9ff00073356c003ffc000007fffff003fffffc0018181c0003fffc0001ffff0000c37fb00031830c0;
   0x380700c0067f186003ffdffc00000780001801cf000380c180001b987800fe187e00033f98000aaaaaa000aa30f00033306c000300000006abaae002baaae80018180c0002aaa80007ffffc000e300300039838c0;
   0x3d5755c007611c6000180180000e0ff0001c01c40003ffffc00119dcf000781f1f000707dc0001555500000038100033376c00071bffc006018070003000c0001ffffc00155555401f0181f80067003000199ffc0;
   0x2ffffe80066118e000988988000f9c7e001fffc80003ffff80039998c000000702002baabe0000ffff80007fffe0003b366e00033bffc006abaae0003fffc0001ffffc003fffff800c01803000767fb0001bbffc0;
   0x555d50007611cc001d99d980007df1f001fffdc000063600001f9dd0000ffffff003fffff0001d55780007fffe0001f376e000730660001ffff80003555c000000c00003d5555c00155d54000367fb0001f38cc0;
   0xc00006610cc0019999980001fbc2001861cc000023700000f18d8000ffffff002baabbc000c1838000600060001e366e000360660001abab80003000c000081e80003800018003ffffc0003e61b0000f18ee0;
   0x3ffe000077f0dc00399d9980003fdf8001e61ce0005f370000071ddc0000701c00007071dc001c18380007fffe0000e3766000700660001c18380003fffc0001c79dc003bfffdc003ffffc0001e61b8000f1de60;
   0x3ffe000067f0f800318f99c00036e3e000fe1c6000d9b380000618ce0000380e000030e184000c18380007fffe0000e3766000300660001818380003aaac0003860dc0002aea800000fe000020e6bb800870fc60;
   0x300700007617f000718d18c000f77860003c1c7001fff1e0000e1cc700001fff000071c1c0001dfc3800060006001cf1f070073c0670001c18380037000c0007741cc00000e0000003ff000071f7f9801c79f060;
   0x300380007013ff00618618e001e61e00007bdc3800f2b0f8000f98e700001ff800003181800007ef0000060006000cfbb870031c0638001e9838003fffffc006300ce00000e000000f83c00033b8198008fbbc60;
   0x3801f00070007f000184184007c707c007f7fc3800d5707f001ffc73c001fffd00007001c0003f07f00007fffe000ddf1c7003fffe1c001f1838001fffffc00e7ffc700000e000003e01fc00379e19c00ddf1ff0;
   0x3fc0f8003e00000001f01e000703e1e003c03c1800fff00f00387e71800fe0fff0003e0180007800fe0007fffe000f8e0f3803fffc1e0002182800030000000c3ff8200000fc000078007f003f0f00e00f8f0338;
   0x1fc018003e00000001f01e000001e06001000410007fc00600100c3080070007f0003e01c00060001c0006000600070402100055500c000018000003000000001ff00000007c000030000e001c0600c007070010;
   0x0;
   0x0;
   0x0;
   0x0;
   0x0;
   0x0;
   0x0;
   0x0;
   0x0;
   0xe0700000381c00000e0700000381c00000e0700000381c00000e0700000381c00000c0300000381c00000e0700000301c00000c0700000381c00000c0700000381c00000e0700000381c00010030c0000300c00;
   0xe0300000380c00000e0300000380c00000e0300000380c00000e0300000380c00000c0300000380c00000e0700000300c00000c0300000380c00000c0300000380c00000e0300000380c00018030c0000300c00;
   0x3fffffc00ffffff003fffffc00ffffff003fffffc00ffffff003fffffc00ffffff003fffffc00ffffff003fffffc00ffffff003fffffc00ffffff003fffffc00ffffff003fffffc00ffffff0018175d400ffffff0;
   0x3fffffc00ffffff003fffffc00ffffff003fffffc00ffffff003fffffc00ffffff003fffffc00ffffff003fffffc00ffffff003fffffc00ffffff003fffffc00ffffff003fffffc00ffffff0019bfffc00ffffff0;
   0xe0700000381c00000e3f00000381c00000e7700000381c00000e7700000381c00000c6300000389c00000e0700000301c00000dc700000381c00000c0700000381c00000e0700000381c00019bfffc000300c00;
   0x3fffff0003386c0000c03800000181800000e6300000aaaa00000e6300000000000000c630000039cc00000a0200000300c00000d8300000600e00000c0300000382c80007f0300001e80c80019830c00002c0e00;
   0x3fffff0007f0fc0000f7ffe0000789e0001fffff8000ffff0003fffffc007ffffe001fffff800ffffff0007ffff0007ff7fe00157d540000781c00000fffc000554e1c001e300780079c0180019830c0007fff600;
   0x30003ff3fc000383800000f1cf0001fffff8000c0030003fffffc006aaaae001fffff800ffffff0007fffe0003ff7fe003ffffc800fffffe0001fffc0007fe618002abaaf800abaa1800199f9f8007fff700;
   0x7fffb00013f07c0015f7d54007c4f3c001d55558000c3ff0001555f54006555460000030000055555500060607000700700007ffffcc00ffffff000070000007fe718003ffffe000ffff1800199fdfc0001c0300;
   0x7fffb00033336c003fffffc00f9e38f0018e0618000c3ff00000e0780006fffe6000fffff0000aaaa00006fff60003006000000030d80000e30000023c0000060ffff002abaa8000abaaba001998988007fff380;
   0x15555700033336c00155f5540063d1e70019c6798000c307000007ffe0004e0074000fffff0000ffff00006fff70007fe7fc0000038d8001ffff8000f0eff80060ffff0000300040001c0ff001999d9c007fff1c0;
   0x3fffff00033326c0007a3e000007fff00007873c0007ffffe00038ffe0000e0020000000e00000e007000060f060003fe7fc001fff8f8001ffff800039e7f8007fe060001fffc1c007ffeba0019989880000c01e0;
   0xc1c7300033366c0007fffc0000e5ff0000f1f9f0007fffff000703f00000ffff0003fffffc000f557000067dc700000600c001fffcd00018e3000001fe700007fec66001fffc7c007fff1800199fdfc00ffffdf0].
Definition hanzi_rows_157 : list N :=
  [0xfb86300033366c000803efc00000000000c3fc7000600006000ffffe0000e0020003fffffc000ffff00006e0fe00000600e000030ec000ffffff0000f63800060ec66001830c700061861800199f9f800ffffdf0;
   0x1fd7300033366c001fffe18007ff7fe000079f000067fff7001fffff0000e00700003f03c000000000000640370007ff7fe0000307c000ffffff0003e61c00060ec66001c30c400061c798001999d9c007fff1b0;
   0x3f9ff3800333c6c000fffc00003ff7fe0001e07800067ffe6000800000000fffe0000fffee0007ffffe0007fffe0007fe7fe0000300e00018e300001f87cf00060ec66001fffc00007ffef8001998988003ffe190;
   0x3fc1f3800733c6c0005555400071e71c0007fffe000060070000fffff000055d50007e1ff7c007ffffe0007ffff00070760e003fffffc001ffff8003f07c7c007fed76001fffc40007fffff80199dddc007007180;
   0xc00380023346e000ffffe000338638003fffff80007ffe0000fffff00000380000380601e0070000e0000030000071c71c003fffffe001ffff8001aaaa88007feffe001830cc00061861f00199f9f8003aae180;
   0x3ffffd8007db166000e00060007b0770003fd55fc0007fff0000e0607000ffffff0007fffe40073ffce00070f3b0007d87f00000780ec0001e3c00003fffc000606ffe001fffce0007fff1900181fdfc007fff180;
   0x3ffffd8006dbb66000e00060003e07a000038018800060060000fffff000ffffff0007fffe00073ab8e000e0c3b8006e06e00000f80600007e3e00002aaa8000606c60001fffc60007ffe18001818d8c003006180;
   0x1c071c006d9b76000ffffe00077e7f80003801c00007fff0000fffff0000181c000007fc00007381ce001d9c3980077c7780001de070001ee37000071866000607070001d75c700075d718001818d8c007fff180;
   0xc0e0c00eedbb7000e000600030f63e0003801800006aae0000e06070000f81e00001e6f000073ff8e00398039c0030e31e00038f070003ce33c000e38e7000603038001830c3800618618001818d8c003aae180;
   0x1c1c0e00dfdfff000f55560007017070003fffc000060070000fffff0003e007c0007c67f00073ffce0031fff0c00307707001f07c3801f0e31f001c70c38007e381c001c30c1c0061c718001d1cdcc007007180;
   0xfc80c00d8ce33800ffffe0003e03e00003fff800007e060000fffff000f8003f000e060f8007c008e0010fff0c003e03e0003e01f3800e0e307003860c1c007e1c0e001f30c1c007d861e001f1e7e6003e06180;
   0xf800000000801000e00060003e03c00003801c00007c070000e0007000600006000c06010003c000e000055400001e01c00018007180000e300001061c1c003c0804001f30c100079c71e000f1e5e4003e07180;
   0x0;
   0x0;
   0x0;
   0x0;
   0x0;
   0x0;
   0x0;
   0x0;
   0x0;
   0xe0700000381c00000e0700000300c00000e0700000381c00000c0300000381c00000e0700000381c00000e0700000381c00000e0700000381c00000c0300000381c00000e0700000381c00000e0700000381c00;
   0xe0300000380c00000e0300000300c00000e0300000380c00000c0300000380c00000e0300000380c0002aeaba8000381c00000e0300000380c00000c0300000380c00000e0300000380c00000e0600000380c00;
   0x3fffffc00ffffff003fffffc00ffffff003fffffc00ffffff003fffffc00ffffff003fffffc00ffffff003fffffc00ffffff003fffffc00ffffff003fffffc00ffffff003fffffc00ffffff003fffffc00ffffff0;
   0x3fffffc00ffffff003fffffc00ffffff003fffffc00ffffff003fffffc00ffffff003fffffc00ffffff0000e030000ffffff003fffffc00ffffff003fffffc00ffffff003fffffc00ffffff003fffffc00ffffff0;
   0xe0700000381c00000e0700000300c00000e0700000381c00000c4300000381c00000e0700000391c00007fffe0000381c00000e0700000381c00000c4300000381c00000e0700000399c00000e070000039dc00;
   0xa0200000380c00000e0320000300c00000e0300000380c00000c6300003ff7fe0000e03000003b8c00007fffe0000381c00000e0300000380e00000c6300002380f00000e030000039cc00000e0600000398c00;
   0xfffff00001c060001555060007ffffe000fff3fc005500e000155f550003ff7fe0000601c0001ffc07000755560007fffff003ffeffc00554060001fffff800700178000030600003ffffc00007038000ffffff0;
   0xfffff00000c060000fff060007ffffe000fff3fc00ff8aea001fffff80030c61c0000630c0001ffe0e0007fffe0007ffffe003fffff8007feaea001fffff8006307f8000038630003ffffc00007018000ffffff0;
   0xc30c300000cfff001d576600000c300000c0335400ffdfff001fffffc00338770001fe3070000e1f1c000700060007555570001c0e00007feffe000170440007307fc001ff86300039c39c003fffdc0005555550;
   0xc30c3000ffefff000c03668003ffffc000c0330000618aaa001800398003a07e0001fe30380007bbf80007fffe0006038060000c03b00060eeae00033bee00063030e001ff86300038ef8c003fffce0000aaaa00;
   0xfffff0007fe060001fff378003ffffc000fff3000071c61c001ffff9c003fdff000006331c0003f1900007fffe000607f07001ffc1f00060ee0e00071fce000731fff0000dc63000387c1c0007070e0000ffff00;
   0xfffff000606ffe000eab3680030c30c000fff3a800398618000fffd800033fe3e00006338c003ff800003fffffc0003e3e0001ffc1e0006aeeae00033f8e000631fff8001ce6300039ef8c0003060f0000c00300;
   0x1c600000777ffe001c031ec003ffffc0000603f80019c7180000301c000307f06003ffffc000fcdfc0003fffffc007f81fc001d5c7d4007feffe000771fe0007318cf00038e630003b87dc0003060f800ffffff0;
   0x78e00000333c66000fff0ec003ffffc001fff0b8000dbfff0000380e00001e380003fffee00080c3bf0001c038000feaabf00180dffc007fee0e0003fffe0006318ce000306630003aaaac003fffefc00ffffff0;
   0x3fffff000371c66001fff06c00000000001fff018003dffff000fff8f0001fd1f00015754f0003fff3f0007fffe00047ffe70019cdffc0060ee0e0007fffe000731ffe000704630003ffffc007fffffe000c00300;
   0x3fffff000070eee000000068001ffff800186300800318000000fff8f800fe387e0000630f8002aea38003effff8000018000018cccc00060eeae00000300000631ffe000200200000020080000000ec000eaab00;
   0x60c07000070ffe001fff8e0001ffff0001c633fc0061cffc000c018fc00f11f1f0000630fc001fff38003ce033c000018000019cccc0007feffe000fffff0007318ce000fffff0002060180000000e0000ffff00;
   0x71c0f0000700f0001fff8e000000000001aeb3fc00e18ffc000c018ec000383e0001fe38ec001ffe380000e0388003ffffc0018ccec0007fe00e000fffff0006318ce000ffffe000786018000fff8e000703f800;
   0x3983f0000f83f80000601f000fffffe001fff30000e1cc0c000fff8e80001f060001fe38e40000c038000ffff80003ffffc0018cc0c00075618e000c39c3000731ffe000e31c70003feff8001fff8e0007c73f00;
   0x1f8fb0000d877c002aeabb000fffffe00066030000e18c0c000fff8e0000c3e000000638e0007fffb8000eaaa80000618600018ec0c00060630e000c30e3000631ffe000e30c600003eff8000c018e0000ee0fe0;
   0x30f1e30001dce6e007ffff30000718f0000e60300007fcc0c000c018e0000f07f0000067ce0007ffff8000655550000718e00003e00c0006077ce000c7ff3000700000000e31c7001c06018001c018e00007c0df0;
   0x30fc8380038e467002aeaa38000e1878001e60300007d8eac000c018e00003e0f000006ece00000c0fe00067fff8000318c0000f700c0006037fe000cffe3000603e80000e30c6000c06818000c018e0000fb8c20;
   0x33dfc1c0070706300006001c003c183c003ffffd00015cffc000fff8e00001ff00007ffcee001fd5fcf00065555000ffffff001c3c0c0007c367f000cc063000703fff007fffffc00d56ffc001fff8e0007f3fe00;
   0x3f83e0e00e0386000006000e00381f8e0032ff9f000018ffc000fff8e000000ffc003ff87e000ffff830007e000000ffffff00381f8f8007c360e000f80030007e03ff003fffffc00ffeffc000fff8e000f80fe00;
   0x1f00c0c0040106000006000400301f840030001f00001cc0c000c018e0000001780015406e00057f4010003e000000000000003007078003c0000000f80030003e0000000000000007fc01c001c018e0004000600;
   0x0;
   0x0;
   0x0;
   0x0;
   0x0;
   0x0;
   0x0;
   0x0;
   0x0;
   0xe0700000381c00000e0700000301c00000e0700000381c00000e0700000381c00000c0300000381c00000e0700000381c00000e0700000381c0000060700000381c00000e0700000381c00000c0700000381c00;
   0xe030000abaaea0000e0300000300c00000e0300000380c00000e0300000380c00000c0300000380c00000e0300000380c00000e0300000380c0000060700000380c00000e0300000380c00000c030000abaaea0;
   0x3fffffc00ffffff003fffffc00ffffff003fffffc00ffffff003fffffc00ffffff003fffffc00ffffff003fffffc00ffffff003fffffc00ffffff003fffffc00ffffff003fffffc00ffffff003fffffc00ffffff0;
   0x3fffffc00abaaea003fffffc00ffffff002aeaba800ffffff003fffffc00ffffff003fffffc00ffffff003fffffc00ffffff003fffffc00ffffff003fffffc00ffffff003fffffc00ffffff003fffffc00abaaea0;
   0xe0700000381c40000e0700000331c00000e0700000381c00000e0700000381c00000c7300000381c00000e0700000381c00000e6700000381c0000060700000381c00000e0700000381c00000c4700000381c00;
   0xf0300007fff1c0000e3300000238e0003fffffc001f80c00000e0300000380c0000086200000380c80000e0380000388c0000006000000380c0000aaaaa80003a0e00000e8380000380c00000c6300001ffff80;
   0x70ff8007fff7c00010770000007070003fffffc001ffffe0000c3390003ffe1c001fffff8007fff1c00006038000001c20001fffff8000181ff001fffff8001577f00000585c000381ffe00000e000001d55580;
   0xff8ff80000072000038e360003ffff8000030c0000043ffc0000e3398003ffe3c001fffff8007fff38000060fc0007eff78001fffff8000383ff000006000007feff800001818000381ffe001fffff0001aaab80;
   0xffcd58003fff0700071c760007ffffc001fffff0000e18700000633b800300e7800180001800600070001571ee0007fff7e0003861c000fffdff0005561c0003d6e1c003ffd7d400381c06001fffff0001ffff80].
Definition hanzi_rows_158 : list N :=
  [0xe1cc18003fff3f000ec83300000303c000c30c30000618e0003fe3bb0003ffe7000186001800603320003ff38700060c30e00018638000fffcc00007fe1800018e67e003fffffc00381806000080830001800180;
   0x73ec180030071c000cc07300015757f001d75d7000ffffff003ff1ff000355e200007f1ff000607306003ff70780061c30e0001c6300001ce0e00000061c0001dc7e7000077ffc01fffffe0001c0c30001ffff80;
   0x337c18003fff60000cfff38003ffff7000fffff000ffffff001837ff800300e00000fe1ff00067ff86000c3affe0060ff0e003fffffc00387062000006180000f839c00003706000fffffe0000c0c30000aaaa80;
   0x3f3ff8003fff7000007ff10000070320000000000055ff55001c7fff8003ffe3f0000700000067ffc6000c7dfec0061ff0e003fffffc007ffc66003fffffc000701f8003ffb06000380006001fffff0007ffffe0;
   0x1c0ba800000738000000080000030300007fffe00003db80000c7e108002aba3f000060000006060e6000e6c0000060c36e00000000000fffc66002aaaba8000ffff0003ff8fe000388ff6001fffff0007ffffe0;
   0x7f019800ffff1c0001c01c0003ffff00007fffe0000f99f0000c7e55c00fff838000fffffc0067fff600066f190007fff7e000fffff000415be6000000180007dfffc0001dcfe00039dff60001c0c300070c30e0;
   0x1f3819800aaaa0e000980980002abab00006aaae0003e087c000eeed6800fffc38000eabffc0063ffb60006e3198007eff3e000ffffe000199be6000ffff8000f0001f0000cec60003980060000c0c38007ffffe0;
   0x7d5ff9800001806001b75f60000070300007fffe001ffffff8007c6d7c00e10e3800071c660006071c60007c3b1800004106000e00070001998660005555c0007fffff0001c4c7000399ffe0001ffc38007ffffe0;
   0x3ffff9800ffffff001b2db68007ffff000060006000fababf0007c696800e18f380003f86600063ff860003c1b300000e382000e7fe6000199866000aaaac0003ffff8003ffec30003b9ffe0000ffc38000aaaaa0;
   0x1ffd19800ffffff00337d16c007ffff00007fffe0001c1818000386d7c0067cf380001e06700067ffc6000381b300040e380000e6067000199866001ffffc000155d54003fffc30003b0186000000018001ffffe0;
   0xc0c1980000ff0000302f06c000000300002aeaa0001ffff8000386928006eecb80003f06700060608600038193001c0e180000e6066000199a66001840000000318e00003c0c3000390da6000220018000e00e00;
   0x1c1d1980007dbc0007c75c6c001c6118003fffffc001ffff80007c613c006c7cf8003f7e6700067ffc60007c7c1001c0e1c0000e7fe7001999bf6001c67770000f18f00007e0c3800381db7000731b180007c3c00;
   0xc0df98000f18f8000826c6c0038e39c003fffffc00181818000ee6108006ffc7800340c6380067ff86000ee7fe000c0e0e0000e0006001999bfe000cce630001e1878000770e18003819bb000e633980001ff800;
   0x1ffdffc01fc187f001c74d640070c30e000006000001ffff8003c7e11c006ffc3c003fffe1c007001c6001c787fc00ffe07c000fffff001999c3f000ccc6380078181e001e3c75c0038319b001c631dc0007ffd00;
   0xffc0fc00e0180f000fe0fe000e1c307000006000001ffff800383f908007e0008001fffe1c007f000600383c03800ffc03f800ffffe000f98f03000fcc61c00701f0e003c1f7ce003f01eb8018e30ce00ffefff0;
   0x1c1c000000018010005405400040c707000006000001c001800301b91c003c000000055500c003f000600301800000550007000e00070007007000007c000000001f040010063c4001f01c10018030c400fc007f0;
   0x0;
   0x0;
   0x0;
   0x0;
   0x0;
   0x0;
   0x0;
   0x0;
   0x0;
   0xe0700000381c00000c0700000381c00000e0700000381c00000e0700000381c00000e0700000381c00000e0700000381c00000e0700000381c00000e0700000381c00000e0700000381c00000e0700000381c00;
   0xe0700000380c00000c0300000380c00000e0300000380c00000e0300000380c00000e0300000380c00000e0300000380c00000e0300000380c00000e0300000380c00000e0300000380c00000e0700000380c00;
   0x3fffffc00ffffff003fffffc00ffffff003fffffc00ffffff003fffffc00ffffff003fffffc00ffffff003fffffc00ffffff003fffffc00ffffff003fffffc00ffffff003fffffc00ffffff003fffffc00ffffff0;
   0x3fffffc00ffffff003fffffc00ffffff002aeaba800ffffff003fffffc00ffffff003fffffc00ffffff003fffffc00ffffff003fffffc00ffffff003fffffc00ffffff003fffffc00ffffff003fffffc00ffffff0;
   0xe0700000381c00000c0700000381c00000e7700000381c00000e0700001b81c00000e7700000381c00000e0700000381c00000e7700000381c00000e0700000381c00000e0700000381c00000e0700000399c00;
   0xe0700000380f00000c0300000380e000000600000038cd0001fff860003ac086000003800003ffffc0000e0300000280800000e6300000380c00000e0320000380c00000e0300000380800007fffe0000298800;
   0x198ffc007ff1f80000c000000030070001fffff800064d38001fff87000ffff9e000fffff0003ffffc000639ff0000dcffc003fffffc007ff870003d03870001ffe1e003fffff8000edfff0007fffe0007ffffe0;
   0x198ffc007ff3f80001c0ff800030030000aeaba800066c9800000183000ffffb8000eaaab000001800000639ff000198eac003fffffc003ff830003ff1860001ffe3c003fffff8000ecfff000600060002abaaa0;
   0x198574006181dc003ffdff800fffbfe0000c070000066ddc001ffdbfc0000c030000ec6770007fffff00063803000398c1c0015dd5d4007018380007f1ce000180670001557578007fc0700007fffe0003ffffc0;
   0x3f9f8600061808e003ffc81800fffbfe002aeaea800fe6c8e000ffdbfc007fff00000e66e30007ffffe002ebaab000318ffc00019c0e000301b18000033ff8001806200000e6338007fe038000600060003ffff80;
   0x3f9f8700075cfff000c19c1800306306003fffffc00ff7ff7001555b74007fff01000e3ec7000601807003ffeff00001855400038c060007ffb9c000077ff8001ffe01000067338005f7c3e0007fffe00038181c0;
   0x1987f00038ffff000e38ab80018e30600000000000637fb0003fffb300060c307000efffb0006fdbf6002eba03000ffffff003ffee30003019ae000032318001aae07003fefff8000e3e7f8007fffe0003ffff80;
   0x1987f000167c4f000631ff8001cc3560007fffe0006700380011d9b18007fff1f000fffff00065595700063857000ffffff003fff7f8007019ff007ff7ff80018061f003fffff8000e2763000000000003d5d5c0;
   0x1f9fe380006cc4e003ffeab800fffffe0006aaae00067ffdc001f99b980060c318000e3fc30000a9aa8000638ff000218c0c00018f3f8003ff8ef003ff3ff8001ffe1c003220c38007fc3f0003fffffc003abab80;
   0x1f9ff1800576ffe007fff01801fffffe0007000e00077ffde000719998007fff10000e76f70001fdbf800063803000638ffc0015df9f8007ff870005f77318001ffe18001334cd8007fc7dc003fffffc003ffffc0;
   0x19833c007feeee002aeaab800aba8060007fffe00037801e003ef9998007fff00000ec63b00000080000063803000738ffc001fffce000000038000e3231800000000001b34cb8000e06ce000001860000e18000;
   0x1983fe007ffc460001c1ff8000707fe0007000e0003c3f9f803e7d99c0074c310000e861f0003ffffc007fffffe00330c1c0015dec70007ffffc000e37ff8007fff10001b14cd8000e07e7001ffdff0001fffff0;
   0x2b9abc400063eee0000c1ff8000307fe0006aaae0003c3f9b0006019b8002c0230000006000003ffff8003fffffe003b0eac00018e7f8007ffbfe000e33ff8007fff30000384c98000e0de2001ffdae0003ffffe0;
   0x3f9f9c000577ffe003fff87c00ffff060007fffe0001c3198003fffcf000fffff8003fffffc0038181c001554770001f0ffc001ffe7fc0064dc5f000e3030000733318000387fd800fffdf8000c3987000700c000;
   0x2b9a9c000fffc46003fff83c00fffe060006072200018b198003fff8e000ffffd8003fffffc003ffff8000670630000e0c0c001ffe3080064c800000e37ffc00623318000387f9800fff99c000e71fe000183c6c0;
   0x1980e000fffc460001c187c00070706000e1e370003df19800061dde0000c0e1c00001fc00003ffffc000e3863001c73f5c00018e3800064dfc0000e37ffc0073331c0007c0e1c000071cf0007e18700038706c0;
   0x19806000060c460000c1ffe000307fe001d98330003e7998000638ff0000c1c0e000079e0000381818000c38f9800cfbfff00018e1e00064cbf8000e383000062330e000ee060c0003e0c70003c7ee00076206e0;
   0x7fffc7800060c470001c1ffe000707fe001980338007731d8000670f38000c38060017f0fc0003ffffc001c1dffc00ddcd7f003ffe0f001ffffff000e1830001ffffc7001c7070c01ffc0c1001ff7ffc006755e70;
   0x3fffc3c00060fc38000c1830000306060039fff1c00e380f80007c061c000f9007003f803fc003ffff800380f8fc00f8ec00003ffe03c00fffe0f000e1c30000ffffc700383c3ce00fe00f8003e3f8bc00e3ffe30;
   0x18000607c10001c0070000700060000ffe0000c180580007c000800078002001c0007c0038001c00100400000700c0000000e01c01555500000e083000155554200301818400d0007800381d8000041ffc20;
   0x0;
   0x0;
   0x0;
   0x0;
   0x0;
   0x0;
   0x0;
   0x0;
   0x0;
   0xe0700000181c0000060700000381c00000e0700000381c00000e0700000181c00000e0700000301c00000e0700000381c00000e0700000381c00000e0700000381c00000e0700000381c00000e0700000381c00;
   0xe030000018180000060600000380c00000e0300000380c00000e0300000181800000e0300000300c00000e0300000380c00000e030000abaaea0000e0300000381c00000e0300000380c00000e0300000380c00;
   0x3fffffc00ffffff003fffffc00ffffff003fffffc00ffffff003fffffc00ffffff003fffffc00ffffff003fffffc00ffffff003fffffc00ffffff003fffffc00ffffff003fffffc00ffffff003fffffc00ffffff0;
   0x3fffffc00ffffff003fffffc00ffffff003fffffc00ffffff003fffffc00ffffff003fffffc00abaaea003fffffc000388c0003fffffc00abaaea003fffffc00ababea003fffffc00ffffff003fffffc00ffffff0;
   0xe070000019dc00000607000003c1c00000e0700000381c00000e0700001181c00000e070000031dc00000e070000555d540000e0700000381c00000e0700001f81c00000e0700000381c00000e0700000381c00].
Definition hanzi_rows_159 : list N :=
  [0xe230000009c800002aaaa00000c3fe0000e03000023c0f00000e0300007381800002e03c000aabaaa0000e030800fffffe0000a0200003ffffc0000b0200003ffffc000fffff0000380e00000e03c0003ffff80;
   0xe773f8001ffff00007fffe0005563fe001ffe0c00070e1780001c070000fffff00006301c000ffffff001ffcc1800001800003ffff78003ffffc000fffc1c00005ffc000fffff000018ce6001f001c0003ffffc0;
   0x6663f8000ffff00006060e0007fe060000ffeae80038c7f80000e03e000ffffe2000630ffc000aaaa0001ffcff8003ffffc003fffef000001800000fffc3800ffffff000c30c3000018eec000ffbffc0030c3080;
   0x376318001c00300007575e0007777ff001cc7ffc0019c7fc001ffe1fc00fffff6001ffeffc000ffff0000e101f8001555540015dd5e000ffffff00003007000ffffff000fffff00001c6fc0001fbffc0030c31c0;
   0x1fffb18000ffff00007fffe000633fff000cc6ae800fff38e001ffeb8800030022001ffe0c0000eaab00007fb818001ffff8001fffc8000eabaaa003fffee000001800000fffff000ffdfff000018c30003ffff80;
   0x1fffb18001d55700007060e0006399f0001ffe0c000fff7ff001807f380077ff76000630ffc000ffff00001e1ff8001d5578001dddc0400ffdbf7003ffff40003ffffc000c0380000ffdfff000018c70001555540;
   0x183f8000c00300006060e000618bf8000cc6ff8000607ff0018067700062ff3e000630ff8002aaaa8000381ff8001ffff800188cc1c00efdbf2000000000003b9898000efffe00030e1f8000018e6000fffffe0;
   0x3fffff8001ffff00007fffe00074dd6e001cc6ffc00070667001ffe3e00077197e003fff5d4007ffffc003ffe570001ffff8001fffc7c00155950000fffc54003999dc0007ffff00030e7fc007fffffc00ffffff0;
   0x3fffb1800020020000000000003c7e67800ffe0c0007fe6660018063f80036ff22003fff0c00032aa8c003ffe03000fffffe001fffc70001fdbf8000eaacfc0038d9980001e38000038feee003ffbffc00e000020;
   0x74e31800070060001ffdff80015e7c3001ffeffc007ff7fe00180673c0036ff70000000ffc0073ffcc0019c1ff800ffffff00055506000001800000c01cfc003ffffc003fffffc0019f4e700575818000ffffff0;
   0xe673b8007fe7fe001ff9ff8000f9be00000c0ffc000607fe001ffe780001ec13f001ffcffc003380cc001989ff800effff2000fff80000ffffff000fffce0002abaa8003fffffc0019b06000061818000bffffa0;
   0x7c63ff8007ff7fe00199d998007f187c003fff1e000070666001ffe7f0001ec17f001ffc1e0007fffcc0019d819c00fffff700155540000ffffff001fffce0007ffffe000007e00001f8fff00071bffc000060e00;
   0x3e67fb80060660600198999800fb18ff003aea3e000aeae66000330e38000eff3600180c3e0003c180c001f9aba8000701e0002aaaa4000001c00000e3f0e0007ffffe000ffffe0000f07ff00061bffc00386ff00;
   0x76e31800757756001ffdff80043d9e70033c77f001fffffe000330f1c000e5d76001d5c7f000ffffff001fdfffc001ffff0007ffffe0007ffffc0007ffce000001800000fffffe000f071c000718db0001f7ffc0;
   0x3fc318007fe7fe001ff9ff80000ff800032c2ef800fffaaa000330dc0000e1936001ffcef800ffffff00019c18000081800000231060003ffffc000f8cfe000ffffff000e001bc000f030c0006199b00007ee2e0;
   0x7fc31c0075775600199d9980001ffc00037ffcdc00070c00001338cf0018fff36001d5cddc0001ff000001fc7c0003ffffc0007738700070c31c001e1c6f000ffffff000ffff80001f81fe00071d998000067740;
   0xe6fb0c00606606001989998000f99f800343a0ce00060ffe002318e3c009fff3200180c0ce00079be00001beee0002abaa8000e31c380030c30c00180c3f8001c6398000e00180003bc1f000060f18c006063e00;
   0x1c63b0c007ff7fe001ffdff8003e187c0034070cc000707ff00771e61c01d9c13b001ffc1cc007f187c007ff7c7000555d55003c70f1c0070c31c007415f1c0078e31c000ffff800079f7fc00070e1cc007561f00;
   0x8783ce007fe7fe001ff9ff800181f08003e020c000060003003f0f7c000f8e01b001ffc0c000f8181f003fc783c00ffffff00303e31c003cc30c003fffe0c00f0c30f000ffff8000e07e1f0006061e0007fe07e0;
   0x781c40060760600181d81800001f00001e070c000070000001e033c000f04011001c0c1c00040180300150301c0000000000003c008003cc31c003fff00400404706000e00180004010070007041c00015401c0;
   0x0;
   0x0;
   0x0;
   0x0;
   0x0;
   0x0;
   0x0;
   0x0;
   0x0;
   0xc0030000c000000000700000001c0000000700000001c00000007000000381c00000e0700000381c00000e0700000381c00000e0700000381c00000e0700000381c00000e0700000381c00000e0700000381c00;
   0xc0030001fe0000000060000000180000000600000001800000006000000381c00000e0300000380c00000e0300000380c00000e0300000380c00000e030000abaaea0000e0300000380c00000e0300000381c00;
   0x1fc00300007fff0000fff000003ffc00000fff000003ffc00000fff00000ffffff003fffffc00ffffff003fffffc00ffffff003fffffc00ffffff003fffffc00ffffff003fffffc00ffffff003fffffc00ffffff0;
   0x1fc003000003ffe000ffe000002ab800000ffe000003ff800000ffe00000ababea003fffffc00ffffff003fffffc00abaaea003fffffc00ffffff003fffffc000380c0003fffffc00ffffff003fffffc00ababea0;
   0xc0030003ff01e00000700000001c0000000700000001c00000fff000000399c00000e0700000381d80000f070000039dc00000e074000039dc00000e07000015d5d40000e0700000381c00000e7700000399c00;
   0x3fff2ba003ff00e00000600000fffffc001aaeaa000001800000006000000038000001b020000019ff8000ff000000ffffff0000c00c000aabaa80000e3bc0003ffffc0002aa310001b80c00000ae200000038000;
   0x7fff3fe0000300e003fffff000fffffc003fffff000fffffc00155755000fffffc0003b3ffc00ffdffc001ff001800ffffff001ffcff800fffffc003f1fce0000018000007ff078007fff8e003fffff000fffffc0;
   0x30e33fe007fffce003fffff00060180c001aaeab000fffffc003fffff000aeabac002bbbffc00ffe006003abaa3800000000001ffcff80006030c003f3fc70007ffffe0003030e00008ffbe002abaeb000aeabac0;
   0x30e3330007fffce001c07030007f5c0c001f4703000701c0c003fffff00057574c003ffc3c00039ffff003fffe70001fe7fc000e30c180006030c00001ce38007fffff0007031c00018c738000575d700057574c0;
   0x37eb330006030ce001fa6030003fffec000fffa30007ff80c001802030007fdfec00031c2c00019a6e8001bb86e000186608000630ff8007fdffc00002ef1c006a9aa60003ff080000cc620000fffff0007fdfec0;
   0x37ff330007f70ce0003fffb000017fec00187ffb00007ffec001c07070005f57dc00175fff8001f1fff001fff640001fe7fc003ffeff8005f575c00007ffcc006fdbf7000555000005dd540001c30c30000f038c0;
   0x38e3330002fffce00080ffb00060180c0038060b000601aec000c07030001f8f8c001fffae8000f0eee000ff8600001fe7f8003fffff8001f8f8c003fe66e000001800003fcfe1c00ffffc7000ebaeb0001f8f8c0;
   0x1dc333000407fce003807030007ffc0c001fff03000755c0c0000070700077dfec00175b3d8003fd7dc0007f06540055d5d40001c1ff80037dfcc007fffe70001fdbf8003fdfe7c0057f55f001fffff00077dfec0;
   0x1fc3330006030ce001ffe030003ff80c001ffe030007ff80c00068703000e6633c00031b26800f8effe003fff6fc007ffffe001ffd81800e6e36e000c7fe70000030600038c86f0000edc1c00083033800e66b3c0;
   0x543330007ff0ce001ffe0300000000c00000c030001ff00c0007ff4700047ff1c001ffbe7800c1e7c000157d6fc000181c00015d5ff800c6633c001c66678007ffff0003fdfe60001ccf18001ffff30004c231c0;
   0x2a3330002a80ee000008030003fff8e00000c0300000000c0003fffb000018c0e000bbba280003e0e0000e6e6e0003ffffc000087ff80000000e000c7fe7c003ffff8003fcfe000078c7800003fff38000fffcc0;
   0x7f33380003fce600001c030007fff8e001ffffb00001ff0c000007fb0007fdffe00031b01800077ff80007f76e00015d5d40001c600000fffffe001c7fe7c0000703c00003000001ffffe000303033800017fcc0;
   0x3b3b180003f8e600063aa380000018e001ffffb80001ff0c00000703000018c0e003ffbff8000e1f080003ce6e000ffffff003fffffc00aaaeae000c06060001ffffe003ffffe000baebd8003abffb8002aeaae0;
   0x733f1800031c66000e73b380000018e001c0e0380001870e000807038007fdfe6003ffbff8001ffff0000ff77e000ffffff003fffffc00155706001cfff70001ffff7003ffff700030c318001ff7f98007fffe60;
   0x2333f9800030c66001c63b3800fffff6000c060380001830e001807038003f8fe600000b008007ffffe003cbc3e00038778000003fc00003fff86000cfff60000030320000fc070003fff18000000018000060060;
   0x6739b9c00430c77003903998005555d6000c0701800c183060018070180001dc07001b7b0180061397c0011c79e0001fe1fc0000f6f00003557e6001c0f070003ffff00003ff030003fff1c000e7371c00fffff60;
   0x631980e00c30e3300330399800000187000e0381800c1838600180f01800ff8ff7003a6bff8000fb8e00000f83f80003e0ff0003e63e00030037e000c1f86000003030000f338380030c30e001c6339c00fffff60;
   0x7f1dc0400d7073b0073ff0dc007fff87000e01f1c00ff81f7001fff01c00ffdff700364fff8007e387c007f77f1c007f3fe1007f861fc003fff37001d79c70007ffff0003e31f1c003fff070018e719c000070070;
   0x3e0ee0000ff03db8003ff08e007fff838007e0fce007f80fb000ffe00e00018c038026cf00800f03f8f003fffe0c00f80fe0003c0603c003fff03000fe0f60007ffff0003830f8c003fff070038c61ce00007e038;
   0x1404c00007e01d1000054008000000030003e01cc0015003300000000c0001dc0100004501800401f060017fd004004000600010060040030030300070077000000030001030108003003020030460c400003e030;
   0x0;
   0x0;
   0x0;
   0x0;
   0x0;
   0x0;
   0x0;
   0x0;
   0x0;
   0x401c00003001c000000000000000700000000000000c0300000001c0000300000000001c000000030000000180000000000000000c0000180e0000007000000700700001c1c0000001c0000000700000001c000].
Definition hanzi_rows_160 : list N :=
  [0x6008000030018002aaaaa8000000300007fffe00000e0300000e00c00003000000000018000000030002aa8180000aaaaa0007fc0c0000180e0000006000000600600000c1f8000001800000006000000018000;
   0x38e41c00003001c003fffffc01fffe700007fffe00000e0300001c01c000030fff0015541c000fff030003ffc180000fffff0007fc0c0000180e000000700000ff0ff0003fc07fc003ffc00000fff000003ffc000;
   0x38ee0800003000c002aaaea800fffe300007000e0000060300003800c000030fff003ffe18000fff030003ffc180000fffff00060c0c0000180e000000600000fe0fe0003fc083c002ab800000ffe000003ff8000;
   0x19ce1c0000303fc000000600000180700007000e000fff0300003801c0007ffb9c003ffe1c000700030000180180000c000000071c0c0000180e0000fffff0000700700001c18cc00555d5400000700000001c000;
   0x198eff8007ffffe000fffe00000183fe0007000e000fff3ff000100ff8007ffb8c000181ff8003803fe000181ff8000c7e8000060cff800018ffe000fffff000fffffe002aea8cc007ffffe000aaeaa0006abaa80;
   0x1d8dffc007fff560007fff00000183ff0007fffe000003bff007ffeffc00631b9c0001c1ffc001c03ff000181ffc000cfffe00071cffc00019fff000fffff001fffffe007ffeddc00755d5e003fffff000fffffc0;
   0x1c0c888006bad86000eaab00000183220007fffe000003b33003ffecc800631b8c000181888000e0332000181988000c03fe00060ccc800018cc6000e0603000c63c66003aeed98003fee0e001aaeab00060180c0;
   0x1c1dddc00731d870006003c00003837700000600000001f33000018cdc00631b9c0001c1ddc0007033700018199c000c038000071ccdc00019cc7000e0703000c676660030c67980077ffee001d070300077dc0c0;
   0xc1888800630cfb0006001e00007832200000600000000f33000018cc800631b8c00018188800070332000181988000c038000060ccc800018cc6000e0603000be33e6003fc620800e00c0e000dffa30002fffec0;
   0xe19ddc00731c3b8007f60fc001f8377000fffff0007ffb33000018cdc007ffb9c0001c1ddc000703370015d599c000cfffe00071ccdc00019cc7000e07030007ff7fe001ffe300007ffc0e00117ffb000401fec0;
   0xe1888800630c390003e6038003d8322000fffff0003ff333000018cc8007ffb8c00018188800afab32003ffd988000cfffe00060ccc800018cc6000e06030004630660000ee3000000000e0038060b000e0180c0;
   0x739ddc00731c3800000601800798377000fffff0001c0333000018cdc0003039c0001c1ddc01fffb37007ffdddc001ce38600071ccdc00019cc7000e0703000c675660030c7ffc001fffce001fff030007ff80c0;
   0x730ff8006bac38000ffffe000e183fe000e06030000e03ff000018ff80033038c000181ff800fffbfe000181ff8000ce38600060cff800018ffe000fffff000fe37e6003fc7ffc0018008e001ffe030000aa00c0;
   0x771ffc007ffc38000fffff0004183ff000e06070000703ff000018ffc0073038c0001c1ffc000703ff000181ffc001ce38600071cffc00019fff000fffff000547146001f06300001fffce0000410300000700c0;
   0x3e0088007ffc38000e0606000018032000e06030000380330000180c80063038c00018018800070032000180188000cfffe00060c0c8000180e6000006000003f33f60002a6318001fff8e00006303000fffffc0;
   0x1e0dc000130038000e0607000018175000fffff00001c1300000185c0007f438c0001c0dc000070130000181d80001cfffe00070c6c0000186e0000107000003f33f70007e63380015554e000e731b000fffffc0;
   0x1e0c80003b0038000ffffe000018330000fffff00000e3b0000018cc000ffff8e000180d80000703b00001819800018038000060c6c000c18ee000038600000333332000666330003fffee000e633b0000e030e0;
   0x1e1dc000330138000fffff0000183700001060700040e330000018dc000c5ff8e0001c19c000070330000183980019c738000770c4c001c18ce000070700000b33337000666370000060060007733380007060e0;
   0x3f1880007303b8000086000000183300003c602000c073300000198c000c0038e000181f80000703300001839800198e38000660eec000c18ee000060600000b3333300066636000aaeaa600036333800038c0e0;
   0x779ff0007f01f80003c6000000187f000070600001c037fc000019ff000c003860001c3ff0000707fc000187ffc0198f38000770eff001c19fff000f4700001b1b33300766732000fffff70003f37180001fc060;
   0xe3dffc00ffe8f80007a6000000187ff800fee00000c03bff802ab9ffc00c00387003fff3fe000707ff000186ffe00b9ffff002606ffc00c19bff801fffffc00b1bf3b0026233000000f8070000630180000f8060;
   0x3c1f07c00fffe7c001fffffc0001861f801fffffc00fffe1f003ff987c00ffff07007fff01c0007161f00018705c00f1ffff007f07c1c00ffb807001fffffc00b19f1b003e33300001f9f07003fffffc001fffc70;
   0x380780000c03e1c003effff8000182000038bfffc00fff200003ff800000ffff03803ffe0000003e20000018200000f3800b003e0380000ff80000038002bc00f1db99803e3fbe000fe07f3803ffffec00ff07f30;
   0x30030000040000800180000000018000001000000005fc000000000000001554010000000000003e000000180000006100000014030000014000000300000000409109001c191c0007001f300155554c007000730;
   0x0;
   0x0;
   0x0;
   0x0;
   0x0;
   0x0;
   0x0;
   0x0;
   0x0;
   0x1c00c0002000700000001c000180070000006000000300300001c00c0000000000002101c0001000300000000c0000000000018000c000061c300001c01c0000700300000600c0000000300000c00c0000000300;
   0xc00c0007e0030001ffe0c000180030000e06070000300300000c00c0001ffffc0003300c0003e0030003ffe0c0002aaaa80018fe0c0000618300000c00c0000300300000e00c0000000300000c00c0000000300;
   0x1c00c0007fe070001ffe1c000186070000e06070000300300001c00c0001ffffc0007301c0001fc030003fff0c0003ffffc0019ff0c000061c300001c01c0000700300001c00c000fff8300001c00c0003ffc300;
   0xc00c00003e030001aae0c00018e030000e06070000300300003e00c0000e0c300006380c00003f830002eaa0c0002aaea80018c00c0000618300000c00c0000300300001800c000fff8300001800c0003ff8300;
   0x1c00c00000607000180e1c00019c070000fffff0000300300003700c0000f3cf0000e381c00001fc300006060c0000006000019c00c000061dff003ffe1c0000700300003800c000e318300015d40c0003800300;
   0xc07fc000063fe00188eff8001b83fe000fffff0007ffbfe000730ffc0003b9e0000c18ff8000183fe00060e7fc000007000018c07fc000619ff003ffeff8000303fe003ffeff800e31bfe003ffeff8003833fe0;
   0x3ffe7fc000067ff0018ceffc001907ff000006000007ffbff000e38ffc0001c7c0001c1dffc000183ff0006067fc00ffffff0019c07fc00461df7003ffeffc00fffbff007fffffc00e31bff003fffffc003833ff0;
   0x3ffe6cc000063220018cecc80018022200000600000030332001c1cecc0000ff0000180cc88006183320006066cc00ffffff0018fe6cc00e619b30000c0c8800fffb32001c0ccc800e31b32000030cc8001833320;
   0x39c66dc000067770018cecdc00180777003fffffc00030337003c1eedc00007e0000180dcdc007fc3370006066cc0001c1c00019fe6cc00765db30001c0cdc00e31b37001c1ccdc00e31b37000030cdc001833330;
   0x38c66cc00aae3220018cecc800183222003fffffc00030332003807ecc0003ffe000380ec88003ffb320006066cc000388e00018066cc003ef9b30000c0c8800e31b32000c18cc800e31b32000030cc800183b320;
   0x39c66dc00ffe7770018cecdc001877770015555540003033700161bedc00ffc3ff0071c7cdc0001fb37007fff6cc000718f00018066cc001ffdb3001ffecdc00e31b37000c18cdc00e31b37001570cdc00183b330;
   0x38c66cc00bae3220018cecc80018e22200000600000030332000638ecc00fe183f0020c7c8800018332003fff6cc001e18380018066cc000e19b3001ffec8800e31b32000e38cc800e31b32001ff0cc800183b320;
   0x39c66dc001867770018cecdc0019c77700055754000ffff37000638edc004018070000c1cdc00018337007fff6cc00fffffe0018066cc00061dff0001c0cdc00e79b37000630cdc00fffb37001ff0cdc00fffb330;
   0x3ffe7fc001863fe0018ceff8001983fe000ffffe000fffbfe000638ffc001ffff80000e0ff800e183fe0007807fc00ffffff8018fe7fc000619ff0000c0ff800ef9bfe000630ff800fffbfe001830ff800fffbfe0;
   0x3ffe7fc001867ff0018ceffc001807ff000fffff0005757ff000638ffc001ffff8000061ffc01ffc3ff0007c07fc004c18370019ff7fc00061d770001c0ffc00eddbff000770ffc00f55bff001838ffc00c003ff0;
   0x3aee0cc001860320009ea0c800f80032000e06060000780320006380cc001818180006600c8003ff8320006e00cc000c18300018c00cc000618b30000c00c800fdd8320003e00c800e018320018380c800c000320;
   0x39c64dc001863700001e07c001ff0170000e06070000781b00006187c0001c18180006705c00001fdb00006704cc000c18300019c06c000061db0007fffdc000fcd9b00003e04c0000019b0001c184c000c001f00;
   0x38c66c0001863300001e06c000fffb30000ffffe0000f81b00006186c0001ffff8000e30cc0000189b00006386c0000ffff00018c06c0000619b0003fffcc000f8f9b00001c0cc0000019b0001818ec000effdb00;
   0x39c66c0001867700011f0dc00019ff70000fffff0000dc3300006186c0001ffff8001c30dc00041833000061c6c0000ffff00018c06c000461db00001c1dc000f07b300001c0cc000401b30001c1ccc000effdb00;
   0x38c66c0001866300021b0ec000180a30000086000001ce3b0000618ec000061800001c388c000c183b000060eec0000618000018c0cc000c61bf80000c18c000e01b300003e08c001801b30000c0ccc0006003b00;
   0x39c6ff0001867fc0071b9ff0001807fc0003c6000003cf3fc00061cff0000f1800001c1dff000c187fc000607ff0001e18000018c0ff401c7dfff8001c1ff000e01bfc000771ff001c01ffc001c0fff0006003fc0;
   0x3ffeffc001867ff00319cbfc001807ff000fa6000003872ff00060cffc001e9800003ffdffc00c186ff000602ffe003fb8000018c0ffe00c6fb0f8000c3ffe00e01bff800e39ffc00c01fff800c07ffc006003ff0;
   0x3ffec7c01fffe1f00359f81c0018061f001fffffc00f07c0700060fc7c007fffff003ffd87c00ff8607000750c1c007fffff0018f5c1c00fe7d010001c307c00741e1f003c1f87c00fffe1f000d4787c007107070;
   0x3aaec0000fff800003f8f00000180000003fffffc00e01e0000060700000ebfffe00300c80000ff80000007e0c0000e2fffe00187c00000fe0c000000c1000007c180000380f80000fffa00000fc3800003f00000;
   0x380600000000000001f060000018000000300000000400c0000060600000600000003000000007f00000003e00000040000000183c000000004000001c0000007c1800003002000000000000007c1000001f00000;
   0x0;
   0x0;
   0x0;
   0x0;
   0x0;
   0x0].
Definition hanzi_rows_161 : list N :=
  [0x0;
   0x0;
   0x0;
   0x1c0c0c0000000300000e00c0000cc0300000000c000000030000000000000018000001c00c0000300300000000c0000700300000000c0000100700000c00c0007070300000000c0000c00180000000600000c0700;
   0xc0c0c000aaa8300000600c0000cc030000fff0c000aaa830001fffff8000018000000c00c000030030000ffc0c000070030003fff0c0000380300000c00c000303030002aaa0c0000c38180000000600000e0300;
   0xc1c0c000fffc300007700c0000cc030001fff0c001fffc30001fffff8001ffff80001e00c000070030000ffc0c000070030003fff0c0000300700000c00c000707030007fff0c0000c1818003fff060000060700;
   0xe180c000eaa8300006380c0000cc030001eae0c000aab830001806000001ffff80001e00c000060030000c0c0c000070030002aea0c0000700300000c00c000303030003fff0c0000c1818003fff060000060300;
   0x7387fc00e01c30000e1c7fc000cc030000c1c0c000001dff001c06180001ffff80003f00c000fffc30000c0c0c0000700300000c00c000070070001ffe0c000707030001c000c0000c1c180000e006001fff0700;
   0x2baa7fc00e00bfe000e8e7fc00aee9fe000e187fc000019ff000ffe180001818180003387f800fffbfe000c0cffc000703fe0000c0ff800fffbfe001ffe7fc00fffdff000c007fc000c0cff0018e33fc00fff3fe0;
   0x3fff7dc00e01fff001fff7dc00fffdff0007387fc00555df70003fe1c00018181800071c7fc00c01fff000c0cffc01ffffff003ffeffc00ffffff001cc67fc01fffdff001c007fc00ff8cff001ce77fc01fffbff0;
   0x3fff6cc00efcb32003afe6cc00fffdb20003f06cc00fff9b30000063e0001ffff8000e0e6c800c01b32000c0cccc00fffb32003ffecc8000603220018c66cc003031b3000cfe6cc00ffecdb000ce626c0001bb320;
   0xc06cc00efdf370010c46cc00ecddb70001e06cc01fffdb3000007f70001ffff8001c7f6cc00c07f37000ffccdc000703370038c6ccc00070737001cc66cc007071b3001cfe6cc00cc66db000ce676c00019f370;
   0xc06cc00eccb320000cc6cc00eccdb20003f06cc000399b3003fffe78000818000038e3ec800006332000ffcccc000703320038c6cc8000603220018c66cc003031b3000cc66cc00ce66db000cee26c00018f320;
   0xc06cc00ecdf370000cc6cc00ecddb7001ffc6cc00039db3003fff03c001c18000031c3ecc00006337000c0ccdc000703370038c6ccc00070737001ffe6cc007071b3001cc66cc00c67fdb000eec76c00ff8b370;
   0x1ffe6cc00eccb320000ce6cc00eccdb2007e0fecc000399b300000201c003ffa000000806c800606332000c0cccc000703320039e6cc800060322001ffe6cc003031b3000cc66cc00ce3fdb0006ec26c00ff83320;
   0x1ffe7fc00ecdf77001ffe7fc00ecddb70038c76cc007f9dff00000600c007fffff000d546cc00786337000c0ccdc000703370039e6ccc00070737001cc66cc007071b3001cc66cc00c631db0000e076c000183370;
   0xc07fc00eccbfe001ffe7fc00fffdb20000c07fc007f99ff000ffffe00060affe001ffe7f8003e63fe000c0cffc00fff3fe003b66ff8007ffbfe0018c67fc003ff1ff000cc67fc00c638ff003fffbfc000183fe0;
   0xc05dc00ecdfff0000c75dc00fffdff0000c07fc00619d77000fffff000600000001ffe7fc000fe3ff000c0cffc00fff3ff003f76ffc007fffff001cc67fc007ff1ff001cc67fc00c618ff007fffffc000183ff0;
   0xc02cc00ecc8320000c3acc00eccdfe002aea0cc006198b3000e06060003ffff8000e000c80003e032000ffc0cc00eab032003e360c8000600320018c60cc00303033000cee0cc00e6781b002aea86c000180320;
   0x7fff6c000efddb00000c36c000ecdc37003fff4cc00619db0000e06070003ffffc0006003c00000e130000ffc6c000e03130003e3e7c0000701f0007fffccc007071f0001cfe7c000e66c7b0000e036c00ff81f00;
   0x3fff6c000efc9b0003fffec000eccdb2002aea6c000618db0000ffffe0003aebb80007006c000006330000c0c6c000e031b0003c1e6c000060330003fffec0003031b0000cae6c000e26cd80000e036000ff83300;
   0x7fff6c000e01db0003fffec000ecddb00000c06c00061cdb0000fffff00038c71c0003986c000406330000c0ccc000e033300038066c000070370001c066c0007071b0001c066c00067fed80000e0760000183700;
   0xc0fe000e00bb00000c0fc000eccdb00000c0cc00060cff80001860000038c3180001b8ec000806230000c0ccc000e03330003806cc0000603b0001806ec000303330000c00cc00063ffd80000e0660000186300;
   0xc0ffe00e01fff0000c0ffe00ecddfc0000c0ff00060cfff8003c60000038c71c0001f0ff001c067fc000c0cff000e037fc003806ffc000707fc001c06ff0007073fc001c00ff00063c7fc0000e07f0000187ff0;
   0xc0c3c00fffbff8000c0c3e00eccfff8000c0ffc0060ef0f000fa60000038c3180000e0ffc00c067ff000c0cffe00fff7ff803806ffe0006067f001806ffe003ff3ff800c00ffe006180ff8000e07fe000186ff8;
   0xc000400ffff070000c040400ffff07007fffc7c00706701001fffffc01ffffff0001c1c1c00ffe61f007fffc7c00fff61f003807c1c01fffe07001c06c7c007ff717001d41c7c0071c1870000e061c00018e070;
   0xc000000e008000000c000000e00c00003fff800003e77000038bfffc00ffffff00038000000ffe200003fff80000eab200003e0600000fffc00001f0680000303000000fe0000007ce0000000e0200000180000;
   0xc000000e01c000000c000000e01c00000000000003e230000300000000000000000100000007fc00000000000000e03000001e0600000000000000e06000007070000007c0000003c40000000e0000000180000;
   0x0;
   0x0;
   0x0;
   0x0;
   0x0;
   0x0;
   0x0;
   0x0;
   0x0;
   0xc001c0000000000000700c0000000000001b0060000000300001c00c00001803000000c060000070300000e00e00001c07000000700000000030000000000000300300000600c0003000300001c00c0000700300;
   0x1fe0180007ffffc0000300c0003ffffe000df8060002aa8300030c20c00003803000000c060000060300000e00e00000c060000006000000000300007feaa8000380300000e00c0007e00300000c80c0000300300;
   0x7fdffc007ffffc0007f80c0007ffffe001dbf06000fff8300031c70c000030030003fec060000060300000e00e00015d175003fffffc00fffc300007feffc000380300001c00c0007ffc300001dc0c0000700300;
   0xdffc0000000c000ff80c00030c30e00198fc60003aa8300038ce0c000fffc30003fed860007fe0300000e00e0001ffbff003fffffc00fff83000060eae80007c0300000c00c00003f8300000dc0c0000300300;
   0xd5d4001fffcc000e1c0c00070c30e00398c460003c60300019cc0c001fffc3000070d860007ffc30001fff0e0001ffbff001575d540001c03000071e1c00007c030003fff0c0000310300001dc0c000fff8300;
   0x2aac180001fffcc00061e7fc0030c30e00318c3fc000ef1ff000cccffc003031ff00020dbfc0020fdfe001fff7fc0018c060000030c800018c3fe00063e0c0000ce3fe003fffff8000303ff001ffcffc00fffbfe0;
   0x3ffdfc00000000c00073fffc007ffffe00118c3fc0007c1ff000ddcffc003861ff00174dbfc0070c1ff0004e07fc0018fbf00003b0dc00038e3ff0007fe1c0001c73ff000410ffc000303ff001ffcffc000703ff0;
   0x2badffc00fffffc0003f36cc003ffffe00018c26c000f81b3000aeaccc0018e1b3003feda6c0039c1b2000ce664c0018fbfe000730ce0003063320027e68c000383b32000e38cc8000303b30000ceccc000303320;
   0x70c1fc00fffffc0001e06cc000000e0003ffff6c00fffdb7001ffeccc001dc1b3003fedb6c001f81b3000ce664c0019e07f001e30c70007073370077c7ff000703f37000c1ccdc01ffffb30001c6ccc000703370;
   0x30e1800038618c0003f86cc002aaaf0003fffa6c00fff9b3001ffeccc000f81b300326da6c00c781b2000eee64c00bbf060001c30c38007ffb32002607ffc00ffff32001c0ccc800ffffb30000c7ccc00abab320;
   0x7071c0001fc1cc001f3f6cc007ffffc00018c36c00e31db700180eccc000781b300376db6c00c7f1b30006ec64c01b33870001830c3800ffff37003f0387c005fff3700380ecdc015757b30001c3ccc00ffff370;
   0x3039e8000fbf8c003ccfecc006aaebe000b8c26c00e319b300180eccc003fe1b300326da6c00fefdb20006ec64c00f21e7e000036c0000c00b32003e03c0000000332003206cc8000303b30000c0ccc00ffff320;
   0x7071f000ff1fcc0030c1ecc00700e0f001b8c37c00f75db7001ffeccc01fcfdb300376db6c007c1db30004e464c00f01c7c000006000004703770000078000000037700761fcdc000303b3003fffccc000703370;
   0x600000f830cc001ffe7fc0073fffa001b8c3fc00fff9ff001ffeffc00e03dff00326dbfc002001fe003fffffc00001800000ffffe0000303fe0007fffe0000003fe00061aff8000303ff003fffffc000303fe0;
   0xfffff0007fffec001ffe7fc0073fff8001f7c3fc00fffdff00180effc003861ff00376dbfc00ffffff003fffffc001ffffc000fffff0000703ff0007fffe0003ffbff000730ffc005753ff0003f0ffc000703ff0;
   0xffffe0003fffee0000c00cc00338e18000f7f86c00e3183300180e0cc0038603300326c06c00fffe320000e00ec001ffff8000e0606000aba832000606060003ff8320003300c8007ff8330003f00cc00aba8320;
   0xe060700038706e001ffe4c400738e18000f1ff6000e31d37001d5e4c40038613000376c16c005f74f00001f03e00018181c000e0607000fff9b0000606060003019b00003f06c0007ff9330007f06c000fff9b00;
   0xe060600038306e000ffe6c00033fff800070cb6000ebb9b0001ffe6c0003861b000326c360000e61b00001b02e000181818000ffffe000fffbb000060606000301bb00001e06c0006019b00006d86c000fffbb00;
   0xfffff0003fffe60000c06c00073fff800070c76000fffdb0001ffecc0003861b000376e360000e71b00003b86e0001ffffc000fffff0000703300007fffe000301b300001c0cc0006019b0000ddccc0000703300;
   0xffffe0003fffe60000c0ec00030ce1800230c3e000ebbbb000180ecc0003863b0003a66260000e71b00003386e0001ffff8000186000000303b00002aeaa000301b300003e0ec0006019b0001ccefc0000303b00;
   0x386000001c7007003ffffd00031ce0000678c7fe00e31ffc00180ffc0003873fc001f677f000ce73fc00071c7f000071800000786000000707ff0001c600000301ffd0007f1ff000601bfc0039c7ffc000707fc0;
   0xf0600000383007002aeaffe0033fffc0027cc6fe00e31bff00180fffe00383bff0002036fe008e3bff000e0effe001e1800000ea6000000306ff800786000003abeff800f39bfe00601bff8038c78fe000306ff0;
   0x1fffffc007ffff70000c0c7c003f7ffc007efc60400e31f1f00180f9fc00383d07000703e1c01de1d07001c07c1c007fffff001fffffc01fffe07001fffffc003ffe07001e1f81c007ffb070031c381c01fffe170;
   0x3fffffc00fffffb8000c0400003f0008003c7f80000ff1b00001f0e80000381e0000020180000fc0f00003803c0000fffffe003bffff800fffc00003fffff8003ff80000380f000007ffb000000c100000fffc000;
   0x300000000c000030000c0000001f0000001c27000007f1c00001f0e00000380400000701000007c06000010018000040015f0018000000000000000380157800301800001006000006018000001c0000000000000;
   0x0;
   0x0].
Definition hanzi_rows_162 : list N :=
  [0x0;
   0x0;
   0x0;
   0x0;
   0x0;
   0x0;
   0x0;
   0xd8006000000030001006060001030300000000c00018e030000c0c0c000001c00000030c0000001c180000000c00010303000100006000400018000306060000000300000c00e000600018001c000c0000000300;
   0x1d80060007ffc30003c0606000383030000ffc0c00018e030000c0c0c000001800000030c0000000c18001ffe0c000383030003e0fc6000f83f18000306060007ff8300000e00e00060e018003ff80c0007ff8300;
   0x3980060007ffc30001f0606000186030000ffc0c00018e030000c0c0c000ffffff001ff0ff800540c18001ffe0c000387030001fffc60007fff18000306060007ff8300001f00e00061fc180007ff0c0007ffc300;
   0x318006000600c300003c6060000ce0300007000c000fff830000c0c0c000fffffe001ff0ff800fe0c180018060c00018e0300003ee860001fba18000306060007018300003b80e000663f1800180b0c0006ab8300;
   0x7fff86000630c300001c606000fffc300003800c000fffc30003fff0c000e10f07000030c0000fffe18001c060c0001cc03000030e3fc001838ff00033f8600070197400071c0e0006636180018770c000701c300;
   0x3fffbfc00630dff0000c63fc00fffdff0001c0ff80018e1ff003fff7fc00e39c06000ff0ff000e7fefe0018067fc002ee9ff0003063fc001818ff00033fbfc00701bfe000e0e7fc006630ff001c667fc006019ff0;
   0x1807fc006fedff0001ffffc000301ff0000c0ffc0018e1ff000c0c7fc006df9d7001ff0ff000e637ff001ffe7fc007ffdff00030736c00181cdb003fffbfc007ffbff007c07ffc006630ff000c667fc00701dff0;
   0x38026c006fedb30000ffb6c000301b3003fffcc80018e1b3000c0c6cc001ce198000030c0000e63692001ffe64c006ab93300030336c00198cdb003fc636c007ffb32003803e4c0066309b000ece6cc007ff9b30;
   0x11bf76c00630db30001c636c007ff9b3003fffcdc0018e1b3000ffc6cc007a7ddc001570d5400e633930015d464c00601d3300030336c00198cdb00330636c00000337000ffe74c0067ffdb0006cc6cc007ffdb30;
   0x3bbf26c00630db3003fc636c007ff9b30000c0cc800fffdb3000ffc6cc00661f8e003ff0ffc00e632920000c064c00601933003fffb6c00f9fedb00330636c00000332000ffe64c0067fe9b000ffe6cc000001b30;
   0x1bb376c007fedb3007fcf36c005751b30000c0cdc01fffdb3000c0c6cc0067fff4005570d5400e631930000c064c00601d33003ffff6c00f9ffdb00337ff6c007fff370000c074c006638db001fff6cc000001b30;
   0x1bb326c007fedb3000ccf36c000381b30000c0cc8000001b3000c0c6cc0003fffe000032c0000e7fe92003fff64c00601933000308b6c0019a2db00333fb6c007ffb320000c064c0066389b000eaa6cc00fffdb30;
   0x1f3376c00600db3001ddf36c000381b30000fccdc000001b3000ffc6cc0000181e00001640000e7ff93003fff64c007ffd3300031c36c0019f0db00335776c00601fff0000c074c00667cdf0007806cc00fffdb30;
   0xf333fc00600dff000cf7bfc00fffdff0000f8ff8007ff1ff000ffc7fc00001800000ffffe000e630fe0030c37fc007ff9ff00030dbfc0019b6ff0033063fc00601bfe003fffffc0066fcff0001c07fc000381ff0;
   0xf3f7fc006fedff001cf7bfc00fffdff000000ffc007ff1ff000c0c7fc001ffff8000fffff000e631ff0030e37fc000cc1ff00030dbfc0019b6ff00331f3fc007ffd77003fffffc0067fcff0000e07fc000381ff0;
   0xf3f06c006fec33000cc786c00078033001ffe0c800603033000c0c0cc001abab8000e0606000e6301a0031e30cc000ce03300030d86c0019b61b00339b06c007ff8320000c00ec0067b61b0000e00cc000380330;
   0x700364006c6c31001cc7d6c0007c130001ffe7c000703131007fff8cc00181818000e0607000e670d80033f33cc000ce1b000030d3640019b4d90031b316c00601db00006c40ec006637d8003fffec401ffff330;
   0x778360006c6cb0000cc6f600006c1b0001b266c0007ff1b0003fffac000181818000e0606000e678980033333c0000c61b000030736000199cd80031b336000601bb0000ece3e0006633d8003fffec000ffffb00;
   0x77f760006c6db0001cc67600006c330001b366c0007ff3300055556c0001ffff8000fffff000e6d99800373b7c0000c61b0003ff736000ff9cd80031bdb60007fff30001cc67e0006633d80000e06c00007c1b00;
   0x278fa60006feff0000ce63600006e330001b26fc0006033b00002386c0001ffff8000aaeaa000e7d9f8003e1f6c0008c6330003ff63e000ff98f80038ffa60007ffbf00018c66e0006030f80000e0ec00007c1b00;
   0x67c1ff0006fe7fc001c667f001c673fc001b36ffc007033fc000f1c7f0000f180000070600000ff9dff00340f7f001cc73fc00000f7f000003dfc0018e7ff000601fff8038c77f0006031ff8000e0fd0000ee3fc0;
   0x66e07fe0060673f000c662fe00863bff801b26cfc006036ff000e0ecfe001c1800000e0600000fe8f3f8030037fe008c3bff80003fefe0000ffbf8018e0ffe00601a3f8038c3ffe006031bf8000e0ffe001cf3ff0;
   0x6c7061c00600707001c7661c01d63f1f007fffc1c007ff61f001c0fc1c007ffffe001fffffc00e60701003003c1c00fc1f1f007ff9e1c01ffe787001f6061c00601d010010c167c006031810000e0c7c00787f070;
   0x3c38000007c0300000c3620000fe0e00003fff800007ff20000380780000fffffe003affffc00e60300003f0300000fc0e00003fe0e0000ff8380000f70200007c18000000f8200007c30000000f840000f01e000;
   0x3810000007c0300001c06000007c0400000000000007030000010030000040000000100000000040300001f03000007c040000150040000540100000520000007c1c00000078000007c3000000078000004006000;
   0x0;
   0x0;
   0x0;
   0x0;
   0x0;
   0x0;
   0x0;
   0x0;
   0x0;
   0x180c00001800000040c0e0000c0c180000000c00001c0300000000c00003803000004006000000030001c000600030303000000006000000030000060060000000300000c00c0000700300000000c0000700300;
   0x180c000018ffe000e0c0e0000e1c18002aaa0c000018030003ffe0c0000380300000e0060007ff830000c3806000383030003fff860003ff8300000e0060007ff8300000c00c000631830000ffe0c0000380300;
   0x1c0c000ffcffe0007180e000061818003fff0c000038030003fff0c00001c0300001f0060007ffc30001c7f06000187030003fff860003ff8300015d5060007ffc30003fff0c000331830001ffe0c0000380300;
   0x3ffc0c000ffc7380003380e000063818002aaa0c0007ffc300000020c0007ff8300003f806000601830000c0fc600018e03000300186000301830003fff86000630830003fff0c0003b30300008060c000fff8300;
   0x3ffe0c00075e1f0003fff8e001ff55180000000c0007ffc30001ff70c0007ff83000079c06000601c30001dcdc60005d543000300186000301830003fff86000631c300000c00c0001ff030001c060c000fffd750;
   0x77fc0038fbea003fffbfc00ffffff001ffe7fc00600dfe001ff27f800601bfe000e0e3fc007ff9ff000f8c3fc007ff9ff003001bfc003019fe003003bfc006ba9ff001ffe7fc002ba9fe000ffe7fc00e31bff0;
   0x1fffffc0019ffff0001b07fc0003ffff001ffe7fc00600dff0018377fc007ffbff007d57ffc007ffdff001f0c3fc00775dff0037fdbfc003ff9ff003007ffc007ffdff001fff7fc007ffdfe001ffe7fc00e31fff0;
   0x1fffecc000f8cf00001b024c00038c9b0018066cc00600d92001ff26c8007ffb32003ffff6c006019b3000e0c26c006319b30032e9b6c002ba9b2002006a6c006ba9930000c06cc002ba9b20008066cc00fffb330;
   0x180f6cc000f07f8001fff64c007fccdb001c066cc007ffd93001ff76cc00601b370007feb6c007ffdb3001c7ff6c00631db3003061b6c000301b7003f9676c00631d93007fff6cc0001c1b3001c066cc00ffff330;
   0x1ffe6cc000f868e001fff24c00fe0c9b001aae6cc002aad920018326c800601b3200080036c007ff9b3000c7fa6c007ff9b3003061b6c007ffdb2003ffe26c00630993003fff6cc0000c1b2000ffe6cc00e31b330;
   0x1ffe6cc007ff1c70019b364c0060fcdb001ffe6cc00000d93001ff76cc007ffb3700197fb6c005575b3001dce36c007ffdb3003061b6c007ffdb70039f776c007ffd930000006cc00ffffb3001ffe6cc00e31f330;
   0x180e6cc00f8f8f00019b324c0030fc9b0000006cc00fffd92000aa26c8007ffb32001b7fb6c000039b3000fce26c006319b30033fdb6c00630db20039b326c007ff993001ffe6cc00ffffb20000186cc00e31b330;
   0x1ffe6cc0040107000199364c0038ccdf0000006cc00fffd930001c76cc00000337001b63b6c00fff9b3001f1f37c00631db30037fdb6c00631db70039b376c00030193001ffe6cc001871b300001c6cc00ffffff0;
   0x1ffe7fc0000180000199b3fc0018ccff003fff7fc00cdbdfe003ffa7f800aaabfe001b63bfc00fffdff000e3f3fc006319ff003161bfc006badfe0039b1bfc000301ff0018067fc003039fe003ffc7fc00fffbff0;
   0x707fc003ffffc001d9b7fc0018ccff003fff7fc00cdbdff003fff7fc00ffffff001b7fbfc00c30dff001c7f3fc007ffdff003361bfc007ffdff0039b7ffc00ffffff001c067fc007ffdff003ffe7fc001dc0330;
   0xff80cc003abab8001f8f0ec00ffcc1b0038c30cc00cdbc32000c620c800aba832001b7f86c00c3063b000c6d86c007ff83300366186c00630c320039be86c00fffe33001ffe0cc00effe320033270cc000ce1b30;
   0x1ffc6c40038181c0018073e001ffccd80038c36c000cdbcf0000c777c0000301b0001b639ec00c39efb007f2df600003013300366196c00631df0003d9c36c0007c0f3001d566c400dc7ff0003333ccc001c79b00;
   0xe0e6c0003818180018036e00018ced8003fff6c000fff6b00007e26c0000301b0001b6bb6000e78cb8007fecf60000301b00037ffb6000630db0001f98360000fe0f00018066c0000c32b0003bb96c000aebbb00;
   0x71f6c0003ffffc001fff6e00018c7d8003fff6c000fff7b00007876c0007ffb30001b7fb6000fcfdb8001fecf6001ffffb00037ffb60007ffdb000059c760001f70f0001ffe6c0001d71b000399c6c001ffff300;
   0x3bbec0002abaa8001fff6e00018e6f80038c36c000cdb7b0001fe2ec0007ffb30001b63b6000e86db8000c2c3e000ffffb0003001a60007fffb000018c660003b30b0001ffecc0000f31b000398cec000fffff80;
   0x1f1ff0001e18000018037f0001867ff8038c37f000cdb5fc001c7fff0000303fc001963bf0007ffdf8001c0c7fe000303fc003001ff001c31ffc00618e7f000733dfc001c06ff0006573fc0018c6fd0001c03ff8;
   0x3f0ffe00381800001803ffe001863bf8038c3ffe00cdb3ff00000affc000302ff801863bfc006fffff000c0c6fe000303ff803fffffe008303ff002186ffe00e31fff801806ffe006033ff0018e7ffe000c030f8;
   0x1fff41c007fffff001fffc7c00186301003fffc7c00cdb307007fffc1c01ffff1f001873e1c0060031f001c0c6040003031f003fffe1c01c30307007187c1c00c30f87001c07c7c00757307001873c7c001c01000].
Definition hanzi_rows_163 : list N :=
  [0x3e0f80000efffff001aab000001e7b80003fff00000fdb300003ffe00000fffe00001e7b800007c0100000c0c00000030300003001a0000ff0000003f8380000030000001f86000007fe000001f38800000c00000;
   0x380180000c00000001803000001e79000038030000070300000000000000000000001e3b800003c0000001c0c00000030000003001800007e0000001f0100000030000000f06000003fc000000f10000001c00000;
   0x0;
   0x0;
   0x0;
   0x0;
   0x0;
   0x0;
   0x0;
   0x0;
   0x0;
   0x71c06000018000000404060000000380000e00e000030018000380000000300300000000c0000700300000e00600000101800071c0c0000300300000c00c000030030000c700600000381800300c060000180180;
   0x31806000318efe000c0e06000fffe380000c00e000038018000387ffc00036030003fff0c0000380300000c0060000018180003180c000030030001cc60c000030030000c6306000fe381800300c060000180180;
   0x3fffc6000399cfe000e1c06000fffe380015d50e00057d418000387ffc007ff830003fff0c00057d0300015d506000fe3018007fff8c000575430000cce0c000030030000c7306000fe381800300c0600001c0180;
   0x3fff860001998ee00061806000c00638003fff0e000fffc18000380000007f3c30002aab0c0007ff830001fff06000feba18003fff8c0007ff830000ecc0c000fffe30000c6306000c638180033ffc6000fffe180;
   0x71c0600019d8c600071806000c007ff003fff0e00055d418000381ff800630c300001c37fc0075783000175d06000c7fe1800071c0c0007ffdff0007dc0c000fffe30007fffc6000c638180033ffc6000fffe180;
   0x3183f800fffec60002083fc00eaaeff0000c37fc000180ff001ffbff800630dff0000c37fc00603bfe000e183fc0066c6ff0003187f8000181ff003fff7f8000381ff003fffffc00c638fe00330c3fc000c60ff0;
   0x15553fc00fffec6003fff7fc007ff9d7001fff7fc007ffdff001ffb818007f7dff001ffb7dc007ffbff0006187fc0067c6ff00051c7fc007ff9f7003fff7f8000181ff000c737fc00c7ffff00330c3fc003971ff0;
   0x3fffb680000e0ee003fff26c00601893001fff64c007ffc9b001bbb818007b7db3001ffb6cc007ffb3200031826c0066c69b003fffec8003ff9b30003f06c800fffdb3000c6326c00eefeda00337fb6c003338930;
   0x3fffb6c000060fe00011066c007019d30018c364c0000c1db00191bff800630db300181b6cc00603b37003ffff6c0077fedb003fffecc0015d1b30007f86cc00fffdb3000ff376c00fe38db00337fb6c00f31f930;
   0x11036800aaeafe0003b826c007ff8930018c364c00aaea9b00191bff800630db300181b6cc00603b32003fffa6c0036fe9b0038a3ec80000c1b3000edc6c800e80db3000fe326c00ee38da00336cb6c00fffe930;
   0x11036c01ffffc6000f1c66c007ff9d3007fff64c01ffffdb001918000007ffdb3001ffb6cc007ffb37003063f6c0037c6db0038e3ecc00fffdb3003ccf6cc00ec6db300000376c00c638db00336db6c003ff5930;
   0x1fffb6800babac6001c0e26c00601893003fff64c0018309b00191aaa8007ffdb3001ffb6cc007ffb320030c3a6c0026c69b0038e3ec800fffdb30038c3ec800eccdb3002aab26c00c638da00336cb6c000300930;
   0x1fffb6c003198c6007807e6c007559ff0018c364c003c39db00191fffc005755b300181b7fc00603b770000c076c0067fedb0015f56cc001871ff0010e16cc00e6cdb3003fff76c00c6fedb00336db7c000301930;
   0x199bbf800719cc6002003bfc007ff8ff001fff7fc007ffcff00191a00c000301ff00181b7fc006abbfe001fff3fc00e6feff003fffff8003831ff0000607f800ffedff002aea3fc00c6fefe00337fbfc00fffcff0;
   0x199bbfc00fffefe001fff7fc0055517f001fff7fc01e3ffff001fffc6c000301ff001ffb0cc007ff9ff001fff7fc00c656ff003fffffc007ff9770015757fc00fffdff0000607fc00fec6ff00337f97c00fffdff0;
   0x199b86800fffffe001ffe06c000380bb0000c38ec00c3861b001ffa6cc00fffc33001ffb0c8002aa83200003806c00c6061b0001f00c800fffc33003fff8c800e30c33002aea86c00fec61a00330e0680002001b0;
   0x1bbb96000b19fc60019b726c015754f80015d78ec0057d41b0003876cc007ffd330001837c00003c1b000001836c00c6765b0003f80cc01f83fb0003fff3c000e30c33007fff86c00c7c6db00331e1600003009b0;
   0x1ffbb60003188c60019b236000fffeb8001fffae0007ffcd8000b82fec003039b0000dbb6c0002761b0000ff836000c666d80003f86c000b835b00006182c000ffecb0002afab6000c2c6d800333e360000300d80;
   0x1fffb60003ffcc70019b776001fffff8001ffdee0007ffdd8001b87ffc003871b0001d99fc000767d30000ff876000c6e6d80006fc6c0003ff1b000071c6c000fffdb00001f876000c7c6d800307f360007ffdd80;
   0x1ccfbe0003ff8c60019b26600008e1f800180dee0000fe198001b8218c001ee1b0001999fe000606bf0000c1866000eee698000eee6c0003ab3f000033e6c000e30db000037c7e000c3ee9800306fbe0002ba9980;
   0x18c7ff0001980c70019b77f0001c71ff801c0dff0001ff1fc00338718c000fc3fc00399ddfc00f86fff000c1c7f000f7fffc001ce77f0003833ff0003f87f000e30dfc000f6e7f000c3fffc00304dffc000301fc0;
   0x1803efc003180c30019b26fe0038398f00180cefe003bbbff803f8218c000fc3ff80318f81c00f86f3f000c0e7fe0007bfff8038e3ffe0038333f8007e0ffc00e30fff801c676fe00c387ff80300ce3c000303ff0;
   0x1803e1c007ffec3007fffc1c00f01c01001ffcc1c00739f07003fff18c007ffb1f007187c0001d86c01000e0741c00078f870030e3c1c003ff701001ffcc1c00e30f07007c63c1c00c1859f00300c40000ffff070;
   0x1f0380000fffef3803fff80000e00e00001ffce0000638c000020fbd8c00f83e000001f0c00009fe4000007c3c00000602000000e0800003ff000003c3f00000fb0d0000306180000f98080003e0c00000fffe000;
   0x1f0380000c0047100000000000c00400001c0c40000038400007001c0c00c01c000001e0000001fc0000007c1000000600000000e00000038300000100700000780c000000600000078c000001e0c000000000000;
   0x0;
   0x0;
   0x0;
   0x0;
   0x0;
   0x0;
   0x0;
   0x0;
   0x0;
   0x6180600030003000000c0600000e01800071c0e00001801800030c06000300038000000000001c6030000070060000007000000000c0000000180000c00c0003805540000e0180000180300003300c0000380600;
   0x618060007fe83000380c060000060180006180e00003801800030c060007f80380003fffe0001860300000600600002ab80001fff0c000fffe180018c70c000380ffe000062ba8000380300003300c0000180600;
   0x175d060001ffc3000185d460001ff018007fff8e000fffc18003fffc60001ffc380003fffe000fffe300015f5060000fffc0001fff0c000fffe18001cc60c000380d56000073ffc00fffe30007fff8c00055cfff0;
   0x3fff06000231030001cffc60001eb018003fff8e000fffc18003fff86000233c380000fbe0000fffe30003fff860000381f80018630c0000cc018000cce0c000baac06003ff018000fffe30003fff8c000ffcaea0;
   0x3fff06000731830000effc60000c181800071c0e00018701800036c0600073183800001fc00001c61ff003fffc600001e7be0018630c0000cc0180006cc0c000ffeffe003ff9ff800fffe300003300c000ffe0600;
   0x6187fc003331ff00060c3fc00aebcff0006787fc000c60ff0000603fc003330ff000abeaa8001861ff0000603fc0000fe0c001fff7f800fffcff003fffffc00baa006000c3dff800686dfe0003307f80030ffff0;
   0x6187fc001b71ff00077fbfc00ffffff000f607fc01ffffff001fff3fc001b71ff001fffffc007ffdf7003071ffc0001ff00001fff7f800fffdff003fffffc0038cff6000e7d5d4006fcdff003fff7fc0039ffff0;
   0x3fffe6c00ffffb30003ffb6c00e21e9b001e6064c00fffe9b000fff36c00fffe93000e0f800007ff9b30019bba6c00bfe3f80018636c800cccc93003003ecc0038caa60006e3ffc00678d920033336c8001f87b60;
   0x7fffe6c00ffffb300305536c00e31bdb007fffe4c000001db001c6036c00ffff9300070df0000601db3001ddf76c00ff7e7f801fff6cc00cccd93003557ecc00399ffe0007c00c00067cd930033336cc000f0db60;
   0xc066c000fc1b300380036c00e3189b003fffe4c002aa89b003fffb6c000fc09300038c7c0006019b3000cfa26c0080f883001fff6c800fffc93003fffecc003b9ffe000381fe0006ced92003fff6c8000f0dbb0;
   0x1fff66c001f71b3001c7fb6c00fff9db0003b864c007ffddb007ffff6c001fe19300010c1fc007ffdb30004f476c00005fc00000386cc00fffd93000d5c6cc003905b70007f1fe000686d93003fff6cc001fd9990;
   0x1ffe66c003b39b3000c6bb6c00fff89b00031864c00600c9b00086036c003b709300000fc38006ab9b3000de626c0000fe0000071c6c800000093000c0c6cc00380db3001e7d830007ffd920033336c80078f9ac0;
   0x18c766c01f31db3000e61b6c0041e1db000f1e64c00755ddb001fff36c00733d93000187d8000601dff001f3776c0006f0600003ff6cc007ff993000c0c6cc0038199b007c1df3c007ffd930037776cc00f071ef0;
   0x18c67fc00e30fff000761bfc00e1f8ff003e0fffc007ffcff000fff3fc00e31eff000ba8ba8007ff9ff003bfbbfc000600600000ff7f8007ff8ff000ffc7fc001e09eb803006f0c000381fe003fff7f8004018060;
   0x1fff7fc007ffdff0007ffbfc007b1fff003f1fffc00701dff0000603fc00c1c5ff001ffdffc007ffd770037fdffc007ff7ff000e757fc005551ff000ffc7fc001e19c1000fffff40055d5ff0015557fc003ffffc0;
   0x1ffe06c007ff83300027f86c001f841b0026180ec00600c1b00186106c0003803b001989988000380b300022006c006ea6ea000c3c0c80000001b0000c00cc003ffff8000ffffe000fffc32000aaa0c8003ffff80;
   0x18c716400631cf000707316c003ef0db00071c3e0007ffc190019f936c000760f800198d99c000381b000006006c00667667001fff3c001fffe1b0000c07c0003ffffc000c0607000fffcf0001fff3c00038181c0;
   0x18c6260006319b0003033360003738d8003fffbe0002ba8d8001969360003e68b800198998800fffdb0003fffb6000662662003fffac000fffe98001ffe6c000381818000c0606000e6ccf0001aae2c0003818180;
   0x1fff660007ffdb000183736000779ed8007ffffe0000381d8001b6d36000746db8001ffdffc00fffdb0007ffff60007ff7ff0070d76c000139198001fff6c0003d5d5c000fffff000ecedf00018076c0003ffffc0].
Definition hanzi_rows_164 : list N :=
  [0x1ffe660007ff9b00018362600067c0f800061c7e000ffff98001b6dbe000606db8000ba8ba80007c3f8002aeae60007fe2ea0006cc6c0003bb1980000c06c0003ffff8000ffffe000efedb0001ffe6c0003ffff80;
   0x7307f000631dfc001cfc7f0006671fc00071c7fc01fffffc001b6dff000f86dfc001d80d80000fc3ff8000607f000760360000ec67f0007399fc0000c0ffc001d5d5000070600000fffdfc001fff7f0001c18000;
   0xe38ffe00631bff800effffe00c63dbf80060e6fe000381ff801a6de7c00d86dff801981980001ce30f0000607fc00660260001cc7ffc00e39fff0000c0ffe00381800000e0600000f82dff001806ffc003818000;
   0x1c1fc1c007fff17000707e1c01c61f0700070f40400038187001e67c1c01dd651f003ffdffe007c7c0100006047c00fff7ff0038c3c1c00c38f07007fffc1c007fffff001fffffc00e00d07001fffc1c007fffff0;
   0x3807800007ff8000003c00000003e20000060780000038180001860c00009fe000003bffbfe00f03e0000006040000ffffff0030f980000c3e600003fff80000fffffe003fffff800fc0c00001ffe00000fffffe0;
   0x100100000601c000001800000003c00000070100000038000001860c000007c00000700300000c00600000060000018004000000780000001e00000000000000c0000000300000000780c00001807000004000000;
   0x0;
   0x0;
   0x0;
   0x0;
   0x0;
   0x0;
   0x0;
   0x0;
   0x0;
   0x1c0000000700000070000000001800000600000000104000007000000001c000071c060001c6018000000060001c70180000000c0000180180000070000000601800000006000181038000000060000380180;
   0x1ffe18000aaa87000000700000fefe18001fffff800fffb0e000aafaa80007ffc000031806000186018003fff060000c6018003fff0c000038018000006000000ae018003ffcfe000383038003fff860000380180;
   0x1ffe1c000fff87000000300000d6d618001fffff800fff98c001fffff80007ffc0003fff86001fffe18003fff06000fffe18003fff0c000575418007fffffe001ff018003ffcff0001c7038007fff86000fffe180;
   0x1aea0c000fff83000000380000fefe180002aeaa000cd998c0000038000003aae0003fff86000fffe180000c006000fffe180039130c000fffe18002aaaae8000e38180018e063800fffe3800033006000fffe180;
   0x1c615d00006057d00000180000d6d6180007fffe000cd99dc000fffff00003ffe000071c060001d7018007fff860001c70180039130c0005556180007fffe000575c18001873ffc00fffe38003fff060000380180;
   0x1861ff8000603fe000fffff000fefefe00060606000cd9aea000aabea0000380000003183fc000339ff003fffbfc000c60ff003bbb7fc0030e6fe0007fffe000fffeff001e3fffc000380ff003fff3fc007ffdff0;
   0x1c71f5c000707df000fffff000d6d6ff0007fffe000ffffff003fffffc00ffffff001fff7fc005759ff0070c1ffc00ffffff003fff7fc0019c6ff000000000015d5fff0007bb338007ffdff0033337fc007ffdff0;
   0xc61b48000382da000ebaeb000fefe9200000600000aaeaaa003fffffc00180e00001fff26c007ffd9b002fdfa6c00fffe9b000aae6cc00fff6da0007fffe0003b8e9b002bb3ff8007ffc9b00333326c00638d9b0;
   0x1c71b5c000f86db000c30c70000718d3003fffffc000060dc0001d57c0003f1ff00019b376c00071d9b007fdff6c00c007db00000c6cc00fff6db0007fffe00071eddb003ffb7580003819b003fff66c007ffd9b0;
   0xc21b48001fc2da000c30c3000fff89200380000800aae18c0003fffe0000ffe3c0019b326c007fff9b0000c026c00dff69b003ffe6cc000c86da00060006000e66c9b00039f31800abaa9b003fff26c007ffd9b0;
   0x1c71b5c003bc6db000c30c7000fffcd3003fffffc00fff18e007fc01fc0003f7c0001fff76c007fff9b001fdf76c001551db003fff6cc007ff6db0007fffe000460ddb0017d7ff800ffff9b00000066c00739d9b0;
   0xfffb480073e2da000c30c30007ffe92003aaae8800c0bb060038fffbc00063cfc001fff26c00061b9b0000c026c0000009b003833ecc007ff6da0002aaaa000fffc9b003fff31800bbba9b001ffe26c006bad9b0;
   0xfffb5c00e376db000c30c70007fffd30003fff8000c19f070001c0180001e67840007c076c007ff99b00555576c00fffddb003031ecc006d86db000fc71f800fffddb0017d7f1c0033999b001fff66c007ffd9b0;
   0xc31b4801c33ada000c30c30002eaefe0003aabe000cff2ab0000fff8000f821f8001cc03fc000619ff003fffbfc00abe8ff003bfeffc00fffefe000fc21f800000cff000383c0e0033b8ff0018023fc003b81ff0;
   0xc31b5c00c31edb000c30c70007ffcff00035577c00dff7fe00015550000743c7e003fff7fc00fff9ff0055757fc0060f1ff003b777fc00fffeff000cdfd98007fedff00010600400ffffff001fff7fc0077c1ff0;
   0xc31b4800030ada000c30c3000060c1a0003fff0800e9b2d200018018000060c60003fff06c00fff81b00006006c0079fe1b003b320cc006c861a000cdfdb800000c1b0007fffe000fffe1b001aaa06c00fffe1b0;
   0xc31b5c000306db000c30c7000fffc5800018018000d9b6d6001ffdffc007ff7fe0009c316c00001859003fff360001fc45b003b773c0007dd678000ddadf8007fec190007fffe00000001b00180706c01d7fe590;
   0xc31b48000302da000c30c3000000cd8001ff9ff800eff2d2001ba9ba8007fe7fe001c83360007ffe98003fff360001f70d8003bfe6c0007ff6d8000fdad98007fecd8000606060007ffc98001ffe3600081c0980;
   0xc37f5c00030fdb000c30c70007ffcd8001ddddd800fff6d600199d99c00667666000d9f360007fff98003333760001bbed80019306c0001dc6d8000fdfdd800000dd8000606060007ffd980015d57600033f5980;
   0xc3bfe800030ffa000c30c30003ffc9800198998800ed82d2001ff9ff8007fe7fe0007bb26000383198003333660003bce980039306c0003ce6f8000edfdf8007fef980007fffe000600d980000c066000673d980;
   0xc387fe000301ff800c30c70003c71fc001ffdff8006d8fd6001ffdffc007ff7fe0007b3ff0001ff1fc0033337f00077f1fc001bfdffc007de7fc000e5f1d8007567fc00075754000601dfc007fffff000627dfc0;
   0xe3803e0003000f803fffffe000fe1ff000d80d80007ffffe001980980003603600023c1ffe000fc1ff8033337fe00e339ff801bffcfe00ecb7bf002c7a188006067ff80070600000600fff802aeaffe00d837bf8;
   0x7fff00400030000007fffffe001ff187001fd1fd00079f9ff003fd5ff4007f57f50037f1e1c007ff10700333365c01e31f87001f0541c01cd9f87006c7fd8c007fe787000ffffd0007fff1f0000c061c01dd77070;
   0x3fff00000030000002aaaaaa00fefe00003fffffc00780003003fffffc00ffffff003e38c0000fcfe00003f332000083e200001f00000008c8b00003c30dee007fe300001fffff8007fff000000c0000009fe6000;
   0x3000000000000000701e000030150140078000000701701400c05c05001c1080000601e00003f330000001e000000f00000000d8300003c301c40060620000180015000601c000000c0000000fc0000;
   0x0;
   0x0;
   0x0;
   0x0;
   0x0;
   0x0;
   0x0;
   0x0;
   0x0;
   0x700000001c00000600040001000100000000400000180000007004000000040000007000000000180000018400000181000000004000001c300000010400000041000000004000000070000000180000600600;
   0x7000000038000006000e0003800380000000e0000018000000700e0000000e000000700000abffd80000018e0000018380000000e000000c380000038c000aa0e380000000e000aa8230000000380000600600;
   0x155f55400ffffff0006001c0001c0070003fff9c0007ffffe0000701c0000001c000000e00000ff7ddc003f1fc7000fe1c1c003fffe7000fe1c1c003fc18e000fe1c1c003fbfe7000ff8f38003fff1c000c630700;
   0x3fffffc00ffffff000600180000f0060003fff980007ffffe0000701800000018000000e00000ff3cce003f1fc3800ffffdc003fbfe3800feae8e003fbf87000fe180c003fbfe3800aabc1c003fff0e000e630300;
   0x1555554005555550006001800007c060001d5708000555d5400007018000000180003fffffc0003ffc600001cc1c00015d4e00000303c0000ff8f00003fc380001ffce00000701c0000180e000000078006677ff0;
   0x383800006007fc0001e3ff001803ffc00001800000070ffc00001ffe003fffffc00033cc700000c61c00000c0780000389e0000aea780002ae380001ff8700000608e0000002780000003c006667ff0;
   0x3fffc0000f81e0007fff7fc0000f9ff001c777fc003ffffc000071ffc00001ffe003fffffc0003fff380007ffcc0000fff300003ffcc00001c7300000079c0001fff30000071c40000006300000071c0076e7ff0;
   0x3fffc0003e1c78003ffe70000203180001c66600003ffff8000070e0000000c0000000f8000003fff900007ffe00000ffb000003fec000000c300000003c800000e300000060c000000070000000380003ec6db0;
   0x3000c000f81e3f005755300007001c0001cc670000155d500000f060000000e0000001dc0001ff3cdc007fe676001ffc1b80000318e000001c38007fdffc0000006380000070e000000130000000380005756df0;
   0x3000c00061c70e000600380003800e0000cce380000018000001f07000000070000181ce0000ffffcc003fe667000feff98003fb186000feffd8003fdfce000ff2618003f8606000ffc7b8003fff9c000fff6db0;
   0x3fffffc000383c00006001c0001c0070000fcc1c000ffffff0007f338000001380001c1c7000071554e007fffe780030ff9c007fb1c7001ffffdc005d4707001ffe71c007ffff7001ffdf1c007fff8e000fff6df0;
   0x3faaafc0007e8e000060ccc0000e037000060dcc000ffffff000f73980000039c0000e183800030338e000c7fe380030c18e000cbbe7800300c1e000c020780030639e000c7fe7800180c1e0003000f0000606db0;
   0x3000c0001ffff800061cfe00007c3f800071cfe000557f55001e71fc000001fe00007383e00073ff8f000c6667c0030ff8f000cfff7c00301c1f000c0707c0030719f000c0707c0018081f0003000f8000606df0;
   0x3fffc0001c0bf80006187f00003e1fc0003187f000203780003870fe000000ff00003b03f80033ffcf000c6662e0030ff8f800caaa7e00300c1b800c2aa7e00303fdb800c0606e0018001b8003000fc000606db0;
   0x3fffc000183c000006387f80000f9fe0003b87f8007073c0007070ff000000ffc0001f03fe007031cd000c7fe740030c18d000c000740031ffdd000c3fe6c00301fdd000c07074001830190003000de000606df0].
Definition hanzi_rows_165 : list N :=
  [0x80f80000103e00000630edc00c033b70001b0edc0038e0e0000071dbc00001cde0000e038c0030bbec000c7fe200030ff8c000c3fe700030ffd8000c2aa6000301c18000c06060001830180003000c400fffedb0;
   0x1c1de00003c77c0000670cdc00e007378001f1ccc001fc0fc0000739de000079cf0000e03840071fffc000c060700030ff8c000c3fe7000315d5c000c0706000304c1c000c07070001838180003000c001fffedf0;
   0xf38780000ee1f00006308cc007002310000e08c40007c0ff00007318c000030c30001c0380003031ac000cfff200030c18c000c3067000300c18000c0206000306e18000c06060001818180003000c000aeaedb0;
   0x7f03e00007e0ff0006000c0003c00300001f00c0000380e70000711c0000001c00003c03800071ff8c000cfff700033ffec000c3067000301c1c000c070600030e71c000c0707000181c180003000c000061edf0;
   0xe03f8000380cf0006000c0001e00300003f80c0000700e0000070180000000c00003903800031ff8c000c0f0200033ffec000c3067000300c18000c220600030c398000c0606000180e180003000c000060ffb0;
   0x1f033c000f00c20006000c0000f00300007bc0c0001e70e00000701c0000001c0000f1f3800070318c000c1f8700030330c000c306700031ff1c000c3f0600031ffdc000c07070001806180003000c000061fff8;
   0x78e308003e38c00006000c00003e030000f0e0c0007c3ee0000070180000000c0001e1ff800030318c000c398200030638c000c3fe700031ffd8000c1f0600031bfd8000c06060001807180003000c00006003f8;
   0x7f1ff0001fc3fe00007500c00001f830003e07cc001f01fe00000701c0000001c0007c03fc00073ff8c000d71e700035e1cc000d3fe70003507dc000fc78600035c1dc000d47070001d03180003500c0000600000;
   0x3c00f8000e00fe00007f00c000007c300038038c000e001e0000070180000000c00030003c0003eab8c000f20720003d80ec000f80670003f0018000f83060003e0018000fc6060001f83180003f80c0000600000;
   0x1000100000000600003f00c000001c300010008c0000000600000701c0000001c0000000080003c010c000700170001d804c000780670001f001c000780060001e001c0007c7070001f00180001f00c0000600000;
   0x0;
   0x0;
   0x0;
   0x0;
   0x0;
   0x0;
   0x0;
   0x0;
   0x0;
   0xe006000001c000000c00300003800c0000c0060000300180000000400000700c00018c3000000007000007006000001c000000000700001c00c0000060000003000800000400000000018000007000000380180;
   0xe0060000038000008c00700003800c0000e0060000300180000000600000700c00038c3800000006000006006000000e00001e000600001801c0000060000003801c00000700000380018000006000000380180;
   0xe00e000ffffff0018c70e00003801c0000f00e000030038001fff0e00000701c000f1c1c0007fc5750000700e0001ffff8003ff00e00001c0380007ffff00003801c00001fc00007fd038003fffffc000380380;
   0xe00c000ffffff001cc60c0000380380001f00c000030070001ffe0c0007ff83800041c1c0007fcfff0000600c0001ffff80007ff1c0000180300007fffe00007c038000079e00000ffc30003fffffc000380300;
   0x15f504000000000001cc60400057d4100003b804000030010001c070c0007ff810003ffc0f00060cfff003fff840001c00180000fe1c00015d410000006000000ec0100001f37c000037c10001557554000380300;
   0x1fff3fc000ffff8000ece7fc00fffeff00071c7fc000301ff0018067fc006018ff003fffef00060ce30003fffbfc000c07180000c07fc003ffcff000006000000ce0ff000f873e0000303ff000006000000381ff0;
   0x1fff3fc001ffffc0006cc7fc00fffeff000f0e7fc00fffdff001c077fc00701cff00007fefc0060ce300000707fc000d1f180000c07fc007ffcff001fffffc001c70ff007f0e0fe000303ff0007ffff000fffdff0;
   0xe03800003c7800006cc300000380e0003c0730000fffcc000180630000600ee00000700de0060ce38000060300000fb8180000c0300003180e0001fffff80038b8e000380c03c000301800007fffe000fffcc00;
   0xe01800001ff000000c0380000380600078e3f8000e31ce0001c073000077ff600030f00cc0060c61c000575180000510180000c03800071c0600000000000071dc600003fffe0000301c000075757000e38c600;
   0xe0180002afaaa001fff1800003803000306198000e30c60001ffe1800063fa300031e20c0007fc68e000fff180006aaab80000c0180003180600002aaaa000e38e600003fffe0000300e000060606000e38c600;
   0xe04c0007fffff001fff5c0000381b00000785c000e31d70001fff5c0007719b0003fc70c0007fc7c7801fff5c0007ffff8007fffdc00071c1700007fffe000c706700001c00000003036000060607000e18d700;
   0x2aeaee000701f000000c0ee000fffdb800021cee000e30fb8001806ce0006219b8001f060c000001883000060ee000600000003fffee00031c1b80003000e0000601b80000e200000abab700007fffe000e38db80;
   0x7fffff000381bc00000c07f000fffcfc00070f7f000e31dfc001c077e0007718fc00000e00000001c000000707f000701c00007fff7f000fffefc0007000e0000201fc00007300001fffdf80007ffff000e7cdfc0;
   0x3fffbf8001c18f00000c03f80007c07e0003863f800fffcfe0018063f00062187e003fffffc00aabaaa002aeabf8007c18000001e03f800fffefc0003000e0007ffcfc00002700000fffcf800000600000e6ccfe0;
   0x703fc00081f7f0000c07fc0007e0ff0001c03fc00fffcff001c073f80077f8ff003fffffc00ffffff003fffbfc00ffffff0001e07fc00fffefe0007fffe0003ffcfe003fffffc000301fe00040700000eeccff0;
   0x3076e00001f0f003fffeee000fe1db8008e06fe00ebadbf8018066fc0073f9db80000f80000aabeaa003ffffee00ffffff0001e06fe0003c1df0003fffe0003800ff003fffffc000303bf000e0fc0000ecedfb8;
   0x33866c00001c00003fffeec001ff199001c7c6ec00e31dbb001fffeec007e1999001e1df00007037800030706ec00557f550003f06ec0003e19b001c1de00001801ff000c0fc0000030337800f1df8000fc7db90;
   0x71826000383f800000c00e0001bb818000e1e0e400e30c38001ffe4e4003e1818000f38780003c73e00030600e0001877800003300e40007e099000f18f80001800b9000e1cf00000300330003d83e000f83c380;
   0x71c060001c73f00000c00e0003b9c1800070c0e000e31c38001fff0e0001418180003f03f0000fe0fc0030700e0001ee1f00007380e0000770180007f83f0001c00380007b87f0000300310001f83fe00f83c380;
   0xe0e060000fe0fe0000c00e000739e180003800e000e30c380000000e0000018180000e037e0003c0ff8038600e0000fc0fe0006380e0000e70180001f03fe000e00380001f03fe000300300000f039c00e00c380;
   0x1c070600007c0df0000c00e000f38f180001c00e000e31c380000000e001c018180003cc31c0007c0c7003d700e0000780df800e1c0e0001c38180001e031c000e00380001f033c000300300001e038000e00c380;
   0x1fff060000f18e20000c00e000e387980000f00e000fffc380000000e000c01818000f8fb00000f38c0001e600e0001f38c3000e0e0e000381c180003ce300000600380003ce3000003003000078e38000e00c380;
   0x3fff86001fc1fe00000c00e000c3831800007e0e000fffc38007fffce000d57818007f07f8001fc3fe0001e700e001fc3fc0003c070e000f81f18001f0ff8000070038001f87f0000fffc30003f0ff8000740c380;
   0x302f86000f003e00000c00e00003801800001f0e000eaac38003fff8e000fff81800380078000f803e00000600e000f80fe00038038e000e00798003e01f8000038038003e03f8000fffc30003c00fc0007e0c380;
   0x1000060004000600000c00e0000380180000070e000e01c380000000e0007ff018000000080004000600000700e0004000600010010e00040031800100018000030038001000180000000300010001c0007c0c380;
   0x0;
   0x0;
   0x0;
   0x0;
   0x0;
   0x0;
   0x0;
   0x0;
   0x0;
   0x7003000001c000000000300007180000020006000001c000000070000000000c0000000600000000c0000c0040000180c00018000000001c1c00000380600001800c00018c03000038018000021800000380080;
   0x2300f000003800000aaa070001f98000003180e000003800000006000007ffc0c000fff06000aaaa1c0000c00e0000180c20018afff8000980c00000180e00001801c000d8e070000b98180000f1800000380180;
   0x7771c000ffffff001fff0e0001c180000071c0e000ffffff003fffffc007ffc1c001fff0e000ffff180038c31c0000180c70018efffc001dc1c000155c0e00003c018000d86060003998380003c1c00000380180;
   0xe3388000ffffff001eba0c000ffffff000e0e1c000ffffff003fffffc00600c38000c030c000eaae380038c31c0000180ce0018e018000399ffe003ffc1c00003c0380019860e000319830003fffffc000380380;
   0x1c7181c000ffff0001c7004000ffffff001c0e04000557f5500000000000701c10001c0704000e007100018c708000fffedc0018e7fc00071dffe001ffe0400007e01000198704000619c10003fffffc00fffc100;
   0x1831878000ffff0001c303fc003818180018e77fc00383780000aa9e0000600cff000c037fc00e0e6ff0018c67fc00fffec80018e7ff0006180c0000c0e7fc000e60ff0031831fc00218dff000218e0000fffcff8;
   0x3f71c70000c0030007fffbfc001c187c0038e3ffc001ee1f0000ff9ff000701cff001fff7fc00e0e7ff001cce7fc000180c00018e307c000181c0000e1f7fc001c70ff0001831fc00ffffff00079860000e38cff8;
   0x33b0e80000ffff0003fffb80000f38e00018e3b000007c0fe000e00060007ffce0000fff300003ffce0000ece300000180f00018e38fc00ffffff00071bb00003838e0002bab98000fffec00003f870000638ce00;
   0x1d05c000055550001c301800003ffc00001f1380000780df000e00070007ffc60001c07380007ffc600004c4300000180fc0018e1fc000ffffff0003f9b8000701c70007ffbdc00055dee00070f838000638c600;
   0xf80e0003ffffc001c38180000f9fe00001b8180003e3ee0000ff9fe000000030000c03180000030300000c0380000180df8018e0f0000abaaaa0001f018000effe30003ffbcc00000e06000303f1c000638c700;
   0x3ff78003ffffc001d5d5c0007f19fc000398dc000fc1ff0000ff9ff0000001b0001c075c0000331b0001fff5c0007ffec70018007c0000181c00001f0dc0005ff7b0000383fe00015617000355fff00017dd300].
Definition hanzi_rows_166 : list N :=
  [0x7e3c0038180c001fff6e000f8183f00071cee0006000e0000e0006000fffdb8000fffee0000339b8001fffee0007ffec0001f831f8006181800003f8ee000000398000383760007fe3b8003ff8c7c007ffdb80;
   0x7418003ffffc001fff3f000601c07000f0e7f0003ffffc000e0007000fffcfc001fff7f000031cfc0018007f000001cc0001f0707c0073bfff001f1f7f0000000fc0003835f0007ff1fc001ff7018007ffdfc0;
   0xe00000c0000c00000c3f000001800001e073f8003ffffc000ffffe00003007e0000233f8007ffc7e0018003f00000180000000e0080033bffe003c0fbf80000007e0003831f8003030fe00000600000303c7e0;
   0x3fffffc00fffffc00000c3f800ffffff003fffffc0030460c0007ffff0000300ff0010677fc007ffcff0018007fc00ffffff003fffffc003b00e00035557fc003ffcff0003c31f8003878ff003fffffc00307cff0;
   0x3fffffc007ffff8001ffe77c00ffffff003fffede0031e78c00080f800000301db8038636fe000304db801aaaede00ffffff003fffffc001b18f0000ffeede003ff8db8002c33fc001879ff803fffffc00386edb8;
   0x41fc0000101c00001fff66c00307700001ffeccc003781cc001e1df0000575599001ec7cec000301db001fffccc00103f00000c1dc00001f1dfc001ffeccc00381ddb0006c337e001cfdbb000c1dc00001ccfdb0;
   0xe18e0000383f8000180f264003863c0000c060c4003eaaec000798f80007ff8180007c34e400030098001ffe0c400786380000e18f80000f0fbe000c060c4003818980006e3064000fce39000e18f80000dce990;
   0xf387c0001e73f000180fc60001ee1f8000c060c00035fffc0001f81f8007ffc180003c70e001ffff180018000c0001ce1f00007f83f000470f3f001c060c000381c18000ee3070000fcf380007f87f0000fc6180;
   0x3f03f8000fe0fe00180de600007c0ff800c060c00031818c0000f01fc000300180003830e000ffff180018000c0000fc0fe0001f03fe00879c3a000c060c000381818000c63060000787b80001f03fe000786180;
   0x1e037c0003c0df00180cc60000780c7000c060c00031818c0001e019c000300180007070e0000300180018000c0000780ff0001e031c01c7f938001c060c000381c18001c73070000fc3f80001e031c000fc7180;
   0x3ce308000fa0c000180c060000f38c0000c060c00031ff8c00078e18000030018000e7b0e0000300180018000c0000f38e00003de30000cfe3f8000ffe0c0003ab81800183b060003fe1b8000f8e300003fe3180;
   0x1f0ff80007e3fc0001ffc060007c3fe0000ffe0c00031ff8c007f0ff8000ffff18007c7f0e000030018001fff8c0007e3fe0001f1ff8000fcf1fc001ffe0c0003ffc1800383b070007cf838007f1ff00007cfb980;
   0x3e00f8000f82fe0001ffc06000f80fe0000ffe0c0003e018c003c00fc000fffe1800380f8e000030018001fff8c000f803f0003e03f8000f83818000eae0c0003ff81800301f06000f03c38003803f8000f03d980;
   0x100018000c0006000180c06000400060000c060c0001e000c0000001c0000000180030010e0000300180018000c00040007000100018000701000001c060c000381c1800100f07000401c3800000018000c019180;
   0x0;
   0x0;
   0x0;
   0x0;
   0x0;
   0x0;
   0x0;
   0x0;
   0x0;
   0x1980300003000c00000603000001c000000000600001c00c00070c0300000001c00000006000001c000000000600000c3000001060400001800c0000000300003800c0000000100001800c0000e00700007000c0;
   0x1980700003800c001ff603000001800001ffe0600003800c00060c03000fffc18001fff06000001800001fff0e00000c3000007060e00001800c003fffc700001800c000aa18380003800c0000600600003000c0;
   0x11980600007c01c001ff707000ffffff001fff0e00003001c00070c07000fffc38001fff0e000ffffff001fff0e000ffc3fe0003861c00001801c003fffc600055d41c001ff387000fffe1c0000f00e00057539c0;
   0x3d9f8e0000ee0380018330e000ffffff0018060c0007ffe3800060c06000e00c300018030c000ffffff0018e31c000ffc3fe002baeaa8007ffe380018380e0007ffc38001aa70e000fffe380001f80c000fff3380;
   0x1f9f840001c7810001c3304000155460001807154007ffe5000077fc6000e00c10001c070c0001ffff80018e70400000c300003fffffc007ffe10001898154007ffc100018060400055561000039c04000fff7100;
   0x3983fc00783eff0018331fc003ffe60001ffe7fc00600eff00067f9fc00e00cff001fff7fc001ffff8001aeb7fc0000c3aa003fffff80001807f001fdbbfc00630cff0018003fc000306ff00070c3fc00018e7f0;
   0x11983fc01f55f7f001c339fc00380730001fff7fc00600e7f00070c1fc00fffcff001fff7fc001c1818001fff7fc007fc3fe00380001c0001807f000f9f1fc00630cff001801dfc000386ff000f0f3fc000fc47f0;
   0x219e38000dffb60001833980003aae38001806300006aae6000060c18000fffce0001803300001ffff8001aeb300002ac3a8003bfff98007ffe60000e0e180007ffce0001bf998000fff660001c07b80000ec0300;
   0x759f980001ffc70001ff3cc0003fff3e001fff380007ffe7000070c0c000070c60001c07300001d5d580018e73800000c300003bfffdc007ffe70001f3e1c0007ffc60001bfddc000fff670007fffdc0000e60300;
   0x3f999c000000030001ff3ec00000c03f001ffe180002aae30000effce000060c70001fff180001abab80018e318000ffc3ff00038018000018038003bb70c000638c30001b098c00000c6300037ffcc000ffefb80;
   0x1f186c00064fe98000383f6000ffffff00155d5c000000eb8001ffff6000070d30001fff5c0001ffff8001fffdc000ffc3ff0003fffc0000180580031c3ee000618db0001b1dec0000cc6b80025544e000ffffd80;
   0x1ffe6e0006cfed80003837e000ffffb800000cee000aaaed8001e003f000fffdb800000c6e000001800001fffee00000c3000003fff8000ffffd80000e1f60006badb8001b09b60000ce6d80000006e0000e2eec0;
   0x1ffe3f0006cc6fc0003831f0000fdc38003ffe7f000fffefc003f0c1f801fffdfc00000e7e000ffffff0000e07f00000df0000000700000ffff7c0000403f0007ffcfc001b5dff0000c66fc0018607f0000e0e7c0;
   0x18061f8006cc67e003fff0f8003ccfb8003ffe3f000efbe7e00360c0f800060c7e003ffe3f000aaffaa0000e03f80000180000000e0000003e03e003fffdf80006e07e001bf99f000fff67e0018633f8000e0e3e0;
   0x1c063fc006cfe7f003fff1fc00f0d3f80030c77fc00cd9e7f00770c1fc00070cff003fff7f8000fdbe0007fffffc00ffffff003fffffc0063707f003fdfdfc000670ff001bfddf800fff67f001c633fc005f5e7f0;
   0x1ffe7ee006cfefb8007c31be0040f8b80030c3afe00cd9efb80067fdac00060fdb803b3befc003e18fe003fffede00ffffff003fffffc00f338fb8038d836c000639db801b09b7c000c06db800ce237e00fffe6f8;
   0x1ffe6e4006cc6dd8007c317c00301f000030e7cee00cd9ed900077fd7400ffff9b003999efc00f01e1f0001f0ccc0030770000040fc00007f3e5d0019d8b6c00061d99001b1df6c000c06d9000cc676c00fffe6d0;
   0x18060e0006cc618000fe303400383fc00039e28e400fffe1800060c02000fffe9800399c8e400483f820003f80c4003863c0000e1de00001e3f9800198fc6400aeaa18001b09864000c0618000ec6264000e0e0c0;
   0x1d560e0006cfe1c000ff3070001f71fc003f3f0e000ffff1800070c07000e036180019cc0e0001f73f00007fc0c0001ee1f80007b87c0000e371c001d8f86000ffff18001b5dc6000ffff180006c6060000e0e0c0;
   0x1ffe0e0006cfe18001bb30300003e0ff803a1a0e000cd9b1800060c02000e036180018c60e00007e0fe000eee0c0000fc0ff8003f03f8000c3018000f0e06000aeaa18001bf986000fffb18000202060000e0e0c0;
   0x1d560e00064c61c001bbb0700007c0e7001fff0e000cd9b180007dc07000e037180018e70e00007c0df001ce70c0000780cf0001f037c001d301c00071f06000060018001955c60000c0718000300060000e0f0c0;
   0x18060e00060c61800339f030001f20e0001ffe0e000cd9b180006ffe2000e03318001863ce0000f18c20038e38c0000f3cc00003ce30c003bb018000fbb86000060018001801860000c0318000380060000e3f8c0;
   0x1c060e00060d61c00338f07001fc3fe00018000e000cd9b9800077fe7000fff318001c318e001fc1fc00030e1cc001fc3fc0007f1ff8001f1f81c001dd3c6000060018001801c60000c0398007fffc6001fff1cc0;
   0x1f860e00078f61800038303000e00fe0001f000e000fd9998000600a2000fff398000fb80e000f003e00000e08c000f003e0003e00f8000e078180038f0e6000060018001f01860000c0398003fffc6000ffe0cc0;
   0xf060e00078761c00038307000000060000f000e00070191800070007000e03118000f980e0000000600000e00c0004000600010001800040181c00306046000060018001f01c60000c01180000000600055008c0;
   0x0;
   0x0;
   0x0;
   0x0;
   0x0;
   0x0;
   0x0;
   0x0;
   0x0;
   0x600300000000c000606030000700000000180600060400400000001000001c000000000100000000800011c01000001c00000070030007000040000000300000000c00060c020000000080000600300001c0180;
   0x6003000fffe0c000606070000607fe0000bc0600060c00e002aa8c3000001800000fe7e3000fffe1c00038c8380000380000006003000ff800c001ff003000fffe0c00060c060003ffe18001c630300000c0180;
   0x6006000fffe1c00060606000fff7fe0007fc0e00031c31c003ff9c7000ffffff001ff7e7000ffff1800019dc70007fffff0000e0070007fff1c001ff1c7000fffe1c00060c0e0007ffe38000c6707000e1c0380;
   0x6006000018038003fdfce000fff60600038e0c000398318003aab86000ffffff0008260e000c0c03800018d8e0007ffffe003fff8e000033e180018318e000000638003fffcc000300e30000e660e0006ffc300;
   0x3fffc4000ffff10003fdfc400030c6060055d704001fff718003047040001547fc001c7604000c6ce10007fddc6000618187007fffd4000ff0710001833840007ff65d007fffc4000755e1000076c140007ffc550;
   0x3fffdfc00ffff7f000f0f3fc0018c7fe003fffbfc00fff67f0030629fc003fe7f80008261fc00ccdcff003fcd9fc006babae000639bfc00ff067f001ab33fc007fe6ff00060c3fc003ffeff003fffbfc003ae9ff0;
   0x601fc00c1837f000f9f1fc00fffd56005757bfc0157567f003575dfc0038671c001ff61fc00d8d8ff0000dddfc007fffff000639dfc0007077f001ff71fc000006ff00066c3fc00755eff003fff9fc001dc1ff0].
Definition hanzi_rows_167 : list N :=
  [0x2aea98000fdbf60001fb798000aea806000ee3380000380300037fe88000386608000fe7c8000e0e0e00000ed98000018180003fff980002ba66000183018000fffe600002e838000300ee00001f8180000cc0c00;
   0x3fffdc000fdff70003ed7dc0000707fe001c7318000e3c030003575cc0003fe7fc000187cc000fcfc6000077ddc0001ffff8003fffdc000fff7300018301c001fffe700001f0180007ffe600003fc1c001ffffe00;
   0xc620c0000180300036e6ec000fff6be00189f1800076f7b80030608e0002ba3a8000180ce000cfde70000e7d8c0001ffff80006398c000c33630001833cc0004666300003b81c0003ffe30000f6e0c000fffe600;
   0x3f6fee0007dfcd80006465e000fff61f0011834c0003e77d80037fff60007ffffe001ff0f6000c6c730001c7df6000018180000639fe000c337d8001ff3de000f666b8000f1e0c0000001b0001e67ae001ffff700;
   0x3f6fa60000180d80002023600006061b003fff6e0001f066c0036eeb60007ffffe001ff0f6000c081b800180db6000ababaa0006b9b60003ff6d8000ab3360003c66d8001e0fee000aaabb8003863b600001e3b80;
   0x316cff00055557c001fff9f000071ffb003fff7f0001dc67c00377fdf000018180001930df0000180fc00001c1f000ffffff0007f9df000dff77c0011b31f0003f66fc007fffff000fffffc001070bf00000f1fc0;
   0x31689f800ffff3e001fff8f8000618000000033f8003ce63e0037fe8f8003ffffc001937cf8002ba87e0000000f8000381c00000c18f80083363e0039b30f800fbe67e0033fcbf800eaea7e0000301f8007ff8fc0;
   0x3f6fdfc0155d57f0000001fc00ffffff001ffb3fc007e763f0037f7dfc003ffffc001937dfc007ffcff001fffdf800071cf00001c1dfc00ff377f001f331fc00f876ff0000001fc00c7c7ff00157d5fc007fffff0;
   0x316ab6e0000c0fb0000003ee00ffffff00000376e006f066f8037febae000181800019361ae006aacdb801fffbfc001ebaf8001ffdbee007e33eb000e333ee001806db80000036e00cec6db803ffffee00603fbf8;
   0x317cf6e00fffe5b803ffff7400557f55001ffb66c00dbc66d0037ffd7600ffffff001ff617600701d9b001999d7c00fffffe001ffdd74001fb75f000e3317c00ffff5f801fff76c00cccddb003ffff6400703a3b8;
   0x3bfa86400fffe19003fffc6000386780001ffb26000d8e60c0031f082400ffffff001ff602400600c9800199986400e83e0f8018ccc60001fbb09000db306000fffb19000fff26000e8ec9800060e060007ff8390;
   0x3fffc6000c66618000667070001ee1f0000003060001c7e0c0033f9c70003077c0000186070007ffc18001999c70005c77830019ccc7000199b1c0019fb0700018431c001c0706000f8f018000706060007ff8380;
   0x1b806000c66618000e63060000fc0fe001ffb860000c360c00376c820003ce1f0001986020006aac180019998600007e1e00018ccc6000199b8800383b0600018e318000c0306000defe1800039f060006038380;
   0x39c06000c66618001c638700007c0df001d59860000f870c003667c70001fc0ff80198707000701c18001999c700003c1fc0019ccc700019999c00101f8700018c39c001c0706000c7cf980001fc060007038380;
   0x70e06000c66618003861c60000f28c200181986000071f8c003062820000fb8cf003b8202000600c180019998600007b19c001ecce600099998800000fc6000198198000c0306000c3c3180003f0060006038380;
   0x1e0786000c66618003060e70007e3fc0001ff9c6001fff9cc003061c70007f3fe0003ffbe70007ffc18007ffff70007f3fc00007cc67001d9dddc007ffce70001881dc001fff06000c0c018001fff060007ff8380;
   0x3c03e6000f6661800107c46000f80fe0001ff8c6000ffe08c003f6082000f803e00032fbe20007ffc18003fffe6000780fe00000c066000f8eec8003ff8660001f00d8000fff06000f8f818003e0fc60007ff8380;
   0x30006600076661800007c07000400060001818c60007f008c001f01c700040006000100147000701c18000000070000001c00001c06700070441c001fc0470001f001c001c0706000787818001001c60007038380;
   0x0;
   0x0;
   0x0;
   0x0;
   0x0;
   0x0;
   0x0;
   0x0;
   0x0;
   0x1c3000000318000000300000000e0000000000000000600006030400001c1800000000c0000000100007000000000003000000000000000000000000000000000000000000000000000000000000000310c0c0;
   0x1ff8c3000ffe318001ff0380007fe0e0000aa8000002aa0600006030600000c18a001ffc0c0007ff838000fffa00007ff830001aabff8007ff8000002aaaa000ffffff003fffffc00ffffff0000000000033c80c0;
   0x1fffffc00ffffff001ff07c0007feffe001ffbffc007ff6670007070e00000e18e001ffc0c0007ffc700005ffff0007ff830003ffbff8007ffbff0007fffe000ffffff003fffffc00ffffff003fffffc0075dd1c0;
   0x181bffc00e06fff001830ec000606ffe001abbffc0060266200038e1c000ffe18e00180c0c0006ab870000e02bf0006ab830001aab818006abbff0007fffe00000c300000030e000000c300003fffffc00ffbf380;
   0x1919c3000e46318001833cf0006465f4001818180006076670001c618000fff18e001c0d5c000701c7500070707000701bff001c03918007019d50007000e0007ffffe001fffff00000c300000030c000077dd100;
   0x1998eb000e66bba001b37038006660e00018999b000662662001fffff80002718e0018cdfc0006399ff0003070e000621bff000e03998006299800007000e0003aebae000fffff0003ffffc000030c00003a5cff0;
   0x1999ff000e66fff001b37ffc00667fff001999990006677ff001fffff80007318e001ccdfc000739dff0003861c000731bff000703998007399800007070e00070c30e001c70e30007ffffc000030c00007ffeff0;
   0x199818000e66318001bb1fec00666fff001999998006627fe001800018000e398e0018cc0c0006398c000018e1c000631830000183998006399830007060e0003ffffe000c30e300030c30c000030c0000fdeae00;
   0x199bffc00e6775d001b3155400666d55001999d9800677000001800018001c1d8e001ccc0c000739cc00005d554000731830000183998007399c70007070e000555d54001fffff00070c30c001fffff800b7cf600;
   0x199bff800e67fff001bb000000666ccc00199899800662000001bfffd8001801880018cc0c0006398e00003fffe000631830002bab998006398ce0007060e000000c30000aaaaa00030c30c001fffff80036e9600;
   0x199b19c00e67fff001b361fc00666edc001999d98006777ff0013fffd000000000001ccc0c000739c700007fffe000731975007fff998007398dc0007070e0007ffe380007fffe00075d75c001c30c380030cdb00;
   0x199b18800e66060001bb65fc006666f2001999db8006227fe0003000c0001ffff00018ccae8006398380003020e000631bff003fff998006398f80007070e00000071c0007fffe0003ffffc001c30c3800aaebb80;
   0x199bffc00e66ffe0019b658c006660d70019dbdb8006776000003071c0001ffff0001cccffc00739c7c0007070e000731bff000183998007398f80007070e0003fffef00070006000555754001c30e3800fffffc0;
   0x199bff800e66ffe0019b658c006660ce00199bda8006326000003060c0001c00300018cceac006398fe0003060e000631830000183998006398700007030e0003007f30006aaae000000700001c3063800aebafc0;
   0x1bd818000ee6c66001fb65fc006660cc0019dedfc006f76000003071c0001c1c30001dccc1c00719dff0007070e0007318700001839980071987000071f0e0003fffb80007fffe000555755001ff0738001f38fe0;
   0x1bdbffc00ee6ffe001bb65ac006e6aea001bda7ec006f27fe0003060c0001c18300019ecc0c00639bbf0003060e000679878000183b98006798f000070f8e0003aae1c00060006000ffffff001ff03f8003ffcdf0;
   0x3c3ffc00ef6ffe00179658c006f5fff0003c078c004f57fe0003071c0001c1c30001decc1c0007c13b0007070e0000780f8000183f980007c0f000071f8e0003ffe1e0007fffe000ffffff001ff01f80071ffdb8;
   0x3c0180000f0c660003865ac000f0aea0003e0184000f800600031f0c0001c18300001e0c0c0003c03800031b0e0000781d80001807800006c1f800000d800003ffe1f0007fffe0000300e0001c0003801ffff990;
   0x3e1ffc000f1d770007c65fc000f0060003367184000d800600031f1c0001c7c300001f0c1c0047e03800071b8e00047c39c0001807c000c6c1dc00101dc00001ff81b00000600000038070001c0003800dff9180;
   0x2361ff8008f9fff8023c658c008f83f0002377f80008d800600001b80000086e300021b0c0c0083e03800001b80000c6e31c0031f06c00186e38c00300ce00003ffe180000060000001e3f0001c00038000180180;
   0x7370180018d9d570077e658c01cdc738007339ffc018dc7c6003019c0000c077000071b8ffc01c77038003019e0001c6710c0071f06e001c6718e00301cf00001c1fd8007fffffc0000ffc0001c00038007ffe180;
   0x233bfa0008dcc0600236618c008cce1c00231c0fe008ce7fe003018f8000e063c000219cffc00c33838003018f8000c6380e0030006700086380700380c3c0000ff998002aaeaa80003fe00001fffff8007ffe180;
   0x371fffc01dcec0600377e18c00dcfc1f00370f01c01fc787f003ff87f000f571fc00359f55c00d71e38003ff83f000fe1c07003fffe3800d61e07003ffc1f80007f018000006000003fdff0001fffff8000180180;
   0x3f0e03c00f87f86003e3fdec00fc3807003f0700000fc3c06001ff80f8007fe03e003f8780c00fe0f38003ff80f800fe0e03003fffe1c00fe0f02001ff80fc00ff7f98000006000007e03ff001c000380001f8180;
   0x140400000503786001c1bccc0050100100140000000001800000550078003fc00e001f01800007c06380005400180054060000055500c0054060000000001c00f007980000060000070001e001c000380001f0180;
   0x0;
   0x0;
   0x0;
   0x0;
   0x0;
   0x0;
   0x0;
   0x0;
   0x0;
   0x200000006000006006000000c000000c0060000000c000013000000304018000180060000700380001c00e0000700180000000e000070018000030060000070e000180006000030030000000e00000000e00;
   0x1fffc30000000e000006006000001c000030c6060003f80c00007b000000306018000180060000300180001800e000020018002aa806000060018000038060002060e0003f8006000030038000000e0000aa80e00;
   0x1fffc70000000700000e0060000038000030c67f0003f9fff003fffff00030c1fc0015d43f0000701fc0001c07e000c739fc003ffc7e0000701fc003ff87f0007c75ee001ffc7f0000301f80000fff0000ffdfe00].
Definition hanzi_rows_168 : list N :=
  [0x1aaa8e0007ffff00000c006000003800003ffe7f0003180c0003fffff00019c1fc003ffe7f000fffbfc000180ff000e233fc003ae8ff0000601fc003ff8ff0003fefee000cfcff0000303f80000fff8000eadfe00;
   0x18031c0007ffff8003fff06000ffffff003ffe73800318ffe000470030005dd1dc003ffe77001fff9dc0001c0f700067718c0038e0f70007ff1dc00155c7780007f5ee000ccc630005751dc0000701c000e0d0e00;
   0x180708000600438003fff2e800ffffff0000cc31800318ffe000e67fb000fff8ce0000c03180003018e001ffc63800626186003860638007ff0ce00000e31800c060ee000ccc618007ff1cc0000301e000e8fffe0;
   0x180e01c00600e1c0000007fc000000000015dc31c0031c00000076553000d758c70007e0318000701c6001ffc718003760c7001870718000700c600055731c00c07fee000ccc31c007ff0ce000fffff000ecdffe0;
   0x1bfffd800600c0e000aaa7fc00000000003ffeffc00319fff0003e7fb000c31bff000f70ffc002ba7ff00188dffc0032e3ff801831ffc000603ff001ffdffe00ffefff800cccffe006307fe000fffff800ecd8c60;
   0x1bfffd80067ffff000ffe670000ffff0000187ffc0171dd570011c75b000c71fff801c7cffe007ff7ff8019cdffe001f47ff001f3dffe000707ff000ffdffc007fc5ff800cccffc007307ff000d5f5fc00ecdfd60;
   0x18000180067fffb800000660000ffff0001fffc9800f0fbff0021f61b800fffa2700381ec9c006bb66700188d99c00020266000f1d99c00aeaa6700038199c0000abc0000cccd980063066f000c0e0e800ecc3fe0;
   0x18fff1c00600001000554670000000000015d7dd801f077fd0033fff9800ffff66001554d98006736660019cd99800ffff660003b599800ffff660001e19980003ffe0000cccd980073066e000c0e0e000ecd8c60;
   0x18fff180061fff0000ffe66000000000001ffec9800002018003f0871c00c31a26003ffec980063366600188d99800fffa660003b199800aaaaee0000799980001c070000cccd98006306ee000eaeae000eedfc60;
   0x180001c0071fff0000554670000ffff0001ffeff800ffe7fc001e7ff8c00c71ffe007fffff8006737fe0019cdff8001dc7fe0017f1ff8000707fe003ffdff8003ffffc001cccff800fff7fe000ffffe000eccfc60;
   0x18fff1800600000000000630000ffff0000186eb8007fe38c0000701c000c31aae001800eb8006bb6ee001aadbb8000cc2ee003ff9bb800060266003ffdbb8003ffffe0008ccfb800fffe6e000eaeae000eec2260;
   0x18fff1c0071fff0000ffe67000000000003ffedd80071cffe000fffff000ffff66001dfcd98007ff666001ffd998001dc766003ffd99800070766001b719980038383f001cccd9800fff66e000c0e0e000e6d3660;
   0x18000180060aaa0000ffe63000000000000006c9800318fff000fffff800fffa260019fcc98002fa666000ba9998000cc26600038d998002ea266003b31998003838320018ccd980007866e000c0e0e000fef26e0;
   0x18fff1c00700000000c0e630001ffff8003fffdd800318ccf000c060d8000707fe001d8cff8000f87fe0001c1ff8001cc77600038ddd8007ff7fe001999dd8003ffff00018ccdd8000f87fe000d5f5e0001e1b7e0;
   0x18fff180071fff0000c0e630000ffff8003aaaff8003b8ffe000ffffc0000303fe00198cff8001bc7fe000d81ff8000cc3fe000381ff8007ff3fe001999ff8003838300019ecff8000d87fe000ffffe0001a1a7a0;
   0x18c031c0071fff0000ffe638001c0038003777dd8001f0ffe000ffffc001ffff66001d8cd98001fc666001dc1998001ce776007ffdff8000707660019dddd800383838001b6cdd8001dc666000ffffe0001f0f770;
   0x18c031800318030000ffe638000c0038003ffac98000e0cce000c060e000fffa260019fcc9800336666001981998000ce266003ffd998000602660018cf998003ffff8001b6ed980018c666000c0e060019b8a730;
   0x18fff1c00718030001c0e618001c0038003fffddc001f0ffe000ffffe000070767001dfcd9c00777666001dc199c01dc77660003819980007076700186599c003ffff8003b66d980038c666000c0e070019d93630;
   0x18fff180031fff0003000618000c0038003232c88003b8cc6000eaeae00003022300180cc8c00e33e62003ff9988008c7262000381998000602630018719880038381c003236d880038e666000c0e0300199dfe30;
   0x1dc031c0039fff0003fffe1c001ffff80037f7dcc00f9ecc7000c0607800070763001c04d8c01c71f630037ffd8c01dc3f67000381d9c01ffff63001c3998c0038381e0037f7d8c00707667000d4e03801dcffff0;
   0x1f80018003f0030003fffc0e000ffff8003c32e8e00e0ffc3000fc6038000303a3801f80e8e00830be300300ff8e00fc1fe3000381e8c00fffbe3800f9df8e003fb80f0036f3f8e00e03f83000fce01c00f8703d8;
   0xf8001c001f0000000555004001c0038003c0760400c077030007c601000070181000f0060400070181003000c0400701b81000381c04005553c1000788c04001fb806001402604004017810007c4018005020010;
   0x0;
   0x0;
   0x0;
   0x0;
   0x0;
   0x0;
   0x0;
   0x0;
   0x0;
   0x70000000000000000000000000000080000600000000c0040000000000003800800000000000070000000060c60001540600000070000030006000010e180000c0c1000000070000018700000000000000070c00;
   0x6000300000000c002aaa830000aa81c0000600600000c00c00000003000038018000000030000607fe000067ffc001fcaea00000e000007f8060000386180001c0c3800000ab000003c300000fffff0000060c00;
   0x70007000fffc1c003fff870001ff83c0000600f00000c01c007fff8700003803c00000007000fff7fe003ff7ffc001ddfff003fffffc001ff7ff000187180000e1c7000007ff80001f0300000fffff0007c70ce0;
   0x6000e000fffe38003fff8e0000ff8700000601c00000c038003fff8e0000380700000000e0003ae606003ff0c600018e060003aaaaac000037ff0000c3300000e18700000381c000ffffff000c30c30003fefce0;
   0x7001c000fffe700000e01c0001c18f00000603800000c0f0007fff9c0000380f00000001c00038c7fe000c7bff000f87ffe00386061c00003060000fffff000575d7500155d5e000ffffff000c30c300007ffce0;
   0x600180000380600000e0180000c18600000601000000c0e00003801800003804000000038000fffffe000e7fff800aab000003ffffec00fff7e0000aabaa000ffffff003fffff000183180000fffff0000060ce0;
   0x7fffd00000380000000e0000001c18400000600000000c0400003800800003804000000010000fffd560007ef3fc007ffffe00057574000fff7ff000001c0000ffffff003fffff8001f71c0000fffff000c070ce0;
   0x3fff800000380000000e0000000c18000000600000000c00000038000000038000000000000000607fe0003c3bfe0038eeee0007fffe0000c387f003fffffc000708e00001c707c000ff0e000000700000c06fee0;
   0x7000fc000380000000e00fc001c183f0000601fc0003c07f0003801fc0003803f0000003fe00fff61f0007c1b14001dcc460007fffe0001c1c60003fffffc000f1c700007c3c6c0041fc7800000e00000ffefff0;
   0x6000fe0003803f0000e00fc000c183f0000600fc0007c07f8003800fc00ffff3f0000003fe00fff60f000ff9bf0000f8ffe002aeaea8000c1e7c0000e0380001c1838001e1cfe000c03fbe003fffffc002a9c2f0;
   0x7000fe0003803f0015f54fc001c183f0000e01fc001fc07f8003801fc01ffff3f0000003fe000707ff007c79ff0007ff7fe003fffffc001c0c7c0007c71e0007ffffc000c1876000fff10f003fffffc000018000;
   0x6060c000038030003fffcc0000c18300000e00c0003cc0600003800c00003803000000038000061ffc00300ee0000f8fe070000c230000081c00001f060f800ffffff002abaae0003ff80200000000000ffffff0;
   0x70e0c000038030003fffcc0001c18300000f01c00078c0600003801c00003803000000038000001800003fffffc00401c030003c61c000ffffff007fffffe00c00007003ffffe000555d550007fffc000ffffff0;
   0x60c0c0000380300000e00c0000c18300000f00c000f0c0600003800c00003803000000038000ffffff003fffffc00ffffff000ffffe000ffffff0022aaaac000ffff000000006000ffffff0003fffc0000000000;
   0x71c0c0000380300000e00c0001c18300001f01c000e0c0600003801c0000380300000003800055555500000000000ffffff007fffffc000000000003fffc0000ffff0000fffe6000000000000000000001ffff00;
   0x6380c0000380300000e00c0000c18300001b00c00000c0600003800c000038030000000380000ffff00003fffc0000aaaa000380001c000ffff00003fffc000000000000aaaa60000ffff00003fffc0000aaaa00;
   0x7380c0000380300000e00c0001c1c300001b81c00000c0600003801c000038030000000380000ffff0000555540000ffff00003fffc000000000000000000000ffff00007ffe70000ffff00007fffc0001ffff00;
   0x6300c0000382300000e00c0000c1c300003b88c00000c4600003800c000038030000000380000aaaa00003fffc000000000000000000000ffff00003fffc0000ffff0000fffe60000ffff0000000000000ffff00;
   0x7004c0000383b00000e04c001dc1db000071cdc00000c760000381dc000038330000003380000ffff00007fffc0000ffff00003fffc0001ffff00003fffc000000000000000070000ffff00007fffe0000000000;
   0x600fc0000383f00000e0ec0008c0ff000071cfc00000c7e0000381ec0000383b0000003f800000000000000000000000000000000000000aaaa8000000000000ffff0000fffe30000000000003fffe0001ffff80;
   0x7007c0000381f00000e07c001dc0ff0000e0e7c00000c3e00003807c0000381f0000001f80001ffff80007fffe0001ffff00007fffc0001ffff80007fffe0001d5570000f55630001ffff80007000e0001ffff80;
   0x6001e000fffe780000e01e0008c0e78000e0e1e00000c0e00003803c0000380f8000000780000c00380006000e0000c00300003000c0001c0038000300060000c0030000e00638000c00380003000e0001800180;
   0x7f80e001fffe3c0000e00f001fc073c003c078e00000c0700003fc1e00003807c0000003c0001d55780007555e0001c00300007555c0001d5578000755560001ffff0000fffe1c001d55780007fffe0001ffff80;
   0x3f0060000000080000e002000fc03880038038000000c0300001f806000038018000000080000ffff80007fffe0000ffff00003fffc0001ffff80003fffe0000ffff0000fffe0c000ffff80003fffe0001ffff80;
   0x50000000000000000e0000007003000010010000000c0000000f800000038000000000000001c00380007000e0001c00300007000c0001c0038000700060001c0030000e0060c001c00380007000e0001c00180;
   0x0;
   0x0;
   0x0;
   0x0;
   0x0;
   0x0;
   0x0;
   0x0].
Definition hanzi_rows_169 : list N :=
  [0x0;
   0x410000001000000003800000015c000000038000000600000000000400000000000000004000070000001c30040000000000000000000000000000004000001000000000070000000e00200001c0080;
   0xaaa830000e300c0003000300001800c00019c0300000380c00006003000fffe0e002aaa0300000000e000060030001c300e000000030000000080002aa8300000e00c0038030380000300c0000e00600000c00c0;
   0xfff870000c301c0003070700003c01c0001dc0700000181c00006007000fffe1c003fff07000fffe1c000070070001c301c001fff870007ffc1c0007ffc700070e71c0038c30780000301c0000e00f00001c03c0;
   0xfff8e0000c38380003860e00003e03800018e0e0000018380000600e000aeaa38003fff0e000fffe380000600e0001c3038001fff8e0003ffc380007ffce00070c6380038c30e0000038380000e01c00000c0780;
   0xe019c0001c387000018e1c0000770700001ce1c000fffc700000601c0000c10700000031c000000e70003fffdc0001c3070001d751c00070007000060c1c00071c6700038c31c000fffc700000e03c00001c0f00;
   0xe818800018186000198cc80000e706000318608000fffc60000060080000c182000000318000300e20003fffc8000ffff200018600800030006000060c080003386300038c318000fffc200000e01000000c0600;
   0xf8580000181c000019ddc00001c38400039c700000fffc00001fff800000c1c0000000300000307e0000007000000ffff000018700000070004000060c000003386000038c300000000e000038e30000001c0000;
   0xe8f80000380c000018f8c0000381c00001d8380000038e00001fff800000c0c2a000aab0000038ee0000006000000beba000018660000030000000060c00000380e000038c300000000e000038e30000000c0000;
   0xdcd87c00700e000018f1cfc00700e3f001fc7cfc0003873f0018618fc000c1c3f000fff0fc0018ce3f0000700fc001c301f0018770fc0070003f00060c0fc00380c3f0038c30fc0000073f0038e30fc0001c03f0;
   0xed987c00700e3f0018f0cfc00e007bf800f83cfc0003873f0018618fc000c0c3f000fff0fe001dce3f000fff8fc001c303f0018630fc0030003f00060c0fc00380c3f0038c30fe0000033f8038e30fc003fc03f0;
   0xcd987c01e1c73f001861cfc00c01bbf8007c7efc0003803f0018718fc01fffc30000c030fe001f8e3f001fff8fc001c303f001c730fc0075543f00060c0fc001c1c3f0038c30fe007ffc3f8038e30fc007fc03f0;
   0xef186000c0c3300018e0cc000081930000383ee0000380300018e18e000fffe30000c030c0000f0e380000600c0001c30380018330c0003ffc300006ffce0001c18380038c30e0003ff8300038e30c00000c0300;
   0xc718600040c2300019f1cc0001c18300001c74e0000380300018f18e001fffe30000c030c000070e380000700c0001c3038001c718c0007ffc300006ffce0001c38380038c30e0001e00300038e30c00001c0300;
   0xc618600000e0300019b8cc0001e18300001f30e000ffff300019f18e0000f0030000c030c0000f0e38002aea8c000bebab8001c318c000300c3000060c0e0000e38380038c30e0000700300038e30c00000c0300;
   0xc7186000006030001bb9cc00007d8300001ff0e001ffff300019b98e0000f8030000c030c0001f0e38003fffcc001ffffb8001c31cc000501c3000060c0e0000670380038c30e0000780300038e30c00001c0300;
   0xcf1860000e6030001b9ccc00003f8300001930e000038030001bb98e0000dc030000fff0c0001b8e38003fffcc000ffffb8000c388c000000c3000060c0e0000760380038c30e00001c0300038e30c00000c0300;
   0xcf9860001c7030001f1dcc0000078300001c70e000038030001f1d8e0000de1b0000fff0c00039ce380030700c0001c3838001c180c000001c3000060c0e00007e0380038c30e00000e0300038e30c00001c0300;
   0xd99a6000183830001e0ecc0000038300001830e000038030001e0f8e0000ce3f00000030c00030ee380030600c0001c3838000c180c000000c30000e0c2e00003c0380038c38e0000070300038e30c00000c0300;
   0xd9df6000383930001a07cc0000019b00011c77e000038130001e0ffe0000c71f00000034c00070ff380030704c0001c19b8001c1c6c000c01d30000e0c7e00003c1380038c3fe0004039300038e34c00001c3300;
   0xf8efe000301bf0001800fc000e019f00031837e0000383b0001a05fe0000c38780000036c000207ff8003860ec0001c19f8000c0e7c000c00fb0002e0c3e00007e3f80038c3fe001c01bf00038e36c00000c3f00;
   0x6f06de0007f5df0001801fe000e019f00071c73e0000381f0001801be0000c1e3c0000037c000002ff8003d707c0001c1cf8000c0e3e001c01df0006c0c1e0000f71f80038c1fe001c01df00038e37c00001c1f00;
   0x2c06ee0007ffe78001fffde000e018780031830e0000380f80018018e0000c0f880000033e000000e78001e603e0001c0e38000e070e000c00cf0002c0c0e0003e3c78003881ce000c00c78003fff3e00000c0780;
   0x7c0067000e7fe3c001fffc70007ff83c003fc707000038078001d01870000f47c0003fff0f001fffe3c001e701e0001c0f1c000f5787000fffc78007c0c070007c1f3c003801c7000fffc3c003fff1f001ffff3c0;
   0x380072000e00e08001800020007ff818003f8302000038010001f81820000fc000003fff06000fffe08000060040001c07080007e1c20007ff81800380c02000f00788003800e2000fff80800380006000ffff080;
   0x10002000040000000180000000000000001f0700000038000001f018000007c00000000000000000000000070000001c02000007e1c00003ff00000380c00000c0030000180040000555000003800000000000000;
   0x0;
   0x0;
   0x0;
   0x0;
   0x0;
   0x0;
   0x0;
   0x0;
   0x0;
   0x18000000000010000380000000000000001c004000c0000000018000000400000000010000000000000000000000000000000000000000000000000180000000000000001c000000070000000000000;
   0xaaa8380001800c001fff8300003800e002aaa8300000c00c000f800300001800c000fc00300000380c0000000300000000c000ffe020002aaa040000000300001800c0000000300000c00c000060030000ff00c0;
   0x1fffc700001801c001fff8700043841e003fffc780035e01c001ffc0700003c03c0007ff0700000381c001fff870007ffc1c000ffe0f0007fff1e007fffc700001801c003fff8700001c01c000060070001ff01c0;
   0xeaf87000018038001aba8e000638e38003aaa8e0007fe0380000ff8e00007e07800007f0e000001838001fff8e0007ffc38000c061e0007fff1c003fffce000018038003fff8e00000c0380000e00e0000c30380;
   0xe060e000fffe700018181c000638e700038001c0007ff0700000df9c0000e70f00000071c001fffc700018019c000701c70000c063c00001c078001c001c0000180700000c01c00015d4700000601c0001c30700;
   0x70e0c000fffe2000181808000638e60003800180003838600000c38c0001c786000000318000fffc2000180188000700c20000c0638000618630000c00080000180600000c0080003ffe60003fff880000c38600;
   0x3dc04000e18600001c1c00000638e00003bff88000181c400000c3800007c3c0000000710001fffc0000180180000701c00000c061000071c600001c0000001ffff800000c0000003ffe00003fffc00001c38000;
   0x1f80000061860000181c00000638e00003bff800001c1e000000c380000f01e000000030000000ee0000180180000700c00000c0600000318e00000caa80000ffff800000c00000030c00000001c000000c18000;
   0x1f00fc0061861f001c0e0fc00638e3f0038000fc000e0f3f0001c38fc01e38f3f003fff0fc0000e73f0019f98fc00701c3f000ffe0fc0031cc1f001cff8fc000180000000c00fc0031c03f80001c0fc00fc1c3f0;
   0x3fe0fc0061861f001c0e0fc006bae3f8038000fc000f063f8000c38fc0081c33f003fff0fe0000e73f0019f98fc00700c3f000ffe0fc00398c3f000ceb8fc0001803f0000c30fc0030c03f80000c0fc00f80f3f0;
   0x1f9fcfc0015d61f001fc78fc007ffe3f8039ff0fc007ffe3f003fff8fc0000e03f003fff0fe00ffe3bf0019998fc00701c3f000c060fc0019dc3f001ce38fc0001803f0000c70fc0031c03f80055c0fc0000073f0;
   0x3e23ee0007ffe18000f83ce0002baa380038ff0c0007ffc30003fff8e0000878300001830c000ffe3380019898e000700c38000c060c000198c38000ce38c000018030001fc30e00030c030000ffc0c0000000380;
   0x3061ce0007ffe180000018e0000380380039d70c0006000300001c38e0001c3c300001870c00055e0380019998e0007ffc38000c060c00001c038001ce38c000018030001fc70e000ffff30001ffc0c0007ffe380;
   0x600e000303e180000000e000e386380038c30c0006000300001838e0000e083000019b0c00000e0380019898e0007ffc38000c060c000ffffb8000ce38c0007ffe300000c30e000ffff30000c0c0c0003ffe380;
   0x1fff8e000383618001fff8e000e386380039c30c0006000300001c38e0000700300001ff0c00000e0380019998e000000038000c060c001ffffb8001ce38c0007ffe300000c70e000ffff30000c0c0c000300c380;
   0xfff8e000387618001fff8e000e386380038c30c0007ff8300001838e00023c0300001f30c00000e0380019898e000000038000ffe0c000abaab8000ce38c0006aae300000c30e00003e030000c0c0c0003818380;
   0x600e0001c6718001c038e000e386380039c30c0007ffc300001838e00071f0300007c30c000ffe0380019f98e000101038000ffe0c00001c038001cff8c000700e300000c70e00003e030000c0e0c0001c38380;
   0x600e0000ce6980018038e000e386380038ff0c0006aa830000383ee000707830000f830c000ffe0380019f9ae0001c3038000c060c000018038000cff8c000600e300000c30e000076030000c0e4c0000e30380;
   0x3fffee0000fc7d8001c03ee000e387f80039ff4c0006001b0000383fe0003c1930003d83ec00055e1b8001819fe0003839b8000c064c00001c0b8001c03cc000700fb00000c76e0000771b0000c06ec0000f71b80;
   0x3ffffe0000783f8001803fe000e387f80038037c0006003f0006333be0001e03f0001983fc00000e3f8001809be0003839f8000c06ec0000181f8000c02ec000600ff00000c37e0000e3bf0000e067c00007e1f80;
   0x3ffffe00007c378001c03be000e386f80038037c0006001f00077639e0000f01f0000181bc00000e0f80018019e000701cf8000c067c00001c0f8001c007c000700ff00000c73e0001c3df0000e073c00003c1f80;
   0x601e0001fe3bc001aab9e000fffe380038001e0007ffc7800277b8f00003e078000181de00000e0780018018f000600c78000c063e000018078000c003e000600e780000c31e000381e78000e038e0000ff0780;
   0x600f0007cf99c001fff87000fffe1c001d000f0007ffc3c003edf8700001fc3c000181cf00000e01c001f8187000e00e1c007fffcf00001c01c001d400e0007ffe3c007fffc7000f80f3c000751c70007e7e3c0;
   0x6002000f83dc8001fff82000e00008001f80020006aa808003ecfc2000007e08000180e600000e008001f0182000e00708003fffc6000018008000fe0020007ffe08003fffc2000e003880007e1e2000f81f080;
   0x6000000401800001c0380000e00000001f0000000600000001c4180000001c000001804000000e000000f01800004006000000000000001c0000007c000000700e00000000000004001000003e0c0000e007000;
   0x0;
   0x0;
   0x0;
   0x0].
Definition hanzi_rows_170 : list N :=
  [0x0;
   0x0;
   0x0;
   0x0;
   0x0;
   0x70000000070040000030000000300000001c00000018008000c0000000400004000c00000000180000000e00000013000400000c010000380000000600000001c0000005c00000001c0000000000000001c0040;
   0x600380000300c0008030300000380c00000c0300001801c001fe803000f81f86000fe00300001980c0000e6070003b000e00000c0380003800c0000600300001800c000f800300001800c0000000300000e00e0;
   0xe0070000ff81c001f030700000381c0003fe0700003c03c001fff870007fdfce000fffc7800019c1c0000e60f00073001e00000c0780003801c0000600700001c01c001dc00700001c01c003fffc700000e01c0;
   0x2aea8e0000ff838000fe30e0000018380007fe0e00007e07000003f8e0000ffa9c00007f8e000018c380000e61c00063003800000e07000038038000aea8e0002baa380039800e0007ffe38003fffce0000060380;
   0x3fffdc0000f5c700001ff1c000fffc700003571c0000e70f00000039c0000c5c380000611e0007ffc700000e73c001575578003fffee000ffff70001fff9c0007fff700031c01c0007fff70000001dc0000c70700;
   0x3fffc8000060e2000000f08000fffe20000383080000c3860000003880000c0c38000060080007ffe20001fff18000fffe60003fffec000fffe20001fff880007ffe20000180080002baa20000001c80001c38600;
   0x380000007070000300300000c00e00000183800003c3c00000003800000c0610000060000007ffe00001fff00001ffff20000006040000380000000600000001c000007fffc000001c000001ffdc0000181c000;
   0x18000003fff8000300300000e00700003fff80000701e00003fff800000cc600000060000000186000000e3800000306000001860000003800000006000000018000003fffc0000018000001ffdc0000381c000;
   0xe1c0fc007fffbf003fff0fc00c557bf003fffc7c01f00f3f003fff8fc000cc71f007fffc7c0001873f0000e1cfc0007071f00018707c0003803f0000600fc0001c03f0001c00fc007ffe3f0001c1cfc00700e3f0;
   0x70e0fc0030c13f001fff0fc00e3ffbf000003efc00dffbbf802aab8fc00fcdf9f003fffcfc0001833f0000e0cfc00c3061f80018707c0003803f003fffefc00abaabf0001800fc007ffe3f8000c1cfc00fffe3f0;
   0x7ff0fc0071c03f0005540fc00e75d3f000003efc009ff93f8000038fc00fcdf9f0055754fc0001823f0000e08fc00e7ff1f8019b707c007ffe3f007fffefc00ffffbf0001800fc0001c03f8001c1cfc00ffff3f0;
   0x3ff8c00030c0300000000e000e20c38000ffb8e0000ba8300000038e0000cd8980000600e000ffff30002aea8c000e6fe180019b3060007ffe300006000e000ffffb80001aa8e000018030000ae9ce001c00b380;
   0x19d78c001ffff30001fff0e000e70c38001ffb8e0000180300015578e0000cd8180000600e001ffff30003fffcc00066c718001993060000000300007000e00001c0380001bfce000ffff30001ffdce0004000380;
   0x38e00c000ffff30001fff0e000e3fc3800083b8e000018030001fff8e0000cd9980000600e000aeba30002bfa8c00066e61800199b860000000300006000e0000180380003bf8e000ffff30000ae9ce0000000380;
   0x1c780c00071c0300018030e000e7fc38001c3b8e000018030001fff8e0000cdd980015750e0000630300001f80c00076c718001dd9c6000555430007fffce00001c03800038e0e00057d5300001c1ce0003ffc380;
   0xe3c0c00030c0300018030e000e20c3800083b8e0003ffc3000180f8e0000ccb98001fff0e0000630300003f80c00036e718000cc9c60007ffc30003fffce0007fff3800038e0e00003e0300000c1ce0003ffc380;
   0x71f0c0007ffe300018030e000670c38001c3b8e0003ffc3000181d8e0000ccf18001fff0e0000630300007fc0c0003ee718000dccc60007ffc300007060e0007fff3800038e0e00007f0300001c1ce000300c380;
   0x387cc0003ffe30001fff0e000620c38000f3b8e00001803000180dae0000ccf180018030e0000639300006ec0c0001ee3180001c0e6000601c300006070e0002baab800038e0e0000fb030001fffce000300c380;
   0x1c1cc00075d530001fff6e00067fdf8000f39ee0000181b000181dbe001ffced8001c037e0000619b0000eee6c0001c67d80003e046000701d3000070e6e00001c1f800334e4e0001dfdb0001fffce000300db80;
   0x3e06c00020c1f00018037e00062adf8001039fe0000181f000180dbe000ffcef80018037e0018619f0000ce77c0008e6bf800036036000601fb000060c7e0000180f800637e6e000399df0000001ee000300df80;
   0x77c7c00001c1f00018033e000700cf8003039fe0000181f000181dde000001f78001c033e001861cf0001ce7bc0019f7ff80007707e000701df000071c3e00001c07800777f7e00071cff0000001fe000300cf80;
   0xe3e3c00000c078001fff1e000700038003039ce000018078001ffcce000003b3c0018030e001860e380038e3de0009b2bb8000e381e000601c780006081e00001803800360fde001e187f8002aabde000300c780;
   0x1c0fde00001c03c001fff0700075801c003ff0c7000ffff3c001ffce7001fff3de001fff07001fe07180030e1cf000fb819c001c1e0f0007ffc3c0007000f001ffff9c003e01cf000c1c33c007fffcf0003ffc3c0;
   0x3803e600000f808001803020003f8008003ff0e2000ffff0800180c72000ffc1c4001fff02000fe03880000e082000f1c18c00380f030007ffc180007e002000ffff88003e0002000018008003fffc20003ffc0c0;
   0x1000c0000007800001803000001f00000015404000000000000181c600005400c0001c03000007c01800000e00000060c10000100700000701c000003e000000000000001c000000001c00000000000000300c000;
   0x0;
   0x0;
   0x0;
   0x0;
   0x0;
   0x0;
   0x0;
   0x0;
   0x0;
   0x70e0000000000000003800000018000000030000000000000006030000000010000000e000001000000000e0000000000000000e0000000000000000000000017000000000001000000000000070010007010000;
   0x30e0380000aa860038380380001800c000038030003ffe0c0006070300000338600000e030003fe80c0000e6030007ffc0c0038e306000ffff0c000000030003e000e003fdfe1800aaaa0c0000700300030380c0;
   0x70e0780001ff8e00383807800ffff1c00019c070007ffe1c00070607000ffff0e000006070001ffe1c0000e7070007ffc1e0038e30f000ffff1e003fffc780077001c003fdfe3800ffff1e0000600700030381c0;
   0x3fffce000ffeb9c001fff8e000fffe3800038e0e00038003800030e0e000ffde1c003fff0e000018e380000e30e000700c380018e71c00000e038003fffcf000e60038003a9aa7000ffff380000e00e0003870380;
   0x3fffdc000ff6318001fffdc0000180700007071c0001e707000038c1c0000c1e38003fff1c000018070001fff1c000700c70001ce63c0000060780000701e0004700780038180e000e04378003fffdc0001c70700;
   0x30e08000c66338000e38080002baa20000fff8800007f860000bae980000c0e3000000388000ffff20001fff98000700c20000eee100000060300000600c000ffffb00038180c000e0c320003fffc8000fffe200;
   0x70e00000c66310000738000007ffe00001fffc000007c000000fff800000c1f10000001c0000ffff000015f580000700c000004e4000003ffe00000c7700001ffff800039d8c0000e0e300003001c0000fffe000;
   0x23a00000c67f000003b80000001800000380b800000f8000000eab800000c0f80001fffc000007e0000000e1c00007ffc000000e0000003ffe00000c6300000060000003998c00002aea00003200c00000380000;
   0x3807c00c67f1f007fffefc0055d53f00100707c007ffe3f000c018fc000c1ddf001fffcfc000ff03f0000e1c00007ffc3f001fff0fc0038703f000e730fc0006001f003999c7c007ffe1f0037c1cfc0003803f0;
   0x180fc00e6631f003fffefc00ffff3f0000030fc007ffe3f000c018fc000c189f0018260fe001db83f0000e08fc0000003f001fff0fc0038303f000e630fc00e6661f003b1987c0000301f0003fe0fc0003803f8;
   0x7fffefc0066631f0000700fc01ffff3f001fff0fc0061863f000c018fc000c181f001c770fe00799c3f003fffcfc0000003f0018030fc0018303f0006730fc0066661f003b1987c0003b81f00007f8fc0057d43f8;
   0x3fffee0006e63180000380e000000030001fff8e000618638000c018c000ff98180018e30c000e18f38003fffcc0007ffe380018030c000ffffb8000e638e000666618003b19860000398180000330c0007ffc300;
   0xc0e0006c771800155e0e0007ffc30000071ce0007ffe38000fff8c000ffdc18001dc70c000c187380015554c0007ffe38001fff0c001ffffb8001f778e00076661800381c07000039c180000300c0007ffc300;
   0xe0e0006c7f18001fff8e0003ffc30000060ee0007ffe38000fff8c0000c1e18003fffcc0000ffe380000000c000018038001fff0c000aaaab8001f6f8e00037ff98003c1e060007ffe180038300c0000380300;
   0x70e0007c7f18001fffce000700c30000070ce0007ffe380001dc0c0000c1f18007fffcc0000ffe380015550c000018038001d570c000000038003b7dce00037ff98003f1f070007ffe18003ff00c0000380300;
   0x1fff8e0003c6318001807ee0003aac30003fffee00061863800018c0c0000c1b98000c330c0000e3038001fff0c0000180380018030c0003ffe380033ecce0003e6618003b9b86000038018000fff8c0000380300;
   0x1fffce0003c6318001c066e0007ffc30003fffee0006186380001cc0c0000c19d8001c730c000567038001fff0c001ffff380018030c0007ffe380071fcee0001c66180039d9e700003801800007fcc000ffff300;
   0x1807ee000386318001ffe0e000300c30002afaae0007ffe3800018c4c0000c1898000ce30c0007e30380018030c000ffff38001fff0c000300e380021e86e0001c66180038d8660000380980000308c000fffe300;
   0x1c07ee00019f758001ffe6e000700db00000f82e0007fffb80001ce7c0000c1898000cc3ec0007f31f8001c036c00003c138001fff6c000700f380000704e0000c675800385827001ffffd80000304c000ffff300;
   0x18063e00039fff80018067e0003ffdf00000f83e0006187f800118e7c0000c18f8003ffffc0006038f80018037c00007e1b80018037c000300fb80000606e0008e63f800381826000fffff80010307c0000381f00;
   0x1c077e0007c7ffc001c063e0007ffdf00003dc7e0006186f80071c73e0000c18f8003fffbc000601878001c037c0000f71f80018037c000700ff80000707e0019f63780038183f0000380780030307c0000381f00;
   0x18061e0006e603c0018061e000300c7800078f1e0006186780031838e0000c1838000c001e000601c380018031e0001e78780018031e000300e780000601e0009b83b80038181e0000380380030301e0000380780;
   0x1fff07000e7601c001ffe07000700c3c001f07c700061861c003fc3c7001ffff9c000e000f000700e1c001fff0f0007c3e3c001d030e0007ffe3c007fffef001f9c19c003f1f8f80003801c003ff00f00003803c0;
   0x1ffe02000c3e00c001ffe020003e0c08003c01f2000798608003f80e2000ffef08000fc0020003e0708001fff02000f00f08001f83020003ffe08003fffe2000f0e18c003f1f83000038008001ff0020000380080;
   0x1c0700000c16000001c06000001e0c0000300060000798600001f00600000007000007c0000003e0300001c0300000c00700000f0300000700e0000000000000704000001f0701000038000000540000000380000].
Definition hanzi_rows_171 : list N :=
  [0x0;
   0x0;
   0x0;
   0x0;
   0x0;
   0x0;
   0x0;
   0x0;
   0x0;
   0x60000001c380000047000000180e000006070000000c0000000600000000c0000000700000001c004000018010000000000000700000003100000007001000100000000000010000e7000000000000000180000;
   0x60010000c3806000e2303000180e060006060180001c0060000600200000c00c0000600300001800e00001803800fffe0c0000300380003380c000060018003f8004001fff838000e600c0000000100001800c0;
   0x6007800ffff9e000e7307000180e0e0006070780001c01e001c770700001c01c003fffc700003801c00001c07000ffff1c0000780700007381c000074038007fff1e001fff870000e701c003fffc780055d41c0;
   0x3fffc7000ffff98000e230e000ffff9c003fffef000ffff3c001c630e000ffff38003fffce000fffe38000ffc0e000e006380000fc0e000061838001f6f0700001be380018618e0000e6038003fffc70007ffe380;
   0x3fffde0005d7d38003fffee000ffffb8003ffffe000ffff78000e739c000ffff700015555c000fffe70001ffe1c000e187700001ce1c000061c70001f77ce00001c078001c619e0005e75700000700e0007ffe700;
   0x600c0000cb830003fffec000180e300006060c000e0033000063188000aaaa2000000008000000020000e0608000e1862000038708000fffc20001860cc000abaa300018618c000fe7f200000380c0000180200;
   0x60080001df800000e73000001d5e1000060700000e00300000771c00001c3800001fff0000000000000060700000eff700001f33c0000fffe00001871c0000ffff20001fff80000fe7f2000001c0000055d5000;
   0x1fff80000abaa00000e23000001ffe000007fe00000eaab000001f8800000c1800000eab000007ffc0000070380000eff600003e31e0000060e00001860c0000ffff00001aeb800000e600000303f00000ffff000;
   0x1fff8fc00ffff1f000ff30fc001d5e1f0007ff07c001ffc3f0007dc0fc000c1c3f001c030fc007ffc1f000701c7c00e1873f00387077c00070f3f001f7fc7c0007f01f001c618fc000e703f003c77c7c007fff3f0;
   0x1a658fc00aaae1f000fe30fc00180e1f0006060fc001ffc3f000f1e0fc000e1c3f000c030fc00700c3f000380e7c00e1863f00202027c00060fbf001f6fc7c001db83f0018618fc000e603f001e61e7c0062883f8;
   0x1f6d8fc00000c1f0000030fc001ffe1f0006070fc00181c3f001e0f0fc001e3c3f001fff0fc00701c3f00011c47c00ffff3f000fffc7c007ffdbf001871c7c0079de3f001fff8fc00fe7f3f000ff167c00739c3f8;
   0x1b6d8c000000c18002aab0e0001ffe180007fe0e000180c38003863cc0003f7e38000fff0e000700c38000abe06000fffe38000fff860007ffc38001860c6000f18fb8001fff8e000fe7f380007fb0600033f0380;
   0x1b6d8c0007ffc18003fff0e000180e180007ff0e0001ffc38001071cc000f3e7380000000e000701c38001fc7c6000e0073800070006000070c38001871c6000c1c3380000600e0000e70380007df0600003e6380;
   0x19698c0007ffc18002aea0e000180e180000600e0001ffc380008630c000630338000fff8e0007ffc38001a8186000e0063800038006000060c38001fffc600000e0380000600e0000e6038000ec706000038e380;
   0x1fff8c0000000180000700e001ffffd80000600e000181c38001c730c00001c038001fff8e0007ffc38001801c6000eff73800019806000070c38001fffc6000ffff38007fffee0000e7038000dc7c600003bc380;
   0x1fff8c000198c18002aea8e000ffffd8003fffce000180c38001c730c0000180380007800e00003803800180186000eff6380001b8060002eac3800007006000ffffb8003fffee0000e6038000decc60000390380;
   0x1f80c00019cc18007fffce000064718003fffce000181c38000c738c001ffffb80001e00e000139838001fdfc6000ec3738000476460007ffc380000f006000ffff380001f80e001fe7f38001df406000ffff380;
   0x3f80c000198c18002afa8e0000ce3180001f80e0001ffc38000ef18c000ffffb80000e02e0003b9838001f9fa6000ec3338000e66f60002eac380000f8060000c18380003f82e000fe7f380019b826000ffff380;
   0x77c6c00019cdd80001fc3e0001c67580003fc7e0001ffdb80007f1cc001ffffb8007ffffe000739df8001801f6000ec33b8001c66fe000070db80001dc260000c1d3800076c7e0000e71f80019de3600001c0b80;
   0x66e7c000198df80003ee7e0003833f800036e3e000180df80001f82c0000180f8003ffffe000638ff8001801be000eff3f8001806de000060df800039c360000e7ff8000e663e0000e60f8003987be0000ee1f80;
   0x1e673c00199cef80007773e00030377c000f671e000181cf80003dc7c00001c1f80000e01e000638e78001801de000eff3f8003f06fe000070cf800070e3e00007f1f8001c679e0000e70780071c3de0001c70f80;
   0x3c638e000998e38000e638e00010033c001e638e000180c3800078e1e0000180780000e00e000e38738001aab8e000e033b800320667000fffc38000e070e0000fe078003863ce0000e60380020c08e0003838780;
   0x7861e7001d9c71c003c71e7000ffff1e007c61f7001ffff9c001f07cf00001c01c0000e007000c3831c001fffc7000e001dc00375677001fffc1c001c03c70003ffc3c007061f70000e701c0000f407000701e3c0;
   0x3060c2000f98388001860e2000ffff0c003060e2000ffff88003c03e60000180080000fc0200003f008001aab820007c01c80003fe02000000c08007801e3000783f08002060420000e60080000fc02000e00f880;
   0x600000070010000007040000000000000060000000000000030004000001c00000007c0000001f000001801c00007c00800001fc00000000c0000300041000300700000060000000e700000007c00000c007000;
   0x0;
   0x0;
   0x0;
   0x0;
   0x0;
   0x0;
   0x0;
   0x0;
   0x0;
   0xc00000007018000000000000000c00000030c01000000000000070000000600000000300000001c0040000300000000c004000004000003000000000700100000000400000000000000000000030000000706000;
   0x1fe003000601806001fff8300030c20600030c03800ffff0c000060018002600860000300300001800e0000300300000e08600000e038007ffa0e000030038007f7f0c003fff830007ffc0c0000300300003060c0;
   0x1fffe7800701c0e001fffc780030c70e003fffc7800ffff1c0000e0078006671ce001fffc700003801c000070078000061ce0001ff070001fff1c00007c070007f7f1c003fffc78007ffc1c001ff00700047061e0;
   0x82fce000607f1c0018618e00038c61c003fffce000e19838001fff8700066639c001fffc6000ffff18003fffce000ffe79c0003ff0e00070c2180001ee0e0006363380038608f000600c38000ab00e000e306380;
   0x1c311e000707f38001d75dc0001cc61c00030c1c000619c70001fffce00076631c001fffce000ffff38003fffde0007ff7380001c38e00030c6380007cf0e000636770003861de000700c700000301c0007ffe780;
   0xc618c000606330001fff8800008c01800030c080003f98200018018c00036e7380003060c000183830000602080006238300000c1cc00038ce30000f038c000636320003fff8c0007ffc20003fff880001ffe700;
   0xc6300001ff7710001d75c8000ffffc0001fff800003f9c00001801c400036c610000306040001c700000070600000739c10001ffff00001dcc00007e01e00007f7f00003fffc00007ffc00003fffc00000706200;
   0x66300000ff7f0000186180000ffffc0000fff8000001bc00001aab8000036c00000038e000000c600000030600000339000001fffe00007fff00003bfff80007f7f0000386080000600c00003838800004306000;
   0x70707c0070771f001fffc7c00c001df001d5587c0001fe1f001fffc7c0006001f003fffe7c01ffff1f00030e05400038e1f001c71cfc007fff1f0023ff37c0000003f003d75cfc007ffc3f001bf9c7e01c7063f0;
   0x1fff07c0060631f001fff8fc00c000df000c018fc00ffe63f000aab87c00fff7df003fffe7c00ffff1f003fffefe0007cf9f0018308fc0000301f00080007c002aaa3f003fff8fc007ffc3f0003fe87e00c3fe3f0;
   0x1fff87c00737f1f00031c0fc00dfffdf001fff8fc00ff07bf000001c7c00fff7df003050e7c0155571f007fffefe000fe3df001fffcfc0000301f00199fe7c003ffe3f0015554fc0000183f00187fc7e00ffff3f0;
   0x6186000637f18000f0e0e0009ffe98000fff8e000000338002aab860000f0618003060e6000080318002aaaae0001ce0d8001fff8e000ffff9800199fe60002aaa300000000e00000183800183886000fecf380;
   0x71e6000776318001c178e000180618001c018e0007ffc38003fffc70001f061c003070e60001f07180000000e0007c78180001dc0e000ffff98001998e6000000030001fff0e000fffc38001ff1c600001c1380;
   0x6086000666318007839ee000180618000fff8e0003ffc38003bef860001f8618000fff8600007e318000fff8e000f03e180020ce0e000003818001998e6000ffffb0001fff0e000fffe38000fe08600000e0380;
   0x3fffe6000767fd800355c4e000180618001fff8e000700c38003367c700037c61c000fff8600011ff18000fff8e000e00f180071c70e00015581800199fe6000ffffb0001c030e000c30738000001c60007ffe380;
   0x3fffe60006e7fd8000ffe0e0001aae180000600e0003ffc38003366c600036c618000c6186000383318000c038e0003ffe18003fc3ee0003ff81800199fe6000003830001fff0e000c183b8001ff8c60006aae380;
   0x70060007c7818000f570e0001ffe180000700e0007ffc38003367c700066661c000c71860001e0718000c038e0003ffe18003f9dee000357c18001998e6000001830001fff0e000c38f38001ffdc6000700e380;
   0x1860a600060781800070fce0001ffe98003fffee000300cb8003ffec6000e67618000c61860000f8318000eab8e0003aae180000fc0e000383c18001998e60003ff8300018030e000e7ce38000018c6000600e380;
   0x1871f6000707c5800039cce0000330d8003ffffe000700df8003ffed700046365c000c71b600043fb58000fff8e000300fd80003f02e0001c7dd800199fe60003ffd30001c034e000ce7eb800155df60007fffb80;
   0x1861be000606ef80001f83e0000338f80000f87e0003ffcf8003366de000060678000c61be000e07378000eabae000300ff80003803e0000eeef800199af60003801b0001fff6e000e82ff8003ffefe0007ffff80;
   0x1871de00070677c0001f07e001c31c7c0001dc3e0007ffc78003366ff000060f7c000f719e0007c03f8000c03fe000300ef800001fbe00007c77c001998fe0003801f0001fff7e000fffef800155dde000700ef80].
Definition hanzi_rows_172 : list N :=
  [0x18618e0006063bc0003f81e000c30e1c00038e0e000300c3c0033666e000021fbc000f618f0001f01b8000c03be000300e380000fe0e0000f873c001818ee0003800780018031e000fffe38000018ee000600e380;
   0x1fffc70007061de001fdf8f000ff0f0c001f07c7000700c1c00336667001fff9de0005700700007f1dc000fff8f0003ffe1c0007f0070007ff3cc001818e70001c003c001c030f00060001c001ffc670007ffe1c0;
   0x1fff820007e7c8c003e07e2000ff03c4003c03e20003e0c08003f6663000ffe0c40000600200000fcec000fff860003ffe0800078002000f8fde0001f1ee30001fe018001f83020007c0008001ff8620007ffe080;
   0x1800000003c7c00003001c00007c01c0001000c00003c0c00001c0601000ff0080000070000000018c0000c0382000300e0000060000000e01cc0000f1ce10000fe000000f03000007c000000000040000700e000;
   0x0;
   0x0;
   0x0;
   0x0;
   0x0;
   0x0;
   0x0;
   0x0;
   0x0;
   0xdcc0400001c00000070004000606000000000040007030000000010000004600000000000000000000000000000006070000001c000000000010001c180400000c000000c04000004030100001c0000;
   0x60e00000c8c0e0001ae0300002000e000606010003ffe0e00030601800aaa3860000e603000ff7f86003fffe18007f7f0c00060e0100001800c000fff038000c180e00001c010000c0e06000e03038000180060;
   0x1e0700007cc61c0003ff070007ff1ce001e07038007ffe1c00038603800fff70e0001c707000ff7f8e007fffe78007f7f1c00030c03800ffff1c001d5707801ffff9c000e78038000e1c0e0007070380055d51e0;
   0x3c0380006cce180003830e0007ff19c001e7ff30000e3818002baea7000eaae1c0001c30e0001a1b1c00018807000626238003fffe7000ffff18000c030e000ffffb80006600700006381c00038e07000ffff1c0;
   0x7801c000eddf380015d79c0006733b800367ff700007f038003fffee000e04c1c003fff1c0001b1938001fffde0006f6770007fffee000181838001fff1c0005d5d7800070c0e000ffffb800038c0e0005d55780;
   0xe060e000cffb30003fffc80007ff3300036030e000afaab0000baeac000e0c038003fff880001b19b0001fffcc0007c6c200018000c0001c3830000c03080000c1830000b8d8c000ffffb0000000060001838300;
   0x1c07078004f7380001775e00007ff71000160304000ffff900019cce4000e5d5900015d7c0000ff7f9000199dc00007878000019bfc40000c3010001c03000001ff800001dcdc4000073000003fffe00001c30000;
   0x180f038000c3180000f71e0000020000002ebfe0000e3e00000198cc0000effd80000083c0000ffff80001988c00007e7e000019b0c00007fff00000fff000000ff8000038ecc0000033000003fffe00000c30000;
   0x1f81001ffffdf001c3da7c00fffc1f003fffe000073781f000dcd87c00e5d59f001fffe7c001c1c3f001fffcfc006f67bf0019bfcfc007fff1f0005550fc0055d41f00307ce7c007fff1f0001040fc00ffff3f0;
   0x39c0000ffff9f0038cf8fc00aaa81f003fa867c003b1e1f00078d8fc00e0c19f001ffff7c001c1e3f001fffcfc0063633f0019bfcfc0061833f003fffcfc007ffe3f00763c67c003fff1f00038e0fc00ffff3f0;
   0x70f00000c6c1f0011c58fc007ff7df00067de7c0013e7df007fffffc00effd9f0001c3e7c019ef63f0000000fc0061c03f0019b5cfc0061873f003fffcfc0075d73f00161f47c0077301f000f070f400c1c33f0;
   0xe0780004fef98003fff8e0007fe7d800062f6600003c398003fffee000eaad98000083860009e7b38001fff8e00001c0300019bfce0006bab38003188ce00061863800060f86000abba98001e038e000c183300;
   0x7c03c000dfef98003fff8e00070771800067567000ffff180055555e000eefd9c001fff86001fb9bf8001fff8e00007f030001930ce0007fff3800319cce0007fff380007ffe6000ffff98003c01ee0000180300;
   0xf800f000c86c180000018e0006ae618000e2fe6000ffff180000000e000eaad98001fff86000f188b80018018e0001e3830001a38ce000618338003fffce0007ffe380003f8e6000abba98003000ee000fffe300;
   0x7fffffe007fef98001ffd8e0007ff718000f7fe7000e36318000fff8e000eded9c0001c3860007ffe38001fff8e001ff9f30001f1cce000618738003fffce00001c03800000006000773018001fffce000ffff300;
   0x3bfffbc007bef980000018e000006618000e2266000ee7318000fff8e000effd98000083860007ffe38001aab8e000e1c7b00000000e0006ff3380008000e0002baa38001fff860002bba18001fff8e0000060300;
   0x13801c000786c18001ffdce0007ff718000f7767000fc3b18000c018e000effd9c007fff86000700638001c018e0000cf130001fffce0006ff738001fffce0007fff38001fff860007fff18001999ce0000070300;
   0x380180003bee98001ffd8e0007fe618000b2fe6000f80f18000c018e000e3e198003fff86000600638001fff8e0000e3c30001fffce0006c3338000eab8e00001803800188986000073818001889ae0003ff0300;
   0x3801c0003befd8000001fe000607758001f7777000fff758000fff8e000e7f1dc000003b60007ffeb80015750e00037c1b00018180e0006c37f8000e076e00001c0f8001d99960000f3cd8001999fe0003ff1300;
   0x38018000986cf8001ffcfe0006ae678001ba27e000ec33f8000eabbe000ecf9f8000c9b7e0007ffef80000602e00038f9f00018182e0006eb3f800078e7e0007ffef8001889be0001b3ef8001889be0003039b00;
   0x3801c0019ffc78001d5cfe0007ff7780019f67f000ec3378000c01fe000fcdffc001dd9be0007006f8003ffffe0001c7df000181c7e0006ff7780003fc3e0007ffef8001d999e0003f3778001999de0003039f00;
   0x38018000bfffb800180cce000000fbc0039a26f000eeb33c000c019e000e0c7bc0039998e000600638003fffde0000f887800180e1e0006033380000f81e0000180380018898e0007333b80018898e000381cf80;
   0x3fffc000f71f9c001ffce7001f57dde0031f667000eff31c000fff8f000e0c19e003199c70007ffe1c0000600f00007f03c001c478f00060071c0007ff07001ffff9c007fffe7001e731dc007ffff7000381f3c0;
   0x3fff8000e38008001ffc62000fff0ec0030f863000f83304000eab820007c0184003318c20007ffe080000600300000ff08000f83e20007c0308003f8fe2000ffff88003fffe3000c3308c007ffff20001f87980;
   0x3801c00061000000180c40000ffc04000009060000780300000c01800007c0180003118c000070060000006000000001f00000780c00007c0700003c01c000000000000000001000073000000000000001f03080;
   0x0;
   0x0;
   0x0;
   0x0;
   0x0;
   0x0;
   0x0;
   0x0;
   0x0;
   0x20000180180000030400000300000000060000007000000001800000001c00000c0000000003800000000e0000000000000000000000180000001c000000000000000000000000000700004010000018c0000;
   0x3ffe780001801e00000387800003c0000000060000003000000001c7fc00003800000e0c000000e3870000000600000000fe000aaaaa8000380000000c000000000000000aaaaa8001b8060000e63fa00018c0d80;
   0x3ffe3f0001800fc0000187f00001fc0000100601c00fffbff0007fc7fc00ffffff00077dffc0006186000003ff0000fffffe001fffffc005755ff0001c1ffc005557ff001fffffc00398575000c71ffc0018c1dc0;
   0x3aea0fe0018003f8000180fe00007fe0001aaeab800fffbff0003ae30000ffffff0003f1ffc00071ce000003ff8000fffec6001fffff800ffffff0000c1ffc00fff7ff001fffff800318fff001c330bc0018c38c0;
   0x38601dc0018007700001c1dc000417f8001fffffc00575030000387380000000000003e00e0003ffffc00001c1e00001c0c600000700000fffe00003fff00000fff0000000000000071cd5700183b1dc0018c70e0;
   0x3860b8800baaa62003ffc988000e38380018c6318003b6038000bab9f8000ffff0000ff8060003ffffc000aaeaf00000e0c6000003c0000c00e00003ffe0000007000000000000000eeec6300389d9980018c6270;
   0x3871f1c00ffffc6003ffdf1c000f70c000186619c0038631e001fffcf0001d5570001e3fc7000000700000fffffc004078c6000c01f0000c01fff0015d5ffc000707ff0007fffe000c67d7700319ddd800fffe738;
   0x3830f3800fffbce00380e7380003f1c0001a368d800ffff3f0018c3ce0000c003000086eef800ffffff000eaeaf800e0fefe000f03fe000801bfe0000c0ff8000707fe0003fffe0004e27fe0001880e800fff8700;
   0x18383f0001c00fc0038073f00001f9c0001e7f9fc01ffffb30018c31c0001ffff00000707de00ffffff000e060600070dffe0007c71fc00fe59c70001c0c1c00070707000755560000f05740003c0c700018c0f80;
   0x181c1f0001e007c0038033f000007f80001bcef38003861f00018e33fe000aaaa0003fff3cc000381c0000e030600039c2ee0001e703c00fff9820000c0c0800070606000300060001f00600007e0e380018c1d80;
   0x1f1f3fc001e00ff00380b77c0000fff00019e679c003861f8001fff7fe00ffffff007fff3e0000701e0000ffffe0001fe0c60000ffc1c00e7ddc7001ffec1c00070707000700060001b87fc000e707fc0018c39c0;
   0x1f0730c001f00c700381c60c0000c3f80019b66d8007ff9fc001fff6ea00ffffff0000983f0000ffff8000ffffe0001ff0c60000ffe0000e6cd82001ffec0800070606000300060003983fc001c38df80018c30e0;
   0x37c0001b01e0001838f800001f038001b9ee7c007ffb6e00103866000e000070001dc7b8007ffffc000601f00001b3cc60001dc78000e7cdff001c0cffc000707ff0007000600071c060003c3dcf00018c7070;
   0xaaa6e0001b81f8003870dc00003bc00001fcff3800601ae780387e26000effff300008cf9e01f81e0f800f83be0001b1ec600019c3e000e6cffe000c0cff8000707fe0003fffe000e0effe00700ffb80018c6038;
   0x1ffe6780019c19c0018e0cf000039f00001fe779c00631ae3001e67f6000effff7001ffff8c00ee1fc70003c70fc003b87fe00039e0fc00e6de40000c1c610000701040007fffe001ffffff003fffffc01ffffff0;
   0x1aae63c0018c38f0019c0e3c000387e0001db76d8006318f00007f1b6000180f80001fffbc0000739fc0000ffc180033c2fe00039f03800e6fac6000e386180007038600000000000fff060001ffb1a800fffbfd0;
   0x180ef0c0018e3c70019c1f1c0003e1fc0019be6fc006318f80007dc060003f1dfc0019cfbe00003fe1c0001fcf800073e0c600071bc0000f670c60007307300007018c0001c038000756574001d7818001ffff8c0].
Definition hanzi_rows_173 : list N :=
  [0x180ef80001873e0001880f800003f83800188e638006318dc000ccf060000ffe3c00188d3700003f38000019e3e0006370c6000e18e00007e60ce0003f03300007018c0000c0380006067fe00183bffc0000038c0;
   0x180efe000187b78001801dc000073e000019d675c006318cf000df3c600003f7c00019cc33c000f79fc00039f87800673cc7001e1c7c00016706c0003e0330000701cc0000e07000060675e001c3bffc001dc38c0;
   0x180ee7800183fbe001800cf000030f800018e6398006318c78019b8860000678f800188c31e001c7e3e00073be0000e31ec2003c183f00006306c0001c1b30000708cc0000e07000060660e0018381c00038e38c0;
   0x180e63e00181b8f001c00c3c000707f800180601c001f90c100199e060000e6f1c001fcc304003c6784001e38fc001c30fc700781c07e01863bf00003f1fc000070ff40000707000060660e001c387c00070738c0;
   0x1aae60c00180383001c00c0c000380f8001aaeab8003de0e0003987860001c6380001c8c380007063e0003c383f800c382c300301c01c00861bff800f787fe00ffffff8000302000060660e001838ee0007033fc0;
   0x1ffe740001d01c1001d40f440003d418001fffffc00f0fc700071c1c74007871fc0001c01800070707f00381d478000380d300000f50001c61e7f001e1f07c01fff87f003fffffc007fe7fe001ff9c7c00e03bfc0;
   0x1aae3e0001f80f8000fe07c00001f800001fffff800e03e7c0000f807c00603e3e0000801f000003f0e00000fc000001f0fb80000fe0000fe0700003c0f80000fff800003fffffc007fe6ae001ffb83e00e01c0c0;
   0x180e1e0000f00780007c03c00000f8000018000000080043c00007803c00401e060001c00f000001f00000007c000000f071000007e00007c0200003003000000000000000000000060660e001c390040040180c0;
   0x0;
   0x0;
   0x0;
   0x0;
   0x0;
   0x0;
   0x0;
   0x0;
   0x0;
   0x40000040000000070000000007180000004000000180000000005000000180000060000000000000000000c0000001c00000000000001c60c00000c0200000701000000004000001c100000000200000c60c00;
   0xf00000ff82aa000ffe000002061c000080c7f8000187fe000fff60000001800000600ff8002aaaa8000000e00000018000002aaaa0001861e00000e0780000301e0003ffe7800000c1e0002aaaf80000c61e00;
   0x1fc00007ffbff0007ffff0007c70f0001c1c7f80001c7fe001fff738007ffffe000600ff8003ffffc00007ff00007ffc000007fffe000fffe7c0015753f0000300f8003fff3e00040e0fc003fffbf0000c707c0;
   0xf9e000000fbfe00001bff0003fe078000c0c6080000c6ae000e0e638007ffffe000600c18003ffffc0000fff0000fff8000007fffe000fffe1f801fff0fc007ff83e002aea0f800ffe03f803fff8fe000c301f8;
   0x7e77c000003b070000180700007fc7c000e1c6580000c70600070c73800001800000600c5800001c00000075780007ffc000007000e0001c6037001fff1dc007ff87f0000c01fc00fff0770000001dc000c30770;
   0x3f8e3f800003b3600001803000007e6e00070c6c800ffc66600071c638003ffff8003ffec98000018000000301c0000018000006060e000186162001b3bd8800601a620000c098800607a64000000d88000c3b620;
   0x3e1c07c00003b37003fffff000c0767700039c6d800ffe7760003b8738003ffff8003ffedd800555d550000380e000001c000007060e0005553e7001bf3f9800601fc60000c1f1800707fc6001fff79c00fffbe70;
   0xaaaa800003b36003fffff000c060600001cc6c8003066660001f063800001800002faac9800ffffff000018070001ffff80006060e0007ff9ee0018e37b8006019ce001ffe7380038ffcc000ffe3b800fffdee0;
   0x7fffe000fffb3700001c07000fff0700001fc6d8003077760001f073800555d55000700dd800ffffff0007ffffc001ffff80007060e000755cfc001bf31f0007ff8fc001ffe3f0001dccfc001c071f000fffcfc0;
   0x1eaaa000fffb3600000c030007fe06000004c6c800307666000fbe63800ffffff000780c98000000000007fffdc001800380006060e00060183c001b3b1f0007ff87c001aae1f0000f80fc000c061f0000e1e7c0;
   0x1e00000060fb37000ffff7000000070003fff6d800307f76007f1f73800ffffff000780dd8001555500007000c8001c00380007060e0007ffc7f001a131fc006018ff00180e3fc000781df001c071fc001f1f7f0;
   0xf00000060fb36000ffff30000aaaa0003fff6c800187e66001803600000000000007c0c98001ffff80007020c0001818380006060e0007ff8e3001fff30c006018c700180e31c001fc183000c0638c001f1be30;
   0x7fffe00071fb37000d55770001ffff0003fff6d80018f7760007fffc0001ffff80006c0dd8001ffff80007060c0001c18380007060e000701cf1001fff3c0007ff9e000180e780007df1e0001fff3c0001f1bf00;
   0x3fffe00031bb36000c18330001eaab000018c6c80018c6660003fffc0001ffff80006e0c98001c00380007060c0001818380006060e0006ab8f80001832e0007ff9f800180e7e001f07ff8000ffe3e0003f18f80;
   0x7040e000319b37000c18730001c183000019c6d8001dc7760007000c0001c1838000670dd8001c1c380007060c0001c18380007070e0007ffdde001187678005dd19c001ffe67000d55f3c001c07778003d99de0;
   0x3060e0003bbb36000c18330001c183000038c6c8000d86660003060c0001c1838000630cd8001c18380007060c0001818380006070e00003818f80398363c000ce38f001ffee3c007ff38f000c0671c002d998f0;
   0x7060e0001b1b37000c18730001c183000039c6d8000f87760007070c0001c1838000638cd8001c1c380007070c0001c18380007070e0000381c3001dff78c000ce3c700180ef1c007ff3c7001c0778c006dd9e30;
   0x3060e0001f1b36000c18330001c183000030c6c8000706360003060c0001c183800061ccd8001c18380007030c000181c380002038e000ffffe0000fbf7c0000ce3e000180ef80006033e0000ffe7c0006cd9f00;
   0x7070e0001e1878000c1c738001c1c3000071c160000700b00007070c0001c1c3800061e3c0001c1c380007038c0001c1c38000011c0000ffffb80003876e0000c637800180ede000603378001fff6f000ccf9bc0;
   0x30b8e0000e18f8000c0e338001c2c30000e0c3e0000f01f800031b8c0001c2c3800060f360001c6e3800073b8c00008ee38000078e000007c19e000183678008c639e00180ee780060331c00000067800cc799e0;
   0x7fc00001f1ddc0001ff0180001ef00001f9c770001f839c0005ffcc00001ff000006067700003ff000000fdc000003f7800001f0700000fc18f00118761c01cc738f00180ee3e0060330f00000061c00cc79878;
   0x3f9e00003b8d8c0003e781c000fc780001cec6300039c30c0003f0e00000fc780000600e30000fc3e00003e0f00000f83e00007c03c0001ce1830021bb60c008c3983001ffee0c007ff38300000060c000c19830;
   0x1fc07e000f1ef8f001f01f1c007f01fc0079fcc1c0070f70f001fc07f0007f01fc000741c3c007f01fc000f807f0007e01fc001f001f0007c7dc1007fff74000fc3dc1001ffe704007ff1d1007ffff50000c19d40;
   0x1e001f800e0ee07803c00fce00f8007e00303ec0e00e07e07801e001f800f800fe0007e081e00f8003e001e000fc00f8003f001e0007c00f03ef8003f8f3e000fc0ef800180e3e0006031f8003fffbe0000c18f80;
   0x1c00070004064010010001880040000600000400400c010030008000700060001e0003c000400600006001c0001800400006000800018004006780015031e00050047800180e1e0006030700000001e0000c18780;
   0x0;
   0x0;
   0x0;
   0x0;
   0x0;
   0x0;
   0x0;
   0x0;
   0x0;
   0x1c0700005c0000000300000000001c00000c300000000c00000619c0000000000000018000000c0000000e0e380000060000001c0000006c0000000000000000600000000c0000008000000001c1800;
   0x3fffffc0000c060000ec0000000382aa000aa81800000c300001ffdfe0000e38e0000aaa000000018000000c0aa8000e0e38000006000000ec000000ec0000001fffe00000600000000e000001e00aa8000383800;
   0x3fffffc001ffbff001dc0ffc0001c3ff001ffbffc003ffffe001ffc7f0001c3060001ffe7fc001ffff80000c0ff8005f5f7d000fffff0001dc3fe001cc0000001ffff00000e0ffc000063ff001ff4ffc000781c00;
   0x30c00001ffbff0038c0ff80001c3aa001ffbff8003aebaa0018e003000883070001ffe7f8001ffff80000c0ff800ffffff000ffffe0003983fe002aeaaa8001838300000c0ff8000063fe0003feff8000e00f00;
   0x30c000018c0700011c0c1c001cc303001c3b1c00030c30000186073000fffd3c00180661c001c18180000c0c1800ffffff0000060000011c306003fffffc005c18750001c0c1c00fff30700005ec1c003d557c0;
   0xfffff00018da60003fffcc80018e33200183b0c0003ffffc001860e3000bfffbe0018066c8001abab8002ac0c98000e0e380000c6380007f8336002aeaaa800ffffff003ffecc800fff322000060cd800fffffe0;
   0x1fffff00018fbfc007fffcdc00387333001c3b0e0003ffffc001c70c300000f73f0018066dc001ffff8007fc0dd8000ffe380001c0380007ffb760000c000000fd5d7d003fffcdc00f57b37000060cdc00e7fff70;
   0xc30c300018e3ff000180cc80030333200183b8600000c30c001c31f3000c1c0330018066c800001800003fc0c98000ffe38003fffffc0003fb360000cfff0000c1838003806cc800e01b320000e0cd8000707020;
   0x1c30c30019bf0770011dccdc00703b33001ffbf780055d7dc001c79ff000c780300018066dc00555d550000c0dd800000038003fffffc0001db760000cfff0001ffff8003807cdc00e0df370001c0cdc000707800;
   0xebaeb000bb306000318ccc800ffff32001ff9f3e00fffffc000f9f8f800ff00300018066c800ffffff0000c0c98007ffff80000c0380000183360000c0000000ffff8003806cc800e0cf32000ffecd80003b1e00;
   0x1fffff001f23c7e00399ccdc00ffff3300000051c00f5d5d400078e030007c0030001d566dc00ffffff0000c0dd8007ffff80001c038000f183760001dfffc00000000003807cdc00e0c337001fffcdc0003f0fe0;
   0xe0083c00198ccc801c03f320003fffc00068c0e0000000000000aaaa0001ffe6c8000000000000c0c98002aaaa800000000000ff83360000dfff8000aaaa0000000cc800e0e332001eaacd80000003c0;
   0x555540001ffff80019ddcdc000003330007fffc00078c07c0007fffe0001ffff0001ffe6dc001ffff80000c0dd8000000000007fffe0001fff760001c0000001ffff0000000cdc00676337000e00cdc000ffff40].
Definition hanzi_rows_174 : list N :=
  [0x3fffe0001ffff80019bfcc8000003320003aaac0000aaabf0007fffe0000ffff00003386c8000ffff8003ffec98001ffff80007fffe00041fb3600018aaa0001c0030000000cc800e66332000e00cd8000ffff00;
   0x7fffe0001d5578001dffcdc007ffb330007060c0001ffffe0007060e0001c1c300003386dc001c1c38003ffedd8001ffff80007040e000e387760001cfff0001c1830000000cdc00667337000700cdc000c1c300;
   0x3000e0001c1838000f8ccc8007ffb320003060c0001eaab80006060e0000c18300003386c8000c183800380ecd8001800380007060e00063033600018eab0001c1830000000cc8006e3332000380cd8000c18300;
   0x7070e0001c1c3800078ccdc00603b330007060c0001c18380007060e0001c1c300003186dc001c1c3800380ecd8001c18380007070e00073033600018c630001c1830000000cdc006ff3370001c0cdc000c1c300;
   0x3060e0001c183800070cce800603b3a0003060c0001c18380006060e0000c1830000318668000c183800380ecd8001818380007070e0003b033600018c630001c1830000000ce8006ffb320000e0cd8000c18300;
   0x7070e0001c1c3800070c160006038580007070c0001c1c380007070e0001c1c30000318160001c1c3800380e1c0001c1c380007070e0001f00f000038c630001c1c30000000060007c78580000741e0000c1c300;
   0x3030e0001c2e3800238e3e0006038f800030b8c0001c0c3800060b0e0000c2e3000031c3e0000c2e3800380e3e000182c380007038e0000f00d800038c630001c2c300000003e0006000f800003e3e0000c2e300;
   0x73b8e00015ff100067c7370006039dc00007fc00001def380004ffc400001ff1000731c7300001ff0000380e7700015ff38000579c400087c19c003304f300001ff10001555770007001dc00001f7700005ef300;
   0xf9e00000fc7800066e36380060398e0003f0f00000fe7800003e1e00000fe3c000230ee38000fc3c0003aaee30000fc7800003f0e00008fe38c002703f80000fc780003ffe6380070038c0000336300007e7800;
   0x7c0fd0007f01f8007e72e1c007ffb07000fc07f0007f03fc001f807f0003f01fc00770741c007f01fc003ffec3c007f01f0001fc07f000dc7f0f003f0f1f0007f01fc003fffc1c00750707007ff3e3c003f01f00;
   0x1e003fc0078007e003c3040e007ffb03801e001f800f800ff003e001f80078003e003f0380e0078007e003ffec1e00f800ff003e001fc00f83807003e3c0fc00f8007e000000c0e003f0203803fc101e0078007e0;
   0x1c0007c0020001c001810004006038010008000700040001f0010000780030000c001e010040060001e00380e00c0060001f00180001c00700001001c100180060001e000000004001f00010015010040070001e0;
   0x0;
   0x0;
   0x0;
   0x0;
   0x0;
   0x0;
   0x0;
   0x0;
   0x0;
   0x418100000c000000001800000060000000c00000001c000000001800000000000000380000000000000001800000000e00000030000000070000001c00c00000187000001c0000;
   0x3fff000000aaaa8001ffe000000c18380000c07f800001800000060000003c00000000c02a800001800003ffe7f8001f8000002aaa2a80003800000000603800030000000030000003ffee00008183000000c0000;
   0x3fff7fc001ffff8001ffe7fc000e18700015d47f800ffffff001060ffc006dfdff0001e07fc007ffffe003ffe7f8003b81ff003ffe7fc000701ff001fff078000703ff001030ffc0007fe70001e187380000c1ff0;
   0x38c37f8000eaab80018067f800aebaea001ffe60800fffffe003bfeff800edfcfe0003e07f8007ffffe002aae608007381fe003aae7f8000701fe001fff1e0000603fe003ff8ff80000c038000fdbf380000c1fe0;
   0x38c761c001c1c38001c0661c00ffffff001ffe658000c18e0001ffee1c00cc018700077061c000e18700000066580023818700380661c00fffd87001d779c001fffb07003ffcc1c0001c03e0003fbf3801fffd870;
   0x38c36c8000c1c38001ffe68800eaaaae0000c06c800061860000eeaec8000c00b20007386c8000618600000066c800fffdb200380668800fffdb2000c31d0000fffb3200181cc8800ffffbf80003833800fffda20;
   0x3fff6dc001c1c38001ffe6dc00e000070015d56d8000f1870000e60edc01ffffb7001e1c6dc00ffffff001ff66d800fffdb70038066dc0001c1b7000e70c0000041b37001c3fcdc00ffffb3001018738000061b70;
   0x3aeb6c8000c2e380018066c800e7ffe6003fff6c8003f99f8000660ec800fffeb2003c0e6c800fffffe001ff66c8000381b2003ffe6c80000c1b20000f8380000e1b32000e37cc80000c03000301a338000071b20;
   0x38c76dc0007e7d0001c066dc00e7ffe7001fff6d80071db9e005775edc01ffffb7003fffedc0055ff550000066d8004389b7003ffe6dc0030e1b70001dc3f0000e1b37000773cdc0001c03000357bff8005571b70;
   0x38c36c8003f83fe001ffe6c8000600600018886c800209800003fffec8000cc0b20017fb6c80003dbc00000066c800e38db2002bae6c8003861b2000f8f0fc000e1b320003e0cc8002aea30003ffbffe007ff9b20;
   0x3fff6dc00fc007f001ffe6dc00075560001ddc6d800ffffff007fffedc000cc1b70000006dc001f99f8003ffe6d8007399b70003066dc001f71b7003f07c1c000e1b370003e0cdc007fff30001ff01fc007ff9b70;
   0x3ffb6c8004000000000186c80007ffe0000db86c800eaaaae0000f0ec8000cccb20000006c800fe183f003ffe6c80033b9b20006066c8000ff9b2001801c00000e1b320007f0cc80000003000000000000603db20;
   0x38076dc007ff7fe00001c6dc000000000001f76d800e00007000078edc000ccdb70015556dc00f0181f0001b66d8003ff1b70006176dc000f79b700055554000fffb37001f7ccdc001555500007fffe000607fb70;
   0x3bf36c8007fe7fe003ffc6c8000aaaa800018e6c800effffe001ffeec8000eccba003fff6c8001ffffa0011b66c8001fa1b2000e3e6c800e701b20007fffe000fffb3200781fcc8001ffff80007fffe0007ff7b20;
   0x3bf36dc00707606003ffe6dc001ffff80001dc6d8001ffff8001fffedc001fcdb7003fff6dc001ffff80039376d8000f81b7000cf76dc0063c1b70007fffe0000e1b37003557cdc001ffff80007000e0007ff5b70;
   0x3a136c8006226660032676c8000eaab80000c86c8000c003800181bec8001bccba0000c06c800180838001f366c8000f81b2001dc36c80070e1b20006060e0000e1b32001ffccc8001c18380006060e0006031b20;
   0x3b1365c00777666003373edc001c1838003fff6d8001c1838001c1dedc001ccd9f0004c46dc001c1838000f376d8001fc1b70019836dc003871b70007060e0000e1f37001ffccdc001c18380007070e0006071b70;
   0x3a1366800622666003331668000c1838003fff6e8000c1838001ff8ee80018cc9a000ecc668001818380002326e8003be19a0038038e8001c3dba0006060e0000e1b3a00180c8c8001c18380006070e0007ff1ba0;
   0x3b131e000737666003198160001c1c380000e0160001c1c38001ffc0600018cc78001ccc160001c1c380006371600073f858003019d60001e18580007070e0000e1c1800180c140001c1c380007030e0007ff0580;
   0x3bf31e00063266600318c1e0000c0c380003e03e0000c0c380018183e00198cc780018ce3e000182e38000e333e00073bcf800003c3e0000f00f800061b8e0000e0cf800180c3e0001c3c3800061b8e0006030f80;
   0x3953b30007f77f60031ce370001dee38000770770001dee38001c1c770019fcccc0038c77700017f738001d3377001e39ccc0000f0770003fc1dc0000fdc40000e0ddc00180c7700015ff100001fdc00006071dc0;
   0x3811b38003d83b80038e7638000fe780000e386300007e780001ab863801bffcce0030c3638000fc3800019f3e3000c3818e0001e06380071e38e0003e0e00000e0d8e001ffc630000fe7800003e0f800060318c0;
   0x3801e1c0079e71c001862e1c007f03f4001c1e41c001f03f0001ffcc1c01b1ffc70000c2e1c007f01fc0079f3c1c008383870003c0c1c00f07b07001fc07c001ffff87001ffce1c003f03f0001f807f00060730e0;
   0x3f00c0e00e07e0f001f3040e00f800ff00380f80e00f800ff001ab8c0e00f00e830000f840c00f8007f00303980e0003e103800700c0e00c03d03803e001fc00fff70380180c00e007800fe003c000fc007c31070;
   0x1f00c0400401401001f300040060001f0030030040070001f001c1c00400e000010000700040040001f0000110040001e00100020000400400c0100100007c0000040100180c0040070001e00100001c007c70030;
   0x0;
   0x0;
   0x0;
   0x0;
   0x0;
   0x0;
   0x0;
   0x0;
   0x0;
   0x180000380e0000006000000180300000070000000c00000040c000000c00180001b03b0000000000001c000000001c00000404000001b0000000060380000000000000e018000038000000060000000038000;
   0x3ff8180000380e00000060000000c07000000e0000000e000000e1c7f8007df8300001b83b000aaaaaa0000c1ff800003800000e0c000007b00aa000063ff800fffc00000060180000380000000e0000000038000;
   0x1ff8180000180e0000006000007fcfff007fffffe001fe3ff0007187f800edfbff001ff9ff000fffffe001fffffc00ffffff00061c7fc006301ff003ff7ffc00fffdff000ff01800063b1ff0000c07fc00fffffc0;
   0x381aba800018ffe0007fffe00030efff002aaaae8001eb3fe000bba608000c03ff001ff9ff800aaabae001ffeba800ffffff0003187f800fffdaa003ff2ba800e00dfe000ff3ffc0073b9fe003fff7f800fffffc0;
   0x181bffc0001cffe0007fffe00039f304001555570000c3307001fff65800fffdd500018c3980007318e0001c031c00e18187003fff61c00fffd87001d7bff800f55d87000e3bffc00319d87003fff61c0000700c0;
   0x181aba800aacaea0002aeaa0001fb38c000ffffe000fffb32001aeb6c800aee8c6003fffffc007ff9ce001ffc30800fffffb003fff6c8000301b2000e3c38000ffedb200061818000398db2000c086c8002aba8c0;
   0x181818000ffc0e0000006000001f018c00000000001ffff37001ecf6d8001dd8fe003fffffc00575dce001ffc31c005ffffd0001986dc007ff9b7000e6fffc00f55db700071c180001d8fb7000c0c6dc003fffcc0;
   0x1f9818000eac0e000000600000ffefff0007fffe0001b9f32001ecb6c8001bc878000360660003ffeee0000c0fe8000181800001986c8007ff9b20007e2ae800e00db2001ffeba80007c1b2000e0c6c80038300c0;
   0xf9fffc0070ffff00000600000f0ffff0007fffe00071df37001fdb6d80019d8f0007373670007ffffe007fffffc001ffff8001fff6dc006319b70003c3fc000fffdb7001ffdffc001fc1b700061c6dc00fd755c0].
Definition hanzi_rows_175 : list N :=
  [0x1bffc0030efff003fffffc00bff00000060006000e6fb32001bdb6c80098c9fc003b3bf30002ab8fe003ffec68001ffff8001ffe6c8007ff9b20003c3fe000ffedb2001819998003ce1b20006186c800fffffc0;
   0x155d7740031f5f5003fffffc003fc7fe0007fffe000465b370019d36d801ffff9f003f1c71c007ff9de001555c7c000181800019986dc007ff9b7001ff3070004015b700199d99c00707db7007fffedc0078180c0;
   0x3ff86e00031b1b8000070c00000606060002aaaa000fffb32001fff6c800f2fe0700000000c000218ce000aa8c6800ffffff003bba6c8006319b2003c3df3e002aa9b200199999800e39db2003fffec8003abeae0;
   0x3ff9e780039b5b0000071c0001fffe06000fdfdf800fffb37001fff6d8006000010007fffc000fff9ce001ffcc7c00ffffff007fff6dc007ff9b700300df1c007ff9b700199d99c004385b7007fffedc003fffec0;
   0x18d9e78001badbe000370ce000fffffe000fdfdf800001b320000006c8001ffff80003fffc0000018ce00180cc68000700e0003bba6c8007ff9b20003fffe0006ab9b2001999ff8002381b20000006c80007070e0;
   0x18db67c001f0d9f000771ce000000756000c58d98007fdb37000ffe6d8001ffff80007000c0003fffce001d4cffc001f55780019986dc006319b70007fffe0006019b70019ddffc0063b9b70015546dc001e07ce0;
   0x18db66c001f099b000e70c60007fe606000cdadb8002a9b32000ffe6c8001800380003060c0003fffce0018ccfe800fffffe001bba6c8001809b20003000e0007ff9b20018983c0007399b2001ffe6c800fffffe0;
   0x1d9b66c000f199b001c70c70007ff7fe000ddbdf8007fdb37000c066d8001c18380007060c0003041c6001dcc75c00ff557f001fff6dc01fffdb70007060e0007ff9b70019dc7e000339d97001ffe65c00fffffe0;
   0xf9a66c000e199b801870e38006627fe000dfad98007fdb3a000c066e8001818380003060c0003060c60018cc308000e183200039866800fffd9a0003060e00060199a0018d8fe0001b8d9a001806668001861860;
   0xf1a666000f0999803870e1c00667060000f5bd9800001c18000ffe160001c1c380007070c0003061c6001dcc31c000e1c7000079c160015d54580007070e0007558580018dddf0001fce58001c06160001c71860;
   0x718620001f819800387060e00622aea800e7bdf8007fc8f8000ffe3e000182e3800030f0c0003070c60018cc308000e0c3000079c3e0001830780003030e0007ff8f80000cb9b80006c0780018061e0001871860;
   0xf18630003fc19c00107070800637fff800e77dd80075cddc000c067700003f71000057fcc00031b9c70011c575c000fee70000d9e770001870dc00077b8e0007558cc00076119c000ee0dc001c06370001df1870;
   0xf986380039e18e000070380006fa060002c6f9980060cd8e000c06630000fc3800003f9e000007bc03000f61ff8000fe780001d9b6380018e18e0001f9e000060198e000e7018c003cf1ce001aae638000fbc030;
   0x3dd875c00f0f1870000751c0007dc060006c7dd9c007fcd07000ffec1c007f01fc000fc0ff0003f1fc3001e7dffc007f03f000399be1c0018c387000fc0ff4007ff987003c3c18c00f87d87001ffe61c007f1fc30;
   0x38f879c00e039e700003e0e000e0f860003c38fec007fc603800ffe40e00f8007f001e003f800f803fb80381e00000f800ff00319980e001f0103001e003fc007ff80380301f18000f01e83801ffe40e00f803f38;
   0x105838c004011e200003e04000c03860003c105e40060c401000c0600400400007000c00070006000710030060000040001e000198004001f000100180001c0060180100200618000c00401001c06004004000610;
   0x0;
   0x0;
   0x0;
   0x0;
   0x0;
   0x0;
   0x0;
   0x0;
   0x0;
   0xd180c0000000700000000c0000300700010000c000030030000010180001600600000001c0000000600000c01c000000060000000180000000600000e030000300060000006000000380600001801c0000300600;
   0xd1a0c000fffc300000ff8c0006318300030aa8c00003803000003018000360060003ffe180002aa0600000e0180007fe060000000180000000600000e03000030006000000600000c38060000180180000300600;
   0x3fff0c000fffc700000ff8c0006330700031ff8c00001843000057018000760060003ffe1c0007fe0600001f01c0007fe060003ffc180007000600000e03000030c06000000600000e380600001801c000ff00600;
   0xc9bff800cd9eba003fe27f8006332ba00330c7fc00018dfe000ff818000e607fe0038e1ffc003ae7fe0003b8ffc006aaffe003ffbff8003027fe0000e7ff80030cffe000ffffe0006ff3fe000ba8ba800ff02ea0;
   0x7fdd7fc00ddbfff003fe77fc003373ff00330c7fc00ffddff000ffdff8005757ff001861ffc007067ff00071dffc00700fff000183ffc003077ff0000e7ff80030cfff000fffff0007ff7fe001ffdff800ff07fe0;
   0x3fff2e800c182ba0038620c0003362ba00330e0c000ffd8ba00061dff800fff2ea003860ba800306060001e0eba8006000600001801800038e2ea0000e2ba80030caea000aaeaa000338060000ba8ba8000302ea0;
   0x1b360c000fdf07000187f0c00013007000337e0c000e0f83000070e18001fff0600018701c000706060007d871c0007000600001801800019c0600000e03000030c060000006000003b80600001801c0007ff0600;
   0x2b760c000dfbc300019fe0c0007ff83000337e0c00066f03000030618000063060001830180003fe0600031c3180006000600001801800019c0600001e03000030c060000006000001b8060000180180007ff0600;
   0x7bffffc00c785750019e7ffc007ffd750033677fc007663ff001fff5d400463575001fbfffc007fefff0000f15d400754fff000183ffc001f85750007e57540030d57500000600001ffffff003ffdffc007fffff0;
   0x3993ffc000763ff001b62ffc00601fff0033637fc003663ff001ffdffc00ce3fff000f1fffc00306fff000239ffc007fefff002babffc000f0fff000eefffc0030cfff003fffffc00ffffff003ffdffc00603fff0;
   0x1fff1c0005773ff001f671c000655fff0033735d4002603ff001c01ffc006e3fff00050f5d4007065f500071dffc007fe5f5003ffd5d4000f0fff001cefffc0030dfff003fffffc000705dd001775774006735f50;
   0x1ffe18000fff860000e7e180006f98600033358c000063060001800380006e3060000aa8180003060e0000380180002060e0003ffc180000e00e00038e03000030c0e000000600000038098000660260006631b00;
   0x18061d800577876000e7f1d8006cd87600333f1d800073076001d503b8007c3066001ffc198007560e60001c0198000060e6000180198001f00e60030e03380030c0e60000061c00001c3de001f78f78006737b60;
   0x18c6b9800063c66000c62b98006c986600333c0d8000f3866001ff83b8003c3066001ab8198003fe0e60008f0198000060e6000180198001b80e60000e03380030c0ee0000060c0007ff29e001e79a78006637be0;
   0x18c6fd8007ffff6001c67fd8006cdff60033187d8001f1ff6001ffdf98003db7e600181df98007fe7e6001c7df9800006fe6000183f98003b8fe60000e7f38003ecfe60000061c0007fffdf001f7df7c0067379e0;
   0x18c6f98000633e6001ee2b98006e9be60033187d8001b8fe6001801fb8009ff7e6001819f98003067e6000e09f9800c06fe6000183f980039cfe60000e7f38003fefe6000ffe0c000607e9a00366da6800663d9a0;
   0x18e61d8007ff076001fff1d8006fd87600300c1d800398e76001c00398019cf86600181c198007060e600070019801c060e60001801980071e0e60000e03380037e0e6000ffe0c0006067db00376f76c00673d9b0;
   0x19661b8007ff066003b7f9b80060986e00300e0d80031c46e001aa83b8009e386e0018181b8003060ee0003c01b800c060ee0001801b80060e0ee0000e0338003020ee0000060e0007fec9b00366e26c0062319b0;
   0x7f01f80006307e0033679f80060187e0030071fc0070e07e001ffc3f800ff187e001ffc1b800fff8ee0001f81b800ffe0ee0001801b8006078ee0000e0378003000ee0000061e0007fe5dd807776776006731990;
   0x1e3e1f800fff06e0033e09f80078187e003e030f800e0707e000aa83f800f3807e001ff81f800fff8fe00003e1f800ffe0fe0001801f8000030fe0000e0378003000fe0000063e00060608c000630230000321980;
   0x3c1f1fc00fff07f0001601fc0078187f001e011fc0040307f0000003dc0071c07f0000001fc005550ff00001c1fc007fc0ff0001801fc000000ff0000e03fc003000ff000006770006061cc000730730001dc19c0;
   0x10033cc000030f30000203cc000000f30000003ec000003f3000000f8c000000f30000003cc000000f30000003cc000000f30000003cc000000f30000003cc002000f3000007e380060608e0006382380078e18c0;
   0x7ffff8c01ffffe3007ffff8c01ffffe3007ffffcc00ffffc3007ffff0c01ffffe3007ffffcc01ffffe3007ffff8c01ffffe3007ffff8c01ffffe3007ffff8c01ffffe3007fffc1c007fe1c700071c71c01f07d860;
   0x3fffe0600ffff83803fffe0e00ffff83803fffe0e00fffe03803fffc0e00ffff83803fffe0e00ffff83803fffe0600ffff83803fffe0e00ffff83803fffe0e00ffff83803fff01e007fe0f70007ce3cc00c03df70;
   0x15540040055500100000000400555001000000004000000010000000040000000100000000400555001000000004000000010000000040000000100000000400000001003ff000c006060f30003c43cc000000f20;
   0x0;
   0x0;
   0x0;
   0x0;
   0x0;
   0x0;
   0x0;
   0x0;
   0x0;
   0xc180000000000000001c00000046000000007000000300000000c00000008e000000060000000380000008000000003000000000000000070000000000000000380000000000000000e000000000000000000000;
   0xc187f8000003fe00001c7f8000e60fe0000023f8000303fe0000cc7f8000ce3fe0000607f8000381fe001f807f8000303fe0000007f8000603fe002aaa7f8000381fe002aaaaa80000e3fe0002007f8003ffff80;
   0xc1c7fc01fffffe00001c7f8000e60ff0015073fc000703fe0000cc7f8003ce3ff0000707fc0003c1fe001ffc7f8000303fe000fff7f8000703fe003fff7fc000381ff003fffffc000063fe0003187f8003ffff80;
   0xc0c61800fffb06001ffc618000e60c2003f82308000603060000ce6180038e3860000386080006c1860000fe618000303860007ff61800060306003fff61800038186002aaaea800006386000318618003ffff80;
   0xc0c61c0001c306001ffe618000e60c7003f8731c00ffff060000c66180070e38700073861c000ee1860000c661801ffff8600061c6180007030600061861c0003818700000060000007386000318618003800180].
Definition hanzi_rows_176 : list N :=
  [0xc0e6180001c306001806618000e60c200318230800fffb06003ffe6180020e386000618608000c61860000c061800ffff8600060c61800060306000618618007ff986000fffe0000fff386000318618003800180;
   0x7ff761c0001c306001c0761801ce6cc70031bff1c00c01f06003fff61800ffff87000e1c61c001c71860000c06180003038600071c6180007330600061861c007ffd870007fff0000fffb86000718618003800180;
   0x3ff76180000c306001803e1800ee6cea0031bfb0800c01b060000c361800ffff86000c0e608003839860000c06180003038600030c618000633060006186180003818600060038000e01b86000318618003800180;
   0xc07ffc0000c3fe001dffff8007f6cff0031b73fc00c07ffe0000c37f8000063ff001c077fc00701dfe0000c07f8000303fe00031c7f8000733fe0006187fc000381ff0006001c000e01ffe00071c7f8003d55580;
   0xc07ff80000e3fe0018fe7f8003fecba0031b23f800806bfe0000c3ff8000063fe003fffff801eaaffe0000c07f8000303fe003f8c7f8000633fe0006187f8000381fe0007f80f000e00ffe0007187f8003ffff80;
   0xc47cc000006060001dc61c0001fec300031b70e0000070700000c11c000556070003fff8c000dff630003fff0c0007ffc70003f9c0c000ff30700006181c0000380700007f807c00e02e7000071c1c0003ffff80;
   0xc668c000fff0600018860c0000e6c300031b20e0003060200000c00c000ffe0300070038c0001ff030003fff0c000fffc3000381c0c000fe3060003fff8c0000380300007ffff800e0706000060c0c0000018000;
   0xc660dc00fff066001dc61d8000e6c330031b70fc007c7076003fff9d8007fe0760000000dc001830360001c00d800757c7600183c0d800073076007fff9d800fffc770007fffe000e0e07600061c1d8000018500;
   0xce67d800eafbe60018867d8000e6cf30031b33e8000f62a6003ffffd80060e3f60000007c8001831f60001e07d8007033f600183c7d8000633e60006187d800fffff600060006000e1c3e600060cfd8000018700;
   0xcc67dc00e07be6001dfe7d8000e6cf30031b33fc0007f3f60000e07d80071f3f6001fff7dc001831f60001e07d8003073f6001c7e7d8000733f600061c7d8000783f70006000600063c3f600060cfd8001558700;
   0xcc60d800e07c66001cfe0d8000e6c330031b30e80000e2a60000e00d80031b036001ffe0c8001830360001e00d800386036000c6e0d8000630660006180d8000780360007fffe000630066000e0c0d8003ff8300;
   0xdc60dc00e07e66001f861d8000e6c330031b30fc000070760001f01d80039b076001c070dc001d30360003e00d8001ce076000ee60d80007307600061c1d80007c0770007fffe000670076000c0e1d8007ff8700;
   0xc060d800e06e66000f860d8000e6c330031b30e8000060260001f00d8001bb0360018060c8000fb0360003700d8000fc0360006c60d80006306600060c0d8000ec03600000618000600066000c0e0d8000018780;
   0xc060dc00e074660005061d801ce6c330031b18fc004070760003b01d8001f3876001c078dc004730360007700d8000fc0760007c70d80007307600060c1d8000ce077001ffe1c000600076001c061d8000018780;
   0xc06ed800e063e6000006ed800ce6cb30031b1be800c063a6000338ed8000e1bb6001806ec800c033b6000638ed8000783b60003836d8000633e600060eed8001ce3b6000ffe0c0006003e6001c06ed8000018f80;
   0xc06ffc00e077fe007006fd800cfecf3003fb9ffc01c073fe00071cff8001f1ffe001c07ffc00c033f6000e1cfd8000fc7fe0007c37d8000737fe00060eff8003c77ff0000061e0007007fe001c07ff8000019dc0;
   0xc063fe00eae0ff8030063fe00cffcff803fb8cfe00c060ff800e0e3fe003f8cff8018060fe00e030ff801c0e3fe003ef0ff800ee3bfe000630ff8006063fe003838ff8000067e0006000ff8038033fe00001f8e0;
   0xc4607c00fff01f00355e07c00fe7f1f00319fe1c00fff00f003c0707c007bce1f001fff03c007ff01f003c0f07c00fc7e1f003c79c7c01ffff1f00060707c00f01e1f007ffff780075001f00380387c01ffff0f0;
   0xf8600000ffe000003ffe00400fc070000319e60000ffe00000380380000f0e700001ffe000007ff00100380380400f01e0000383dc0400fffe0000060380000e00f00003fff81e003f800000300180400fff8070;
   0x78600000e07000001ffc000000000000001046000015000000100100000404200001c070000015400000300100000c0060000101c800000000000006010000040060000000000c001f000000100100000ffc0030;
   0x0;
   0x0;
   0x0;
   0x0;
   0x0;
   0x0;
   0x0;
   0x0;
   0x0;
   0x1c3800000070000003800000001c000000198000000300000000700000003000000000000000006000000040000000180000000c000000000000000800000000000000000c0000000000000;
   0x7fc7f8006000fe000183bfc000060fe0003803f8000ec1fe0001982a8000301fe000030ff8000301fe0003fcaa8000061fe0000c07f8000380000000cc7f8007ffbfe001fa07f800aaabfe0000c07f8007e7cfe0;
   0x7fc7fc00ff07ff0011c3bfc000061ff000381ffc003dc1ff0001987f8000301ff000030ff8000301ff0007fdffc001ff1ff0000e07fc000703fe0000dc7fc007ffbfe001ffe7f800fffbfe0000c07f8007e7dff0;
   0x60c618000fe6c2003983b0c007fe082000381b080038c1860001986b8007ff986000ff8c180003018600020cae8001ff186002aea618000303fe0000cc60800601b060000be61800fffb060000c061800626cc20;
   0x71c61c000dcec7001fffb0c007ffdc7000383b1c0041c187003199e18007ff987000ffcc18007ff98700072c0c0001c39c7003fff61c00ffff860015dc61c00701b0600000761800003b06003fff61800766dc70;
   0x60c618000c0cc2000fbfb0c0020fc82000383308007ec18600399be1800030186000e1cc18007ff98600127e0c0000c1986002bba61800ffff86001ffe60800601b060000c661800003b06003ffe61800626cc20;
   0x70c61c000c0cc70003c3b0c0070c1c7003ffb31c007ffd8700199b6180003018700061ec18000301870037ee0c0000e1dc700071c61c00104386001ffe61c007ffb060000c761800003b060030c761800766dc70;
   0x60e618000c04ea000183bac0039c082003ff83a80003f986001d9e61800030186000737c18000301860032c6fc000ffff86000e1c6180038e3860000c6608007ffb060000c3618002abb060018c261800626cc20;
   0x17067fc000c00ff0031c3bfc001f81ff003ff83fc0001d9ff000d9e7f801fffdff000777ff8000301ff003f07ffc01ffffff001c0f7fc003073fe0000c77fc00701bfe0000c77f8007ffbfe0018c77f800766dff0;
   0x3e077f800ffe0ba0031a3ae800c780fe000383ee8000181fe000f9e7f800fffdfe0003e2ff800aba9fe003e038fc00000ffe003fffff8007033fe0000c3ff800601bfe0000c37f8003ffbfe0018c27f800626cfe0;
   0x3ce30c001ffff300035ff86000c7f030000387cc000fdc0300005980c0015d54300001c01c000fffc7000140100000001f30007bfb9c000e038700000c00c000701870003fff8c000703870001fff1c000766c300;
   0xe00c000aeaf30003f9f86000fefc300007830c000ffe0300001980c0001800300003e018000fffc300007fffe0007fcc300020000c000c81860003fff0c0007ff860003fff0c000303860001ffe0c000ffff300;
   0x3fff0d8000c1c37001f0386c007c1c370007c70dc001ffc360007980d8001800370007781d8000300760007fffe0007fdc370015551d801d87c76007fff0dc007ff8760000c10d800703876001fff1d801ffff370;
   0x3fff7d8000c0cf20000e0bec002001f2000ec33c80041bdf6000f987d800fffff6001e3cf98000303f60006000600060cdf2003fff7d80018eae6002bba7c800019be60000c07d800303be6000c0ffd800626df20;
   0x3fff7d8000c1cf70000e07ec00fffff7000cc73dc00e185f6001f9e7d801fffff7007c1ffd8000303f60006000600060ddf7003fff7d8001ce3f60003187dc00431bf60000c07d800703bf6000c1ffd800766df70;
   0x1f00d8000c0c320000e006c00fffe32001ce30c80063803600399f8d800180036003fff99800aba8360007fffe00060cc320000180d8000cc2e60003180c800e31866000ecc0d8003ff866000e3b0d800626cb20;
   0x3f80d8000c1c37003fff86c005f7437001c770dc0073003600719fcd800183037001ffd1d800fffc760007fffe00060dc3700001c1d8000fc0760003180dc007f1876001cce0d8007ff8760007331d800776c370;
   0x3f80d8000c0c32003fff86c000e60320038330c8003b00360021988d80018703600180c19800fff836000006180007ccc32000ffc0d8000780660003180c8003e1866001cc60d8000038660003730d8006266320;
   0x6fc4d8000c1c370000e006c000e703700383f0dc001f023600019c0d800187037001c0c1d800030076001ffe1c0003ccc37001ffc1d80007007600031c0dc000e18760018c70d8000038760003e31d8007366370;
   0xeeefd8000c0cb20000e026c000e71b200101b2c8000f03f600018ced80018e3b600180c998000303b6000ffe0c00080cdb2000c00ed80007826600030cfc8000c1be60038c3ed800003be60001c3ed8006367b20;
   0x1ce77f8000c1dff0000e07ec01ce71ff0000077dc0187c3fe00718eff80019c7ff001c0dfd8000303fe0000061e001c0cfff000c00ff8001fc7f600630cffc001c1bf60030c3fd800003ff60003e1ff8007367ff0;
   0x38e38fe00003e3f0000e03fc008e387f80000fbfc008ff03f8061860fe001800ff80180c3fe000300ff8000067e000c0c63f800c003fe003ce3ff80630e1fe003b98ff8030c3bfe000038ff8007719fe006362ff0;
   0x30e183c01f5f70f0000e007c01de1c0f007ffdc7c01dc7e0f007f8781c0018001f001ffc07c01fffe1f007ffff7800ffc707000e0007c0078781f00730703c00f3fc1f0030c107c01fff81f001f3dc3c0071e30f0;
   0xe000000ffe3800000e000400fc0f00003ff0c0000f81c00003f83c00001f8000001ffc00000fffe01003fff83c00ff8300000ff000000e03c00003f0380000e0fc010000f800400fff801003c0ec000079fb800;
   0xe000000ff01000000e0000007c0600001fc040000700400001f01800000f0000001c0c0000000000000155401c005502000007f000000400c00001f0100000401c0000007800000000000001004c00003171000;
   0x0;
   0x0;
   0x0;
   0x0;
   0x0;
   0x0;
   0x0;
   0x0;
   0x0;
   0x1000000038000000c000000001c000001000000000300000000e0000000000000000030000000000000000000000030000000400000000300000000600000000000000007000000300070000000000000180000].
Definition hanzi_rows_177 : list N :=
  [0x3fb0bf8000301fe001fe07f8000381fe001e003fc000301fe0000c07f8007ff9fe0000033f800fffdfe001fff3f8000301fe000fe07f8000301fe0000607f8003ff9fe0000607f8007f8060000ffe7f8000381fe0;
   0x7f99bfc000701ff001fff7fc000381ff003fff3fc00fffdff0000c07fc007ffdff0000033fc00fffdff001fff7fc00ff01ff0007ff7f8004301ff0000707fc007ffdfe0000e07fc001ff7ff001fff7f8000701fe0;
   0x319bb0800fffd860001bf61800aba9860003ffb0c00fffd86003fff60800601986003f83b0800e00d820018e320800ff01860000fe61800e32b82003fffe0800380186000ffe6080000b7ff000c0061800fffd860;
   0x319f31c01fffd870001c371c00fffdc700184530c00018187003fff61c00701d87003fbfb1c00e01dc70018e371c005701870000c071800777f87003ffff1c001c7186001fff61c00003070001c0061801fffd860;
   0x19bff0800000d8600018361800eaad8600186230c00078186000c08608007ff9860039bfb0800e00d82001aeb20800030186003fff618003f7f82000030608000ef186000c0660800fff060000c00618003031860;
   0x19bff1c00071d87003fff71c00c00dc7001c6330c001fc187000c0c61c007ffd8700398ff1c00fffdc7001fff71c007ffd87003fff718001f718700157571c0007c186001c0761c00fff7fc001fff618003871860;
   0x198630800060d86003fff61800c00d86000ce33ac0078f986000e0c608006019ae00398ef0800fffd82001aeb2a8007ff9860003e06b8001b3182001fff608000f0186000c06608000c33ff000ffe6180018e1860;
   0x1d863fc00071dff0001c37fc003ff1ff000cc63fc00f07dff00061c7fc00701dff00398effc00061dff0018e37fc00755dff0007f87f8003b39ff0015757fc00fffdfe001fff7fc001c38770000077f8001dc1fe0;
   0xd863f800fe0dfe0000c37f8003ff1fe0006462e800400dfe0006187f8007ff9fe00398eff800060dfe0018e32e8006019fe000edc2e8007319fe0000387f800fffdfe000ffe7f8000c18600030067f8000f81fe0;
   0xd860c000ff1c30001ffb0c0000000300004e40c001fffe30007fff0c0007ffc3000398e0c000061c30001fff0c0007ffc30001ccf1c001f31c30007fffcc000e31c70001c070c0001c1e7e0030070c0000780700;
   0x19860c000060c30001ffb0c0000000300000e00c000fffe30003fff8c0000030300039bfcc000fffc30001fff0c0007ff8300038c78c000c3ee30003fff8c000e30c20000c060c0000c0e3c00380e0c0003fe0300;
   0x19ffcdc00071c3600181b0dc000000370015f50cc00700037007fff0dc000030370039ffcdc01fffc370000e00cc00601c370010611d80083e43700555d0dc00f75c76001fff0dc00155550001ffe0d801fcfc760;
   0x31fffc800060df600199b7d800fffdf6003fff3cc003001f20000007c800fff9f200398e3c800060df20000e03c800601bf20000607d8002aa9f2000e0c7c800ffffe6000ffe7c8003ffff8000ff87d800e03df60;
   0x31863dc00575df600199b7dc01fffdf7003fff7cc0073fdf70015547dc00fffdf70039863dc00061df7003ffffcc007ffff70000707d8007ff9f7001f5c7dc00fffff6001fff7dc003800180000407d8003861f60;
   0x31860c8007fec3600199b8d8000300360001f00cc0033a832001ffe0c800ccce320039860c800060c32003fff8c8007ff832003fff0d8006ab832003ffe0c800e30c260018c60c8003800180000e00d8003860360;
   0x318f0dc007ffc3600199b8dc000310370003f00cc00731c37001ffe0dc00cce73700398e0dc00fffc370001f00cc00030037003fff1d800601837003ffe0dc00e31c76003dc70dc003ffff8000ddd0d8003860760;
   0x319f0c800606c3600199b8d8003b30360003f80cc003308320018060c800ee633200399e0c800ffec320003f80c8000300320006180d800601832000e060c800ebac26000f860c8003ffff800199a0d8003860360;
   0x359b0dc00606c360019d98dc007338370006fc0cc0073fc37001c060dc00e670370039bf0dc00e07c370007fc4cc01fffe3700071c1d8007ffa37000e3f4dc00fffc760007870dc00001870001b9f0d8003870760;
   0x3dbbac800606db60018d9ad8006319b6000eee6cc0033fbb2001806ec800e33bb20039b32c800e06ff2000eee7c800ffffb200033e0d8006abbf2000e73fc800ebafa6000306ec8007ff83000301bed8003873b60;
   0x1df1ffc00606ffe0007c1ff800e31dff001ce77cc00715fff001c06ffc00631fff003ff3ffc00e077ff001ce77fc015757ff0003f87d800601bff000e61ffc00e31ffe000747ffc007ff870003c1dfd8003833fe0;
   0x1e0cfe006aeeff800ee1bfe00c30eff8038e3bfc003008ff801aae3fe00638eff803fa18fe00e0667f8038e38fe000300ff8003e03f80060183f800e60efc00e30cff800e7f1fe000018f8002c19bfe003838ff8;
   0x1a0e1c007fe61f001c71c7c01c3070f0010e107e0074001f001ffe07c0071c60f003981c1c00fff70f0070e1c3c0003001f001ffc07c007ff80f000e00c1c00e31c1f007c7f03c01557fde007d5dc7c00381c1f0;
   0x180600006ae60000383ec000003e0000000e000c003e0000001ffe000003ee000003980e0000ffe3000020e080000030001001e3f000007ff800000fc000000ff0c0000380f80000fffe0f800ff800400380e000;
   0x1804000060660000301cc000001e0000000e0000001e0000001c06000003c400000000040000e073000000e000000030000001807000006018000007c0000007f1c00000003000005550070007f0000003804000;
   0x0;
   0x0;
   0x0;
   0x0;
   0x0;
   0x0;
   0x0;
   0x0;
   0x0;
   0x10000001c70000000000000003000000000000000700000000c0400000400000000007000000300000000600000000000000006000000319000000c00000000600000000e000000000000000c00000000380000;
   0x3e7f8000c20ff003fffff8006389fe001ffe7f800ffa0fe000e0e3fc007e01fe00000e000000300fe0000e07f8003ff9fe0000e07f8003199fe001ffa7f800061afe0028e27f8007ff9fe001ffa7f8000301fe0;
   0x3fdf7fc00ffffff003fffffc007bfdfe001fff7fc007ffeff00071c3fc007fffff003fffffc000300ff003fff7f8003ff9ff0000c07f8003199fe0007ff7fc007fffff0038e37fc007ff9fe0007ff7fc01fffdff0;
   0x3fc360800ffffc3000c03308001fb186001c066080061bcc200031830c0003fd82003fffffc00fffcc6003fff618001c6186001fff61800bbbb860000ca608007fdfc20038e3608006019860000e260800fffd820;
   0x330361c001c70c3000d5731c00018186001c0761c00718cc7003fffb1c00e101c700386071c00fffcc700175d7180007e187001fff71800ffff860000c061c006618c70038e371c007559860000e071c01555dc70;
   0x331b608000c20c3000fff308001be186001ffe608003398c2003fffb0c00e18982003ffffec00afe8c600060c6180003818600180361800bbb986001ffe608006608c20038e3608007ff986003fffe080030cd820;
   0x331b61c005554c3000c0331c007ffd86001fff61c003318c700006031c00739dc70007fffe0001fe0c700071871801ffff8700180371800319986001fff61c01ffecc7003fff71c00755986003ffff1c0030cdc70;
   0x39b36a800fffeeb000c033a800e6cd86001c066080011d8ea0000603ac00331982000060600003b70ee00031861800ffff86001fff618003199860018c260800ffecc2003fff608006019860000e060800fffd820;
   0x19bf7fc00ffffff000fff3fc005ce5fe001fff7fc000ce0ff001fff3fc003339ff0007fffe000733cff003fffff800e7c1ff001fff7f8003f99fe0018c77fc006606ff0000007fc007ff9fe001fff7fc00fffdff0;
   0x19bf2e80006c0ba000c032e8003871fe001ffe7f8001e70ba001fff2e8003831fe0002eaea001e30eba003fffff8006271fe0000037f8003f99fe0018c27f8006ebefe002aaaff8007ff9fe001fff7f80030cdfe0;
   0x1fe78c00006c018007d030e000f87c700000000c0000f3c300000700e00000e030003fffffc00c106300030439c000773c700000030c000001870001fff0c0007fff18007fff8c0000000300018e30c00030cc300;
   0x1ee10c0007ffe18003fffce000fffe30002aaa8c0001bfc300000300e0007ef830003fffffc003ff8300030c38c00003fe20002aab0c0007ff820001ffe0c000063b18003fff8c000aaaa300018e30c0003fcc300;
   0x400d8007ffe1b000dffcec00fffe77003fbf8dc0039fc37003fffcec007e3c370001c0700003ff8370030c39dc0003c476003fff0d8007ff8760000c00dc0006181b0000600dc01fffe37001fff0d8003fcc370;
   0x1fff7d8006666fb0008003ec00301bf6003abafc8007070f2003fffbec00600df20003fff80003019f2001ffe7d8000381e6003aef7d8000301e60000c07c8007fdafb0000607d800fffff60018e37d800000df20;
   0x1fff7d8006666fb003ffffec00701bf70031f1fdc00fffff70000183ec00601df70007fffe0003019f7001ffe7dc000381f600336f7d8000301f6003fff7dc007fdbfb003ffffdc000303f70018e37dc007ffdf70;
   0x18c30d80066661b003fffcec003ffab60033b30c800cbfc320000180ec00600c32003f801f8003ff8320018c60d800abaa2600326f0d800fffc26003fff0c800061bbb003fff8d800033836001fff0d8007ffe320;
   0x18c30d8006ee61b0030d80ec007ff8770033370dc00418437001ffc0ec007efc37003dd55bc003558370018c61dc00fffe7600336f0d800fffc760033c30dc00061f1b0033338dc007f1837001fff0dc00757e370;
   0x1aeb0d8007fe61b001898cec00301836003a360c800abaa32001ffe0ec007efc320001fff88003018320018c60d800afea26003fff8d80007c0260032c30c800ffee1b0033338d8007f18360000e00d80030ce320;
   0x1fff0d8007ff61b001d9fcec007ff877003e3c0dc01fffe370001870ec00601c37000157580003ff8370018c61dc000fe076003ffd8d8000fc0760037c30dc00ffee1b0033338dc007f1837001fff0dc0039c6370;
   0x18c36d80073369b000f8f2ec003ffbb600373efc800ababb20001873ec00600df20002ae180003ff9320018c66d8001ff1a600326ded8001b63a60037ff6c800060e9b003333ed800033bb6001fffed8001f86f20;
   0x18c37d8006317fb00071f3ec00701bf70033f7ffc0007c1ff000183ffc00601dff0007fe1c0000001f7001fc6ffc003bb9fe00336dff8003b73fe00357f7fc00061efb003333ffc00037fff0000e0ffc000f07ff0;
   0x18c33fe006106ff000fbb3fe003018ff8030b18fe000ee07f800181cfc00600c7f8000063e0000000ff000ec63fe00f39c7f80326dbfe007338ff8034030fe00067f3f003333bfe0003ee7f8000e03fe001f833f8;
   0x1fff07c0060061f003dd1c7c0070181f00303003c007c7c0f003fffe1c007ffc0f001557f7000fffe1f0000c007c01e38f0f00336dc7c01e31e1f00300303c01fff39f80333387c01ffe607003fffc7c007ff3070;
   0x1fff000007c06010038e0e00003e1800003e3c00000f03f00003ffe000007ffc00003fffe3c00fffe000000c000000838600003e6cc0400c30c00003e0300000ffc1c3003f3380000ff8700003fff80000f0fb800;
   0x1803000007c0600003060400003c1800001e1c00000c0060000000000000601c00001ffd018000000000000c000000038000001c0c00000030000001e0300000fd0180001d338000054030000000000000c011000;
   0x0;
   0x0;
   0x0;
   0x0;
   0x0;
   0x0].
Definition hanzi_rows_178 : list N :=
  [0x0;
   0x0;
   0x0;
   0x71c000000000000000000000001c0000007060000001800000019900000000000000307000001830000000000000034000000060c000000400000000c1390000180000000600000001c0000000e0000000dc0000;
   0x2183f8007ffdfe0007fe3fc000380ff0003063f8000181fe003999bf800ffff7f000b063f8001831fe003fffff8007fe0fe00060c3fc0036fdfe000061bb000a182fe0000e07f8000180fe0018e33f8003cc0000;
   0x3fffffc007ffdff0007fe7fc00fffeff00030e3fc0001c1ff00199bbfc00ffff7f001f0e3fc001c71ff003fffffc001ffdff00071c7fc003efdff003ff1ff000e186ff003fffff80057d4ff001ce77fc00fffffc0;
   0x3fffa0800664d8200060e20c00fffec300037ff0800ffff82001d9b30800000363001b3ff8800aeeb82002aaaf0800631882000baa20c001ee186003ff0ba000e186c2003fffe1800fffec2000eee20800fffffc0;
   0x71c71c00664dc700070e70c00c40ec300037ff1c00ffffc7000d9f31c001b1b63001b7ff9c00ffffc7001801f1c007319c7001fff70c00cc6587001d73ff800e186c700060c61800fffec70017fd71c0011838c0;
   0x23820800664d820007fe20c00cceec3002b00308004ee582003fffb0800199b6300332ab880006c1820018fef08003b3082001aeb20c00ec7f86000e3bbb800fffec200060c61800c006c2003fffa080031bf8c0;
   0x387071c007ffdc70007fe70c007c7ec3007fbff1c00ec7fc7003ffff180019b36300030039c0057d5c70018fff1c001b31c7001e4f70c007c7d8700067f55800fffec700071861800c016c7003ffff1c0039838c0;
   0x1bff208002ab982002aaaaac00f3beeb003fbfba8007c7982000e063a80008b36b003fffb88007ffd82001800f0800fffe82001a4b2ac003839860007ebd78000000ea003fff61800fffaea003001aa8001bbffe0;
   0x1fff7fc000039ff003fffffc00c38cff0031b1ffc003839ff00060c3fc00ffff7f003fffffc0077ddff001801ffc01ffffff001b5b7fc007ffdff0003c3d7800fefeff003fff7f800ffd8ff003555ffc005f7ffe0;
   0xe303f800fffdfe0030b1ae8007ff8ba0019b0ae8007ffdfe00060c2e800fffb3a000330bf80066cdfe003afeff8000fe0fe001b5b2e800efeffe0007c397800fefeba0038c37f8000e18ba002ffeae800ce0b6e0;
   0x7700c000fffe300031f18c0007ffc30001bffc6001ffff30003fffcc000cc6318000331c60007e7c30007fffc60001f70300019530c001c00730001ff313800c6e6300038c31c0000e1c30000d560c000cf1b760;
   0x3fff8c000e0c7300030b18c000639830001bff86000f01e30003fff8c000ff6b1800073086000602c30003ae6c60003b3830001fff0c000bffa30003c3f11800c6e630003fff0c000060c30000c060c000fff33e0;
   0x7fffcd800e0c337003fff8cc0077dc33001bc006c003ff8370000600cc00f77b1b000735c7c007ffc36001867c6c00f31c37001fff0cc003ff83600355d55000fefe33003fff1d800ffde33000c060dc007dc3d70;
   0xe03d800effdf2003fffbcc007ff8f3001b3ffec003ff9f20000603cc00f76bfb00073fbe8006aadf6001b66fe800e30ff20000007cc003019f60007fffe000fefef30038c37d800ffcef3000eae7c8002aaaab0;
   0x787d800effdf70000607cc0057d5f3001f3ffec003019f7001fffbcc00777bfb0007177fc00755df6001b7efec007ffdf7000ffe7cc003019f600075556000c6e6f30038c37d800e0dff3000ffe7dc001ffff80;
   0xabe0d800eccc32002aea8cc00038033000e1c06c00301832001fff8cc00336b1b000706068007ffc36001b7ec68007ffc32000ffe0cc0030183600060006000c6e633003bfb0d800e0cf330000c00c8001800180;
   0x1fff0d8006ccc37003fffccc00fffc33000e0e06c003ff8370000600cc00337b1b00071f87c005d5436001f64c6c00631c37000c060cc003ff8360007fffe000c6e633003bfb1d800f5dc330000c00dc001ffff80;
   0x1aafcd800effc32002bfa8cc00fffc33000e6e06c002ba832003fffccc003bfb1b0007b7868000c0036001a66c6800630c32000c060cc003ff8360007fffe000fefe33003b1b0d800ffcc33000aea0c8001ffff80;
   0x1c0dcd80065d5370003f80cc00e38c33000e7fe6c00139037007fffccc0039731b0007b7c7c01fffe36001e64c6c007ffc37000ffe0cc001830360000061c000feff33003b1b1d800ffdc33001fff0dc000018000;
   0x1ffc6d80066c1f200037c6cc00e38db3000e0fe6c003bb9f20000f02cc0038639b0027a6e6800aebbb600182cf68007ffdb2000ffe6cc001833f6000ffe1c000c2e2b3003bbb6d800e0ccb3000aea0c8002ab8600;
   0x1ffc7f8006ff5ff000f6e7cc00fffdf3001f063ec00739dff0001f87cc007c71ff0067e6ffc000c39fe0018fc7fc00631dff000c067cc001c73fe001ffe1c000c7e3f3003bfb7f800e0ddf30000c07dc007ff8700;
   0x180c3fe006ffe3f803c679fc00fffcff001b863fe00638e3f80039c3fe006c31bf8026c67fe000c70ff8018fe6fe00630c7f800c063fc000c603f8000063e000c3e3ff80381b3fe00e0ccff8000c03fe000018f80;
   0x1ffc07c00781607007863c7e00e38c1f8039c607c00e38707001f0f07c00ce39870076e647c000c601f00187f63c007ffc07000ffe07e01ffff07001557f7000c3f31f00381307c00ffdc1f007fffc7c01555fdc0;
   0x1ffc000007e000000006080c000380030070e78000043e200003e03e0000c61980003e77804000f8000001e03300007ffc00000ffe00c00fffe00003fff83c00f3f980003e0300000ffcc00003fff80000ffff0f8;
   0x1c0c000003c0000000060000000380000020478000001e000003001c0000820880001c27800000f8000001e0000000601c00000c060000000000000155401c00717100001e0300000e0dc0000155540000fff0070;
   0x0;
   0x0;
   0x0;
   0x0;
   0x0;
   0x0;
   0x0;
   0x0;
   0x0;
   0xc00c0000000300001c00c0000000300000c01c0000000300000701c00001c070000001c00000018000000c01c0000000700000001c0000000e00000070000030c60000078780000018000001cc6000001c70000;
   0xe00e000aaa8380000c00c0000000380000c00c0000000380000300c000018030000001c00000018000030c20c0001fe0300000000c0002aa0e00000070000020867e0006869f8000380ff000c633fc000c307f0;
   0xf006001fff8180000c00c000fff8180000c00c000fff0380000700c00001c070000001c00007ffffe0038c70c0001fe030003ffc0c0007ff0600001575400031867f003fdfdfc00fffeff000773bfc00ffff7f0;
   0x1f0ffc00fffbff003ffeffc00ffffff0000c1ffc00fff7ff000031ffc00019fff000000e00007ffffe0018ce7f8001863fe003ffcff8007ff3fc0003fffc000abe662003ffff8800fffec3000739b0c00ffff630;
   0x3b8ffc00001bff003ffeffc00e707ff0000c1ffc000707ff000071ffc0001dfff003fffffc00001800001ccc7f8001863fe00000cff8007007fc0003fffc001bfff6700064659c000006c3000e7730c001c70630;
   0x3b82e800001aba0000e006000e302ba0000c0ae8000602ba000030ae800018aba003fffff8003ffff8000ccc6180018638600380cc180060020c0003800c000eaaf62003fdfd88007ff6c30018e630c000c30630;
   0x71c070007f981c00006007000e7701c0000c00700007001c0007fe0700001c018000000700003d5d5c000edc758001873d600187cd580070075c0003801c0007fefe7003fdfd9c006736c3001fffb0c00ffe6630;
   0xe0e1b0007f986c0000601b000e330ac002aea270000600cc0007fe33000018098000008380003818180000c07f8001833fe00186cff8006aa3fc0003fffc0006c0fe2000f0d988007ff6eb001fffbac00ffee6b0;
   0x1c071f00061986c007fff1b0006730ec003fff370000700cc0006703300001c1dc00001c180003ffffc003ffe7f800583bd6001cecd58007fe75c0003fffc0003be7ff000dbd9fc007776ff001b0dbfc00d55c7f0;
   0x38039980061986e003fff1b800e330ee003ffe330000600ce000630338000181cc00000c1c000381818003ffe61800f81f86000cccc18007fe20c0003800c00032a67e006dbd9f8006ab6ba0019f9ae800c3083a0;
   0x301d9d800619866001575198006330e60001c0338000700c60006303180001c1ce00001c1c00038181c0038067f800f31ffe000fccff8000077fc003b801c00073ee18007dddc60007ff6180019f186000c366180;
   0x40c3b800619aee000038bb8006332ee0000e0bb800fffaee000630bb800018bee00000c0e0003ffff80038067f800030bfe00078cff8000063fc001ffffc00073ea180038c0c6000020618001bbf86000c266180;
   0xf1c7fc00619bff000018ffc00633fff0001e1ffc01ffffff000631ffc0001dfff000fffff000155d54003bf661800ffff8600070cc180000770c001ffffc000db7b1b001fff87c007ff61b001fff86c00dff61b0;
   0xf8c3a800619aea000ff8ba800639aea0001e0ba8000602ea000631ff800018bee000ffffe000001800003bf661800ffff8600070cc18002ab20c000f800c0009beb7b001fffbe8000206fb001fffbec00c336fb0;
   0x3fc1c000619860001ffc180006398e00001e0300000700c00006303000001c1c000001c00000ffffff003b367fc0057d7ff000f8cffc007ff7ff0007801c0008fe1fb001d55bfc01fffefb000c41bec00cffefb0;
   0xfc180007d9860000ea8180006180e00001e0300000600c0000638300000181c000000c00000aabaaa003b367fc000783ff000f8cffc007ff3ff0003ffff80008001b00186186800fffe1b000ce186c00cffe1b0;
   0x7cdc0007d9b60000e01d800061c7e00003f3300000707c0000619f000041ddc000001c00000001800003b36780000fc3e0001dccf00006007c00003ffffc007fff1b001c6187c0030c61b000fff86c00c3361b0;
   0xcfe000019bf8000701fe00061c7f8000333fe000060ff8000619fe000c19ff800000c000001ffff8003b367c0000fe3f00018ecf80006002e00003f8000003fff1b00186186800f0f61b000e6986c00cfe61b0;
   0x81c7fc00419fff000399ffc0061c1ff800739ffc000707ff00161dffc00c1dfff003fffffc001ffff8003bf66c0001b73b800387cde0007007700003bc000001c1c1b001c6187c01c73f1b000ce586c00cff61b0;
   0x380c1bc00c18c6f0003f81bc0060e0ef0006383fc000600cf00260c33c00c181ff003fffffc00180018003ab6660003b339c00083ccf00060023800038f000000e389b001861a6800820bdb000fefa6c00c3269b0;
   0x181c1c000c18c610001f0180007070e0000e1c304000700c000760c30400c1c1c100001c0000018001800383667000733b8f00002cc7c0070071e000387c000007f0fb0000703fc007ff3ff001f79fec00dff6ff0;
   0x180c18000c18c600003c0180007070e0000e0e300000600c000260e30000e181c000000c0000018001800380663800e31f8780000cc1e0030020f800380f800003e07f0003b81fe0002033f802861bfc00dfe63f8;
   0x1ffc1c000ff8e6000078018000753ce0003c07300000700c0003e0730000ffc1c000001c000001ffff800380661e00431f83007ffcd04003d47470001d47f0007ffc1f001f1f03c00575587007bff87c00c036070;
   0xff818000ff8660000e00180003e1ee0003803b00000600c0003e03300007f81c000000c000001ffff8003e0678c000301e0003ffcf80003f83c00001fc0fc00fc3f81003c07e0000fffd80003bff80400f806000;
   0x1c000000460000400180001e0ce0001001300000700c0001403300000001c000001c00000180018001e06780000301e0000000780001f81c00001fc01c00400780001001c0000555500003071800007006000;
   0x0;
   0x0].
Definition hanzi_rows_179 : list N :=
  [0x0;
   0x0;
   0x0;
   0x0;
   0x0;
   0x0;
   0x0;
   0x700c0000300300001c00c0000000300000001c0000181c00003800c0000000300000000c0002000300001c01c0004000300001c00c0000000300001c00c0000300300000000c000070030000001c000001c0600;
   0x300e0000380380000c00e0003e00380000000c0001d80c0000f800e0002aa838002aaa0e0007e80380000e00c0007a00380000d80e0000000300000c00e0000300380000000e000030038000001c000000c0600;
   0x380e0000780380000c0060007ff838003fff0c000399ffe001f800e0007ff838003ffe0e0007ff8180001e00c000fffc380001dc0e0007ff8300001c00e000ff0038007fff0e000070038003fffffc0000c0700;
   0x3ff8ffc0007c3ff000ae8ffc0003fbff003ffeffc00719ffe003b80ffc003ffbff003aeaffc0002fbff0001f0ffc000ffbff0000cdffc007ffbff0000c0ffc00ff03ff003fffffc000307ff003fffffc0000cfff0;
   0x1ffcffc000ee3ff001ffcffc000303ff000070ffc006181c0001380ffc003803ff001870ffc00001bff000738ffc000703ff0001cdffc00701bff0001c0ffc005707ff001c00ffc000707ff00000c38001ffefff0;
   0x1c1eae8001c62ba000ffcae8000382ba000630ae8002180c0003fffae8001c02ba003860ae8000318ba000738ae800c612ba003ffcae800601aba0000c0060000302ba000c00ae8000302ba00000c1c000ffe2ba0;
   0xc1f0700078701c001c6c0700001801c000e3807000ffffff003fff070000e001c0018700700003181c001e1c07000e7381c003ffe0700070181c003ffe0700003001c001c0007001fffc1c000ffffe000c060180;
   0xe3b9b000f0386c000cec1b000fffc6c000c180b000ffffff0003801b00007006c0018301b00003186c003c8f0b00066306c0000ce1b00060186c003ffe1b0007ff86c000cfe0b000fff8ec000ffffe000e060980;
   0x7731b001e01e6c001ccc1b001fffc6c001c1c1f0000180600003001b0000fc06c0018381b000031c7c0079c79b00067706c0001c71b00070186c0039c61b0007ff86c001dfe1b0000700ec00000c06000e770dc0;
   0x3e01b800bffe6e000d8c1b8001ce06e001ffe1b8002180600003801b8003fe06e0018181b800030c660020e11b80026606e0000c71b80060186e0038c61b80060386e000cc61b8000300ee00000c000006338cc0;
   0x1e0198003ff466001c8c1980018e066003fff1d80071ffff00037f1980078f866001f9e19800fffc76000070198003760660001c2198007018660039c619800603866001dc6198000700e6003fffffc006738ce0;
   0x7f8bb8000302ee002eae3b8003872ee003002bb80033bfff00037fbb800e03eee000f8fbb800fffcee00003ebb8003662ee0000c0bb800601aee0038c6bb800603aee000cc6ffc000302ee003fffffc006312ee0;
   0x1f3effc000303ff007fff7fc00703bff0011c0ffc0033957d00035dffc00401fff000006ffc000305ff00071effc000703ff003fffffc007ffbff0039c6ffc00603bff001dc6ffc000707ff00000c000000707ff0;
   0x3c0fba8000302ea002eae3a801e03eea0000c0ba8003b8398000318ba8000003fe000000ba8000300ea000380ba800fffeea003ffeba8007ffaea003ffeba8007ffaea000cc6ba800aba2ea00000c000000302ea0;
   0x355718000030060001c4c18000d86c600001c01c0001b039c00031c180007ff860001ffc180000310700001c018001fffc600001c018000000060003ffe180007ff860001dc618000fff0e0001ffdffc000700c00;
   0x1ffc180007ff860000cee18000186060002aea180001b3ffe000318180007ff860001ffc180003b30600008e0180000600600001c018000000060003aee180006ab860000cc618000eab0e0001ffdff8000700c00;
   0x1ffcd80007ffb60001cced8000186360003ffedc0001f3ffe00031cd800003036000180cd800033337000387dd80000703600001e1d80001063600039c6d8000603f60001dfed8000e037e0001c19c00000f8cc00;
   0x180cfe0000303f8000dcefe0001863f8003ffefe0000f0380000318fe0000303f800180cfe000733bf8001c1efe0000603f80003e1fe0001863f80038c6fe000003bf8000caefe000e037f8000e38e38000f8ff80;
   0x1c0c7fc000301ff001d867fc001861ff0001c07fc0047038000071c7fc000301ff00180c7fc006319ff000e047fc000703ff0003707fc003871ff0039c67fc000019ff001c067fc00e031ff000770ef0001dc7ff0;
   0x180c1bc0003006f000d861bc0018606f0000c01bc00873f800027181bc0003006f00180c1bc00e31c6f0007001bc0006006f0007301bc0030306f0038c61bc0000186f000c021bc00e030ef0007607e00018c0ff0;
   0x1c0c18000030060001c07180001870600001c01c001cfffff0077fc1800003006000180c18000c31c700003c018000070060000738180007038600039c618000001860001c0018000e030e00003c07c00038e0c10;
   0x1ffc18000030060000c03180001838600000c018000cfc3ff003eff9800003006000180c18000c30e600000f018000060060000e1c18000603860003ffe18000001860000c0018000fff0e00003e0fe0003870c00;
   0x1ffc18001fffe60001c0398000183c60007fff1c000fde380003e1f18000fffc60001ffc18000c3047000007e18000074060003c0f18000e01c60003ffe18000001c60001d4018000fff0e0001f7dcf800f078c00;
   0x180c18000fffe60000f8198000181e60003fff18000f87380003c0018000fffc60001ffc1800003e06000001f9800007e06000380798000c00e60003aae18000000c60000fc018000eab0e0003e3f83e00e03cc00;
   0x1c0c18000000060000f0198000180c600000001c000706380001c001800000006000180c1800001e0700000071800003e06000100118000400c6000380618000000c600007c018000e030e000300600c004018c00;
   0x0;
   0x0;
   0x0;
   0x0;
   0x0;
   0x0;
   0x0;
   0x0;
   0x0;
   0xe00c000030030000c03040000100180000000c0000000300000000e0000300300010840c0000000180000700c0000000380000000c000000030000039c000007006000000007000170030000000060000180300;
   0xe00e000030038000c0306000038018001ffe0e0003ff838002aaa8e0000300380039cc0e0002a2a180000e00e000fffc38001ffe0e000aaa83000003980000060060000000060003b0038003fffc60000380380;
   0x1c00e0007ff83800063fe700007c01c001ffe0e0007ff838007fff86000575418001dc606000ffff1c0000e00e000fffc18001ffe0e000ffff33001ff9ff8007ff7fe003fff87000f70018003fffc70000700380;
   0x3fffffc007ffbff00063fe30000fe0ff00180effc00303bff002aaaffc00ffffff000ce6ffc00eaeaff003fffffc00eaadff001806ffc00ffffb3000ab9800007fe7fe003fffbfc004303ff0000633fc000301ff0;
   0x3fffffc000303ff003301930001e71ff001c0effc00703bff0000007fc00ffffff000e77ffc006061ff003fffffc00dc6dff001c06ffc00c18db3000039d50000700600001907fc01ffffff0007737fc00fffdff0;
   0x30c3ae8000300ba003387b98003838ae001aaeae8003ffaba000ffe020000380ba000633ae80066660c000000ae800ccccba001ffeae800c18db2000ff9ff800fff7ff00019003000fffeba0002632b800fffcba0;
   0x30c707001fffc1c001fc7dfc01f55f0c001ffe070007ff81c001ffe070007ff81c000673070007e7c0c00000007000cccc1c001ffe07000c1cdf6001579d5000fff7ff0001900300007001c0007730300010401c0;
   0x1ffc0b000fffc6c000f86cfc00ffff2e001aae1b00000006c0008060b0007ff86c000ce71b00038382e001ffe1b000cc8c2c0018060b0007ff8f6000039800000f81f8002bba8b80003006c00027f0b80038e06c0;
   0x1ffc1b00000007c000e3fc64001ffa76001c0e1b000fffc6c001c061f00001c06c001cc61b000787836001ffe1b000dffc6c001c061b0007ff8f6003ff9ffc001dc7dc003fff9d8007ff86c00077f1d80030706c0;
   0xc01b8007ff86e00062ec300020003600180e1b800fffc6e000aae1980000c06e0039ce19800ecfc36001aae1b800dfec66001ffe1b80000e2ba002ab9aa800f8f70f003fff8d8007ff86e0002630980070306e0;
   0x1ffc198007ff8760037861580065fe77001ffe19800703066001ffe1d801fffc6600319c19800cf4e37001c0619800c10c66001ffe198000773ff000039e0000f0660700399b9dc006318660007731dc00e038660;
   0xffcbb800601aee003faebfc006dfebb001ffebb8003032ee0000003b800fffcee001088ffc000306bb001806bb800c30eef000000ffc000633ff000000e000000070000399baec00631aee0002632ac00c81aee0;
   0xc0ffc00601bff0017bfffc006d8fff000000ffc007ff3ff0000007fc003871ff003fffffc000101ff001d56ffc00c30fff000386ffc0007306c003fffffc007ffffe00399bffc007ffbff0007737fc01d87fff0;
   0x2aeaba8006abaea00002ea00006d8eff000000ba8003ff2ea003fff3ac003ff8ea003fffba800fffeff001ffeba800dfeeeb000386ba800fff86c003fffffc003ffffe003bbbbfc007ffaeb00027f7fc0018eaea0;
   0x3fff180007ff870003fc61fc006dfe70001fff18000703060003fff1c000fffc600030c718000ffff30001ffe18000dffc6000338618000fff86c00000e1c0000031e0003fbb9c00077586000077f1c0001cc0600;
   0xc0180002ba860003fc60fc006dfe30001ffe180003030600038c318001e31e600030c318000c3e0300000c018000c0cc60003bfe1800006086c00000e0c000003070003ffb8c000631860000263080000cc0600;
   0xc0d8000c7f370000004004006d8ff0001b37d80007ff3600038c35c000c30c600030c7d80006761f0000eccd8000c0cf60001ffed800007006c000fffff0003ffff8003ffffc000631b600007737c0000fc1600;
   0x1ffcfe000e67bf80007fffe0006daef8001b32fe0003ff3f8003aeb7e0007ffbf8003ffffe0006667f8000ccefe000c0cff8000786fe00006026e000ffffe0003ffff0003c8ffe0007ffbf80002637f0000783f80;
   0x1ffc7fc007c7fff0007fffe0006dfe7f001b377fc007031ff003fff7fe007ffbff003fff7fc007e7e7f001cc67fc00dfcdff8003867fc01ffffe600000e00000003000003ccf9fc007ff9ff8027f31fc000703ff0;
   0x180c1bc001c3e6f0006000e0006d8e37001b321bc00b0306f0038c31bc0001806f0030c31bc003c38370018c71bc00dfcc6f0003861bc00fffde600000e000000030000038e78dc0063186f0022ff09c0007806f0;
   0x1c0c180001c70700007000e000658e70001b3718001fffe600038c31c0001fc0600030c7180001c7c300038c318000c00c60007386180000700e6003fffffc00ffffff0038479c00063186000677fdc0001fc0600;
   0x180c180003a30600006000e000618e30001b3218000bffe600038c3180003ce0600030c3180003eec300030c398000c00c600023e618000060067003fffffc00aabaaa0038038c000631860002260880003ce0600;
   0x1ffc18001f3f0700007fffe000618e70007fff98000701660003fff1c000f07c60003fff18000774f300010fd18000c00c6000737f1800007002300000e000000030000038039c000631860007f701c0007878600].
Definition hanzi_rows_180 : list N :=
  [0x1ffc18000e0f8600007fffe00079ee30007fff98000300060003fff18001e03e60003fff18001e383b00000fc18000f80c60003f3f1800006000300000e00000003000001e038c0007b1860003e6008000e03c600;
   0x1c0c180008010700007000e00078ee70000000180007000600038031c000c0046000300718000c1813000001418000780c60001f071800007000100000e00000003000001e039c0007318600000701c000400c600;
   0x0;
   0x0;
   0x0;
   0x0;
   0x0;
   0x0;
   0x0;
   0x0;
   0x0;
   0x40000000014000000070010000000000000380100000000000000000000000000000300030000c000c00031c030000300300000c00000001010000000600000000c000008c4070001c1c180000e0070000000300;
   0xf800080001c0020000300180000000600003803800000008001fffff0002aaaa800030c030000c0e18000308060000300300000c0aa8000303e000000600000001c000018c6060000c18180000c0060007ffc380;
   0x7ff43c0001c007000070038007fff8e0000380780000001c001fffff0007ffffc00070e070001c1c1800071c060000300700001c1ff8000701ff003fffffc00001800000cce070000c181c0015d5070007ffc380;
   0xffc700001c00e000030070007fff9c0000380e000000038000000030007ffffc002e8606000181838002ea80e000fffaaa003ffeeb800fff83f003fffffc002abaa80006cc7fc000dffff003fff7fc00600fff0;
   0x71cf00071c71c000030070003800380000381e0000000300007fff700000001c003fc73fc00ffb9ff003ffc7fc00ffffff003fffc3800fff871000006000007ffffc0007cc7fc015dffff007fff7fc00601fff0;
   0x300e00061c338003fffee0001c0030001fffcc0000000700007fff300000000c002a933fc00ffb9ff003fe8bfc000302aa002eaac3800aaa830000ffffe0003ffffc003fffab800fe0c0c0003332b8006aacba0;
   0x700400071c710003fffe40000f0010001fffc0000000010000000070003fffdc0039f319c006310c60018ddb1800030386001c1dc3800307070000ffffe0000700e0003fff83001fe6c0c000333030007ffc1c0;
   0x300000061c300002abaa000003800000181800000000000002aaaab0003fffcc0019b9998006300c60018c9b9800aba98e000c18c3800386030000e00060000300c00003f00b80066e62e003fff0b8002aac6c0;
   0x700000071c7000000300000001c00000181800000000000003fffff00015555c00199fd9800771f660019dd99800fff9cc000e39ff80038e7ff800f55560000301c00007dc1d80067ff76003fff1d80019dc7c0;
   0x3fffe000061c3000000380000001801f00181807c0000003f00000c6300000000c00198fc9800361e6c0009899b000ebb8cc000630ff80018c3ff800ffffe000038180001ece0980067fe2600333309800188c6e0;
   0x3fffefc0071c71f0000780fc0001c01f00181c07c0000003f001f1c7300000001c001dcc5dc00771f75001ddddd400e318cc001754038005d547000000700000ffffff007cc79dc006740770033331dc007ffc760;
   0x2abaafc0061c31f0000f80fc0001801800181c068000000300003f863800fffffc003fe63fc00ff99ff003fe9ffc00e31bff003ffe03800fffc3000000e00000ffffff0030c32ac0067fe230033332ac007ffcee0;
   0x700fc0071c7180001dc0e00001c018001c1c060000000300001fc71800fffffc007fe73fc01ffd9ff007ffdffc00e31fff007ffe01801fffc70001fffff000555d55000cc67fc0077ffff003fff7fc0019ddff0;
   0x300e00061c31800038c0e00001801800180e06000000030000f9ff1c0000318c0006030600018181800060c86000fff8300000c0ff800030030000fffff000001800002e867fc003cc6ff003fffffc00188cea0;
   0x700e00071c71800070e0e00001c018001c0e06000000030003fc7f1c0070719c00061f860001c181800070d06000fff8700001c1ff8000703ff0001c030000001800003fff1c0003cfe7000030f1c00019cc700;
   0x300e00061c318000e0e0e000018018001c06060000000300000c00080078e18c00061fc60001818ba00060c2e8000f82ba0000c0838000303fe0000e070000001800000c3b080003cfe2000030f88000fffc600;
   0x700e00071c718001e070e00001c018001c07060000000300015d5554001cc18c003fc7ffc00ff99ff003fec7fc000fc3ff003fffc7800fffb07003fffffc007ffffe000df1fc0003cc7f0003b7ffc001ffff700;
   0x300e0007fff18001c03ce000018018000c0386000000030003fffffc000fc18c003fc03fc00ff98ba003fec2e8001fe2ba003ffe83800fffb02003fffffc007ffffe000cbbfe00018c6f8001f7ffe000c66ff80;
   0x700e0007fff18003801ee00001c418000fe1e6000000030003fffffc0007818e000600060001c5818000706060001b70300015d5c7c00575307000006000007ffffe000ddf9fc0018fe7f00075d9fc00fc6fff0;
   0x300e000000018000000ce00001f818000fe0e60000000380000c03c00007818e0006380600018f818000606060003370300000c082c0003030200000600000001800003fce0bc0038fe2300030d8bc003c666f0;
   0x701f00000007c0000001f80000f87c0005c05f8000000fc0001c0780000f618600063fc70001c781c00070707000733c380001c1d7c00070357001fffff800001800007fcc1c0007cc67000230d9c0001c66700;
   0x7b8000001ee000000fbc000000ee0000003bc00a003ee0000c0e00003e7d86000603c3000183c0c00060383000e31e180000c0fee000303fe001fffff800001800000c06080006ec62000230d880003e66600;
   0x7ffff1c00ffffc7003fffe1e01ffffc7007ffff1e00ffff870001c0c0001f87fc7000600438001c1c0e000701c3801c30f1c0001c1ff4000703ff00000600000001800000c071c000e7d67000737ddc00077e7700;
   0x3fff80c00fffe03003fff80c00ffff83003fffe0e00fffe020000fc00000e007c380060001c00180807000600c1c0083020e0000c00200003030200000600000001800000c03c8000c3f620003f3cc8000e3f3e00;
   0x7ffc01001fff004000000000000fc00000400183000600008001c0002000700408000300040001c00700007000700000600000001800000c019c000817670001404dc000c071700;
   0x0;
   0x0;
   0x0;
   0x0;
   0x0;
   0x0;
   0x0;
   0x0;
   0x0;
   0x70000000000000000001000007004000030000000000000001040000000700000000001000001c0000000000000000000001c000100000000000000c0000000000000030000000000000000006000000000000;
   0x3018007fff02000aaa8380000700e0000300080000000200030e0180000e00200000003800000c02001fa001800ffff00003ffa0180000000000001e00000000002000300018000aaa82000006018000000000;
   0x383c007fff0f001fff8780000301c00003003c007fff0700030e0780000e007003fffe7800000c0f001fff83c00ffff070007ff078007fff07001fefc1c00ffff87000300038001fff8f000007038007fff070;
   0x3fff8780060600e000fff870007fff9c003fffe38003ffe0e00030e0700000c00e003fffee0002aae1e0000bf83800aeaa1e00000b070003ffe1e001fe3c3800ffff8e000300070001fff8e002aab070007fff1e0;
   0x3fffcf00060701c001c038e0007fffb8003fffef00000003c00030e0e000ffffdc0000e01e0007ffe3c000001870001c063c0000030e00000003c001860cf00000301c0003000e00018381c003fff8e00001c03c0;
   0xee000607038000c038c0000018300000300e000000038003fffec000fffff80000600c0002baf380000018e0000c06300000030c000000038001860ce000003838003fffec000183838002aabcc00001c0300;
   0x70f4000707010001c0384000019c1000003004000000010003fffe00005d55500000700000001c710000001840001c063000000304000000000001860c4000003810003fffe4000183810000001c400001c0000;
   0x6070000303800000c0380000018e00000aba8000000000000030e000000c000000003800000018380001fff800000c060000000300000000000001860c000000380000030000000183800000000e000001c0000;
   0x1f73a0000751c00001fff80000018e00001fffc0000ffff8000030e000000e030000013c0000001c1c0001fff800001c0700003fff00000ffff80001860c00007ff800000300000001838000007fff000001c0000;
   0xfe38a8003e0f80000fff800007fff1f001fffc0000ffffaa00030e000000e0f000003be07c00018000000c0180000ffff2a003fff80000ffffaa001860ca8007ff800000301800001838000007ffa0000ffffaa0;
   0xdff8fc001d07bf0015578fc007fff1f0000300fc0007383f00030e0fc00071e3f0007bf07c0001c03f000e05c7c00ffff3f0001830fc0000703f001860cfc0070183f0003038fc001bffbf0001e00fc00ffffbf0;
   0xc7fefc003ffebf0000638fc002baa180000300fc0006383a00030e0fc0003383f000f3786800ffffbf00060f87c000f003a0001838fc0006383a001860ce80070183f0003030fc001bffbf0000f00fc0001c03a0;
   0xc73fe0003ffe3d0000e38e000018018003ffffe000071838003fffee00003f038001e33c6000ffffb800073dc60001f80380001838e0000e3838001860ce000701c380003070e00018383500007c0e00001c0380;
   0xc638e0003006380001c38e000018018003fffee000061838003fffee00001e038001c31e60000180380003f9c60000dc0380001838e0000c1838001860ce000301c3800030e0e00018383000001e0e00001c0380;
   0xf738e0003006380003c18e0000180180035755e000071c380003060e00007e038003830f600001c0380001f1c60001cf0380001818e0001c1c3800187cce000701c3800031c0e0001838300010070e00001c0380;
   0xf638e0003006380007018e000ffff980038300e000c61c380003060e0000f7038001030260000180380001e0c60000c78380001818e000380e3800187fce000300e380003000e000b838300030038e00001c0380;
   0x30738e000300638000f01ce000ffff980038300e000c71c380003070e0001e7c380000300600001c0380007f0e60001c1e38000181ce0003f4638001f67ee0003006380003000e001b838300030018e00001c0380;
   0x38038e000300638000e00ee0000180180018300e000c60e380003038e0003c1e3800003006000018038000f38660000c0fb8000180ce0007fff38001e60ee0003007380003000e000b038300038038e00001c0380;
   0x1fff0e0003ffe38001c00ee000018018001f300e000ff07f8000303ce0007807f80000300600001c038001e1f760001c07b8000180ce00077ff380000604e0003f83b80003f80e001f03830001fff8e00001c0380].
Definition hanzi_rows_181 : list N :=
  [0x1fff0e0003ffe380008004e000018018000f300e0007e03b8000301ce0002003b800003006000018038000c0f260000f8038000180ee000e002380000600e0001f01b80003f80e000f03830000fff0e00000f8380;
   0x5541f00000007c0000001f80001807c0000301f0000001fc0003009f00000007c0000301f00001c07c0008021f0000f807c0001805f80000007c0000601f00005007c0000503f800e038780000001f00000f87c0;
   0x7b8000000fe002000fbc000180ee0000203f8000000ee000000fb8000000fe0000003b8000180fe0000003fc000000ee002000fb8000000fe0000203b8000000fe003800f3c000000fe000000fb8000000ee0;
   0x7ffff1c01ffffc7003ffff1c01ffffc7003ffff1c01ffffc7003ffff1c00ffffc7807ffff1e00ffffc7003ffff1e01ffffc7003ffff1e01ffffc7007ffff1c00ffffc7003fffe1e01ffffcf003fffe1e01ffffc70;
   0x3fff80c00ffff83003fff80c00ffff83003fffe0c00ffff03003fff80c00ffff83003fffe0e00ffff83003fffc0c00ffff03003fff80c00ffff83003fffc0c00ffff03003fff80c00ffff03003fff80c00ffff030;
   0x155400000000000007ffc01000554000005ff40100000000000055000001fff00400155000000000004005ff40100000000000fffc030017fd00400155002000000000005ffc03000000000005ff4010;
   0x0;
   0x0;
   0x0;
   0x0;
   0x0;
   0x0;
   0x0;
   0x0;
   0x0;
   0x1800000033800000c0000000180c040000000000001c000000000000000060000006030100000c0040000000000001c0000000060000001c0000000700100001c00000000700000006000000001800000000000;
   0x1c00800033802000fe000800380c0e000fff8100000c006003fffe080000e0000007030380020c2070007ffc08000ec0020000060180000cc060000300380000c00000000701800007006000001808007fff020;
   0x7fe01c00233907000fffc1c001c1c1e000fff83c0000c00f003fffe3c0001c0070007070780070c30e000fffc1c001dc00700000703c0001ce0f0000300780001c00700000703c0006700f001fc1c1c007fff070;
   0xfff0380063398e00007fc38000c381c000e01870003ffe1c002aaa8780001801e0003860e00030c71c0007000380038c00e0000030700000ce1e0000380e00000c01e000aab870000e381e001fcba380060030e0;
   0x70787000733b9c000070070000e3838000e018f0003ffe380001dc0f000ffffbc0015d75e00038c6380003c00700031c01c003fff0f0007ffe3c001fffde00055d53c003fff8f0001c1c3c0018dff700060031c0;
   0x38fce0003b3b380000600e0007fff30000eab8e0003806300000880e000ffffb0003fffec00018ce300001e006000ffffb8003fff8e0007fff38000fff8c0007fff38003fff8e000180e380018dba70006003380;
   0x1fcf40001b3f10001575440007fff10000fff84000380610001fffc4000067030003fffe00001ccc100001f806000ffffb0000039c400055d710001c01c00007fff30001871c40003d07100018d9c600067f3100;
   0xf8200000f3e00003fffe000000c000000e0180000380600001fffc00000630000003860000008c400000ffe00000abea80000038c000000c380000c018000060c300000c60e00007fff800018d88000067f3000;
   0x7ff000000f3a00003ffff000001c000000e01800003ffe00001dddc00003676000003860000055d500003f1ff000003e000000038e000001c1c0001c01c000071c700000c70700007fff800018ddc00006633000;
   0x7f8fe00000338000000600000000c01f000e018a8003ffe2a001888c000036362a00038607c00ffff9f003803e000007f000001ff8e000000c000000c0187c0060c32a00026320000e0002a0018d8c000066332a0;
   0x3c71ffc0007383f00007007e0001c01f000fff8fc0000063f0019ddcfc0076773f00038607c00ffff9f0010004fc000ff03f001ff87fc00ffffdf001fffc7c0071c73f0007770fc0000003f0018ddc7c0066333f0;
   0xaea8fc000f3e3f00006007e00ffff98000fff8fc0000063f001888cfc0066333a003ffff680003f018000fff8fc000cf83f0000380fc00ffff9f000fff868007fff3a0006630fc002aaa3f0018d8c7c0066333f0;
   0xfffcfc003f3f38001fff86000ffff98003c118e0007ffe38001fcdcf400e673b8003ffff600007f018000fff8f4001ddc300000380e00055d558001d55c60007fff38000e730fc003fff380018dcc7c006633380;
   0xaea8e000733bf8000fff8600001c018000e798e0007ffe38001f8ece000c631b8000386060000ef8180000300e00038cc300000380e00003e018000c018600060c338000c638e0003aae380018d8c600066b3380;
   0x718e0006319f8001c018600003e0180007e18e000755638001807ce001c631f8000387060001cdc180000700e00071ce30001ff80e00007e018001c01c600071c738001c718e0003807380018dcc600067f3380;
   0x618e000031838000c01860000760180003c18e000700638001802ce000c638b80003870600038ce180000300e000e0c630001ff80e0000e7018000c018600060c338001c61ce0003806380018cce60006003380;
   0x1575ce000431c38001c01860000e70180007b18e000700638001801ce000061c380003870600070c7180000700e000e1c7b00000380e0001c7818001c01c600071c738001c71ce0003807380018dc660006003380;
   0x1fffce000c30e38000c01860001c3818000e3f8e000700638001800ce000061c3800038386000e0c398003fffee00040c3b00000380e000383c18000fff860007fff38001860ee0003806380018cc660006003380;
   0x1fffce000ff0738001fff86000381e18001e1fce0007ffe38001fffce000060e380003838600040c1d8003fffee00001c1300000380e000701f18001fffc60007fff380000700e0003fff38001fcff60007e03380;
   0x600e000ff03b8000fff86000700f98001803ce0007ffe38001fffce00007c738000381c600000c098002aaaae00000c0300000380e000600f98000aaa8600000003800007e0e0003ffe38001fcf3e0007e03380;
   0x701f00054017c0000001f00020077e0000001f00055547c0000001f00007c77c000381df00000c07e0000001f00001c07c0000381f00020037c0000001f80000007c00003e1f00000007c0000001f8001c037c0;
   0x2000fb8000000fe0000007b8000000ef0000007b8000000fe0000003f8000000ee0000003b8000000ef002000fb8000003ee0000283f8000001ee0000003bc000000ee002800fbc000003ee0000007bc000001ee0;
   0x3ffff1c01ffffc7003ffff1c01ffffc7807ffff1c01ffffc7007ffff3c01ffffc7007ffff1e01ffffc7803ffff1c00ffffc7007ffff1c00ffffc7007ffff1e01ffffc7003ffff1c01ffffc7003ffff1e01ffffc70;
   0x3fff80c00ffff83003fff80c00ffff83803fff80c00ffff83003fffc0c00ffff03003fffe0e00ffff83803fff80800fffe03003fffe0c00fffe03003fffe0e00ffff03003fff80800fffe03003fffc0c00fffe030;
   0x155400000000000007ffc0100000000000155400000554000005ff401001fff004007ffc010000000000000000000055500000000000001fff004005ff40100000000000000000000000004000000000;
   0x0;
   0x0;
   0x0;
   0x0;
   0x0;
   0x0;
   0x0;
   0x0;
   0x0;
   0x180000001c4000000700000000000400100180000001980000000000000000000003862000001c000000707000000dc00000000000000300000000070000000dc0000003000000001c000000601000003c00040;
   0x1c0080001cc02000030008003ffe06003c0180800aab982001fffc0800ffff8600038e6180000e006000306010001cc002002aaaa08003fa002000830808003cc00200030ff0800019c02000603808007fe0060;
   0x3ce01c0001ce0f00007001c003fff0e003fe181c00ffff0f001fffc1c00ffff8e000187e380001f01f00038e0380079c007003ffff1c001fff0f000c71c3c0031c00f00031ff1c0001cc0f00070701c001fff0e0;
   0x707038002bee0e003fffe380030061c0003e183800ffef0e000f0003800aaaa9c000383c700003b83c000baea380020c00e002abaa380000cb0e000e3187800ffff8e00030e03800018e1e00038e03800003f1c0;
   0x1fffc70007fff1c003fffe7000300738000061870000e071c0007df0700000001c001191cf0000f1c78001fffe7000ffff9c00001c0700001c01c00067387000ffffbc000307070007ffe1c0015d7470000007380;
   0x3fffce0002beb380000300e00030063000006ffe0000e0fb80001f80e0003ffe380031b3ce0003c0e20001abaae000ffffb800080e0e000ffffb80003330e00000c038000f638e0007ffe38003fffee0000003300;
   0x1817c400001c3900000700c0003fff1000006ff40000e0fd00001f00c0003ffe300039b3e0001f80780001c700400055d510001c3f84000ffff900005754400055d510001f618400001c710003ffff4001ffff100;
   0x3860000001c180001fffc00003ffe00000061800000e0ce0001fffc00003806000019b378000efffc00018300000020c000000e33e000003f000000fffc00007fff00001b618000001838000003000000ffff000;
   0x7078000055d500001fffc0000000000003fe1800000e0c40001fffc0000380600001993300005ffdc0001fffc0000f1c780000770f00000ff800000fffc00007fff00001b718000001c000001c70c00005557000;
   0x1e01c0000ffff80001830c0000000000003fe1800007fcc00001860c0000380600000d9b0000000c02a001fffc000030c6000003fc200003cde00000c01c000060c300001b3f82800abaa80001830ca80000031f0;
   0x381cffc00ffffff001c70cfc007fff9f000c6f87c007fde3f001d75cfc0038061f000d9f87c0001c03f000070cfc003dce3f0001ef07c0079c7bf000d55cfc0075d73f001b3fc7c00ffffbf001c70cfc0000071f0;
   0x100e2fc0000003f001830cfc007fff9f000c6fc7c000e0f3f001fffcfc003ffe1f00038b87c00ffffba000030cfc000fdc3f0003c787c00e083ff000fffcfc007fff3f003333f7c00aebabf001830cfc007ffb180;
   0x7ff0e00015543d001fffcc00001c018000c63f60000e1fb8001d75ce0003ffe180007c7c6000ffffb8003fffce00007e8380007f1e6000c7ffbd000d55ce00075d738003331f600007303d001c70ce0007ffb180;
   0x7ab8e0003ffe38001fffcc00000c018000c61f60000e0df8001860ce0001c0c180006c3e600000c038003fffce0000ef038000ef8e600007fe38000c01ce00060c33800331986000063838001abace000601b180;
   0x385ce0003556380001fc0c0007fff18000c71860000e0cf8001d75ce0000c1c18000ec3760001dcc3800387c0e0001dfc38001ddc060007e3038000fffce00071c33800331986000073838001fffce000601b180].
Definition hanzi_rows_182 : list N :=
  [0x19eee0003006380003be0c0003fff18000c31860000e0c38001fffce0000e1818000ce33600018ce3800383e0e00038ce3800398e060007e3838000fffce0007fff3800331986000c61838000aba8e000601b980;
   0x1fc0e0003006380007770c00001c018000c71860000e0c38001d75ce000061818001c630600039c738001d770e00071c7b80031c7c6000601838000d55ce0007fff3800031986001c71c380000380e0006019980;
   0x1f80e000300638000e338c00000c018000c31860000e0c38001860ce0000608180018730600070c3b8001f33ce000e0c3b80000c1f6000601c38000c01ce00060c33800030186000c60e380000380e0006019980;
   0x7ff0e0003ffe38001c71cc000ffff98000c3986000ffffb8001871ce000ffff9800183bd600061c1f8000f71fe00041c1b80000c066000701e38000c01ce00071c33800030186000ff07f800001c0e0007ff9d80;
   0x1e0fee0003ffe38001830ec000ffffb8000c19e6000ffe7b8001f60ce000ffffb800383de600060e8b80000300e00000f8380000fc060003e07b8000f81ce0007cc3380003f1e6000fe03b800000e0e0007ff8980;
   0x1c01df00015547c0000705f00000007e000c19ff0000003fc001f71df00000007e001019ff80000f87c0000701f80000f07c00007c1f0003e03fc000f81df0003dc37c0001e1ff00054007c000007df00000007c0;
   0x7b8000000fe0000203f8000001e70000003f8000000fe0000003b8008001e70000003b8000020ee002800fb8000001ee0000007b8000000fe0000003f8000003ee0000003f8000000fe000003bf8000000ee0;
   0x7ffff1c01ffffc7003ffff1c00ffffc7807ffff1c01ffffc7007ffff1c00ffffc7807ffff1e01ffffc7003ffff1c01ffffc7007ffff1c01ffffcf007ffff3c00ffffc7007ffff1c01ffffcf007ffff1c01ffffc70;
   0x3fff80c00ffff83003fffc0c00fffe03003fffe0c00ffff03003fffc0c00fffe03003fffc0c00ffff03003fff80800fffe03003fff80c00ffff03003fffc0c00fffe03003fffc0c00ffff03003fffc0c00ffff838;
   0x155400000554004000000000005550000015500100015400400000000000000004005ff40100000000000000000000000000005ffc030017ff00c00000000000554004005ffc030015fd0040057f4010;
   0x0;
   0x0;
   0x0;
   0x0;
   0x0;
   0x0;
   0x0;
   0x0;
   0x0;
   0x4000038000000000000000180000001c000000703000007c00000000700000000000000000000000001800000f000000000c000000030000000000040000380000000c000000000010000070000;
   0x1fdfe08003fff0e000030018003fff000000300080060c30200030300800fffe0600003000800ffff82003fffc1800001802001fffc080000c007000030008003fff0e0000380180000c006002aaaa18000030020;
   0x1fdfe1c007fff1e001575438003fff07001fffe3c0071c70f00038701c0007ff0f00007c03c00ffff87003fffc380007fc070001ffc1c003fff0e003ff003c003fff1c000fffc3800ffff8e003ffff38001ffc070;
   0x18186380030031c001fffc700030c31e001fffe380060c30e0001860380003030e0000ce0f00000000e003988c70000ffe0e000030038003fff1c003ff007800380038000fffc7000ffff9c002aaaa30001ffe0e0;
   0x181c670007fff38001d55c70003fff3c0017574700071c71c003ffff700003031c0003c71e0003ffe1c00398cce000070e1c003fffe700000c0380000300f000380078000c3807000e001b8000000070001c1f1c0;
   0x18186e0003fff30001800ce0003fff300003070e0007fff38003fffee000ffff38000f038c0003ffe38003988cc000030738003fffee00000c0300000300e0003ffe30000c3806000e001b8000a8aae0000e3bb80;
   0x1fdfe4000700710001c00c400030c700000386040007fff1000157d54000ffff10003ffff0000380610003fffc40007fff900015fd44000ffffd0001fffc40001ffe00003ffff0000ffff90001fdfe400007f1900;
   0x1fdfe00003fff00001fffc000030c30000018200000000000000c0e000000383000039fe78000380600003fffc00003fffc00003be00000ffff80000fffc0000180000002ebaa00001ffe00001acae000003e0000;
   0x1555600007fff00001fffc00003fff00003fffe0000ffff80000e1f80000018300003000100003ffe0000155d4000071c78000077700000061000001c00c00005d5500000c3800000180e000018dc600001ffc000;
   0x6000000181f000000e7c003fff2a003aaae0000ffff80000733e00003ffb0000181fea8003ffe0000001c0fc0030c32a003e33e00000e3c1f000eaac0000ffff9f000fffe7c00180e1f0018c867c00fe3f800;
   0x3ff567c007ffc1f001fffc7c0000c03f0038306540000c03f0003f8f7c007ffb1f00199fefc0000003f000ffe0fc0071c73f003c78ffc007c1f1f001fffcfc00ffffdf000fffe7c001d5e1f001bdde7c00f1c7ff0;
   0x1fffe7c007ffe18001fffe60002aeaba0038306fc0000e03f0000ee27c00201b1f0019986e8007fff3f000ffe0e0003aeb3f0000182fc00f08398000c00cfc0020c318000838060001ffe18001bcb660000aeabf0;
   0x181fe7c0075d718001993660007fffb8000fffcfc007fff3d0003e7074007ffb1800199d6e0007fff38000e078e0007fff38003ffffe00040c118001c00cf40071c718001c38e6000155e18001edf660001ffe3f0;
   0x1800660006183980019936600060c1b8000fff8e0007fff380007e3e60003ffb1800199fee00060c338000607ce0002bea38003fffee00000c018000fffce00038ce18000e39c6000000e18001eca6600000c0380;
   0x1ce06600061c7d8001fff6600066c1b8000e31ce000673338000ef0c6000701b980019986e00070c33800071fee0001de0380007070e0007fff18001fffce0001fdc180007fb860007ffe18001ede6600015d5380;
   0xfdfe600063e6d8001fff660006cc1b8000e318e000623338001cfc060002abb980019986e0007fff380003b80e00019f0380003838e0003fff180000300e0000ff0180001fd060007ffe180018ca660003fff380;
   0x79fe60006e7718001dd7760006ffdb8000e31ce0006733380038cf060007ff99800199fee0007fff380001f00e00071b8380001dfce00000c0180015755e0001ffc180007bf06000700e180018dc6600015d5380;
   0xf8066000642618001993360006ffdb8000e318e0006233380030c78600020199800199aee00060c3380000f00e000c1bc380000fe0e00000c018003ffffe00038cf18000e3be6000700e180018c86600000c0380;
   0x1dc0660006fff18001993360007805b8000fb1ce0006733380000e1f60007559d80018186e00070c33800007c0e000c19f380003fc0e000ffffd8003ffffe00071c798003c39f6000700e180018dc660007fffb80;
   0x38f0660006ffe18001993260006001b80002308e0007a33380000fe660003ff8b800181a6e0007fff3800001f8e000ff87b8000fbfae000ffff980000300e00060c198001838260007ffe18001ecf660007fffb80;
   0x10707f0007c007c001d131f8007c01fc0000301f8007d137c00007c1f00055507e001f1e7f00055557c000007df0007f017c001e07ff00000007e0000301f00000f87e00003e1f8007ffe7c001ece7f80001c07c0;
   0x3b8003c00ee0000003bc002800fe002000f9c000000fe0000003f8000001ee0002003b8000000ee000000bb8000001ee0008003f8000000ee0000303f8000020ef00001e3f8000000ee0000003bc0000c0fe0;
   0x7ffff1c01ffffc7007ffff1e01ffffc7003ffff1e01ffffc7007ffff1c01ffffc7807f57f1c00ffffc7007ffff1c01ffffc7007ffff1c01ffffc7007ffff3c01ffffc7807ffff1c01ffffc7007ffff1c00ffffc70;
   0x3fffe0c00ffff83803fffe0e00ffff83003fff80c00ffff83003fffc0c00ffff03003fffc0c00ffff03003fffe0e00fffe03003fffc0c00ffff83803fffc0c00ffff83803fffe0e00ffff83803fffe0e00ffff030;
   0x5550040057f4010017ff004005ffc0100000000000155400000554004000150000017fd004000000000017fd004000000000001540000057f401000554000005ffc010017ff004005ffc010017ff004000550000;
   0x0;
   0x0;
   0x0;
   0x0;
   0x0;
   0x0;
   0x0;
   0x0;
   0x0;
   0x180000000070000018700000060000000030000001554000007030000010c40400007000000033000000183800003400000000300000000000000000e00000061800000030000001c0c000007030000001c0000;
   0x3800800ff8302000183008000c3f82000ab0008003ffe020003870080038c60600006000800033002000183808007ff800000030008003fff02003fefe1c00061806000030018000c0c020003030080000c0060;
   0x3ffff1c00ff9f0700019fe1c001c3f87001ff001c001f54070015d751c001ccc0e0015f541c00ffffc7000197d1c0007ff87000fffc1c00355707003ff1e3800ffff8e001fffc38000c1c0700038701c003fff1e0;
   0x3fffe3800c63f8e00019fe3800ffb18e0000300380007f80e003fffe38000ecc1c003fffc3800ffffce00019ff380030428e000c30c380030030e00398667000ffff9c000ebac700006180e000baaa38003ffe1c0;
   0x31cc77000c619dc003fd867000ffb19c007fffe70007fff9c0000cc07000ffffdc003fffc700003301c003fd7d700038c73c000fffc70003fff1c0039cc6e000575d38001c30ce000ffff9c001fffe70003007380;
   0x3f876e000e618d8003fdfee0002231b8003fffee0007fffb8000aeeae000ffffb8000618ce0007fffb8003fc38600018c638000fffce0003aab3800388c6c0007fff30000fffcc000aaeab80000cc0e0003ffe300;
   0x1f03e40007b7fe8001ddfe4000633198001d786400071f010001fffe400007f810000618c4000777598001dfff60001dce30000030040003007100018df64000575d10001fffc400000c0100000cc040003fff100;
   0xb86e00007beee00018f860000223f80000bff60000199c000018cce00001edc00002ebac00006331800018fff00000e8c00003ffff00003fff000018fbe0000aeba80000030000002aea00000fffc00003006000;
   0x1ce0000011f4e0001c7fe0000373f800018396000009ffc0001fcee0000fccf00003fffc00007fff80001c7380000555c00003ffff00003fff00001f78f0000ffffc0003ffff00003ffe00001fffc00003fff000;
   0x3fffea8001b248000087fe0000320180001ff06000000e38a001f87e0000e0c39f002ebacfc00633180000ca387c003ffe2a000000000002aaaaa000e3027c0000c01f003ffff7c00380600000cccc00003ffe1f0;
   0x3fffffc001b7fdf001df387c01ffc19f00054067c007fff1f001d55efc0058479f000618cfc0077759f000dfff7c0055d73f0007ffcfc007fffff00155547c003fff1f00055547c0038063f001ccccfc0000001f0].
Definition hanzi_rows_183 : list N :=
  [0xc1e0fc00ff2e9f000daba7c00ae819f003fff67c007fff1f001fffefc00baae18000618ee8007fff9f000dbff600000c3ba0006ab8fc006aaabf001fffc60003fff18000fffc60003ffe3f000ccccfc002aaa980;
   0xf37ce000fff4d8000fbff60001c7fdd003fff66000736318001800ee000ffff18000758ee000000018000f81c600055d538000601ce0006373b8001d75c600030c718000f55c60003ffe38001fc6ce0007fff980;
   0x3f8ee00019a4d8000f00c60000c3f9800187c660006e3b18001fffee000baa3180007f8ee0001ffe1800070ac6000ffffb80007ff8e000662338001830c60003fff18000e30c6000380638000e03ce00000c0180;
   0x1ef0e00019ffd800071fc6000fff3d8001ec7660007c1f18001fffce00019b1980005506e0001fff1800071fc6000ffffb8000555ce0006e7638001d75c60003fff18000e31c6000380638001c00ce00001c0180;
   0x3e38e000ffbfd8000e1fc6000ffa3d80003f8660006fff180003000e00019b2d80008026e000180618000718c600030c338000aab8e000703838001fffc600030c318000e30c60003ffe38000fffce0003fff180;
   0x7f9ee000fff4d8001f18c60001c73f80003df7600077f318003ffffe0005d9fd8001db67e0001fff18000f1cc600071c738000fffce0007c7e38001d75c6000ffffd8000e31c60003ffe38001d55ce0007fff180;
   0x1ede0e0001824d8001b88e60000c2378000fe336000663318002babae000ff9c180019b33e0001ffe18000d88e600030c338000c018e0006f2fb8001830c6000ffffd80008b8c6000380638000c00ce00000c0180;
   0x3cc7ce0001874580019dc660001c7358001dbc3600077f3180003070e000ffdc180031333e000180718001ddc6600075d738000d55ce00067f3b8001d75c60003007180007de060003d5638001fffce00055d5180;
   0x10e1ee000183c7c0038ef7e0000c3f1800398fb60006ff31800030e0e000180e18003333be0001ffe380038ef760003fff38000fff8e0006020b8001fffc6000300318001f0f860003ffe38000fffce000ffff980;
   0x7c5f00018387e0010673f8001c7f7c0010f11f80078337c0003fc1f0001807fe0013319f0001fff7e00107f3f80055557c0005555f000787c7c0015555f8003e077e001c03df00015547c0000001f00055557c0;
   0x387b8000000e700000039c000000ee000070398000002ee0001e03f8001801ff0000003b8000001e70000203fc000000ee0000007b8000808fe0000003bc000a02ef0000003b8000000ee002000fb8000000ee0;
   0x7ffff1c01ffffc3803ffff1e01ffffc7803ffff1c00ffffc7007ffff1c01ffffc7803ffff1c00ffffc7807ffff1e01ffffc7003ffff1c01ffffc7007ffff1e01ffffc7807ffff1e00ffffc7003ffff1c01ffffc70;
   0x3fff80c00ffff03003fff80c00ffff03003fff80c00fffe03003fffe0c00ffff83803fff80c00fffe03003fffe0c00ffff03003fff80c00ffff03003fffe0e00ffff83803fffe0e00ffff03003fff80c00ffff838;
   0x10000000000000000100000000000000001000555000005ffc0100000000400000000001555004005ff401000000000000550010017ff004005ffc010015fd004000550000000000000057f4010;
   0x0;
   0x0;
   0x0;
   0x0;
   0x0;
   0x0;
   0x0;
   0x0;
   0x0;
   0x3030000000c000000030000000000000000300000000c0000000000000000000000001800000001000000030000000000000000100000000000000000000018307000000000000000000001c71810000e18000;
   0xaa3030002a80c0000aa0380002a8aaa000aa0300000000c0000aa2aa800000000000aa0380002a8330000aa07000000000000000018000000000001aa2aa8001c3838000aa8000000ffff8000e31c18000e1e060;
   0x7fe303000ff80c0007fe55d001ffdfff007fe030000ffc0c0003ff3ffc00ffbfff003ff030001ff8730003ff070000ffe000007ff038000ffffff003ff7ffc000f1e1c003ff9ffc001ffff8000718e38000607c60;
   0x3fe303000ff80c0003fe3ff800ffdffe003fefffc00ffc0c0003ff3ae800ffbfff003ff030000eb8e38003ff0e0000ffefff003ff030000ffffff003ff7ffc00078f0e003ff9ffc000c0038000e38c70007fc5ee0;
   0x186757400619ffe003867ff80061c70000386fffc0060dfff001c731c000e18618001c77ffc00e38c18001877ff000e0efff0038307000060e0e0001830380001e1c3c001c39d54001c0038001c718e0007fd61c0;
   0x186fffe00619ffe0018630380060c30c0018603000070dfff001c330c000618618001c37ffc00639c1c001c37ff00060e0600018303000070e0e000183038000387870000c39800000c0038000aaaae00060fcd80;
   0x1c6fffe007198c6001c630380071c70c001c603000070c0c0000c731c000718618000c755f400739c0c001c700300070e060001c37ffc0070e0e0001c3038000155570000c39c00001ffff8001fffe40007ffd980;
   0xe63030003198c6000c630380038c30c000c623080038c0c0000e330c000318618000e300e00033b80e000e300300038e060000c37ffc0038e0e0000c30380000ffff8000e38c00000ffff80019ce600007fcf000;
   0x663030003998c6000e630380039c70c000e663180018c0c0000673ffc003986180006700e00033b0070006700300018e060000e300300018e0e0000e30380001c0038000638c1c0000000000187c6000060cf000;
   0x663030001998c6000663f380018c30e000666318001ccffe000633ffc001986180003300e0001bbaab8006300300018e0600006300300018e0e0000630380000c0038000338e38003ffffc001bcf67c0060cfdf0;
   0x763030001d98c6000761f38001ddffe000766318000ccfff0007730c0001d975d000773fe0001f9ffd000770030001ce060000730030001cf5f5000737ffc001ffff8000338670003ffffc001fffe7c007fdcdf0;
   0xe6303000399aee000e600380038dffe000e66318001cc0c0000e330c00019bfff000633fe0003b8ffc000e30030001ce0600007300300018ffff800e37ffe000ffff80006386e0003abaac001fffe60007fde180;
   0x1c63ff000719ffe001c655780071d7d4001c663180038c0c0000c730c00031bfff000c7306000739c60001c700300038e060000e300300038ffff801c37ffe00000000000e387c000301c0c000c71c60001b1f180;
   0x1863ff000619ffe001867ff80060c3c00018663180070c0e00018330e000618618001c3306000638c600018300380070e0600018300300070e0e0001830380003ffffc001c383c00030180c000df7c60001b39d80;
   0x3863030006198c6003867ff80061c7c0003867ff80060d5f5001873ffc0061861800187306000e39c700018700300060e0600038300300060e0e0001830380003ffffc00183838000301c0c000db4c60001b3c580;
   0x306303000e198c600306600000e0c3e0003067ff800e0dfff003833ffc00e1861800383386000c38c6000383003800e0ee6000303003000e0e0e00038303800030180c003838380003abaac000c72c60001b3e180;
   0x306303000c198c6003066c0000c1c77000306030000c0dfff00307306000c1861c00387387000c39c7000307003800c0eff000303003000e0e0e00030303800030180c0038387c0003ffffc000df7c6000d9b7980;
   0x306303000e198c6003066fe000c0c33800306030000c0c06000383306000c1861c00383387000c38c3000383003800c0e3fe00303003000e0e0e0003830380003ffffc003838ee0003ffffc000db6c600099b9f80;
   0x386303000e198c6003067ffc00e1c71c00306030000e0c07000387307000c1861c00387387000c38c3000387003800e0e07f00303003000e0e0e0003830380003ffffc001c39cf00000000c006f34c6000d9d8d80;
   0x3fe3030007d9aee003f6603c00fec30e003f6e30000fec030001fb383000ff860c001fb383000ff8c38001fb001800fee003003fb2ab000fee0e0003f303800000000c001fb98700060000c002bffe6000f8ff180;
   0x1fe3ff0007d9ffe001f67000007dc707001f6ff00007cc038001ff3830007d860e001ff1838007f8c1c001f70018007ee000001f37ff0007ce0e0001f3038000c0000c001fb983800e0000c0038f9ff000787f7e0;
   0x63ff000019aae0002630000008c303000263f000008c01c0000338380009860e000031818000b8c1c00003001c0008e000000233ff00008e0e000003038000e0000c00003801c00e0000c0010003b8000000ff0;
   0x6303000019806000063f000001c751000060f800000c01e000073f9c00018607000071d1c00038fcf00007001c0000e0000000300000000e0f400003038000fffffc00003801c007ffffc007ffff1c01ffffc70;
   0x6303000018000000063e000000c3e00000601000000c00f000031f0c00018603800030f8e0003878700003000e0000e0000000300000000e07e000030380007ffff8000038000007ffff8003fffe0e00ffff838;
   0x60010000180000000600000001c1e00000600000000c006000070f08000186030000707040003800200007000c0000e0000000300000000e07c00003038000000000000038000001555400017ff004005ffc010;
   0x0;
   0x0;
   0x0;
   0x0;
   0x0;
   0x0;
   0x0;
   0x0;
   0x0;
   0x3800000000000001c0000000030000000060000000700000001c0000000180000001c00000019c000000070000001000000006700000000000000000000000000000000030000001000000000e00;
   0x780000000038000aaaaa8002a9c0c000aa030000000060000aa0300002a8198000000180002a81c0000a81980002a8030000aa3c0000ff0630000aa2aa8007fbfff000aa0000002a8070000aa3e00002a80600;
   0x7fe7ff001ff801c007fffffc00ff8e3e007fe078000ff8070003fe070001ff81dc007ff018000ff81c0007fc19c001ffc578003fe7ff000ff0670007ff7ffc01ffbfff007fffffc01ffb1e0007ff7ff000ff80700;
   0x3fe0ff800ffbffc003fefffc00eb87f8003fe0f8000ffbfff003fe7ff800ff818c003ff2ba800ff83e0003fc198000ff8ff8003fe07f800eb0630003ff7ffc00ebaaea003fefffc00ffb9c0003fe03f000ff82300;
   0x386007800e1bffc0018700c0006183e0003861dc00061bfff0018e7ff800e181cc001833ffc006187700038c19c00061cffc001860618006306700018771c000e380c000387060000e39b80001870030006187380;
   0x186003800e1baae001860ce0006187e00018638e0006180380018e03000061bffe001c33ff800618e380038c19800061860c001860618006306300018770c0006380c000186070000639900001860030007186180;
   0x1c600380071b007001c71c7000719f7c001c6707000718038001ce07000071bffe001c3018000719c1c0018f19cc0071c70e001c6061800730670001c770c0007395d5001c7070000739c70001c7003000718e1c0].
Definition hanzi_rows_184 : list N :=
  [0xc6fff80071b803000e638300031bc3e000c6e03800318018000ce030000318186000e301800031b8ce0018d998c00318306000c6061800337e3f000e730e000339fff000c6038000338c30000e6003000399c0e0;
   0xc6fff80031b1ff800677ff80031906f000c6c01c00399ffc000eefffc003181c70006301800039b1cf001cd99dc0039c387000e6061800337e7f00067707000339fff000e70fc000338c70000677ff000199fff0;
   0xe600380039b9ff000667ff800398062000663fee00199ffe0006efffc00398183800637ffc0019a183000cd999800198bab000660618003b0630000673030003b98c3000661fc0003b9e32000667ff00019bfff0;
   0x7600380019b98600077e17800198070000763ff4001d9c1f0007e5554001d81c0000337ffc001d8181000edd9d8001ddfff00076fff8001b0670000773f3c001b98c7000773be0001bbf76000775d70000db05f0;
   0xe600380039b986000e643000039bfff000e600000019981f000ee18000039bfff00063008000398000000cc999800399ffe000e6fff800330630000e71f1e003b98e3000e63360003bb336000e61830001980000;
   0x1c6fff80071b9fe001c703000071ffff001c6000000319fff801ce18000071bfff000e3018000719ffc001ccd9d80071dc00001c60c1800730670001c7040c007399e7001c773780073f3f6001c71c30003180000;
   0x186fff80061b9fe001860300006180b8001867ff800619ff90018ebaa8006181e0001c3018000619ffc0038cd9b800619800001860c1800630630001870000006399e300186e3380063b3b600186183000718ffe0;
   0x386f5f800e1b98600387575000e18398003867ff800619c1c0018efffc00e183e00018315d400619c000030cd9f000e1dc00001860c1800c30670003877ff800e399f700387c31e00e3f1f7003871c3000619ffe0;
   0x386e0f800c1b986003867ff800c1819800306603800e198180038efff800c187b0003833ffc00e18e000030cf9b000e19ffc003860c1800c30630003873ff800c39b3300306030c00c3e0f300306183000e18c060;
   0x306e0d800c1b9fe003077ffc00c185dc00306603800c19d5c0030e182000c18ff8003037ffc00c187000030c19d000c1dffc003060c1800c3067000307701800c39f3f00307030000c3e073003071c3000c19c060;
   0x306e0d800c1b9fe00306030000c18ecc00306603800c19ff80038e187000c19d9800303018000e183000030c198000c19800003860c1800c3063800307301800c39e1f00306030000c3a07380306183000e18c060;
   0x306e0d800c1980600387030000e18cee00306603800e19ffc0038e18e000c1b9dc00383018000e1839c0030c19c000e1dc0000386dd1800c3067c00387701800c39a0f00387030000c38078003875c3000e19c060;
   0x3f6e0d800fd9806003fe030000fd9866003f6603800fd9818001fe18c000fdb18e003fb0180007d81b8003edf98000fd9800003f6999800ffc63f003ff301800ff9803003fe830000ff983c003fefe3000ff8c060;
   0x1f6ffdc007d9800001f7ff00007d9877001f66038007d9c1c001fe19c0007d81c7001f37f80007d81f0001edffc0007ddc00001f6db18007ff677001f77018007f9807001f7ff40007f987f001fffff4007d9c060;
   0xa6ffcc0029980000026fffc0001bfb3800267ff8000998180000e188000098183000237ffe000181e00000c3ff800019ffe00026fbf800037e31000273ff800039803000063ffc000b9837800060ffe00098ffe0;
   0x6e0cc00019fc00000717fc0001bff9000067ff800019f9c0000e1800000181c10000307fc000181c00000c01fc0001dffe0000677fc00031f70000077ff8000398070000701fc00039ff300007007c00019ffe0;
   0x6e0c800018f8000006000c0001b03800006603800018f980000e1f000001818000003000c000183800000c000c0001980000006620800030230000073ab800039f0300006000000039fe000006000000018c060;
   0x60000000185000000700000001b0000000660380001851c0000e0f00000181c0000030000000181000000c00000001dc000000600000003007000007701800039f07000070000000387c0000070000000180040;
   0x0;
   0x0;
   0x0;
   0x0;
   0x0;
   0x0;
   0x0;
   0x0;
   0x0;
   0x180000001c0000000300000000600000000000000000000000000000000000000000000000001c000000070000001c0000000000000001c0400000000000000c08000000600000001c0000000180000000400;
   0xaa0380002a80c0000a80300002a80e0000aa7ff000feaaaa000aa18c000ff9ffe000aa2aa800ff80c0000aa0630002abffa003fefffc002a8e1c003fefffc00aa8c18000aa0700002a80c0000000380002a80e00;
   0x7ff575401ff80c0007fdfffc00ff80c0003fe7ff001ffffff003fe18c000ff9ffe007ff3ff801ff81c0007fe073000ffdfff003fefffc01ff877c007fefffc01ff8c38003fe070001ff81c0001ff038000ff81c00;
   0x3fefffc00ffbffe003fdfffc00ffbffe003fe603000eaffff003fe38e000e19806003ae30c000eb9ffe003fe063000ffb80a003ae00c000eb83e000386c00c00ff8e30003fe1f8000ff80c0001ff2ba800eb81c00;
   0x387fffc00e3bffe0038c03000061bfff00186703000e7000000186707000619c060018731c000e19ffe00386fff80061d8660018600c000e187f000186c39c00e18770001863dc000e3bfff001c33ff80071bfff0;
   0x18600000063b0c60018c2ba800618c08001866ab00062000000186e038007198060018630c000618aea00186fff800619cee0018600c000619e3e00186c18c0061bffe0018670e00063bffe000c33ab80071bfff0;
   0x1c77ff80073b1c6001cc7ff800718c1c001c67ff000777f7f001c7c71c00719d56001c7fffc007181c0001c6071c0071cccc001c63ff800719c5f001c601c00071bffe001c6e070007381c0000e33038003182180;
   0xc63ff80033bffe000cc630000318e18000c6000000727f7f000c6478800319ffe000e6fffc003180c0000c6060c00398ecc000c63ff800318032000c67ff8003180c0000c7c038003398ce000633038003986180;
   0xe770380033bffe000cc630000398638000e6000000376363000e60f80003995540006731c0003195d5000e6070c0019c7dc000e630e000318030000c67ffc003181c0000e6bffc003399cc000733ff800198e1c0;
   0x663038003bb0c6000edfffc0019863000066fff800326363000661dc0001980000006630c00019bfff00066060800198ffe0006630600039bfff0006600e0003980c0000663fec001b8ccc000333ff800198c0e0;
   0x777ff8001bb1c60006dfffc001dbfff00076fff8003f63630006638e0001d9555000773ff80019ffff00076fffc001ddffe0007630600019ffff000660670001d81c0000763fe0001f8ddc000333038001d9c060;
   0xe63ff8003bbaee000ec63000039bfff000e6e01800326363000c670700039bfff000e63ff800398330000e6fffc00398eaa000e7fffc00398098000c60630003980c0000e60000003b8ec80006330380039ba070;
   0x1c700000073bffe001cc7ff80071bfff001c6e3180077676f001c6e0780071bfff001c7006000719f34001c600000071c700001c7fffc0071819c001c606300071ffff001c600000073ffff000e33ff80031971b0;
   0x1863ff80063aaea0018c7ff80061800000186e31800e26f6f00186c03c006180c000186006000619b36001860000006183800038600000061abac00386fff80061bfff00186fffc0063bfff000c33ff8006183380;
   0x3877ff800e386700038c01800061955400186e31800c77f7b00386fffe00e180c0003877ff000c19f36003867ff80061c1c000306000000e1bffe00306fff800e180c000187fffc00c3ffff001c31578006183f80;
   0x3861e0000c3863c0030c2ba800e19ffe00386e31800c27b7b003863fe400e18aea003063ff800c1b336003067ff800e1b8c0003067ff800c1bbaf00306060800c180e000386018000c380e000183043800e181e00;
   0x3070f0000c3861e0030cfffc00c19ffe00306e31800c77b7b00386707000c19ffe00307757800c1b73700306757800c1ffff007067ff800c1b18f80306060000c181e00030611c000c381e0001830e3800e181e00;
   0x306a30000c3ffff0030c6ae800e1980e00306e31800c2636b00386302000e19ffe00306307c00c1b33300306603800c1afff00306601800c1b18d00306a60000c183e00038618c000c383e0003830c3800e181c00;
   0x307fffc00c3ffff0030c707000e19c0e00386e31800c7636300386707000f580c000387707e00c1f73900306603800e1c0d700386601800c1b18c00386fff400c187700038638e000c38770001831c3800e183e00;
   0x3f62ffc00ffaeaa003fc38f0007d980e001f6eb9800fa6363003f63020007d80c0003f6306600fd8318003fe603800ff80c0003f6601800fdb18c003f63ffc00fd8e38001f6306000ff8e30001fb1fb8007f87700;
   0x1f70300007f8600001fc1fc0007d9c0e001f61dc0007f6363001f67070003dbfc0001f77074007d8718001f66038007dc0c0001f66018007db58c001f6067c007d9c1c001f67070007f9c38001fb3ff8007d8e380;
   0x260300000386000002c3f0000019aae0000638e000026363000263fe00001bffa000063fe00001831c000067ff8000180c0000066ab80001bd8c0000606000001b81c00006fff80003b81c0002b30f80001861c0;
   0x70300000386000000cfff000019ffe0000670f800076363000067ff0000187ff000077ff00001870e000067ff80001c0c0000067ff800019d8c0000606000001900f00006dffc0003b01f00003707c0001840f0;
   0x603e0000386000000ce0fc00019aae00006603e00027b7b0000630200001800f000060060000183ce000066038000180fc000067ff8000181800000606000001800700006c03800038007800030008000180070;
   0x701e0000386000000c401800019c0e00006001c00073b3300006707000018000000070070000183c60000660380001c07c000066018000181800000606000001800300006400000038003000030000000180000;
   0x0;
   0x0;
   0x0;
   0x0;
   0x0;
   0x0;
   0x0;
   0x0;
   0x0;
   0xc0c00000070000000618000000000000001c00000001800000000000000070000001c0000000000000000180000000000000006180000000000000000000000018000000c080000060e0000001c00;
   0xa9fff800ff8c0c000a80600007f8618000aa7ff8002a0380000aa0380006abfff000a80600002a3ffa003feaaa8002a01c0001fefdf800000618003fefff800ff7fff000aac180002a8c0c003fc60e000ff81800;
   0x7fdfffc00ffbfff007fd5f5000ffbfff003fe7ff801fffffe007fe575400ffbfff007fd5f5001ff07ff007fffffc00ff03e0003fefdfc01ff8618003fefff800ff7fff007ffe18000ff8c18003fc60e000ffb9dc0].
Definition hanzi_rows_185 : list N :=
  [0x3ac060000e1bfff003fdfff800ebbfff003ae601800fefffe003aefffc00ff8330003fcfff800eb00c2003ae0cc000ff0760003aecd8800ffbfff003aec21800eb0003003fe6ff800ff8e38003ac60e000e1b8cc0;
   0x38dfffc00618c0c0038dfff80063975d00186701800c7030600386fffc0063b3330038dfff800e300c00038e0cc000631e780018ecd8c00e1ffff0018ec71800631ff7003877ff8006387300039c60e000619ccc0;
   0x18dfffc00618eac0018c199800638618001866ab800e27ff60018600000063b3320018c061800633ffe0018e0cc00063383c0018ecd88006186180018ec21800631ff3001863180006383000018c60e000618cce0;
   0x1cd870c00718ffc001cc199800739554001c67ff800677ff6001c63ff800739b36001ccffd800733ffe001cefffc0073755f001cefdfc00718678001cefff800731837001c739800073bffe001dffffc007184e60;
   0xcdfefc003180c0001cdfff800339ffe000c6030000626306000c63ff800339b36000ccffd8003338c6000cefff800332fff800cefdf8003186e8000cefff800331ff3000c61d800033bffe000cffffc003183e00;
   0xcc57500031bfff000cdfff8003b9d56000e603000077fffe000c6303800339f3c000ccc618003338c6000ceccdc00330ff9000ee000000398060000ce555800331ff7000e7fffc003bb8c6000dc70e0003987f00;
   0xccaea80019bffe000cd9998001b980600066fffe0032fffe000e63038001b8b30000ecc618003b38c6000eecc88001b00000006efff8001980600006e0018003b183300066fffc001bb8c6000ecf0e000198e380;
   0x6cfff8001db0c7000ed9998001f9ffe00077fffe00376306000663ff8001fffff8006dfff8001b3ffe0006eccdc001b307f0007efff8001dffff8006effd8001b1ff7000770700001fbffe0007df1f0001dbc1f0;
   0xcc06000039b0c2000cd9998003b9ffe000e6030000327ff6000e63ff8003bbfff800edeeb8003b3ffe000cecc88003b327e000ee00000039bfff800eeffd8003b0aa3000e60380003bbffe000cdfbf00039998e0;
   0x1ccfff80071bfff001cdfff800739806001c6fffc00675756001c6000000738000001ccc618007300c0001cefffc00733667001cf555400718030001cec0d8007301c7001c755e00073b8c6001df7ff0007181c00;
   0x18cfff80061bffe0018caab800639ffe00186fff800e22bae001867ffc006380000018cffd800632aea0018eaaa8006332660018ffffc006180380018ec0d800637ffb001863ff80063b8c60018f7af80061b0cc0;
   0x38c000000e180c00038c30d800639ffe00186e01c00c77fff003067ffc00639ffe0038cffd800e33fff0030e030000e3367f0038ffffc00e1955c0038effd800e37fff00387757c0063bffe0031c7cf800e1b9cc0;
   0x30ffffe00e1bfff0030c30d800e380c000386efd800c2631e00306600c00e39aae0030c061800c33aeb0030e030000c3327e0030e006000c19ffc0030effd800c30c6300306303e00e3bffe0030c6cf800e198cc0;
   0x30ffffe00c1bfff0030df7d800c380c000306efdc00c77fff003066fec00c398060030c575800c336c70030efffc00c336670030e7ff000c19ffe0030ec0d800c30c7700307707400c380c00031c6efc00c19cce0;
   0x30c006000c180c00030df7d800e3bfff00306ecd800c27ffa003066fec00e398060030cfff800c336c30030efff800c332660030e7ff000c1981e0030ec0d800c307e3003063fe000e380c00030c66ec00c18ec60;
   0x30cfff000e19ffe0038d75d800e3ffff00386ecdc00c7631f003066c6c00e39ffe0030cd5f800c33fc70030e030000e3367f0038e7ff000c1981f0038effdc00e307c7003077ff000e3ffff8031c67ec00e181e70;
   0x3ecfff000fd9ffe003ec30d8007f8360003f6efd800fa7ffb003f66c6c007f9aae003fcc0f800ff3ffb003fe030000ff326e001fe700000fd981b003feffcc00ff0fc3003f63020007fbfff803ec62e0007d83e00;
   0x1ec6000007d80c0001ed30dc007f87f0001f6e55c007f7ffb001f66fec007f9806001fcc0fc007f3c7f001ffc300007f3667001fe7000007d9819001fec0cc007f3cff001f77070007f80c0001fc60e0007d8f700;
   0xc60000001a8c00000dfecc00038e3800006e0180002631b000066fec000398060000cc0ec000330030000effe0000330660000e300000099ff80000ec0cc00030033000263fe0000380c00000c60e000019e380;
   0xc75000001bfff0000dffcc00039c1c00006fffc0007631b80006606c00039ffe0000cffec000330070000e7ffc000330670000e3f8000019ff80000effce00037fff000077ff0000380c00001c60e00001bc1e0;
   0xc3e00000183ff0000c1bce0003980f00006eab800027b1980006780c00039aae0000cffee00033e030000e003c00033c760000e3f80000198180000effc600037fff000063020000380c00000c60e00001b00f0;
   0xc1e00000180050000c00440003800700006401c0007731900006780c000398060000cc0e400033c070000e000000031c770000e1700000190180000ec0c000030000000075070000380c00001c60e0000180030;
   0x0;
   0x0;
   0x0;
   0x0;
   0x0;
   0x0;
   0x0;
   0x0;
   0x0;
   0x4000000000000000000000000060000000c0000000000000000060000000600e000000000000000000000001740000001c000000000000001d1800000000000001c0000000707000001c10000000300000000000;
   0xe01ffc00aaaa8e000001ffc000607ff000c03ffc00ffefff000063ffc000700e0000003ffc00000000003fc924800ff3086003f9fff8002a0b1a000a807fc002abfe8003fc306000ff8c30000000300002a7fff0;
   0x601ffc01ffffdf003ffdffc000667ff000c03ffc00ffefff000073ffc000381c0007fffffc00ffffff007fdfffc01ff71c6007fdfffc01ff7f7f007fdfffc01ff87ff007fc38e000ff8e70007fefffc00ff7fff0;
   0x61036000fffff8003ffc360000660d8000c0036000eaa1b000003036000018180003ff824000ffffff003ac924800c33ffe003a8060000eb7f7f003fdfb1800eb98ca003adfffc00e38620003fefff800ff00800;
   0x363c36000033010000180360000660d8000c0036000e001b0003ff036000ffffff0007007400000c3000038dfffc00e37ffe0039ffffc00e31d990038dd3f800e199cc0038dfffc0063bffe003863060006301cc0;
   0x323c36000033000000180360000660d8000c0036000e001b0003ff836000ffffff0006002400000c3000018c9248006300980018bfffc0063aa980018d8bf800618cc80018c03000063baae0018638c000633f8c0;
   0x376dffc00033000000181ffc00f667ff007ffdffc00e00fff003ff9ffc0000e700000703ffc0000c300001cdfffc007355dc0019f070c0073ffff001cddf1800718dd8001ccfff80033bdd6001c7fffc00733fcc0;
   0x33edffc007fff80000181ffc00fe67ff003ffdffc00e00ffe00381dff80000e300000603ff8003ffffe000cc924800333ffe0018baeac00333636000ccf3f80031bfff000ccfff8003bb4b6000c7fffc0033008c0;
   0x33cdd7c007fff87000181b6c007fe75f005d55b6c00e00cb700381db5c003ffffc000703b5c007ffffe000cdd75c0033018f000ddfff400333636000ccf3f80031ffff000cc0700001bb7f6000e6000000337fff0;
   0x33cd96c0063318f800181b6c00e7f65b000c01b6c00e00cb200380fb48003ffffc000603a480030c30e000ecfff8003b3fff800c80600003bf2f6000ecf318003983e0000ecaba8001bb2a6000662aa8001b7fff0;
   0x318d96c0063319e0015d5b6c00667e5b000c11b6c00ffec97003815b5c0038e71c000703b5c0070c30e0006c5550001b15df000fdff50001b7b7f0006dbffc00198ff00006dfffc001fb1c6000767ff8001b555d0;
   0x318d96c00633188003fffb6c00e67e5b000c39b6c00ffecb2003839b680038e31c000603a480030c38e000ccaaa800333ffe000c8fef800331193000ed1ffe0039bcf8000cc2330003bbffe000e66038003b000c0;
   0x33cd96c00771980007fffb6c0066675b000c31b6c00e0ec97003871b7c0038e31c000703b5c0070c38e001cdfffc00733ffe001dc070000733ffe001cc73040071f9de001cc773000739554001c6757800737ffc0;
   0x33cdb2c007f1d80000181f2c00e667cb000c71f2c00e0ef9a0038e1f280038e39c000603e68003fc1ee0038c000000e32bae00388000000633ffe0018cff800061a0cf0038c336000638000001867ff800633ffc0;
   0x37cdf3c00740f90000181f3c0066660f000c61e3c0000ef9f0019c1e3c003fc1dc000703e3c007fc0fe0030cfff800c37ffe0031feffc00c3310e0038c1ff800e19fff0030dfffe00e39ffc00386603800e3000c0;
   0x36ed80c006001b000018180c00666603000ce180c0000ec0a001981808003f80fc0006038080030003e0030cfff800c3000e0030babec00c3318e0030c862800c19ffc0030dfffe00c39aac00306603800e3000c0;
   0x366d80c006001b8000181d5c007e6603000cc180c0000ec0700198181c0038005c00070381c0070001e0030cc03800c37fff0031f6dec00c3318e0030dc7c000c199cc0030c000000c3980c003067ff800c37ffe0;
   0x3e7dffc007fff98000181ffc007667ff000c41ffc0000effe001801ff8003aaabc000603ff8003ffffe0030cc03800c36bea0030b29ec00c3318e0030ceef800c1988c0030c7ff800c39aac00306060000c37ffe0;
   0x343dffc007fff9c000181ffc000667ff000c01ffc00c0efff001801ffc003ffffc000703ffc007ffffe0030cfff800c367770031f6dec00c331ce0038c7e3e00c19ffc0030c7ff800e39ffc00306070000e376000;
   0x303d80c0060018c00018180c00806603000c0180c01c0ec020018018080038001c0006038080030000e003ec386000fb781a003eb29ec00ff30ce003fc7e0c00fd9aac003fc6038007f980c003f6fffc00ff3cb60;
   0x300d80c0060018e00018180c01c06603000c0180c01c0ec0700180181c0038001c00070381c0070000e001ec18c0007b67ff001ff6dec007f07c4001fcf7e0007d99cc001fc6038007f980c001f7fffc007f3db70;
   0x3fedffc0060018e000181ffc00c067ff000c01ffc00c0effe001801ff8003aaabc000603ff8003aaaae0000c98c0000366320000befec00030fe00000dc67800019aac0000c60380003980c000260600000331b30;
   0x3ffdffc007fff87000181ffc00ffe7ff000d41ffc00ffefff001d41ffc003ffffc0007f3ffc007ffffe0000dfffc000367f70001feffc00037c7c0000d863e00019ffc0000c7ff800039ffc000060700000331b30;
   0x300980c007fff8300018180c00ffe603000fe180c00ffcc02000fc1808003aaabc0003f3808003aaaae0000cbffc00037ab20000b29ec0003703f0000c060c00019aac0000c7ff800039aac00006060000033f338;
   0x300100c0060018000018100c005506030007c100c007fc4070007c101c0038001c0001f101c0070000e0000c0014000338170001c004c000320070000c06000001980c0000c60380003980c00006070000031f000;
   0x0;
   0x0;
   0x0;
   0x0;
   0x0;
   0x0;
   0x0;
   0x0].
Definition hanzi_rows_186 : list N :=
  [0x0;
   0x3000000018000000180000000000000000706000007000000000c00000000000001814000000180000000c00000007000000000000000070000001c18000000180000000c000000070000000000000000c00000;
   0x38ffc00c183ff0000c1ffc007ff7ff000030618000663ff00000dffc00fffbff003988ffc000187ff0000e1ffc001327ff001e01ffc000607ff000c19ffc000187ff0000c1ffc000307ff000001ffc000d87ff0;
   0x18ffc00e187ff0001c1ffc007ff7ff003ff8638000767ff001c0dffc00fffbff00399cffc0015c7ff000061ffc003377ff001ff1ffc000707ff001c19ffc0001c7ff0001c1ffc000707ff003ffdffc001dc7ff0;
   0x3ff81a0007ff8480003e0360006030d8003ffc63000066048001f8c36000eab8680039881a0007fc0d8003ff0160006330d80003fc360000600d8000c183600000c0d8000180360000300d8003ffc3600018c0d80;
   0x3ffc1e0007ff858000770360006030d800181f660005770580007fc36000c0187800399c1b0007fc0d8001ff816000e330d800019c360000700d8001c1836001ffc0d8003ffe360000700d80000003600018c0d80;
   0xe1a000318048000e38360006030d8001c3be20007ff04800003c36000c018680039881a00030e0d8001838160000338d8000180360000600d8000c1836000ffe0d8003ffe360000300d80000003600038c0d80;
   0x7ffc003983ff001c1dffc006033ff000e717c0007ff3ff00300dffc00dfdbff00399cffc0038f7ff001c1cffc01fffbff000181ffc01fff7ff007fffffc01ffe7ff00300fffc000707ff000001ffc0030e7ff0;
   0x1ffbffc001983ff00780effc007ff3ff0007e07e000063bff00300dffc00dfdbff003988ffc0019bfff000e0effc00fffbfe000181ffc00fff7ff003fffffc000677ff00300fffc00ffffff000001ffc007067ff0;
   0x1fffdec00ffff5b003fffd6c007ff35b0001f067c00071b5b003ffd96c00c01b7b003bbedac001d9fdf000636d6c0055fb5f0015d596c005756db001c19b6c000676db00301ff7c00fffe5b000001b6c00e077df0;
   0x1858dac00fffb4b000ffad6c0000035b0000ffe1c00061b4b003ffd96c00c01b6b003faadac000f06db000770d6c0001835a003fff96c000606db000c19b6c00063edb000019b6c00afae5b003fffb6c00e03edb0;
   0x19dcdec0007035b0005d1d6c0000035b00001f6000007035b00055196c00cfdb7b003fffdac000706db0003e0d6c0001835f003fff96c000706db001c19b6c00fe1edb000019b6c0007065b007fffb6c01d57edb0;
   0x1b8cdac0003834b000080d6c00fffb5b00000000000fffb4b00000196c00cfdb6b003feadac000f86db0001c0d6c007f835a0003e196c000606db000c19b6c00fe06db001819b6c000f065b0000e1b6c00bff6db0;
   0x1d1cdac007ff35b0001c1d6c00fffb5b003fffffc01fffb4f001ffd96c00ccdb7b003dffdbc003dc7db0001e0d6c007fc35f0007e196c000706db001c19b6c00fe06db001e19f6c000f065b0000e1b6c007ff7db0;
   0x3ffffbc007ff3cb003ffef3c000603cb002abaea800aeebcf001ffdf2c00c8dbcb003debfbc00f8e7cb0000f0f2c0060c3ca0007e1f2c000607cb000ff9f2c000607cb000f99f2c000f87cb0000e1f2c003187cb0;
   0x7fffc3c003c7b0f003ffff1c0007030f001fffff0001cc34700180df3c00ccdb0f003dddc1c01f07e0f001ffcc3c0071e30f0007f1f3c007ff7cf001ff9f3c000607cf0003f983c001f87cf000461f3c0071860f0;
   0x186cc1c000e3f03000080c0c00060303000fffff0000cc30300180d80c00c8db0700398cc1c00fffe03001ffec0c0031e302000db180c007fe603000eb980c000606030000f980c0019860300066180c003186030;
   0x1cecd5c00070b570005d9c0c00575357001c18c30001cc303001d5d80c00cddb5700399cc0c007fe75700183fd5c003bf357001d9980c00607757001c19d5c00fe060300003980c001dc603000e7180c003186030;
   0xdccffc00aeabff000c98ffc007ff3ff000c18e30000cc3ff001ffdffc00cfdbff00398cffc006067ff00183affc001b3bfe001999ffc006067ff000c19ffc00fe07ff000019ffc0019c7ff000c31ffc003187ff0;
   0x1d8cffc01fffbff001dddffc007ff3ff001ff07f0001ce3ff001ffdffc00cfdbff00398cffc007067ff001838ffc001f1fff00399dffc006077ff001c19ffc00fe07ff001019ffc0038c7ff001c39ffc0031c7ff0;
   0x2eaec0c00aeab0300188cc0c00060303000c000b0008c630300180d80c00c0db0300398cc0c00606603001838c0c000e0f0200318f80c00606603000c1980c0006060300301980c0030e60300181980c0030c6030;
   0x3ffec0c000703030039cfc0c00070303001fffff001dc730300180d80c00c01b0300398ec0c00706603001838c0c001f0b0700318780c00607603001c1980c0006060300301980c0071f603001d1d80c0030c6030;
   0xc00ffc000603ff003086ffc000603ff000eaaab0008c73ff001ffdffc00c01bff003986ffc006067ff001838ffc003b83fe000181ffc006ae7ff000ff9ffc000607ff003039ffc0063f7ff003ffdffc0038e7ff0;
   0xc00ffc000703ff0031c7ffc00fffbff001fffff001dc3bff001ffdffc00c01bff003987ffc007fe7ff001ff8ffc00f1e3ff000181ffc007ff7ff001ff9ffc000607ff003ff9ffc00e73fff003ffdffc003d77ff0;
   0xfe0c0c0007c3030000f0c0c00fffb03000fffff000f81f0300180d80c00fc1b03003983c0c007fe603001ff8c0c00e0f30200018180c007fe603000eb980c00060603003ff180c00ce1e0300300d80c001f3e030;
   0x7c040c0003c1030000f140c00000103001c000300078090300180d00c007c190300390340c0070660300183840c0040310700018100c00607403001c1900c0006040300054180c0040140300100100c001f16030;
   0x0;
   0x0;
   0x0;
   0x0;
   0x0;
   0x0;
   0x0;
   0x0;
   0x0;
   0xe000000018000000618000000c00000000000000000000000000c000000000000000000000018e0000000c0000000300000000c000000018000000000000000000000005c0000007000000000c0000000600000;
   0x1c0ffc000183ff000618ffc000c01ff001ffdffc00fff7ff003f8cffc007ff3ff001ffeffc0018e3ff0000c0ffc000303ff0001c1ffc000383ff000000ffc00aaabff000e81ffc00ff87ff0002e1ffc0006e7ff0;
   0x1c0ffc0001c3ff007fffffc00ccc5ff001ffdffc00fff7ff003f8cffc007ff7ff001fffffc0018e7ff0001c0ffc005757ff0001c1ffc000307ff003fffffc00fffbff0039c1ffc007fffff000771ffc0006e7ff0;
   0x3ffe1a000fffc68003fff1e000ccce2800180c36000e620d800318c0a00060304800180612000bae868003ffe1a000fffc48003ffe360007ff868003fff1a000aba8680010803200000b8d8000e30360000660d80;
   0x7fff1e000fffc7c00575d1e0006dcc6c00181c360006760d800318c1b00060305800180617000fff878003ffe1b001fffc58003ffe360007ff8780000001f0005d9078003ffe36000c310d8001c3836000ffe0d80;
   0x861a00000e0680006181e0006d9828001ffc360007e60d800318c0a0007ff048001ffe12000fff8680000001a000000048002eaa360006038680000001a000e99868003ffe32000e338d8001ffc36000ffe0d80;
   0x15d7ffc000063ff0007d8ffc006d99ff001ffdffc007f77ff0031ffffc007ff3ff001ffeffc0018e3ff000630ffc007ff3ff001c19ffc00703bff003fff7fc007db3ff0001c1ffc006733ff003ffdffc005777ff0;
   0x1ffeffc007ff3ff0001e0ff8002d98ff00180dffc0006f7ff003bffffc006033ff001806ffc0018e3ff000618ffc007ff3ff000c38ffc00603bff003fbf7fc0069b3ff000080ffc006663fe00300cffc000637ff0;
   0x1fffdec007ffb7f0003f0dec000c01ab00181db6c0007f75f003f8c7fc0075735b001806d6c0018e37b000618dac0070337b000e31d6c007ffb7b0031f37ec003df37b003fffd7c0076635f000771d6c00063edb0;
   0x1886dac00607b6b000738de800ffdeab001ffdb6c00ffbe5b003b8c6ac007ff34b001ffed2c00ffff6b000e38dac0060336b00063096c007ffb6b0031a36ac0009836b003ffe92c0022e25a000e3096c000606db0;
   0x7fffdec00707f7b001e1cdec00ffdfab001ffdb6c00ff1e5b00318c6bc0055535b001ffed6c01ffff7b001f7cdac007ff37b001755d6c00703b7b0031f37ec00fffb7b0031cfd6c0018035f001c19d6c01fffedb0;
   0x3ffedac0060636b003c0ede8000e18ab000199b6c00000e5b00318c6ac0000034b000000d2c0000036b001becdac007ff36b003ffe96c00603b6b0031a36ac00fffb6b00308e92c0018025a00384c92c00fffedb0;
   0x19c7dbc007fe36f007fffdec001f19ef000199f6c007ff65b0031ff7bc01fffb4b00030ed3c0000036b0039c6dbc0000037b007fffd6c007ffb7b0037f77bc00001b7b003fffd2c005d535f0070efd6c015556db0;
   0x1aaefbc002aa3ef002ffaf28003f18ef003ff9f2c007fe6cb0031bf7bc00fffbcf00030ef3c007ff3eb001086fbc007ffbeb000000f3c007ffbcb0037af7bc00001beb003ffef3c00fffbca000064f3c000007cb0;
   0x1fffc3c000003070000c0c3c007f1987003ffd83c006077cf003ff361c000713c700330ef1c007ff3070001c0c1c007ffb0f000001f3c007ffb0f0035ff61c00001b0f0031cfc1c01fffb0f001ff1f1c00fff7cf0;
   0x82c1c007ffb070000c0c18006d988300018f80c007fe603003fa360c00063303003b7ec0c006033030000c0c1c00380303001ffc80c00633b07003dab61c00001b0700308e80c00180202001ff880c00fff6030;
   0x1c7d5c007ffb030015d4d5c00edd9d7000187d5c007ff7570031f360c00577303001f7ec0c00703357007fffc0c001f0357001ffdc0c00f73b57003dfb75c00001b570031cfd5c00187357001c3dc0c00fff7570;
   0x1ffbffc006c9bff001ffcff800ccd8ff000181ffc006067ff0031a37fc00fe33ff00070effc007ff3ff003ffeffc000703ff00180cffc003e3bff0039ab7fc00001bff003ffeffc0018e3fe000e3effc00e037ff0;
   0x1ffbffc006d9bff001ffcffc00ccd9ff001ffdffc006077ff0031f37fc00ff73ff00030effc007ff3ff0015d5ffc01ffffff00180dffc001e3bff0031f37fc00001bff003fffffc0019c3ff000767ffc00e077ff0;
   0x181bc0c006c9b030000c0c08000c5883000ba980c007fe6030031ab60c0006730300030ec0c006033030000c0c0c00ffff0300180c80c000c3b030031a360c00001b0300308e80c001982020003e080c00e036030;
   0x181bc0c006d9b030000c0c0c000c198300018180c007ff6030031ff60c0007730300630ec0c007033030001c0c0c0007030300180dc0c001e3b030031f360c00001f030031cfc0c001983070003c1c0c00e076030;
   0x181bffc006c9bff0000c0ff8000c7cff000181ffc006067ff0030c37fc0006dbff00636effc006033ff0000c0ffc000703ff00180cffc003bbbff0031a37fc00000fff00308effc001803fe0007e0ffc00eab7ff0;
   0x1ff9ffc01ffffff007fffffc01d7e7ff007fffffc006077ff0030c37fc01ffdfff00737effc007ff3ff0001c0ffc000703ff001ffdffc01f3fbff0031f37fc00000fff0031cfffc001c03ff001f7dffc00fff7ff0;
   0x1ff9c0c00ffff03003ffec0800ff8683003fff80c00786603003ee060c00ff8f03003f3ec0c007ff3030000c0c0c0007e303001ffc80c00e07b03003dbb60c00000f03003e8e80c001f8202003c3e80c00fff6030;
   0x181940c0000010300000040c00ff030300000100c00787603001c4040c00fc0d03001f0640c007031030001c040c0003e10300180d40c00001903001d9b40c00000d03001dcf40c000f010700300740c00e076030;
   0x0;
   0x0;
   0x0;
   0x0].
Definition hanzi_rows_187 : list N :=
  [0x0;
   0x0;
   0x0;
   0x0;
   0x0;
   0x307000001c180000006000000180600000000000000000000070000000000000000000400000701c000040000000030000001c0000000030000000370000000300000001b0000000dd000000000000000300000;
   0x306380003c3c000000e000000180600007fffe0006aaaaa0007ffea0003ffff8001aaafe8000303f8000ffa000000303ff003ffeffc000303ff000330ffc000303ff0001b8ffc00ec9bff003fbfffc000303ff0;
   0x38738001f00f000000f00000ffcffe00075556000ffefff0001ffff0003ffffc003ffe7fc000700ff001fffff801ffffff0001ffffc007f03ff003ffeffc00ffffff000398ffc006dfbff003fffffc01ffffff0;
   0x3ff8638003f81fe00001f80000ffe2ea0006aaae000eaac630000060a000381818001aae0c80003003300002fff800fffc2c0000c01a000030068003ffe1a000fff8680003181a0006cb0680038221a000fffc680;
   0x3ffc7380071c39e000079e000039ffff0007fffe000700c670000060000038181c001c1ddcc000703330004030100030cc6c003fff1f000fff87c003b761e00019c07c003ffc1f0003df078003fff1f0005554780;
   0xe6380020ef000000f0f00001bbfff00060006000388c63003fffffc00381818000e38cc800030332000e030200030cc2c003fff1a000fff868003bae1a00038e068003ffc1a000fffc68003e2c1a00068d8680;
   0x1e773800007e000003c07c0000f11f00007fffe0001fcfff003fffffc003ffffc000770dd800fff9b600070707000fffdff0000c0ffc00c31bff003ffeffc007ff9ff00175effc00ffffff003c707fc006fdbff0;
   0x3c26380000fe00000f801f0001f83f80007fffe0000f0fff000006000003ffff80003e06f800fff9b60007060e000baedff003ffeffc00df1bff003b26ffc00eff9ff00030effc003063ff003e3c7fc00631bff0;
   0x7867380007f7e0007fffffc01fdff6e003fffffc001e0c67000fffff00038181c0001e07d000e719b60003861c0007bedaf003ffedec001fdb7b003b76dec0050117b003fffdfc0018637b003fff7ec006fdb7b0;
   0x60fe2800ff81fe0039fffbc00e0f467003fffffc00380c63000ffffe0003818180007f80c000e318320003861c000feedab00369edac00631b6b003ffedac001b316b003fffdac0018c36b0038a37ac0068fb6b0;
   0x7fc0000fc007f00100600400fffffd00155555401ffffff000e060700038181c007f3fffc00e71fff0001c61c000f6fdaf0036f6dec007f1b7b001ffedec001b317b00030ddec00fffb7b0038c07ec00605b7b0;
   0x1f8f80008ffff300000600000fffffc000ffffe000ffefff000eaeae0003abab800380fffc00e31bff0000860000030ddab0033b6dac00281b6b000000dac009b316b00030cdac00abab6b0000e07ac007ffb6b0;
   0x1fc07f0000ffff00000060000000001c000fffff000c60575000fffff0003ffffc0031c11e000e7187800155755400164def003ffedbc00fffb6f003fffdec019b316f003ffcdbc0007037b0003f07bc007ffb7b0;
   0x3effffe00001800000aaeaa8003fffcc000e0606000e60060000e06060002abaa80000c03e000fff8f8003fffffc00626def003ffefbc00fffbef002aaafac00fb19ef003ffcfbc00fffbcb000f387bc000303eb0;
   0x30fff1c00001800001fffff8003d75dc000fffff000660060000e0607000001800001ffe7f000fff9fc003fffffc00766d870000c0c1c00471b0f001ffcc3c00f31d0f00030cc1c00fffb0f007ddf61c00fffb0f0;
   0x600000001800000fffff8003fffcc000eaeae000660fff000ffffe000001800001ffeef000ebb9bc00003f8000032cd83001ffec1c00e3fb07001ffcc1c002aa90700030cc1c000303070038e361c00fffb070;
   0xfffff0007ffffc0003060c0003fffdc000f5757000760fff000fffff0007ffffc0001c0df800e71b3c00007fe0000fffd83001ffed5c00765b57001c0cd5c007ff957007ffcc0c00ffff5700077975c00c59b570;
   0xfffff0003ffffc0003860c0003830cc000ffffe000060060000006000007ffffc0000c00d800e31b360000f6e0000fffdff0000c0ffc003f9bff00180cffc006eb9ff003ffcffc00fffbff00039e7fc00cc9bff0;
   0x5d7550000e18700001861c0003fffcc00000600000060060001fffff000555d54003fff1dc00e718370001e6780000f05ff007fffffc003ddfff001ffcffc0064d9ff00000cffc000703ff0019c47fc00d8dbff0;
   0x386180000618600001c63800000300e000aaeaa000060060000fffff000001800003fff0ce00e318330003c63c0001b8783003fffc0c002eeb03001ffcc0c00649903000dacc0c000f8303001cf860c00dffb030;
   0x1c6380000718e00000c6300003fffee000fffff000061f6000000600000001800003fff1c400e71833000f061f0003ec783001d3cc0c006f1f03000e18c0c0064d903001b7cc0c001dc303000f3c60c00d7fb030;
   0xc6380000318c0000046100003fffe600000600000061ffe000006000000018000000c00c000fff831003e06078007267ff001b26ffc00edcfff000638ffc006499ff003b6effc0038e3ff0007807fc00d01bff0;
   0x3fffffc00ffffff003fffffc00007007003fffffc000747ff003fffffc00ffffff0001c01c000fff830003c0603c01e67fff003366ffc01ccffff001775ffc00fffdff003366ffc0078f3ff0001f07fc00c01bff0;
   0x3fffffc00ffffff003fffffc00fffff3803fffffc0007e00b003fffffc00ffffff0000c00c000eab83000100600800c21383003263c0c008faf03003fffc0c00fffd03003267c0c00e03f0300007f60c00f81b030;
   0x555555000000000005555510000000000007e000000000000000000000001c01c000e018300000060000006030300226340c0007850300555540c0000010300706340c0040190300000640c007819030;
   0x0;
   0x0;
   0x0;
   0x0;
   0x0;
   0x0;
   0x0;
   0x0;
   0x0;
   0xc00600000001800007006000600018000000060000700180000000600000e0180000000c0000038000001c0000000038000000601800000e0040000c00000040007000040001000003030000007000000000000;
   0xc0060000000180000300e000600038000000060000300180000000600000e0180000000e000003e00000180ff800003000000062ba80000c01e0000e3ff8007e0030000ffa07800003030000006000001ff0000;
   0xc007000fff81c0000700700060001c007ffe0700007001c000ffe0700000e01c0000000600001ff80003ffdff800fffffc000073ffc00fffffc000063ff8007fffff0007ffff0007ff830003fffffc001ff3ff0;
   0xc0ff000fffbfc000031ff000618ffc003ffeff0000303fc001ffeff00000effc000007ff0000fc3f0003ffc81800fffffc003ff018000aebaa0003ff0e200000efff000030880007ff830003fffffc001833ff0;
   0xc0ff8007007fe000071ff800618ffe007fffff8000703fe001ffeff80000effe000007ff0007fffff000c31ff80000c30c003ff9ff8001e1c07003ff07f00000e1dc00003001c00605dff001575d54001c30300;
   0xc001c00300006000030ab80061800e000300018000302ae000e00ab80000e0060000000380061ff8e000630ff8003ffffc000c18ba8003fff0f000c18f8000aae0ce003fffe3c0060efff000030c000018f0300;
   0xc001e0038000700007001c0061800700030001c0007000780070001c0000e00780000001c00055d50003ffe0180075d75c000c3d5d4007fff1c000c7fffc00ffffff003ffff700063c7300003b0dc001ddf8300;
   0xc000c001c000300003000c0061800300030000c0003000300030000c0000e003000000008000ffff8002babff8003aebac000e7bffc00288220000eebffc00bafffe000038080006b0030000730ce0009b9bb00;
   0x3fff7fc000e03ff0000f1ff400618fff000300ffc000701ff0003807fc0000e7ff000001ff800075dd00001c1ff8007ffffc0007e00e00018c6700007c33c0001861c00001fe1c0006fc030000e30c7001df1ff00;
   0x3fff7f8000603fe0001f1ff000618ffe000300ff800fffdfe0001807f80000e7fe000001ff8000398c0003ffd8780030c0cc000381fe00018c630000781be000186fe00003cf8e00063fbb0001c34c3800f81cff0;
   0x3fff0c0000700700003f0180006180e00003001c000fffc700001c00c00000e060000000180007ffffc003ffdd7c007fdfcc0007f1d700198c71c000fe133c00187fff000f07f70007079f000183fc3800f83c1f0;
   0xc00c000060060000730180006180e00003000c0000300300000e00c00000e060000000180003ffffc00018ffee00c3cace001efa8300098d3cc001cfc30c001870cf001e0ee38003038ff00001f80000007e000;
   0xc00c000070070001e70180006180e00003001c0000700700000600c00000e060000000180000700600001dfd4400d5ffec003c17fbc00f8fdcf00383f3c400183dc000181f01c003f3e1f0000f9f000003e7c00;
   0xc0ffc000607ff003c33ffc00618aea000301ffc000303ff000070ffc0000efff000003ffc000f81f800003fe0000ffffee00101fa8c0070fe0600003fdc00018ff0000007be08000ef780000fe07e0003f81f80;
   0xc0ffc000707ff003873ffc00619fff000301ffc000703ff000030ffc0000efff000007ffc007de79c0007f0fc00001fc6e0000fdf040007e7c00001f9fc00007e7e00007f0fc00007c3e0007f7fffe01ffffff8;
   0xc0ae8000602ea001032ba800618fff000300ae8000302ba000038ae80000e2ea00000018000ffffff807fffff8000f8f8e000feafe000ff80fc003feabf8003faafc007fffffc003ffff800387fe3c00e3ff8f0;
   0xc00c000070070000070180006180e00003001c00007007000101c0c00040e060000000180007ff1ff003c7ff7c00fffff6003fffffc00ffffff003ffff7c01fdffff003c7fe7c01fdffbf800006000000018010;
   0xc00c000060060000030180006180e00003000c00003003000301c0c000c0e0600000001800002006000000600000f3ff7600380603c0080180200200600c0080180300000600000801807000006000001ffff80;
   0xc00c000070070000072180006180e00003001c00007007000300c0c000c0e06000000018000fff7ff0007ffff0000030060007fffe0001ffffc000fffff0001ffffc0007fffe0001ffff80007fffe0001ffffc0;
   0xc0cc000060660000033980006008e00003008c00003023000300e8c000c0e86000000218000fff7fe0007fffe0001fffe60007fffe0001ffff8000ffffe0001ffff80007fffe0001ffff80002aeba0000618600;
   0xc0fc000070770000073d8000601ee0000301dc0000707f000300eec000c0ef60000003d80007773640001c6380001775c70001c6380000718600001c6180000718e00001c6380000718c00001c6380000718e00;
   0x2aeabe0000603e0000030f8000600fe0000300fc0000303f000380efc000c0efe0000003f800032636c0000c6300000631830000c6300000318c00000c6300000318c00000c6300000318c00000c6300000318c00;
   0x7fff9e0000741f00000707c0007503f00003f07c0000701f8001ffc3e000ffc1f00000007c000fffff40015f775400577753003fffffc0057ddd4003fffffc0057ddd50015f775400ffffff001fffffc00ffffff0;
   0x3fff8e00007e0380000300c0007e00e00003f00e000030038001ff80e0007fc0700000001c000fffbff003fffff800fffffb803fffffc007ffffe003fffff8007ffffe003fffff800ffffff001fffff800ffffff0;
   0x200003c010000070040003e00200001f004000070010000000040000000100000000400000000700000000000555551000000000000000000000000000055555500155555400000000000000000000000000].
Definition hanzi_rows_188 : list N :=
  [0x0;
   0x0;
   0x0;
   0x0;
   0x0;
   0x0;
   0x0;
   0x0;
   0x0;
   0x600000001c0000c0060000300180000e006000030018000000060000380180000000600000001800000006000000018000000060000380180000060700000c01800000006000100018001000060002000180;
   0x2aaa060007ff81c0000c0060000300180000e006000030018002aaa0600003801800000006000fffc18002aaa06000000018000ffe06000018018003fe60700000e0180007fe0600038001800380e060007e00180;
   0x3fff070007ff80c0000c00700003001c0000e00700003001c003ffe0700003801c003fff07001fffc1c003ffe07000fffc1c001fff0700001801c003fee0700000e01c0007fe070001c001c0039ce070007ffc1c0;
   0x3aab7f0006abbfe0000c0ff0000303fc0000e0ff0000303fc003ffeff0000381fc003fffff000ababfc003ffeff000fffffc000faaff0000183fc00380c7f8000067fc00060eff0000e07fc0038ceff00003fbfc0;
   0x3f037f800601bfe0000c0ff8000303fe0004e0ff801fffffe00000eff8000381fe0001c0ff8000703fe000e18ff800f55ffe000780ff80001c3fe00381c7f8005577fe00060eff8000787fe0039ceff8000313fe0;
   0x3b0301c006318060000c001800030006000eec01800fffc0700000e018000380070000c0ab800030006000e18ab800e018060001c0ab80000c00700381a01c00fff00600060e01c0003e0060038ce018000300070;
   0x3b1f01e00631807003fff01c00fffc07001cee01c0003000780000e01c000380078000c001c00071807000e1801c006198078000f001c01fffc0780380701c00fff00700060e01c0001f0070039ce01c000300078;
   0x3b1b00c00631803803fff00c00fff8030018ee00c00030003000aae00c00fffe030000e000c00ff1803000e1800c0063b80300007800c00fffc0300380300c00e0380300060e00c002020030038ce00c000300030;
   0x39bb7fc006319ff0038c77fc00c31dff0018e6ffc00631bff001ffeffc01ffffff0003e07fc00ff19ff000e187fc007731ff00555c7fc0175f5ff0038077fc00e01fff00061e7fc00f003ff0039ce7fc000301ff0;
   0x39b37f8006319fe0038c37f800c309fe0038e6ff800631bfe001ffeff800ababfe0003f07f8000319fe000e187f8003631fe003ffe7f8003061fe0038033f800e00ffe00063e7f8007803fe0038ce7f8000301fe0;
   0x39f30c0006318300038e70c000c31c300030e70c000631830001c0e1c0000380300007f00c000071830000e180c000367030007ffe0c0003070300038070c000e04c7000067e0c0003c00700039ce1c0005754300;
   0x38e30c0006398300038e30c000c308300030e30c00063183000180e0c000038030000ef80c000031830003fff0c0003860300036600c0003870300038030c000e0e03000066e0c0001e00300038ce0c000fffc300;
   0x38c30c0006318300039e70c000c31c300010e30c000631830001c0e1c00007c030001cdc0c000071830007fff0c00018e0300037300c0001870300038070c00061e0700006ee0c0000780700039ce1c001fffc300;
   0x38e3ffc00639bff0039e37fc00c30bff0008e2ffc00631bff00180effc000783ff0018dcffc00fffbff002ebaffc0018e3ff0033387fc001833ff0038037fc00e387ff0006ceffc0003e7ff0038ceffc000303ff0;
   0x39e3ffc00639bff003bf77fc00ffffff001ce0ffc00631bff001c0fffc0007c3ff0038ceffc00fffbff000e18ffc001dc3ff0033187fc001c3bff0038077fc006787ff0007c6ffc0001f7ff0039ceffc000303ff0;
   0x39e3ae800639aba003b332e800fffaba000ce0ae8007ffaba001ffeae8000ec2ba0030c7ae800c002ba000e182e8000f82ba00319c2e8000c3aba0038032e8006702ba000686ae800c022ba0038ceae8000302ba0;
   0x3b730c000619830003f3f0c000c31c30000ee00c0007ff830001ffe1c0000ce0300010c70c000c00030000e180c0000780300031ce0c0000cf0300038070c0006600700006060c000e000700039c61c0000300300;
   0x3b330c000619830003e3b0c000c308300006000c0006ba83000000e0c0000ce0300000c00c000c00030000e180c0000780300038c70c0000fc0300038030c0006000300006060c000f000300038c60c0000300300;
   0x3f3b0c00045d030003e1f0c0000300300007000c00063003000000e1c0001c70300000c00c000c00030000e1c0c0000780300018e30c0000780300038070c000600070002607cc0007800700039c69c0000300300;
   0x3a1b0c0000ec33000380b8c0000302300003808c00003023000000e8c00038f3300000c08c000e00230000e0c0c0000fc0300018608c0000f82300038034c000600630006607ec0003c06300038c6cc0000302300;
   0x381f6c0001ce3f0003807ec0000303b00001e1fc001c303f000000ffc00031fbf00000c0fc000e003b0000e0e7c0001de3f0001870fc0003fc3f0003807fc0007007f00066077c0001f07f00039c7fc0000303f00;
   0x380bfc0003870f0003803fc0000303f00000f87c000c301f000000efc00073bdf00000c07c0006003f0000e0e7c00038f1f00018387c00079e1f00038033c0006003f0002603bc0000783f00038c33c0000303f00;
   0x3d033e000f03c78001f073e0000300f800007f1e001d70078007ffe3e000e71e780000c01e0007500f8000e071f000f07cf8001c1e1e000f0fc78003d071e0007501f0007e01de00001f1f00038039e0000300f80;
   0x1f030e001e01f38001f030e00003003800000f8e000ff0038003ffe0e000c20f380000c00e0007f0038000e038e000e01e38000f8e0e000e03c38001f83060003f0038003e01e600000f8380038038e0000300380;
   0x1f0304000c00608001f0700000030018000003060007e000800000004000c006080000c0040003f0010000e010200040041800078000000400c08001f07020001f0010000000c0000001010003801840000300080;
   0x0;
   0x0;
   0x0;
   0x0;
   0x0;
   0x0;
   0x0;
   0x0;
   0x0;
   0x600003001c0000c0060003030180000000600005c0180000000600000001c000000070003800180000c0060000180180000300600000e0180000e00600000c018000010060000000180000c0060007000180;
   0x600003001c0000c006000303018000000060000ec0180000000600000001c000aaa070003800180000c0060000380180000300600000e0180000e00600000e018000030060007ff0180000e006000ff80180;
   0x7fff0700003000c0000c00700030301c003fff070003dc01c003fff07000fffc1c001fff0300038401c0000c00700003001c0000700700000701c0000700700000e01c000038070007ff01c0000e0070007ff81c0;
   0x3fffff0000303fe0000c0ff0003033fc003fffff00030c3fc003ffeff800fffbfe001aeaff80038e3fc0000c0ff0000301fe0000e0ff0000073fc001ffeff0000063fc000038ff0006ab3fc0001f07f00000f9fe0;
   0x1c00ff8000303fe0000c0ff8003033fe0001c0ff80001c3fe0001c0ff800e31ffe001870ff80039c7fe0000c0ff8005555fe000060ff800fff3fe001ffeff800fff3fe001559ff8006077fe0003b07f8000019fe0;
   0xc0001800aba8af0000c001800fffc06000180018007ec0060000c001c00e3180700187001c003b80060010c001800fffc07003fff81c00fff806000c0e01c00fff006003ff801c0060300600033801c000018070;
   0x1c0001e00fffc07007fff01c01fffc070001c001c007ffc070001c001e00e31c07001c7001c003f00078038cc01c00fffc07803fff81e00f55807001c0e01e00d57807803ffc01e0060700700071c01e000018078;
   0xcfe00c00fffc03803fff00c0030300300018000c0003f8030000c000c00e3180380183000e003800030038cc00c0000c00300000000c00e01c03000c0e00c00e0380300380c00c00603003000e2e00c000018030;
   0x1cfe7fc000fc1ff0000c07fc003031ff0001c07fc0001d5ff0001c07fc00e31dff001c707fc003803ff0018ce7fc0000c1ff0000007fc00e0cfff000c0effc00c01dff0018ceffc007ff3ff001c777fc00fff9ff0;
   0xcc67f8000fc1fe0000c07f8003031fe00018e7f8000181fe0000c07f800e319fe0018307f8003833fe001cc67f80000c0fe0002aa7f800e0cffe000f8eff800e069fe0018c6ff8007ff3fe0038e3ff800fff8fe0;
   0x1cc60c0000f60300000c00c0003030300001ce0c000fd80300001c00c000e31c30001c300c000387070000cc60c00000c0300007fe0c00060e43000078e0c000e1e030001cc71c0006070300031c30c0006078300;
   0xcc60c0001b60300000c00c000303030003f8e0c000ff8030003ffe0c000e31830000fff0c00038e030000ce60c0007fe0300003ae0c000e0603000000e0c000e3c030000cc20c0006030300001800c00060d8300;
   0x1cc60c0001b70300000c00c000303030003fce0c0001ffc30003ffe0c000fffc30001fff0c00039c0700006e70c0007fe03000070e0c00063703000000e0c000e780300000c01c0006070300000800c00070d8300;
   0xcc6ffc003b33ff000aeaffc003ff3ff00018effc0041bfff0000c0ffc00fffbff000c38ffc003883ff0000e2ffc0060e1ff00030e7fc006633ff003ffeffc00e303ff0000e0ffc006033ff001fffffc0030d9ff0;
   0x1cc6ffc003333ff001ffeffc003ff3ff0001ceffc00e383ff0005c0ffc00e01fff000c38ffc003807ff0001e0ffc007061ff00070e7fc006633ff003ffeffc00f003ff0001e1ffc007ff7ff000fffffc0031ddff0;
   0xceeae8003338ba001aaeae8003032ba00018eae8006382ba000ec0ae800e01aba000c38ae800f802ba0001e0ae8006060ba00030e2e800663aba003800ae800ec02ba0001e0ae8007ff2ba000e002e8003998ba0;
   0x1cfe0c000731c300018060c0003030300001ce0c000730030000dc00c000001c30000c180c001ffc0700001f00c00070603000070e0c0006ffc300030000c0007f00300001e01c0006070300006000c0001b9c300;
   0xcae0c000e30c300018060c00030303000018e0c0003b00300018c00c000001830000c180c0003ff8300003f00c00070603000030e0c0006ffc30003aaa0c00063c0300003f00c0006030300006000c0001f1c300;
   0x1c060c001fffe300018060c0003030300001ce0c0001f00300019c00c000401c30000c180c0003878700003300c0007071300007060c0007c1c30003bff0c00061f0300003701c0006030300007000c0000f1d300;
   0xc004c000bff7300018068c00030323000018e8c0000f03300038c0cc001801b30000e184c0003800300003388c0003033b00063066c000600230003aaa8c000607bb00007388c000603a300003808c0000e0fb00;
   0x1c007c0001755f0001806ec0003033b00001ceec000c7c3f00001c0fc001c01ff0000e1c7c00038037000071cfc0007039f00067077c0007003b0003800fc0006019f000061dfc000601bf0000380fc0001f0df00].
Definition hanzi_rows_189 : list N :=
  [0xc003c0000300f8001ffefc0003ff3f000018efc0008fe1f00000c07e000c018f0000e1c3e0003803f0000e0e7c0003018f8002303be0007003f0003800fc0006000f8000e1cfc0006019f8000180fe0003b8ef80;
   0x1d401e000030078001ffe3e0003ff0f8007fffbe000dc7c78007fff1f000fff878007fffde0003801f0003c0f1e0003d1c7c007703de0007500f8001c403f00075007c001c0f3e0007e1c7c0001c03e000f9e67c0;
   0xfc00e000030018001aae0e000303038003fff8e000f81c38003fff0e000fff838003fffce0003800380038038e0003f0e18003e01c60003f0038001f800e0003f80180038078e0007c0e380000e00e000e0f7180;
   0x7c00200003000800180604000303010000000060007000000000000200000000800000002000380010003001020001f0408001e00c20001f0010000f80020001f0008001003000001c04080000c0060004076080;
   0x0;
   0x0;
   0x0;
   0x0;
   0x0;
   0x0;
   0x0;
   0x0;
   0x0;
   0x10070000300180000400600001c01800001007000000018000800070000300180000e0070000700180000c00600000001800000006000000018000000060000380180005c00600008e018000060070000000180;
   0x838070000300180000e006000038018000038030000aa018001fa0070000300180000e0070000330180000c006000aaa818003ffe060002aa818001ffe06000038018000ec0060000ce01800006007000aaa8180;
   0x1cf00700007001c0001c00700003801c00151e030001ff01c001ffe0700007801c0000600700007301c0000c007000fffc1c003fff070007ff81c001ffe0700003801c001dc0070003ce01c00007007000fff81c0;
   0x1de0ff8000601fc000180ff0000301fc003f87bf8001ab3fc0000be7f8000783fc000060ff0000333fc0000c0ff000fffbfc0038c6ff0007ffbfc001aaeff0000383fc001880ff00030e3fc0000307f800fffbfc0;
   0x1dc0ff800fffdfe007fffff801fffdfe003f93ff8001873fe0000067f8000fc3fe001574ff8000733fe0000c0ff800e31ffe0038c7ff800703bfe001806ff8000387fe0019c0ff80070e3fe007fffff800001bfe0;
   0xc0001c00fffc07003fff01c00fffc070031b381c001830070000c6018000ce006001ffeab800fff8070000c001800e318060038c60180060380600180601800ab8006002baa0180020e007003fff818000018060;
   0xe3001c00c00c07807fff01e000300070031b381c001870078000c701c001c7007001ffe01c00fff807803fff01c00e31c070038c701c0070380700180601c01ff8007007fff01e00fffc0780001801c000018070;
   0xe3000c00c00c0300006000c000300030031b380c001830030000c200e0038380300180600e00031803003fff00c00e31803003aee00c0060380300180600c00ff8003002bae00c00fffc030000d800e007f98030;
   0x7307fc00c05dff0004707fc000301ff0031b3bfc001831ff0000c77fc0071fdff0018067fc00071fff0038c77fc00e31dff003fff7fc007039ff001ffe7fc000383ff0001877fc000061ff0001dc7fc007f99ff0;
   0xf367f800c03dfe000c307f800fff9fe0031b3bf8001839fe0000c37f800e39ffe0018067f800030ffe0038c37f800e319fe003ffe7f8007ff9fe001ffe7f8000383fe0039867f80000e1fe0000ce7f8006199fe0;
   0x1f370c000007030000e380c000fffc300031b38e000f81c30003fff8c000c70e700018061c0000708700038c70c000e31c300038c70c0007ff8700018061c0000380300019870c000556030003fff0c0007198300;
   0x1bb20c000303030000e180c000e318300031b38e000f00e30003fff0c0000200300018060c0000300300038c30c000fff8300038c60c0006038300018060c0000380300019860c000ffe030003fff0c0006198300;
   0x19b70c0007c70300007dc0c000e31c300031b38e000000c300000c10c0003550700018061c000fffc700038c70c000fffc300038c70c0007038700018061c0000380300019870c0007fe030003ddfcc0007198300;
   0x39f3ffc003e33ff0003feffc00e319ff0031b3bfc003ffbff0000c07fc007ffbff001ffeae800ffffff003fffffc00ebbbff0038c6ffc00603bff001806ffc007ffbff001986ffc0060e3ff0038cfffc00619bff0;
   0x30f3ffc0007f3ff0001feffc00e31dff0031b3ffc007ffbff0000c07fc007ffbff001ffeffc000703ff003fffffc00e31fff003fffffc00703bff001ffeffc007ffbff001d87ffc0071f3ff0039ceffc00719bff0;
   0x30f3ae80001f2ba0001c0ae800e318ba0031b3ae800303aba000ece2e8003802ba001806ffc000782ba0038c32e800e31aba003ffeae800603aba001ffeae800601aba000f862e80031b2ba0038ce2e800619aba0;
   0x70738c0000070300004e00c000e31c300031bf8e000703830001cc60c0001c00700018061c0000780700038c70c000e31c300038c70c0007ff8700018061c000601830000f070c00039b0300039ce0c0007f98300;
   0x300c0000030300006600c000e3183000319f8e000303830001cc60c0001c00300018060c0000f80300038c30c000e318300038c60c0007ff8300018060c0006018300007060c0001bb0300038ce0c0007f98300;
   0x8380c000407030000e700c000f31c30003f9f8e0007038300018c70c0000e60700018061c0000dc0700038c70c000e31c300000c00c0000000700018061c0006018300007370c0001f38300039ce0c0000018300;
   0x183c6c001c03230000c388c000fb1930001f98ae000303a300038c34c00006e230001806cc0001ce2300038c30c000e31a300000c0cc0000002300018068c000601a3000233e0c0000e1a30003ace4c000001a300;
   0x183e7c001c073b0001c1cfc000731df000019c7e000703bb00030c3fc00007c3f0001806fc00038f3f0003dd7fc000f75ff00000c0fc0000003f0001d56fc000601bb000779f7c0001f1fb0001fce7c000001bb00;
   0x18373c000c033f0003ffe7c0000301f800018e3e0003ffbf00030c1be0000783f0001ffe7c0003873f0003fff7c000fff9f00000c07c0000003f0001ffefc0006abbf00027cffc0003f8ff0000aca3e000001bf00;
   0x1ff79e000d570f8003fff1e00003007c0001871f0007ff8f80010c11e0000f00f8001ffe1e000f03cf8003fff1e000fffc780000c01e001fffcf8001ffe3e0007ff8f8003ee71f0007bcef80001c01e001fff8f80;
   0xff186000ffe03800300e0e000030038000183870003ab8380000f8060001c00380018060e000e01e380038030e000e018380000c00e000fffc380018060e0007ff838003c710e000e0e7380000c006000fff8380;
   0x540020007fe0180010000200003000800018180000703818000078020000c001000180604000400c1000100700000401c080000c00000000001000180604000601818001830020004042180001c0020000000180;
   0x0;
   0x0;
   0x0;
   0x0;
   0x0;
   0x0;
   0x0;
   0x0;
   0x0;
   0x30000700003001800000006000000018000000060000000180000c00600000001800001c0700000001c0000e006000160018000060060000000180000700700000c018001800060000000180000c0060000000180;
   0x300003000e30c18003fff060007ff818000ffe06000fffc180000c006000aaa81800001803000feaa0c0000e006000360018000060060000000180038600700040c01800187f820002aa8180000c0060007ffc180;
   0x337fc3000e30c1c003fff070007ff81c001ffe07000fffc1c0018c707000fffc1c00001803000ffff0c0000e00700066001c00007007000fffc1c00387007000e0c01c001b7f83000fffc1c0000c0070007ffc1c0;
   0x332aff800e30dfe003aab7f8007abbfc000c067f000eaaffc0018c6ff000fffffe001ff87f800c6eafe0000e07f000c601fc000030ff000fffffc001aea7f8006ffdfc001b3bbf8007ffdfc0000c0ff000600dfc0;
   0x3370ff800e30dfe0038c37f800703bfe001c067f800c01ffe001cc6ff80001c3fe001fff7f800c666fe001fff7f8005755fe007fffff8003033fe001ffe7f8007ffdfe001b333f8007071fe003fffff800601dfe0;
   0x3326c1c00e30c070038c301c00703806000c0601800c00c07000cc60180018c2af00083f00c00666607001fff01800fffcae003fff01800303006000ffe01c0038c0ae001b332bc00386006003ffe01800600c070;
   0x3376c0c00fffc038038c301e00703807001c0601c00dffc07800cce01c0038e007801c3000c006666038004e401c00fffc0700001801c00303007800e7001c001cc007001b3300c001ce0070030c701c00601c078;
   0x3326c0c00fffc038038c300c007ab803000c0600c00cfec03000ccc00c00306003800e7000c00666603000ce600c00060c0380001800c003ff00300076000c000cc003001b3300c000fc0030018c200c007ffc030;
   0x3376dfc000001ff003dd77fc007ff9ff001ffe7fc00c01dff0006cc7fc007d71ff0007e03fc007666ff000ce67fc00460dff00155c7fc003ff1ff0007707fc01ffffff001b333fc0007c1ff0018c77fc007ffdff0;
   0x3326df8000001fe003fff3f8007ff9fe000ffe7f800c00dfe0000c07f800fffdfe0031e03f8003662fe000eee3f800ce0cfe001ffe7f8003031fe003fff7f800fffefe001b333f8001fe1fe0018c27f800000dfe0;
   0x3376c6000fffc30003d570c000030030001ffe0c000cfdc30001fff0c001d7fc300031fc0e00037ff180006ec0c000cffc38001fff0c000303070007fff0c00003c038001bffc60007c7c30001fff0c00001dc300;
   0x3326c6000fffc300038630c0000300300000000c000cfcc30001fff0c000c20030003fbf0e00067ff180006ec0c000effc3800180f8c0003030300000e00c00001e038001bff86000f2be30001ffe0c00020cc300;
   0x3376c6000f554300038e30c000fffc300000000c000ccdc300018000c000030030001f070e0006678180004e40c0006dcc38001d5f8c0003030700000700c000fff038001b3306000c38430001fff0c00071dc300;
   0x3326ffc00e003ff0038e37fc00fffbff000aaa7fc00cccdff001800ffc000302ba0008003fc00e678ff003fffffc006c8c38001ffdffc003ff3ff0008387fc00fff9ff001b333fc000381ff000c1b7fc0038cdff0;
   0x3376ffc00e003ff0039e37fc00c31fff001fff7fc00ccddff001800ffc000303ff003fffffc00c679ff003fffffc007dcdff001ffcffc003ff3ff001c3c7fc00007fff001b337fc007ffdff000c1f7fc001fddff0;
   0x3326ee800eaa8ba0039a32e800c31aba001fff2e800ccccba001aaaae800fffaba003fffae800c668ba0000e02e8003c8dff00180c0e8003032ba000f3e2e800003fba001b332e8007ff8ba000e3b2e80007ccba0;
   0x3376c6000fffc30003b330c000c31c300018030c000cddc30001fff0c000fff8300017dd0e000c66c180001f00c0003dcc38001c1c0c0003030700007ff8c000003738001b33060000380300006730c00001cc300].
Definition hanzi_rows_190 : list N :=
  [0x3326c6000fffc30003b3b0c000c318300018030c000cfcc30001aaa0c0002ba8300003980e000c66c180001b00c0001cce38001ffc0c0003030300000fb0c0003ff038001b33060000380300007630c00000cc300;
   0x3377c6000001c30003e1f0c000c31c300018030c000cfdc300018000c00003003000039c0e000c666180003b80c0001cfe38001ffc0c001fd30700000790c0003ff83800183306000fffe300003e30c00001cc300;
   0x300b06000001c30003e0f0c000c31a300018036c000c0cd300018000c00003033000039c0e000fe66180003386c0009efeb800180c8c000ffff300010384c00030003800183186000fffe300001c34c00080ce300;
   0x301f16001c01df00038037c000fb1ff00018037c000c01df00018007c0000303f000739c7e00076675800071c7c0019e57f8001c1cec0003ffff0007038fc0003001f8001831f6000fffff00003e1fc001c1cff00;
   0x3039be000c01df8003aab7e000fb1bf0001fff3c000c00cf8001fff7c0000300f800238e3e0000663f8000e0e3c0009b06f800180cfc000300cf00030383e0003801f8001831be0000383f00007f1be000c0c7f80;
   0x3071cf000fffc7c003fff1f000731cf8001fff1e000d41c78001fff3e001fffe7c0077871f00006757c003c079e000f3877c001c1c3e0003000780035701e00038007c001d31df00003807c001e7ddf000ffc77c0;
   0x3f60f3000fff838003aab07000030038001aab0e000f80c180018000e000fffe18003f03c700006780c003803c6000f1c318001f0c0e000300038003ff0060001fc038001f30e6000038038003c1ec6000ff87180;
   0x1f006100015400800380302000030008001803020007c1c0800180000000000008001f01800000638000010018200060c108000f1c02000300010001ff0020001fc00000073000000038008001004c20005506080;
   0x0;
   0x0;
   0x0;
   0x0;
   0x0;
   0x0;
   0x0;
   0x0;
   0x0;
   0x600001c01c0000000600001c01c0000c0060000100180000600600000c01800003006000018018000030060000ee018000060060006000180001c006000077018000c000600040001c0001c0060000300180;
   0x1ffe0600003801c000ff8c600003801c0000e0060000380180000e00600000e01800003806000018018000038060000ee018000060060007008180000e006000063018001f8006000f83f1c0000d8060000330180;
   0x1ffe0700003800c001ffdc700003000c0001c00700003000c0001c00700015601c0003f80700001c01c001558070000ee01c0000f007000383c1c0001e00700067301c001fff07000ffff1c0001dc0700003701c0;
   0x1806ff000aba9fe000e03bf0000301fe003fff7f8000301fe0000c07f0003fe3fc0007fc7f0007fe3fc003ffcff0000ee1fc0000f07f8001cf9fc0001f0ff000e639fc0000feff0000fbafe0000ccff0000333fc0;
   0x1c06ff800fffdfe0007073f800fffdfe003fff7f8005755fe003fff7f8001ff3fe00075c7f8007ff3fe001ffcff8004ee5fe0001f87f8001fe1fe0003b0ff8007719fe0000c0ff8001c18fe0015dcff8000337fe0;
   0x180601c00eaac0700038001c00fffc0700000801c00fffc07003ffe01c001c380600038e01800707006001c0e01800eeee0600039801c000f800600073801c003e1c060000c0018000c1806003ffeab8007ff8060;
   0x1ffe01e00c18c038001c000c0001c007000c1c01e00fffc0300041001e000c1c0700018701c00303807000e1f01c006eec0700071c01e001fc007000e1c01e001f1e070000c001e001c1c07003ffe01e007ff8070;
   0x1ffe00c00c38c030000e000c0018e003000e1800c00038003000e3800c00aeae03001fff80c00381c0300063b80c007eec03000e0e00c0078f803001c0e00c000f1e03001ffe00c000c0c038000c600c000318030;
   0x1c067fc00c18dff000070dfc001861ff0006387fc0003c1ff000c1c7fc00ffffff001fff7fc001c7dff0007f1ffc003ef9ff001e077fc00707fff0078077fc0007dfff001fff7fc001c0eff0001c77fc00031dff0;
   0x18067f80001c0fe003ff9df8003071fe003fff3f80003c1fe001c1c7f800fff9fe0018603f8000ce1fe0003e07f8001ef8fe003bffff800030cfe003fffff800c7fafe0000c07f800ffbefe0000c37f800030dfe0;
   0x1c060c00001c030003ffb860007ff830003fff0e00043e03000380e0c000e71830001c600c0000fc0700001f00c0001ef0300017fdcc000030030000ffd0c000c758380000c00c000ffff180001c00c000030c300;
   0x1ffe0c000fffe3000366306000fffc300000030e000e270300032060c000e31830003aea0c0000780300007f80c0000ee0300000008c0000300300000c00c000c618380000c00c0000c3118003fff0c0000300300;
   0x1ffe0c000fffe3000376006000c1fc300000070e00077783000761f0c000e71830007fff0c00003c070001f3f0c0000e60300000000c000fffc300000c00c000fe18380015d50c0001c7018007fff0c000fffc300;
   0x66ffc003861ff003b303fc004c63ff0000037fc003e7dff00063a7fc00e31bff003fff7fc0001e3ff007c0fffc001ee1ff0000007fc00fffdff0000c0ffc002819ff003fffffc000c32ff002bbaffc00ffffff0;
   0x10c6ffc003871ff003b333fc000c63ff0000077fc001e7fff0007307fc00fffbff001c607fc007ff3ff0075577fc003e79ff000fff7fc000301ff0000c0ffc000381ff003fffffc001c37ff000338ffc000fc3ff0;
   0x38c6ae8001830ba003bbbae8000c60ba0000032e8000c66ba0003302e800fffaba0018602e8007ffeba001ffe2e8007e7eba000ffe2e8001320ba001ffe2e8000380ba000070ae8000c36ba000338ae8000fc2ba0;
   0x1fc60c0001c783000199d860000c60300000030e0001c60300003f00c000555830001fff0c000607c70001ffe0c000ee6e30000e070c000337030001ffe0c000fffe380002300c0001c3e180003180c0001fc0300;
   0xf860c0000cf83000198d860000c60300000030e0001860300001e00c000001830001ffe0c0006060300018060c000ce6230000e060c0003338300000c00c000fffe380007380c000ae9e180003180c0001be0300;
   0x3860c0000fe0300018cfc60000c70300000030e0001860300001c00c000001830001d750c000607070001c060c0004e7030000e070c0007318300000c00c00057d4380006180c001ffdc180003180c0003370300;
   0x3068c0000781300018e4e60008c73b0000003ae0003863300001e04c000801a300008600c0006062300018068c0008e3030000e060c000e318300000c00c000038138000e1ccc000ffdcd80023180c000733a300;
   0x706ec0001f81f0001c70fe001cc33f0000003fe0007463f00007f0fc001c01bf00000607c0006073f0001c06ec001ce39f0000e077c001c31df00000c0fc0000381f8001c0cfc000003df800631c7c000e33ff00;
   0xee6fc0003de1f8001c30fe0008c38f0000001be000e7e0f8000f383c000c01bf00000607e0006ae3f0001ffefc000ce19f8000eae7e000c30ff80000c07e0000380f8001ffe3c00000f67800630e7c000e31ff00;
   0x3cff3e000f0fc78001d3cef001fc1e78000001df001e7f078001e1e1e000fff8f80000601e0007ff0f8001ffe3e000dc1e78000fff1e000030478003fff1e000038078003fff1e001ffe71c0073071e000c30cf80;
   0x383f0e000e03e38000f9c43000fc0e18000000c600040f81800380f0e000fff83800007c0e0007fe038001aae0e000fc0e38000ffe0e00003e038003fff0e00003801c00300e0e000ff8388003f038e0000300380;
   0x100700000400c0800078801000500608000000c20000010080010030200055401800007c02000607010001c06040007c0608000e070200001c0080000000200003800800100000000000180001e01000000300080;
   0x0;
   0x0;
   0x0;
   0x0;
   0x0;
   0x0;
   0x0;
   0x0;
   0x0;
   0x1c0006000030018000c000600006c0180001c0060000000180003000700000001c000000060000300180000c0060000060180001c0030000e001c0000e0070000000180004c00600018701c0000600600000181c0;
   0x3fe806000030018001fe80600016e0180000cc060007ff818000300030007ff81c001ffe060006308180030c206000ffe0180000c0830003e000c0000e007000fffe18000ec00600018600c0000600600000180c0;
   0x1fff0700033301c0007ff0700036fe1c0001cc070007ff81c00031f830007ff80c001ffe07000631c1c0038c707000ffe61c0000c1c38007e000c0000e003000fffe1c001cc00700018700c00007007000ff180c0;
   0x80eff000333bfc0000c27f000363ffc0000ceff000601bfc00031fbf800601bfe0018c6ff000333bfc0018ceff000e366fe003ffdbf800ee00fe003fff7f80000c1fc0018c07f000fffefe003fffbf800fe18fe0;
   0x1864ff800331bfe0000c07f8006631fe003ffeff800701bfe000319bf800701bfe0018c6ff8003333fe001cccff8006366fe003ffdbfc004e00fe003fff7f80000c1fe003fff7f801fffffe003fffff800ff1cfe0;
   0x18c601800331806003fff2b800e630ae003ffe0180060180700031981c006018070018c6018001b3007000cccab80063660700006380c00ffff07002aea01c0000e0af003fff0180018600700003001c00e6aa070;
   0x1cc601c00331807003fff01e004630070015d701c007ff807803fd980c00701807001ffe01c001320078004cc01e007766070003f100e00ffff038018e700e003ffc078000c001c0018700300157501e00e7ff030;
   0xccc00c003b18030003f000c000630030000c300c007ff803003fd980e007ff803001ffe00c007ff8030000c000c003666030003b000e000c00030018e600c003ffc030000c000c00082003001fff00c00e6fe038;
   0xddc7fc003b39ff0007f87fc01fffeff0001c3ffc005751ff00375fbfc007ff9ff001dd67fc007ff9ff003fff7fc003c66ff0003b81fc000c18ff000ce67fc003861ff001fff7fc00fffeff001fff3fc00e7ccff0;
   0xc187f8007b39fe000edc7f800fffefe0000c27f8000301fe00331fbf8002aa9fe0018c67f8006ab9fe003ffe7f8001c66fe002bbabf8000c78fe000eec3f8003861fe001ffe7f800fffefe0000383f800e6ccfe0;
   0x6000c0007f7c30001ccf0c000063038007fff0e000030038003319860000000300018c61c0007118300038070c0003e6618003fffe60000ce0180006fc0e0003870300018c70c000d55618007fffc6000e7cc180;
   0x6000c000efec300038c78c000663038003fff0e000fffc3800331986000aaa8300018c60c0006318300038060c0007f6618002babe60000cc0180000e00e000bafa300018c20c000c08618003fffc6000e6ce180;
   0x17550c001cfce300030c30c0006630380055550e000fffc3800331986000fffc30001ffe1c000731830003fff0c001f3e618000383060000c5818007fff8e001fffe30001fff0c000c1861800555d46000e7c6180].
Definition hanzi_rows_191 : list N :=
  [0x3fffffc0087c7ff0003feffc006f31ff000000ffc00c30dff003b9bbfc00ababff001ffeffc00631bff003ffeffc00c0e0ff000383060000d9aff003fffffc00aaabff001ffeffc000181ff000c1c2e800e666ff0;
   0x3fffffc000705ff0007ffffc007df1ff001554ffc00c38dff00319fbfc000303ff0000c0ffc00731bff003d57ffc000380ff0003833fc000d9fff0001f07fc000001ff001dd7ffc007ffdff001d5c7fc00e766ff0;
   0x600ae8000300ba000318ae8003cfeba001ffeae800c78cba003999ae8000300ba0000c0ae800631aba003806ae8000380ba003fff3fc000f1bba0003f02e8007ffcba0018c22e8007ffcba003ffc2e800e66eba0;
   0x60e0c0007ffc300017180c0003c3e38001ffe0e000cfcc3800399986000575430001ffe1c0007318300038070c0007ffe18003fff060001f1b180003f80e0007ffc300018c70c00071c018003ffe06000e77c180;
   0x60c0c0007ffc30003f980c0001c32380018060e000cccc38003999860007ff830001ffe0c000639830003ffe0c0007ffe18000383060001b1b180007f80e000700c30001ffe0c00060c018000c3606000e638180;
   0x61c0c000030030003f9c0c0001c30380018060e000dcec380019f9860007ffc30001ffe1c000719830003fff0c00057d418000383060019f9998000eec0e000701c30001fff0c00070e118000c7706000e770180;
   0x6388c00003013000380c0c0008c30380018068e000f87c380038f9a60000301300000c08c0006198300038060c000038098000383160019b9998001cee6e000700e300018c24c000306198000c63a6000e6f8980;
   0x630fc0000303f000180c7c0019e31f8001806fe000d03df80018ffbe0000301f00000c0fc0000fc3f00038077c0000381d8000387be001d998d8003ce7fe000701ff00018c7fc0003071f8000ce3fe000ffdcf80;
   0x6007c0000301f000180e7c0009f33f8001aaefe000c00df80018e7fe0000300f00000c07c0003ef1f80038067c0000380f800020fde000b998f80070e3fe000700df80018c27c0003038f8000cc1fe000fe8cf80;
   0x6001e001fffe780018071e000fbb0fc001ffe3e000c00c78001d71cf001fffe78003fff1e000787c78003d071e001ffff7c007ffcf7001f1f87c0030e1df0007ffc7c0018c71e000391c3c000c00cf000ff0f3c0;
   0x7e00e000fffe38001f838e000f1be38001ffe0e000fc0c38001f3002000fffe18003fff0e000e01e3c001f060e000ffff18003ff863000f0f00c0000e0870007ffc18001ec20e0001f0f0c000f8007000e607080;
   0x3c002000000008000f8100000609c00001806020007c0c080007300000000000800000004000c00608001f0700000000000001500010006000040000e000000701c08001cc7020001f0604000780020000502000;
   0x0;
   0x0;
   0x0;
   0x0;
   0x0;
   0x0;
   0x0;
   0x0;
   0x0;
   0x60000000180000c006000038018000618060001c601800061c0600001c0180000e00600000000c000000060000000180000700700030101800040c060000000180000010600001c01c0000400600000c01c0;
   0x1fff060007ff8180000c00700001801800061806000186018000618060000180180000e006000ffff0c001fff060003ff8180000e007000383018000e0c060002a8618003ff38600003801c0000e00600000c01c0;
   0x1fff070007ff81c0000c00300001c01c000618070001c601c00175d07000e1c01c003fff07001ffff0c001fff070007ff81c0000c00300018701c000e1c070007fce1c003ff70700003800c0001c00700015601c0;
   0x18c37f000601bfc003fff7f80001c1fe0006187f000baebfc003fff7f0006ffdfc003fff7f000eab37e0018037f0002003fc001ffeff8001c61fc0006187f0006a9cfe00300e3f800fffdfe003ffeff0003ff1fe0;
   0x18c77f800755bfe003fff7f800fffffe003fff7f800fffffe003fff7f8007ffdfe0000e07f800601b7f0018037f8007ff3fe001ffeff8007ffffe0007387f8006018fe0030047f800fffdfe003ffeff8003ff9fe0;
   0x1aeb01c007ffaaf0000e02bc00fffe07003fff01800fffeae000618018003ba806000aea01c00601b03001803018003ff80700180601c007ffe07000baa01c00600007003001abc0000c007002aaaab800183c070;
   0x1fff01e007018078003f000e001c700380061801c001c600780061c01c0039c007001fff01e006fdb03801fff01c00755007801c0601c0075d407801fff01e006007038037fd80e001ce003800c1c01c001c7e070;
   0x1aeb00c00601803000fb800c003b380380061800c0018600300026800c001d80030000e000c006f9b01801fff00c0020000300180600e00618003001aaf00c006fe6030037f980e00386003000e1800c000ee6030;
   0x18c77fc007ff9ff001f1f7fc00733cff0006187fc001c61ff0000707fc01ffffff0015f57fc006ddf7f0015577fc007ffdff001ffe7fc006181ff0018077fc006ff77f003131bfc007071ff0006187fc0007c0ff0;
   0x18c37f8007ff9fe00380fff800e30efe0006183f800fffdfe0000303f800fffffe003fffff8006c8f7f0000033f8003ff9fe001ffe7f8006ba8fe0018077f8006c267e003131bf8007ff9fe0006387f8000fe0fe0;
   0x1fff0e0000000300010010c000fffe38001fff0c001fffc30007fff8c001fffe30007fff8c0006cdf1c003fff0c000000030001c060c0007ffc300018070c0006c771800313186000fffc300017550c0003ef0380;
   0x1fff0e000aaa830003fff8c0003ff838001ffe0c000000030003fff8c00001c0300000000c0006c9b08003fff0c000fffc300018060c0002bac300018070c0006c261800313186000c03c30003fff0c001fbbe380;
   0xc00e000fffc30007fff8c000030038001dd70c0000000300000380c00000f030001fff0c0006cf31c0035570c001fffc30001ffe0c000018c30001fff0c0006d771800357586000591030007fff0c000e38f380;
   0xc07fc00baabff000c007fc001b31ff0018c67fc003ffbff0000187fc007ff9ff001ffe7fc006cb37f0030037fc00c00dff001ffeffc00018dff001fff7fc006fe6ff0037fdbfc001999ff0000c0ffc007ffdff0;
   0x3fffffc001803ff000c557fc001b31ff0018c77fc007ffbff00001c7fc007fffff001c077fc006cf37f0033fb7fc01d55dff001576ffc00fffdff0003987fc006ff7ff003575ffc001999ff0001c0ffc007ffdff0;
   0x3fffae800baaaba000cfe2e8001830ba0018c62e800301aba001ffe2e800603eba001aae2e8006cb32a0033fb2e800fffcba0030e6ae800fffeba0003982e8006c26ba003131ae8001998ba0000c0ae8000380ba0;
   0x1f00e001fffc30000cff0c001fffe38001fff0c000701830001fff0c000703430001fff0c0006ff31c00331b0c000357030003cc60c000c1c0300003980c0006c771800313186000199830003fff0c0007ffc380;
   0x3f80e000fffc30000cc20c000fffe38001ffe0c0003ff83000180f0c0007ff0300018060c0006fbb08003b1b8c000386030001fc60c000c1e0300003980c0006c261800311186000199830003ffe0c0003ff8380;
   0x7dc0e000187030000cc70c0001830380018c70c0007ff83000180fcc0007ff030001c070c00060df1c003b1b8c0001ce0300007860c000c1f03000039c0c0006d7718003119860001999300015d50c0000381380;
   0xece4e000187230000cea4c0001839380018c68c00030183000180d0c000603030001ffe0c000608b48003bf9ec0000fc1300003864c000c1b93000238c0c0006fe698003119860009999b00000c00c0000381b80;
   0x1cc7fe00018e3f0000cff7c0001819f80018c7fc0007019f000180c7c0007031f0001fff7c00060037c003bf9fc0000781f00007c6fc000fd9df000738e7c0006557d800311df6001999df00001c07c000fffff80;
   0x38c3fe00018c3f0000c023e0001819f8001aee7c0003019f000180c7e0006031f00018067e00060033c003819fe0000fe1f8000ef63c000798ef000238e7c0006006f800310dfe001998ef80000c07c000fffef80;
   0x70c1de0001840f8000c071f000181c7c001fff1e0007ff878001ffc1e0007ff078001c071e00076031c001801de0007ffc7c007c7f1e000798778007f879e00060077c0031099f001998f780001c01e00003803c0;
   0x20c0860001f0038000f8006000180e1c001ffe0e0003ff838001ffc0e0007ff038001f060e0007c030c001f80e6000f83e3800380f06000018238003f03ce0007c060c003e0186000f987980000c00e0000380180;
   0xc0020001f0010000780020001806080018070200070180000180c02000703008000f07020003c0304001f0042000c0060800000302000018008001f01820007c0704001e0182000f001080001c0000000380080;
   0x0;
   0x0;
   0x0;
   0x0;
   0x0;
   0x0;
   0x0;
   0x0;
   0x0;
   0x71c060000018180010840600000001c0000000600006001c00007006000030018000060070000038180000600600004001c0010000600003801c0001980600030001800000007000000018000000060000000180;
   0x30806000ea181800398c060003ff80c003fff0600006100c000060060000380180000e007000003818000c63060000e700c001f800600003801c0001d8060003f8018003fff07000fffc18001ffe060003ffc180;
   0x175d07000ffff1c001cce070003ff80c003fff070007fff0c0000e00700063301c0000c007000001c1c000c6707000067f0c001fff0700055d00c00019c070007ffc1c003fff03000fffc1c001ffe070003ffc1c0;
   0x3fffff000eefefc000ce6ff0001c01fe0038037f0007fdffe002aeaff00063b9fc003fff7f800fffcfc000e6e7f000060f7e00003f7f0007ffbfe00038cff00003bdfe003333ff800eaadfc001806ff000300dfc0;
   0x7fffff800cc19fe000e77ff8000f01fe0038077f8006618fe003fffff800319dfe003fff7f800fffdfe0007747f800fe037e0001c37f800755bfe00030cff8000381fe003333ff800e30dfe001c06ff800301dfe0;
   0x3082bc00cc18070006338180003000700380301800660c07003aab81800398c07000c0601c00ecee06000aea81800fe032f0001832bc00601807003ffe0180003800700333301c00e30c07001ffe018003ffcae0;
   0x7fc01e00c4fe0700067301c00575403003fff01c01ffec0300300381c001f8e07800c0e01e00ee6707001fff81c00d70303003fff01c007ff807803ffe01c00fffe0700333301c00e30c07801ffe01c003ffc070;
   0xe000c00e6fe03000ee700c00fffe03803fff00c00ffee0380300380c0007c003000e0c00c00e67303000aba00c00c3ab03003fff00c007ff80300018700c00fffe03803fff00c00ffec0300180600c00300c030;
   0xffe7fc006618ff001cc67fc00ffffff0001c77fc006606ff0000007fc001fc1ff00061c3fc006732ff0000303fc006fff7f0001c37fc006019ff0001877fc0077ddff003fff7fc00fffdff001c067fc00301dff0].
Definition hanzi_rows_192 : list N :=
  [0xffe7f80066bafe0039ce7f8000301fe0001833f8006eaefe001fff7f8003ce1fe00061c3f8006338fe0000383f8006fb37e0000c37f8006019fe000187ff8003398fe0000707f800e30dfe001ffe7f8003ffdfe0;
   0xdf60c00067ff3800319c0c0000300300001c70c0007fdf18001fff0c000707c3000575d0e000631c18003fffce0006db318001ffb0c0007ff830001fff8c0003398380000700c000e30c38001ffe0c0003ffc380;
   0xce60c0006bba380010880c000030030003fff0c000061b180000e00c000639c30003fff8e000618e18003fffce0002d3318001ffb0c0007ff830001ffe8c000bbba38000ab80c000e30c380000180c0000000380;
   0xce60c00079d838003fff0c00003f030003fff0c0000618180000e00c000438430007fff8e00071c71800060e0e0000c331800181b0c0000300300001860c001ffff38003ffc0c000efec3800001c0c000061c380;
   0xce67fc000019ff003fff7fc0001e1ff0001837fc007fdaff0000e67fc002389ff0000007fc007ee2ff000c0e3fc000c33ff00199b7fc000303ff0001867fc00ffffff001aacffc00efedff003ffeffc000619ff0;
   0xce67fc000181ff0038c77fc000001ff0001c77fc007fdbff0000e67fc006199ff0000007fc003c41ff001fff7fc001c33ff00199b7fc00ffffff0001867fc003399ff001c0effc00ec6dff003fffffc00661dff0;
   0x3fffae8000180ba0038c32e8007ffcba0001832e800061bba001fe62e8007398ba001ffe2e80000a8ba003bffae8001c333a00199b2e800fffcba000bae2e8003398ba000c17ae800e86cba003333ae800f6f8ba0;
   0x7fffcc000fffe380038c70c0007ffc30001fff0c000061f18001fe70c000339c30001fff0e00071be1800330fce0001c331800199b0c000e31c30001ffe0c000339838000e7bcc000ec6c380033338c0003ffc380;
   0xe00c000fffe38003fff0c00066cc30001fff0c000ffee180000e60c0003b8c30001c060e00063be1800030e8e0001e331800199b0c000e30c30000bae0c000fffe380007f18c000e86c38003bb9cc0000e18380;
   0x1f00c00007c038003fff0c00066cd3000181f0c000ffec180000e70c0001fce30001c070e000673f1800034e4e0003e33180019db0c000e31c300001860c000fffe380007e00c000efec3800399c8c000061c380;
   0x3b00c00006c1380038c30c00066cdb000180fec000060e980000ef0c00006c030001c060e000c23a180003ce6e0003633180018dbec000e30d300001868c0000381b80003804c000efed3800388c0c0000618380;
   0x7387c0000ee1f80038c77c00066cdf000181dfc000061ef80000ff7c0000ee1f0001c077e001d83b5800194e7e0007731d80007c1fc000e31df0000186fc0000381f80001e0fc000e00df80018c7fc000c61db80;
   0xf1e7e0001c70f80038c37c00066ccf800180dbe000067f780000fbfc0003c71f0001c067e001d83bf800180e3e0006331f8000ee1be000fb0cf0003ffe7c0000380f80000783e000fffcf80018e3fc000c69bf80;
   0x3e0f1f0007c7c7c003fff1e001ffff7c001ffdde00157f3bc007ff1de000787c78001fff1f0005ff3bc001d5e1f000e3b1fc001c71df0007b1c78003ffe1e0007ffc7c00003e1e000fffc78001c719e000c7fcf80;
   0x3803ee000f01f18003fff0e001ffff18001ffcc6000ffc1cc003fe0ce000e01e38001ffe070000ff00c001ffc07000c1b19c00383ec20000308180000060e0007ffc1c00000f86000eaac18001f380e000fefc380;
   0x3001c20004006000038070200000000800181c82000fc0184003f00c2000c00408001c0702000054004000ffc02000c1b10400100cc00000300080000060200000000000000382000e00c08000f10000007c0c180;
   0x0;
   0x0;
   0x0;
   0x0;
   0x0;
   0x0;
   0x0;
   0x0;
   0x0;
   0x1c0060001c6018000000060000ec01c000c0407000038018000c0406000030018000070070007000180000e00600001801800000c070003000180007100700070001c0000000600000001800018607000061c180;
   0xc006000186018003fff060000ec01c000e0e03000638c18000e0c06000030018000060030007ffa180000e00600001a018000fde070007fe81800023e030007fa01c003fbf060007ffc18000186030000618180;
   0x15d507000fffe1c003fff070007ffc0c00061c03000739c1c00061c07001fffc1c0000e0030001ffe1c000060070007dfc1c000fcf030001ffc1c00071fc30001ffc1c003fff070007ffc1c003fc603000461c1c0;
   0x3fffff000fffffc0038c37f0007ffdfe0006183f80033b8fc0007187f000fffdfc003fffff800618afc001ffeff0007d9efc000cc3bf8000389fc000207ff8000339fe0031b37f000630ffe003fe63f800e61bfc0;
   0x1575ff8001c61fe0038c37f8006ec1fe0007183f8001bb1fe003fff7f801555dfe003fffff800718dfe001ffeff8006186fe000cc1bf8000381fe0007073f8000301fe0031f37f800631ffe0038763f8007ffffe0;
   0x60018001860060038c301c007ffc07003fffeac00fffe07003fff01800308c0600000001c00319807001806ab800618606000cc1abc00fffe0600020601c000300070031b32bc00630c070018bec0c001ef8070;
   0x1ffe01c007ffc07003fff00e007ffc07003fffc0c00fffe038000e001c0031dc0700000000e00199807801ffe01c007dbe07000cc180e00fffe070077c700c01fffc07003fff01e007ffc07801dd6c0e00061c078;
   0x1ffe00c007ff803003fff00c000eec0300020e0060007e003000aea00c00fffc03000fff00c00fffe03001ffe00c007dbe03000cdf80c000380030032c600c00fffc03003fbf00c007ffc03000f86c06000618030;
   0x1c067fc00601cff0015573fc00fffeff0007063fc001ff0ff001fff7fc00fffdff001fff3fc00fffeff0018067fc006186ff000c7fbfc007ffdff0037dfdfc015755ff0000007fc00631dff000707ffc01c61dff0;
   0x1ffe7f8006018fe0000033f800fffefe0003063f8003bb8fe000aea3f800308dfe000c033f8000030fe0018067f8006186fe003c61bf8007ffdfe0033dfdf8000301fe000aaa3f800630dfe000387bf80087f9fe0;
   0x1ffe0c0007ffc30003fff0e000ce703000133706000f39e380000e00c00031dc30001c070e000003018001ffe0c0007ffe1800787186000639c3000374706000034030001ffe0c000631c30000df786000fffc300;
   0x18060c0006ab830003ffb0e000ee3830003bb306000e38e38002aea8c0003f8c30000c030e000ffff18001ffe0c0007ffe1800002186000638c30001f6706000abf830000aaa0c0007ffc30000cf606000fdbc300;
   0x1ffe0c000601c3000381f0e0005e1e300019b30600043c238003fff8c0003fdc30001fff0e000ffff180000000c00055d418003fff860007ffc30001f6f06000ff7c300000000c0007ffc30000c16060000384300;
   0x1aaeffc007ff9ff00381b7fc007ffdff00199bbfc0000c0ff002aaaffc00000dff000fff7fc000030ff002aaaffc000180ff001fffbfc00638dff00071fbfc00eb0dff003fffffc000183ff003ff63fc000183ff0;
   0x1c06ffc007ffdff003fff7fc007ffdff001fdfffc0055d5ff0000e07fc007ffdff0010f87fc001579ff003fffffc000181ff0018c1bfc00639dff00071fbfc00e31dff003fffffc000383ff007ff73fc007ffbff0;
   0x1ffe2e8000380ba003ffb2e8006018ba000fcfae800fffeba0000602e8007ffcba0038dc2e8003ff8ba002aea2e8007ffeba0018c1ae8007ffcba0007168e800e30cba0000182e800276eba000c07ae8007ffaba0;
   0x1d560c00003803000381f0e000739c30000e0c06000fffe38003fff8c00075dc30001dcf0e0003578180000c00c0007fff18001dc1860007ffc30000717c6000ff7c3000001c0c000766c30000c77c60007018300;
   0x18060c000fffc3000381b8e00063983000060606000183038003fff8c00030cc30000f8f8e0003838180000c00c000381c18000d9986000038030000d86e6000fb7c30000ffc0c0006e6c30000ce6e60006018300;
   0x7fff8c000fffc30003ffd8e000719c30001f1f060001c38380001f00c00039cc3000078dce0001c7c18001ffe0c0001c3818000f9fc60007ffc30000d8766000f75c30001ffc0c000e46c30000cc6460007ff8300;
   0x3fff8c00007c130003ff9ae000619930001b33260000ef8b80001b04c0001f8e3000070c8e0000ceed8001ffe0c0000e709800078fc60007ffc30000d8646000e30d30000c008c000c06f30000dc6260007ff8300;
   0x7387c0000fc3f000381dfe00075ddf0001bb3be00007f1f80003b87c0000f07f0000f8c7e00007cff80000c07c00007e1f8000781f60000381f0001dc736000e31ff0000c00fc001f067f0000d867e0007019b00;
   0xf3c7c0001ce1f8003819be0001ee0f80039bfbe0000f80f800071c7e0001f87f8001eec3e0000f87780000c07e00007e0f8000fc1be0000381f00038e63e000ebacf0000c007e001b867f8000c063e000601bf00;
   0x1c1f1e0007c7c78003ffddf0007cf078003fffcf0007df07c001e0f1e0007ff77c007c7c1f0007ff79c007fff9f0007ffc7c001df19f001fffe780070671f000fffc78000e101e0005fe678000c060f0007ff8f80;
   0x38078e000f03e18003ff8c7000e03e180033a083000f8fe1c003c03ce000f0fb3800301e06000f8ffcc003fff8e000fc3f8c00387986000fffe3800307603000eaac18000fe00e0001fe038000f86030007ff8380;
   0x100302000c0060800381cc2000c00c0800701000000401c00003001c2000c0330800000600000e01984000000020007007840010318000000000800202701000e01c080007e000000050008000786010007018080;
   0x0;
   0x0;
   0x0;
   0x0;
   0x0;
   0x0;
   0x0;
   0x0;
   0x0;
   0xe006000018018000000060000000180000c0060000000180000700600001c01c000070030001010180000600700001c01800001006000018018000060060000330180000c00600000001c000000060001b80180;
   0xc006000618608001fff060007ff8180018c706000fffe180000600600003800c000060030003018180000e00300001801800003e0600003c018000060060000730180018c606000fffe0c003fff860007b80180;
   0x15d50700061870c001fff0700075581c001cc607000fffe1c0000e00700003800c0000e00300038301c0015d50300001801c003fdf8700007e01c001fff0700006181c001cc607000ffff0c003fff8700073801c0;
   0x3fff7f0006186fc0018637f0006019fc000ccc7f0000661fc003fff7f000fffefe003fffbf8001871fc001fffff800fffffc003fc3bf0000e79fc001fffff000fffbfc000ccc7f000300cfe0000007f000fffffc0;
   0x3fff7f8007ffffe0018637f8007ff9fe000edc7f8000661fe003fff7f800fffffe003fffffc001c71fe001fff7f800fffffe003101ff8007d7dfe001c07ff800fffffe000edc7f800355cfe001fff7f800fffffe0].
Definition hanzi_rows_193 : list N :=
  [0x1832bc007ffeae001fff01c00601806002aea81c00fffc060030032b800c00e0700300180c00082007000e0c01c0000000700331981c00ffff0600180301800061c060000c82b8003ffc03001fff01c000380ae0;
   0x1ffb01e007fff07001fff01e00755807003fff81e00fffc0700330b01c00fc0e0380300180e00fffe0700061c01c003ffc0780319980e00c55707001fff01c007ffe07003fff01c00300c03801c0701e007ffc070;
   0x1bab00c0000000380186300c007ff803003aab80c00e66c0300371f00c00fffe03003fff80400fffe0380061800c003ff8030039b180c003ffc03001aab00c007ffe03003fff00c00300c0180180300c007ffc030;
   0x3fff7fc00ff7f7f001fff7fc000001ff003003ffc00e66dff000e0c7fc001ff0ff000fff3fc000420ff003fffbfc00301dff0019bdbfc003ffcff001c077fc00061bff0030037fc003ffcff001fff7fc00638dff0;
   0x3fff7f800fe7e7e001fff3f800fffdfe003fffff800e66dfe001ce67f8000030fe0000303f8001c60fe003aabbf8003019fe0018bfbf800300cfe001fff7f8007ff9fe0030037f800300cfe001fff3f8007ffcfe0;
   0x19c30c000c767180000380c000fffc30001fff0e000fffc300018e78c00000301800183c060003c70380030618e0003ffc38001ec7ce0003ffc38001d570c0007ff830003fff0c001f40c180000000e0007ffc380;
   0x1ffb0c000c2621800071c0c000cccc30000c060e000aaa8300010f30c0007ff018001c3e060007038380030e18e0003ff838001ee18e0003ffc380018030c000061830002ffe0c000fffe18002aaa8e000638c380;
   0x1ffb0c000ff7f180003ff0c000cccc30000c060e0000000300001f80c0007ff018000f67c6000e01e380000c00e0000000380000400e0003c0038001fff0c000fff830000e0c0c00037ff18003fff8e0007ffc380;
   0x1837fc00fe7eff0000ff7fc00fffdff000c067fc007ffdff0003187fc000e31ff0003f1bfc00c00eff003fffffc00ffffff001fff3fc007fffff001fff7fc00fff9ff000e0c7fc002000ff003209ffc007ffdff0;
   0x1fff7fc00c767ff000e757fc00fffdff000ffe7fc007ffdff000f1c7fc000e31ff0007dc7fc007ffdff003fffffc00ffffff001fff7fc0005fdff0000607fc000019ff000e0c7fc00ffffff00371dffc00738dff0;
   0x1fff2e800c262ba000c3c2e8000000ba000aea2e8000000ba001c0e2e8000e30ba0006ce2e8007ffcba0000382e800e00eba0018632e8000180ba002aeaae8001ffcba000eac2e800ffffba003339ae8001808ba0;
   0x19cf0c000ff7f18001fff0c0007ffc300000c00e001fffe30007fff8c0000e3018000dc78600077dc380000180e000efee380018630e0007ffe38003fff8c0001ffc30000ffc0c000c360180031b18e001fffe380;
   0x1fff8c000ff7f18003fff8c0007ab830000aea0e000fffe30003fffcc000fffe18000ce3c600066cc38000ff80e000efee38001aeb0e0007ffe38002afa8c0000c6030000ffc0c0006263180037fd8e000fffe380;
   0x1ffd8c000d777180070d70c000387030001fff0e000130030000e0ecc000fffe18001df08600066cc38001ff80e000ec6e38001fff0e0000180380001f80c000fc70300003300c000767f180037fd8e0015d54380;
   0x198d8c000c363180006cc6c0001ce030000aea4e0001b3830000e0e0c00000009800399c2600066cc38000c1c2e000ec6f380018632e000fffe380003f84c000e830300003380c0003e3c980030618e0001839380;
   0x1ffdfc000c36358000ec67c0000fc3f00000c07e0007319f0000e0e7c0001c71f80071cf7e00066cdf8000c0c7e000efeff80018637e001fffff800076e7c000e031f00073187c0001c7cd8003061fe0001c71f80;
   0x198dfc000c363f8001cc73e00007c1f80000c03e000631df0000e0e7c0003878f8002083be00066cdf8000c0e3e000efeff80018633e0000180f8000e677c0006039f000231c7e0003cecf8003061be00018e1f80;
   0x19cdde000c3e1fc0038c39e0007ffc78007fff9e000e30f78000ffe1f000703c3c0000c1cf001ffff7c000c071f000e00e78001fff1f00001807c003c679e000601c7800330f1f00077477c0030619f0001c407c0;
   0x1f8cce000f9f9dc0030f987000f83f38003fff8700043e638000ffe0e000e00f0c0000f803001ffff38000fc3c7000f80e38001fff0700001f0180038618e0007e0e38003f0786000e3838c003e61860001f00180;
   0x1d4cc000071788400007802000e007080000000200001e008000e0e02000400604000078000000000080007c180000780e080018030000001f008001060020003e0608001f0102000c18104001c41820000f00000;
   0x0;
   0x0;
   0x0;
   0x0;
   0x0;
   0x0;
   0x0;
   0x0;
   0x0;
   0x6000000018000000060001c60180001000600000001800007007000183018000000830000c0c1c0000380600006c0180000e00600000001c000000060000000180000c103000070418000060060000380180;
   0x3fff060007ffc18000aaa060001860180009bf060007fbf0800006007000183018002aa9c30000c0c0c00001806000e6cc1800006006000fffe0c003fff860007efe180000c183000030e180000e0060000300180;
   0x3fff070007ffc1c001fff07000fffe1c001fbf070007fbf0c003fff830001c601c003ffb830000e1c0c0003fc0700076dc1c00006007000ffff0c007fff870007ffe1c0000c381800030c0c003fff87000fffc1c0;
   0x39337f800664cfc0000c07f000fffffc0007b87f00061b0fe003fffbf800aeebfc003aab3f8000efffe0003ae3f00036d9fc003fffbf8000002fe0003387f00060c4fc0000e31f80003087e003fffff000fffdfc0;
   0x39337f800664dfe0000c07f8001d71fe0033197f80061b0fe003001ff800fffffe0030473fc0006fffe0015d77f80036d9fe003fffff8001b1ffe003fff7f80066cffe007fe75fc01fffffe00060c7f8003871fe0;
   0x3bbb01c007ffc06003fff81c00033806003b1f81c0061b0070033b981c00aee80600306000c00fe0003001fff81c00fffe070009b901c00199a07003fff01c006cd8ae003fefe0c00ffff8700060c018001860060;
   0x3fff01e007ffc07003fff81e00575807001f1f01e007fb003001f1f80e00eeee07003575c0c01fe7f038018c7c0e00fffe07801f9b80e0019b70300393301e0078e00700007ff0e0007c70300071c01c001c60070;
   0x2aae00c000000030030c180c00fff803000e0e00c007fbe03003ce780c006eec030037fec0400626b018018c380c00183003000f1f00c0009b20300393300c007cf803000030c040006c203002baa00c00fffc030;
   0xc7fc01ffffff003fdfbfc00061dff001fff7fc000c3f7f0010e3bfc003ef9ff003575dfc0067637f001fff3fc001c71ff00070e3fc00ffff7f003fff7fc006fdeff001ff1dfc0006c77f003fff7fc00fffdff0;
   0x3ffe3f800fffefe000fde3f8007ffefe003bfbbf8000c027e001ffe3f8003ef8fe003060df80067637e0018c33f8000c60fe000ffe3f800fffa7e003fff7f80062c6fe003fe0cf800fe027e0038c33f8000000fe0;
   0x3fff0e0000000180000c00c0007ffe30007001cc0007fc718001fff0e0015ff4300037ffc600077ff180018c70e000fffc30001fff8e000cc47180000000c00063801800374fc7000ff7f180038c30c0007ff8300;
   0x38338e0007ffc18001fde0c000061a30002ffe8c0007f83180018e20e000fffe300036eec6000278018001fff0e000aba830003e07ce000ff5a18001fff0c00003c01800330fc20001b3e18003aeb0c0007ff8300;
   0x3831ce0007ffc18001fdf0c0007ff830000ffe0c0006cc318001ce70e001fffe3000377fc6000377f180015550e0000380300017ff8e000f75f18001fff0c0000ee018001f4cc700019f718003fff0c0006018300;
   0x3bffffc00600dff0000c07fc000619ff000c067fc006cbfff001ffe7fc000001ff0037f6ffc0036ffff003fffffc007ffdff0007fe3fc00f75aff0018037fc003c78ff00036cdfc0019b3ff0038c37fc007ff9ff0;
   0x3bff7fc00700dff001fff7fc00fff9ff000c067fc006cffff001fff7fc007ffdff0036f7ffc003c75ff003fffffc007ffdff0006067fc00775fff001fff7fc01f31eff00076cdfc005d37ff0038c37fc007ff9ff0;
   0x3b332e8007ffcba001fff2e800fff8ba000c062e8006cb8ba0000e02e8003ff8ba0037feee8003c38ba0000002e8000380ba0006062e800335bba001aab2e800e18eba003f6cca800ffb3ba003bfb2e8006018ba0;
   0x1b330e0007ffc180018c70c000001830000ffe0c0007ff018003fff0e000701c300037ffc60001c1c18001ffe0e000fffe300007fe0e000335b180018070c0008cf218003f6cc7001ffb318003bfb0c0007ff8300;
   0x1bff0e000c3e0180018c30c0007ffc30000ffe0c0007fb818003fff0e0003018300030f0c600018f818000ffe0e000fffe300002ea0e0003bfb18001fff0c0000e381800036cc2000383318003a1b0c0007ff8300;
   0x1bff4e000f77818001fff0c0007ffc3000060c0c0004c18180038e30e0007ffc300031f9c60001cff98001c060e00007c0300004640e0003973180015f50c00077901800076c670003c3318003b1b0c0000ce0300;
   0x19b06e0003e3e18001fff6c00038703000060c4c0006c18180038e36e0003ff83000336ce60003e1f98000ffe2e00007c03000066e2e0003863180000e00c00031e0180003ee620003c3318003abb4c0000ce1b00;
   0x19707e0001c3fd80018c77c0001de1f000031c7c0006c19d8003fff7e000701df000366ffe000361c58001ffe7e0000ee1f0000c677e0007c73f8007ffffc0001c79d80007f67f0007e31f8003bfb7c001cc61f00;
   0x1bffbe0003a32f80018c33e0000f81f80003183e000ec18f8003fff3e0003019f8003262de0007718f8000c063e0003c71f8001c63be0006c33f8003ffffe0000f00f80003b67e0006631f800381b3e0008c70f80;
   0x1f5f9f000f7f07c001fff1e0003ff078007fff9f000fffd7c0038e31f0007ffc7c003061cf000e39c7c001ffe1f000783c7c003863df000ce39bc0000e01e00007f07c007fb677000e731bc0038031f001cc3c7c0;
   0x1f0006000e0f81c001fff07000fcfe38003fff86000cfff1c0000e0070003ab838003f00c3000e1df0c000ffe07000f00f3800107887000c6198c0000e00e00000fc0c003e3fb3001c3becc003e0306000fc1f180;
   0xf0002000c0180000180702000701e0800000002000c007040000e000000701c08001f01c1000c0c700001c0600000c00708000078000008211040000e002000001c0400141391000819c84001e03020007c07080;
   0x0;
   0x0;
   0x0;
   0x0;
   0x0;
   0x0;
   0x0;
   0x0;
   0x0;
   0x10000000080000000200000000c0000000300000000800000001000000004000000030000000080000000300000000c0000003800001c01c00000c070007118180000600300001c01c000060060000180180].
Definition hanzi_rows_194 : list N :=
  [0xaaa838007fff1c001fffc30007fff1c001fffc70007fff1c000aaa838002aaa0e000aaa830007fff1c001fffc70007fff1c0007003800003800c0001fe030003b9c180000e00300001800c0000c0060000380180;
   0x1fffc70007fff38001fffc70007fff3c001fffce0007fff38001fffc70007fff1c001fffc70007fff3c001fffce0007fff3800078038000ffff0c0003ff030001dce1c0015d503000fffe0c003fff0700057541c0;
   0x1fffce000600070001aaa8e0006aaa38001aaa8c000600070001fffce0007fff38001fffce0006aaa380018001c0006000300003c038000fffefe0001c3bf8000ce6fc003fffbf800fffefe003fff7f000fffefc0;
   0x18001c0006000700018001c0006000700018001c0006000700018001c0006000700018001c0006000700018001c0006000700001f0380005454fe001fffff80039dcfe00175dbfc00d557fe000e1c7f8005557fe0;
   0x180000000600e6600180018000601820001800180006000260018000800060e000001800080006000e000180009800600062000078380007efcaf001803abc007398af00031980c00c2360700061801c0030e6070;
   0x180001800600e0600180601c0060180000180001c0061ffc60018000180060e006001800018006038070018000180060000600003e3800066cc03001fff81c007ffe03803fff80c007ffc0380175d01e0018c6038;
   0x180001800600e06001806018006fffe60019fff980061ffc60018000180060e0060018aaa18006038060018000180060000600000fb800066cc03001fff80c007ffe03003fff80400fff803003fff80c00fff6030;
   0x187fe180067fff600180601c006ffff70019fff9c0061c18600187fe180060e0060019fff180060180700180001800600006000007380007efcff0019833fc006c76ff0033199fc0067ccff007fffbfc00fff6ff0;
   0x187fe180067ffe6001aaea98006018060018060180061838600187fe18006fffe60018fff180060180600180001800600006000000380002eb8fe003fbf3f80067e6fe003bbb9f8003cfefe0000003f8000c86fe0;
   0x186061800600706001bfff9c0060180700180601c0061c186001870618006fffe600180001800601c07001800018006000060015557d4005d74180077d70e00067c618003fff860003c7738001ffe060007ff6180;
   0x186061800602306001aafa980067ffc60018060180060c1860018606180060f00600180001800603c0600180001800600006003fffffc00fffe18003bbf8e0006e7e1800030d86000186c38001806060007ff6180;
   0x18606180060730600181f81c0067ffc700180601c0067ffc60018706180060f80600185541800607e070019fff9800600006003fffffc005d7418003f9f0e0007ffe18001b0dc60003ffc38001d56060006d86180;
   0x187fe180060338600183f818006018060018fff180067ff860018606180060fc060018ffe180060fe060019fff980060000600000c380002ebaff0001fe3fc007ffeff003f7dbfc006fd8ff001ffe7fc00fffeff0;
   0x187fe18006039c6001877c1c006018070018fff1c006755460018706180060fe060018fff180061e7070019555180060000600001c380007fffff0003ff7fc003187ff00075dffc01e01fff001c067fc00ffffff0;
   0x1860618006098c60018e6e18006ffff6001806018006200060018606180060ef060018000180061c38600180001800600006000018380000c30ba000183ae8003396ba00230cae8008007ba001aae2e8006c86ba0;
   0x186061800619ce60019c671c006ffff700180601c0067000600187fe180060e7c6001800018006383c70018000180060000600003838001ffff18001fffce0003ffe180033fdc60007fff38001ffe060007dd6180;
   0x186061800638c66001986398006e180600180601800637fe600187fe180060e1e6001800018006701e60018000180060000600007038000ffff180018638e00039a618003f3ec60007ffc38000060060007ff6180;
   0x187fe1800634e760019861dc0066180700180601c00637ff60018556180060e0f60019fff98006700f7001800018006000060000f03800047f0180018738e000379618000004c6000139038001cf1060001dc6180;
   0x187fe180063fe26001806098006618060019fff98006300060018006180060e0260019fff9800620026001800018006000060001e038000e63898001fffae0003fbe180009acf60003bb9b80019db460003ce6980;
   0x18000180067ff0600180601c0067d8070019fffdc006380060018000180060fe0600180001800600007001800018006000060007cc380007c3fd80017f57e0007de6d8001976fe000739df800199b760007de7d80;
   0x180001800620206001806018006398060018000180063f8060018000180060fc060018000180060000600180001800600006001f0ff80001e33f8002ef83e001a986f8001b26ee000638cf8003e19be000ecb6f80;
   0x1d0001800600006001fc601c007f1807001d4001c0061f006001fc001800747c06001fc001800750007001d4001800700006007e07fc0007bf03c006cdf1f001efbe7c00336767000e38f7c007619de001cd9f7c0;
   0x1f00018007e0006001f80018007e0006001f80018007e0006001f80018007c0006001f80018007e0006001f80018007f00060038007c000e3f808003fc7e7000effe1c0032636300043e21c0027f8870008c8b1c0;
   0x1f00018003e0006000f8001c003e0007000f8001c003c0006000780018003c0006000780018007e0007000f80018003f000600000008000c01000003f81c0000c1c6000011006100001e0000007f0020000d83000;
   0x0;
   0x0;
   0x0;
   0x0;
   0x0;
   0x0;
   0x0;
   0x0;
   0x0;
   0x200000000800000002000000004000000020000000040000000300000000c000000010000000040000000200000000400000001000000004000000020000000080000000100000000c0000000100000001c0;
   0x1fffc70007fff0c001fffc70002aaa0e001fffc70002aaa0e001fffc70007fff1c001fffc38002aaa0e001fffc70002aaa0e000aaa838002aaa0e001fffc70002aaa1c000aaa838007fff1c000aaa838007fff1c0;
   0x1fffce0007fff1c001fffce0007fff1c001fffce0007fff1c001fffce0007fff38001fffc70007fff1c001fffce0007fff1c001fffc70007fff1c001fffce0007fff3c001fffc70007fff38001fffc70007fff380;
   0x18001c0006aaa380018001c0007fff380018001c0007fff380018000c000600070001aaa8e0007fff380018001c0007fff38001fffce0006aaa380018000c0007fff38001fffce000600030001fffce0006000700;
   0x185c1c000600c700018071c0006001300018019c0007000300018071c0006004700018000c0006018300018001c0006000700018000c0006000300018041c0006008700018001c0006000700018021c0006000700;
   0x18e819800620c2000180609800618180001821998006000000018061980060062600182000000601800001800098006018200018080000060000000180609800600c2000180000000600c2600180300000600c260;
   0x19dc0180066ffe70018575180061c30600187fc180077ffe600180e0180063ff0600187c6180067186600187fe18006018060018181d80067ffe600185751800601c0600195551800601c0600180701800601c060;
   0x1aaaa980063ffe60018ffe180060e70600183ae180063ffe60019fff980063ff860018ec6180062186600187fe18006018060018183980067ffe60018fff18006038060018fff980060180600180e018006038060;
   0x1bfffd800638c070018f571800606606001818718007718660019fff980061c3c60019cc7180067ffe60018606180067ffe6001818718006181860018fff18006ffff60019fff98006037060019fffd80067ffe60;
   0x1abaa980061cc060018e02180063ffc60018aeb98006218660018038180060e6f6001a8c3180063ffe60018606180063ffe60019ffa1800618186001806018006fffe6001886398006333060019fff980067ffe60;
   0x1998018006ffff70018fff180063ffc60019fffd80077ff66001821c1800607c76001bff3980060000600187fe18006718e60019ff8180061ff86001806018006018060019c6398006777660018000180061c0060;
   0x199bf98006ffff60018ffe18006300c60018c63980062ff66001838e1800603c060018ffb980060000600187fe18006318e60018180180061ff860019fff98006018060018fff98006663660018000180060c0860;
   0x19db59800601e070018e0718006300c60019c639800771c6600183ff180061ff0600181dbd80063ffe6001800018006718e600181c7d8006181860019fff980063ffc60019fff980066076600183fc180060e1c60;
   0x18db19800600f860018eaa18006300c60018fff9800623c6600198eb18006fc3e600198c3f80063ffe6001800018006318e600183c3d8006181860018000180063ffc6001886398006e036600183fc180060e3860;
   0x18db1980067ffc70018fff180063ffc60019fff9800777e660019c7018006f01f60019dc358006300060019fff180067ffe600187c7180061ff86001806018006318c60019c6398006c8776001830c1800607f060;
   0x187bf980063fffe0018822180063ffc60018c63980062db660018e3e180061ff860018f83180063aa860018eab180063ffe60018e62180061ff860018aea18006318c60018fff98006d8336001830c1800603e060;
   0x1873f98006701f70019c7718006077060019c63980077dbe6001870f980061ffc60018783180063ffc60019c0318006118060019c7718006181860018fff18006318c60019fff98006d8736001830c1800607c060;
   0x1a300180063ab8600187e218006066060018fff980062996600183839800618186001838318006eaac60018c031800639806001983a18006b81860018aea18006318c60018aeb98006d833e001930e180060fe060;
   0x1b7bf180067ff87001838718006477060019fff180077186600183f018006181c600193c318006c00c60019c03180067d806001901718006ffff6001806018006318c60019c61180061c706001b306180061ef060;
   0x1b7bfd8006301860018f6218006c6386001b060180062aae60018f781800618186001a7e318006e00c60018fff180067ffe6001800f980063fff60018060180063d8c60018060180060fe06001b307180063c7860;
   0x1bee1d8006701870019c7f18006d71c6001bfe0180077ffe60019c1f180061ffc6001be7b180067ffc60019fff18006ffff6001bffdd8006180160019fffd80063d8c60018060180060fe06001bf0398006381f60;
   0x19c70180063ff86001880f180067e0f60019fe0180062aaa60019807980061ff86001bc3b180063ff86001800318006400e6001bfe098006180060019fff9800601806001806018006000060019e0198006100e60;
   0x1d420180067ff870018001180075406600185401800700006001d40198006181c6001d0031800740006001d4001800740006001d0001800758006001d4001800741806001d0601800710006001800098007500060;
   0x1f80018007f0186001f80018007c0006001f80018007e0006001f80018007e0006001f00018007e0006001f80018007c0006001f00018007c0006001f80018007e0806001f06018007e0006001f00018007e00060;
   0x780018007e0007000f80018003c0006000f80018003e0006000780018003e0006000f00018003c0006000780018003c0006000f00018003c0006000780018003e0006000f00018003e0006001f00018003e00060;
   0x0;
   0x0;
   0x0;
   0x0;
   0x0;
   0x0].
Definition hanzi_rows_195 : list N :=
  [0x0;
   0x0;
   0x0;
   0x60000000000000000070000000000c00000001000000008000000030000000080000000300000000c00000001000000008000000010000000080000000300000000c000000020000000040000000100000000c0;
   0x60ff8000007fc000003000007fff1c000aaa838002aaa0c001fffc70007fff1c001fffc70002aaa1c000aaa838007fff1c000aaa838007fff0c001fffc30007fff1c000aaa830002aaa0e000aaa838007fff0c0;
   0x60ff800000ffc000157d40007fff38001fffc70007fff3c001fffcf0007fff38001fffce0007fff3c001fffc70007fff38001fffc70007fff1c001fffc70007fff38001fffc70007fff1c001fffc70007fff1c0;
   0x60e1800000e0c0003fffe000600030001fffce0007fff38001aaa8e0006000700018001c0007fff38001fffce000600070001fffce0006aaa38001aaa8e000600030001fffce0007fff38001fffce0006aaa380;
   0x606180000070c0003fffe0006040700018000c00060007000180e1c0006018700018001c0006000700018000c0006010700018005c0006000700018001c0006100700018001c0006000700018000c000601c700;
   0x606180000030c0003000e00060cfe60018331000063ffe00018060000060182600184ff98006000000018aaa0000601826001860600006080a00018038800063f8260018e00800060000000180000000600c200;
   0x607180000030c0003555e00060cfe60018331980063ffc6001bfffdc0063ffc600187ff180067f0770018fff1800655d46001870c180061818700185581c00607fc60019fffd80067ff0600187ff1800655f570;
   0x603180000038c0003fffe00060c606001831b98006300c60018060180063ffc60019398180063fee60018c03180067ffe6001839c18006183860018ffc18006030c600180ff980063f7e600187fe18006ffff60;
   0x60398000001cc0003fffe0007fd756001ff19180063ffc60019fff1c00601806001999d9800607dc70018fff180067ffe60019fff980063cff7001875e1c006575c60018c7318006700e6001860718006ffff70;
   0x60398000000cc0000000e0007ffff6001bfbfd80063ffc60018fff180067ffe60018f0f98006060860018c0318006018060019fff980066eff60018707180063ffc6001866618006300e600187fe1800618b860;
   0xf0718000001cc0007fffe000666c66001b1ffd8006300c60019c031c0067fff6001870718006574070018fff180067ffc60019c6198006665d700183839c006070c60018766180067f7e6001875718006399c70;
   0xe06180000038c0007fffe000663c66001b786180063ffc60018fff1800618e060018eab18006ffe360018fff180063ffc6001986198006c30c6001818918006ce8c60019fff980063f7e60018602180067ffe60;
   0xf0e180000070c0007000e000667fe600197f6d8006155460019d571c0063d386001ffffd8006fff770018d57180067dbc60019fff98007c38c7001857f1c0067dfe60019fffd8006700e600187ff18007fffff0;
   0xf0e180000060c0006000e00066eee60019ea6980062a2a60018eab180063ffe6001b060d8006060e60018fff180062dac60019861980068c7c60018fcf18006783e6001980198006300e6001800018006b18de0;
   0x1f0c1800000e0c0007fffe00067cc660019676d80067f7f60019fff1c006605c60018060180060604700183601800675ec60019c61980061c7c60018c031c0061ffc60019fffd80067ffe60019fff980063ffc70;
   0x1b0e1800000e0c0007fffe000638fe6001862698006606260018c03180063ffc60019fff980067fc060018660180062bac60019fff98006306660018c03180061ffc600187ff180063ffe60018fff980063ffc60;
   0x1b8fd800000e0c00055754000638fe6001877fd8006676760019fff1c0063ffc60019fff980067fc87001bfffd80067ffc60019fff98006204670018fdf1c006181c6001870618006067060019c0398006318c70;
   0x39879800000e0c00000600000638c660018f3f980066e6e60018eab18006326c600180701800660d86001bfffd800607e06001806018006026660018e8b180061aac6001839e18006063060018fff980063bac60;
   0x71c398000007ec003fffffc0067dc660019f061800674706001ffffdc006366c600181f81800660cc700180f0180061ff06001bfffd80060f6670018c031c0061ffc600181fc18006c63060019fff980067ffc70;
   0x70c018000003ec003fffffc006ccfe60019b83180067c786001bfffd8006326c6001839c1800660ce600183f81800639b86001bfffd80063c6260018fff18006180c600181f018006c63860018c0398006c18c60;
   0xe0e0180000000c001557554006c6df6001b1c3180067fff6001871c1c006ffff60018f0f180067fc77001871e18006719c6001806018006707370018fff1c0061ffc600187be18006fe1f60019fff98006c18070;
   0x1e070180000000c00000600000603c06001b0c398006636360018f8f18006ffff60019c07d80062ac360019e0f98006218f6001806018006207be0018c03180061ffc60018e0f980067e0760018fff98006ff8060;
   0x3c07c180000000c00000600000710c06001c4f1d800678786001bc07dc00600006001d8019800740417001dc07d80061186600180601800600117001d4001c007581c6001d4011800600016001d00018006150070;
   0x3801c180000000c000006000007e0006001f80018007f8786001f80098007e0006001f80018007e0006001f00098007e1806001f06018007e0006001f80018007e0006001f80018007c0006001f80018007e00060;
   0x3000c180000000c000006000003e0006000f80018003c0006001f0001c003e0006000780018003e0007000f00018003e0006001f00018007e0007000f8001c001e0006000f80018007c0006000f80018007e00070;
   0x0;
   0x0;
   0x0;
   0x0;
   0x0;
   0x0;
   0x0;
   0x0;
   0x0;
   0x1c00000038000000000000003070000000600000001c00000000000000018000000018000000000000000600000001c000000000000000000000000700000018300000000000000700000000000000000000000;
   0x18c3f8000380fe0000003f8003030fe0000603f8000180fe0000003f8000181fe0000183f8002aa8fe0000603f80000c0fe001ffe7f8000001fe0000603f8001830fe0000003f8007fa0fe0000003f8003e00fe0;
   0x79c7fc000381ff001ffe7f8003038ff0000603fc000381ff007fffffc000181ff00001c7fc003ffdfe0000f07fc0000c1fe001ffeff8007ffbfe0000607fc001831ff001fff7fc007ffdff0000007fc007ffdff0;
   0xe0c618000380c6001ffe618003038c6000060308000381c6003fffb180001818600000c618003ff9860000f071800fffec6001aae618007ff9860000e0718001830c6001fff3180000fcc6003ffff180003fdc60;
   0x1c1c31c007ffce700000071800301ce7003fffb9c00fffec7000c0039c000181c7007ffe71c00301cc60001f831c00fffec600180e718006019c600155571c001830c700000031c00001cc7007fffb1c000394c70;
   0xc318007ffc6600000031800300c66003fff98800fffee6000c0019800ab80c6003ffe318003018c600039839800aaeae600180e318006018c6003ffff1800fffee600000039800000ce600030c398000380e60;
   0x3fffd9c0003807700000039801ffec670038619dc00c00667000c0019c01ff8067007fff39c00301c6600071c19c0000706600180e318006018e6003ffff9c00fffe6700000019c00001c6700031c19c000380670;
   0x3fffd980003803600000019800ffee260018618c800c00666000c2a89800ff806600006319800301866000e0e1980002306600180e3980060186600001819800baba6600000019800000c6600030c198000380660;
   0x3fffddc00038037003fff1d801754f370018618dc00c03677000c7f8dc000180770000739dc003ffc76001c070dc00073076001ffe1980060187600001c1dc001830370000001dc007ffc3700031c1dc000380770;
   0xcc19800038036003fff19800300fb60018618c800003076000c7f8d800018076000061dd8003ff866003803cd800033876001ffe398006018760000180d800183036003fff9d8007ffc3600030c1d8000380660;
   0x11cc39c01fffe77003fff39800300ff7000d759dc00103067000c6399c000180e7003ff1b9c00301ce600370dd9c0007186600180e318006018e6001ffc19c00183077007fffd9c00707c7700031c39c0057d4e70;
   0x38cc31800fffee60000e03180030cd66001fffb88003830c6000c63b98000180c6003fe0318003018c600030c31800abbcc600180e718007ff8c6001ffc31800183066002bbeb9800706ce600030c31800fffec60;
   0x1dcc71c01fffec70000e07180031cce7001fffb1c007e31c7000c63b1c0055d5c700007071c00301dc600070c71c00fffdc600180e618007ff986001ffc71c001830c700039c31c0070dcc700031c71c01ffffc70;
   0xcce618000380c60000e261800318cc6000c0db08000fb186000c63b18007ffd860000606180030198600030c61800fffcc600180e61800601986001c0c61800fffec600038c3180030ccc600030c618000381860;
   0xfc661c000381c7000eee61800338cc7000e1db1c0007f187000c63f1c007ffd8700007061c00301d8600070c61c000701c6001ffe61800601986001c0c61c01ffffc700039c71c0039ddc700030c71c000381870;
   0x6c661800638cc6000ce661800330cc6000619b080000f186000c6bb1800600d86000060618003ff98600030c618000301c6001ffe61800601986000c0c618001830c600038c31800198d8600030c618000381860;
   0x7c775c00638cf7001ce775800370cc7000719bdc000031df000c7fb5c00700dd7003ff075c003ffdd600070c7fc000701d6001806758006019de001c0e71c001831c700038c7fc001d9dd700030e75c000381d70;
   0x3c33d800638cfe0018e33d800320cfe0003b9be8000030f6000c2bbf800600cf6003fe03d8003018f600030c3f8000300f6001806798006019f6000c0e3d8001838ee00038c3d8000f8cfe00030e3d8000380f60;
   0x1c31dc00638c7f0018e31d800300c770003f1ddc00403077000c039dc00700c770000701dc00301c7600070e1dc01fffe7600180619800601876001c073dc001818ff00038e1dc000f0c7f0033061dc000380770;
   0xe381800638c060038e381800300c060001e0c0800c03006000c0381800600c060000600180030180600030e01800fffe0600180601800601806000c070180018182600238e018000f0e06006307018000380060;
   0x71f1c1c00638c070030e1c1800300c070001f0c1c00c03007000c0001c00700c0700007001c00301c0600070701c00070006001807018007ff806000c0381c00181c0700738701c001f8e0700730701c000380070;
   0x30f9c18007ffc060030e081800300c060007f8e0800c03006000c00018007ffc060000600180030180600030701800030006001803818007ff806000e03c1800180e06003383818003fc606003303818000380060;
   0x3fdef1c007ffc070010f401800350c07001f3e71c00fff007000c0001c007ffc0700007001c01ffff8600070781c00070006001d83818007ff806000e41e1c00180f07003783c1c0079f707007f01c1c000380070;
   0x3f8c718006aa8060000fc018003e0c06003c0f308007ff006000fe0018006aac0600006001800ffff86000303c1800030006001f01c1800601806000fe0f1800180786003f81e1800e07b06003f00e18000380060;
   0x150021c0060000700007c018001e0c0700100721c003fc0070007e001c00700c0700007001c0000000600070181c00070006000f00c18006018060007e061c00180307001f0041c00c01307001e00c1c000380070;
   0x0;
   0x0].
Definition hanzi_rows_196 : list N :=
  [0x0;
   0x0;
   0x0;
   0x0;
   0x0;
   0x0;
   0x0;
   0x7000000038000000000000000000000000c00000001c0000000600000003800000073000000070e000000600000001c000000000000000000000000c00000001c000000000000000000000000000000000e0000;
   0x603f8000180fe000fff3f8007ffcfe0000e03f8000180fe0000603f8000380fe00037c3f800020efe0000603fc000380fe0000003f8003ffcfe0000c23f80000e0fe003fffbf800fff8fe0002aa3f8000060fe0;
   0xe07fc0003c1fe000fff7fc007ffdfe0001f03fc000381ff0000607fc000394ff00071fffc00470fff0000607fc000381ff003fffffc007ffdfe0000c67fc003ff1ff003fffffc00fffcff001fff7fc000071ff0;
   0x3fffb180007e0c6000c0331800600cc60001b839800abaac6000aeab08007f88e600030fb1800e20ec60000603ac000300c6003fffb9800300d860000c6318003ff8c6002aea7b800aba8e6000fff318000070c60;
   0x3fffb18000e70e6000c0731c00600cc600079c19c00fffee7001fffb1c007f9c6700070c31c007ffee7001fff99c01fffec700007019c00701dc60000c639c00383ce700006031c0007006700070031c00ffffe70;
   0xc06398001c3066000c0339800600ce6000f0e19800eaae66001fffb880003886600030c198003efe66001fff98c00fffee600007019800300cc6001ffe198001c3e660000603980003026600038039800ffff660;
   0xc0619c003c3c66000fff19c007ffc66001e071dc00c0066700006019c00039c77003fffd9c00070e770000601dc0001c0670000701dc007ffce6001fff19c000eef7700007019c007ff7770003c019c000030670;
   0xe0e19800701c26000aaa198007ffc660078038d800c0062600006018800038836003fffc9800020e36000c630cc0000e066003fff8d8003ffc660000c30980007c236001fff198006ab3360001e00d8000038660;
   0x60c0dc01ffff360000001d800600c76003fffcdc007ffc370000601dc00ffff3700175d4dc00c70e37000c670dc00386037003fff8dc00701c760000c30dc0007c037001fff1dc006337370003f00dc000198770;
   0x70c0d800dfff36001fff8d800600c66000ffe8d8003ff836003fffcc800ffff3600030c0d800828e36000c660ec00187036003bbb8d800300c660000c38d8000ff036001aab0d800623336000fbc0d8000198360;
   0x7fffd9c00955366001fff99c007ffce60005f41dc00000067007fffddc0055d57700070e1dc00d7fe770006661dc001ff8670039999dc00701ce60000c199c01fc7f77001c0719c00633777003f1f19c00019c770;
   0x3ffff98000000e6001803b98007ffcc60000e0398000000e60000603880001886600030e39800fe7ee600066e18c000ffce6003999998003ffcc60000c039800f30fe600180339800673366003807f1800018ee60;
   0x7ffff1c006180c6001c63b1c000101c60000e031c000000c700006731c006198e700070731c007d4ec700076431c00077cc700399999c007ffdc6003fffb1c004303c7001c0771c006f3767003001f1c007ffec70;
   0x31800618cc6001863b1800018186003ffff1800fffec6000066308006198c6000363b18000180c6003fffb0c00e380c6003999b1800018d86003fffb18007ffec6001803618006db3c6000000618007ffec60;
   0x155571c00718dc6001c63f1c000181c6003ffff1c01ffffc700006771c00719cc700006171c0001c0c7003ffff1c0071c1c7003999b1c00419d860001f071c007fffc7001fff71c0079f7c7001fff71c000180c70;
   0xfff318003388c6001863b1800018186002aeab18000e60c6001fe330800318cc6000060318000180c6002aeab0c0030e0c6003999b1800f38d860003f0318002baac6001fff618006033c6001fff618000180c60;
   0x1fff35c003318fe001c63f5c007fffd60004e03dc000e70f7001fe771c00398ef7001fffbdc007ffff70001f03dc00387ddf003999bdc007b1dd60003d835c00030cf7001c0771c006037f70000e075c00199cf70;
   0xc033d8003b18fe001863bd8007ffef6000ee63f8000e30fe0000633e8001986fe001fffbf8007ffefe0001b03ec001c1efe0039999f8001f0cf60006dc3f800030cfe0018033f80060337e0000e03f800398cf60;
   0x1c031dc001b1876001c739dc00018076001ce70fc000e30770000671dc001c047f001fff9dc0055d4770003b81fc000f0c770039998fc000f1c76000ecc1dc00030e7f001c073fc007c37770000e01dc00718c770;
   0xc03018000808060019b3818000180060018e3818000e380600006f808000e00060000600180001800600039c00c000f8006003999818000e0c06000cce01800fffe06001803018007c33060000e001800618e060;
   0x1c0301c000c00060007f801c000180060038e181c01ce180700007d81c0007800700006001c0001c00700071e01c003fc00700399981c001c1c06001cc701c00ffff07001c0701c000017070000e001c00e187070;
   0xeab018000e0006000f1e018000180060030e1c18008e1c0600007dc080003e00600006001800018006000e0f00c0078f0060039998180039ec060038c381800030006001fff018000003060000e001800c183060;
   0x1fff01c01ffff06001e0f81c01ffff860030e0c1c01de0f07007ff9c1c0000fc07007fffe1c01ffff87003c07c1c00f07c0700399981c00f1fc060030c1c1c00030007001fff01c01ffff07007fffc1c01c1d3870;
   0xfff01800ffff06007803c1800ffff860000fc01800fe0786003fe0e0800003f06003fffe1800ffff86003803e0c00e01e06001f9981800e03e060000c08180003000600180301800ffff06003fffc180001f0060;
   0x1c0301c00000006003001c1c0000000600007c01c007c010700150041c0000070700000001c00000007001000c1c00400607001d1181c004004060000c001c00030007001c0701c0000000700000001c0001f0070;
   0x0;
   0x0;
   0x0;
   0x0;
   0x0;
   0x0;
   0x0;
   0x0;
   0x0;
   0x18100000001c00000006000000100c000000e000000000000000018000000700000000e0000000060000000000000000c000000000000000180000000180000000180000006000000038000000400000000000000;
   0x1c301f8000180ff0000623f800381cfe0000603f800fffefe00001c3f80003007e0000603f8000060fe001fff3f80000e0fe000fffbf8000180fe0000383f8000018ff0000603f8000180fe000ff83f80000aafe0;
   0xc70ffc007fffff0007667fc001c18ff0000707fc00fffeff0003fc7fc000301ff0015757fc00ffffff001fff7fc003ff1ff001fffbfc0007e0ff00001c7fc00001cff0000603fc0001c0ff000fff7fc0001ffff0;
   0xe60d88007ffec3000e66318000c38e6001fffb18000000e20007fe31800fff3e6001fff31800fffec60018c3308003ff8c6000863b08000ef0e6000ffc31800000ce3001fffb98007ffee60000ef31800ffeae20;
   0x7ffdd9c001c38e7001c6731c000e3067001fffb9c007ffc6700030731c01fff767001fff31c000030e70018c331c00383cc7001c63b9c001c7c67001ffc39c00fffe67001fff99c007ffe670000e039c00ffc7770;
   0x3ffd988000c3063003863b9800001066001861998007ffc620001839980001866600180339800003866001fff188001c7e66000fff98800781e66000e0e19800fffe63000060198006186660000e019800c6c2320;
   0x55d59dc00ffff77003061d9c00ffff77001c619dc00701c770015d5d9c0001ce77001fff19c007ffc67001fff19c000ee767001fff99c01f55ff700060719c00e037770000601dc00618677003fff99c00c6c7370;
   0xe00c800ffff33001fff99800ffff36001aeb8d800600c32001fff998007fe036001fff198007fec260018c30880007c2660008638c800dfff3600070389800e03bb3002aea8d8007ffe36003fff89800c6fe320;
   0x38f00dc00555537001fff9dc00042037001fff8dc007ffc37001d550dc007fe037001c031dc00070e370018c30dc0007c037001c638dc001ffc37000303cdc00eff9f7003fffcdc007ffe37001ff70dc00c6ff1f0;
   0x1dbdee8002aa8330018038d8000e70360018618d8007ffc320018000d80060f03e0018030d800abaf36001aeb0c8003ef836000fff8c80000003e000381ed800eff9b3002aaa8d80061863e000ee60d800eec23a0;
   0xf9dfdc003ffc77001c0399c001c3877001c719dc00000077001fff1dc0061fff7001fff19c00fffb77001fff19c01fc7f77001fff99c0064ff7700013cd9c00e0cc7700071c1dc00618677000ee61dc006cc7770;
   0x7c198800300ce3001fffb9800381c66001861b9800aaaa62001fff398007fdfe6001fff398000000e6000aaa38800ffffe60000603880066fe66000abe39800e0c6e3001e0f398006bae66002eee998006cc2620;
   0x77199c00355cc7001fffb1c00f00fc7001fffb1c00fffec7001c0031c007fcf6700000031c005554c700000031c001ff9c700006031c0066c767001fc7b1c00e0c4c7007c37f1c007ffe67003ffff9c006cd7670;
   0xf39b88003ffcc3001803b1800c002c6001fffb1800c826c20018003180060ce66000000318007ffcc6003fffb08000198c6003fffb080066c2e6001a81b1800effec3003039f18002aeac6003ffff18006cfe620;
   0x1f9db1c00300dc7001ffff1c007ffec700067031c00dc76c7001ffff1c0075ce67003ffff1c00701cc7007ffff1c00019dc7003ffff1c0066ffc7001801b1c00fffec7000ffc31c000670c7000ee631c007cff670;
   0x1fc1b8800300cc3001fffb18007ffec600067831800cc66c2001fffb18007fce66003fffb1800600cc60000c6308007ffcc6003860b080066fee6001801b1800ecccc3000ffe318000638c6000ee63180038c2620;
   0x36e19dc003ffcf700006035c007666f7000e783dc00c6c6f700001835c0075ce670000e075c007ffcd70011c635c007ffec7003b61fdc0066c7f7001fffbfc006cccf700060f3dc00061cc7001ff731c0038c7770;
   0x36799e8002ba8fb0004623d8006266fe001a783f800dff6fa0000783d80060ce7e0000e03d8006aacfe0039863c8000186fe003a60be80066c27e001fbfbf8006cccfb00070fbf800ffffee003fffb980038c27a0;
   0x71f8fc00018077000e671dc00766677001f7c1dc00dff677000cf79dc0061ce7f001fff1dc00701c77001f861dc0055d777003ff1ddc0066ff3f0018019dc006ccc7f00039dddc01ffff7f003fffffc0039f71f0;
   0x30d80800ffff03000c6301800626606003fee01800c18602001dc6c180078ce06001fff018007ffc06000f86008003ffc06003ffe8080066fe06001801818006ffc030001f801800aeaa260000e01f80039ff820;
   0x3e3c1c01ffff07001c6381c0076660700176701c00c18607001886c1c0079df070000e001c007ffc0700070601c0055d407003c7fc1c0064c70700180181c006ffc070000f001c000600070000e001c007cdf870;
   0x1c7e0800018003003861c180062660600206381800c18602003e06e1800003b860000e001800600c06000ee6008000180060038008080060c206001aab818006000030003f8018000600060000e0018006cc0020;
   0x7ffe71c00018007007060e1c01ffff87007563c1c00c1860700375661c01fff1c7007fffc1c00701c07001cff01c01ffff07003801c1c0060d707001fff81c00700007001fdf81c00060007001fff81c00e6c0070].
Definition hanzi_rows_197 : list N :=
  [0x3ff83080001800300007c01800ffff86003fe0e1800f986020033fe61800ffe086003fffc18007c0c0600783f00800ffff06003e00808007cf206001aab818003e0003003e07e1800060006001fff81800c7c0020;
   0x1fc021c0001800700007c01c0000000700154041c007106070001fc01c0014008700555541c003c1c0700300701c00000007001e01c1c0078770700180181c003e0007003001c1c0006000700000001c0043c0070;
   0x0;
   0x0;
   0x0;
   0x0;
   0x0;
   0x0;
   0x0;
   0x0;
   0x0;
   0x19800000001c000000604400005801800019803000001c000000063800005c0000001301c0000000000000060000006600000000e38000001860000003000000031c0000006000000070000000000000001c0000;
   0x1d87f800001800000360cc0000d80180001d80300000180000000e180000ec2aa0001b00c000fffffc0000860000007600000000c38000003860000003800000070c000000600000aabafe001fffbf80000e0fe0;
   0x19c7f800003800000370cc0001dc01c00019c030007ffffc00001c1c0000cc7ff0003b80c000fffffc0003c63000006700000001c1c0000070700000038000000f0e00007ffff000fffffe001fffbfc007fffff0;
   0x38c6b800ffffff000220cc00018c00c00038c038003ffffc000ffffe0000ce7fe0003180c000aaaaac000786380000e31ff000ffffc0007ffff8001fffff80000e0e00007fffe0000038c6001801b88007fffe20;
   0x30c61800ffffff000630cc00018cffc00030cff8007ffffc001fffff0001c618c00071d5d40007630c000fc61c0000431ff000ffffe0007ffffc001fffff80001c070000757540003ffc66001fff99c006107670;
   0x3ffe6180002e030003ff0cc000ffeffe003ffeff80030001c00000e07000fff18e003ffdffc0006638c001ce60e000fff98000000c0f00000301e001800e1800fffff000060600000030e66001fff98800699b620;
   0x3ffe61800077038003ff0cd800ffee06003ffe1dc0070001c0007ffffc00fff186003ffdffc000e738c003c7607000fff9c00007ffff80015755f00180e71800fffff8001757554007ff736001c019dc006db7770;
   0x1877f8000e7018000238cc8000cfe070001870cc003ffffc0007ffffe000c798600030e06000aeb18c00183e03800061d830007ffffc003fffff80181c71800006038003fffffc00000266001aab8c80067b3320;
   0x1877f8005d719c000739dd8001cf6570001871cc007ffffc00000e06c000c7d8600031f06000fff9cc00001f00000061dc700000c0dc0015755b00055d7800000603c003fffffc007ffcc6001fff8dc0075d7370;
   0x187e1800fff9ce00023ffc8000cfeff8001878c80000c31c000aaeae0000c6d8600030f06000fff8ec00001be0000061ece0007fffc000003018000ffffc00000603e000606000003018c60003020c8007ffb320;
   0x1fffe1800577cf7001ffffd8005dfeff001fffdd40000c31c000ffffe000ffffff00175f77000063dec000039fc0007fffdc0007fffc0003ffff8000fffff0007ffff7000606000007ffdc60003871dc0077f7770;
   0x1ffee1800063eff001ffecc800ffe6c6001ffeffc002aeb9c00000e06000ffe7fe003ffc33000063efc001fffffe007ffafc00000c0c0003ffff80000180f8003ffff38007fffe0003018c600099b1880067e3620;
   0x18661800063f77001774cd800ffe6c6000186ffc007fffdc00000e060005d77ff003ffc330007ffffc001fffffc00061878001ffffc00000301800001c0fe005575730007ffff0007ffcf6000fdfb9c006db7670;
   0x1867f8007ffa38000230cc8000ce6c60001860c0000180ec001ffffe0000c61e000030c3b8007ffafc00003018000061870001ffffc0007ffff80007fffcc0000603000000e000003018260007cff0800699bc20;
   0x1867f8007ffb1c000730cd8001ce6c60001860c00001c1fc001ffffe0000c71f000031c1b8000639dc0000301c0000618700000000c0007ffff80007fffc000006030001c0e070007c3c06001f57f1c00699fc70;
   0xbae61800063b8e000230cc8000ce6c6000bae1c0003ffffc000006020000c61b000030cd98000638ce000ffff8000aeb8f00000ffff8000008180000180c000006030000e1e0e0003c7e06001b1b308006083c20;
   0x1ffe61800063bff001ff0cd800ffe6fe001ffe1e0007fffdc003fffffc00fff1b8003ffcddc000639ce000ffffc000fff9f800007fff80000181000001c0c0007ffff00007be3c00007f7c0001fdfbdc0001c0f70;
   0xbae618007ff9be001ff0cc800ffe6fe000bae3e0000180cc003fffffc00ffe19c003ffcccc007ff8ce00003018000aeb9d800006aea0000018000007fffc0003ffff00001f6380003f8dfe003fffde800ffff7a0;
   0x187f18007ff9c0000730cd8001ce606000186770007fffce00155fd54000c719c00031dcce007ff9c6000ffffc00006199c001fe060001ffffff0007fffc0000060300000f7d0000fc0c7f0031f1c5c01ffff3f0;
   0x187ff8000638e0000236fc8000ce606000186e70003fffce00007fe00000c618e00030d860000638c6000ffff800006198e001fe060000ffffff0000180c0000060300001e7f8000ee6ce3000c888080003e0020;
   0x1861fe00063870000737ff8001ce7000001864300001c1c60001f6780000c718700031df70000639c70000301c000061807001c007000000180000001c0c0000060300007c67f0001ccc70001ccdc1c000770070;
   0x3ffe03c00aeb838000233cf800aee600003ffe438000180c60007c63e000ffe183802badff0000638c300003018000fff803801800380000018000000180c000fffff0001f060fc0018cc3000188cc08000e38020;
   0x3ffe00000fff81e003ff1e3c01ffe770003ffe01c00ffffc7007f060fc01fff1f9003fff1f001fff9c3003ffffc001fff801001c001f000001800001ffffc000fffff0003e0603c0039cc3c00319ce1c007c1f070;
   0x600000aab80f003ff040400aae3e000000600c00aaaac380380603c00aae1f8002aaf00000fff8c3803ffff8000001800000fc007800001800000ffffc000000030001807e0800318f9800319860800f80fc20;
   0x6000000038020000300000000e1f0000006000000001c10010060040000707000001c000000039c10000001c0000018000007c0018000018000000000c000000030000003e0000000f0000301841c00c001c70;
   0x0;
   0x0;
   0x0;
   0x0;
   0x0;
   0x0;
   0x0;
   0x0;
   0x0;
   0x1c0070000b00000001700c00005c0700;
   0xfffff0003ffffc000fffff0003ffffc000fffff0003ffffc000fffff0003ffffc000fffff0003ffffc000fffff0003ffffc000fffff0003ffffc000fffff0000000000006c39a0000d8ffe0003b00e0000ec0300;
   0xfffff0003ffffc000fffff000155d54000557550003ffffc000fffff0003ffffc000fffff0003ffffc000fffff0003ffffc000fffff0003ffffc000fffff000ffffff000ec71b0001d8ffe000331fe0000cc1780;
   0x60000000180000000600000001800000aaeaa800001800000aaeaa80000180000000600000001800000006000000018000000060000000180000000600000ffffff000cc633000198c06000739fe0001ce7f80;
   0x3fffffc00ffffff003fffffc007ffffe001fffffc00ffffff001fffffc00ffffff00155755400ffffff001fffffc00ffffff003fffffc00555d55003fffffc00001800000c6e3300019cc66000619d70001c67fc0;
   0x3fffff800eabaab003aaeab80060180200180600800fffffe00180600800fffffe003fffff800fffffe00180600800ffffff003fffffc00fffffe003fffff800001800003fecff800ffcc66003ffcc3000fff30c0;
   0x380601c00e55957003ff6fdc007fdbff001ff6ffc00e01807001ff6ffc00e01807003d5755c00e01807001ff6ffc00e0180700380601c00f55d5700380601c00001800003ff0ff800ffedfe003ffcc3800fff30e0;
   0x3bf6fd800efdbf3003bf6fd8006fdbfa001bf6fe800efdbf600180600800efdbf600380601800efdbf6001bf6fe800ea9aa3003aa6a8c00e01806003bf6fd8007ffffe0006701b80018edfe00031ee7c000c79860;
   0x380601c00e018070007f6fe0006559570011567d400ffdbf7001ff6ffc00e55957003ff6fdc00ffdbf700115655400efdbf7003ff6fdc00ffdbf700395655c007ffffe0006779bc001cfc6600071f7ec001c7dc70;
   0x7f6fe0001fdbf80007f6fe0000fdbf80003f7fe000e018060003f6fe0000a9aa8003bf6fd8000018000003f6fe000e0180300380600c00efdbf6000006000006abaae00067f9be0018fc6600031b3c0000c7fff0;
   0x7f6fe0001fdbf8000007000000c1810000007000001fdbf8000006700001fdbf800380601c001fd3f8000006000001fdbf80007f6fe000e018070007f6fe000701806003ffe7fe00fffffe00175f7c000fffffe0;
   0x20000038008000000e000000e1870002aaeaa8001fdbf80007fff80000018e00007f6fe000003800001fffff0001fdbf80007f6fe0001fdbf80000060000060d866003fe67fc00ffdeae003ff86e000ffe3000;
   0x1fffff0003fffff003fffffc000799e0003fffffc000010000007fffe0003ffff00007f6fe000007f00001fffff000001c00000007000001fdbf8000fffff00077d9f60006661b8005dcc06003ffde70001c77000;
   0xaaaab00003fcea003fffffc000398800000e038000ffffff0003c03f8003ffff80000020000003e7c000000c0300000180000000600000000800000ffffe0006f1bc60006661b80018cdfe000319838000c63000;
   0xffffb000018070000155540001ffff8000071f0000ffffff0000fdf380038001c0007fffe0007fddfc00000c03000ffffff003fffffc001ffff800000000000741b060006661b8001ccdfe00071d81c001c77000;
   0xffffb0002ba8180003fffc0001ffff800003fc0000001c000000ffe000038aaae0007fffe000fe383f80000e03000ffffff003fffffc001ffff8003fffffc00601806002ee6bb80018cd1e000318ffc00aee3fe0;
   0x30007ffdff000000000001d55580001fff40007ffffc007fffffe0038fff700060606000f03007001ffffb0000003000001c01c0001c0000003fffffc0070d836003fe6ff800ffcd1e003ffdff800fff7fe0;
   0x3fffff0000181ea0003fffc0001ffff8003ff8ffc003ffffc003e030fc0038e032000606060001ffff8000ffffb8000aab800000e0380001800000000003000063d8f6002ee6ff800ffcd1e003ff883800aee3000;
   0x3fffff0000180c40003fffc0001d5558003fc037c0075d75c000007000001fe0300007fffe0001ffff8000c06038001fff800000f0f00001ffff8000555780007799c600067e1b8001ccdff00071dc38001c77000].
Definition hanzi_rows_198 : list N :=
  [0xe1833000fffeec000000000001aaab80000c03000030c30c0007ffff0001efff00007fffe000070000000c07038001c01c000003be00001ffff80007fff80006e1b8600067e1b80018cdfa000318838000c63000;
   0x7f073800fffe7c0007fffe0001ffff80001c03000070c31c0007ffff000c755700006060600003c7c0000c07018001c01c000001f800001c00000007555400074190600066f1b8001ccc1b00071dc38001c77000;
   0x1e0318000000f80003000e0001800180000c03800030c30c000601e0000c000300006060600000ff80000e03818000c00f000003fe000018000000030000000601806003fe3ff800bacc03002bb883800ffe3fe0;
   0x5fdff1c01fffffe0007fffe0001c00180001c01c00070c31c000700fc000f555700007fffe00000fc00000611f1c000c507c0017fdff0001ffffc00030000000751806007fe0ff801ffcf83007ffdff801fff7fe0;
   0x3e0ff8e00ffff8f0003fffe0001f80180000c00f0003cc30c0003f03f8007fffe00007fffe00003e0000007e0fce000fe03f003fe03fc001ffffc0003ff000007e180600006003800aacf83802ab8ff8000063000;
   0x100050c005550030007000e0001f00180001c0060003cc31c0001f0078001fffc0000600060000180000003f018c0007e007003c0007c001c00000001ff000003e18060000600380000c70100001dc38000077000;
   0x0;
   0x0;
   0x0;
   0x0;
   0x0;
   0x0;
   0x0;
   0x0;
   0x0;
   0xc0040000000600000060000000000000000000000000000000000000000000000000000000000000000000000000000000000000000000000000000000000000000000000000000000000000000000000000000;
   0xc0060007fe060000006000003ffffc000fffff0003ffffc000fffff0003ffffc000fffff0003ffffc000fffff0003ffffc000fffff0003ffffc000fffff0003ffffc000fffff0003ffffc000fffff0003ffffc0;
   0x3fff060007fefff001fffff0003ffffc000fffff0003ffffc000fffff0003ffffc000557550003ffffc000fffff0003ffffc000fffff0003ffffc000557550003ffffc000fffff0003ffffc000fffff0003ffffc0;
   0x3fff0e0006aefff000fffff0000018000000060000000180000000600000001800002aaeaa80000180000000600000001800000006000000018000000060000000180000000600000001800000006000000018000;
   0xc00c00060606000000600000ffffff003fffffc00ffffff001fffffc00ffffff003fffffc00ffffff003fffffc007fffff003fffffc00ffffff001fffffc00ffffff003fffffc007fffff003fffffc00ffffff0;
   0xaea7fc006262ea0007fffe000e01802003aaeab800eabaae001fffff800e0180200380600800eabaae003806008007ffffe003fffffc00fffffe00180600800ffffff003aaeaa8006abaaa00380601800fffffe0;
   0x1fff7fc006667ff0007ffff000ffdbff003ff6fdc00ffdbf7001bf6fdc00ffdbff003ff6fdc00ffdbf7003ff6fdc006fdbf700380601c00e01807001ff6ffc00e01807003ff6fdc007fdbf7003ff6fdc00e018070;
   0xc00000066606000000600000efdbfa003bf6fd800efdbf6001bf6fd800efdbfa00380600800efdbf6003aa6a88006fdbf6003bf6fcc00efdbf6001bf6fe800efdbf3003bf6fc8006fdbfa003bf6fd800efdbf60;
   0x15d531c00666575001557554001fdbf800380601c0075595700180601c001fdbf80007f6fe000e018070017f6ff40060180700395655c00f5595700195655c00f55957001556554006018070017f6ff400f559570;
   0x3fffb1800666fff003fffffc001fdbf80007f6fe0001fdbf80003f6fe0001fdbf8000006000001fdbf80002a6aa0000fdbf80022a6aa8000a9aa80003f6fe000a018020007f6fe0000fdbf80007f6fe0000a9aa80;
   0x7fffb1800666fff003fffffc000019c000000600000001f1c00006600000019b18001fff06000101800000e07ff8001559500007f6fe0001fdbf8000006000001fdbf8000006000001fdbf00000001c0001fdbf80;
   0x39800666000000000000007ff9fe0000c0aa8007fcbaa000ab0ff000018318000eab0f0003fe80c000e07ff8002aa2aa000002080000218200002a8f8000000800000fffff8000038e0001ffffc0000198000;
   0x1ffe198006667fe0007fffc0007ffa7f003ffdff8007fdfff001ff9ff00001cfff001fff1c00017ff7c001f56018007ff7fe001ffc180000700700007f9ff00000c700000fffff800003070001ffffe00001c01c0;
   0x1ffe1b8006667fe0003fffc000631fe6003ffd8380060c308000e1cc3000ffc318000fff3800018c670003fffff80030060e001ffc18000030060000600060007fc3aa0000e0300007ffff000000007800fffff80;
   0x1c061b0006766060007000c0007ff9ec000e318380060c7fc00077fc3000ffffff001d57100001dcc00007fffff80075575e00180dffc00ffffff000751570007fc7fe003fffffc007ffff80007ffffc00fffff00;
   0x1aae1b0006e67fe0003aaac0006bb8fc000631ff8007fc2e80003e2ff00038ffff000fff0fc003e8c0f000e20018003fe7fe00180dffc00ffffff0007f8fe00000c300003fffffc0000303c0006078c8000180030;
   0x1ffe1b0000f07fe0007fffc0006319df003fffff8007fcffe0003e1ff00019f00000000e0fc007fff1e000e73fd80000000e001ffc1c0000f80700006000700055c754000001c00001ffffe00071f1c0007fff1f0;
   0x18060b0000f06060003000c0007ff9e3003ffe0180060cffe001ff81980019b7fe003fff0c00001ae08000e60018003ff00e00180c3e0000fc0f8000600060007fc3fe002aaaea8001fffff003fffffc007ffe180;
   0x1c06fd0004f87560007000c00057537c0001c1ff8007fcc66007d5ff98001f860e003d578c00001c060000ee7ff8007ff7fe00180cff0001fe1fc0007ffff00055c754003fffffc00003037003f57df40071c7400;
   0x1ffeff8008d87fe0003fffc0002bab8f002babff8007feffe002ffaf90000f07fe0038e3ec000ffffb0000ec7ff80038e2ae001ffddb0003b63ec0002baea00000c3000000c0380001ffff000030f8e0006186600;
   0x1ffe1fc01cdc7560007fffc0007ffbf3003fff87c00606060000d58198000f060e0019f36c000ffffb8000e036dc001dc00e001d5ddb80077777600103060000ffc7ff0000f07c0001ffff0001ffffe00071c7700;
   0x180603c008ce6060003000c00003033800018186c00606fff000c18198001f87fe001b1b3c00001801c000e036cc000f87fe00180d19c00e33e6700303070000ffc3ff00007ff8000003030001ffffe0006186380;
   0x1c0600000dc76060007000c00057571f0001c1ffe00607fff000d59fd80079e75e0019ff3e00055d50e000e0666c003fc7fe001ffc18c00c71c730035703c00000c7000001ff00000fffff0000380000007dc71c0;
   0x1f0600000fc3fc60003f00c000fffff3000181fe4007c3060000ff9ffc00f0ff8e001fff0e0007fff07000fc67bc00f8f80e001ffc18000030060003ff00fc0000c300000fefff800fffff00001f8000003d860e0;
   0xf06000005017c60001f00c0005555f00001c0070003c3060000c1805c00c0778e001f00020005555060007c07800040380e00180c18000070070001fc001c0000c700001f007f8000000300001f00000001c0040;
   0x0;
   0x0;
   0x0;
   0x0;
   0x0;
   0x0;
   0x0;
   0x0;
   0x0;
   0x1c06300006018c0003043180007018c000000e300007018c0000006300000018c0001983180030038c000000e300000030c0000c030000000000000000000000038000000061c00001c3000001c01c0000180700;
   0xc06300006018c00030c3180006018c000aa8e300006018c000000630002aa18c0001b8318007c038c000000e300000030c0000c030000fffffe000000000000038000000060c00000c3000001c00c0000180600;
   0x1c1774000605dd00030c75c00c737ff001ffdffc000705dd0007ffffc007ff5dd000198ffc007fcfff003fffffc00ffffff003fffffc00fffffe003fffffc00fffffe000ffffe00001c300000181ffc0015c7ff0;
   0xc1ffc00060fff00030c7fc00e637ff001abbffc00060fff0007feffc006eb7ff000198ffc000fefff003fffffc00ffefff003fffffc0002600e003fffffc00fffffe000aaeae00000c300003ffdffc003fe7ff0;
   0x1ffdffc01fff7ff00030675c006775dd001c1df74005757ff000719774006737ff00019c75c000077dd001775f740006075d0015d5754001f700e0000070000006030e00000607000ffc3ff003ffc1c0001d70700;
   0x1ffc63000fff18c0003063180066618c001818e3000fff98c0003186300066318c00318c3180000638c000630e300006030c0000c03000018300e0000030000006030e003fffffc00ffc3fe00300cae8000c32ea0;
   0x1ddc7f000c631fc003fe73f80037e1fc001c1cff001fff9fc00031c7f0006731fc00398e3f8000073fc000670ff0000603fc0000fff0000fffffe00000300000ffdffe003fffffc0055c35500300cffc000e3fff0;
   0x18cc7f000c631fc003ff33f8003ec1fc001818ff0000601fc0003187f0006631fc00198e3f8000063fc000630ff0000603fc0000fff0000ffffee001fffff800ae8bae0000000000000c30000300c0c0007ff8600;
   0x19cc5d000c6307000333306000174070001c1c1c00007007000031c1c000673070001d8f0c0005570700006701c0000600600000060000001dc0e001fffff8001f0fce0007fffe00001c3000000015d4007ff5750;
   0x18cc0c00066306000333bae800fff030001ff818000060060003f9c0c000663030000f8f8c000ffe06000063018000060060000006000000f8e0e001c6063800379fce0006000600000c300003ffdffc00630fff8;
   0x19ccffc007ff7ff00331fffc00fff7ff001ffdffc00ffffff003f9cffc006737ff00078fffc00fff7ff000671ffc01ffffff0007fffe000fe07fe001c706380077db6e000600060007fc3fe003ffdffc00630fff0;
   0x18ccff800fff6aa00331feec000602aa001819ba800fffffe00181cea8007ff6aa00038d6ec001866aa000631ba800fffeea0007fffe000f800fe001c6063800e6e33e0007fffe0007fc3fe000180000006300000;
   0x19cccdc0075f67700331c64c00070777001c1d99c00fffe7700183ccdc007ff7770001cc6cc001c776700067199c01575e67000606060007ffffe001c7fe380046631e0007fffe00055c354000180ff801fffffe0;
   0x3ffec880060f62200338c64c00060222001819988000f862200183cc88006036220001ec6cc0018662200063198800060e62000606060002abaae001c7fe3800018c0e000030c000000c300000198ff801fffbfe0;
   0x7fffffc0071f67700319675c000707ff001c1dffc001f8777001c7cffc006037770001fc7fc001c77ff000671ffc00060fff0007575600000380e001c7063800ff9ffe003ff1ffc0001c300000198c18006307060].
Definition hanzi_rows_199 : list N :=
  [0x1c0ff80031b7fe00319e7fc00fffbfe001819ff8001f87fe000c6eff8000037fe0001ac7fc001877fe000631ff800060ffe0007fffe0007fffee001c6063800ff8ffe003ff0ffc0000c300003f98ff8006303fe0;
   0x1c01c00033b7ff0031b75f401fffd75001ffd5d4001fc7ff000eee5d40000357500018c5d4001c75750006315d4000605750007fffe0007fffe6001c7563800019c06000031c0001ffc3ff003f98ff8007ff7fe0;
   0x3e00c0003b38600039b30e000060020001ff81800036e0600006c60c00000303000018c0c0001830600006301800006006000000600000630666001c7fe38007f8fe6000ab0ea800ffc3ff000198c18007ff3060;
   0x361ffc001f1fff0019ffffe000707ff801557ffe007777ff0007c6ffc004037ff80118cffe001c37ff80663bffe00060fff8015575540073fe66001c7fe38007f9fe6001ff1ff801ffc35500019cd58007757560;
   0x671ffc000e1fff0018ffffc000607ff800003ffe00e63fff800386ffc00c037ff80218cffe001837ff80663bffe00060fff803fffffc00630666001c6063800018c06000030c000000c3000001bcff8002303fe0;
   0x6301c0001f1fff0018e18e0000700700000001c001c73fff0007c71c001c0307000718c0c0001c387000661c1c000060060003fffffc0073fe67001c7063800ff9fff001571d540001c3000001fcd58000307560;
   0xc380c0003f98600018e00e00006002000000018000860c60000ee30c000c0303000218c0c00018386000261c1800006006000000600000630663001fffff800ff8ffb003ff0ffc0000c3000001eec18000303060;
   0x3c1e1c00073dc700018600e000070070007ffe1c000070870001c7b9c000fff070003f8c0c0001c1c70007e0e1c000060060000006000007fffe3001fffff800019c03005571d540001c300007fe6c18000307060;
   0x380f0c000e0ee60001f700e000060020003ffe1800006006000383d8c000ffe030003f8c0c000180c60003e0e18000060060000006000007fffe3801eaaab800018c03800030c000000c300003f87f980003e3e60;
   0x30021c000c04470000f300e0000700700000001c0000700700030191c0007fc070001f0c0c0001c0870001c041c00006006000000600000700061001c0003800019c01000031c000001c300003f027180001e3c60;
   0x0;
   0x0;
   0x0;
   0x0;
   0x0;
   0x0;
   0x0;
   0x0;
   0x0;
   0x18318001ce0c60006387300018e186000e38718000001cc000004318000600c60000187180000018c0018063180000018c000186198000061ce0001c06300000c0cc000800738000c00460000606300006030c0;
   0xb83180018e0c60006382300018e186000e38218007ff18c002aae31800063ac6000018218007ff98c00180e318007ff18c0003061980000618e00318c6300000c0cc000f80238000c00460000e06300006030c0;
   0x7fc7fc00fffdd700177dffc00ffffff003fffffc007ff5dd003ffeffc007fffff00001dffc007fffff001c1cffc007ff7ff0003067fc000075df0031cd774000fe7ff001fffffc000c05ff0001c177400060fff0;
   0x38e7fc00ffffff003ffeffc00fffbff003ffeffc006037ff002ba6ffc007ffbff003ffcffc00603fff000e1cffc0038c7ff0006067fc000037ff00398fffc001fe3ff0000feffe000c0dff002bebffc00060fff0;
   0x55d775c001ce3ff003fff7740018e1d7000e3875c007577ff00030675c006619d7003fff75c00703ddd007fff75c000fc5dd0006065dc00fff7ff0019ddffc001d75dd0000c177c000c1d57003fffffc00fff75d0;
   0x3fffb180018e0c600063823000fff986000e38218007ff18c000306318006618c6003026218007ff98c003fff318000f018c003fe619800fff98e000d98630000c30cc0000e0238000c1846003aae63000ffe30c0;
   0x5757bf8001ce0fe0007f87f000fff9fe0000607f8007571fc003ff73f801ffdcfe0030777f8007ff9fc007fff3f801fff9fc003fffdf800c01dfe000dd87f0000e38fc0000607f800fff87e0030467f0000603fc0;
   0xee33f800fffefe0001c03f00018e1fe002aea3f8006031fc003bb33f801ffccfe0030633f8006039fc0003203f800fff9fc00000f9f800e18dfe0001807f000fffcfc003fff3f800ffe07e0030c67f0000603fc0;
   0x1c7306001fffe300003f00c0005df430003fff0c0007ff0700033378c000660c180037ff0c0007ff8700003700c00067c07000104606000cd9e30001ffc1c000fffe30007fff0c000ffe0180010e41c0000600600;
   0x189b060000060ba0007380c000fffc30003ffe0c0007ff0300033338c000663e180032aa0c0007ff830003ffe0c00066e03000386606000ed9eba001ffc18000c318300006300c0000e1e180000600c000aea0600;
   0x11837fc005571ff001e3cffc005757ff000030ffc000003ff003ff7ffc007fffff003000ffc005573ff003ffe7fc007673ff0018663fc00cdb3ff00180dffc00c71bff000e38ffc000e1fff000070ffc00fff7ff0;
   0x3fff6ec00fff9bb003c0eeec000303bb003fd8eec000003ba003bb2eec002eb3bb003bfeeec000063bb0031266ec00063faa0018c63ec00e7b3bb00180daa800c31bbb000c1ceec000e1abb003ffeeec00aaa6ea0;
   0x3fff66c00f77fb30077f7cdc007ffb33003fdcccc00ffff370033376cc0006319b003154ccc00fff3330031666cc0007db370018d636c00c7b333001ffd9dc00c31b33001c1eccc001e199b003fffccc000606670;
   0x366c00e23fb30027f2ccc006bbb3300180cccc00fffb320033326cc00fff19b003800ccc00fffb330031266cc000283220018de36c00fffb33001ffd88800c31b3300782fccc003e189b000c38ccc000606620;
   0x1ffb7fc00fffbf7000000ffc00631bff001c1effc00071377003ff77fc00fff7ff0033feffc00c71fff003f367fc000303ff001cdfffc00fffb77001d5dffc00fffbff00363fffc003719df000c18ddc000607ff0;
   0x37fc00fff9ff000000ffc007ffbff000e0fffc000333fe003ff27fc00061fff003aaaffc00c30fff003f1e7fc00fffbfe000cc7bfc00e1c3ff00180dff800fffbff000638ffc003318ff000e18ffc00aea7fe0;
   0x1ffb57400e73975001ffc5d4007ff97500175f5d4005771750003175f400061f5d0039545d400c7197500301e5d400fffd75000dc617400e3c17500180d5d4000f81750006385d40073995d00061c5d400fff5750;
   0x1ffb06000e23830001ffc0c000631830003fef0c0007f30300003b20e000ffdc18003bfe0c000cf98300030060c0000f8030000d8606000e7e030001ffc180000f80300006380c00061981800063c0c000fff0600;
   0x37fe00fffbff001c0dffc00631bff807ffcffc007f37ff8001f77fe00ffddff801b57ffc00dddfff803ffeffe001fc7ff000d867fe00edf7ff801fffffc000fc3ff800619ffc00e1d9ff8007f1ffe00060fff8;
   0x1ffbffe00fffbff00180cffc00ffffff80060cffc00037fff8001e27fe00061dff803b06ffc00e8dbff803ffeffe001be7ff000f863fe00e9bfff80180fffe008ec3ff800618ffc00c0f9ff8003e1ffe00060fff8;
   0x1d5986000e73830001c0c0c001fffc3000061c0c0000778300001c70e000063c18001bfe0c000fff8700030060c0007b707000078606000619c3000180c1c001cee03000061c0c000405c180007c01c0000600600;
   0x181986000e2383000180c0c00060183000060c0c00003d8300003e20e00006f618001bfe0c000fff8300030060c000e3383000060606000618c3000180c180008e703000060c0c000007e18000ee00c0000600600;
   0x1ff986000e73830001ffc0c00060183000061c0c001ffdc30001f770e00157e7180018060c000600070003ffe0c001e31e70007fff4600071843000180c1c001de3c3000060f0c001fff718003c7c1c001fff8600;
   0x1ff8c6000f23830001ffc0c0007818300007cc0c000ff0e30003c3a0e000ff8398001f800c0007c0030003ffe0c000830c30003fffc60007d8030001f0c18000fe1e300006078c000ffc31800381f0c000fff8600;
   0x181886000773830001c0c0c0007818300007dc0c00054043000301f0e000fc0118000f000c0007c00700030060c000030070000003c60003c0030001f0c1c0005004300006030c000ff02180030071c0000000600;
   0x0;
   0x0;
   0x0;
   0x0;
   0x0;
   0x0;
   0x0;
   0x0;
   0x0;
   0x300000600c000001c00000070c00004000300000000c0000300000000c01c00008c0300000001c000001c000;
   0xaaaa00003fffb8000fffb06003fff80000fffaaa002aaa83000fffc00002aaaaa800aaa8300000600c000001800000030c00007e0030001ffe0c0000303fe0000c00c0001cc0300000000c0000018000;
   0x3ffeff800ffffff003fffdc000ffff06007fffc0000fffbff007fff83001ffffff003fffffc00fff8700000701c0007ffffe000070c00007ffc30001ffe0c0000303fe0000c01c00038c030003ffc1c000001c000;
   0x3ffeff800abaaff002aea8e0000603260000603fc00aeabff002aea830000303ff003fffff800ffffff000031ffc007ffffe000030c000003f83000180e0c000fffb060000c0ffc0030c030003ffc0c0007ffffe0;
   0x1c000000018018000070070000707760000707fc000700300000e00300003803000000700000e187ff003ff9ffc007ffffe001570d5000e103ff001c0effc00fffb56003fffffc0070c3ff003181ffc007ffffe0;
   0xc000000018018000030038000303260000302e8000300300000600300003803000000300000e1818e003ff8c38000700e0001ff0ff800e39bff001aaeffc000303fe003ffe0c00020c3ff003981ffc002abaaa0;
   0x1ffc000007ffc18001fff01c007ff776001fff060007ff030001fff030007ff830000557d400061c18c003d5ce30000701c0001ff0ff800731830001ffe0c0000303060000c01c000fffc300031981c000001c000;
   0x1ffc000007ff818000fff008007ff326000fff060007ff030001fff7f0007ff8300007fffe000e1c08c00380e630000381c0000030c0000333030001aae0c0000303060000c0ff800fff8300039980c0000018000;
   0x180dffc00701c18001c0370000603776001c0306000603030001d577f0006018300007fffe00060c0dc00380e670000381c0000070c0000377175001c0effc007ff3fe0015d4ffc0000c1750031d9ffc00155d540;
   0x198dffc00630818000c2338000623326000c6306000623030001803030006318300006000600060e7ff80381bffe00ffffff000030c00003823ff00180effc007ff3fe001ffec080000e3ff003998ffc003ffffc0;
   0x19cc77000731cff001c631c000673776001c63060006735750018e703000671830000606060007e77ff00187bffe00ffffff001ff0ff80001c3ff001ffe5d400030000001ffeffc005563ff0039dd5d4003ffffc0].
Definition hanzi_rows_200 : list N :=
  [0x198c630006308ff000c630e000663326000c63060006637ff8018e303000631830000606060003e38000038e000000000000001ff0ff800fef030001ffe0c0000302aa0000c0ff8007fe0300039cc0c0000018000;
   0x19cc77000731c18001c6307800673776001c63060006737ff8018e703000671830000606060000010000019c000000000000001570d5000fe78300000000c0005757ff0000c0c1c007fe0300039cc1c000001c000;
   0x188c63000630818000c6303c00663326000c63060006630300018e303000631830000606060000003fe001881ff8000ffff0000030c0000e01aba000000ae800fffaea002aeac080060e2ba0038ccae8000018000;
   0x19cc73000731c18001c6301800673776001c63060006730300018e703000671830000606060007ff3fe001c01ff8001ffff0000070c0000e01fff001ffeffc00fff864007ffeffc0071e7ff0038c7ffc00ffffff0;
   0x18cc63000638818000c6320000663326000c63660006630300018e303000631830000606060007ff306001f01818000c0030000030c0000e01bba001ffeee800c3006e003ffeff80031e2ba0038e1ae800fffffe0;
   0x18cc73000739c18001c6370000673776001c637f0006730300018e74300067183000060606000607306001fc1c18001c0030003ff0ffc00fdfb30001376cc000c307e60030c01c0003bf7300018e19c000601c000;
   0x18cc63000638898000c6338000673326000c633fe006330300018e3fb000631830000606060006033fe0018f9ff8000eaab0003ff0ff800fdfb30001326cc000e307e60030c00c0001b32300038618c0006018000;
   0x18cd73000719df8001c733c000673777001c7307e006730300018673f800639830000617060006073fe00187fff8001ffff0000070c0000e01b30001376cc0007f006e0030c1ffe001f3730001871dc000601c000;
   0x2e3e38000fc0fe0003b01e0000f83220001b800c000f80300001700f8000f803000007b8200060330600180d818000c0030000030c0000e01bb0001326ec0003b006e0030c1ffe000e3bb0001831ec0006018000;
   0x771f18001fe01f0007b80f0001f87770007bc000003dc0300007b8018001dc0300001f1c0000607306001c05c18001c0030000070c0000e01bf0001376fc00003007e003dc01c0001f1bf0001839fc000711c000;
   0xe3831c0038f003000e1c0780039c303000e1e0000078e030000e1c0080038e030000780f8000603306001c01818000c0030000030c0000e018b00013262c0000300f2001ec00c0003b9cb000181c2c0003f18000;
   0x1c1c10c00707c00003c0f03c0070f703003c0fc0000f07030001c0f00000f07c3f001f007f0007ff3fe001c01ff8001ffff0003fffffc00fff830007fff8c001ffffe3001ec01c000f1ee30001d5e1c0001f1c000;
   0x380f00c00e01e00003803c0800e07b03803803e0000e03c30003803c0000e03e3e003c000fc007ff3fe000fe1ff8000ffff0003fffffc00fff830003fff8c000ffff838000c00c000e0ee30000f8f0c0000018000;
   0x300700000400600003001c0000401801001000c0000400830003001c0000c00c00001000018006070060007c0018001c003000000000000e018300000000c0005550010000c01c000c064300007861c000001c000;
   0x0;
   0x0;
   0x0;
   0x0;
   0x0;
   0x0;
   0x0;
   0x0;
   0x0;
   0x300000000000000000c00000000600000001800000060000000000000000700000001c000000000000000380000000e0000000180000000000000000c000000000000000000000000000000001c0000000000;
   0x30000fffffe003ffc1c000000006002aaa01800fff860002aae0a800aaa860002aaa18000fffaaa00000038000aaa06000000018000fffbff002aa80c000fff8d8003ffc76000fffb80002aaa18000fffffe0;
   0x3ffc33800ffffff003ffc1c000fffbc6003ffef1801fff8f0003fffdfc00fff870003ffe1c001ffffff003ffc38000fff070003ffd58001ffffff003ffc1c001fff9dc007ffc67000fffff0003ffe1c000fffffe0;
   0x3ffeb38000e00c2000180ba800fff9fe002aea7f800aea9f8003fe3efc00fff860003ffe18000aeabaa003ffbff800fff0f0003ffbf80000603aa003ffc1800006018c002ba8e7000aea8fe002babffc000600060;
   0x183f38000601c70001c1ffc0007007e0000c01f8000703d80003038e0000707ff0001c1ffc000701c0000187ff8000601f80001c3f80000701c00001c01800007018c0001c0c300007001e0001c1ffc000700060;
   0x182b38002ba0c20000c0ae8000302060000e08180003039c000303860000307ff0000c1ffc000301c0000183398000303980000c0180000300e60000c3ffc0003038e0000c0c380003000e0000c0ba8000300060;
   0x1ff8338007fe1c7001ffc0e0007ff606001ffd81800fff70e003fe3870007ff070001ffc1c0007ff0e0001ffb398007ff71c001ff8180007ff07e001fffffc007ff306003ffdc18007ff00e001ffc1c0007fe7f60;
   0x1ff8338006ae7f2001ff8c60007fe606001ffd81800fff20f003fe3830007fe662001ff8180007ff0f0001ff9b98007fee2e001ff9ff8007ff03c001ff8000007ff306003ff981c007ff00e001ff9988006ae7e60;
   0x181bffe006067f700181cc70006077fe00180dff800e031570030638380060777600181c1c0006033fc00181939800607c77001819ff80060307000181c0000060370700381f81c006077fe00181d9dc006066760;
   0x199bffe00666632001898e38006223fe00188cff800e633ff00336fef800666366001988ba80066379e001998398006660e3801899ab8006330e00019887f00066363300399bffc006237fe001989988006666260;
   0x19995d40066663700199c7fc006770400019cc18000e733fc00336fffc0066737600199dffc0067370780199bff8006670c0001999838006737ff80199c7f00067363300399cffc006775de00199d9dc006666760;
   0x1998180006666320019983f80062206000188c18000e630000033638c0006663ee001988aa800663003001999ff800666000001999838006337ff80198863000663030003998ee80066318e001989988006666260;
   0x19991b00066663700199c380006774600019cd18000e730000033638c00066757500199c00000673000001999818006677fe0019998380067373000199c6300067303800399cc60006771ce00199d9dc006666760;
   0x199b9b80066663200199b9c000622e6600188f9bc00e633fe0033638cc00666fff001988000006637fe001999878006667fe001999ab80063333000198863000663018003998c600066318e001989988006666260;
   0x1999998006667f700199dce0006777760019cdffc00e733fe0033638dc00667fff00199dff8006737ff001999cf800667700001999ff80067333000199c630006731d800399cc60006771ce0019ddffc006666760;
   0x1999998006667f2001998c700062236600188cfa000e633060033638d800666030001988ff800663060001998dd800666380001999ff8006331b00019886300066319c003998c600066318e001989ff8006667a60;
   0x1999d9c006661c70019dce3c006773f70019cc7b000e73306003363878006770700019ddc18006730700019d8f9800677180001999818006731300019dc6300067318c00399cc60006771c60019dc1c0006667760;
   0x1998d8e0066608200189871c006320330018ccdb000e3330600337ff78006260f80018c8c1800633060001998718006261c0001998018006330300018c86300063338e003998c60006231860018c8180006660260;
   0x19d8f80006761c70019dcf88006370f00018cdd9800e7330600377ff70006371f80018ddc18006730700019d8f1c006770dc0019d8018006330300018de630006733060039dcc70006371c60018dc1c0006760760;
   0x2c0700000b00820002c1f80000b81f00003e1998000b8306000780070000f03980002c0c18000b80600002c0f88000b00fc0002c0018000b80300002e3e38000b83e60002c0e30000b01860002e1980000b06260;
   0x7e0380001f85d70007e3de0003dc7b800077399c001dc356000f800f0001f871c000761ff8003dc7f0000fe1ddc001f80780007e001c001dc030000763e18001d87ff000fe0e30001d81c7000771fc0001f87f70;
   0xe601e000798ffe000e718f00078e71c000e3818e0039e3fe0019c0bf80039c60e000e70ff80079c3fe001e718ec0039c060000e7000c0038e030001e70f180039c63f000e70e380079c183000e38fc00039c3f30;
   0x3c7c0f000f1efff003c3d03c00f0761f001c3c18400f0f3fe0038fff9c00f0f007003c3c01800f0f07f003c3c0fc00f1f0e0003c3c01c00f07835003c3c61c00f0f601003c3c7dc00f0f1c3003c3c3e000f1e0f30;
   0x781f03c00c0780000381e01c00c03c0780380f1f000e03c0600707f80e00c07c0300381e01800c03c0300301f02e00c07dc000300f00e00e03e3e00701f00e00c0780000380e7ce00c0798380380f0c000c078338;
   0x300601c0000300000100400400801c030030070f0004018000000300040040180100300600000c0180000300600400c0188000200600400400c1e00200600400c0180000100610400401140003006000000030010;
   0x0;
   0x0;
   0x0;
   0x0;
   0x0;
   0x0;
   0x0;
   0x0;
   0x0;
   0x318000000300000000000000001c000000000000000000000000e0000001c60000000000000001c000000070000000180000000000000000000000000000000000000000006000000180000004000;
   0x7fffe000ffe318003ffc33000aaaaaa003ff818000aaa7fe000001ff000aaa0e0002aa0c6000aabfff00000018000000060002aab18800ffefff002aabff800fff7fe003ffbff800aaa806002aa818000fff7e00;
   0x7ffff000ffffff0015d7f3000ffffff003fffffc01fff7fe003ff1ff000ffffff003ff7ffc00ffffff003ffd7d400fff5f5007fff19c00ffffff003fffff801fff7fe003fffff800fffbc6003ffc7c000fff7ff0;
   0x6aaae0000e0fff000ae833000aea0c0000383ffc00aea606003ff0e6000aeafff002ba7ffc00aea60c003fffffc00ffffff002bab18800aeacf3002bab1980006060e00018399800aba9fe002ba8ee000aea06e0;
   0x60007000060318001ffd774000615d5000180000000607fe0003807f000060060000301c60000607fc000183ffc00060fff00018319c00060cf30001831980007075e0001c39980003007e0001c1c70000600600;
   0x62006000060aaa00181bffc00061fff000aebff8000606ae000180f8000060060000180c60000607fc0000830cc0002060c00018318800030cf3000183bb8002ba7fe0000c3bb8000386060000c38b800060fff0;
   0x670270007fefbe00199d5d400ffddd7001ffbffc007fe606003ff1ff0007fe7fe001ff7ffc007fc60c001fff0cc007fe31c003ffbffc007fefff001ffbff8007fe75e001ffbff8007ff606001ffb1de007fefff0].
Definition hanzi_rows_201 : list N :=
  [0x630760007fe8b200199b9b000ffdacb001abb2a8007fe7fe003ff0830007fe6ae001fe7ffc007fc7fc001ff8fe0007fe318003ffbff8007fefff001ffb1980060660e001ffb998007ff7fe001ff838c007fe0f00;
   0x630e7000606db30019d9d9800e0dfdf00181b7fc006467fe003137ffc00606606001877ffc0060c7fc00181dff000606ffe0038180000060600000181b198006667fe00181b998006037fe001818300006063f80;
   0x639c6000666fbe001ad8f9800ecc0c000199b66800666060003337efc006667fe001a204c0006ec60c001998e3800666ffe003b9aaa8006267fe00199bbb8006667fe00189b99800623200001998ff80066677c0;
   0x61dc700066659d001f707d800eccfde00199b7fc00666fff0033376c800666756001b704c0006edfff00199c77c0066660600399fffc006667fe00199bff80066600000199bff8006737f0001999ff800666e6f0;
   0x60f860006660c8003c3f8fc00eccfde00199baa800666fff003333e7c00666606001b23ff8006ec7ff0019987ec00666786003b9bffc0066600000199aba800666aaa00199aba8006233ff001998e00006664678;
   0x60f07000667ffc003555d7c00ecc04000199bffc00666000003333cf0006667fe001b77ffc006ec60000199c7c0006661e60039981800066655500199818000666fff0019981800067307f001998600006660630;
   0x60e06000666ffe0007fffe000ecdfff001998000006667fe003337ef8006666ae001b226c8006edfff001998fe0006660fe00399aaa800666fff00199bff800666aea00199aba800623060001998300006660000;
   0x61f0700066618f00060606000ecdfff001999ff8006667fe00333471c00666606001b774dc006edfff00199fc7c0066663600399bffc00667fff00199bffc0067606400199bffc006737ff001998380006663fc0;
   0x61b87000666baf0007fffe000eec060001999ab800666606003330300006667fe001b22ec8006ed82000199b83c0066678600399bff80066600c00199b1880063606c00199abe800623fff001999ff8006663fc0;
   0x63bc7000666fff8007fffe000e6dffe001999d5800666756003337ffc00666606001b77fdc0066ddb30019ddffc006661c600399b6dc0066655c00199b59c00636fec0019987c0006735750019d9ff80067631c0;
   0x671c300066618f00060386000e6cffe001999ff8006667fe0033b7ffc00666606001b22fe8006ecfb60018d8ff0006260f600399b2c8006667fc00199bd88001f8fee001998fe0006330f80018998180063630c0;
   0x670e3000666ffe0007fffe000e6ddb60019d9818006765740031b07c000677fff001b77f7c0066cf1c0018ddc3000676e7f0039db6dc006767540019dbfdc0039c06e0019d9df0006331fc0019d9c180063631c0;
   0x2ee073800060ffe000018f80000e09b60002c1ff8000b036c000580fe0000b0fff800382b3800060e180002c0c30000b070e0002c32c8000b06000003c3fe80070e06e0002c39b8000f836e0002c1818000b0b0c0;
   0x6fc07b8003b018e003fffffc001f1db60007e1ff8001f0766000fc7f70001f839c00058733c001f1f3c0007e1c30001f83c60007c36dc001f06000007c387c00e07c7e0007e119c001dc7770007e1c18001d9f0c0;
   0x6c001180073818e003fffffc003389b6001e6380000318666001ce73380039c71c000ec2008003b9bfe001e70c30003981e3001ee32c800398600000ee3008008038f6000e7018c0038e263800e61ff80039c78e0;
   0x7c0001c00e1cffe00155d55400f1ddb6003c7fffc00e1e46300387231e00f1fe0f001cf701c00f1c1e7003c3dff000f1f07f003c7bedc00f1e710001c7301c01ffffe7003c781840070f071003c7dff800f0f1870;
   0x380000e00c0fffe00001800000c0ffb600301e3fc00c0787a00303830c00c0780780303be0801c0f0c380701eff000c07c3b80303fac801c07bf000383fe0800ffff8380301e18000e03c6000781f81800c078030;
   0x100000c0000300e00001800000c0651600000c0000000307800201830000403001001011c1c00806041002007c3000c0180100200c014008031f000300dc180055500100200418000c01c7000300401000c018030;
   0x0;
   0x0;
   0x0;
   0x0;
   0x0;
   0x0;
   0x0;
   0x0;
   0x0;
   0xc055000001c000001c0000000000e00000000000001801000006007000001800000000000000e000000000058000000000000040000000600000000000000000000000000004000018000000380000000000000;
   0x1fc0ff800aabaaa0001e3ff8003fefe0003fffff80001803000006003000003800000000000000e0ffe000ffcf8000000fff003ff9ff800af87fe001ffbff8003fc7fe000aaa06000018ffe000383ff8003feffe0;
   0x15c0c1800ffffff000773ffc007fefe0003fffff80003c0380000f003000007c0000007fffc00c7cffe000ffdd80003fffff003f3dff800fff7fe001ffbff8007fc7fe000fff0e00055cffe000383ff8007fffff0;
   0x3ffeff800033060001ebe0c0003000f80000880180007e0180001f80300000ee0000003fffc0066cc06000c0caa8003ff09800360d81800c6260600199b8180020c606000fff0c0007fcc0600038301800380c060;
   0x35d6ff8007ff138007dcfff00019e7fc0003dc018000e701c00039c7f00001c78000187000000766c06000d0dffc003030d800366d81800c6760600199b0180075c606000c030c0007fec06003f83018001e0c070;
   0x1ffeaa8007ff99c002279ab8001fc6ae00070c018003cb8cc000f2e7f800078fe0001c30000002e6d86000f0c1c0003837ff00366da1800ffe786001ffbe18003fc78e000d837fc00606d86003f8341800070f860;
   0x19ffffc00177dfe000398c5c000f0707003ffffd80079dfce001e77f58001f1cf0000e70000001f0d86000d1c7e0003cb7df0037cdb1800d777de001ffb6780075c79e000d8f7fc006ffd96001783c7800038d970;
   0x1fc6030003ffe7a0009e06e8001fdbbb003ffffd801e18fe6007863f1800fffffe000730000003b8d8e000d9ce60003cf69b0033fdb3800c6269e00199be780020c79e000d8b000006ffdb6000383e7800abed9e0;
   0x5467f800063f3c000e773c00079ddf00003f381800ffff7f003ffff1801ffffff0003f000000f1fd9e000dbdc78003df6db003fddb7800fff6de00199b7f8007fc7f6000ddb31c006ccdb60003836f800ffedbf0;
   0x3e36a8003ffbfe00078f9e000603e78000fb9e1800bffc3f002fff318008e00330001f000000e0ecb6000dbc81c003db6bb001d85bf800ffe6f6001ffb2d8002ac6b6000cfb318006ccca60003836d800dbadb60;
   0x1777600000639fe0001fdc7c0001f71f003c3c7d800381c31000e0733c000e00700001f000000718cf6000ded6700037b7ff001ff9bd8000606f6001ffb3d80070c6e6000cf3318006ccce6003ff37d800dd8df70;
   0x3a3f7c0007ff8e00000f2f880003cbc60010ee0d800380d98000e0336c000ffff00003e000000b2ace6000cedef000373000001ff99d8002eaee60001c3398003fcee6000cf3318006fcce6003ff339800cd8ce60;
   0x3e3fdc000557e7f001fc73f0001f19f00003dfc18003ffd9c000fff3fc000ffff0000f7000000ffece6000ccf6f0003737fe001dd9998007fece6000383318007fccc6000ce3318006fccc600383731800cccce70;
   0xfaf000000ef8e003fffffe00fffffe000f99e1800380d8e000e033ce000e0030001e6000000feace6000ccdffc003233fe001889998006aace6001b7b3980020cee6000c633b80078cce600383239800eeece60;
   0x7c77e0000fddf00031fffdc00f7ffff007ffffd800381dff000e07384000e00700038600000075fce6000ccdffc00373000001ff9b9c0070ede6001a7b79800fffce6000ce31b00078cde600383779800667de70;
   0x3fffffe00febafe000180180000600620037fffd8003ffcff000fff180000ffff00010600000038cce6000dcc63000273000001ff9bc8003bcda600306b79800fffce6000ce31b000c0cde6003836f9800662de60;
   0x3dd55bc00ffffff0001fffc00007fff0000755658007ffcc1001fff1c0001ffff00000e0000007bddf7000dec630007f3fff001999fdc001f0db600346f7dc00110df6000df31b000c0ddf6003836dd800631df70;
   0x1fff80000e0060000180180000600600007ffe1800e08ce00038231c0003c08300000e000000fb6fb2000deee78002dbaea00188b6e8001e0f36002c6ecc800398db6000dbb1b000ffdb36003ab7cf800619b330;
   0x1fff80000fffe00005fffc00017fff00007006180073dc70001cf70c0001f7c700070c000001cc7f1f000f77f78007db16c001ffb66c007f9f1f000fe6cfc0031dd37000d9bfd0007fdb3f003fffc7c007fdb370;
   0x5aab80000e0060000ffff80003fffe0000fffe18003f0c30000fc30e00007f0300020c00000086391b002b37bd80028fb66001ffb03c00e3fb1a0007eec6c0060fb3a000f19ff800001a1a002aac878003e3b1b0;
   0xffff80003fffe000071c1c0001cf870001d5d61c001e1c380007870700003c0700031c000001c0380f007f1f35801f8df6600381f02c0040f80f00300c07c00e07b1b006f1d9fc0180381b00001c02c0000331f0;
   0x7fc180000e78600001fe180000fe060000ef860c003b8c1c000ee3070000f9e3000338000000c0f00300281e38c01e8fe6300600e00c0080700300201c00c0080720b00280d80c0080700300203800c0180700b0;
   0x7f7f800007fd700007c7fc0001f1ff00007df70c00f3fc0f003cff03c001e1ff0003f0000000fff0030078071cc01e05e6300707c00c01c1f00300307800c00c5f003003801c0001c5e0030071f000c01c1e0030;
   0x1e03fe0003f9ff0001e00fe000380ff0001e1ff0e00e07e0700381f81e003803f8001e0000000ff800380380308400e00c78003ff800600ffc003803fe000e00ffc003803800e0000ffc003803fe000e00ffc0018;
   0x10001c0003c0170001c000400030007000180070400400c0100100300c001000100000000000000000100300200000c00c78001fc0004007f0001001fc0004007f0001001000400007f0001001f00004007f00010;
   0x0;
   0x0;
   0x0;
   0x0;
   0x0;
   0x0;
   0x0;
   0x0;
   0x0;
   0xe00700000701c0000000700001c01c0000e00700000001c00001c0700000701c0001300600000e01c0000000700000601c0008000700000001800001c0700003801c00000007000000018000000060000000700;
   0xe00300000600c0000000600000c00c0000e003000aaaa1c00000c0300000300c0003b00600000e01c001e000300000601c001f800700078001800001c0300003801c000fff870000aa018000000060000000700;
   0x600300000700c003fff0700000e01c0010e107000fffe1c00000c0700000301c000f300700000601c001fff0700000701c001ffc07000ffd01c00001c0700003801c001fff870001ff01c007ffe070000000700].
Definition hanzi_rows_202 : list N :=
  [0x60030007fe00c003fff0300000e00c0018e303000eaaa0c001ffe03000aab80c000e300700000600c0003ff0300000300c0000fe030000ffc0c001ffc0300003800c000faa830001ff00c003ffe030000000300;
   0x15757f0007ffdfc001c0eff0000c73fc0018e37f000e001fc001ffe7f000fff9fc001030ff000fff7fc0000177f000fff9fc0000c7ff00003fffc001ffe7f000fffffc0007c07f0001c37fc007fffff000001ff00;
   0x3fff7f80020fdfe000c0eff8001c31fe0018e37f800e001fe0018067f800fffbfe001fb0ff000fff3fe0000037f800fff9fe0000c0ff8000383fe0000067f800fffffe0001e07f8001833fc000301ff800003ff80;
   0x3fff7580070c1d6001c0ed58003839860018e375800effdd6001c0761800039d86001fffe3800e0335600000775800001dd60000c0d580003835e000007758000381d60000f0758001c330e000301d7800001d580;
   0x38033180038c0c6000ffee18003819860018e321800effd86001803b1800038f860000ff63800e03b8600000361800018d860000c0e18000383860007fbb180003818600003c61800183386000300c180000181c0;
   0x380331c001fc0c7001ffe61c00701cc70018e331c00e000c7001dfff1c000387c700007571c00631987001fff71c0001cec70000c061c000381870007ffb1c00639dc700155f31c001c3187000300e1c00001c1c0;
   0x3bf338c00c780eb000eae6ec00fffee3001fff38c00e000c30019febac000380c300003031c00631dbb001fff32c000184c30000c07ac000381b300000038c00638cc3003fffb0c001831fb0003006cc00000cce0;
   0x3bf316e00c7f05b801c0e4ee00ffff1b801fff06e00e7fc1b801dc606e00fffc1b803f700ee00731d3b801c1f06e0001c01b803fff0ee0003813380000006e00639c5b803fff06e001c303b8003004ce000008c70;
   0x3b1306400fefe1a000c0e0e400c00e190000e006400e7fc1900198606400fffc19003ff80e800038039000c3b064007ffc19003fff0ec00fffe310003ff06400638c19003b9806c0018383a0003000cc000000c60;
   0x3b13060007c1c18001c0e0e0004000180000e006000e75c18001dc606000e38c180007ff0e000038038000c37060007ffc180001c00e001fffe300003ff06000639c1800399c060001c30380003000c0000000c00;
   0x3b1306000200018000ffe0e0000000180028e206000e60c1800198606000e38c1800106f0e000038038000e330600060c0180000e00e000abaa3000030006000638c1800398c060001838380003000c0000000c00;
   0x3b1306000fffe18001ffe0e0007ffc180038e306000e71c18001dfe06000e38c180038600e0000780380006730600060c0180001e00e00003803000070006000639c180039ce060001c38380003000c0000000c00;
   0x3b1306000fffe18000c0e0e0003ffc180038e306000e60c18001dfe06000e38c180018600e0000780380006630600060c0180001e00e000038030000300060007ffc180038c6060001838380003000c0000000c00;
   0x3b5306000577418001c0e0e000701c180038e306000e71c18001f8606000e38c18001c600e00007c0380007630600060e0180001e00e000038030000700060007ffc180018e7060001c18380003000c0000000c00;
   0x3bf306000067018000c0e0e000300c180038e306000e7fc18000f8606000e38c18000ee00e0000ec0380003e38600060e0180003700e000038030000300060006ba818001863860001818380003000c0000000c00;
   0x395306000067098003f4e4e000701d180038e306000e7fd1800050666000e38d180007c04e0000ce1380001c3a6000706118000770ce00003833000070046000638118001871860019c1d380003008c000000cc00;
   0x3813360000630d8003fffee000300d980038e326000e00d9800300676000fb8dd80013c06e0001ce3b80003e1b6000607198000638ee0000383b00026006600003819800183826000981ff8000300ec000000ec00;
   0x38037e001c638f8001dff7e000701df80038e37e000e01df80070063e0007b8df80071f07e0001c71f80007f1fe0007071f8000e1c7e0000381f00066007e001c381f8001c1c7e001dc1df8000300fc000000fc00;
   0x38031e000c63838000c033e000300cf8003fff1e000e000780030061e0000380780033bc3e0003838f8000f79ce000303878000e0e3e0000380f8002e003e000c38078001c0e1e000980e780003003e0000003c00;
   0x380307000d61f1c001c001f0007ffc3c003fff0f00074003c003ffe0f00003803c00379f9f000f01c3c001e3cc7000751c3c003c0f1f000fffc7c003e000f001d7003c001d4f0f001fc073c0003f81f0000001f00;
   0x3f0303000fe0f8c000c00060003ffc0c003800030007e000c003ffe0300003800c003f0707001e00f0c00380ee30003f0e0c00380387000fffc18003c0003000ff000c000f8383000f807180001f0060000000600;
   0x1f03010007c0304001c0002000701c04003000010007c000400055000000038000001c0102000c00600001006410001f040400300102000000008001800010007f000400078101000700208000050020000000000;
   0x0;
   0x0;
   0x0;
   0x0;
   0x0;
   0x0;
   0x0;
   0x0;
   0x0;
   0x600700000601c0000600700000001c0000600700003001c0000600700001c01c0000000700000001c0000000700003001c0001d00700000001c0000e00700030101c0000600700001c01c0000700700003001c0;
   0x600300000600c000068030003ff80c0000600300003000c0000e00300000c01c001fff030007ffc0c001f800300003800c000fb803000aaa80c0000e00300030380c000060030000180180000300700003800c0;
   0x1575030001ff00c001f7f070003ffc1c001fff0700003001c0001c00700000e01c001fff070007ffc1c001fffc300007c01c000dff07000fffc1c0015f50700038701c0000e00300003801c0000300700007801c0;
   0x1fff030000ff80c001f678300030180c001aeb03000fffc0c003fff830003fe00c00180303000630c0c0000bf830000ee00c00198fc3000aaa80c003fff8300018700c0000c00300003000c001ff80300007c00c0;
   0x1fff7f8000e1dfc001861ff00033fdfc001c637f000fffdfc003fffff0007ff1fc001c037f000631dfc001c307f0001cf1fc0039cfff0000001fc003fffff0001c61fc0000c07f800fffdfc001ffc7f0000ec1fc0;
   0x607f8002eaffe001861ff80033f9fe001aeb7f800afe9fe003003ff8003831fe001fff7f8006badfe001c61ff800387bfe00318e7f8000001fe0000e07f8000c23fe003fffff800fffffe000c0eff8000ce1fe0;
   0x1575758007fffc6001f6ff5800331dd6001fff718001fe1d6003003f58003839d6001fff758007ffdd6000c6375800f03dd60011ce758007ff9d60000e071800ffff86003ffff58000821de000e1f758001c71d60;
   0x3fffb1800638ec6001f6fb1800331986000060318001b70c6003fffb1800181986001803318006bacc6000e6331800e00f8600018e318007ff986003fffb1800ffff86000060318001c618600073fe18003839860;
   0x3fffb1c00618cc7001861b1c00ffffc700157571c007b78c7000ffe31c001c1cc7001c0331c00631cc70006e731c007ffdc7003ffff1c007018c7003fffb1c001c61c700007031c003871c700037371c00f01cc70;
   0x21838c00618c6300186198c00fffec3003fffd8c00f31ce3000e0638c000e0ee3001aab38c00630ce300062618c003ff8db003fffd8c006018e3003003bac000c60c30000f818c007038fb0003e030c01fffec30;
   0x71c16e007ffc5b801fff97e00c0071b807fffd6e00e31e5b800e0606e0004e61b801fff10e007ffc5b80007016e000380db80018e10e0070181b80300396e001c601b8030d816e00e01c3b8001c006e00dff71b8;
   0xe0e064002ee819001fff86400eaae19000000064002aac19000e0606c002af81b000000064007ffc190000300640003801900398e064006018190037ff864000c60190038dc06400c82e3b0003f0064000002190;
   0x1fff8600006e01800157507000ffff18001fff060007ff818000ffe060007f3c1800018306000038018007fffc600003801800198e060007ff818000ffe060001c6018001dce06001d83638000778060000000180;
   0x3fff8600186701800006006000301818000fff060003ab818000ffe060006a0c1800018306000038018003fff86000fffe1800198e060007ff81800070006000fffe18000f8f06000183038001e1e060000000180;
   0x100106001fe3c1800006007000301818001c030600070181800000606000600c1800118306000fffe18007fffc6000fffe18001dbe060005550180003c006000fffe1800078f860001c7038003c0f860007ff8180;
   0xaaa06000fe0f18001fff860003ff818000c63060003ff81800000606000600c18003dbf06000fffe1800060c06000038018000dbfc60003030180000e0060000c601800030fc60000ce038001fff060003ff8180;
   0x1fff0600055c718001fffc70003ff818001c63060007ff818001ffe060007efc18001fbf0600007c01800070e060001b981800078fc60003870180015f5060001c701800070d860000ee038001ffe060007018180;
   0x1bbb0600003e018000e0706000301818000c6306000301818001ffe060007efc180003ab060000fe018000306060003b981800078e46000386018003fff860000c701800060c0600007c038000806060003018180;
   0x19b3060001f001800070e070003ff818001c632600075599800180646000600c18000183060001ff01800039f06000739d1800070e06000186018003fffa60001c7118000e0c06000078138001c06460007018180;
   0x19b3360000c08d800039c260003ff898000c63360003ff9d800180676000600d98000183660003bb0980001f826000638d9800238e0600018e0980000e0360000c39d8000c0c360000781b8000806660003018980;
   0x19b33e00000fdf80001f87f0003559f80015f13e0001550f80018067e000600df80071837600073bdf80001f07e000638df80077ce760001ce1f80000e03e0001c39f8001ccc3e0000fe1f8001c067e0007019f80;
   0x19b31e00003e0780001f81e0003018780003f80e0000000780018061e0006aac780021bb3e000e39e780007f81e000e38ef80026ee3e0000c20780000e01e0000c1c780038fc0e0003ef0780008061e0003ab8780;
   0x7fffc70001f801c001fff0f00030183c001f1f07000fffe1c001ffe0f0007ffc3c0075bf1f000c38f3c001f3f0f00043867c00367e1f001fffe3c0000e00f0001c1e3c00707c070007c7c3c001ffe0f0007ff83c0;
   0x3fffc30003c000c003f0fe38003e180c003c07c3800fffe0c001ffe030006aac0c003f8f8600003820c003c0fe300003e01c003e37c7000fffe0c0000fc030000c0f0c00201e03000f00f0c000ffe030003ff80c0;
   0x1000100004001801e10001e1804001001c100000000000180601000600c04001f0102000038004001801c100001e008001c17c000000000400007c000001c060000000401000c00600001c06010007018040;
   0x0;
   0x0;
   0x0;
   0x0;
   0x0;
   0x0;
   0x0;
   0x0].
Definition hanzi_rows_203 : list N :=
  [0x0;
   0xc000000000000000000000001540e00000004000001c3000001c04000000c300000300000003e0184000e0c060000600600000700300000001c0003198300000001c00060c0700018101c000010070001c601c0;
   0xc0ff8000002aa000000000001fcffe001ffcfe00000c7fa0000c0fe80001c7f80007fa000003e018600060c060000600e0003fffc30007efe0c000319830003ff80c00060c0600018380c00003e0300018600c0;
   0xc07fc00fff9ff0003ffff00018dfff001ffc7fc0055c1ff0015d47fc006381ff0001ffff0006e01cc00071c060000701c0003fffc30007efe1c0003198300075581c003fff870001c700c003fdf83000fffe1c0;
   0xc060000fff9fe0003ffff000b8e0e000180c18800ffe062003ffe0c80067006b00000ffe000ce00cc002baa86000038180000fff8380046c60c00033fc380030180c003fff83000aeba0c003fc383000fffe0c0;
   0xc06000060718000018000000f87ffe001c0c1c000557070003ffe1c0007e007000000600001fffcfc003fff86000ffffff000d75bf8007efffc00037fff8007ff9fc00060c7f000fffffc003101ff0001c61fc0;
   0xc06300060718e000180000003feaaa001aadffc000037ff0000c0ffc00340aea00000600000ffffff002aeaaea00ffffff000fffbf8007efffe003f99bf800301bfe00060cff800ababfe003b19ff8001861fe0;
   0xc06300070718e0001801c0007feffe001ffdffc007fffff0001c1ffc0031cfff003fffffc01ffffff0000607fe00001c00000575358004607d6007f99b58007559860007fc7580001c1d6003199f18007ffdc60;
   0x2aea6380060618e0001801c00038effe001aac3e0007ff8f8003ffe1e0003182fa003fffffc000e0038000aea7fe00001c00003ffff8800868786001999998003ff9860002e8618007ffcc60039b9b18007ff8c60;
   0x3ffe638007061860001801c0001fcc4e001c0c7f0006079fc003ffe7f00039c1f800157fd54000e0018000ffe660001ffff800355558c00fffcc70019ffd9c000001c7001fff71c007ffcc70019bdb1c00601cc70;
   0x3ffe6380030e1860001800c0001f8ffe00180cfb0007fe36c003006ef80079b3ec000076e00000ef9fe000c0e660001ffff8003f9fd8e00fefce30019ffd8c00fffec3001fff36c0000e0e30018bfb8c006018e30;
   0x1c07180030c1c60001c01c0007ffffe001ffdddc007ff777003007ddc007df77e0001e670000cdfdff000c0e660001c0018003cd9c760004501b8019c007e00fffe1b8018e326e0055755b801ed7d7e007ffc5b8;
   0x1e06180038c1860001c00c000e63006001ffc98e00606663803ffe8ce00edb6670003c638000ec8986000ffe66000180018000f9f824000c2019001bff83400c44e190018e306400fffe19001ee1864006ab8190;
   0x1e17580019c5d6001ffffc0005ffff70000001cc007ff073000ff81cc00cdf473800f861f0006d9d87000ffe660001d555800031d070001c7018001b7fc7000c44e18001fff06000ffff1800004007000601c180;
   0x1e0ff8001d83fe001ffffc000003bf3000000aa8007fe2aa000700aa800cf9821003e060f8006c89fe000c0e660001ffff8003fffc2000fffe18000b3083000fffe18001fff06000003018001fff060007ff8180;
   0x1e1ff8001d87fe00180000000555d55001ffeff8000187fe0003c0ff800c7dffe003fffffc007dfdff000d5e670001d5558001fffc7000fffe18000f3fc7000fffc180000e0060003ff818001fff070007ffc180;
   0x3e0c00000f8300001800000007ffffe001ffeeb8003fc3ae0000c0eb800c79bfe0003fffc8003cf986000ffe66000180018001fff820000c2018000e3f83000000018003fff060003ffc18001863060000380180;
   0x371c0000070300001c000000055ff55001b76e18007fe706007fffc1801c3df060007000c0001c01d7000d5e670001c0018001fffc70001c7018000e31c70007ffc18003fff0600031ce18001c63070000180180;
   0x330de0000703700018ffffc000399e0001b26eb80070f3ae003ffeeb800838b060003000c0001c01fe000c0e630001ffff8002baea2000aeaa18000e30830007ab8180000e006000308618001aeb06000fffc180;
   0x738dfc000f837f001cffffc007ffffc001b76ff80039fffe0001c0ff80021c7fe0007fffc0001dfdd7000ffe630001ffff8003fffe7001ffff1800063fc70003871180015f5460003fff18001fff27000fffc980;
   0x638c3e000f830f800c0000000ffffff801b26e18001b93060000c0c180061e3ae0003fffc0009efd86002ffe63800180018000cde1a000ffff98000e3f930001ce1d8001ffff60003ffad80018633600007c1d80;
   0xe1cc04001de301001c0000000cd5577001b76e18001f07060001c0c180061f7060007000c0019f1dd7007000638001c0018000fc7df0001c71f8001f31ff0000fc1f8001fff7e00030c1f8001c633f0000fc0f80;
   0x1c0ee000038f380000c00000000ffff0001b26eb8000f83ae0000c0eb80061bbae0003000c000bb81fe003000618001ffff8000387ef000383878001bb08f00007c0780000e01e00038c0780018631e0001ce0780;
   0x3c0fe0000f07d80000e10000000c0070007fffff8007fe7fe0001f8ff8007ffffe0007fffc000f9c1ff003fffe1c001ffff8001f7f27000701c3c0039f1c70007ffc3c007fffcf001fffe1c001fff070007c7c3c0;
   0x38077e000e03df80007f0000000ffff0003fffeb800f8fbae0000f8eb8003f9bae0003fffc000f0e186001fffc0e001aaab8003c3f03800e00f0c0030fc83800f83f0c003fffc3000fffe0c001fff03000f01e0c0;
   0x10027c0004018f80007f0000000c007000000041000c01d04000010410001505060007000c000604000000000004001c00180010070100040070400205dc1000e0070000000000000000004001c03010004006000;
   0x0;
   0x0;
   0x0;
   0x0;
   0x0;
   0x0;
   0x0;
   0x0;
   0x0;
   0x70000000c000000000000000000180000000600000700000001c0000000700000000e000000c18000000000000000c00000000000000004000000000000000000000000000000001c0000004000000;
   0xff9ff8000061ff0000e07fc002aa9ff000aa8180007fe0600000e0000000181ff0000307fc0000e1ff000c187fc00fff9ff0000c02a8002aa0aa0000c07fc007000aa000aaa2a8000001ff0000807fc00e031ff0;
   0x1ff9ff8000061ff0000707fc007ffdff001ffbffc007fffff0000e07fc000381ff0000387fc000061ff000c1c7fc00fffdff0000c07fc007ff1ff0001c07fc003871ff001ffe7fc00fffdff0001cc7fc00e731ff0;
   0xc1983800ffe1aa000070600007ffc80001abbffc0060efff0000c07fc00030180001ff86a8000061aa000c0c30000cc88800000c07f8003ab1aa0003806000038f1ff001ffe7f800fff88000008c6a800e231aa0;
   0x1c19c3800fffdc0000730700007031c0001c3b0c00071c61c003ffff00000701c0001ffc70000fff1c0000c0c70000ccddc0003ffe700007071c0003ffc700001fc18000180e70000001dc00001cc70000e731c00;
   0xeb9ab80020fcc6000638618003860c600183b0e0003b871c003fffe1800fffc86000e0e33800fff186000c0e31800cc88c6003ffe6380030318e003ffc618000f818e00180e618006018c600388c31800e231860;
   0x1ff9ff80070c1c6000e1c718001ce0c6001c3b870001f03fc003003f1800fffdc600060771800fff9c6007ffe31800ccdcc6003dd6718007071c6003d5c718001f818e00180e7180070ddc6003fcc71800e731c60;
   0x39c0c6000c0c318000fc0c6001ffbf78000f03e0003003b18000300c6000607b1800e018c6003ffe31800cc88c60038c66180030308600380c3180039e18e00180e6180030d8c6003f8c31800e230860;
   0x155550001f80c6001c0e7180007c0c6001ff9f3c003feffc00300ff18000301c6000703b1800e01dc6000c0f31800ccdcc60038c6718007ff1c600380c71800f0f98600180e7180031dcc6003ffc31800e731c60;
   0x3fffe000cf80c6003fff318001fe0c600000000c00f8f63f80200eb18000300c6003fff31800e00ec6000c0fb1800cc88c60038c6318003ff0c600380c3180060398600180e318003b98c60038fe31800e230c60;
   0x3ffff000c7f0c6003fff31800fc7cc60003fffe000e4200700000c318000300c6003fff31800e7f4c6000c4ff1800ccdcc60038c6718007570c600380c3180040198600180e318001f1cc60039dfb1800e730c60;
   0x38028000fefcc600700b31800f21ec60003fffe0000ffff8000e0c318000300c6003aaa31800e7f0c6000c6fb9800ccc8c6003aee318003030c6003ffc31800303186001ffe318001e18c600388fb1800e230c60;
   0x180180007c19d7000000ffc00c305d7000380100000ffff8001f0c75c000301d700380075c00e631d7000c6e7dc00ccddd7003ffeff8007073fe003ffc75c003071d6001ffe758000c1dd70039cc75c00e731d70;
   0x180180002001fe000000ff8000303fe000180380000e00e00003ccff8007ffbfe003800ff800e633fe000cee7f800cccbfe002aeaff8003033fe003aacff8003863fe00180eff8001e1bfe00388cff800e23bfe0;
   0x1ffffc000fffdff001ffed54007fffff000180180000600600001fcd54007fffff0038007fc006633ff000cce7fc00cc5f550000c4d540070735400380cffc001ce7fe00180effc001f1f550019cc7fc00e733ff0;
   0x1ffffc000fffd80001ffec00007ffb800001801800006006000003cc0000030300003ffe60000663380000cce60000cc6b800000cec00003ff30000000ec00001cc30000180ec00003b1b8000188c60000e23b800;
   0x1ffffc0005f758000180ed0000030380001ffffc0007ffff000001cd0000030300003ffe6000067f180000dce60000fc7fc00000ecc00007ff34000000cc00000dc30000180ec0000739f80001fcc60000e739800;
   0x1800000000e61a000180efe0000303e0001ffffc0007ffff000000cfe0000303e0003aaa6c00067f1a0000c0e6c000c03bf800007cf800030337800000ef80000f836000180ed8000619bf8000e8c68000e239a00;
   0x18ffffc000e61ff00180effe00fffdff0018000000060000000100cffe000301ff0038007fc006571ff000c0e7fc00c01dff800078ffc0070737f80000effc0007037f00180edfc00e1ddff00114c7fc00e719ff0;
   0x18ffff8000e618f80180ee3e00fffd8f8018aaaa80060000000300ce3e0003018f80380067e0060318f800c0e63e00c0098f000070e7c0030338f80000ee3e000f830f80180ee3e0040f98f80300c63e00e2198f8;
   0x1cffffc01ce71c100180e60400fffd81001cffffc0077ffff00300c6040003018100380070400600181000c0e70400d55d810001f860400707181000006604001de301001ffee0400005d8100700c70400e71d810;
   0x1c00000008e38c000180e60000030180001c000000072aaaa00300c60000030180003fff70000600180000c0e60000fff9800003dc600003031800000066000038f380001ffe6000000198000300c70000e21d800;
   0x1d6000001de1cc0001ffe700000301c0001c0000000700000003ffc71001ffffc0003fff700007101c0000c4e70000fffdc0001f1f70001fffdd400000771001f07d80001ffe60001fffdc4003ffc70000e01dc00;
   0xfc000000fc0ffc001ffe7e0000300f8000fc0000003f0000001ffc3e000fffef8003aaa3f0003e00fc000f8e3e000c008f8003e07be000fffcf80000037e000e01df800180e7e000fff8f8003ff83f000e00efc0;
   0x7c0000007c067c00180e3e0000300fc0007c0000001f0000000ff01e0000000f80038001f0001e007c00078e1e000c01c780030033e0015554780000033e0004004f000100c3e0000000780005501f000e0047c0;
   0x0;
   0x0;
   0x0;
   0x0].
Definition hanzi_rows_204 : list N :=
  [0x0;
   0x0;
   0x0;
   0x0;
   0x0;
   0x60000000180000000600000006600000000000000070000000c1c00000018000000000000000100000001c00000003000000000000000000000001c0c0000001800000003000000076000000000000000000000;
   0xe03fc0001c0ff0000603fc000761ff001ffe7fc000300aa000c182a80009c1ff001ffe2a8000380aa0000e07fc000301ff0000003fc0007fff8001c0c7fc000381ff0000387fc000660ff000f803fc00fff9ff0;
   0xc03fc000de0ff001fff3fc000671ff001fff7fc005751ff000c1c7fc001dc1ff001fff7fc000701ff0001e07fc00fff9ff003fffbfc0007fff8000c1c7fc000701ff0015587fc006770ff001ffe7fc00fffdff0;
   0x1fff300001c70c0000fff380000e31800018c260000fff9ff000c186a80018e1aa0018003fc00fff9ff0001f020000fff980003fffb00000600e0000e3860000070180003ffc60000e630ea0000fe30000eab9800;
   0x1fff300003f7cc0001c60100000c31c00018c770000fff9c0003fff700003871c0001d5430000fff9c00003b070000e319c00000003000007006000063070001ffffc0001ffc700007738c00000e030000e31dc00;
   0x1803318007ffcc6000c6019800fff8860018c221800038186003ffe618007ff8c6001ffe31800aaa8c600073831800e31986000000398003fffe000033021800fffe86001c0e218003e18c60000e031800e318c60;
   0x18033180063fcc6003fff99800fff9c6001fff718000f81c6000c1c71800fff9c6001d54318003071c6000e1c71800fff9c6003fbf198003ffff0003ffe7180001c1c6000c1f718001f1cc600006031800e31dc60;
   0x1aab318000180c6003fff99800061cc6001aea318001fc0c6000c1831800c828c6001800318003860c6001c0e31800fff8c6003fbf19800300000003ffe3180000e0c6000e3bb18000f1ec6003fff31800e318c60;
   0x1fff31800fffec6001c6019800061dc60018c73180078f1c6000ffc718001dc0c6001fff318003860c6007fffb1800e319c60031b31980031fffe000730318003861c6000771b180007dfc6007fff31800f75cc60;
   0xaab39800fffee6000c6019800061ec60018c231800e078c6000ff83180038e0c6001ffe3180018e0c60037fbb1800e318c60031a31980031fffe000630318001870c60003e031800c6fae600063831800fff8c60;
   0x3198001cf0e6001fff198007ffec6001fff31800555cc6000c1c318007070c6000000318005d54c6002551b1800fff8c60031b3198001f8000000730318001f78c60001e031800c75866000e3831c00f75cc60;
   0x2aab198003878e6000fff198007ffac6001ffe31800fffcc6000c1831800e0b8c6003fff38800fffcc600000031800aaa8c60031a3198000f0000000630318000ffcc60007f831800c61866000c1c38800e318c60;
   0x3fff5dc00f33d770000605dc000619d70000c075c01fffdd7000ffc75c00c1ddd7007fff5dc01fffdd70010c475c000001d70037b75dc003ff3fe00073075800077dd7001f3f75c00fe1977003c0e5dc00e31dd70;
   0x3aef7f800e38ffe0018633f800061bfe0000c0ff8006003fe000ff8ff80000cbfe0030037f8000303fe0038c6ff800fffffe0037a77f8003fe3fe003fffff800e383fe007c0fff8002819fe00780f7fc00e79bfe0;
   0x336f7fc00c9e7ff0019fb7fc00061bff003fffffc0077f3ff000c1cd54007fe1ff0075577fc000703ff0018ced5401ffffff0035bf7fc0030c38c003fff7fc0071c355007557ffc000381ff00361f75400e79fff0;
   0x326f600001cf9800019fb300002ebb00003fffc000067f300000c18c00003ff180003fff600000303000018cce0000006300003dab6000038e18e0006386000070e300001ffec000003818000061860000ef9b000;
   0x336f700000f3980001b7b300007ffb000001f0c0000763300007fffc0000387980000ffc60000ffff00001dcce0000006300003dbb700005d65d600073860000387b00001ffec0000ffffc000061860000eddf000;
   0x3fffae0006389b8001b6b3e0002ebbe00003f0fc0006633f0003ffffe0001cfda0000e186e000fffbf0000c8cfe0007fe3f00039ab3e000ffeffe0006386e0001c3ff000180efc000ffffb80006186e000f8dbf00;
   0x3ffdffe0071f1ff801b6f3fc000619ff0007d87fc007633ff005555ffc001fcdff0007387fc005755ff000f9c7fc007ff3ff0031b37fe00d54d540007187fe000f0dff001c0e7fc0057d5ff0006187fc00f8fdff0;
   0x326db0e0038f983801a6fb3e0006198f800edc63e0067f38f800630e3c000f818f8003f063e0003018f80060863e0060038f8031a330e00caae8000061860c000f818f80180e63e000380cf00061863e00f8798f8;
   0x336db00001e11c0001e6db0400061981001ccf6040077f181000e38604000781c10001e070400070181000700604007001810031b330000dff7ff00071c600003fc181001c0e604000381c100061c70400e01d810;
   0x326db00000f80c0001e65b0000fff9800038c7e0000603180000c18600000fe1c00003f060000030180000300600003001800031a330000e0063f00060e6000078f180001ffe600000380c000060e30000fff9800;
   0x336df000003f0c0001865f8000fff9c00030c3f00007011c0001c1e710007cfdc0001fff700000701c0003fff710007001c40031b33800060060000070770000f07dc4001ffe700000380c000060f30000fffdc00;
   0x3e6cff00000fcf8001860df0000018f80000c03f0007e00f800380e7e000f83efc003e1fbf0000300f8003fff3e0003f00f8003dbb3f0007e07e0000607be000e01ef8001aae3f0000380fc000607bf000eab8f80;
   0x1c0c1f000001878001860df0000018f80000c01f0003c00f80010063e000400c7c0038071f0000700f80000001e0001f00f8001d9b1f0007e03e00007031e0004006f8001c0e1f00003807c0006031f000e01cf80;
   0x0;
   0x0;
   0x0;
   0x0;
   0x0;
   0x0;
   0x0;
   0x0;
   0x0;
   0xc0000000070000000000000000000000000600000000000000019800000000000000000000000380000000000000000000000007000000001c000000100000001806000006155000000000000100000000380000;
   0x1f00ff8000703fe0007f8ff8000ffff00000e03fc007ffeff0019983fc002bfeff001fff3fc000180ff001fff7fc00fffdff0000e03fc0000380000003e2a800018aea000063ff8007ffeff0009fe3fc000398fe0;
   0x1ffcff8000703fe0007f8ff8000ffff0003fffbfc007ffe7f003f9fbfc00ffffff001fff3fc00fffdff001fff7fc00fffdff0000c03fc00ffffff003fdf3fc0055cfff003ff1c40007ffeff001dfe7fc007f98fe0;
   0x1fcc18000f8306000638c18000e0030003fffb0000018060000f9ab000060ccc000180330000fffcea0018632a8000cc080001fff30000ffffff003b833a800ffc060003ff8fe00030ccc0000f20300002b98660;
   0x19cdf8001dc37e000638df8000e3ff000000030000ffff600031983000066fcc000180330000e19cc0001863700000cc1c0001fff30000e1818700331330000fff7fe000c7fffc00399cc00007723000057dd760;
   0x18ccf80019c33e000638cf8000e3ff0001fbf31800ffff6600319fb18006eece6001fff31800eb8cc6001fff318007ff8c600180331800fffffb00331b3180038faea000e6fffc001f38c600333731800ffff360;
   0x18cd980038e366000618d98000e3070001db731800c18366003f9fb18003cdc66001fff31800ffdcc6001fff718007ffcc600180331c005ffffd00331b3180019ffff0007cf3c0000e70c7003f3e3180055d5760;
   0x18cc980070e326000618c98000e30300019a331800fdbf66000a183180038fc66000ff331800e8ecc6001863318006cc8c6001fff398000181800031b3318001d8fff000383be00007e0e6000e1c3180021b8c60;
   0x18dffc00f077ff003e1dffc007fffff001fbf318007dfd66001fff318007ccc66001ff331800edfcc6001fff318006cdcc6001fff19c001ffff80031ff318000f00380007e1b780007c0e7000c1c31800799dc60;
   0x18dffc01e03fff003c0dffc007ffffe000aba39800018066001aeb398006dfc6600038339800e78cc6001fff318006cc8c600000318c000baba80039efb98000707f8003ef831c003ff8e3001c0e318001f8efe0;
   0x3ffd80c00d8de0300000f80c0060000700175d198007dfe66001d7719800c7ff66003ffb19800e71ce6000038318007ffcc600000319c00018180001fc7998001fc61c003c1c3c401fdff67007fff3180007f0760;
   0x3ffdaac0018c6ab000001aac006aaaa6003fff19800018062001fff1980042c266003ffb19800edcce600071c318002aa8c6003fff18c00ffffff001ee19980079f60e0003aaaa000e18e63003ffb3880000ff060;
   0x30cff80018c7ff001ffcff8006ffff700175d5dc007f18770018635dc001f41770001835dc00e87d770003ff75c005551d7003fff7fc00ffffff0000005dc01f077c70003fffe0007ffdff0000c15dc00001f060;
   0x30ce180018c386001ffcc38002eaab2000aba7f8007f18fe001aeb7fc003ffffe0001e37f800fffdfe0000ff7f8007ffbfe0032cb7fc000e00e0001fff7f800c2aaab0003aaa80007ffdff0000c0ff8000aaaa80;
   0x30ce180018c386001c1cc38000c0030001fff7fc00637fff001fff7fc0001fdff0001e37fc00fffdff000e757fc007ffbff0037df754007ffffc001fff7fc0007fff800038018000718dd50000c07fc0007fff80;
   0x30cff80018e3fe000e18ff8000ffff000021860000637fc00003186000061a080003fff60000010180000c3c60000000380003edbe0000fbaabf0018c3600000600a000018018000618d80003fff600000600000;
   0x30cff80018c3fe000e38ff8000ffff0007fffe00007f1cc0001fff6000079f1c0003fff70000230180001fff60000ffff80003cf3f0000e300c70018c360000070060001ffffc000718dc0003fff600000700600;
   0x30ce180018e386000730c38000c0030003fffee000633cd8001fff6c0001f9cf8001c33ae0003769b0003fffe8000fffff00030c1be0002baae0001fff6e0002baae0001ffffc0007ffdb80001e06c0000300600;
   0x70cff80018e3fe0007f0ff8000c00300031f87fc00637edf0003187fc0007cfff800cf1ffe00666dff0070d77fc001311ff003cf1ffe007fffe0001fff7fe007ffff0001800000007ffdff8003e07fc007ffff00;
   0x666cff80018e3fe0003e0ff8000ffff0003b9e23e007f7eef803fffa3e000fe0c3803ff9b0e00ec6c8f8006cc63e003b318f803ffdb0e003000000018c320e00600000001800000001980c380077063e006aaaa00;
   0x66cce18001873860001e0c38000ffff0001f1ff04007f5b61003ffff04001df0c0007f3fb0000f06dc1000ec6704007339810037cfb00003155540018c370000715555001cffffc003180c0000e38604007555550;
   0x2e8ce18001873860007f0c38000c0030000e0bb0000631be000031830000f99cc0000c31b0000f06ec0001cc730000631d800030c1b000031fffe0018c33000033ffff001caaaa8006180c0001c186000067ffff0;
   0x7dfce1800187386001f7cc38000c0030001ffc300007f1960001f1f30000718fe0000c31f0000bfe6c00038c3b0000c31fc40030c1f0000395554001fff30000300000001c0000000ffffc0003c1e700007000000;
   0x3dbef9800183be6003c1efb8000fc0300038fe3f0007f187c003c07be00001827c000f38de0003fe0fc0030f9bf000c3ecf8003ef8ff8001f8000001fff3e0003bc000000fc000000fffefc0038073f0003f80000;
   0x1906718001811e60010067380007c03000301c1f00063183c0010011e00001807c000f1cde00015407c0000781f00001e07c001c70df0001f80000018031e0001fc0000007c000001c0007c0010031f0001f80000].
Definition hanzi_rows_205 : list N :=
  [0x0;
   0x0;
   0x0;
   0x0;
   0x0;
   0x0;
   0x0;
   0x0;
   0x0;
   0x400000001000000004000000010000000000000000001c000001c000000000000000000000000300000000c0000000700000000000000003800000000000000038000000070000006000000000c0000000700000;
   0xf07ff0003c1ffc000e03ff000381ffc000c02aa0000018000000c07f800fffdfe003fbf7f8000301fe0000c0ff8006339fe001ff8ff0000303fe001ffcff8000383fe000030ff800ff83fe0000c0ff8000603fe0;
   0x7e5570001f155c0007c7ff0001f1ffc001e07ff000001800003ff17f800fffdfe003fff7f8000701fe003fffff8007771fe001ffcff0005753fe001ffcff80055d3fe001030ff8007ff3fe0001c0ff8000703fe0;
   0x8fbff00003effc0000f2ab00007caac000f02af000ffffff003ff361800cccd8600302261800fff986003ffec18003b6186001988c3000fffb060018ccc18007ff306003ff8c180000f386000180c18000603060;
   0x1c13ff00070cffc001c73ff00061cffc0007c007000ffffff0000e76f800ccddbe0033f76f800fffdbe003007df8001f61be0019dcdf000d55b7e0018ccdf8007ff37e001ffcdf8000073fe007ffedf80007037e0;
   0xf02ab000380aac000e000300078000c0001e2af000000000003fe66f800eeedbe00372e6f800c019be003232df800fffdbe001ff8cf000c09b3e001aecdf80066333e00181cdf8000033be003ffecf80006037e0;
   0x7f3ff0001f0ffc0007c3ff0001e0ffc0000fbff0000ffff0003ffe6d800fffdb6003e746d800dc1da6003737d9800fffdb6001ffcdb000c1db66001ffcd9800673366001c3fd98000073e60000e0d9801fff3660;
   0x10f00300003c00c0001f0030000f8aac000032af0000ffff00006306d8000061b6003e3c6d800fff9a6003ffcd98000f81a6001988cb0003fe326001aecd98007ff326000e36d9800fff3a6000860c9800fff3660;
   0x3c0fffc00e03fff00306fffc0041ffff003800070000c0070003fd9ffc000077ff0037ffffc001ff7ff001ffdffc001fc3ff0019ddffc003fe7ff0018cdffc007ff7ff000771ffc00fff7ff001c71ffc00575fff0;
   0xe03ae800782aba003c0fffc00e03fff001c02af0000c0030003fd8ffc00fffbff0031a2ffc000063ff000231ffc003be3ff001ff9ffc003877ff0018cdffc006337ff0003e1ffc000037ff000c31ffc00060fff0;
   0x7c3d70001f061c000f01c70007c0718001f03ff0000ffff0000001c0c00ffff030030c1c0c0000770300055580c00f77b03001ffd80c001cfe03001ffd80c006336030001c180c00007603000ffd80c00070c030;
   0x1fbff80007effe0003e3ff8001f0e0c000780070000ffff0001fefffc00e08fff0001e0eac00aae2ab000ffdaac00e31bab00018180c000f8eab001ffdaac006bb6ab0007f1aac000036ab0007fdaac00060eab0;
   0x3205800045dfe0000f7ff80007ffff0003c007000000000001fef7f800c1cffe0007f87f800fff1fe001ffcff8000789fe0001c1ffc000783fe0001c0ff8007ff1fe001f7cff8000077ff0017fdffc000707fe0;
   0xfffff8000fe0020000060080000d8be0000f7ffe007ffffe00186e61800effd86001e1e618002ee18600080cc1800018186003ffeeb0000f83060000c0c18000f8186007c3ec1800ffb386003380e18000603060;
   0xfffffc0007fff80007060c000555555001077ffe007ffffe001fee61800eff986007dcfe18001c7186001cccc180055d586003ffec30007df306003fffc18000fc18600755ec1800fff3860039e0e18007ff7060;
   0xe00e0000000ff80007fe0c000ffffff0070200c00060000600186e7f800ec99fe0030e3ff8000c61fe0008ccff800fffdfe00308eff000f87ffe003ffeff8000ef1fe001ffeff800e1b3fe0018f0ff8007fe3fe0;
   0x7f07c0003ffc000007fffc000ffffff0038000c00073ffc6001fee7f800edd9fe00077d7f8001c71fe001cccff800fffdfe0037ceff000fffffe0003e0ff8000e79fe001ffcff800e1b3fe001c7cff8006077fe0;
   0x3f03fc002ffffe000607ffc0000c180001c008e00063ffc6001fee61800eff98600038c61800fffd860008ccc180038618600368ec30003ff3060003e0c1800aeb98600180cc1800e1b386000e1ee18006063060;
   0x7ffffc00001dfe0007060fc0000c1c0001e01860007380c600186e7f8006ff9fe0019c07f800fffdfe001dccff8001871fe0037ceff0003573fe0007f0ff800fffdfe00180cff800e1b3fe000706ff8006077fe0;
   0x7fffe0007fec000003e60c00040c1c0000f83870006380c600186e7f8006681fe001cf87f8000041fe0009ecff8001cf9fe003ffeff0003033fe000ed8ff800aea9fe00180cff800e1bbfe000780ff8006063fe0;
   0x6000e0007ffffe0033c60c000c0c0e00007c7d300073ffc6001e6e618006dc186000f1c618001ce1860061f0c18000fc186003c7ec3000307306001ddcc18000e018600180cc1800f5bb86000fe0e18006077060;
   0x6000e000c00cff0038000c000c0c0f00001f7ff80063ffc600083f618006ffd860003806180038f1860021b8c18001f818600300ec30003033060038cec18000e0186001ffcc1800ff9b86001cf8e18006ae3060;
   0x7fffe000c01c00003d555c000ffc07c0000777f8007000c60075f3e18007dfd860001f0618007079860071bcc18007ff18600300ec30003ff3060071c7c18000e0186001ffcc1800ff9f8600387ce18007ff7060;
   0x7fffe000fffc00001ffff8000ffc01f000026008007c0086003fe1f98007c01e600007e79800e01de6003f8ff1800e0fde6003c0efb0003ff3e60020c2f18000e01e6001aacf1800e19fe600701ef98007fe3c60;
   0x6000e0007ff0000007fff00007f0007000000000003c0006007f81798007c01e600001e39800400de6003f0771800c01ce6001c0e730003071c60001c0718000e01e600180c71800618de6001006798006071c60;
   0x0;
   0x0;
   0x0;
   0x0;
   0x0;
   0x0;
   0x0;
   0x0;
   0x0;
   0xe0038000001c00000006000000000000000001c00000000000044101000101554000c0155000101554000c055500030055400040000000301554000c000000010000000040000000100000000400000003000000;
   0xe0018000000c00001fb6df80018c000000ffe08000ffffff000ce7830001e1ffc000f83ff0003e1ffc000f07ff0003e0ffc000f87ff0003c1ffc000f03ff0003c1ffc000e07ff000381ffc000f07ff0003c1ffc0;
   0xe315d400155f50001837d8000fdf7ff000fffffc00ffffff001c767300007c55c0001f9570000fc55c0003f00700007e55c0003f0070000fc01c0007f5570001f155c0007c7ff0001f1ffc0007c5570001f155c0;
   0xef3ffc001ffff8001f869f800efb7ff000c66ff800000000000c38e300060cffc001e33ff00061cffc00087bff00078cffc00087bff00023effc0008fbff00003effc0000fbff00003effc0000fbff00003effc0;
   0xfe7ffc001ffffc0015bff5800e73000000c661c000055550001cdfc30003c0ffc0007c3ff0007c455c001f00070001f0ffc001f00070007c401c001e1157000704ffc001c73ff000f0cffc001c33ff00071cffc0;
   0xe8318c00181818000a8f2b800efb3fe000c67ffc000ffff0000dcf3f0000f8ffc0030fbff0000f8ffc0007e3ff000c3cffc0007e3ff0000f8ffc000783ff0003c0aac000e00030003c000c000f0003000380aac0;
   0xe0719c001c1c1c001fdf9fc00fdf3fe000ce7ffc000d5570001f1f73000e1ffff001c17ffc00e3dfff0031f557000785fff0011f007000c7d55d0011fbff0001fcffc0007c3ff0001fcffc0007f3ff0001f0ffc0;
   0xe13ffc001abab8001836d8000e8b3060010f03e0000c0030000c3ba3000783fff000f83ae800781fff003c07ffc003f8eba003c07ffc0070bfff00383aab80043800c0011f00300043c00c0010f00300003c00c0;
   0xe3fffc001ffffc001f065f000fff3060030fc770000c0030001cf3e30001fcfff0001ffff8001fcf5c000f85d740007efff001f81c70003f071c001f0fffc00f03fff003c6fffc00f03fff003c0fffc00e1bfff0;
   0xef318c0018181800000200000fff3fe001fdfe3e000ffff0000dc67b0000bfbfe0000022f80003dffe0003f9fb8000018fe0003fbff8000fefee0007e3870003c2eba001e0aae800783fff000e0bae800782aba0;
   0xee719c001c1c1c003fffffc0019c3fe00150741c000ffff0001c9c3b0000f5c700007ffff0001ffffc000077ff8007ffffe00007fff80001dfff0001f7ffc001fdfdc0007c3870001fce1c0007f3d70003f071c0;
   0xe0318c00181c180000000000038e000003fffffc00000000000c08030000e0e38000630c60000ffff800000e000007ffffe0000c0e80000e18620000333f80003dffe0001fbff80003cffe0000ffff8000fefee0;
   0x3e07ffc001ffffc0007fffe000e377ff003fffffc007ffffe001fffff0001d7d740007ffff0001ffff8001fffffc000ffff00000c1ff800071ce0001557550000458560000765f80000dffe0000161780001dfff0;
   0x3fe3ffc001ffff80007000e000c3bffe0003fffc0007ffffe000fffff0003ffffc0007fffe0000eaab8001fffff8000ffff00038c81b8003ffffc001fffff8000e18600000060000000c0700002aeaa0000068c20;
   0xfff5c000000e000007fffe0007fd79b0003fffc0006181c60000000600071ff8e003fffffc001ffff80019f501c000ffff00018dc18000555f54001d5555c00071870003fffffc0000c0380007fffe0000060c00;
   0xe3b2c000063e000007fffe0007fe69a0003aaac0006183860002000600030ff8e003fffffc000aaaa0001bfff98000ffff00018cdffc00aaafaa0019fff98000f18f8003fffffc00ffffb8000606060003060ca0;
   0xe077c0001b3f00001555550007576d30003fffc00061c3060007f0060007ffffe0007fffe0007ffffe000000180000ffff0000ccdffc00ffffff0019fffdc003dd9dc00000600000ffff9c0007fffe0007c6fce0;
   0xe0dae0001b3b80001fffff80030fec2000aaaaa80067fff60003ff860003ffffe0007fffe00030c30e000ffff80000ffff0000ec63c0000701e00000000000070fb8e001fffff00003f01e0007fffe0000fefce0;
   0x1e1ff60003dbbc0001d757780019d7fb001fffff80067fff600001ffe0001dddec0007555e0007ffffe000ffff80000ffff00005e47e0001ffff8001fffffc00755d560015555500007f81f8007060600003e0ce0;
   0x6e1fa70003fb9c0001830c38000f86aa001860e38006018060008003e0001b9b8c000ffffe000000000000060180000ffff00003e0df000fbfffe001fffff8001ffff80002aaaa0000edc1b002eaeae8004060ce0;
   0x7e1077001e1b8f0001dffff8000f0663001c31c38006018060018000600019ddec001f1dfc0001ffffe003fffffc01ffffff000371db800f3806f0001c638000155d500007fffe0003ccf19003fffffc01c060ce0].
Definition hanzi_rows_206 : list N :=
  [0x300023800c038780019fffb8001f86220019fffb8006018060018000e0009b998c0003f83fc000781c0002aaaaa000ffffff00063819c0019fc600003861e00000180000060006000f0c79800060006000c06ace0;
   0x3ffff1c00fff03e001c06038007de663001d5753800601806001ffffe001ffdfdc0007e7f1c0001ff000007f0f80001fc1f0001e1e18c001c5060000f060f000ffffff00075556000e0c1d800070006000ffffff0;
   0x1fffe0c00fff00f001f8603800e0ffa2001f86038007c1806000ffffc000f7fffe003f0ffc000ffffff003f003f8007e00fe00380f180000fffe0001c07e3800ffffff0007fffe00000c0980007e006000ffc3ff0;
   0x400554006001f8603800c01703001f06038007c100600055550000e01c1c001000580007f01ff0030000780070001e0030031800007ffc0000007c10000000000007000600000c0180003e0060000000070;
   0x0;
   0x0;
   0x0;
   0x0;
   0x0;
   0x0;
   0x0;
   0x0;
   0x0;
   0xc00c0000001c00000c00e0000300380000000c000000030000000e00000038000000c01c0000703000000001c0000180600000001c00006006000000000000160060000180180000380380004e0180000380000;
   0xc00e0000001c00000c0060001b0018000aa80e000000018000000e00000038000000c00c0000303f8000000180000d8060002aaa0c000662060003fffff80036006000018018000018018000ee0180000380000;
   0x1c07e00001ffe00000c07e0003b01f8001ffc7e000fffbf800007ff0000fffffe003ffe0c0000301ff003ffc0c0001dc070003ffe0c000667070003fffff8007600700001801c00001c018001ce01c00001c1550;
   0x1c0ff00000eaf00000c0ff0003303fc001ffcff000fffbfc0000fff8000fffffe003ffeffc007ff862003aacffc0018c7fe000260ffc006667ff00000801800e607ff000181ffc007ffe180038e1ffc007ffdfe0;
   0x15d4e700015757c007fff7300073038c001c00e3000f5d30c0000755c0000c030e001e1dffc007ff86000366dffc00ffc7ff000761ffc0076e7ff00039c018005747ff001ff9ffc007ffeff001575ffc007ffdff0;
   0x3ffe638001ffffe003ffe3380063018e00180063800e1818e0000380e0000c030e001b68ccc00633fff00326c88c00ffe6620002608cc0036c62300070c01800ffe623001ff998c006186fe003ffd98c00630c000;
   0x3fff71c001d5d5f8000c031c000301c7001c0071c00e181c700001c0f000fffffe0019dddcc00673fff00334ddcc001cf667003ffdccc00574673003ffffd800ffe6730001819cc007186c7003ffd9cc00631c000;
   0x31ffc0018181b0000c0ffc00ffffff001801ffc00e187ff000fffff8001e0f8e001be8eec006bb8f800334caac000cf6ea003aecaec007fe6ab003ffffd8000666ab000181bac006baec2000061aac006bac000;
   0x71ffc001ffff80018c6ffc01ffffff001c01ffc00e187ff000fffffc007f9fce001a7dffc007ff9fc0037fdffc005dffff00336dffc007567ff0000e781800c667ff000181ffc007ffec7000071ffc007ffd550;
   0x31998001818180018c6c980003866600180199800e18666000e0606800edf3ee001ff8ccc00633f6e00308c88c007ffe6200326c8cc006066230003c3c1800e66623003ffd98c006186c2003fe188c00638fff8;
   0x1571998001ffff80018c6cd8000f8666001ffd99800618666000e0606000ccd37e001ffdccc00633e670031cdccc007ff67700336dccc007fe673001f1cf1800646673003ffd9cc0071c6c7001ff19cc00619fff8;
   0x1ff1998001ffff80018c6c98000f8666001ffd99800e18666000e060600000380e000080ccc006338630037fc8cc000ce66200336c8cc007fe633003e0e3f8006c66230003c188c0060c6fe0018318cc00618c180;
   0x1ff1ff8000000000018c6ff8000f87fe001d5dff80061c7fe000ffffe0003fffce001ffdffc007ff8110037fdffc001ce7ff00377dffc006067ff001ffffd8007c67ff0007e1ffc007ffeff001c79ffc007ffc1c0;
   0x1831ff800ffffff0018c6ff8000f87fe00180dff8006187fe000ffffe0003aeace001ffcffc007ff83000306cffc007fe7fe0037ecffc006067ff000ffff98003c67ff000fe1ffc007ffec2000cf9ffc007ffccc0;
   0x183199800ffffff0018c6cd8000f866600001d9980061c666000e06060003575ce0018ccdc0003587ff00306ddc0007fe6f0003dfcdc0007fe6f0000e1c398001f66f0000db1bc00019c0c7000fddbc00011c0cc0;
   0x1839998000aaaa0001ffec98000f866600000d9980060c666000e06060003fffce001b6cde0003787ff0032ec9e0000ce2f0003dbcdc0007fe6f8000ffff98009fe6f00019b9bc00019e0c200078fbc0001bc18e0;
   0x1c39998000ffff0001ffecd8000fc66600001d9980060c666000e06060003070c6001f6dde00077c71c0037edde0001ceff0003d9dde000606ed8000e0c39800ddfef000399ffe00039e0c700070fbc0003bc1860;
   0x1839ff8000c0030001aeaff8000ec7fe00000dff80060e7fe000ffffe0003abac6001fedde000dec30c00300d5e0000cebf800309d5e000606ad8000eaeb98009e3af800318ef60006df0c2000f86b60007be3fe0;
   0x1c19ff8000c00300018c0ff8000ec7fe00101dff80060e7fe000ffffe0003fffc6001e6d7f000dec19e00300fff000fffff800300d7f000607fdc000ffff9800ff1bd800118ff60007db0ff001dc4f60004fe3ff0;
   0x1c18000000ffff00000c0000008ee00000300c00000606000000000000000cf80600180ffb000fee1fc003e0ffb000fffffc003c0ffb0007c7fcc0003b601800f3ffdc000187f3000ffb8fe0038fff6000ffe30f0;
   0x1c1dc00000ffff00070c0f0001ce770000701d400007075000000000000016fc07001e0f7b8000671f0001e0f1b801c0f9ec007c0f7b0007c70ce0005b701c0061d7cc00118633000459c07003075f3000dff1000;
   0xc0fff8000c00300030c0ff8008e37fe00300dff8006037fe002aaaaa800bfef0300200c198008633f000300019800c000ee0020001b800c000c6000ff3c0c018000ce00300033800818e020060003380083b8000;
   0xfcf7fc000ffff00035c01fc01fc39ff003ffdffc00713fff003fffffc01e7e7c3003ffff9c01c63f3c00355579c00f555c7007ffff9c00ffffc7003871f8c01ffffc7003d5571c00d58785007ffff1c01d71c000;
   0xfc700c000ffff0003fc000c00fc1c03003ff800c003f1c03003fffffc00ffc1fb803ffff0e00fe1e0f003ffff0e00ffffc3803ffff0e00ffffc3803ff03ee00ffff83803ffff0e00ff83c0003fffe0e00ff0f000;
   0x7c2000000c0030001f8000000501800001ff0000001f180000000000000550071000555404007c0807000555404007fff0100000000400555501001ff00440055550100155540400550180001555404005406000;
   0x0;
   0x0;
   0x0;
   0x0;
   0x0;
   0x0;
   0x0;
   0x0;
   0x0;
   0x100006000400018000000060000000380000600e0000700380001c00e0000300380001800e000180c100000300c000070038001c300c00001c0380001c00e0000300380001c00e0000000300001300c0000000180;
   0x3fe006000c00018003ffe06000aaa818000060060000300180001800600003801800018006000380c1800003006000070018000c300600001c0180000c0060000300180000c006000aaa8180003300e0000000180;
   0x1ffe7f000ddfefc003ffe7f000fffdfc0000707f0000701fc0001c07e0000181f80001807e0001c1c380000187e0000701fc001c387e00001c1f80001c07e000ff01fc0001c07f000fff9f80007307e000fff1fc0;
   0x3e7f000c9aefc003aaeff000fffdfc0000307f0000303fc000180ff00001c3fc000180ff0000e1830001ff8ff0000303fc000c18ff00000c3fc0000c0ff000ff03fc0000c0ff000fffbfc000e30fe000fff1fc0;
   0xe73000dd86cc003006630000381cc003fff73000fff98c001ffce30001dc18c007ffce3000575d74001ffc6300057d18c001c1c63000ffe38c0001c07300057018c0001c0e30000701dc001c3067000c6318c0;
   0xe31800c9b6e6003006218000180ce003fff33800fff98e001ffc6380018e08e003ffc638007ffffe00180c63800fff18e000c1c23800ffe18e0000c03380003018e003fc06380023188e00083063800c630c60;
   0xe31c00ddb6670037f631c0001c0c700001831c000700c70001c071c003870c70035dc71c007fffff00180e31c00fff0c7003ffc31c00fff1c7003ffc31c000300c7003fc071c006718c7007fff31800c630c70;
   0x3ffeffc00c9b7ff0037f6ffc00fff9ff000018ffc000303ff800180ffc003073ff00398dffc00600386001806ffc00e037ff003feeffc000637ff003ffcffc007ff3ff8000c1ffc006333ff003ffeffc00c637ff0;
   0x7ffeffc00ddb7ff003006ffc00fffdff00155cffc000707ff0001c1ffc00703bff00198dffc0061ffc7001bffffc00e037ff001c1effc00073fff0039ccffc007ff7ff0001c1ffc007737ff000039ffc00c637ff0;
   0xec9800c9b7b2003006c8800cc89b2001ffec9800030222002baa89800fffb2600198d9980061ffe6001bae89800e03666000c0fc9800063e6600388cc98006033220000c199800332226000038c9800c636660;
   0xecd800ddb7b60033f6cd800ccddb6001ffecd800ffff77003fffd9800ffff7600018d9980001e070001b1dd9800e03666001c5fcd800ff1e660039cccd8006037770001c199800376766001559d9800c636660;
   0xec9800c9b7b20033f6c8800cc89b200181fc9800fffa22002aaa89801c03f26003ffd99800007038001b0c89800e03666000c6ec9800fe066600388cc98006033220000c1998003b6226001ff8c9800c637fe0;
   0xeff800ddb7fe003336ff800ccddfe00181fff8005557ff0001c1ff8000003fe001ffdff8001fffff001b1dff800e037fe001cdcff800ff07fe0039ccff8006037ff001ffdff8001767fe001ff9ff800fff7fe0;
   0x1ffeff800c9b7fe003236ff800cc89fe001ffbff8000003fe000180ff8000003fe00183dff8001ababe001b0cff800fff7fe000cccff8000607fe003ffcff8007ff3fe001ffdff8000303fe001838ff800fff6660;
   0x1ff6cd800ddb7b6003336cd800ccddb6001ffdcd8005557770001c1d98007ff376001c7d99800181830001bfdd9800fff666001ddccd800070666003ffccd8007ff77700181d99801ffff66001c79d9800d576660;
   0x183ec9800c9b7b2003236c8800cc89b2001818c98007ff222002ba8898007ff326000c6d998001abab0001bfc89800e03666000d8cc9800060666003aacc98006abb2200180d99800fffa26000c78c9800c036ee0;
   0x1836cd800ddb7b6003376cd800ccddb600181ccd8007ff777003ffdd9800603376000ced998001ffff0001f9dd9800e03666001d9ccd800ff06660039cccd80060377700181d99800575776000efdd98000037fe0].
Definition hanzi_rows_207 : list N :=
  [0x1836ff800c9b7fe0033f6ff800cc89fe001ff8ff8006033fe003ffcff8006033fe000ecfff800181830001f0cff800e037fe000c8cff800fe07fe00388cff800003bfe00180dff8000303fe0006ccff8000037fe0;
   0x1836ff800ddb7fe0033f6ff800ccddfe001ffcff8007077ff0001c1ff8006033fe0007c7ff80018183000051dff800e037fe001c1cff800ff07fe0039ccff800003fff00181dff8000707fe0007cdff8004030000;
   0x183600000c0700000303600000cc88000018180000060300000018000000603000000386000001ffff000000c00000e03000000c0c0000006000000388c0000000380000180c0000003000000038e00000c037800;
   0x1d77c0000c0d9c0003007c0000ccdfc000181cf00007077c00001c1f00006035000007c7f00001ffff000701d00000e037f0001c1dd00000705000039ccf0000001fc000181d400000707d0000786f0001c037fc0;
   0x1ff3ff800c199fe003006ff800cc8bfe001818ff8006037fe000180ff8006033fe000ee6ff80000000000300dff800fff7ff000c0dffc000607fe003ffcff800001ffe001ffdff8000307ff800fc7ff800c030ff0;
   0x1ff37fc007f0e7f0030067fc00ccdc7f00181c5fc007ff07f007fff1fc007ff7ff001cf71fc00ffffff003ffdffc00fff17f001d1c7fc000707ff003ffc5fc00001c7f001ffdffc0007007f001ef39fc00fff0070;
   0x183380c007a0600003f0600c00f80803001f1800c007ff003003ffe00c007ff00300383b80000ffffff003ff800c00eab000000f8c00000060003003aac00c00000c0300180c00c0003000000387b00000ffe0000;
   0x183100000000000001f0600000701c00001f1c00000707000000000000006030000030190000000000000155000000e0300000079c0000007000000380c00000000c0000181c00000070000001031000001540000;
   0x0;
   0x0;
   0x0;
   0x0;
   0x0;
   0x0;
   0x0;
   0x0;
   0x0;
   0xe0000000180000000e000038038000030070000000380000600e0007000180000000e000006018000180070000000180000000e000000018000006180000700c00000100c0000180380000600e0000700180;
   0xffe06000aaa818000ffe060000380180002330f0007e001800006006000300018002aa806000ff601800018183000000018000000060002aa818000386180000300c0001818060000380180000e0060000300180;
   0x1ffe7f000fffcfc001ffe7e0000701fc0007331c0007ffdfc000ff07f00070fcfc003ffc7f000ff6cfc0001819f000fffcfc003fff7f0007ff9fc0001c7380007ffffe001c38fe0000701fc0000c07f0000701fc0;
   0xe00ff000eeacfc000ce0ff000aea9fc000e338080003fbfc001ff87f00030fdfc003aacff000636cfc003ffbbf800fffdfc003fffff0006aa9fc000aebba0003ffffe000e30ff0000303fc003fffff0000f81fc0;
   0x73073000c7ccce001c6073000fffdcc001c31c7c0011c18c001d5c7300070fccc0039cc63000636ccc003fff198000001cc0001c0630006001ce000fffff000001c00000670c3000fffdcc007fff730000dc1cc0;
   0x3f833800c68ce6000c6033800fff8ce003e30c700038c18e000e3e3380030cce600388c63800626ce60000c6098000000c60000c0238006aa0c6000aabaa0001ffff8003ffc63800fffcce000c0c338001ce0ce0;
   0x1e031c00c7fc67007fff31c00c01cc7003730e80001ce0c700077f31c01ffcc67003ffc31c00766c770003e20dc00fffc67003ffe31c007ff0c7000001c00001ffffc003ffc71c001040c7000e1c31c003870e70;
   0x780ffc00c6fdff003ffeffc00c009ff0003a00c0000c63ff8003e6ffc00ffcdff003ffcffe003e6dff0003603fe00fefdff003aeeffc006aa3ff803fffffc00000700002ba9ffc0038e3ff000638ffc007073ff0;
   0x1ffeffc00c7ddff001c60ffc007ff1ff0001f00f0000ffbff0001e0ffc01ffcdff003dddffc003c6dff0003703fc00c7cdff0039c6ffc006003ff003fffffc00ffffff000181ffc003073ff000770ffc00e03fff0;
   0x1ffecc800c68db2000c60c98003ff13600003fe380007f3260003e0c980030cdb200388cc88001c6db2000333a4800c68db20038c6c98006003220001e0b8000ffffff000181998007033260003e0c9801ffff360;
   0x18c6cd800c7cdb6001ffecd800000136000007f1c00338366001f7ccd80070fdb70039cdddc003e6db6003ff7f4c00c7cdb6003ffecd8007ffb370007d5df000000e7000018199800e03b360001e0cd800ffef360;
   0x18c6cc800c68db2000ffec9800000136000000e080031c326007e1fc980033fdb2003aacc88007f6db2003ff2a4800c68db2003ffec98007ffb22003f7fe780001ff3c003ffd99800c81b26000ff8c98000003360;
   0x1ffeff800c7fdfe001574ff8005555fe00007ff000070e3fe0031c7ff80077cdff003ffdffc01e7edfe0003073fc00dfddfe0039c6ff8001803ff003c7571c0001ffdf803ffdff801d87ffe007f3fff8000003fe0;
   0x1ffeff800c6fdfe000038ff800fffdfe00007ff8000fff3fe0000c0ff80036cdfe002ba8ff800c161fe0003023f800debdfe0038c6ff8001803fe0020383c40000e0e2000181ff80018ebfe00380eff800aaabfe0;
   0x18c6cd800c60db6000018cd801fffd360000381f000dff366003fffcd80076cdb70001c1ddc000341b600030734c00d7fdb6003ffecd801ffff370007ffff0001ffffc000181998001cc336000e18cd800fffb360;
   0x18c6cc800c62db2001ffcc98000cc1360007ffff800c60326003ffec98003ccdb2000180c88000301b2003ffa24800f6adb2003ffec9800fffb220003060f0001ababc000181998000cc326000e18c9800fffb360;
   0x18c6cd800c66db6001ffccd8001cc13600060607800376366003fffcd8007ccdb7003ffdddc007ffdb6003fff34c00f7edb60000cccd8015d57370007060c0001d5d740015d5998000fc336000e18cd80001c3360;
   0x1ffeff800c6edfe00181eff8000ce1fe0006aeae0003663fe0008c8ff8003ccdfe003ffcff8007ffdfe0003023f800e6adfe0000ccff8001823fe0003fffc0001ffff0003fffff8000783fe000e18ff80000c3fe0;
   0x1ffeff800f6cdfe00181fff8001c61fe0007fffe0007773fe001ddcff80070fdff003ffdffc005755fe0003073fc00c7cdfe0000fcff8001873ff0007060c0001c1830007fffff8000703fe000e18ff80038e3fe0;
   0x18c60000076fc0000181b000008c6000000606060006630000018cc0000030fc000001800000003000000030200000c68c000000780000018e0000003060c00018183000018000000078000000e18000003060000;
   0x18c6f000017ff40001818f0001dc73c00007fffe000e737000039cef0000700dc00001c1f000003010000030770000c7cdc0000070f000019c7000007fffc0001ffff0000181400001fc100000e1cf00007073c00;
   0x18c6ff800078ffe001818ff8008c3bfe0002aaaa000c63ffe0030c6ff800300dff000181ff8000301fe00021fffe00c68ffe0001f8ff8001887fe00000000000000000000181ff8003ce3fe000e0cff800fe3bfe0;
   0x18c61fc0007867f001ff85fc00fc3c7f003fffffc00c759ff0071c71fc0070047f007fff1fc01ffffff007ffddfc00c7cd7f001fdc1fc001f01ff003fffffc00ffffff000181ffc00787bff000e0f5fc00fffc7f0;
   0x1ec600c00060003001ff800c00f80e03003fffffc0007d0030000f200c003e0000003fff00c00fffe03003fe0c0000f6ec02003f0f80c001e0003003fffffc00fffffe00018000c00e03c03000e0780c00c0f8030;
   0x1e4600000060000001818000005004000000000000003c0000000f0000001e00000055550000000000000150040000766c00003c07000000400000000000000000000000018000000400c00000e0300000c000000;
   0x0;
   0x0;
   0x0;
   0x0;
   0x0;
   0x0;
   0x0;
   0x0;
   0x0;
   0x6000031018000000060003310380000c0070004610380000000600001c0180000e00e0000000180000c00e0000080300000000e0000000380000000e0001dc038000000060003060380000c0070000300380;
   0x1ffc06000633818002aaa060003330180000c003000e63018000aaa0600000c0180000e006000fff8180000c00600001c038002aaa060007ff018001ffe060000cc0180000aa860003060180000c0030000300180;
   0x1ffc7f0007331fc007fff7e0003331fc003fff3f0007731fc000fff7f0001ce1fc0001c07f000fffdfc0001e07f0007df1f8003fff7f0007ff1fc001ffe7f0001dc1f80000ffbf0003061f80000c03f000fffdfc0;
   0x180c7f0003b71fc002aaaff000bbb9fc003ffe7f800339bfc000eaa7f0003871fc003ffeff000e209fc0003f07f0007c33fc003aabff0006033fc001806ff0000cc3fc003febff0003063fc000ffc3f800fffbfc0;
   0x1d5c770001b61cc00000063000fffdcc0015d531800319dcc000dc0730007ffd8c003fff63000e31dce0007307300060318c0038c3730007071cc00180663000fdfd8c007fe333000fff9cc001ffc318000301cc0;
   0x1ffc33800fff8ce001ffc63800bbb8ce000ed83180018ccce000dfe318007ffcc600000033800e308c6000f38338006030ce0038c3338007ff0ce001ffe63800fcf8ce00336331800fff8ce0000c0398002ba8ce0;
   0x1d5c39c00fffc67001ffc31c00333067000e5c19c0019dcc7000c7f39c00437cc700000031c00fffc67001e5c19c006030c70038c331c007ff0c7001ffe31c005dd4c700736319c003060c70000c019c007ff8c70;
   0x180cffc00c00bff00180cffc003333ff003fff7fe00339bff000c32ffe000181ff001ffcffc00efe9ff803cee7fc007df3ff003ffb7fc006033ff801806ffc000cc3ff00337f7fc003063ff002aea7fe000303ff0;
   0x1ffcffc00c01fff00180cffc003f33ff007fff7fc00733bff000c30ffc00ffffff001ffcffc00e31dff0071c7ffc007df3ff003fff7fc007073ff001806ffc001dc3ff00337f7fc003fe3ff003fff7fc005757ff0;
   0x1ffcc9800eaab32001aacc88003f3326000e186c800e63326000c30c9800ffffb2001c0cc9800e309320020834c8006033260038c36c8006ab326001ffec98000cc3260033636c8003fe326002aaa6c800ffff360;
   0xdd8007ff736001ffccd800003336000e1c6dc00c67336000dfecd8000ee1b6001c0ccd800fffd37001ffe4d8006033760038c36d8007ff376001ffedd800fdfb360037636dc003063360007386dc01ffff360;
   0xc98003fe332000000c88007ff326001ffe6c800422326000dbac98003871b2001c0cc9800ffe932000ffe4c8006033260038c36c800000326000000c9800fcfb260032636c800306326001e1c6c8000003360;
   0x7fffff8000003fe000000ff8007ff3fe001ffe7fc00fffbfe000db6ff8007b3dfe001d5cff800e01dff000c007f8007ff3fe003bfb7f8000003fe00030eff8001dc3fe0037777fc003fe3fe00787f7fc007ffbfe0].
Definition hanzi_rows_208 : list N :=
  [0x3ffeff8000003fe003ffeff8000303fe0018067f800fffbfe000db2ff800e39ffe001ffcff800efc9fe0006007f8007ff3fe003bfb7f800fffbfe00030eff8000cc3fe003e7f7f8003fe3fe0020337f8007ffbfe0;
   0x1d4dd801ffff36003fffcd800030336001cc66dc00e31b36000db6cd800c1c5b6001ffccd800ffdd370007604d8005dd376003b1b6d800fffb7600330edd8001dc336001e7f6dc00306336000ff86dc00703b360;
   0xccc9800ffff32003086c8800ffff260018c66c800e31b26000db2c980018f9b20000c0c9800e849320003e04c8000cc326003b1b6c800e03b26003b7ec98000cc326001e636c800306326000ffc6c8006abb360;
   0x3fccdd80001c3360031c7cd801ffff36001cc66dc00e31b36000dfecd8000e3db6000ddccd800fc5d37000cd84d8000cc376003b1b6d800e03b76001f7edd801fdff36001e636dc01fffb3600061e6dc007ffb360;
   0x3fccff80008c3fe003aaeff8000f83fe0018c67f800fffbfe000cbaff8004789fe000cccff800e84dfe000d9a7f8000cc3fe003b1b7f800fffbfe00070eff800fcfffe001e637f801fffbfe00071f7f800603bfe0;
   0x1cc5500018e3fe003fffff8001fc3fe001cc67fc00fffbfe000db0ff80071f1fe001dccff800fc4dff00199b7f8000cc3fe003bfb7f800fffbfe00030eff8001dc3fe000cf37fc015553fe0003337fc00703bfe0;
   0xce00000386000003086000001be0000018e600000e31800002db00000038f8000018ce00000efcc0000389b000000ce000003aab00000e0380000030e000000cc000000eff0000018c0000003f0000007ff8000;
   0x1dff00007071000031c7400003373f0000360f0000e31bc0007d30d00001e1b000039c6f0000f54dc000361bf4001cc67c0003803f0000e03f4000630ef00001dc7c0001e7fc000038e3c00001e0700007fffc00;
   0xffff8007fbbfe003086ff800733bfe000f70ff800e31bfe006bfeff8000f83fe0030c7ff800e04fff00361bffc008c77fe003fffff800e03ffe00636eff8000cc3fe001e63ff8007063fe0003f8ff800603bfe0;
   0x7ff71fc00fffdff003fff7fc01e31c7f001c3c1fc00fff97f007bff7fc0003f1ff0031c31fc00e0077f0077599fc01dc397f003fff1fc00fff9ff00737e1fc001dc07f003f607fc00e0717f001f3e1fc0070397f0;
   0x3fc380c00c0b802003ffe00c00c30c0000780f80c00fff803003b0300c0000fc020000f800c007c06000007f800000fc3c0300380300c00fff803003f3e00c000cc0030073e000c00c03803003e0f80c007c38020;
   0x1401000004000000030070000003000000300300000e0180000300000000001c000000f0000007c06000001500000078180000380300000e03800001f06000001dc00000316000000401800001007000003c38000;
   0x0;
   0x0;
   0x0;
   0x0;
   0x0;
   0x0;
   0x0;
   0x0;
   0x0;
   0xe0001ccc1c00040c0e0000380380010000e0000000380000000e00001c03800006018000000038000060070000c30180001c00e0000700180000180e0001840180000000e0000000380000000e0000000300;
   0x3ffe0600008cc08000e0c06000038018001f8006000aaa818001ffe06000408018000063ff8007ff8180000e0030000e30180000c0060000300180000180600018f818001fbe06000fff818001ffe060007ff0180;
   0x3fff7e0001ddd7c00071c3f0005751fc001fff7f000fffdfc001ffe3f0006ff9f8001573ffc007ffdfc0000c01f000ff307c0000e07f00057d1fc003ffc7f00018fffc001fff7f000fff8fc001ffe7f0007ff1f80;
   0x330ff00009ff7c0003387f000fff9fc00083fff000cccbfc0018067f0003ff9fc003ff8ba80031b3fc001ffe3f800ff30fc001ffe7f0007ff3fc003ffc7f000183efc0019a2ff000e319fc0018c6ff0006033fc0;
   0x330730001ddd66003fff73000fff9cc00186473000ccdd8c001c067300039c1cc001d5dff8003b71cc001fff31800e3f2ce001ffe730007ff18c00155e730001830ce0019e763000e319cc0018c67300070318c0;
   0x3ffe33800aacc26003fff3380038e0ce0018e633800ccc8ce001ffe338001c80ce000e3e180001ae0ce0018021980063f6660018063380060318e000006338001830e60019a233800e318ce001ffe338006ab0ce0;
   0x3ffe31c00fffc3700019819c0018c0c7001cc631c00dddcc7001ffe19c00fffcc7000777ffc001dc0c70018071dc0077f66700180631c007ff0c7001fff31c00db3067001fff31c00fff867001ffe31c007ff0c70;
   0x3326ffc00eafcff000198ffc00baebff000cccffc00fffbff0018067fc00ffffff0003e2ae8000f83ff001aaa7fe003e36ff001ffeffc007ff3ff001fffffc00da31ff001fbeffc00fff9ff0018c6ffc006ab3ff0;
   0x3336ffc00dc30ff001fffffc00fffbff00064cffc005757ff001d567fc0031c3ff0001c1fe0001fc3ff001fff7fc001c3dff001ffeffc007573ff00180dffc00dbffff000000ffc00e319ff0018c6ffc007033ff0;
   0x3326c8800c8ba9a001fffcd800c01b36000018cd800030322001ffe6c8007ef3260003e1fe0003ff326000aaa6c8000e3cb2001806cc800603326001aacc9800dbffb2000aaacd800e319b6001aeecd8006033260;
   0x3ffecd800ddfedb001998cd800c31b36001ffccd8001b63360015546d8005fff36000f7fd7000fb7f360000076dc0077b5b3001d56cd8007ff376001ffccd8005f39b7001ffecd800e319b6001ffecd8007ff3760;
   0x2aaac8800c9be9a003bbacd800c31b36001ffecd8003b33220000006c800c04f26003e1cfbc00830f26002aab6c80033f0b2001ffecc8007ff32600180cc98007b39b2000aaacd800fff9b6000aaacd8007ff3260;
   0x1554ff800cdb6ff007fffff801fffffe0015d7ff8007333fe003fff7f800ffc7fe00387ff1c005753fe003fff7fc007031ff001ffeff8000003fe001d5cff8007df9ff000000ff800fff9fe000000ff8000003fe0;
   0x1ffcff800cdb6fe003bbaff800fffbfe0000c7ff800e31bfe003fbf7f8007fc3fe0000fff80007ffbfe003aef7f800ffb0fe0000c0ff8000003fe001ffcff80059f9fe003fffff8000181fe003fffff8000003fe0;
   0x1554cd800cdf6db001998cd80155d7360000c2cd800c31f360031f36d80000033600057d5f000775b3600374f6dc01fff9b30039d5cd800fffb76001574cd8001cfdb7003fffcd8000301b6003fffcd8007ffb760;
   0xc8800cdfe9a001bbacd80000c336003fffcd800430b220033a66c8007ff3260007ffffc00631b2600324f6c800303cb2001dffcc800fffb26000038c98003cbdb2000038cd8002779b60000cccd8006ebb260;
   0x7fffcd800cd74db001fffcd8007fc336003fffcd8001fe3360037766d8007ff33600060607c00631b3600374f6dc0071bfb3000ff5cd800070376001ffccd8003cb7b7000018cd800767db60031cccd8006ddb760;
   0x3fffff800cc30fe00039cff8007fc3fe0000c0ff8003b63fe003e2c7f8006033fe0007fffe0007ffbfe003fff7f80033b6fe0003d8ff8000603fe001ebeff8003e37fe001ff8ff8006e69fe00398cff8006c9bfe0;
   0x5c4ff800c7ffff00079cff80075c3fe0018c6ff8007373fe003c7c7f8007ff3fe0007fffe0007ffbfe003fff7fc007733ff0007dcff8007ff3fe000e3fff8003637ff001ffcff800e46dfe001f8cff8006ddbfe0;
   0xccc00000c7fe0000079e0000070e0000018c600000633800003f3c000007ff0000006060600003000000324f80000363000000ecc000007ff00000077300000263200000c0000000c06c0000070c000006c98000;
   0x1dcef0000c731c0000d9f7c0007063c00018c6f0000e31fc00037ff400006033c00007fffe0003303c000374df00007231f0001ccef00000707000007f1400006731c0001c00f0001f06d0000070cf00006ddfc00;
   0x38c6ff800e330fe00199bffc003073fe0018c6ff800c30ffe0031a2ff8006033fe0002aaaa0007303fe00324dff8003031ff0038c7ff8000603fe0003e0ff8006331fe000c00ff801b06ffe000eecff8006c9bfe0;
   0x31c71fc0077307f007999dfc0031387f001ffe1fc0043047f003070ffc007ff17f007fffffe007ffc7f00374ddfc0074301f0070c39fc00ffffff001ffd7fc00c3b07f000c101fc003fe7ff001cfe7fc01fffe7f0;
   0x20fb00c007bb000003198c00003e1e02001ffe00800030003003e3c00c006ab003003fffffe00fffc03003e4cc0c003c30000020f900c00fffc03003e1f80800c1b000000fe000c001fe00300383e00c00fffe000;
   0xf000000113000000198800001e0c0000180000000030000001e3c0000060300000000000000c00000001c0c000001c30000000700000055540000300700000c1b0000007e000000050000003004000000000000;
   0x0;
   0x0;
   0x0;
   0x0;
   0x0;
   0x0;
   0x0;
   0x0;
   0x0;
   0xc70000003800000006007000001c0000070c060000180380003700e0003c00380006180e0001030180008c40700018703800000007000000038001800060000300380000600600000001c0000c1190000000380;
   0x3c60000001800000006006000000c0000020e06000038018000330060006c0018000618060003860180018c603000186018003fff83000fefc1800187f82000030018000067ff0007ff00c0000e3998007ff8180;
   0x3fde0000015d000001ffe07000155f50003f7e7f000fffcfc003ffe7f000ec01fc003fff7f0001ce0fc000cce1f0001c60fc003fff9f000fffdfc00187f9f0005754fc003ff7ff8007ff0fc000061db0007ffdfc0;
   0x3ffffe0003ffbff000ffe060000ffff8003f7e7f000fffdfc003ffeff000fff9fc003fff7f000aee9fc0006cc3f800fffdfc002aabbf800c08bfc001861bf000fffdfc003ff0018006031fe003ff0db0000303fc0;
   0x5fffc00355bff001ffe070001ffff8000f9f730000001cc003b7673000fff9cc0006dc73000fffdce0007cc19800fffdcc0006c599800cf9dcc00186199800fffdcc000c39ffe007ff0c6003ffbffc005755cc0;
   0x203800c00309b80000c2e060000c0038000d9b338007ff8ce003bae33800aeb8ce0000cc338000480c6003fff998000300ce0006cd89800dcb8ce00186199800060cce000e7d9b0006ab0c6000e7bff800fffcce0;
   0x71f30000031d980001c7e7fc000c0738001df399c007ffc67003ffe31c00cd58670015de39c0055d467003fff8dc007ff86700066d8dc00d9b0c7007fff9dc007fec6700067df300075706700067f5dc00d75cc70;
   0x3fc180000339982000cce7fc000c0f380000e07fc006fe9ff003b26ffc00cbf9ff003ffe7fc007ff9ff8003f03fe007ff9ff000669bfe00e0c3ff007fffbfe006eadff0003c7ffc007ff1ff8007cb5e800c30fff0;
   0x3ffffc0003f19c7000dce770000c3c38003fff7fe007ffdff003b76ffc00dd59ff0001877fc0075ddff0007dc3fc000301ff007fffbfc00fdf3ff005d01bfc01fffdff0003c7ddc005551ff0003c3dfc00ff7fff0].
Definition hanzi_rows_209 : list N :=
  [0xbfffc0003818ce000c0e660000ef838003fff4d8006869b2003ffec98006ab9b2001fffed80064c9b6001ece24800aba9b2003effb6800debf26001801b6800fffdb20003c1b9800aaa9b20007e3da8002b23360;
   0x3000c0001f18dc000fce7700007c0380030034d8007ffdb6001ffecd8007bfdb6001fff6d8007c7db6007cc7b4c00fffdb6003311b6c00c79f3600187db6c00660db6001ff7ff800fff9b7001f7fdbc000303360;
   0x301cc0001e18f800078e63000028038003fff4d8006aa9b2000000c98003a69b20001866d8006029b60030c324800abb9b2002fd7b6800838326001b7db68007fedb2003c3fff800cc99b2003c3b388007f7b360;
   0x3878c0000018f800000e77000555578001ffd7f8007ffdfe003fffff800bb7dfe001ffe7f8007ffdfe000cc63fc007331fe003fd7bfc000303fe001b01bfc007fedfe003018e0000ccd9ff00307ff10007f7bfe0;
   0x3ee0c000aab870003ffe630007ffff8000c0c7f8000001fe002aaaff801baedfe0001867f8006aa9fe002e863f8003331fe003dd7bf8002babfe001a01bf800060dfe00007ff8000fff9fe00007ff80000003fe0;
   0x1e40c000fff870003ffe730007ffff8000c0c4d8007ff9b6001ffccd801bfedb6007ffe6d800755db6003fff34c01fffdb6001dd7b6c007ffb36001effb6c00fffdb60000755f000fff9b70000381f0007ffb360;
   0xaaaac000e000f0003aabe3000600000000ffc4d8003ff9b2001ffcc9800fe0db2003ffe6d8007ff9b6000c3b24800fffdb2000cd7b68006abb26001effb6800ffedb2000fffffc000001b20007ffff8007ffb360;
   0x1ffffc000e000f8001801f3000600000000ffc4d8007039b6001c0ccd800e58db60000066d8005d55b6000df1b4c000001b6000cd7b6c00601b36001831b6c00e67db6000fffff8007ffdb70007575fc007553360;
   0x180000000e001d8001800e380062aaaa00000c7f8003ff9fe00180cff80023e1fe001ffe7f8001801fe000cbbbf8002aa9fe000effbf800601bfe0018f7bf800ffedfe000e06060007ff9fe0006aeae0006003fe0;
   0x1800000007ffd9c001bff7180073ffff001ffc7f8007039fe001ffcff800777dfe001fff7f801fffdfe000ddfbfc007ff9fe000e75bfc007ffbfe0018f7ffc00f77dfe000ffffe0003871ff0007fffe0007ff3fe0;
   0x18ffffc00effc8e001bff3180063ffff001ffc000003ab800001ffc00000666800000e3800000baa800003fde00000601800000e38800006ab8000018b6c0000e62e00000e060600038e0000006060e0007ff0000;
   0x1cffffc0060000700180001c0070000000180cfc0007ffbc0000e18f0000d06dc0000770f00001873c0007fcc70000601900001f19f0000601bc00019b7fc000fff700000ffffe0001fc3c00007fffe0006003c00;
   0x1c000000060000380180000c0030000000180cff8000003fe000638ff800f06ffe0003e0ff80018e3fe000c0e7fe00601bfe001b18ffe00601bfe0018b3ffc00e627fe000ffffe0000f83fe0002aaaa0006003fe0;
   0x1c0000000700001001d4000e00300000001ffc1fc01fffc7f0017755fc01dfe67f001ffc1fc0018c07f000c071fc007ffbff00339cdfc007ff97f001d34f7c00e677ff001555554007ff07f003fffffc007ff97f0;
   0xfc0000007e0000000f80000003f8000001aac00000fffc00003fff00c001fe403007e3f808001f0003000c03800007ff80300318ec00007ff803001f3c40000f62303003fffffc00f8fe03003fffffc007ff8030;
   0x7c0000003e0000000500000001f000000180c0000000000000555500000000000003807000001f0000000c018000060180000208440000601800000e1c0000074720000155555400c01c00001555554006000000;
   0x0;
   0x0;
   0x0;
   0x0;
   0x0;
   0x0;
   0x0;
   0x0;
   0x0;
   0x701c0000700700000c01c0000000600001c0060000704000001c0180000018000001c000000060000000180180000700700000c01c0000700700001c0010000700400001c000000070000000060000000380000;
   0x30180002380300000c00c0003fe2b00000c0060000307000000c0180000018000000e0ff800060000000180180000300300000e0180000300600000c0018000300600000e0aa800038000000060000000180000;
   0x7feffc0071c71c0001c05d0003feff8001ff807000574ff0001ffc1c0001ffff8001ffdff8005747ff0015d1580005740300015741c00055c070001574c18007ff0f0001ffdffc007fffff000ffdff80015d4ff0;
   0x7feffc003ff3fe000180ff800306e1c000ff8030007fe0fe001ff83c0001ffff8001ffcc18007fe7ff001ffbf80007fefff000ffc180007fe060000ffcf98007ff1f0001ffdffc007feffe000ffcff8003ffcfe0;
   0x6301c0000ff1fe003ffeff8003c671f001d5bff0007fe0de001d5c7e000181818001d5dc18007fe667001ffbf80007fefff001ffc1c000756fff001d5c3f8007ff3b0001d5c63800757007000c0dc3800355cff0;
   0x63ef80000380f0003ffec1800be633b000c5bff8006160c6001848e6000181c1800184cc180060666300189818000616aba000c4dffc00316fff000c2c0f80060331800184c63800616602000c2cc3800304cc60;
   0x63effc007fe7fc003006cf800c063f0000cd9818006760c60019ddc7000ffffff0019ddc18006766670019d81800073601c001cedffc00776f77001c7d8180077f71c0019dc6180063771f000cedc380030ecc70;
   0x2e781bc003fe7fe003006d9800ffe0e0000d9b81c006660c6001b8b8b800ffffff00198cff800666663001b99ff8002660ac000cccba800366e63000ccd818003f3e0e00198c6180066631a000dccc3800318cc60;
   0x6dfc1c00000701400301ed9800fffc7c000d1995c007c61c6001b1f1dc0001c7c0001b1dff8006c67ff001b19ff8007460ec000d8c1c000746e73000dcdd5800747407001b1c61800647337000d8dc3800338cc70;
   0x3c8f1f800ffffff000018c1800000c3f000c19bfe002060c600180818c000f99f000180c000006067ff001819ab8003060ee000c0c18000306e33000c0cff8003032ab80180c618006063b2000e0cff800390cc60;
   0x3c07cf000ffffff000018fd8000ffff7000f99bfc007e6ffe001f1c38001ff0c7f001f9fffe007c6667001f19838003e60e6000fcc1c0003e6471000f8c7f0003e77fd001f9fffc007e71f700078dff8001f0cc70;
   0x3fffc000000c00000c18798000ffff0000799b18003c6ffe000f0830000ffffff000f0fffe003c6663000f19838003e62ee00078c180003e60f000078c080001e33ac000f0fffc003c61e200038cc38001e0cc60;
   0x3fffc0000ffff0001f18018000c0330000019b18000065d600001c550000ffff100001d57400006667000019838000067ff00000cff8000060f000000c1c00000770c00001dffc000071c700000d43800000cc70;
   0x3008c0000ffff00007d8ab8000c0f30003ff9b1800ffe186003ff9ff8000c0730003ffc03000006663000019ab800ffe2ea003ffcff800aae0f0002aac1c000fff30c003ffc78000ffe1c2003ffc03800aaacc60;
   0x307cc0000c07300001f9ff8000fdc30001ff9b1800ffe186007ffdff8000e1e30003ffc03000ffe7ff003ff9ff800ffe0e0003ffcd5800ffe0f0003ffc1c000fff30c003ffc7c000fff1e7003ffc03800fffcc70;
   0x1ef0c0000e8f30000039aa800079830003801b1800c00186003000c000007b830003000ff800ffe7ff003ff9ff800e003ec003800c1800eaa0f8003801ffc00c003ac0030006c000c003e200380003800e000c60;
   0x440c000079c30000019800007ffff0001801bf800c00186003000e000007d030003000ff800c0066700300181800c007ec001800c1800e000d8003801ffc00c003ec0030006e000c0037700380001800e000ff0;
   0x1ffffc000000030000019a00007ffff0001801bf800caa1860032aa600007ffff00032aac0000caa0600032a801800e006ee003aaac1800eaa0d80038001c000eaa0ec0032aa66000caab3a003bff01800e000fe0;
   0x1ffffc0007ffff0001019ffc00755550001ffd81800dfe9860037fe778007ffff00037fec0000dff0600037fc01800fff6e6001ffec18007ff4dc003ffe1c000fff20c0037fe67000dfff1f001bff018007ffe570;
   0x1800000006000000060198fc00600000001bfd81800eabb660032aa3e0006000000032aac0000eaa060003aa801800ffeee6001aaac1800fffecc003ffe1c000eff60c0032aa63800caa81e00380001800effe060;
   0x18ffffc006155550070198040063ffff001801c0000601b660030001e00063ffff003000c0000e0006000380001c00600ce7001800ff8006007ce0018001c00060060c00300061c00c0000700180001c006000070;
   0x18ffffc0063ffff0030198000063ffff00180180000600fde0038003800063ffff003800e000060006000180000c00600ce3001800ff8006001e60018001c00060060c00380060c00e00aaa00180000c006000000;
   0x1c0000000700000003ff9d0000700000001c01d4000700edf001800700007155550018006000060006000180001c007500f4001fc0018007000470018001c0007407fc00180074c00600fff00180000e007000000;
   0xfc0000003f0000003ff8f80003f0000000f80fc0007e0482001f80600003f0000001f807e0007c0060001f0000e007e00f8000f80018007e0003801f801c0007e03f8001f807e0007e0ffe001f00000007e00000;
   0x7c0000003f0000000540780001f0000000f807c0003e0000001f00000003f0000000f007c0007c0060001f00004001e0078000500000003e0001000f001c0001c0000000f003e0003c0000000f00000003e00000;
   0x0;
   0x0;
   0x0;
   0x0;
   0x0;
   0x0;
   0x0;
   0x0;
   0x0;
   0x1806700006039c000180c000007030400038000000070000000180400000700c00001c0000000c0000000180180000700000001c000000001c000001c0180000700e0000180020000603300001c0c00000600000;
   0x18066000060398000183c000003030c000187f98000301b80001806e0000300cc0000c0ff8000e2aaa000180180000300000000c001c000018000000c018000030060000180060000603300000c1f8000060aaa0;
   0x15d0670007fe39c0015d3df80057439c000187fb8005743980015d1ffc005740cc001ff9ff800573fff0015d0180007fefff0015f003800ffffff0015f43c00015d0700015d7f70005743380015d0ffc007fdfff0;
   0x1ff8660007febba001ffedf8003fe198001ff6ab0007fe71c001ff363c007fe0ce000ff8818007fbfff001fffffc007fefff001ffaaf000ffffff001ff87e0003ff3fc001ff7f38007fc318001ff81fc007fdfff0;
   0x1ffbffc00756fff001d7ec00007fefff001ff606000757e0c001d7367400757ffe001d59c18007fc000001fffffc00756070001d5bfe00000c300001ffcee0007ff7fc001ff001c007fc31c001ff81840075c0700].
Definition hanzi_rows_210 : list N :=
  [0x189bffc00606bba0018b8c0000316fff0018b630000616c0e0018b262000616ffe000c58818006080000018981800062666600085ae80000cc330001819c700031320c0018b000c0062c30c0018181800062c0600;
   0x19d86700077639c001dffffc00736d750019f631c0063f4c70019f76700063f0c7000cd9ff80067ffff0019d818000676676001dd8c00001cc3380018ffc380073f73c001df00cc0067dfec001cd81800067cfff0;
   0x1b9866000366398001bbfffc00366c60001bb6308006660e3001bb0620006660c3000d98ff8006cbfbf001b9bffc006e6666000f98c000038c31c0019d981c0036326c001bb00e0006edfee00199abaa006ecffe0;
   0x1b18670007c77dd001f38c00007c6c60001f36ffc007671f0001b37ffc007670c3000d18000007df1f3001b1bffc006c6676001d18c0c0070c30e001d1c55c0036776c001f37ff0007cdfef001f1bffe006ccdf70;
   0x181800000306fff800c38cc000306ffe000836fe8002063b0001837ffc002060c2000c19ff80068b1a300181b00c00606266000c18c1c0060db06000c18ffc003032cc000c37fb00020c38f00081bffe0020cdb20;
   0x1f19ff8003e7fff001fb8cc0003e6ffe001fb675c003e7738001f30670003e7fff000f99ff8007df1f3001f1b00c007c6776000f98c7800001c00001f9cff0003f774c001fb1838007ec78f801f98180007ccdb70;
   0xf19ff8003e6000000fb8cc8003e6062000f36388003e661c000f32620003e6fff000799818003cb1a3000f1bff8003c6766000f98c30000ffff0000f18000001e320c000fb1838003cc78d800f18180003ccdb20;
   0x1999c00006554000038dcc0000606700003679c00007e1e0000376700000700000001981c0001f7f7000019ff000006f7f000018c00000ffff000001c000000077ff00003183c0000cf8d0005181800000cdb70;
   0x1999800aae7fe002ab8fc800ffe063000036f8800aaefff002ab36a000aae000003ff9ff80000b7af00001870000ffef6f002ab8c00000c07b0003ff8ff800aab3ff00003183e0000cfcc002ab818000ffcdb20;
   0x3ff999c00ffe7fe003ff8fcc00ffefff003ff6fdc00ffffff803ff37f000fff7fe001ff9ffc00fff5ff003ff838000ffff7b003ffec00000f5f30003ffdff800fff70c003ff183400ffdbcc003ff9ffc00ffcdb70;
   0x3ff9ff800eaa606003000cc800c00fff003aa7b6800e006ad003001e7e00e007fe00380181800eabdab003ff818000c009fb003007c2000079830003000c3800e0022c003aa183000ea9bcc003aa9ff800c00db20;
   0x3001ffc00c00606003001ccc00c00c70003007b7c00c0060c003001c7c00c0075600180181c00c03dfb003001ff000c001f1803003f7000011030003001c3800e0076c00300183000c0136c00300181c00c00db70;
   0x32a999800e007fe003aa88c800eaac7800300632800eaa60c0032a8c2000eaa606001801ab800cab1ab0032a8ffc00caa061003000fb0007ffff0003000c3800e002cc00300183000c0036c00300181800caadb20;
   0x37fd99c00fff7fe0037fd8cc00dffc7c003ffe31c00fff60c0037fce7000fff606001ffdffc00dff1f30037fc19c00dff0700037fc3b0007ffff00037fdc3800ffffc60037fd83000dff37c0037fd81c00dfedb70;
   0x3aa999800eaa606003801ac800eaae6e0032ae30800e0060c003800e2000e00606001bfdab800cab1a3003aa818000eaafe0003ffc03800600000003ffcc3800effa06003aa983000eaa32c003ffd81800e00db20;
   0x380199c0060060600380dffc006007e700300631c0060075c001804f700060060600180181c00c031f300380018000e00fff0038000180063ffff003801d780060070600380183000c0030c00380181c00e00db70;
   0x1801ff80060060600380f9fe006003e3803806308006007fc001806ba0006007fe00180181800e031a3001800180006000ff8038000180063ffff001800ff80060020600380183000e0030c003801ff800600db20;
   0x1801ffc006007fe00180f01c00600061001807c1c006007fc0018079f0006007fe001c0181c006031f30018001f80060000700180001c00715555001c01ff800740747001801d300060030c001801ffc00600db70;
   0x1f01818007e07fe001f06000007c0060001f03c08007e060c001f8383c007e0606000f81f18007c3dbb001f001f0007e0000001f8000c003f0000001f80038007e03e3001f01f30007c030c001f00018007c0e020;
   0x1f00014003c0606000f00000007c0060000f01414003c0004001f0303c003c0606000f81f1c007c1d9b001f00050003e0000000f00000003f0000000f80000001e01c1001f00f30007c030c001f00014007c06070;
   0x0;
   0x0;
   0x0;
   0x0;
   0x0;
   0x0;
   0x0;
   0x0;
   0x0;
   0x180040000601000001c10000006000000006155000060000000381020000303000001c0000000600000001c0000001c001c000380300000e00400001801c000070010000180000000700600001c0000000700600;
   0x1800e0000603b80000c3f8000061fff000063ff800060ffe000183830000303fe0000c1ff800060fff0000c3ff8000c3f18000180300000600e000018018000030030000187ef8000600600000c1ff8000300600;
   0x1ff7f7c0007071c001ff9ffc00575fff003ff1c40007fcffe0015d187000e3307e0015d1ff8007fcfff001ffbff8005d3f1c0015d3ff0005755d40015d15d4007ff0380015d7efc00574070001ff9ff8007fe0700;
   0x1ff7f0c007fee0c001ffb0bc007fc000003ff8fe0007fccc6001ff0c6000633060001ff9838007fecf3001ffb818007fb318001fe3ff0007fdffe001ffbffc007feff8001ff6688007feffe001ff9818007fefff0;
   0x1d76c0c007ffc67001d7b1dc007fc7fe000c7fffc0075ccc6001ff0ce0007337ff001d599f80075ecf3001d7b818007fb31c001ff3300007fdffe001ffbffc007ff7fc001ff66dc00756fff001d59818007fffff0;
   0x18b6c4c0062e8630018bb9980060c7fe000e6fffc0062ccc60018b7ffc00333fff0018599f80062ecf30018bbff80065b3180018a33000060c0c60018180000060660c0018b668800616e66001899ff80060e3b80;
   0x19b6ccc0077e3300019f99980066c6060007c73c00067cffe0019f7ffc001799f80018f99380067efff0019fbd58006fb37f0019ffffc0066cffe001cd9ff80067770e0019f66dc00736e670019d9ff80067e71c0;
   0x1b366cc006ee318001bb9bb8006cc606000383b60006ecffe001bb0820000f83fc001999938006eefff001bbb8180079bb7f001b2fffc006ccffe000999ab8006e6386001bb7ef800666ffe001b99818006eeeec0;
   0x1f366fc007ce7fc001b38c10007cc7fe000ff1b3c007cc556001b31870001cc36e001d9bffc006ce000001b3bff80079bf1c001f73300007ccdd6001f19818006c7187001f37efc00746fff001b19818006cfcee0;
   0x18366fc0020effe0018388300060c7fe003e7c39c0060c0060018308300078786700081bffc0060e7fe00183bff80061bb180018233000060ccc6000c198180060609300083668800306e66001819ab80060eaef0;
   0x1f37f9c007eec16001f3bff0007cc00000381b3c4007ccffe001fb4db000703e61001f9b00c007ce7ff001f38060007db31c001f73ff8007cdffe000f99ff8007e703c001f366dc003e6e67001f19ff8007cefff0;
   0xf30a04003ee000000f3bff8003ccaaa0003fffc0003ccffe000f36d9800000620000f9bffc003ce000000f380300039b318000f23ff8003cdffe000f98000003c6f9e000f36688003e6ffe000f18000003cece60;
   0x300000000efff00003819c0000dfff0003fffc00000cc1e0000367d8000ffff0000019ff00000e55500003bff00001b37f0005703000000ccc6000019ffc00007fc70001366dc00006fff0000187180000ece60;
   0x3ff3ff80000efff003ff818c00aacc03000300cc000ffcc1e002ab3eec000eaab0002ab8c3000ffefff003ffbff800abb37f00002231800aaccc6000019ff800aaee0300003668800aae038003ff861800aaeffe0;
   0x3ff3ff800ffedf3003ff95dc00ffdf1b000303cc000ffcffe003ff3ffc000c0f30003ff9c3000ffffff003ffb19c00ffbf63003ff77d800ffcffe003ff8e0000fffe07003ff7efc00ffe1dc003ff871800ffeffe0;
   0x300331800ffedb6003003ffc00ea8dbb0001ef0c000c00ffe00300326c0007bc30003800ff000c0000c00300318e00eabf63003aa27d800ea8ffe003aa838000eaae03003aa7ea800e0018e003003ef800eaace60;
   0x300331800c00f3c003007ffc00c01df30000440c000c00c1e00300187000079030003001d7000c0055c0030033dc00c03363003007f5800c001c700300018000c00fff0030066dc00c001c7003003ff800c00df60;
   0x32abff800c00c300032aa99800c00ffb001ffffc000caaebe0032ab870007ffff0003aa8c3000caa7fc0032ab3d800cab3630032a2f5800caa1c2003801fa000c00fff00380668800e00baa0032a861800c00ffe0;
   0x37fbff800dfff3c0037ff99800dfffff001ffffc000dfffff0037ffcf0007ffff0003ffdff000dff7540037ff67800dff3630037f7f5800dfe367003ffdffc00dffe07001ffe6cc00ffffff0037fc71800fff5f60;
   0x32ab31800eaafbf0032ab99800caac6300180000000caac1a0032aecd800600000003800ff000eaa6000032ab85800cab3eb003aa2b6800caa663003aa81bc00dffe03003ffe68c00efefff003aa861800ffe0e60;
   0x300331800e00df700300399800c01c630019ffffc00c00c1b0030076dc0063ffff001801c3000e00600003803ff800c031ff001807f7c00c0067300180018000c00e070018066cc006001c00038037d800c000e00;
   0x380331800e00c30003803b9800e00c630019ffffc00e00ebb00380fefe0063ffff001800c3000e00600003803ff800e03183001802b2c00e00c3300180018000e00fff00180628c00600180003803ef800e00ee00;
   0x1803ff800600d34001803ff800601c63001c0000000600ffb00180dffc00700000001801c3000600750001801800006031c300180732c00601c3b00180018000600fff0018063fc007e01c0001800f7c00601fe00;
   0x1f03ff8007c0fbe001f83bf8007c0f63000fc0000007e0c1b801f8c180003f0000001f80f30007c03f0001f81f00007c3cc0001f0230e007c001f801f801f0007e0e03001f07be6003e0180001f80318007e03f00;
   0xf03018003c0514000f00000003c07430007c0000003c0c19001f00000003f0000000f00730003c01f0000f80f00003c1cc0000f07304003c0009000f000f0003c0007000f03b44001401c0000f00008003c00600;
   0x0;
   0x0;
   0x0;
   0x0;
   0x0;
   0x0;
   0x0;
   0x0;
   0x0;
   0x1c301c0000c0000000380c60000603180006381c0000018000001801c0000700000000c000000060000000dc0180000700d80001c0300000c0000000180300001c00000001c0180000c060c0001c0810000700c00].
Definition hanzi_rows_211 : list N :=
  [0xc300c0000e1ffe000180c60000603180006380c00000380000018018000060ffe000fe1ff800060ffe001cc2ba8000301980000c0380000e1fbf000180700000c3f7e0000c0180000e060c0000c1838000308e20;
   0xc715c000061ffe0015d7ffc00575fff003fff5d000fffffc0015d7ffc00574ffe001ffdc18007fc7fe0018c7ffc0057419c001ff15d400575fbf0015d070000ffff7f0015d018000574318001ff9c30007ffe7f0;
   0x661fc0007f80c0001ffbffc007fffff003fff7f800fffffc001ffbffc007fedb2000e6fab800ffc318003ff8aa0007fe38c001ffbffc007fd9b2001ff7ff800ffa362001ffbffc007febba001ff8c60007fe76c0;
   0x3ffdfc0007fffff001d78c600075e3180006bc7f80007330c001ff80000075edb60007c5ff80075c3f8003ffdff0007ffffc001d7d5d4007fdbb7001ff7ff800d5ef7b001d5bffc007fffff001d78660007560600;
   0x3ffc0c00060bfff00183aaa80062e31800018c618007ff98c00181bff80062effe003ff81800062cfff0001e183000607ffe0018bb3c80060da3c0018b001800e1af7a00185b0cc0060cbba0018b80200062636c0;
   0x1c01c00067f0c30019fbefc0077ffff0015de6f800575dcc0019dbffc0077effe007c3ff980066dfff0011e1ff00077618f0019f9ffc0067dc380019f3198004fef7b001cdb3fc0067c1b00019fbffc00777f7f8;
   0xc0ff8006ebeff001bba2c8006effff003ffe6d8003ffeec00199b2a8002ee000000ff9f98006cccf00021f09800066618f001bb8e70006edf3e001bb319800fdaf6a00199b36c006ecffe001bbbffc002e68f30;
   0x1ffdffc007ddfdc001f3b6cc007cf803000187798007ffffc001f1b7fc007cffff001c191980078cdfc0035f9db000746fff001b3bc70007cdbb7001f331980079ef7b001d18770007cdfff001f38660007463b80;
   0x1ffca08002080ea00083bef80030fbfb001fffe18002ebabc00081b6680030ffff000eb9ff80060c08e003f9f9f800306ffd00183fffc0060d8b2001837ff80061af6a000c1bff00060c9b0001838e600030671c0;
   0xc1f3c007fdffe001fb9674003ee7fc001fff7d8007ff9cc001f9b7fc003ee000001fff5fc007cc1f700000f1dc003e618c001f3fffc007cd0c0001d37ff80075e57f000f9bff8007cddb0001f39c38003e6e1f0;
   0xe0b68003c8080000f38320003ee0000001863d80006188e000f1baa8003eeffe000003000003cc0e00003fffc0003c6bac000f39834003cc3f0000f33198007d9e3c000f1823c003cffff000f3b81c001e7fff8;
   0x7ffff7c0001ff9c00003fff00000ffff001ffe01800fffdcc00001bffc0000effe0003fffc00000dffe0003fffc000006ffc000039ff00000cfbc0005331980001b77700001873e0000ffff00003f01c00006ffd0;
   0x3ffe9c80000bf88003ffbff800aafffe00018601800001e8e00001800000aaec060003fffc000ffdffe0003008c000aae18c003ff9ab00000de8f00003319800abe3e3802abbffc0000c9b0003ff8aa800ffe60c0;
   0x71ddc00fff1ff003ff863c00ffe470003ffeff8003fffce003ff9ff800ffec06000301cc000ffdd66000347cc000ffe18c003ff983000ffd9c7003ff319800ffa161003ffbff400ffddb0003ff9ff800ffe75c0;
   0x3098800eabbff003002ebc00c00c7e003ffeea8003fffce003aa9ab800c00ffe00038f8c000c01bb60003ee0c000eabffc003001ff000ea8078003ff3f9800ea8fff003aa823000ea8ffe003001ad800e007fc0;
   0x1ff9ddc00c03f9c003003ffe00c006cf000006c0000193ec6003801d7800c00ffe0001ec0c000c01f1e00004c0c000c01ffc003001ff000c0073e003003f9800c01fff00300073000c01fff003001bd800c0075c0;
   0x1ff8b6800c031bc00300063c00caa3f2001ffee00001ef8c6003801ff800eaa8f8001ffffc000cabbfe001ffffc000e0000c0032a8ba000caa38e0032a801800c01838003002ab000caa3b80032a9ad800eaa60c0;
   0x31df7c00fff5fe0037ffff800dff7dc001ffeffc00ffffc6001ffd83800dffddc001ffffc000dffff6001ffffc000ffed960037fdfb000dfedf00037ffd5800dfcc1c0037ffff000dfe7bc0037fdbd800fff7fc0;
   0x30ea3800eabfea0037fbff800ffe7ef000e38ffe00ffffc6001ffdff800eaa70f80180000000cabb3600180000000ffedb60032a9bb800eaae3e003aaebd800dfce0c003ff823000caadb60032a9ad800eaa7fc0;
   0x307c1c00c0319f00380063800e01df2000770c0400c00007001801ff800e0071f0018ffffc00c01f760019ffffc00601db600300339800e0071e003007b5c00c007fc00380073000c01db7003007fd80060060c0;
   0x302ff800e0318900380063800e009b80003e0c0000effff300180380000600e880018ffffc00e01bf60018ffffc006019b600380339c00e003e0003804b6c00c003e000380023000e009b3003803ff80060060c0;
   0x7ffdffc00603f9d001807ff80060018f001ffce0000655553001d03ffc007e1cfc001c0000000601c36001c0000000601b3300180038c006001fc001805b6c00e01ff8001807ff0006001b30018007fe007e060c0;
   0x3ffc808007c3b88001f83ff8007c00f3003e3f7c0007e0003800f80bfc007e083c000fc0000007c1e06000fc0000007c0003001f803e0007e003f001f00b2e007c3c3f001f83ff0007c01b1001f8000e003c07cc0;
   0x1c003c319c000f00038003c00f00030077c0007e0001000500004001400040007c0000003c0e060007c0000003c0000000f801e0003c0007001f00004007c1007000f80030007c01b0001f00000000003cc0;
   0x0;
   0x0;
   0x0;
   0x0;
   0x0;
   0x0;
   0x0;
   0x0;
   0x0;
   0xe07000000380000000c000000038000000101c0000700600000181c0000018000001801c00000380000000700000070060001c301c000001800000006000000018000000060000000380000000c000000018000;
   0xe06000000380000000c0000000380000001808000060060000018080000018000039981800000300000000e00000020060000c301800000380000000e0000000380000000e0000000380000000c000000038000;
   0x1fffff000fffffe003fffff80000700000001dffc000707ff00001dffc007ffffe00199838000fffffe003fffff000ffffff001c317d000fffffc003fffff000fffffc003fffff800fffffc003fffff000fffffc0;
   0xfffff000fffffe003fffff800fffffe003ffdffc000607ff003ffdffc007ffffe000db3ff80000c30e002abaeb000ffffff000c33ff800aaabac003fffff000fffffc003fffff800fffffc003fffff000fffffc0;
   0x15f57500006030e00010043800fffffe003ffc1c000575060003ffcdd000001800001dd7ffc007ffffe001fffff0001fc1fc003fffffc007ffffc000030c300001c30c000030c380000c30c000070c300055d75c0;
   0xe06000006030e000180c380000000e00300eaa8007fe2ea00380ec9800001800003ffc2c8003aebae000fffff0007af76e003ffc6c8003ffffc000fffff0007ffffc000fffff8003ffffc001fffff00001830c0;
   0xe070000ffdffe001ff7ff8000e030e003067ffc007ff7ff0038677d8003ffff8003ffc6dc007ffffe001c30c3001f73e67801c306dc0071c30c001fffff0007ffffc001fffff8003ffffc001fffff00001c30c0;
   0x3fffffc00ffdfee001ff7fb8000e030e003667aa8000602ea003a6eeb8003ffff80007e1ff8003ffffe000fffff000821863000c33ff8003ffffc000c30c300060c30c000830c380030c30c001830c30007ffffc0;
   0x3fffffc001f0f8e0017d5d38000e030e00376c1c000070060003b6dbec00001800001df1ffc003cd56e000c3033000fffffc001ff3ffc0030c0cc001fffff0007ffffc001fffff8003ffffc001c70c30007ffffc0;
   0x6000003f9bce0007c3e38000e030e003369ffc00060fff003b683e4000018000039b92c8003fdfee001ff7f3000fffffc000ff36c8003fdfcc000fffff0007ffffc000ababb8003ffffc001fffff00061830c0;
   0x5575400077d3ee000df7f3800ffdffe003179ffc00070fff003978ff000ffffff00719f6dc00c1d06e0031f57300000c30c001c336dc00c5d5cc001f357300030c0cc001f77fb80030c0cc0015757700061c30c0;
   0x7fffe000e6e37e0019b6fb800ffdffe0030680e000aea038003969cb800ffffff00399d2c800fffffe003fffbb80000c30c000c336c800ffffee000ff7f38007fdfce000ff7fb8007edfce000e303300061830c0;
   0x7575600046433e00399cdf8001f07860037fe56000fff158001fff9fe00000780001819ffc005503ee001fe7ff0007ffffc001ff3ffc007f9fec0030703300047d5cc0030703b8001fdfcc001ffff30007ffffc0;
   0x606060000f820e000188cb8001f0f8e0037feff000fff7fc003ffe06c000003c00018f9ff800180bae00000e0b8006aebac000ff3ff800000a0e003037bb800c0f8ee003ffffb800c0c0ce0000fab38007ffffc0;
   0x7fffe00007ffee00010e438003f1fc6003070ff0000707fc0018f0ff0001fffe0007f7c67c00181ffe003fffff80070c30c001c3067c003ffffe003ff7fb800fffffe001fe1ff800d5dfee00307d3380001c0cc0;
   0x7fffe000003fee000007038003fbbc60038f0e38000f030e0019f8ff0000ffff0003f6c66800ffd82e002aaaab8007ffffe000c30668003aa06e00030c2b8002a38ee0003e00b800ffffee003ffffb80020c0ce0;
   0x606060007ff0060000f3c18007fd3e60039f863c000f039f001bf8638000701fc001967ffc00ffdff60007fff98007ffffe007ffdffc003fdff600071c718005575560007fff1800000066001ff1f980079d5ce0;
   0x606060003ffff6000078e18006ec366003b6c6fe000f81bb801b6c67c0003838f0019effe8001898260007fff980020c06e003ffffe8003fcfe600038ce18007ffff600000c2180003ff06000200218003edfce0;
   0x7fffe0000035f600033c79800eee377001e6e7e4001dc1f1001e6e7ec0001c7860019ff67c00199ff6000755798007cdfe600555467c00300076003ffffd800557556003fffff80003ff060007f0718000fdfc60;
   0x7fffe000fff00600030e39801ce733e0038673800019c0e00018663c00000fe00003fb8668001b98260007fff98003fdfe6000ee066c003fffe6003ffffd800003006003fffff8000383860000ffe180000c0c60;
   0x60600007ffff700070781c00ce73170018637c00038e1f00018637c000007c00007fb066c001b1fff00018c41c0041c066000c7066c0055d7470000ff81c003fffe700007f81c00c38387001c07f1c01c1c0c70;
   0x3f0f80008030fb000fe3e1c000e0303001860ee0007073b8001860ee00003ff80001819fec001a1f030003ccf0c0080c067001833fec00c0c7030003cde0c000030030003cde0c00c3818300180020c00c0c0c70;
   0x1fc07f001c03003001ffff9c000e0303001c6047800f0791e001c6047c007fc7fc00181dffc001819f3001f0c3ce00c0ffe7003839ffc00d5c3d3001f1c7cc00557553001f1c7ce00d701e3001d5570c00ffffe30;
   0x3e000fc00fff00380182ff8e000e0303801f6003e00e01c0f000f0001c00fe00ff00180e22e001f1a7b80380f8e000ffffe380301c26e00ff80fb803e0c1ee00fffffb803c0c0ee00ff00f3800fffe0e00ffbfe38;
   0x1800018007ff003001800104000e0301000f0000c00c00802000f0000000f0001f001804004001f1e1100100f060007f806100100c0040055001100101c0440055555100001c004005400710007ffc00005500610;
   0x0;
   0x0;
   0x0;
   0x0;
   0x0;
   0x0].
Definition hanzi_rows_212 : list N :=
  [0x0;
   0x0;
   0x0;
   0x1c0000000100000001c00000000c3c00000c000000010000000000000000600000001c0000001c0000000180000000718400001800000007000000000000000070400000071c00001c0000000707040000603980;
   0x181ff8000383ff0000c1ff80000e3ff0000c1ff8000383ff003fffff800060ffe0000c1ffc000c63ff000181ff8001fb8e0000183ff8000307ff0007fffe000060ffe000031fe8001ffe800007060e0000603980;
   0x181ffc000dc3ff0015d5ffc00ffe07f0001c1ffc001dc7ff003fffff800060fff001fe1ffc001c63ff001195ffc00dc3070000783ff8000707ff0007ffff0000705fe0000307fc0007fffc00038e1c0000607dd0;
   0x3ffd9880018e323000ff988800ffe0600003819880038c2ab00001803800060c6a001ff1aac000c233300398988800ffffbc000d83198000f86ab000606260000600e0003ff818000001ab8001fffff800060fff0;
   0x3ffddbc003f73bf001ffdfbc00f777ff003ffddbc0070e7bf00039c03800ffff6f001c39efc001c33ff00399dfbc0057ffbf001d83df8001dc7ef0006c637000071fff003ffd5d400001800001fffff800060fff0;
   0xc31da8007ffbaf0000c1ea800e33afa003ffdfa8007ff2ab00070c03800fffd6a000c1daac000c33bb003989ea80081c037001983df80018c6ab00066666000fe1fff00398fffc00fffffe001820218000603980;
   0xc31ffc0063f3ff0015d5fec00639bfc000001ffc00fff7fb003fffff800060d7f000e7faec00ff33fb00399dfec01c7c0330011835f80038e6fb00067667001ff15f50039cf7d400ffffff00186061c01fe03980;
   0xc31be8000383eb003fffaa80061c76e001ff9be800c032eb002aefab800060dfa0007e5aac00ff9b7b003989ae800ff00300001837d8007166ab000636660000603f80038c47e00001ff00001fffff800fe0fff0;
   0x671b9c00ffff73001fffbac007de267801ff999c005dc7330001c3c3800060d670003c18cc00cddb7300399dbac007d5550003fff59800f3f66300075757000070ffc0018e1ff00007dbc00007fffe000061fff0;
   0x2eabff800fffbff001881ff800386062001819ff80038e3ff000f80f3800060ffe0001e1ffc00cccfff003ba9ff8001ffff8003fffff800e73fff0007fffe000060cef0018719b8001e18f0000060600000600600;
   0x7fffffc001cc3ff001db9ffc001ffffc001819ffc007077ff007fffff8007fefff0001f1ffc00ccffff003ffdffc001918d80001c3ff8004e17ff0007ffff0000700e7001d3e19c007c3c7e003fffffc000605740;
   0x2aaa1800038e030000de0180001ffff800181818000e03020003c99bf8007fe0600003be08000cc7c30002ba8180001b98d8000180180000c0060000006000000600f0001f0f18c00603e0f003fffffc00060ffe0;
   0x15d400f779750001cd5d4001999dc001819ffc01c1bfff000cd933800554fff0001ddffc00cc63ff0001815d40019d9980001c3ffc000407ff000fffff000ffe3f800073fd840041f70600000600000060f770;
   0x1ffbffc00e33fff00019cffc00189998001ff9ffc00018bff000cdb33800000ffe003fe0ffc00cc23ff00318dffc001898180003c3ff8007fe7ff000fffff000ffef3e0000f8e000003c3c00007fffe0007fee660;
   0x1ff95d40081c9750001995d4001ffffc001ff95d4007fc175000ffff1800554575003ff15d400cc317500318d5d4001ffff80003c15d0007ff57500055755000f57e6f8007e67c0001f19f00007fffe0007fffff0;
   0x18181800018e030000180180001ffff8000180180007fe020000018038007fe06000383808000ccf03000318c180000018000003c01800030006000000600000e06863001f861f000fe183e00060606000606ffe0;
   0x181bffc001e73ff003fffffc003ffffc000193ffc0070f7ff001ffff18007fefff00185dffc00c4dbff00318dffc003ffffc0007e3ffc003807ff00155755400e0666f003f8617c00f6187f0007fffe000607e670;
   0x1abbffc004703ff003fffffc003ffffc000db3ffc0038ffff000ffff180060efff001cefffc00c69bff00318dffc003ffffc000663ffc001807ff003fffffc00e0637c0031c639c008718e20007fffe000606e660;
   0x1ff901400f3c1050000c001400001800001d98014001dd8050000180180060e405000fc400400c7fd0100318c01400001800000670014001c0205003fffffc00e063f80000ff7000003fdc000060606000607fff0;
   0x1ab9b080038f37a0003e0b2800ffffff001998b68000f837a003ffffd80060e6d2000f80d6800c7fd6a00318cb6800ffffff000e31ad8000c03da00000002000e067fc00007fe000001ff800007fffe000606ffe0;
   0x181b758001c635f000771b7800ffffff00319db5c0007035f00155555c0060edf6000781f7c00c79f7b00318db5800555555001c396d8000c06df000f18c7000e06f7f0001f7f000007dff00007fffe0006071180;
   0x181b6c8000f02db000e39a48001c639800318dacc001f86db000c6330c0060edb20003e1b6c00e3025b003ffda680018e33800183b6c8000e06db000e38c3000eaec630003c63e0003e18fc0000e06000060639c0;
   0x1ff96cc0007e6db003c3c64c0038e31c00718e6cc007df6db001cc738c007fedb30000fdb4c0063875b003ffd64c0070c31c00781d6cc000706d3001c30c3800ffe061000f060f0003c181e0007f07c0007fff0f0;
   0x1ff86cc0000f89b80300f24c0070c30f0001e02cc00f0789b8038c61ce007fe1b300003e26c007980db00300024c0060c30e00700e6ce0007009b803870c3800ffe078000407c3000001f00003f001fc007fe6038;
   0x1818044000070118010060440060c3060001e004400c018110010460c40060e01100000c004003980010030000440061c70700200400400030001001071c1c00e06070000007c0000001f00001c00078006070010;
   0x0;
   0x0;
   0x0;
   0x0;
   0x0;
   0x0;
   0x0;
   0x0;
   0x0;
   0x100004000060010000000040000600100000000400001c010000300040000003000001c0180001067080001801800001c0000000000000000000000055555000000000000000000001601d80000e06400018e7100;
   0x3fa0af0000602bc003ffeaf0000602bc000002af0000182bc000360af0002aa7f8000182ba8003e663c000180180002aeaaa0000ffff80003ffc0000ff9ff8001ffff80003fffe0003e0c9a0006e32480018e3180;
   0x1ffdf7c00fff7df003ffff7c000607df003ffff7c0001c7df000771f7c003fe1fc003fffffc0007e7f0000183ffc007ffffe0001ffff80073ffce001d5dd78001ffff80007fffe000e60ddf000ee365c001ce7380;
   0x30bd80800fff6020000c380800060602003ffb0080000c6020006318080038000c002baaba80003e780000183ffc0000f800003fc0700003380ce000ff9ff8000000000003000600046069e0018e1a58000ce3300;
   0x19dd81c000606070000c381c000606070001c301c00ffc60700063181c0038001c0001c3ff8001fe7fe003ffd5d40001df00003fe03800073ffce0007fffe000ffffff00070006001fff7de0018e1e58000ce7700;
   0x1999f78002ea7de0000e3ff800fff7de0000c3ef800ffe7de000e39f78003fe7fc001ff800000f863be003ffc1800000c3e00038001c00033ffce0007fffe000ffffff00030006000fff0980000e2ae800ffffff0;
   0x1dd9f7c007fe7df001ffbffc00fff7df0000c3ffc00ffe7df000c19f7c003fe7fc001ffdff800c063e00015d5ffc0001d5ff0019ffff8007380ce0007fffe000c0c1800007fffe000061fff003fffffc00ffffff0;
   0x8d180800060602001ffb80800eeb6020000e300800e06602001c198080038000c000e3181800ffe0fe000181ffc0000f81f001efff3c0033ffce0007fffe000c0c1e00003fffe000060fff803ffaba8000e18300;
   0x4e181c00060607001c6381c00e6360700006301c00c07607001c1d81c0038001c000771ff8007fc07f0001815540007ffe0000ec031c0073ffce0007fffe000ffc0ff00000700000ffee6700006199c000718f00;
   0xe71ff800fff7fe000c63ff800e637fe000063ff800e03ffe00380fff8003ffffc0003c0c20000600600001800000003ffe0000cfff30003380ce0007fffe0002a001f00000600000ffe6660000619b8000398c00;
   0x779ffc00fff7ff001c63ffc00e637ff000073ffc00cff7ff007557ffc003ffffc001fffff000070fff001ffdff80007ffe0000cc03300073ffce003fffffc001ffff8000fffff000c6676c001fe0db0003ffffc0;
   0xdf888800000222003ffc88000e63220001ff288800efe200002ffa88800000000003e3bffc00ffffff003ffdff80033ffec000cfff300033ffce003fffffc000c0018000fffff000c66aee003fe2ba8003ffffc0;
   0x1df9ddc007fe767007ffd99800e63777001ff999c00ec6667001ff9ddc001c5c1c001557d5400fff06000181dc18007755ec000cfff300070000e0007fffe0001d5558000e0703000ffefff001d73ffc003d5d5c0;
   0x1870888007fe222000001ba800fff22200187b9a800ec66e2000ce0888000cd8d80007fffe0000607fe0018198180033ffec000cc0330003fe3fe0003fffe0000ffff8000e0603000ffeeea0018e3ba80038180c0;
   0x3ffdffc006067ff000001ff800fff7ff00187dffc00ec67ff000c61ffc001fdfdc000606060000707fe001c39d58007700ec000cfff30007fe3fe0007fffe000001c00000fffff000c66c63001cf319c0038db1c0;
   0x33fcee8007fe3ba001ff9de800e633ba00186fde800ec67fa000c60ee8000f9b180007fffe000fff2aa000c31ff80033ffec000c000300000e3000003fffe0003ffffc000eaeab000c66cfa000cf37e80038db8c0;
   0x1185ddc007fe667001ff999800e6377700187d1dc006fe667000c61ddc001c1c5c0007fffe0007ff7fe000e71ff80070000c000ff9ff00055e355000fffff0003ffffc000e0703000d76dfb000df37fc0039999c0;
   0x2ba8bb8006062ee001819ba800e632ee0018637a8006fe6ee000c60bb80018d8d80006038600070e6060007e0c30003fe3fc000ff8ff0007fe3ff000fffff00030180c000eaeab000ffef6a000fbbda8003b998c0;
   0x7ffdffc007567ff001819ff800e637ff001871ffc006567ff000c71ffc001ddddc0007fffe00039c7fe0007e0e70007fe7fc000039c00007fe3ff000d57570003ffffc000fffff000ffef6f00071bdbc003b19dc0;
   0x2be8ee8007fe3aa001819dc800e633ba001863dc80060676a000c30ee8001b9b98000038f80001987fe0003c06600000e300001ff8ffc0060e318000fffff00030180c000aaeab000c66f6e00031f9b8003f18ec0;
   0x3c19dc0075666700181999800e6367700187719c00600667000c31ddc00191c1c00157d7d4001f830c0007e3660007fe7ff001ff9ffc0060e31c000c07030003ffffc00700703000c66c6700078f19c003e187c0;
   0x6e78a800607f2200181d98800eeba22001fef1e800601762000e3aea8009b9998003fffffc000f8998000ff3fe0006ae3ba0018388e00060e30c002fffff000bffffc00300600000c66c62000fcf1880038180c0;
   0x1e77ffc00607fff001ffd7fc00ffffff001fff7fc007115ff000f5fffc01fbfdfc00157d554007feffd001e7dffc0060e71c001839c700060e30e00700700001c01c00003fff00000c66c63003cf319c003d181c0;
   0x383fbfe007c6eff001fff3fc00fffeff00186f3bc003f1cff0007df9fe00f03c7c00003800000f8fbff00381e03c0060e30f00183883c0060e307003ffe00000fff800003ffe00000f66f6200387bd88003f180c0;
   0x301f044007c6c1100181f04400e03411001876084001f1c110003cb0440060040400003800000c030050030060000060e707001839c1c0060e307001ffc000007ff00000155000000706763001031d1c001f181c0;
   0x0;
   0x0].
Definition hanzi_rows_213 : list N :=
  [0x0;
   0x0;
   0x0;
   0x0;
   0x0;
   0x0;
   0x0;
   0x1800005c07000000030000018060000180180000000c0001800180000100600000c03000000180000000380000001c000000c01c000060060000180180000180e0000000380000180c0000007000000000100;
   0x1ffc180000c8020002aa830000018060000180180002a80c0003e00180000380600000c03000000182000000700000001800003fff0c00006006000018018000018060000000180000180e0000007000007fe2bc0;
   0x1ffc190001dc076003ffc3180001c0660001c0198007fc0c6001ff0198000180660000c033000001870003fffffc00003800003fff7f800fe07fe000181ff80001c7fe003ff9ff800018ffc0003fffc0007ff7df0;
   0x180df98000c83e6003aebf1800aac7e60003e1f98003acac60003fbf9800018fe60000c2b30003ff830003fffffc00ffffff000ffe61800ae06ae003ffdab80000c6ae003ff981800018eac0003fffc0006066020;
   0x181df98001dc3f60030c3f1800ffe7e60007e1f980070cfc600003bf9800ffcfe60000c7f30003ff8700015d57d400ffffff001dd67f8005757fe003ffdff800ffe7fe000381ff800018ffc0003fffc0007ff6070;
   0x180c198008c80260030c031800eae0660006701980030c0c600001819800ffe0660038c0330000018300000e0700000700e0000ffe6b800fff7fe0007e1ff800ffe7fe000381ab800018ffc0003fffc0007fe7de0;
   0x181c19800ddd0760030e031800c07066000e701980070c0c600001819800556066003cc03300000187000007de00000381c0001ffe7f800d777fe000ff1ff800c077fe000381ff8001ffffc0003555c0006077df0;
   0x1ffc19800ec902600386031800c03866001c381980030c0c600001819800007066001cc03300000183000001f8000001c380003fffff800e637fe000db9ff800c03ffe000381ff8001ffffc0003fffc0007fe6020;
   0x1fffffc007dd7ff003877ffe00dfffff0038ffffc007fdfff00001bffc00007fff000ec7ffc00ffffff0001fff000000ff00003557ff800fff75600399dd5800c57f56000381ff800198f5c0003000c0007ff6070;
   0x180fffc003f97ff001833ffe00cfefff0031cfffc003fcfff003ffbffc00000fff0007c7ffc00ffffff003ff8ff800007e00003fbfff800c6b7fe00318fff800eff7fe000381ff800198ffc0003fffc0000307fe0;
   0x181c000003fd010001f3c10000dc60600033841800075c060007ff8100007fc0400007c030000001800003fd11fc0001ff000039e780000fe300000018400000cd6000007ffc0000019800000015554000fff7ff0;
   0x180d98c001c9332000f1f38800c866620001019880030cc62000619988003fc6620001c23180030380c000019808000fe7f0001fbeffc007e3ffe000003ff800ec6ffe003fffffc00199ffe000fffff000fff2220;
   0x1ffd98c001dd33700000719c00dc666700155199c0070cc6700061998c001c06630001e319c0070180c000f5dd7001ff01ff001774ccc00553d77001ffb5d800ec7d770017d718c0019ddd7000fffff000c037730;
   0x1ffd88c000c9332000aab18800c86662003ff99880030cc62000619888000c06620000f31980030180c000ff9fb000fa00bf003ffeffc007fbffe001abbff800ec6ffe000383ffc00199ffe000c0603000c332220;
   0x10dd9cc001dd337001ffb19c00dd6677001ffd9dc0070cc670006199cc000e06730000ff19c00701c0c000f5dd70000700c0001fffddc0075bfff00181bffc006c7fff0003835dc0019dfff000fffff0000307ff0;
   0x38cd9cc000c9332001ffb18800efe662000c01988003fcc620006199c8000706720000db39800307e0c000e19830000300c0000ffeeec0061beea001ffbba8006c6eea000383bac0018daea000c0603000fff3ba0;
   0x3dddbcc001dd37700181b3dc00f56677000e019dc007fccf7000619bcc000706f30000c33dc0070f70c000ffdff0000700c0001ffeffc007fbfff001ffbffc006fffff000383ffc0019dfff000fffff001fff7730;
   0xf8dbec000c937a00181b6c8007c66f2000601bc80030cdb2000619be8000386fa0000c36d80033c38c000eb9ab0000300e0002aba000007fb000001818000006fe0000003800000018c000000aaaaa00030c2ee0;
   0x79de6c019dd3df00181b6fc007c67df000739f7c0070cd9f00061de6c0001c79b0010c3efc007783cc000e1d830000700e0003fffffc0061bfff80181bffc00607fff000387ffc0098ffff003fffffc0038c7ff0;
   0x30de6c008c938e00181bc680000679a0003f1e680030cf1e00060de380180c70e0030c3c78003f00ec000ff9fb0000300e00009b8bb8007fbfff801ffbffc00603fff800382ee80198ffff003fffffc001be3ba0;
   0x71dc3c01dfd30f00181b47c01c0661f0001e187c0070cd0f00060dc3c01c0e70f0070c301c0076006c000ffdfb000070060001f1f330007fb19c001ff86700060031c000380c70019863180015f5754001fc6730;
   0xf8d80c008ff3aa00181ba0800c067aa0001c1ea80030cfa200060f8080080e6020030c3a18003aaaac000e198380003007000061bb300061b98c0000006300060030c000380c700198630c0000e0380003f1faa0;
   0x3dfdffc00fdffff001ffbffc00d567ff000781ffc01ffffff00060fffc01ffe7ff003fc3ffc007ffffc000ffffdc00070078001df93180175d98e007ffe6380070030e000380c3801f8730e0000e01e0007fdfff0;
   0x387f8bc00f83b2e001ffb0b800ffe62e0007018b800fffc2e0006078b800ffc62e003fc32f8003ffffc000ffffcc0003003c0038fc31e00fff987003ffe61c003f0307000380c3c00f83b0f0000e00fc00e1feff8;
   0x100d80000000300001819000007fc60000060180001555400000605000007f040000150300000700000000e0000c0007001800101c30c0155518300000060c001f0307000380c1c007013070000e001c00406c110;
   0x0;
   0x0;
   0x0;
   0x0;
   0x0;
   0x0;
   0x0;
   0x0;
   0x0;
   0x30010000380380000600600001c01800000600000000000000007000000300180003800000000c01800100030000003800000000e0000003000000071c000000070000000018000700060000000300000000600;
   0x3003800e388380000e0060000180180000060000007ffe0000007000000300180003802a80000e018001e0038000003c00000000700000038000001f0c0000018300003ffc18000ffa060003ff830000fff0600;
   0x300f800739c38003fff86000038018003f861fc000ffff000000700000fffc1c000381ffc003ff018001ff0fc000007f0000007ff0000007f000003c0c0000078700003ffc190001ff066003ff831800fff0640;
   0x301e00033b838003fff860007ffe18003f861f800270002003fffffc00fffdfe0003837fc007ff0180003f1ee00003e78000007ff800003e780003fffffc000e030000380df98000627e600381bf18000187e60;
   0x3ffffc0003bf0380015d5860007fff180031bfddc0073c006003fffffc000301fe00038706000383c18000317878001fc1f00000701c0001f81f0003fffffc001c030000380df98000607e600381bf18000187e60;
   0x3fffe00001390ff0000c1860006002180039bfd880061e006000000000000300af00038606000187e1800030effe00fffffe0000380e001ffffff80060c60000080300003ffc198007fe066003818318000180660;
   0x3000000ffffff001ffd9740060075d00198619c0070f0060007ffff0007ffc07003ff6070001eefff000305fec01fbffdf80001c07000f1ffdf00079c70000ffffff003ffc198007ff066003818318007ff0660;
   0x3000000fffeba000ff9bfc006aaaff001986188006038060007ffff0007ff803003ff0030000fc2ff000300000008000030007ffff8000000000003ec38000ffffff00000c19800662066003818318003ff0660;
   0x1fffc1c00e00638001cc1bfc007fffff001d8619c00701806000606070000301ff003ff00300007c0ff003ff7fbc003f7efc0007ffffe001ffff800107f1c000ffffff00000dffc006677ff003fffffe0031cfff0;
   0x1fffc3c00e00638002aeb860002aaa18000d8618800601806000606030000300fe000387838001ff018003ff5eac003f7efc00060607c0018001800301fee000006380003ffdffc006627ff003ffbffe0030cfff0;
   0x1fffcf000fffe7c003fff86000000718000dbfd9c007018060007ffff001fffe30000387ff801fc7e18000785eac003366cc000607070001c0018003ffde7c00307380003ffc000007ff0400015d01800030c0000;
   0x3006000bffafc0008c186000aaab18000dbfd88006018060007ffff000fffe300007863f800e31f18000785eac003366cc000606070001ffff8000ff0038003861800009cc98c007fe26200018318800fff6630;
   0x30040003839fc001cc186000ffff1800198619c007018060006060700000c03000078673c000306180007c7fbc003f7efc0007ffff0001555500000e0700001c7180001ccd9cc0006077300018319c01fff6630;
   0x2abaa00003839be000ffd86000eebb18003986188006018060006060300000e1ff000f8623e007ffc18000fc0000003f7efc0007ffff00003c600000aeaea0000c618000186c88c000602220001bb188000006230;
   0x3ffff40003838be0015d586000cd9f1800318619c007018060007ffff0007ff1ff000dc673c007ffc18000f47ffc0000000000060707000070700001fffff0000e71c0003ffd8cc00fff7330015bb19c000006730;
   0x3fffec0003ab83e0018cda6000cc9b180031bff88006018060007ffff0007ff8ba000cc623800030098000b67ff8003ffffc00060607000aeabaa000aeaea0000760c0003fec9cc00fff232003fbb188007fe6730;
   0x30300c0003ff83b001cddbe000cd9fd80071fff9c0070180600000300000307c30001ce673800030df8001b666dc003ffffc00075757000ffffff0000e07000003f0e000130d9cc00d63773003f9b3dc007ff6f30;
   0x38300e0003ff83b800ff9be000fffbf80031aebf8006018060006033200038ee3000186623800030c7e003b366c80030c30c0007ffff000aaabaa0000e06000001e0e000030cb6c00de32da00019b6c8006066fb0;
   0x3830070000ec0390007d1cfe00ffff7f0031871fc00701806000e0e370001dc63000187673800030c1f003337ffc0030c31c0017ffff0001c7180003fffffc0000f070003ffdf6c00d637db0001bbefc0060779b0;
   0x3830070000ee0380007f1c3c00cc9b8f003f8300800601f06000c0c330000f81300018262b800fffe0300731fff8003ffffc003006070001e21c0003fffffc00c07838003feee3c00fff38e0001bbc680060679b0;
   0x193007001ce7038000efdc0400cd9d87001d8301c00701f06001dc43380007c1f00000077f800fffe010023166dc003ffffc00700700000c7f0e000007060001c07e3c00030783c00f7f70f0001ff47c0060770f0;
   0x1e3003800ce7038003ccec0000cc998000018380000600006001980338001fe1f800001fab8000300000003066c80030c30c0030060000081f8700003f0f8000c06f9e000306a0c00c032820001efa28006066030;
   0xe3001c01ce3c380030c6e0000cd9dc0000181c00007ffffe0019fff1c01fcfc7c007ffdc38000300000003066dc0030c31c003ffe00000d57fbc001fc07f000fff78f007fffffc00c037ff007fcfffc007ff7ff0].
Definition hanzi_rows_214 : list N :=
  [0x3001c00fc1f380000f860000fc98c0000180e00007ffffe0008fff0000f83e18003fe0838000300000003076c8003ec30c003ffe00000ffe30f803e000fc00ffe003003ffb8bc00f8322e003f8f0b8007fe62f0;
   0x30010007c06380000f040000701c000001804000070000000007fc0000400608003fc0800000300000003074dc001cc31c000ffc000005540070010000180000000000155300000783400001405000006076000;
   0x0;
   0x0;
   0x0;
   0x0;
   0x0;
   0x0;
   0x0;
   0x0;
   0x0;
   0xc00000001c000030030000000000000181c00000e0700000380000001c00000000003000000004000030030000000000000cc0000000000000030c6000006060000001c000000070000000000000;
   0x1fefdf8000000e0001ff018000030030001ffc7f8000181800000e030000638cfe0000c07f800fff030003fff8c0000300300007fe2a8000cc0aa003fbf2a800208600001606000000180000000300380000000e0;
   0x3fefdfc00ff8470003ff01c000e31830001ffc7f800ffffff0015f575400739cfe0001c07f800fff7ff003fff8e0000303330007fe7fc01ffffff003fbf7fc00318600001e5740000fffeff001fffe78007fff3e0;
   0x18ec58800ff8e38001832ba800631bff00180c61800ffffff003fffffc0033b8c60000c061800e307ff00006006000ffffb300060e7fc00ffffff0031b37fc00abff7f80367fffe00fffeff001ffffe0007fff780;
   0x1cefdfc00639c3c001c37ffc007333ff00184c6180055d5d5003fffffc001bb0c60001c061800e3030c007fffc7000fffdb700070e060000cc0180031b306001ffff7f80367fffe00fffe180000701c00000c0700;
   0xcec5880063981c000c33ffc003332ba0018ec618000181800000e030000fffec60000c061800e3038c003fffc3000afe9b60007fe06000fffc180031b306000eaaf8c002606030001838180002330000000c0200;
   0xcefdfc0073bfff000e301c00033701c0019cc618000181c00000e070000fffec6003fff61800ef35dd007060f30001fe1f60007fe07000fffc1c003fbf070007fef9c002606070001c30180007570000000c0000;
   0xeefdf80033bffe000630180003b602c00198e618007fcfff0000000000007e0fe003fff7f800ef2fff003f7ff38003b70fe002aaa83000cccc0c003fbf030007c0f8c00063fe30000c3018003fffe000000c0000;
   0x6ed5dc0033f0060007301c0001b706c00190c7f800ffcfff0007fffc0001ff0fe0001c07f800fb6555007f7ff1c00733c30003fff83000dddc0c0015150300037e79c003fffe7000ffff18003fffe1c0000c0070;
   0xeefdf8003b8e38000733ffc0003006c00180e7f800eacc300003fffc0003bb8ee0000c06b800fb62aa0000603fe00e31fff0030b183800fffc0e0000000380032a60c003fa863000ffff1800020303c00aaea8f0;
   0xce0760001b8e38000e33ffc00fffc6e007fff9c00070cc700007555c000f39ec60001c061800fb67ff001f7f1fc004305ff0031f1bf800ddddfe001fff7f80073ee7f00067dffc00c1877f0007070f001ffffbc0;
   0x18e0660003b8e38001c3300000fffeee003fff8800030cc300003000c000e38ec60000c061800e306620000600e0003ff8ba0030b1bf800ccccfe000ffe3f800f3ee7f00062d6fc00c3837f000aaa86000ffffb80;
   0x18efff00073ffff001833810000cc3ff001c061d80038cfff0007000c00043c0c60001c061800e30776001555460007ff838003fffb3c00fffdcf00000073c00db7b5d000e6577400c38718001fffc40000360100;
   0x38efff80063bfff003831838000cc2ea0018267980018cfff0003000c00000c0c6001ffe61800e387fe003fffc7000301838003fffb3c00fffc8f002aaab3c009bfb0c000e2fe30007ffc18000eaac00000360000;
   0x38e063c00e3ffff003831cf0000cc060001c667d80038cc300007000c00055d4ff001ffe7f800f3c7770055757380070187c00006033c000001cf003ffff3c008fe19c000e7fe70007ffc18001c01c40000370100;
   0x38e2ebe00c38e38003830dc0000cc060001cc60980070cc300003aaac000fffefe001aae7f800fbe6620000303fc003ff8fc002aeab34007ff88d002abeb340008000c000e2663000638c18000c30cc0000370300;
   0x1fe7ff400c38e18001d30fc0000cc760001dc61d800e0cd7d0007fffc000fffec700180661800ff77ff003fff9fc007ff9f6003ffff30007ff9cc00001c730007fff1c000f6667000738c18001c71cc0000370300;
   0x1ee063000c38e18001fb0700000ce3f8000d8609800c0cfff0003fffc0001830c200180661800ef3aea003fff80c003019b6002bfab300060188c000ffc330003fff8c000a3fe3000638c98000c30ce0000338380;
   0x6e577000e38e18000730f00004c67ff001c071d800c0cfff000040200001c38c700180661c00e71060003199800007559370001f8330007ff9cc000ffe730001c1cfc001f7fff000738df8001c71c600003181c0;
   0xe7ff000fb8e18000030f80008c606f003ffee9800e2cc180000e0f00000ef8c300180661800e307fe003199a00003ff83380037c3b0007ff8ac000c003b0000e38ff801b267fe00638cfe000c30c7000031c1c0;
   0xe0630007b8e1c000031de001cc7061003fffff8007ccc1c0003c07800007f0c300180661c00e307ff003199ff000555031000f6e3f0007019fc000c007f00007f01f801b6667e007f8c1f8001f847001c31e1c0;
   0xe063000038e0e0000338f0008c3860000c003fe003ccc0c0007803e0000f80c3001ffe60c00e30060003199bfe00000030001c67ab0006018ac000e002b00003e0018039a6606003b8c0300079e03800c30f0e0;
   0xefff000038e0f00003107c01fc1c60000e0007c0000cf4e001f000f0007df0d3001ffe74c00f7fffd00319981c00fffe30007863c30007ff80c000e00030007ffc000031e660000138000001f0fc1c01ff07870;
   0xefff000038e0700003001c00fc0e60000fc00000000cfc7003c0003800f8fefb801aae7ce0079efff003d9980000fffe30000060830006ab80c0007e003000fc1f800060fa60000038000003803f1c00ff03c70;
   0xe003000038e02000030000007804600007c00000000c7c600180001000401c710018067c40079e017001d9980000000030000060000007018000007e00000040078000209860000038000003000600005401840;
   0x0;
   0x0;
   0x0;
   0x0;
   0x0;
   0x0;
   0x0;
   0x0;
   0x0;
   0xc000400001c010000c010400040001000000000000183818000406010000cc018000000060000380180001c0380000380380000300e0000380180000100000018301800031c0600018300c0004c0060000c00180;
   0x1ffe8c000038030000e0f8e000f81fb8001fff00000583818000c06030000cc018001fdf86000638c18000182ba800030018000030060000300180000383f8001870180003180600018300e000ec0060007df8300;
   0x5ff0e000fffe380007ff0e0007fffb8001fff3fc00797d18000c06030000cc018001fdfc6000739c180001c7ffc005750fc0003f87f0000700fc001fff7f8001c701c00175d0700018300e001cc007000edfbff0;
   0x600e000fffe380003f8060000fda18001aab3fc00d9ff18000fffff0000cc0180018980600033b81800018038000fff9fc0007f8ff000aaa9fc001f8fb1800aeabfc001fffbf000fffefe0038c0ff000aeabff0;
   0x3fffc700018301c0007fc070001c5c1c001c0731c00d9ff59000fffff0000cc1190019d9c60001bb0180001c7ff800fffdcc00075c73000fffdcc001803b1800fffffe001fff7f800ffffff0010c0ff800fffdc40;
   0x3fff8300018300c001f3f03000080c0c00182330c0098385b00000380000fffc9b001b9b06000fffe18000183ff8000618ce00030c33800fff8ee001803b980006c00700031801800183003003fff018000cc0ce0;
   0x60730015d75cc001c3ff38001c0ccc001c6731c0098385b003fffffc00fffd9b001d1d3fc00fffeff003ff8380007ffc6700038e31c00c19c670018039980057d40780031c01c001bb003803fff01c001fd8fc0;
   0x1fff33800fffece001039b18000886e60018633fc0019ff5b003fffffc00eeec9b001f1e3fc0007e0ff003ffaba8007ff9ff003fffffc00c189ff001fbf998007ffc03003fff80c000ba0010000c000c001bc8f00;
   0x1fff39c01fffee700155d79c001d8667001c673fc01ffff5b0000e1f0000eccd9b001bdfffc001ff0ff0035d7ffc00661dff003fffffc00c19dff001fbf9d80077ddff003fffffc0007c0ff0010c47fc0098d9f80;
   0x1a6b1fe0000007f803fffdfe00f8bf7f80186330c00ff8b5b0003c3b8000eccc9b001899860003bb8180031c000000eeb9320030c6cd8000181b60018039d80066ccfe0000603f8000ee0fe0038c67f800bfe99c0;
   0x1b7b1fc007ffc7f007fffdfc00fdbfbf001c6731c0039ef5b000f01df000eccd9b00187006000739c180031c7ff800fffd360031c6cd80001c1b6001803998007e7c38001fff0c0003c78180039ce0c000f7fd0f0;
   0x1b7b0e000600c380000ee0e00008b03800186330c0039eb5b003fffffc00eccc9b0000f806000e38f180030c3ff8006619320030c6cd800fffdb6001803b1800602c38001fff0c000f83e18001dcc0c000e038030;
   0x1fff06000701c1c0000e7070001d981c001c6731c0039fb5b003fffffc00eccd9b0007df0600043c6180031c755800661dfe0030c6ff801fffdfe001d57f18007ffc38001c630c000ffff18000fdc0c000007e010;
   0x1fff030007ffc0c000aeb03000089b0c0018633fc0039ff5b00000070000fffc9b003e07c600000c0180038c3218007ff9fe0030c6ff80030e1fe001fffa18006aadff0018637fc009ff6ff0007d8ffc0001ef800;
   0x607f800755cfe001fffbf8001d9b7e001c673fc0039ff5b00000c38000fffd9b003ce1c600055d4180038c7318007ffd36003ffecd8003861b6001fff71800755dff001fff7fc000000ff0003c8ffc001fc3f00;
   0x1fff3fc00600cff001fffffc00089b7e0009e230c0039935b0002aebc000eccc9b00207826000fffe980038c331800663932003ffecd8001871b6000198618007ffc38001fff2e8000000ba0003e0ae800fffffe0;
   0x157507c007ffc1f0018e7c7c001d9f1f0001f031c0079935b0007fffc000eccd9b00071f7e000fffff80038e731800767d360003e0cd8001c71b600019c778000c0038001c630c0003ffc180007f00c000f3ff9f0;
   0x6000c002aa8030018e300c00088e030001b030c0079ff5b0002aeac000eccc9b0003c3bf0001830fc0038e3398003ec9fe0003e0ff8000cf1fe00019c3d800aeaa380018630c0003ff818000ef80c0000018000;
   0x7fffc000031d4000018e700000ff8ec00011f83fc007dff5b00000c00000eccd9b001cf007e001c381f803867398001fddfe0003f0ff8000fc1fe00019c1d801fffe38001fff0c000301d18001cde0c0001ffff80].
Definition hanzi_rows_215 : list N :=
  [0x3fffb800063b6e00018e338000ff8ef00021983fc0069937f001fffff800ecccff000e3f01c000ef807003860580001f8c000023b0000000f800000018c01800aeba38001fff4c0003019980038cfcc0001ffff80;
   0xcdb7f0006737fc001ce73f000001f7e0071de15c004d937f001fffff800eccdff0007078040007f001001871dc0007fedc00073b8f00001f83c000718e018000c39f80003187c000301df80070c7fc0000718e00;
   0x199b8fc00fa323f001ee30fc00007b0f00318f00c00cd934000000c00000fffc800003e0000000fc0000018398e000e67dfe00239cff8003bc3fe002187018000c71f8000f1e3e0003018f80020c27c0000318c00;
   0x399981c01d83307000ee701c01fff3c70035c7c1c01cf930000000c00000fffc000000ff000007dfc00001d3f87000c6367f00778f7fc00f1f87f007587c18000c607c001e0f1f0003ffc3c0000c01e0007fffff0;
   0x3330c00009ff3000000e000000ff81c0003f83e000187e30000000c00000e00c0000001fc0000f03f00001f9f03c0007c603003f8780c00e03c03003f81e18000f8038003803c60003ff80c0000f80e0007ffffe0;
   0x7110c00001ff0000000e0000000000c0001f00c000085c30000000c00000e00c00000001c0000400700000f880180003c40000140100000401c00001f00c180007800800100182000301c04000078020000000000;
   0x0;
   0x0;
   0x0;
   0x0;
   0x0;
   0x0;
   0x0;
   0x0;
   0x0;
   0x1100000001800000000400000006000300018000e0c060000000180001c006000030018000000000000000300000100c00000007000000001000018000000580000000000000000e0070000381c00;
   0x1ff800000198003ffc180002aaa0e001ffe060007fe018000e0c060003ff8180000c006000030018001fe3ff0003ff8380000380e000000030001fff8380001a00c000d8003000fffe0c0000e0060000380c00;
   0x3fffff800fff198003ffd99c007fff1c001fff070001ffc1c000e0c070007ff81c0001c00700003001c003fe7ff0007ff818001f9f0e000fff830001fffc78007dfc1e00398007000ffff1c003fff86000ffffff0;
   0x3fff8c000ffe198000181988007fff38000f387f0002311fc000e0c7f000301bfc0000c0ff0000301fc003ae3030001c63ff001f86ffc00ffffff001888870007d9e380031800e000eaae38003fff8e000ffffff0;
   0x1c1cc000070d9a00018199c00600e700003f07f8007339fe003fff7f800701bfe003ffeff8000301fe001867030000fe3ff001807ffc005dd7ff001999ce000618678003fffdc000e007700000e01fc0057d5d50;
   0xc3ae800030d9b00018198800600600003fff818003b3006003fff01800301806003ffe018007ff806001863ab0000782ba0018062e80018c2ba001fff8c000618630003fff88000e00620000aea3fc000380c00;
   0x1fffffc007fed9f001ff9ffc0067ffc6007fff81c001b7007000e0c01c007ff8070001c001c007ff807001c67ff001fffc1c001807070001cc01c001fffc40007dbe00001755c0000fff700001fff3d400039df80;
   0x1ffbae8007fef9e001ff9ff8006300c60031e000c00fffe03000e0c00c003ff8030000c000c00030003000c62ba000fffc6c001fbe1b00018c0cc000000000007dbe0000038080000eff6000000e018000000c700;
   0x1819cc00060679e0018180000067ffc60019b87fc00ffffff000ffc7fc000001ff0001c07fc000301ff000e6030000e7c07c001fbf1f0001cc0cc003fffe7c0061863f00137fc7c00e0073f007fffdc000001c700;
   0x18198e00062639c0019980000063ffc600099e3f8000fc0fe000ffc7f8000001fe002aea7f8000301fe000667ff80066e0660018061b80018c0ce003fffe7c0061863f00337e8fc00e0063f003fffac000000c200;
   0x1999ffc00666198001999ffc006755c60001878c0001ff038000e0c0c0007ffc30007fff0c000030030000767ffc007778760018071d8001cc0c600000007c007ffe3f003301cfc00eff73f0055556e0007ffffe0;
   0x1999ff800666198001999ff80063ffc60001e30c0003b7838000e0c0c0007ff830003fff0c000038030000e663180007deee0018063b80018c2ee000fff860007ffe38001b008e000efe638000aaa3e0007ffffe0;
   0x199807000666798001999c00006700c60015550c001f33c38000ffc0c000601c300001c00c000fffc30001c6631c0003cdff001fff7fc001cc7ff001fff8600055d438001b7fce000ec7738001fff3f000601c000;
   0x199803000666f9c0019998000063ffc6003fffffc00e30fff000ffc7fc00601bff0000c0ffc00fffdff001867ff8000380ea001ffe3a80018c7fe000c0186000018038001b7e8e000ec2638001aab3f800600c000;
   0x1999ff000667d9e001999c0000655d46003113ffc007ffdff000f5c7fc007fffff0001c0ffc0057d5ff001867ffc000380700017fd1c0001cc0c0001c0186000018038001f47ce000ec7738001c4377c00606e000;
   0x1999ff80066699f001999ff8006018060033b3ae8007ff8ba000e0c2e8007ffaba002aeaae8000780ba00386631800aba8600003b81800018e0c0000fff860007ffe38000f468e000ec26380018e326e0060ee000;
   0x19d98780066619b0019d9ff8006ffff600371f8c000631c38001f5d0c000601c30003fff0c00007c03000306631c00ffff70000398dc0001c67c0001fff860007fff38000f47ce000ec7738001ce30640061c7000;
   0x199983c00666198001898018006ffff6003c0f8c000631838003fff8c000601830003ffe0c0000ec030003067ff800afebf8000398fe0001867f80018f806000381c3800066eee000efe6b80018e3060006387000;
   0x19d987e0067799c0019d80180060fe060037ff8c0007ffc38007fff8c0007ffc300001c00c0000ce030003867ffc000fe1ff0003987fc009c77ff003ddf360001c39b800077efe000eff7f8001ce3060007383800;
   0x2c1834000b1f8c0002c00180061db0600321b8c0007ff9380002380c0007ff9300000c04c0001ce130001f60318001be06f0003981bc019870cf000f87be0000e73f8006786fe000e026f8001863060006103c00;
   0x7e1870001f8f8c000fe1c1800639b8600371bfc000631df8000f1c7c000601ff00001c0fc0003c71f0001f67300003bf87100739c1c001dc30c1000787fe00007e1f80067c6de000e00778001171060007001e00;
   0xe61ff00039c3ce001c71ff8006718e60032bbfe0006318f8000e0e7e0006019f00000c03c0003838f8000067f0000f39c6000238e180009838c0000f460e00007e078002ec0ef000e006380007b8060007000f00;
   0x3c79ff000f0f1c7003c3c7fc007618760037fb9f0007ffc7c001c0f1e000601c78007fff9e000f01e7c000061f8001e39e700037871c001fc1cc0007e7f070007ffc3c003cf067000f4071c001f1f060007fc07c0;
   0x301e03000c03c0300301e038007c1826003e1b8e0007ff8180038038e0007c1838003fff8e000e00f1800006078000038460003f8398000f80ec000383f02000fc3f88003c3062000fc060800380fc60003f801e0;
   0x200c05000801801001006000003c1006001c0382000601c08001001020007c1c080000000200040060800006018000038070001f019c0007804c000100700000e00700001800400007c0700003001c60001f800c0;
   0x0;
   0x0;
   0x0;
   0x0;
   0x0;
   0x0;
   0x0;
   0x0;
   0x0;
   0xc000000000050000380030001860180018300700001c03000071c000000001dc0019cc070000060c000000c0700070000000000000000000000000000000000070000000c0000000180000000700300003801c0;
   0xe07fc00fff030000380830001860180008300600001807000030800000fffef80018e6030002060c000000c03000ff81ff003fff7fc007ff9ff000ffe7fc000031ff0000c07fc000383fe0000600300003800c0;
   0x1c07fc01fff070000380c300018601c000c70c7000038030007fffd5400fffe78000e771f0007c65ce003ffc1f0001ffdff003fff7fc007ff9ff000ffe7fc000031ff0000c07fc000301ff003fffc300003801c0;
   0x1806a800aea030000381ff8001861fc000e60bfc00fffe38003fffffc0001807e000633bf8003fefce003fedbf800e13daa002bab6a8006038c0000c00600000039aa0000c060000070180003fffc3800fffe0c0;
   0x7fff700000707ff000381bfc001861fe003ff9bfc00fffe1800071c3fc007ffcc7001ce73980007e5ce00070d99800619dc00001c7700007039c0000c0070000fff9c00015d4700000701800000007f800fffffc0;
   0x3fff318000307ff00038380c00bae806003ffb8300000001c000308060007ffef00038ce198004060ce00020d998006318c6002aeb318007ff8c6000ffe21800fffcc6001ffc61800fff98c001fffbf8000381fe0;
   0x7fff71800fff0700017d100c00fffc070001c30300000018c001555070000180fc001fff1dc00c06cce00174d8dc003719c6003fff718007ff8c6000ffe71800c03dc6001ffc71801fffd8c001fffb58000381d60;
   0x6031800ffe030003ff800c00fff8030000e00b8007ffd8e003fff860000180cf801fff7fe00eaeffe003fedbfe002198c600381b318006038c6000c0031800c03ec60018c03180030718e0018a9b18007ffcc60;
   0x7031800e07070003ff81fc001861ff0030f00d8007ffdd7003fff87000ffff61001f1b7fc007fe7ff003fedbfc0019e0c600381f318007578c6000c0031800dff6c6001cc07180070718e0019fdb9c007ffcc70;
   0x1c3831800e263ff000183ff8001861fe0039fa8d800600cff80013006000fffe7c001bfb6c80000018b00326da48001c70c6003abb318007ff8c6003fff31800cff8c60018c03180030618e00190d9ac006bacc30;
   0x1c1831800e677ff000383e6000186030001d9fcdc00701c7f0001303fc0000073c0019f36dc0000ffc000376db4c000ffcc6003fff318005550c6003fff31800c19cc6001cc0318003861c60019fd97e00638c5b8;
   0xe1c31800e66300000383a6000186030000fcb8cc00600c30001fffbfc00000300001b3f6c80000ffe000326da480017f8c600381b318000000c6002aea31800c18cc60018c03180038e18600180186000638c190;
   0x74e75c00e673040007c306000186030001f733fc00701c38001fff870000ffff0001fff7fc0000707800376dbfc0031c1d700381f75c00fffdd70010c275c00d5d5d7007ffe75c0018c5d6001fff87000638c180;
   0x3fe7f800e6638e000ec33fc001863ff001b3b3fc007ffc1c001999860000eaab0001fff7f8001ffffc00326dbf80060f1fe003abb7f800fffffe0038c6ff800dffdfe003ffeff80018c3fe001fff860007ffc180;
   0x3fe7fc00e6719c000cc33fc01ffffff001b9b0c0007ffdfe001999870000c0730000c636dc001fffff00376db4c00fffdff003fff7fc000303d5001cceffc00d5d5ff007ffeffc001dc7fe000555070007ffc180].
Definition hanzi_rows_216 : list N :=
  [0x1c060000e661b8000ce32e800fffcba003bc30c0000381ff001b99860000fbe30000c6b6c80018181a00326c24800cbfd8000018360000033380000edcc0000c989800001e0c00000f8300000fff0600007c0180;
   0x6e060000e671f0001c6306001fffc300037e33c00013b07f001bb98700007b830000fff6dc001ffff800376c34c00438580000193600000339800007d8c0000d99d800003e0c00000f0700000c03070000fc0180;
   0xe6068000e660e00018730600000203000337b3f0003bb803001ff9be0002aaab0000e737f8001ffff800326c3f800aba9a00019b3680007f39f80003e0fc000d989a0000360dc000070378000fff060000fe0180;
   0xc707fc00e771f000383b060001ce03000733b1fc00739c00001ffdbf0007ffff0000d6b7fc001818180037643fc01fffdff0019b37fc007f39ff0007f87fc00d99dff000770dfc000f037f000fff370001ff1980;
   0xc3863e000b03b800303b3600038713000230b0cc00638d80001ccd8fe00600000000fff000001abab8003a6600000aba98f80319b63e0003398f800efc63e00fff98f800630e3e000f830f800c033e0003bb9d80;
   0x1c1c704003f871c0010133e0007073f00003e78c000638ffc001cc581c0063ffff000f73f00001ffff8001f66700000fc1c100319ff0400037d81001ccf60400fffdc1000e38e04001dc301000fff1f000739cf80;
   0x1ffe3000039c20f00000fde0006039f00000efcc000c3867f8018018000063ffff002863ffa000000000002037fe003ce0c000218db000003ed800038c760000e000c0001c1c6000038e380000aaa0f000e38f380;
   0x3fff30000f0f007807ffde7000e01c78007ffcec000c3860700180180000715555007bff1fc00ffffff0007031fc00707cc000618db0001ffcfc40030c1700006000c0003c1e71000f07f80007fffe7000c3871c0;
   0x300f3f000e03801003ff863000c00e38003ff86c00003f000001f01800003f0000003bff80000ffffff00020180000e03efc0001e1bf000ff86f80000f83f0007e00fc00380f7e000e03df8003fffe380003820c0;
   0x10001f000401800003fc041000c00c080015404c00001f000001f01800003f00000030630000000000000070100000c0047c0001c19f0005406780000781f0003c007c0030063e000c01df0005555410000380000;
   0x0;
   0x0;
   0x0;
   0x0;
   0x0;
   0x0;
   0x0;
   0x0;
   0x0;
   0xc000000004000000010000000040010000e0000180380000000000001800000000000000001c00000ee6060000000300000000600010081800071c0600001801800000006000000000000603180000100600;
   0xc0007fff8e001fff8380000000e001fe00e000018038001ffe000000180000000007fc00003800000eee06000fff8300002aa06000381c1800060c0600001c01800000006000ffff000006033800003c0600;
   0x3fff0c0007fffbc001fff87800ffff3c001fff8e000018038001fff7fc000180ff003fff7fc00fffffe000eee06001fffc30001fff070001c381800071c0600003c018003fff86000ffff7f00070718000fdf0640;
   0x3fff0c0006003f8001aab9e000ffff7800002f8e000018038001aae7f8000180fe003fff6a800fffffe000eee06000aab830000fff030001c3018003fff8600003e018003fff8600006207f00038e1c000fc37e60;
   0x70c0006003f0001c019c0005575700001c18e000fffe38001c0771c00fffec70000077000055555e003fffd6400071d31000700070000c7018007fffc60000770180000038600006707f00019c1c000e077e60;
   0x803ec000600380001861800000030000000c18e000ffffff0018a661800fffec6000803600000180ce003fffb6c000319b3000780030000e001800060c060000e3018000c0386000e623630001c40e000e030660;
   0x1c1f6dc006ffb80001c6180000003000003fffffc001181ff001ce771c000180c7001c1f700000180ce000eee36c00071db30003c07fc007ffe5d00071c3fc001c38ff000c1fbfc00667767001fffc7000e070660;
   0xc3b6c8006aab8000186180000003000003fffbfc00718cba0018e6618000180c6000c3b7f800019fee000eee36c000319b30001e07fc007ffeff0000003fc00381cff000e3bbfc00662663000fffc7000fdf0660;
   0xe777cc0061c387001c6181c000030070000c18e000319c38001ce771c007ffcc7000e777f800ffdfee000eee36c007ffdb30007f063000618eff003fffffc00700fff000633bfc00367667001c71c7800fdf7ff0;
   0x6633cc0060838f00186183c007ff00f0000c18e0003998380018e6618007ffcc60006632b800ffc07e00000036c007ff9b3000fbc63800618e18003fff86000e00798000773860003e2e63000c30c7800e037ff0;
   0x7e73cc0061c3bc001c618f0007ff01e001ffd9f00019987c001ce77fc007ffcff0007e701c00c4c03e003ffff6c007ffdb3003e1f718007ffe18003001c6000c01f980007e386000067467001fffc7c00e070000;
   0x3c30ec006ffb980018618e000603838001ffd9f00019b8fc0018e67f8000180fe0003c30180066effe003fffb6c006319b3003807b18007ffe18003021860000819180003c386000062063000fffc6c00e036630;
   0x3c70c4006ffb80001c718000060381000180dbf0001991fc001ce771c000180c70003c701c00667ffe003061f6c00631db3003001b1800618e18003071c60001c1c180001c386001ffffe7001c71c6400fff7730;
   0x3830e0006283800018618000060380000198dbf800fffebe0018e661800abaac60003837fc0066618e003061b6c006319b300000031800618e18000060060001f18180003c386000ffffe3000c30c6000fff6230;
   0x7c70600067c390001c71880006018000019cdef800ffff3e001c6771c01fffec70007c77fc0006018e003061f6c00631db3001fff39c007ffe18001fff0600007dc180007c38600000c067001fffc60005dd7730;
   0xee30e0006c83b00018719800060186000198daf80003c03b0009e261800ebaac6000ee37a8000e1ffe000ffe36c00630db3001fff3b8007ffe18001fff2600001f8980006e3a600021c86b000fffc60000986730;
   0xe771e00065c3b0001c719c000601c700019cd8ec0003c03b0001f071800c180c7000e77700000f1ff6000fff36c00639db30000e01f0000180d8001c307e000007df8000e73fe000719f7f000070060001dc7730;
   0x1c331e0006fffb80018318c000601c300018cd8ee0007e03b8001b061800c180fe001c33300000f0186000c6236c00618db30000e01e0000180f80018303f0000018fe000c3bbf800639b7f000030060000986fb0;
   0x1c3f3f0007fff9c0014b90e000601c380019cd8e40006e0390011b07fc00c180ff001c3f700001f0186000c6736c00718db30000e01c001ffff7f001c3807e00201c3f801c1f87e00e71b07003ffff60001dc7db0;
   0x81f7300060039c0003f806000600e380019cd8e4000e70380021b87f800c180ae00081f300001b0186000c623fc00618dff0000e03e000ffff0f800c1801c00e0180700081f81c00c81b83003fffe600008c79b0;
   0xf6300060039c00079c07000700e1c0007e1ce0001c783800719c01c00f9800700000f30000399987000d673fc0071cfff0000e077000018007001c1c00400601c0100000b80401d8198000007006001dcc70f0;
   0x3238007fff8e000e0e0380070070e000e60ce000383c3800318e018007980060000033800031df83000f623000030ef800000e063800018000000c0e00000601800000003800009819800000300600088e7ab0;
   0x7fff01c007fff87001c07c1c0075078e001c7cce000f01f3800358780000118000007fff3d000f0ff83000565000003f6700007fffc3c00018000000fc7800007ffc00007fff800001d590000007006000dc77ff0;
   0x3fff00c00600386003803e1c003f038600381eee000e007b8003f83c0000018000003fff1f800e073c3800060000003e7700003fff81c000180000007c3c00003ff800003fff800000ff80000003006000f83e0b0;
   0xc00600380001000400001f01040010044e000c00138001f01c00000180000000001f80040708100006000000042600000000004000180000003c0c0000000000000000000000ff00000007006000701d000;
   0x0;
   0x0;
   0x0;
   0x0;
   0x0;
   0x0;
   0x0;
   0x0;
   0x0;
   0x400001c0100000700c0001c18100000e00c00001c0100010000c0000000300000e0180004010600000700e0000c60000001c000000180c1000000000000000004000c00000000700000004040c0000000380;
   0x1fff8e0000180380000600c0000818380000e00c000018038003e0fcc000fffe700000e018000e03860000038060000c6caa0000c02a800381c38000fff800000fff1e000fe0000000702aa000e060c0003ffe380;
   0x1fff8e000038038003fffcc0001c1818003fff8c000038038001fffcc000fffe300000e01c000e73870003fffff0000c6dff0015cc7fc001c1830001fffffc000fff7c001fff3fc000707ff00060c0c0007ffe380;
   0x1a6986000ffff18003fffce000081818003fff8e000abaa180003fe8e000eaae380000e00e000e33830003fffff800fe6cba001fcc2e8000e38700008003fc0003802000003f3fc000f87ff00071c0c0002000380;
   0x1b6d87001ffff1c001555470001c181c0000e007000fffe1c00030607000c3861c0000e00e000e7383800018f39c00fe6c18001fcc06000ffffff001c000600001f000000007060001dc18e00031c0c0007000380;
   0x1b6983000c0030c0000000300008180c002aea23000eaae0c00030603000c3861c003fff06000e3381800038230e00036c180000cc06000fffffe000aaa06000003c020000e30600019c18e000388ec8002aa9b80;
   0x1979f3801d557ce001fff63000ff7f4e003fff73000c006ce00030773000c387cc003fff67000e73b1c000fffff0001b6c1c0001cc07000f55557001fff06000ffff1f0000e30600038e186001fff6d8007ffdbf0;
   0x1fffb18007ffcc6000eab73800ff7fe60000e033800c006c600030333800c387ce0038e363800e33b8e000ffffe000396c0c003fff83000e00006000aaa06000fffe3c0000e306000706186001fff6d8002aa9ba0;
   0x157539c0055d4e7001c0331c001c1c770015f53dc007ffce7000301b9c00dff6c70038e371c00e739d700000600000706c0c007fff83000e00007001c00060006730500000e306000f079860018e37dc007001fb0;
   0xaea9fe0001807f800c033fe001c1c3f803fff9fe003ff87f801fef9fe00dff6ff8038e33fe00e338ff803fffffc0020600e00000003800000000000800060006318600000e386000fffd860018e33c8002000fb0;
   0x1fff9fc007ffc7f001fff1fc003e3c3f007fff9fc0000007f001fffdfc00d5d67f0039e31fc00e738ff003fffffc001555fe001ffe7f800ffffff001fffbfc00639c70003fffbfc005fdfff001fff3dc007ffefb0].
Definition hanzi_rows_217 : list N :=
  [0x600e0007ffc38000fff0c0003e3c380000000e00000003800030c0e000c186380000e00c000e338700002aaa80003ffcfe001ffe7f800ffffff000fffbfc00618e38003fffbfc000007ff001fff0ec003ffe3b0;
   0x3fffc7000618c1c0000000e0003e7e1c001ffe0600000001c00030c06000c386180001e00e000e738380007fffc0007ffdcf001d5663c000003800007000600071c79e0000e0060000007ff0018e30cc001c00390;
   0x3fff83000618c0c000fff870002ade0c001aae03000fffe0c00030c83000c3861c0000e007000e3381c0003aaac000300c8f80180663e00000180000600060003ee10f0000e0060000001e00018e30e0001800380;
   0x1d97338007ffdfe001fffbf8007f5f7e001c0673801fffefe00030cff800c7c6fe0001f073800e719de0007040c000719dcd001ffe634000001c0007fffc60001e70060000e0060007ff1f0001fff0e001ffff180;
   0x19b33fc007ffcff0007803fc006b1b7f001aae7f8000e60ff00030ebf800cec6ff0000f07fc00e339ff0003060c000318c8d001ffe634003fffe0003fffc60007ffffc000ee6060007ff1b0001fff0e000ffff180;
   0x33331fc00618c1f0001e007c00dd9b1f001ffe1fc000e701f00030787c00ccc61f0001f01fc00e7187f0007060c000719dcc001c06630003ffff0001755460007ffffc000ce7060007071b80000e00e0005d55380;
   0x33f180c00618c0300006000c00c99b8300180600c000e300300030780c00d866030000b800c00e318030003060c000318c8c001806630003aaafc00060326000001800001ce3260006031980000e01e000180c380;
   0x15f5000007ffc00003fffc0001ddd940001c06000000e3000003ff730000d876000011f800000e71c000007060c00077ddcc001ffe630003800ff00070f3e000155d500018e33e00070719c007fffff0001c3c7c0;
   0x1fff380007ffce0003ffff800088d8f0001ffe600000e38e0003ff33c000d83ee000209ce0000e31f8000030f0c00023ccac001ffe6b0003800ef80060e3f8001ffff80038e3bf80060318e003fffb30001838ec0;
   0x15f57f0001c71fc0000603f0001c187e001ffe7f001ce38fc00000f9f800c017fc0071dcff000e71ffc00077b8c00047e1fc001c067f0003800e700071c07e00155d500030e1c7e007071870000e0738001c71cc0;
   0xe00fc0038383f0000600fc0008180f8018063fc018e1c3f00003dc3c00eaae3f00308e3fe00e30c3f8001f9e00008360ac0018062b0003800e000060800e000f98000030e0c0c006ab1830000e02380018208e0;
   0x7fffc1c00701c0700006001c001c1807001c0601c01de0f07007ffce1c00fffe07003fc707c00e00e070007c0fc001ff7c0c001d06030003fffe000070000000ffffff0030e0c00007ff1d10000e001c001c00070;
   0x3fffc0000e00f0000007e00000081800001f0600000fe0780003fe070000eaae00003f83c0000e00600000f003f800fe1f0c001f86030003fffe00007e000000ffffff0000f8000007ff1f80000e000e001f80030;
   0x40060000007c000001c1800000f06000007c010000150020000c0060000150180000e00400000c0007000540600000f06000003800e00003c000000555555000078000007070f80000e0004000f00030;
   0x0;
   0x0;
   0x0;
   0x0;
   0x0;
   0x0;
   0x0;
   0x0;
   0x0;
   0xc0600003001800007006000060000000000000007010300000000c0000180000000000000000000400000000000026000000060000000000000000700e0000381c00000e0700000181c00000607000001c0100;
   0x80c06000038018000330060000603ff000aafffc00703838001f800e00001800c000fff03000ffff0e001fff0300007e004000070030002aa80c0000300e0000380c00000e030000018180000060600000180380;
   0x1c0c0700007c01c000770070000607ff007fefffc00307018001ffc06000ffff1c001fff07000ffff1e001fff070001e601e0000e0070007ffc1c0000300e000ffffff003fffffc00ffffff003fffffc00ffff380;
   0xe0c7f00007c3fc000e31ff000060048003aeeaa8003863ff0001feffc00fffe38000c030e000aefa380018030e00018e01c0000e00e0007ffc380000380e000ffffff003fffffc00ffffff003fffffc00ffff180;
   0xe0c7f8000ee3fe001c71ff800fffc580038ee000005d57ff000186ffc00018070001c031c0000e7078001c071c00050e0780000c01c000030070003fff8e0000381c00000e0700000181c00000607000054541c0;
   0x70c01c000ce00700083001c00fff8480018eeaa800fffeba000186ae8007ffe60000fff180000e7020001803180007fe030003fff98000030060003fffffc000380c00000e038000008080000060600007efe0c0;
   0x38c01e001c700780007001e00c31fff001cefff800fffc1c000186070007ffe00001fff00000ffff00001fff000007ffe00003fff8000003000000001c7fc00070fff003ffe18000ffffff0015554380066c7ce0;
   0x1cc00c0038380300386000e00c38bff000ceeaa8000c806c0001861b000618e00000c0300000ffff00001fff0000003fe000030038000003000000000c64c002b8fff003ffe19800ffffff001fffc700066c6c60;
   0xfc7fc00701dff003ffdffc00c79f7b000cee000000dc06c0001861b0007ffe1f001d570fc00c67715001c070fc0000e67f0030038fc0003003f0000cc64c007fc0000001c1f980001c380001fffce0007efee70;
   0x4c3f800e00ffe000ffeff80007836b000eee00000fff866000186198007ffe1f000fff0fc00c6633f8018030fc0080e07f0030038fc0003003f0000ce64c0022c7fe0000c1f980000c380001c000c0002eba7f8;
   0x7fff8c000c0763000007e1c00007c37b0006efffc00fff8660015d619800618e1f0015550fc00c6773f801c070fc00fcc07f0030038fc01fffe3f0000c664c0077c75e001ffc198003ffffe001c00000005d747f0;
   0x3fff8c00010303000006018000c6c36b000eefffc00e49aee003ffebb8006bae180000000e000eeeb38001fff0c000ffe0600000000c000fffe300000c664c0026c60e001aac198003ffffe001c0003800fffe380;
   0x7fff8c0003c70300000601c000e6e37b001ce300000e59bff003ffeffc007ffe18007fffce000ffff38001fff0c00007ff700000000c001fffe30001fff64c0034c7fe0019dfffc0030c38e001c7fe38005d74180;
   0xcc7fc003e33ff0000e1ffc007ce3eb0018e300000e49aea000386ba800398018003fffce000aaaa380000230c000c0fe600000000c000030030001fff7fc003ec00000198fffc0030c18e001c7fe38002eba0c0;
   0x1cc7fc000ff3ff0000e1ffc003cf30f0038ffffc00e4d860000386180007580180000600e0000180380010670c000e1c0700000000c0000300300000c17fc001ccfff0019dc1900030c18e001c70638007ffefe0;
   0x18c2e80003f2ba0000e0ba8000cfb030030ffffc00fcf86000038618000fffe180000660e0000180380038630c0007180600000000c0000300300000c00ec00ffcfff00198d9b80031e38e001c60638000c30ff0;
   0x38c0c00001f0300000c01c0001cdf570030f755400f07b60000306d8001ffff180000670e0007ffe38001ec70c0007980700000000c0000300300004dc3e4007fcd9f0019dd9980033e7ce001c7063801ffff1f0;
   0x30c0c0000030300000c01800018cbff0030e303800e01bf8000306fe000818098001fe32e0007ffe380007c34c0003d8060000000cc000030330000ccc3e000600db300198dd8c00337ece001c6ae3800ffff030;
   0x70c0c0002070300011c01c00030c3ff0038e307000fff9ff0013067fc0073b6d8001fe77e0007ffe380003c77c0001f8370000000fc0000303f0001cce7e000755dff0019dcd8c003774ee001c7fe38004770000;
   0x60c8c000e032300031821800030c303003fe30e000fff86f0023061bc006736f8000067be0000180b80003837c0000783e00000007c0000301f00018c66e0006fedfb0018cce880036387e001c7fe3800f63ce00;
   0xfccfc0006073b0003183dc00074c303001fe30c000e0186000770618000e2377800006f9e0000181f80007073e001c7e1f00015553e0000300f80038c77f000755c670017e47000034183e001c00638003e3ffc0;
   0x1cfc7c0006033f0003383fc000e7e3ff0000e304000e0186000267618000d8333c00007d8e0000180f8000e7b0e000cef8f0003fff8e0000300380038c36fc00600c63000f603c00030000e001c00238001c323f0;
   0x787c1e0007ff0f8003f007c001c7e3ff0000e300000fff860003e7f18001dd731c007ff9c7001ffffbc007c7f07000de7f78003fff8700003f01c0070d7c1c00600c67001c7c1f00030000e001c00038007bf8070;
   0x301e0e0003fe038003e001e00080e3030000e3f0000fff860003c0f180009ff300003fe0e2000ffff9800380f82000fc0e100000000200003f0080000f8000007e0f6300381f07c003f000e000fc003800e3f8000;
   0x602000000008001c00040000061030000e1f0000e01860001807180000fe00000150040000000000003001000007000000000000000001f000000078000003c0507003006018001f000e000fc003800c018000;
   0x0;
   0x0;
   0x0;
   0x0;
   0x0;
   0x0;
   0x0;
   0x0;
   0x0;
   0xe0000000000040018300300001801c0000000600003801c0006060300038301800010007000001c0c0001800300001c018000070060000c0c1c000000060000000180000e0060000300180000e0060003000180;
   0x38e33f8002aaa0e000c3003000718c0c000aaa0600003800c0002260300038301800019c030003fd80e000180c3800038018000060060000c0c0c001ffe06000aaa8180000e0060000300180002e0060007e00180;
   0x38e37f8007fff1c000c70c300031980c001fff07000fffe0c000766c1800fefe1c00070c030003fdc06000181c1800fffe1c0000e0070000c0c0c001ffc07000fff81c003fe00700003001c0007e0070007fc01c0;
   0x38e3318007fff38000e60ff80019b8fe001aeb3f000fffffe000326df800fefffc000e063f800300cfe000183bf800fffffc003fff7f0000c0cfe00180eff000ebabfc003fe07f0000301fc000ee0ff00003f3fc0;
   0x38e331800600070003ff9ffc001d90fe001e6f7f8000381fe000337dfc003831fe001c77bf800300eff003fff3fc005555fe003fff7f8000c0cfe001c6eff800c187fe0015e07f800fffdfe001ce0ff8000073fe0;
   0x38e33980062aaa0003ff980c00fffeaf001a6b018007ffc07003f3780c0038300600783bc1c00300e03003ff800c00000006003803018000c7f870018ee01c00e180060000e001c00fffc070008e001c000030060;
   0x3fff1980067ffe60001c180e00ffff07001b7b01c007ffc03807f1f80e00fefe0700339cc0e00fff70380199c00e007ffc0700383301c000c7f83001dc601e00e1c0070000e001e00f75c078000e001e000030070].
Definition hanzi_rows_218 : list N :=
  [0x3fff198006066060000e000c000fe003001b7b00c0000000300337fe0400fefe0300070e00c00fff701001998004006ab80300383300c000c2e8300198e00c00e0c003001ffe00c00e30c03003fff00c000030030;
   0x1d8006066060030f01fc001df0ff00197b3fc007ffdff0031ffffc003831ff000ff73fc0055d77f00199cdfc00701dff0000307fc00ffdc7f001d867fc0060c3ff001fff7fc00e30dff003fff7fc000031ff0;
   0x1d80063ffe60038fabf80079bcfe001aeb3f8003ff8fe0033e66f800babafe001fffbf80000c7fe000199df8006018fe0000387f800ff9e7e0018067f80060e3fe0018067f800e30dfe0001e07f800fff1fe0;
   0x1fff3980067ffe6001d9fe7001f19f18001fff0c000701c18001be667001fffe3800181f0600000c798001fff860007ffc38003fff8c000ffde18007fff8c0007e70700018070c000fffc300001f00c001fff0700;
   0x1fff31800626666000fc3860008182180000e00c0003ab818001bef62000383038000000060007fe618001ffb060007ff838003fff8c0000c3e18003fff8c0003c38300018060c000fffc300003f00c0001838300;
   0x1d5571800666666000f7307000319c180000e00c0007ffc18001b7f67000383038003fffc60007fe618001d7d060000000380000180c0000c7e18001c060c0000010700018070c000e30c300003f80c0001c30700;
   0x180061800626666001b3b3fc00ba0cff001fff7fc001831ff001a7f7fc000001ff003fbfbfc000676ff0018783fc007ffdff000098ffc000c6eff001c36ffc000007ff001ffe7fc00e30fff0003f8ffc00183bff0;
   0x18007180067ffe6001b9b3fc00fffdff001fff7fc001c71ff001f7f7fc007ff9ff0031317fc000636ff001c7c3fc007ffdff0001dcffc000c2fff001c77ffc007ff7ff001fff7fc00e30fff0006fcffc001c3bff0;
   0x1aaa6180063ffe60033c32e800baeeba0000e02e800aeeaba000e7fea8007ff8ba0033b3ae8000626ba000ced2e8001e00ba0000cc2e8000c0fba000ce6ae8007ff2ba001aae2e800ebaeba000eecae800183aba0;
   0x1fff7d8006018060033f3070003367180000e00c001ffff18000e77e700070003800373706000fff618000edd860000780380000cc0c0000c0d98001dc70c0006030700018070c000fffc30001cee0c0001c18700;
   0x1fff3d80062ba8600333b06000336f98003fff8c000000018000e76e200060003800363606000fff6180006cd86000038038000eee0c0000c0d98000c870c0006030300000030c000ebac30001ce60c0001818300;
   0x71d80063ffc600631b07000337d18003fffcc0007ffd18000c77e70007ff838003c3c060000f061800078d86001fffe38000c660c0000c0d18000c070c0006030700000030c000630c300038e70c0001c18700;
   0x30180060180600038b26000ff3898000c004c0007ff998000e66720007ff938003e3e260000f06d800038cf6000ffff38000c774c0000c0c18003fff0c0006032300000030c0000300300038e38c000181b300;
   0x7007018006018060001e3bf001ff19d8001ddb7c000601df8001f667f0007001f80037f7fe0001b86f80007cefe0000381f8001c377c0000c0c58003fff7c0006037f0000003fc0000301f00030e1fc0001c1ff00;
   0x3003018006fffe60000afde000301cf80019bb3e0006008f8001b666e0006000f80031b1fe0003b8678000ee6de0000380f8001fbbbc000aeacf8000e007c0006033f0000003fe0000303f00000e07c000180df00;
   0x3fff0180077fff6007ffce7000300e7c0031319f0007ffc3c003be6670007ff87c0030300f00071e61c001c7767000038078003ffdde001ffec3c000e001e0007ff1f8000001de0000300780000e01e0001c0e780;
   0x3ffe018007c0006003ff86380030071c003331860007ff80c0031fe638007ff818003e3e03000e0f60c00383b6300003f01c0030f88e000ffec0c0007e00e0007ff038000000ce0000300380000e00e0001806380;
   0x554018003c00060015404100030030000213182000601c040000f461000700008001e1c01000c036040010124100001f00800300802000000c040007c002000603010000000c20000300080000e0020001c04100;
   0x0;
   0x0;
   0x0;
   0x0;
   0x0;
   0x0;
   0x0;
   0x0;
   0x0;
   0xc00e0000470180000000000007003800300c070000dc0380000700e0000180380000300e0002310000000c0000000cc0000001c000000070000000000000000000000000000c0000000700000600000001c0000;
   0xc006000063018003ffdff80003001800300c030000cc01800003006000038018000030060006318ff0000c03fc000cc0ff0000c0ff8000361ff003fff7fc00fffbfe0000000c000fff0600000603f8000180fe0;
   0x3fffff000fff0fc003ffdff8000701f800300c1f0000dc1fc0007f07f0000701fc0000387e0003338ff001fff7fc000cc1ff0001e07fc000771ff003fff7fc00fff9ff003ffcfe001fff070001fff7fc000381fe0;
   0x3fffff000fff9fc00019983800fffbfc0032ffbf8000cc1fc000ff87f0000703fc000018ff0001b30c0001fff300000cc0c00003e0e00000331aa003aab6a800aea980003ff8fe000aea060001aeb31800fffec60;
   0xc073000c79dcc00019dff800fff9cc0037ff998004dc9cc00061c73000fffd8c003ffc730001f30c00000c030000fcfec0000770600005771c0003803700000601800001c0d70000707ff001c6339c00fffec60;
   0x1fff33800edace6002bad838000300ce00320c19800ccd8ce00060c33800fff8ce003ffc33800fffec60000c031800fcfec6000e3863000fff8c60038033180006018e000080e38000307ff001aeb198003838e60;
   0x1fff31c006cfe67003ffdff8000700c700370c0dc00edd8c700030e31c00c01cc7003ffc31c00fffec7001ffe318005cd4c6001c1e63000fff9c6003bfb7180007018c001ff861800fff677001fff19c001870660;
   0xffc003ccfff0000c1ff800fffbff00327fbfe006cf3ff003ffeffc00c01bff00380effc000fc0e6000aea318000cc0c600780f638000318c6003bfb318000f018e001ffbffc00ffe663000060098001c60660;
   0x1ffeffc00387dff0003c0e3800fffbff00377fbfc007df3ff007fffffc00c07fff003807ffc001f70e70000c0318000cc0c6003fff63800071cc6003bfb318001f81c600181fffe00e076770015754dc001ce0760;
   0x1ffec88003879b60023e0e3800f25b26003249a68003ce32200000ec8800006322003807c98007b38e3001fff318000cc0e6000ff863800030cc6003b1b318003f818600181801c00e66663003fffcd8000fc0760;
   0x1c06cd8007031b6003379ffc00d75b3600374db6c001de33600000ccd800007336001bfecd801f31e67001fff31800fcfc660005d0718000700c6003b1b3180077c1c600199951800e67677007fffd9c0007c0660;
   0x1806c8800fff9b6003f3f8fc00dadb26003249a68000cc322001fecc8800206322003bfcc9800c30c630000c039800fcfc660000c061800fffcc6003b1b3180066e0c600199bf9800e666eb000000398003fe0c60;
   0x1ffeff801fffffe001f0cf1800dfdbfe00374dbfc000dc3fe001fecff8007873fe001b0cff8003319ff0055555dc000cc1770001c175801fffdd7003b1b75c00e771d600199bfd800e677ff001fff31c01fcffc60;
   0xe08ff8008005fe0000fff8000ca9bfe00327fbf8001ce3fe00186cff8003e63fe001b0cff800ba19ff003fffff8000cc1fe003ffeff800aee9fe003b1b7f800c673fe00199b19800e667ff000fff31800e01e860;
   0x618cd8000001b60000755f000fffb3600377fb6c007df33600186ccd8001ff336001b0ccd800fffdd50055757fc000cc1ff003fffff8000cc1ff003b1b7fc01c73ffe00199b1d800e67677001c0331c001871c60;
   0x238c8800fff9b6000fffff800fffb2600320c26800fcfb2200186cc880003e322001b0cc980030ed80000038600000cc1800000c0c00000cc180003b1b6000006130000199b19800e66663000c63318001871860;
   0x7fffcd800fffdb6000fffff8000f833600371c36c01ecdf3600186ccd80000f336001bfccd80037c7c000155860001fcffc00005d9c00000cc180003bfb6000007030000199bdd800e67677001c633fc001871de0;
   0x2aaaff8000301fe000e06060000f83fe00323e3f8008ccbfe001e6eff8000063fe001bfcff80032efb8001ffc6c000fcffb0000cd8de0000ce1a0003bfb68000060378001999d9800e66663000c633d8001830f60;
   0x1ffeff8003371fe000ffffe0001fc3fe00307f3fc000ce3fe001e6eff8004073fe00195cff800377fff801ffe7fc000cc1ff001ddcdfc000c61ff00381b7fc0007037f0019d81d800e77677001c631dc001870760;
   0x1ffe00000333000000e06060003be0000030ef000008c600000006e00000c0600000180c00000ff70c380181f63e000cc0cf8018cec3e008c618f80381b63e0006030f8002c2198000b06eb000c63018001830060;
   0x1806f0000731bc0000ffffe0007773c000304db0001cc73c0003066f0000c077c0001c00f0001ff30c000181ff04000cc0c10039c6c04018c71c100381b704000703010007e3ddc003f87ff0015f101c001838060;
   0x1806ff800e31bfe000aaaaa000e33bfe00300dff8008c3bfe002066ff800c063fe001800ff8003038c0001819b00000cc0c00030c6e00018c38c000380330000060380001e70f8c0039c6ab0003f8018001818060;
   0x1ffe1fc01c30c7f003fffffc01c71c7f00300cdfc01dc3c7f0030671fc00ffe07f001c407fc00301cc0001ffc300000cc0e00031c7e0001dc3cc0003d0330001fff980003c3c7cc00f0f607001f1f01c00181c060;
   0x1ffe00c0083ec03003fffff800830803003e0c00c00fc1e03003fe380c007fe003000fc000c00300efc001ff83f0000cc0fe0000f07e000fc1efc003f033f000fff9f800300f0ce00e03800003c07c1800180f060;
   0x18060000003c00000000000000070000001c0c000007c0c00001fc3000001500000007c00000030067c00181c1f0000cc07c0000f07c00078047c001f031f0000000f800200604400401800001001c1c001806060;
   0x0;
   0x0;
   0x0;
   0x0;
   0x0;
   0x0;
   0x0;
   0x0;
   0x0;
   0x77000000000000300300000000007f0000000000000000000000003c00000000000000000000000000000000000000304060000180180000600e00001c1000000060300000070000016064c0000c0000000701700;
   0x3300000000000070038000000003ff8000000000000000200000083f00000000000000000000000000000000000000304060000180180000600e80000c1fe000aab060002aaeaa800360e7c0000c7ffc000303e00;
   0x318000000000006001c000000007fff000060000000000e000003803c00000000000000000000000000000000000003043e60015d4190000f07ec0015f1ffc00fff7ff003fffffc00761c38001577ffc0057c7700].
Definition hanzi_rows_219 : list N :=
  [0x19800000000000e000c00000000f00f8000f0000000000e000007800e0000000000000000000000000000000000000fdfbe6003ffcf98000f07ec001ff99980000dfff00382020c0026007c001ff800c007fe6600;
   0x1dc00000000001c000e00000001c003c00070000000000700000f80070000000000000000000000000000000000000fdf866003ffdf98001f85ec001d59998007ffc18003fffffc00ffcf6f001ffbfec00756fff8;
   0xcc0000000000180006000000038001c00038000000000700000d8003800000000000000000000000000000000000038e0660001c0198001b80ec000818db0000333f8003ffffec00ffcf630018bbfec00206fff8;
   0xc60000000000380007000000070000e0001c02000000070000198001800070700000000000000000000000000000079f7ff0007e01980039cfff801cd9df400ffff58000060600000f0c780019fb06c007360700;
   0x660000000000300003800000060000e0000e0f00001fff8000318000c00070f0000000000000000000000000000007ff7ff000f601980070efff800d9bffc00fffb180007fffe0000b0cfc001bbbfec003660600;
   0x6700000000007000018000000e000070000f1f00001fffc000318600c000707000000000000000000000000000000ff7000001c7dffc00f0f000001d1bffc000fc30c000060600001b3c6f001f3bfec007467ff0;
   0x330000000000e00001c000000e0000300007bc00000c01c00020ce00c000387000000000000000000000000000000f65b0300381fffc01e07603000c187e000b8fbee003fffffc0033bc6300083b06c003067ff0;
   0x338000000001c00000e000000c0000300003f800000e01c00070fe004000383800000000000000000000000000000b25b7700155400000f9f667000f99ff000f07d47003fffffc0071de7c001fbbfec003e66630;
   0x1980000000018000006000000c0000300001e000000e00e000203e006000383800000000000000000000000000000304323003ffe88c0039866300079b9b8000ffff00001c638000e0e4bc000f3abac001e66630;
   0x19c0000000038000007000000c0000300007e000000700700060060060001c1c00000000000000000000000000000fffb37007fffdcc0039c66700001b19c000ffff00007fffe0004041d400003830c000067ff0;
   0x1980000000018000006000000c000030000fe000000700380020078060000c1c00000000000000000000000000000fffb3300180088c00398663002ab818c000c0330003fffff8001ffff800003bfec00aae7ff0;
   0x338000000001c00000e000000c000030001f70000003813c007007e040000c1c00000000000000000000000000000e70337001dfdccc0039c677003ff9ff8000c0f30003d839fc001ffff8003fffffc00ffe7770;
   0x330000000000e00001c000000e000030003c38000003871c00200660c0000e0e000000000000000000000000000006263730019f88cc00398673003aa9ff80007bc3000018f188000c0318003aa98cc00eaa6630;
   0x670000000000700001c000000e00007000781c700001df0c00300670c000060600000000f00000000000000000000477377001d9ddcc0039c6f7003801998000110300001f41c0001c0f18003001dcc00e006630;
   0x6600000000003000038000000600006000600e600000fe0000300260c000060600000001f800000006000000000007e63db001988bec0039c6f3003801998007ffff00000f0180000f9e18003000fcc00e007ff0;
   0xc60000000000380007000000070000e000200f600000f8000018006180000707000000030c0000000f000000000007f73df001d9df6c0039c79f003ffdff8007ffff0000ffffc0000510180037fdf0c00fff7ff0;
   0xcc0000000000180006000000038001c0000007600001e000000c00c38000000000000003060000001e0000000000002738b0019f8a3c0038c79b003bfdbb800600000000ffff80007ffff8003ffffec00eff6630;
   0x1dc00000000001c000e00000001c003c0000007e00007c000000e01870000000000000003040000003c0000000000007f30f001dfdc3c0038c6070018019980067ffff000dffff0007ffff80038030fc006006630;
   0x19800000000000e000c00000000f00f80000003e0000780000007008e00000000000000030c000000780000000000002fba3001808a8c0038e7a30018019980067ffff000cffff80067ffff00380000c006006630;
   0x318000000000006001c000000007fff00000001e0000700000003c0fc00000000000000019c000000f000000000001ffdbff001c15ffc003877ff001801ff800700000000e000000067ffff001807ffc006006630;
   0x3300000000000070038000000003ff800000000e0000000000000fc700000000000000000f80000006000000000000ff9f0f001f808bc00383e2f001f80ab8003f00000007c0000007e0000001f07ffc007e07e30;
   0x77000000000000300300000000007f000000000400000000000003c000000000000000000700000000000000000000fc0900000f0140000383400000f80018001f00000007c0000003c0000001f00000003e07e30;
   0x0;
   0x0;
   0x0;
   0x0;
   0x0;
   0x0;
   0x0;
   0x0;
   0x2001000000000000000000000000000000000200000000000000000000000000000000000000000000000000000000000000000000000000000000000;
   0x180000600000000000000000007f807f8000000000007003c00000000001ff807fe00000000000300300000000000000000000000000000ff007fc000000000000007ff000000000000007fc0000000000318;
   0x1e0000e00000000000000000006e802b8000000000019002600000000001060018200000000000f003c00000002aaaaa000000000000000fe001fc00000000000000602000000000000007fc0000000000330;
   0x1f0003e000000000000000000066001d80000000000718063800000000010c000c200000000001c001f00000007ffffe000000000000000fe001fc000000000000006030000000000000000c0000000000770;
   0x380078000000000000000000066000980000000000c30030c00000000010800062000000000038000780000007ffffe0007fffe0000000fc000fc000000000000007f20000000000000000c0000000000660;
   0x1c00e0000000000000000000066001d800000000008e001c400000000011000032000000000070000380000007ffffe0007fffe0000000fc0007c000000000000000130000000000000000c0000000000460;
   0x1840086000000000000000000066000980000000000980006400000000012000012000000000030000380000007ffffe0007fffe0000000f80007c000000000000000120000000000000000c0000000000cc0;
   0x1c0001e000000000000000000066001d80000000000980006400000000012000012000000000070000380000007ffffe000000000000000f00007c000000000000000130000000000000000c0000000001cc0;
   0xf0003e00000000000000000006600098000000000098000240000000001200000a000000000030000380000007ffffe000000000000000f00003c0000000003e0000120000000000800000c0000000001980;
   0x7c0078000000000010000000066001d8000000000098000640000000001400000a000000000070000380000007ffffe000000000000000f00003c000000000330000130000000000c00000c0000000001980;
   0x1c00e00000000000fe00000006600098000000000098000240000000001400000a000000000030000380000007ffffe0007fffe0000000f00003c000000000320000120000000000c00000c0000000003300;
   0x400c00000001003ff000000066001d8000000000098000640000000001400000a000000000070000380000000000000007fffe0000000f00003c000000000330000130000000000c00000c0000000007300;
   0x38078780000006600098000000000098000240000000001400000a00000000003000038000000000000000006000000000e00003c000000000320000120000000000c00000c0000000006600;
   0x3c0f01c00000066001d8000000000098000640000000001400000e00000000007000038000000000000000007000000000f00001c000000000330000130000000000c00000c0000000006600;
   0x1e3e00e0000006600098000000000098000240000000001400000a00000000003000038000000000000000006000000000e00003c000000000320000120000000000c00000c0000000006600;
   0xffc00800000066001d8000000000098000640000000001400000a00000000007000038000000000000000007000000000f00003c000000000330000130000000000c00000c0000000007300;
   0x3f00000000006600098000000000098000240000000001400000a000000000030000380000007ffffe000006000000000f00003c000000000320000120000000000c00000c0000000003300;
   0x66001d8000000000098000640000000001400000a000000000070000380000007ffffe000007000000000f00003c000000000330000130000000000c00000c0000000001980;
   0x6600098000000000098000240000000001200000a000000000030000380000007ffffe000006000000000f00003c0000000003200001e0000000000c0000080000000001980;
   0x66001d80000000000980006400000000012000012000000000070000380000007ffffe000007000000000f00007c000000000330000000000000000c0000000000000001cc0;
   0x66000980000000000980006400000000012000012000000000030000380000007ffffe000006000000000f80007c000000000320000000000000000c0000000000000000cc0;
   0x66001d800000000008e001c400000000011000032000000000070000380000007ffffe000007000000000fc0007c000000000335000000000000000c0000000000000000460;
   0x66000980000000000c30030c00000000010800062000000000038000780000007ffffe000006000000000fc000fc00000000033f800000000000000c0000000000000000660;
   0x66001d80000000000718063800000000010c000c200000000001c001f00000007ffffe000007000000000fe001fc000000000301800000000000000c0000000000000000770;
   0x6e802b8000000000019002600000000001060018200000000000f003c00000002aaaaa000000000000000fe001fc000000000300800000000000000ff800000000000000330;
   0x7f807f8000000000007003c00000000001ff807fe00000000000300700000000000000000000000000000ff007fc0000000003ff800000000000000ff800000000000000318;
   0x2001000000000000000000000000000000000200000000000000000000000000000000000000000000000000000000000000000000000000000000000;
   0x0;
   0x0;
   0x0;
   0x0;
   0x0;
   0x0;
   0x0].
Definition hanzi_rows_220 : list N :=
  [0x80000000000000f00000000000000000000000018000000000000001e380000000000000000000;
   0x600000000000000000000000000000000000000000000000000000001c01c0000000000f00000000000000000000000018000000000000001e780000000000000000000;
   0x300000000000000000000000000000000000000000000000000000001800e0000000000e00000000000000000000000018000000000000001e380000000000000000000;
   0x700000001c0000000000000001c000018000000000000000000000000000000000004000000018000000000380070000000000700000001c000001c01e000001c000000418000001c7800000001c0000000000;
   0x3fe000000ff8000000f0000000ff00000c000000000000000000000000000000000006000000018000000000300038000000000600000003f000000c03f00000ff000000618000000c3800000001c0000000000;
   0x7ff000001ffc000000ff000001ff800006000000000000000000000000000000000006000000018000000000700018000000000700000007f800000607380003ffc0000061c000001c3000000001c0000000000;
   0xe07800003c1e000000fe000003c3c00003000000000000000000000000000000000006000000018000000000e000180000000006000000061c0000060618000783c00000608000000c3000000001c0000000000;
   0xe0180000380f000000e000000381c00001800000000000000000000000000000000006000001018000000000e0001c0000000006000000061c0000030e1c000301e0000061c000000c3000000001c0000000000;
   0xe00000003800000000e000000700e00000c00000000000000000000000000000000006000001818180000000c0000c0000000006000000060c0000038e18000000e00002eaea00000c3000000001c0000000000;
   0xc00000007000000000e000000700e00000600000000000000000000000000000000006000001e18780000001c0000c0000000000000000071c0000018c1c000000e00007fffe0000000000000001c0000000000;
   0xe00000003800000000e000000700e00000300000000000000000000000000000000006000000799e00000001c0000e000000000000000003980000008e18000001e00002eaea0000000000000001c0000000000;
   0x700000003800000000e0000007007000001800000000000000000000000000000000060000001ffc00000001c0000e000000000000000001f8000078ce1c000007c0000070c00000000000000001c0000000000;
   0x3f8000003800000000e0000006006000000c00000000000000aaaaa000000000000aaeaa00000ff00000000180000e000000000000000000f80000fce61800003f80000020c00000000000000000c0000000000;
   0x1f8000001c00000000e0000007007000000600000000000000fffff000000000000fffff000007c000000001c000060000000000000001c0780001ce67380000ff00000070c00000000000000001c0000000000;
   0x7f8000000e00000000e0000006006000000300000000000000fffff000000000000fffff00000ff00000000180000e0000000000000000c0fe00018633f00003f800000030e00000000000000000c0000000000;
   0xf00000000f00000000e0000007007000000180000000000000000000000000000000060000001ffc00000001c0000e0000000000000000e1cf00018731e00007c000000030600000000000000001c0000000010;
   0xe00000000780000000e000000600e0000000c000000000000000000000000000000006000000799e00000001c0000e0000000000000000e3870003831800000780000003fffe0000000000000000c0000000070;
   0x1c000000003c0000000e000000700e00000006000000000000000000000000070000006000001e18780000001c0000e000000000000000077070003871800000700000007fffe0000000000000000400000001f0;
   0x1c000000001e0000000e000000700e00000003000000000000000000000000078000006000001818180000000c0000c00000000000000007e038003830c0000060000000030600000000000000000000000003c0;
   0x1c018000000f0000000e000000701e00000001800000003000000000000000078000006000001018000000000e0001c00000000000000003c030001870c000007006000003060000000000000000000000000700;
   0xe03c00000078000000e000000381c00000000c000000078000000000000000f8000006000000018000000000e0001800000000000000007c070001860600000700e0000038600000000000000000c0000000610;
   0xf07800007ffc000015f5000001c7c00000000600000007c000000000000000700000060000000180000000007000180000000000000001ff1f0001ce07000007f7e0000018700000000000000001e0000000070;
   0x7ff000007ffe00001fff800000ff8000000003000000078000000000000000600000060000000180000000003000380000000000000001e7fe0000fc03000001ff80000018200000000000000001e00000000e0;
   0x1fc000007ffe00001fff8000007f0000000001800000030000000000000000700000060000000180000000003800700000000000000001c3fc000078030000007f00000018700000000000000001c00000007c0;
   0xc00000000000000000000000380000000000000000000000001800e00000000000000000000000000000000000180000000000000000000000000000000000780;
   0x6000000000000000000000001c0000000000000000000000001c01c00000000000000000000000000000000000180000000000000000000000000000000000600;
   0x80000000000000000000000000800000000000000000000000000000000000000180000000000000000000000000000000000000;
   0x0;
   0x0;
   0x0;
   0x0;
   0x0;
   0x0;
   0x0;
   0x0;
   0x1fc000000000000000000000000000000000000000000000000000000000000000000000000000000000000000000000000000000000;
   0x3ff000000000000000000000000000000000000000000000000000000000000000000000000000000000000000000000000000000000;
   0x1c000000000000000000000000000000001c00000000000000000000000fc7c00000007f000000004000000000003000000000000000000000000000700000001c0000000000000007000000000000000000000;
   0xff800000fffc00001fff0000003ff00000ff8000000ffe000000f000001c00e0000000ff80000003c000000000003800000000000000000000000001fe000000ff000001fff800001fe000000fff000001e0000;
   0x3ffe00000fffc00001fff000001fff00003ffe000003ffe000000f00000380070000001f7c0000007c000000000001f00000000000000000000000007ff000001ffc00001fff800007ff000000fff000001f0000;
   0x380f00000001c00000007000003e070000381f00000780e000000f80000300038000001c0e000001e0000000000000f8000000000080000000200000f0700000381c00000c0000000307800000007000001b0000;
   0x100780000001c000000070000078070000100700000700e000001d8000070001c000001c04000007c00000000000001f0000000001e0000000780000e0380000701c00000e0000000203c00000007000001f8000;
   0x3c0000001c0000000700000f0070000000380000600e0000019c000061bc0c000001c0000001e000000000000000f8000000001e0000000780000e0380000300e0000070000000001c00000003000001dc000;
   0x1c0000001c0000000700000e00700000003c0000700e0000039c000061ff0e000001c0000007c00000fffff000001f000000001e0000000780001c0180000700c0000070000000001c00000007000001dc000;
   0x1e0000001c0000000700000e00700000001c0000700e0000038c000061c70e000000e000001e000000fffff000000f800000000c0000000300001c0380000301c0000038000000000e00000003000001ce000;
   0x1e0000001c0000000700001c00700000001c0000780e0000070e000061c386000000f000007c000000555550000003f0000000000000000000001c0380000383c000001c00000007ce000001ff000001c7000;
   0xe0000001c000007ff00001c00700000001c00003ffe0000070e000060c186000000380001e0000000000000000000f8000000000000000000001e03800001cf8000001c0000001fee000007ff000001c3800;
   0x7f80e00003ffc000007ff00001c00700000001c00003ffe00000707000060c1c70000003c0007c00000000000000000003e000000000000000000001f07000000ff0000000e0000003ffe00000f07000001c3c00;
   0x3f80e00003ffc000002af00001c00700000001c00007eae00000e07000060c1860000001c0003e000000000000000000078000000000000000000001fff000001fb8000000e000000383e00000e00000001c1c00;
   0x7f80e0000001c0000000700001c00700000001c0000f00e00000f57000070c1c70000000c00007c000000fffff0000001f0000000000000000000001dfe000003c1c000000e000000701e00001c00000001c0e00;
   0x3000e0000001c0000000700000e00700000001c0000e00e00000fff800038e1860000000e00003e000000fffff000000780000000000000000000001c2000000780e0000006000000600e00001c0000000fffe00;
   0x7001c0000001c0000000700000e00700000001c0001c00e00001fff80001dff860000000400000fc00000fffff000001f00000000000000000000001c000000070060000007000000700e00001c0000000ffff00;
   0x3001c0000001c0000000700000e0070000000380001c00e00001c0380000f9f0e00000000000003e00000000000000078000000001c0000000000000e000000060060000007000000600e00001c0000000beaa00;
   0x7003c0000001c000000070000070070000000780001c00e00001c01c00007040e00000000000000fc00000000000001f0000000003e0000000000000e000000070060000007000000701c00001c00800001c0000;
   0x300780000001c000000070000078070000300f00000e00e00003801c00000000c0000000c0000003e00000000000007c0000000003e000000078000070100000700e0000003000000701c00000e01800001c0000;
   0x7d7f00000001c00001fff000003fff00007d7f00000fd5e00003801e00000001c0000001e0000000f8000000000001f00000000003c00000007800007c7800007c1c00000070000003c7c00000fc7c00001c0000;
   0x3ffe00000001c00003fff000000fff00003ffc000003ffe00007800e0000000380000001e00000003e000000000003c00000000003000000007800003ff000003ff800000038000001ff0000003ff000001c0000;
   0xff800000001c00003fff0000003ff00000ff0000001ffe00007000f00001c1f00000001c00000000c000000000003000000000003800000007000001fe000000ff000000078000000fe0000001fc000001c0000;
   0xffc00000000000000000000000000000000000000000180000000000000000000000000000000000000000000000000000000000000;
   0x7f0000000000000000000000000000000000000000001c0000000000000000000000000000000000000000000000000000000000000;
   0xe0000000000000000000000000000000000000000000000000000000000000;
   0x70000000000000000000000000000000000000000000000000000000000000;
   0x0;
   0x0].
Definition hanzi_rows_221 : list N :=
  [0x0;
   0x0;
   0x0;
   0x0;
   0x0;
   0x7f80000000000000000000000000000000000000000000000000000000000000000000000000000000000000000000000000000000000000000000000000000000000000000000000000000000000000000000000;
   0x2b80000000000000000000000000000000000000000000000000000000000000000000000000000000000000000000000000000000000000000000000000000000000000000000000000000000000000000000000;
   0x380000000000000000000000000000000000000000000000000000000000000000000150000000000000000700000000000000007000000000000000000000000000000000000000000000000000000000000000;
   0x380000000fffe00003801c0000e00e000700e00e001c00380003801c0000ffff800007fc000001ffe000003fe000000ffe000003fe00000e0070000f000e000000180000380380000180000001fff80000e00700;
   0x380000000fffe00001c03c0000700e000700f01e001e00700003801c0001ffff80001fff000007ffe00001fff000007ffe00001fff00000e00f0000f801f0000001c00001c03800001c0000001fff80000e00700;
   0x380000000700000001c0380000381c000380f01c000e00700003801c0000018000001e0f00000780e00001e0f80000780e00001e0f80000e00f0000f801e0000001800000e038000018000000006000000e00700;
   0x380000000380000000e07000003c1c000381f01c000e00700003801c000001c00000080780000f00e00003c03c0000f00e00003c03c0000e01f0000fc01f0000001c00000703800001c000000007000000e00700;
   0x3800000003c0000000e07000001c38000381f81c000700e00003801c000001800000000380000e00e00003801e0000e00e00007801e0000e03b0000fc03e00000018000003838000018000000006000000e00700;
   0x3800000001c000000070e000001e70000181f81c000700e00003801c000001c00000000380000e00e00007000e0000e00e00007000e0000e0770000ec0370000001c000001c3800001c000000007000000e00700;
   0x3800000000e000000030e000000e700001819838000300e00003801c000001800000000780000e00e00007000e0000e00e00007000e0000e0730000ee07600000018000000e38000018000000006000000e00700;
   0x38000000007000000039c0000007e00001c39c38000381c00003801c000001c00000001f00000f00e0000f00070000e00e0000f00070000e0e70000e60770000001c00000073800001c000000007000000e00700;
   0x3800000000380000003980000003c00001c39c38000381c00003801c00000180000000fe00000780e0000e00070000f00e0000e00070000e1e30000e60e600000018000000fb8000018000000006000000ffff00;
   0x38000000003c0000001f80000003c00001c31c300001c1c00003801c000001c0000007fc000007ffe0000e000700007d5e0000e00070000e1c70000e70e70000001c000001ff800001c000000007000000ffff00;
   0x38000000001c0000000f00000003c00000e30c300001c3800003801c0000018000000fe0000001ffe0000e000700003ffe0000e00070000e3830000e30c600000018000003df8000018000000006000000eaaf00;
   0x38000000001e0000000f00000007e00000e70e700001c3800003801c000001c000001f0000000075e0000f000700000ffe0000e00070000e7070000e39c70000001c0000038f800001c000000007000000e00700;
   0x38000000000f000000060000000e700000e60e700000e3000003801c0000018000003c00000000e0e0000e000e0000000e0000e000e0000e7030000e198600000018000007878000018000000006000000e00700;
   0x380000000007000000070000000e7000006606700000e7000003801c000001c000003800000001e0e00007000e0000000e00007000e0000ee070000e1f870000001c00000703800001c000000007000000e00700;
   0x380000000003800000060000001c3800006e06e00000e7000003801c0000018000003800000001c0e00007000e0000000e00007000e0000fe030000e0f860000001800000e038000018000000006000000e00700;
   0x380000000001c00000070000003c1c00007e07e000007e000003c03c000001c00000380180000380e00007801c0000000e00007801c0000dc070000e0f070000001c00001c03800001c040000007000000e00700;
   0x380000000000e0000006000000381c00007e03e000007e000001c0380000018000003c0380000780e00003c03c0000000e00003c03c0000f8030000e0f060000001800003c03800001c0e0000006000000e00700;
   0x380000000ffff0000007000000700e00007c03c000007c000001f5f8000001c000001f5fc0000700e00001f0f80000000e00001f5f80000f0070000e060700007ffc00003803800001f7e00001fff80000e00700;
   0x380000000ffff0000006000000f00f00003c03c000003c000000ffe00000018000000fff00000e00e00000fff00000000e00000fff00000f0030000e00060000fff800007803800000ffc00001fff80000e00700;
   0x380000000ffff0000007000000e00700003c01c000003c0000003fc0000001c0000007fc00001c00e000003fc00000000e000003fc00000e0070000e00070000fffc000070038000007f000001fff80000e00700;
   0x2b80000000000000000000000000000000000000000000000000000000000000000000000000000000000000e00000000000000000000000000000000000000000000000000000000000000000000000000000000;
   0x7f80000000000000000000000000000000000000000000000000000000000000000000000000000000000001e00000000000000000000000000000000000000000000000000000000000000000000000000000000;
   0xffc00000000000000000000000000000000000000000000000000000000000000000000000000000000;
   0xff000000000000000000000000000000000000000000000000000000000000000000000000000000000;
   0xfc000000000000000000000000000000000000000000000000000000000000000000000000000000000;
   0x0;
   0x0;
   0x0;
   0x78000000000000001800000000000000000000;
   0xf0000000000000007c00000000000000000000;
   0xc0000000000000006e00000000000000000000;
   0x1c000000000000000c7000000001fe000000018;
   0x1c0000000070000002000000006000000000e0000000000000fe00000000000000070000000000000000000e000000000000000000000000000000000000000000ea000000030;
   0x1c000000007000000f00000000f000000000e0000000000001ff00000000000000070000000000000000000e000000000000000000000000000000000000000001c0000000060;
   0x1c000000007000000f00000000f000000000e00000000000008380000000000000070000000000000000000e000000000000000000000000000000000000000000c00000000c0;
   0x1c000000007000000700000000f000000000e000000000000001c0000000000000070000000000000000000e000000000000000000000000000000000000000001c0000000180;
   0x1c0000000070000000000000000000000000e000000000000001c0000000000000070000000000000000000e000000000000000000000000000000000000000000c0000000300;
   0x1c0000000070000000000000000000000000e000000000000001c0000000000000070000000000000000000e000000000000000000000000000000000000000001c0000000600;
   0x200000020020000001c0000000070000000000000000000000020e000000000000001c0000000000000070800000000000000000e000000000000000000000000000000000000000000c0000000c00;
   0x3fc000001fce0000fe3f9c00001c000001c0700000070000000070000001fce00003ffc000007ffc000007fc0000077f0000007f8000001fee000003fc0000000000000000000000000000000001c0000001800;
   0x7fe000003fee0001ff3ff800001c000000e0700000070000000060000003fee00003ffe000007ffc00000ffe000007ff800000ffc000003ffe000007ff0000000000000000000000000000000000c0000003000;
   0xf0f000007c7e0001c3f8fc00001c00000070700000070000000070000007c7e000007070000001c000001e0f000007c3c00001c1e000007c7e00000f070000000000000000000000000000000001c0000006000;
   0x1e0380000781e000380f03800001c0000003870000007000000006000000781e00000e030000001c000001c0780000700e0000080f00000700e00000e020000000000000000000000000000000000c000000c000;
   0x1c03c0000700e000380701c00001c0000001c70000007000000007000000700e00000e030000001c000001c0380000700f0000000700000f00e00001c000000000000000000000000000000000001c0000018000;
   0x3801c0000700e000380601800001c0000000e70000007000000006000000700e00000e038000001c0000038038000070070000000380000e00e00001e800000000000000000000000000000000000c0000030000;
   0x3801c0000700e000380701c00001c0000000f70000007000000007000000700e00000e070000001c000003fffc000070070000000380000e00e00001ff80000000000000000000000000000000001c0000060000;
   0x3801c0000700e000380601800001c0000001ff0000007000000006000000700e0000070f0000001c000003fff8000070070000000380000e00e00001cfe0000000000000000000000000000000000c00000c0000;
   0x3801c0000700e000380701c00001c0000001df0000007000000007000000700e000007fe0000001c000000001c000070070000000380000e00e00001c0f0000000000000000000000000000000001c0000180000;
   0x3801c0000700e000380601800001c00000038f0000007000000006000000700e000001fe0000001c0000000038000070070000000380000e00e00001c038000000000000000000000000000000000c0000300000;
   0x1c03c0000700e000380701c00001c0000007070000007000000007000000700e000000030000001c00000000380000700f0000000700000700e00001c038000000000000000000000000000000001c0000600000;
   0x1e0380000700e000380601800001c000000e070000007000000006000000700e000000030000001c00000000780000780e0000080f00000780e00001e038000000000000000000000000000000000c0000c00000;
   0xf1f00000700e000380701c00047c000001e070000007000000007000000700e000000070000001c000001c1f000007c3c00001c1e000003c7e00001fc78000000000000000000000000000000001c0001800000;
   0x7fe00000700e00038060180007f8000001c070000007000000006000000700e00000fff0000001c000001ffe000007ff800000ffc000001ffe00001fff0000000000000000000000000000000000c0003000000;
   0x1fc00000700e000380701c0007f00000038070000007000000007000000700e00003fff0000001c0000007f80000077f0000007f0000000fe600001cfe0000000000000000000000000000000001c0006000000;
   0x70000000000000000000000038038000000000000000000000000000000000000000000000000000000000000000000000000000000000000ea00c000000;
   0x70000000000000000000000038018000000000000000000000000000000000000000000000000000000000000005555555000000000000001fe018000000].
Definition hanzi_rows_222 : list N :=
  [0x7000000000000000000000003801800000000000000000000000000000000000000000000000000000000000000fffffff00000000000000000000000000;
   0x7860000000000000000000001c03800000000000000000000000000000000000000000000000000000000000000000000000000000000000000000000000;
   0x3fe0000000000000000000000f8f800000000000000000000000000000000000000000000000000000000000000000000000000000000000000000000000;
   0x1ff00000000000000000000007ff000000000000000000000000000000000000000000000000000000000000000000000000000000000000000000000000;
   0x2000000000000000000000000f8000000000000000000000000000000000000000000000000000000000000000000000000000000000000000000000000;
   0x0;
   0x0;
   0x0;
   0x200000000000000000000000000a000018000020000000000000000000000000000000000000000000000000000000000000000000000000000000000000000000000000000;
   0x730073000000000000000000003e00001800007c000000000000000000000000000000000000000000000000000000000000000000000000000000000000000000000000000;
   0x660039800000000000000000003800001800000c000000000000000000000000000000000000000000000000000000000000000000000000000000000000000000000000000;
   0xe6001dc00000000000000000003000001800000c000000000000000000000000000000000000000000000000000000000000000000000000000000000000000000000000000;
   0xcc000cc00000000000000000003000001800000c000000000000000000000000000000000000000000000000000000000000000000000000000000000000000000000000000;
   0x1dc000c600000000000000000007000001800000c0000000000000000000000000000000000000000000000000000000000000e0000000000000000000000000000000000000;
   0x1980006600000000000000000003000001800000c0000000000000000000000000000000000000000000000000000000000000e0000000000000000000000000000000000000;
   0x1980006700000000000000000003000001800000c0000000000000000000000000000000000000000000000000000000000000e0000000000000000000000000000000000000;
   0x3380003300000000000000000003000001800000c0000000000000000000000000000000000000000000000000000000000000e0000000000000000000000002000000020000;
   0x3300003300000000004000000003000001800000c000000007ffc00001c01c0000781c0001c0f01c000700700001c03800007ffe000007fc000007f3800001dfc000001fee00;
   0x330000330000000003f800000003000001800000c000000003ffc00001c0380000381c000180f038000700e00000c03800007ffe00000ffe000007fb800001ffe000003ffe00;
   0x33000033000000400ffc00000007000001800000c000000003c0000001c07800001c380001c0f038000700e00001c038000000e000000e070000043f800001f0f000007c7e00;
   0x33000033000000e01e1e0000000e000001800000e000000001c0000000e07000000e700000c0f838000381c00000c038000000e0000000030000000f800001c0380000700e00;
   0x33000033000000f03c070000001c0000018000007800000000e0000000e07000000e700000c1d870000381c00001c038000000e00000000700000007800001c03c0000f00e00;
   0x3300003300000078f8038000000e000001800000e80000000070000000e0e0000007e00000e19870000183800000c038000000e00000000f00000003800001c01c0000e00e00;
   0x330000330000003ff00200000007000001800000c0000000007800000070e0000007c00000e19c700001c3800001c038000000e0000001fe00000003800001c01c0000e00e00;
   0x330000330000000fc00000000003000001800000c0000000003c00000070c0000003c00000639ce00000c3800000c038000000e0000007f800000003800001c01c0000e00e00;
   0x3300003300000000000000000003000001800000c0000000001e00000031c0000007e00000731ce00000e7000001c038000000e000000fc000000003800001c01c0000e00e00;
   0x3380003300000000000000000003000001800000c0000000000e0000003980000007600000730ce00000e7000000c038000000e000001e0000000003800001c01c0000e00e00;
   0x1980007700000000000000000003000001800000c000000000070000001b8000000e700000770fc0000067000001c038000000e000001c0000000003800001c03c0000700e00;
   0x1980006600000000000000000003000001800000c000000000038000001b8000001c3800003e07c000007e000000e038000000e000001c0100000003800001e0380000780e00;
   0x1dc000c600000000000000000007000001800000c00000000555c000001f0000003c1c00003e07c000007e000001fcf0000041c000001f0780000003800001f0f800003c7e00;
   0xcc000cc00000000000000000003000001800000c000000007ffe000000e000000381c00001e078000003c000000dff000007fc000000fff00000003800001fff000001ffe00;
   0xe6001dc00000000000000000003000001800000c000000007ffe000000e000000700e00001c078000003c000001cfe000007f80000007fc00000003800001dfc000000fee00;
   0x660039800000000000000000003800001800000c000000000000000000e000000000000000000000000000000000000000000000000000000000000000001c0000000000e00;
   0x730073000000000000000000003e00001800007c0000000000000000007000000000000000000000000000000000000000000000000000000000000000001c0000000000e00;
   0x20000000000000000000000000020000180000200000000000000000007000000000000000000000000000000000000000000000000000000000000000001c0000000000e00;
   0x3c00000000000000000000000000000000000000000000000000000000000000001c0000000000e00;
   0x1f80000000000000000000000000000000000000000000000000000000000000001c0000000000e00;
   0xf80000000000000000000000000000000000000000000000000000000000000001c0000000000e00;
   0x0;
   0x0].
(** codegen/src_data/hanzi_core2020_g.png: 682 columns, 14248 rows *)
Definition hanzi_width : N := 682.
Definition hanzi_rows : list N :=
  concat [hanzi_rows_0; hanzi_rows_1; hanzi_rows_2; hanzi_rows_3; hanzi_rows_4; hanzi_rows_5;
    hanzi_rows_6; hanzi_rows_7; hanzi_rows_8; hanzi_rows_9; hanzi_rows_10; hanzi_rows_11;
    hanzi_rows_12; hanzi_rows_13; hanzi_rows_14; hanzi_rows_15; hanzi_rows_16; hanzi_rows_17;
    hanzi_rows_18; hanzi_rows_19; hanzi_rows_20; hanzi_rows_21; hanzi_rows_22; hanzi_rows_23;
    hanzi_rows_24; hanzi_rows_25; hanzi_rows_26; hanzi_rows_27; hanzi_rows_28; hanzi_rows_29;
    hanzi_rows_30; hanzi_rows_31; hanzi_rows_32; hanzi_rows_33; hanzi_rows_34; hanzi_rows_35;
    hanzi_rows_36; hanzi_rows_37; hanzi_rows_38; hanzi_rows_39; hanzi_rows_40; hanzi_rows_41;
    hanzi_rows_42; hanzi_rows_43; hanzi_rows_44; hanzi_rows_45; hanzi_rows_46; hanzi_rows_47;
    hanzi_rows_48; hanzi_rows_49; hanzi_rows_50; hanzi_rows_51; hanzi_rows_52; hanzi_rows_53;
    hanzi_rows_54; hanzi_rows_55; hanzi_rows_56; hanzi_rows_57; hanzi_rows_58; hanzi_rows_59;
    hanzi_rows_60; hanzi_rows_61; hanzi_rows_62; hanzi_rows_63; hanzi_rows_64; hanzi_rows_65;
    hanzi_rows_66; hanzi_rows_67; hanzi_rows_68; hanzi_rows_69; hanzi_rows_70; hanzi_rows_71;
    hanzi_rows_72; hanzi_rows_73; hanzi_rows_74; hanzi_rows_75; hanzi_rows_76; hanzi_rows_77;
    hanzi_rows_78; hanzi_rows_79; hanzi_rows_80; hanzi_rows_81; hanzi_rows_82; hanzi_rows_83;
    hanzi_rows_84; hanzi_rows_85; hanzi_rows_86; hanzi_rows_87; hanzi_rows_88; hanzi_rows_89;
    hanzi_rows_90; hanzi_rows_91; hanzi_rows_92; hanzi_rows_93; hanzi_rows_94; hanzi_rows_95;
    hanzi_rows_96; hanzi_rows_97; hanzi_rows_98; hanzi_rows_99; hanzi_rows_100; hanzi_rows_101;
    hanzi_rows_102; hanzi_rows_103; hanzi_rows_104; hanzi_rows_105; hanzi_rows_106; hanzi_rows_107;
    hanzi_rows_108; hanzi_rows_109; hanzi_rows_110; hanzi_rows_111; hanzi_rows_112; hanzi_rows_113;
    hanzi_rows_114; hanzi_rows_115; hanzi_rows_116; hanzi_rows_117; hanzi_rows_118; hanzi_rows_119;
    hanzi_rows_120; hanzi_rows_121; hanzi_rows_122; hanzi_rows_123; hanzi_rows_124; hanzi_rows_125;
    hanzi_rows_126; hanzi_rows_127; hanzi_rows_128; hanzi_rows_129; hanzi_rows_130; hanzi_rows_131;
    hanzi_rows_132; hanzi_rows_133; hanzi_rows_134; hanzi_rows_135; hanzi_rows_136; hanzi_rows_137;
    hanzi_rows_138; hanzi_rows_139; hanzi_rows_140; hanzi_rows_141; hanzi_rows_142; hanzi_rows_143;
    hanzi_rows_144; hanzi_rows_145; hanzi_rows_146; hanzi_rows_147; hanzi_rows_148; hanzi_rows_149;
    hanzi_rows_150; hanzi_rows_151; hanzi_rows_152; hanzi_rows_153; hanzi_rows_154; hanzi_rows_155;
    hanzi_rows_156; hanzi_rows_157; hanzi_rows_158; hanzi_rows_159; hanzi_rows_160; hanzi_rows_161;
    hanzi_rows_162; hanzi_rows_163; hanzi_rows_164; hanzi_rows_165; hanzi_rows_166; hanzi_rows_167;
    hanzi_rows_168; hanzi_rows_169; hanzi_rows_170; hanzi_rows_171; hanzi_rows_172; hanzi_rows_173;
    hanzi_rows_174; hanzi_rows_175; hanzi_rows_176; hanzi_rows_177; hanzi_rows_178; hanzi_rows_179;
    hanzi_rows_180; hanzi_rows_181; hanzi_rows_182; hanzi_rows_183; hanzi_rows_184; hanzi_rows_185;
    hanzi_rows_186; hanzi_rows_187; hanzi_rows_188; hanzi_rows_189; hanzi_rows_190; hanzi_rows_191;
    hanzi_rows_192; hanzi_rows_193; hanzi_rows_194; hanzi_rows_195; hanzi_rows_196; hanzi_rows_197;
    hanzi_rows_198; hanzi_rows_199; hanzi_rows_200; hanzi_rows_201; hanzi_rows_202; hanzi_rows_203;
    hanzi_rows_204; hanzi_rows_205; hanzi_rows_206; hanzi_rows_207; hanzi_rows_208; hanzi_rows_209;
    hanzi_rows_210; hanzi_rows_211; hanzi_rows_212; hanzi_rows_213; hanzi_rows_214; hanzi_rows_215;
    hanzi_rows_216; hanzi_rows_217; hanzi_rows_218; hanzi_rows_219; hanzi_rows_220; hanzi_rows_221;
    hanzi_rows_222].
